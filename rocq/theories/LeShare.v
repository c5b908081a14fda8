(** The low entropy codec in steps: a table made for some data, written, read and used for other data. *)
From Coq Require Import Permutation.
From Verif Require Import Base Simd Spec Spec2 ExtModel LeModel LeTable LeDec LeEnc LeThm.

(** *** Specification *)

(** rle8_low_entropy_get_compress_info (or _only_max_frequency) of A gives the table [info];
    rle8_low_entropy_compress_with_info (or _short_) with it turns the [n] bytes B into [body]; then, wherever
    rle8_low_entropy_write_compress_info's bytes and the body are, and whatever the processor:
    rle8_low_entropy_read_decompress_info reads exactly these bytes and rle8_low_entropy_decompress_with_info
    (or _short_) with what was read restores B and writes nothing else. *)
Definition Restored (L : Z) (info : leinfo) (body : list Z) (B : mem) (n : Z) : Prop :=
  forall C p C' pb M q c, holds C p (write_info info) -> holds C' pb body ->
    0 <= pb -> pb + len body < 2 ^ 64 -> 0 <= q -> q + n + 1024 < 2 ^ 64 ->
    let '(rle, stc, k) := read_info C p in
    k = len (write_info info) /\
    exists M', le_decode L c rle stc C' pb (pb + len body) M q n = DRet n M' /\
      slice M' q n = slice B 0 n /\ (forall x, x < q \/ q + n <= x -> M' x = M x).

(** *** Proofs *)
Lemma ser_pos L rle stc s o : Ser L rle stc s o -> 0 < len o -> 0 < len s.
Proof. destruct 1 as [|b s o Hb Hr HS|b c s o Hb Hc Hr Hs HS]; rewrite ?len_cons; [easy|pose proof (len_nonneg s); lia|pose proof (len_nonneg s); lia]. Qed.
Lemma restored_ok L info body B n : L = 255 \/ L = 32 -> InfoOk info -> (exists b, is_byte b /\ li_rle info b = false) -> 1 <= n ->
  (forall stc, (forall k, 0 <= k < 256 -> stc (tab 0 (li_syms info) k) = k) -> Ser L (li_rle info) stc body (slice B 0 n)) -> Restored L info body B n.
Proof.
  intros HL HI Hex Hn HS C p C' pb M q c Hh Hb Hp1 Hp2 Hq1 Hq2. rewrite <- (app_nil_r (write_info info)) in Hh.
  destruct (read_write_info info C p [] HI Hh) as (rle & stc & E & R1 & R2). rewrite E. split; [reflexivity|].
  assert (HS' : Ser L rle stc body (slice B 0 n)) by (apply ser_ext with (3 := HS stc R2); [intros b Hbb; symmetry; now apply R1|reflexivity]).
  assert (Hlo : len (slice B 0 n) = n) by (apply len_slice; lia).
  destruct (le_decode_ok L c rle stc C' pb body (slice B 0 n) M q) as (M' & E1 & E2 & E3); auto; try lia.
  { destruct Hex as (b & Hbb & Hr). exists b. split; [exact Hbb|]. now rewrite R1. }
  rewrite Hlo in *. exists M'. auto.
Qed.

Theorem shared_table L L' max A nA B n outSize : L = 255 \/ L = 32 -> L' = 255 \/ L' = 32 -> byte_mem B ->
  1 <= nA <= max_in -> (exists b, is_byte b /\ li_rle (le_info L' max A nA) b = false) -> 1 <= n < 2 ^ 32 -> n <= outSize ->
  exists body, le_with_info L (le_info L' max A nA) B n outSize = Some (Some body) /\ Forall is_byte body /\ 0 < len body <= 2 * n /\
    Restored L (le_info L' max A nA) body B n.
Proof.
  intros HL HL' HB HA Hex Hn Ho. set (info := le_info L' max A nA) in *. pose proof (le_info_ok L' max A nA) as HI. fold info in HI.
  destruct (syms_inverse info HI) as (stc & Hstc). destruct (le_with_info_ok L info stc B n outSize HL HI Hstc HB Hn Ho) as (body & E & HS).
  assert (Hlo : len (slice B 0 n) = n) by (apply len_slice; lia).
  exists body. split; [exact E|]. split; [exact (proj1 (ser_bytes _ _ _ _ _ HS))|]. pose proof (ser_len _ _ _ _ _ HS) as Hle. pose proof (ser_pos _ _ _ _ _ HS ltac:(lia)). split; [lia|].
  apply restored_ok; try assumption; [lia|]. intros stc' Hstc'.
  destruct (le_with_info_ok L info stc' B n outSize HL HI Hstc' HB Hn Ho) as (body' & E' & HS'). assert (body' = body) by congruence. now subst body'.
Qed.

(** Twice the size of the data is enough. *)
Theorem with_info_fits L L' max A nA B n outSize body : L = 255 \/ L = 32 -> byte_mem B -> 1 <= n < 2 ^ 32 -> 2 * n <= outSize ->
  le_with_info L (le_info L' max A nA) B n outSize = Some (Some body) -> len body <= outSize.
Proof.
  intros HL HB Hn Ho E. pose proof (le_info_ok L' max A nA) as HI. destruct (syms_inverse _ HI) as (stc & Hstc).
  destruct (le_with_info_ok L _ stc B n outSize HL HI Hstc HB Hn ltac:(lia)) as (body' & E' & HS). assert (body' = body) by congruence. subst body'.
  pose proof (ser_len _ _ _ _ _ HS) as Hle. rewrite len_slice in Hle by lia. lia.
Qed.

(** With the condition on the data the table was made for. *)
Theorem shared_table_cond L L' max A nA B n outSize : L = 255 \/ L = 32 -> L' = 255 \/ L' = 32 -> byte_mem B ->
  byte_mem A -> 1 <= nA <= max_in -> le_cond L' max A nA -> 1 <= n < 2 ^ 32 -> n <= outSize ->
  exists body, le_with_info L (le_info L' max A nA) B n outSize = Some (Some body) /\ Forall is_byte body /\ 0 < len body <= 2 * n /\
    Restored L (le_info L' max A nA) body B n.
Proof. intros HL HL' HB HbA HA Hc. apply shared_table; auto. now apply le_cond_rle. Qed.

(** The written table. *)
Theorem table_size L max A nA : Forall is_byte (write_info (le_info L max A nA)) /\ 34 <= len (write_info (le_info L max A nA)) <= 288.
Proof.
  pose proof (le_info_ok L max A nA) as HI. split; [now apply write_info_bytes|]. rewrite (len_write_info _ HI). destruct HI as (_ & H & _). lia.
Qed.

(** *** Where it fails *)
From Verif Require Import LeBad.
Local Transparent range256.

(** A table made for a run of a value, used for one byte: two bytes come out. *)
Definition zeros : mem := fun _ => 0.
Theorem with_info_overflows L L' max : L = 255 \/ L = 32 -> L' = 255 \/ L' = 32 ->
  exists body, le_with_info L (le_info L' max zeros 100) zeros 1 1 = Some (Some body) /\ 1 < len body.
Proof.
  assert (K : forallb (fun L => forallb (fun L' => forallb (fun max =>
    match le_with_info L (le_info L' max zeros 100) zeros 1 1 with Some (Some body) => 1 <? len body | _ => false end) [true; false]) [255; 32]) [255; 32] = true) by (lazy; reflexivity).
  intros HL HL'. rewrite forallb_forall in K. assert (H1 : List.In L [255; 32]) by (cbn; lia). apply K in H1. clear K.
  rewrite forallb_forall in H1. assert (H2 : List.In L' [255; 32]) by (cbn; lia). apply H1 in H2. clear H1.
  rewrite forallb_forall in H2. assert (H3 : List.In max [true; false]) by (destruct max; cbn; auto). apply H2 in H3.
  destruct (le_with_info L (le_info L' max zeros 100) zeros 1 1) as [[body|]|]; try discriminate. exists body. split; [reflexivity|lia].
Qed.

(** A table made for data in which all 256 values are worth it. *)
Definition shared_wrong (L L' : Z) (c : cpu) : bool :=
  match le_with_info L (le_info L' false twice 512) twice 512 1024 with
  | Some (Some body) => (len body <? 2000) && let '(rle, stc, k) := read_info (at16 (write_info (le_info L' false twice 512))) 16 in
      match le_decode L c rle stc (at16 body) 16 (16 + len body) (fun _ => 0) 16 512 with
      | DRet _ M => negb (M 18 =? twice 2) || negb (M 19 =? twice 3) || negb (M 17 =? twice 1) | _ => true end
  | _ => false end.
Lemma shared_wrong_all : forallb (fun L => forallb (fun L' => shared_wrong L L' (mkCpu true true)) [255; 32]) [255; 32] = true.
Proof. lazy. reflexivity. Qed.
Theorem shared_refuted L L' : L = 255 \/ L = 32 -> L' = 255 \/ L' = 32 ->
  exists body, le_with_info L (le_info L' false twice 512) twice 512 1024 = Some (Some body) /\ ~ Restored L (le_info L' false twice 512) body twice 512.
Proof.
  intros HL HL'. pose proof shared_wrong_all as K. rewrite forallb_forall in K. assert (H1 : List.In L [255; 32]) by (cbn; lia). apply K in H1. clear K.
  rewrite forallb_forall in H1. assert (H2 : List.In L' [255; 32]) by (cbn; lia). apply H1 in H2. clear H1.
  set (c := mkCpu true true) in *.
  unfold shared_wrong in H2. destruct (le_with_info L (le_info L' false twice 512) twice 512 1024) as [[body|]|]; try discriminate.
  exists body. split; [reflexivity|]. intros HR. apply andb_prop in H2. destruct H2 as [Hl H2].
  pose proof (len_nonneg body).
  specialize (HR (at16 (write_info (le_info L' false twice 512))) 16 (at16 body) 16 (fun _ => 0) 16 c (at16_holds _) (at16_holds _) ltac:(lia) ltac:(lia) ltac:(lia) ltac:(lia)).
  destruct (read_info (at16 (write_info (le_info L' false twice 512))) 16) as [[rle stc] k]. destruct HR as (_ & M' & E & Es & _). rewrite E in H2.
  assert (K : forall k, 0 <= k < 512 -> M' (16 + k) = twice k).
  { intros j Hj. pose proof (f_equal (fun l => nth (Z.to_nat j) l 0) Es) as En. cbn beta in En. rewrite !nth_slice in En by lia. exact En. }
  pose proof (K 1 ltac:(lia)) as K1. pose proof (K 2 ltac:(lia)) as K2. pose proof (K 3 ltac:(lia)) as K3.
  change (16 + 1) with 17 in K1. change (16 + 2) with 18 in K2. change (16 + 3) with 19 in K3. lia.
Qed.
