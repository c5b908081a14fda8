(** The low entropy decoders on arbitrary bytes. *)
From Verif Require Import Base Simd SimdProof Spec ExtModel ExtEnc Rle8Model LeModel LeTable LeDec HosSpec.

(** *** Every entry of the table read from the stream is a byte *)
Lemma fold_upd_byte syms l t : Forall is_byte l -> (forall i, is_byte (t i)) ->
  forall i, is_byte (fold_left (fun t i => upd t (tab 0 syms i) i) l t i).
Proof.
  revert t. induction l as [|a l IH]; intros t HL HT i; [apply HT|]. cbn [fold_left]. inversion HL; subst. apply IH; [assumption|].
  intros k. unfold upd. destruct (k =? _); [assumption|apply HT].
Qed.
Lemma fold_next_byte syms l t next : (forall i, is_byte (t i)) -> is_byte next ->
  forall i, is_byte (fst (fold_left (fun '(t, next) i => if existsb (Z.eqb i) syms then (t, next) else (upd t i next, w8 (next + 1))) l (t, next)) i).
Proof.
  revert t next. induction l as [|a l IH]; intros t next HT HN i; [apply HT|]. cbn [fold_left]. destruct (existsb (Z.eqb a) syms); [now apply IH|].
  apply IH; [|unfold is_byte, w8; lia]. intros k. unfold upd. destruct (k =? a); [assumption|apply HT].
Qed.
Lemma read_table_byte syms : len syms <= 256 -> forall i, is_byte (read_table syms i).
Proof.
  intros H i. unfold read_table. apply fold_next_byte; [|unfold is_byte, w8; lia]. apply fold_upd_byte; [|intros; unfold is_byte; lia].
  apply Forall_forall. intros x Hx. unfold upto in Hx. apply in_map_iff in Hx. destruct Hx as (m & <- & Hm). apply in_seq in Hm.
  unfold is_byte. pose proof (len_nonneg syms). lia.
Qed.
Lemma read_info_byte C p : byte_mem C -> let '(rle, stc, k) := read_info C p in (forall i, is_byte (stc i)) /\ 34 <= k.
Proof.
  intros HC. cbv zeta beta. unfold read_info. pose proof (HC (p + 32)) as Hw. unfold is_byte in Hw.
  assert (Hk : 1 <= le_written (C (p + 32)) <= 255) by (unfold le_written; destruct (C (p + 32) =? 0) eqn:E; lia).
  split; [|lia]. intros i. unfold tab. destruct (nth_in_or_default (Z.to_nat i) (map (read_table (slice C (p + 33) (le_written (C (p + 32))))) range256) 0) as [H| ->]; [|unfold is_byte; lia].
  apply in_map_iff in H. destruct H as (x & <- & _). apply read_table_byte. rewrite len_slice by lia. lia.
Qed.

(** *** Fills write at most 32 bytes too many, whatever the count *)
Definition FillIn (fill : Z -> mem -> Z -> Z -> option mem) : Prop :=
  forall b M q count, is_byte count -> 0 <= q -> q + count < 2 ^ 64 ->
  exists M', fill b M q count = Some M' /\ forall x, x < q \/ q + count + 32 <= x -> M' x = M x.
Lemma le_fillV_in W : W = 16 \/ W = 32 -> FillIn (le_fillV W).
Proof.
  intros HW b M q count Hc Hq Hw. unfold is_byte in Hc. unfold le_fillV. destruct (count =? 0) eqn:E.
  - exists M. split; reflexivity.
  - destruct (memsetW_spec W b M q count) as (M' & E1 & E2 & E3); [lia|lia|lia|lia|]. rewrite E1. exists M'. split; [reflexivity|]. intros x Hx. apply E3. lia.
Qed.
Lemma les_fillV_in m W : W = 16 \/ W = 32 -> FillIn (les_fillV m W).
Proof.
  intros HW b M q count Hc Hq Hw. unfold is_byte in Hc. unfold les_fillV. destruct (m && (W =? 16) && (count =? 0)) eqn:E.
  - exists M. split; reflexivity.
  - destruct (W =? 16); (eexists; split; [reflexivity|]); intros x Hx; rewrite !vstore_out by lia; reflexivity.
Qed.

Section Any.
Context (rle : Z -> bool) (stc : Z -> Z) (C : mem) (p0 pEnd q0 : Z) (M0 : mem).
Hypothesis (Hstc : forall i, is_byte (stc i)) (Hq0 : 0 <= q0) (Hend : pEnd - p0 < 2 ^ 32) (Hroom : q0 + 128 * Z.max 0 (pEnd + 1 - p0) < 2 ^ 64).
Notation top := (q0 + 128 * Z.max 0 (pEnd + 1 - p0)).
Definition AInv (s : Z * Z * mem) : Prop := let '(p, q, M) := s in
  p0 <= p /\ q0 <= q <= q0 + 128 * (p - p0) /\ forall x, x < q0 \/ top <= x -> M x = M0 x.

Lemma any_simd W hit fill s : W = 16 \/ W = 32 -> FillIn fill -> AInv s ->
  exists s', loop (le_simd_step W hit fill stc C (pEnd - 256)) s = Some (Some s') /\ AInv s'.
Proof.
  intros HW HF HI.
  destruct (loop_inv (le_simd_step W hit fill stc C (pEnd - 256)) AInv (fun '(p, q, M) => Z.max 0 (pEnd - p))
              (fun r => match r with Some s' => AInv s' | None => False end) s) as ([s'|] & HL & HQ).
  - clear HI s. intros [[p q] M] (Hp & Hq & HM). unfold le_simd_step. destruct (p <? pEnd - 256) eqn:Ep; [|cbn; auto].
    set (f := fun j => negb (hit (C (p + j)))). destruct (lead_spec f W ltac:(lia)) as (L1 & L2 & L3). set (idx := lead f W) in *. clearbody idx.
    assert (HM1 : forall x, x < q0 \/ top <= x -> vcopy W C p M q x = M0 x) by (intros x Hx; rewrite vcopy_out by lia; now apply HM).
    destruct (idx =? W) eqn:Ei.
    + split; [split; [lia|split; [lia|exact HM1]]|lia].
    + cbv zeta. set (cnt := stc (C (p + idx + 1))). pose proof (Hstc (C (p + idx + 1))) as Hc. fold cnt in Hc. pose proof Hc as Hc'. unfold is_byte in Hc'.
      destruct (HF (C (p + idx)) (vcopy W C p M q) (q + idx + 1) cnt) as (M2 & F1 & F2); [exact Hc|lia|lia|]. rewrite F1.
      split; [|lia]. split; [lia|]. split; [lia|]. intros x Hx. rewrite F2 by lia. now apply HM1.
  - exact HI.
  - destruct s as [[p q] M]. destruct HI as (Hp & _). lia.
  - exists s'. now split.
  - contradiction.
Qed.

Lemma any_tail s : AInv s -> exists s', loop (le_tail_step rle stc C pEnd) s = Some (Some s') /\ AInv s'.
Proof.
  intros HI.
  destruct (loop_inv (le_tail_step rle stc C pEnd) AInv (fun '(p, q, M) => Z.max 0 (pEnd - p))
              (fun r => match r with Some s' => AInv s' | None => False end) s) as ([s'|] & HL & HQ).
  - clear HI s. intros [[p q] M] (Hp & Hq & HM). unfold le_tail_step. destruct (p <? pEnd) eqn:Ep; [|cbn; auto].
    assert (HM1 : forall x, x < q0 \/ top <= x -> vstore 1 (fun _ => C p) M q x = M0 x) by (intros x Hx; rewrite vstore_out by lia; now apply HM).
    destruct (rle (C p)).
    + set (cnt := stc (C (p + 1))). pose proof (Hstc (C (p + 1))) as Hc. fold cnt in Hc. unfold is_byte in Hc.
      destruct (le_fillS_ok (C p) (vstore 1 (fun _ => C p) M q) (q + 1) cnt) as (M2 & F1 & _ & F2); [lia|lia|]. rewrite F1.
      split; [|lia]. split; [lia|]. split; [lia|]. intros x Hx. rewrite F2 by lia. now apply HM1.
    + split; [|lia]. split; [lia|]. split; [lia|exact HM1].
  - exact HI.
  - destruct s as [[p q] M]. destruct HI as (Hp & _). lia.
  - exists s'. now split.
  - contradiction.
Qed.
End Any.

Lemma le_decode_any L c rle stc C p pEnd M q expOut : (forall i, is_byte (stc i)) -> 0 <= q -> 0 <= expOut -> pEnd - p < 2 ^ 32 -> q + 128 * Z.max 0 (pEnd + 1 - p) < 2 ^ 64 ->
  exists M', le_decode L c rle stc C p pEnd M q expOut = DRet expOut M' /\
  forall x, x < q \/ q + Z.max expOut (128 * Z.max 0 (pEnd + 1 - p)) <= x -> M' x = M x.
Proof.
  intros Hs Hq He Hl Hr. unfold le_decode. destruct (w8 (len (filter rle range256)) =? 0) eqn:E0.
  - eexists. split; [reflexivity|]. intros x Hx. apply vcopy_out. lia.
  - set (multi := negb _). set (W := if (if multi then cpu_avx c else cpu_avx2 c) then 32 else 16). set (hit := if multi then rle else _). set (fill := if L =? 255 then le_fillV W else les_fillV multi W).
    assert (HW : W = 16 \/ W = 32) by (unfold W; destruct (if multi then cpu_avx c else cpu_avx2 c); auto).
    assert (HF : FillIn fill) by (unfold fill; destruct (L =? 255); [now apply le_fillV_in|now apply les_fillV_in]).
    clearbody multi W hit fill.
    assert (HI : AInv p pEnd q M (p, q, M)) by (split; [lia|split; [lia|reflexivity]]).
    destruct (any_simd rle stc C p pEnd q M Hs Hq Hl Hr W hit fill _ HW HF HI) as (s1 & -> & H1).
    destruct (any_tail rle stc C p pEnd q M Hs Hq Hr s1 H1) as ([[p2 q2] M2] & -> & H2).
    exists M2. split; [reflexivity|]. intros x Hx. apply H2. lia.
Qed.

Lemma le_any L c : AnyStreamEnds 128 (le_decompress L c).
Proof.
  intros C pin inSize M pout outSize HC Hpin Hin Hout Hpo Hroom. unfold le_decompress.
  destruct ((pin =? 0) || (pout =? 0) || (inSize =? 0) || (outSize =? 0)) eqn:E0; [exists 0, M; repeat split; lia|]. cbv zeta.
  destruct ((outSize <? rd32 C (pin + 4)) || (inSize <? rd32 C pin)) eqn:E1; [exists 0, M; repeat split; lia|].
  pose proof (read_info_byte C (pin + 8) HC) as HR. destruct (read_info C (pin + 8)) as [[rle stc] k]. destruct HR as [HR Hk].
  pose proof (rd32_range C (pin + 4) HC). 
  destruct (le_decode_any L c rle stc C (pin + 8 + k) (pin + rd32 C pin) M pout (rd32 C (pin + 4)) HR) as (M' & E & HM); [lia|lia|lia|lia|].
  exists (rd32 C (pin + 4)), M'. split; [exact E|]. split; [lia|]. intros x Hx. apply HM. lia.
Qed.
