(** Correctness of the low entropy codecs and of rle8m. *)
From Coq Require Import Permutation.
From Verif Require Import Base Simd SimdProof Spec Spec2 LargeSpec ExtModel ExtEnc PktModel Rle8Model LeModel LeSpec LeTable LeDec LeEnc LeSize LeWorth.

Definition le_size (L n : Z) : Z := n + n / L + 300.
Definition le_decs (L : Z) (dec : decompressor) : Prop := exists c, dec = le_decompress L c.
(** The condition for the round trip: none if only one value is run length coded. *)
Definition le_cond (L : Z) (max : bool) : mem -> Z -> Prop := if max then Always else SomeNotWorth L.

Lemma le_cond_rle_large L max In n : (L = 255 \/ L = 32) -> (forall k, is_byte (In k)) -> 1 <= n <= large_in -> le_cond L max In n ->
  exists b, is_byte b /\ li_rle (le_info L max In n) b = false.
Proof.
  intros HL HIn Hn H. destruct max; [apply max_not_rle|]. destruct H as (b & Hb & Hl). exists b. split; [exact Hb|]. apply not_true_is_false.
  intros K. apply Hl. apply (rle_iff_worth_large L In n b); auto; lia.
Qed.
Lemma le_cond_rle L max In n : (L = 255 \/ L = 32) -> (forall k, is_byte (In k)) -> 1 <= n <= max_in -> le_cond L max In n ->
  exists b, is_byte b /\ li_rle (le_info L max In n) b = false.
Proof. intros HL HIn Hn. apply le_cond_rle_large; [exact HL|exact HIn|now apply max_large1]. Qed.
(** A simple case: some value never occurs twice in a row. *)
Lemma lonely_not_worth L In n : (L = 255 \/ L = 32) -> (forall k, is_byte (In k)) -> 1 <= n <= max_in -> SomeLonely In n -> SomeNotWorth L In n.
Proof.
  intros HL HIn Hn (b & Hb & Hl). exists b. split; [exact Hb|]. intros K. apply (rle_iff_worth L In n b) in K; auto; [|lia].
  rewrite lonely_not_rle in K; auto; [discriminate|lia].
Qed.

(** A function that inverts the table. *)
Lemma syms_inverse info : InfoOk info -> exists stc, forall k, 0 <= k < 256 -> stc (tab 0 (li_syms info) k) = k.
Proof. intros (HP & Hw & Hc & Hr). eexists. intros k Hk. exact (read_table_spec _ _ HP Hw Hr k Hk). Qed.

Lemma le_with_info_some L info In n o1 body o2 : le_with_info L info In n o1 = Some (Some body) -> n <= o2 -> le_with_info L info In n o2 = Some (Some body).
Proof. unfold le_with_info. destruct (n =? 0) eqn:E; [discriminate|]. cbn [orb]. destruct (o1 <? n); [discriminate|]. intros H Ho. replace (o2 <? n) with false by lia. exact H. Qed.

Lemma le_decompress_ok_large L c info stc In n body :
  (L = 255 \/ L = 32) -> InfoOk info -> (exists b, is_byte b /\ li_rle info b = false) ->
  (forall k, 0 <= k < 256 -> stc (tab 0 (li_syms info) k) = k) ->
  Ser L (li_rle info) stc body (slice In 0 n) -> 1 <= n <= large_in -> 8 + len (write_info info) + len body < 2 ^ 32 ->
  RestoresI false (le_decompress L c) 0 (le32 (8 + len (write_info info) + len body) ++ le32 n ++ write_info info ++ body) In n.
Proof.
  intros HL HI Hex Hstc HS Hn Hsz C pin inSize M pout cap Hh Hp Hp64 Hin Hq Hq64 Hcap. unfold large_in in Hn. cbn [InSize] in Hin.
  set (head := write_info info) in *.
  pose proof (len_nonneg body). pose proof (len_nonneg head). rewrite !len_app, !len_le32 in *.
  unfold le_decompress. replace ((pin =? 0) || (pout =? 0) || (inSize =? 0) || (cap =? 0)) with false by lia.
  rewrite (rd32_holds C pin (8 + len head + len body) _) by (try exact Hh; lia).
  apply holds_app in Hh. destruct Hh as [_ Hh]. rewrite len_le32 in Hh.
  rewrite (rd32_holds C (pin + 4) n _) by (try exact Hh; lia).
  apply holds_app in Hh. destruct Hh as [_ Hh]. rewrite len_le32 in Hh. replace (pin + 4 + 4) with (pin + 8) in Hh by lia.
  replace ((cap <? n) || (inSize <? 8 + len head + len body)) with false by lia.
  destruct (read_write_info info C (pin + 8) body HI Hh) as (rle & stc' & E & R1 & R2). rewrite E. fold head.
  apply holds_app in Hh. destruct Hh as [_ Hh]. fold head in Hh.
  assert (HS' : Ser L rle stc' body (slice In 0 n)).
  { apply ser_ext with (3 := HS).
    - intros b Hb. symmetry. now apply R1.
    - intros b Hb. destruct HI as (HP & _). assert (Hin' : List.In b (li_syms info)) by (eapply Permutation_in; [apply Permutation_sym, HP|now apply in_range256]).
      apply (In_nth _ _ 0) in Hin'. destruct Hin' as (k & Hk & Hkb). rewrite (Permutation_length HP), length_range256 in Hk.
      specialize (R2 (Z.of_nat k) ltac:(lia)). specialize (Hstc (Z.of_nat k) ltac:(lia)). unfold tab in R2, Hstc. rewrite Nat2Z.id, Hkb in R2, Hstc. congruence. }
  assert (Hlo : len (slice In 0 n) = n) by (apply len_slice; lia).
  destruct (le_decode_ok L c rle stc' C (pin + 8 + len head) body (slice In 0 n) M pout) as (M' & E1 & E2 & E3); auto; try lia.
  { destruct Hex as (b & Hb & Hr). exists b. split; [exact Hb|]. now rewrite R1. }
  rewrite Hlo in *. replace (pin + 8 + len head + len body) with (pin + (8 + len head + len body)) in E1 by lia.
  exists M'. split; [exact E1|]. split; [exact E2|]. intros x Hx. apply E3. lia.
Qed.
Lemma le_decompress_ok L c info stc In n body :
  (L = 255 \/ L = 32) -> InfoOk info -> (exists b, is_byte b /\ li_rle info b = false) ->
  (forall k, 0 <= k < 256 -> stc (tab 0 (li_syms info) k) = k) ->
  Ser L (li_rle info) stc body (slice In 0 n) -> 1 <= n <= max_in -> 8 + len (write_info info) + len body < 2 ^ 32 ->
  RestoresI false (le_decompress L c) 0 (le32 (8 + len (write_info info) + len body) ++ le32 n ++ write_info info ++ body) In n.
Proof. intros HL HI Hex Hstc HS Hn. apply le_decompress_ok_large with (stc := stc); auto. now apply max_large1. Qed.

Lemma le_bounds_eq_large n : 0 <= n <= large_in -> le_bounds n = n + 297.
Proof. unfold large_in, le_bounds. intros H. rewrite w32_id by lia. lia. Qed.
Lemma le_bounds_eq n : 0 <= n <= max_in -> le_bounds n = n + 297.
Proof. intros H. apply le_bounds_eq_large. split; [lia|]. apply max_large. lia. Qed.

Lemma le_body_len_large L max In n o body : (L = 255 \/ L = 32) -> (forall k, is_byte (In k)) -> 1 <= n <= large_in ->
  le_with_info L (le_info L max In n) In n o = Some (Some body) -> len body <= n + n / L + 4.
Proof.
  intros HL HIn Hn E. eapply le_body_size; [exact HL|exact HIn| |lia|exact E].
  intros b Hb Hr. pose proof (le_info_pays_large L max In n ltac:(lia) HIn Hn b Hb Hr) as K. pose proof (gI_bounds L In n ltac:(lia) HIn ltac:(lia)) as HB.
  destruct (gI L In n) as [[[last count] prob] pcount]. destruct HB as [_ HB]. specialize (HB b Hb). destruct max, (b =? last); lia.
Qed.
Lemma le_body_len L max In n o body : (L = 255 \/ L = 32) -> (forall k, is_byte (In k)) -> 1 <= n <= max_in ->
  le_with_info L (le_info L max In n) In n o = Some (Some body) -> len body <= n + n / L + 4.
Proof. intros HL HIn Hn. apply le_body_len_large; [exact HL|exact HIn|now apply max_large1]. Qed.

Theorem le_ok_large L max : (L = 255 \/ L = 32) -> OkITo false (le_cond L max) (le_compress L max) (le_decs L) 0 (le_size L) large_in.
Proof.
  intros HL In n cap out HIn Hn. unfold le_compress. cbn [orb]. replace (n =? 0) with false by lia. cbn [orb].
  rewrite le_bounds_eq_large by lia. destruct (cap <? n + 297); [discriminate|]. set (info := le_info L max In n).
  assert (HI : InfoOk info) by apply le_info_ok. destruct (cap <? 32 + 256 + 1); [discriminate|].
  destruct (syms_inverse info HI) as (stc & Hstc).
  destruct (le_with_info L info In n (w32 (cap - (8 + len (write_info info))))) as [[body|]|] eqn:E; try discriminate.
  destruct (w32 (len body) =? 0); [discriminate|]. intros H.
  assert (HO : out = le32 (8 + len (write_info info) + len body) ++ le32 n ++ write_info info ++ body)
    by (symmetry; exact (f_equal (fun r => match r with COk o => o | _ => [] end) H)). clear H.
  destruct (le_with_info_ok L info stc In n n HL HI Hstc HIn ltac:(unfold large_in in Hn; lia) ltac:(lia)) as (body' & E' & HS).
  rewrite (le_with_info_some _ _ _ _ _ _ n E ltac:(lia)) in E'. assert (Hbb : body' = body) by congruence. subst body'. clear E'.
  assert (Hsize : len body <= n + n / L + 4) by (exact (le_body_len_large L max In n _ body HL HIn Hn E)).
  pose proof (len_write_info info HI) as Hlw. pose proof HI as (_ & Hw & _ & _). pose proof (len_nonneg body).
  assert (Hlen : len out = 8 + len (write_info info) + len body) by (rewrite HO, !len_app, !len_le32; lia).
  assert (Hls : 8 + len (write_info info) + len body <= le_size L n) by (unfold le_size; lia).
  split; [|split; [|split]].
  - rewrite HO. apply Forall_app. split; [apply Forall_le32|]. apply Forall_app. split; [apply Forall_le32|]. apply Forall_app. split; [apply write_info_bytes; exact HI|apply (proj1 (ser_bytes _ _ _ _ _ HS))].
  - lia.
  - exists (write_info info ++ body). rewrite Hlen. exact HO.
  - intros HP dec (c & ->). rewrite HO. apply le_decompress_ok_large with (stc := stc); auto.
    + apply le_cond_rle_large; auto.
    + unfold le_size, large_in in *. clear - Hls Hn HL. destruct HL as [-> | ->]; lia.
Qed.
Theorem le_ok L max : (L = 255 \/ L = 32) -> OkI false (le_cond L max) (le_compress L max) (le_decs L) 0 (le_size L).
Proof. intros HL In n cap out HIn Hn. apply le_ok_large; [exact HL|exact HIn|now apply max_large1]. Qed.

Theorem le_total_large L max P : (L = 255 \/ L = 32) -> TotalITo (le_compress L max) large_in P le_bounds.
Proof.
  intros HL In n cap HIn Hn _ Hcap. rewrite le_bounds_eq_large in Hcap by lia. unfold le_compress. rewrite le_bounds_eq_large by lia.
  replace (false || (n =? 0) || false || (cap <? n + 297)) with false by lia. set (info := le_info L max In n).
  assert (HI : InfoOk info) by apply le_info_ok. replace (cap <? 32 + 256 + 1) with false by lia.
  destruct (syms_inverse info HI) as (stc & Hstc). pose proof (len_write_info info HI) as Hlw. pose proof HI as (_ & Hw & _ & _).
  rewrite w32_id by (rewrite Hlw; lia).
  destruct (le_with_info_ok L info stc In n (cap - (8 + len (write_info info))) HL HI Hstc HIn ltac:(unfold large_in in Hn; lia) ltac:(lia)) as (body & E & HS).
  rewrite E. assert (Hsize : len body <= n + n / L + 4) by (exact (le_body_len_large L max In n _ body HL HIn Hn E)).
  assert (Hpos : 0 < len body).
  { assert (Hlo : len (slice In 0 n) = n) by (apply len_slice; lia). destruct body as [|x body]; [|rewrite len_cons; pose proof (len_nonneg body); lia].
    inversion HS as [Ho Ho1| |]. rewrite <- Ho1 in Hlo. change (len (@nil Z)) with 0 in Hlo. lia. }
  rewrite w32_id by (unfold large_in in Hn; clear - HL Hsize Hn Hpos; destruct HL as [-> | ->]; lia).
  replace (len body =? 0) with false by lia. eexists. reflexivity.
Qed.
Theorem le_total L max P : (L = 255 \/ L = 32) -> TotalI (le_compress L max) P le_bounds.
Proof. intros HL In n cap HIn Hn. apply le_total_large; [exact HL|exact HIn|now apply max_large1]. Qed.

Theorem le_guarded L max : GuardedI (le_compress L max) le_bounds.
Proof.
  intros inNull outNull In n cap H. unfold le_compress.
  replace (inNull || (n =? 0) || outNull || (cap <? le_bounds n)) with true; [reflexivity|].
  symmetry. destruct inNull; [reflexivity|]. destruct outNull; [rewrite orb_true_r; reflexivity|]. cbn [orb]. rewrite orb_false_r. lia.
Qed.

Theorem le_dec_args L c : DecompressArgsI (le_decompress L c).
Proof.
  intros C pin inSize M pout outSize H. unfold le_decompress.
  destruct ((pin =? 0) || (pout =? 0) || (inSize =? 0) || (outSize =? 0)) eqn:E; [reflexivity|].
  replace ((outSize <? rd32 C (pin + 4)) || (inSize <? rd32 C pin)) with true; [reflexivity|]. lia.
Qed.

Theorem le_input_only L max : (L = 255 \/ L = 32) -> InputOnly (le_compress L max false false).
Proof.
  intros HL In1 In2 n cap Hn Heq. unfold le_compress. cbn [orb]. destruct (n =? 0) eqn:E0; [reflexivity|]. cbn [orb]. destruct (cap <? le_bounds n); [reflexivity|].
  rewrite (le_info_ext L max In1 In2 n) by (try exact Heq; lia). unfold le_with_info. rewrite (le_step_ext L _ In1 In2 n HL Heq). reflexivity.
Qed.

(** Short inputs satisfy the condition. *)
Lemma occ_sum In n : (forall k, is_byte (In k)) -> 0 <= n -> zsum (occ In n) range256 = n.
Proof.
  intros HIn. revert n. apply natlike_ind.
  - rewrite <- (zsum_zero range256) at 2. unfold occ. rewrite slice_0 by lia. reflexivity.
  - intros n Hn IH. unfold Z.succ.
    assert (E : zsum (occ In (n + 1)) range256 = zsum (upd (occ In n) (In n) (occ In n (In n) + 1)) range256).
    { apply Z.le_antisymm; apply zsum_le; intros x Hx; unfold occ, upd; rewrite slice_snoc, filter_app, len_app by lia; cbn [filter];
        rewrite Z.add_0_l; destruct (x =? In n) eqn:E; try (change (len [In n]) with 1); try (change (len (@nil Z)) with 0); try lia;
        (assert (Ex : x = In n) by lia; rewrite Ex; lia). }
    rewrite E, zsum_upd_in by apply HIn. lia.
Qed.

Lemma zsum_const c l : zsum (fun _ => c) l = c * len l.
Proof. induction l as [|a l IH]; [unfold len; cbn; lia|]. cbn [zsum fold_right]. fold (zsum (fun _ => c) l). rewrite len_cons. lia. Qed.

Lemma occ_two In n b k : 0 <= k < n - 1 -> In k = b -> In (k + 1) = b -> 2 <= occ In n b.
Proof.
  intros Hk H1 H2. unfold occ. replace n with (k + (2 + (n - k - 2))) by lia. rewrite slice_app, (slice_app In (0 + k)) by lia.
  rewrite !filter_app, !len_app. rewrite (slice_cons In (0 + k) 2), (slice_cons In (0 + k + 1)) by lia. rewrite Z.add_0_l, H1, H2. rewrite (slice_0 In _ (2 - 1 - 1)) by lia.
  cbn [filter]. rewrite Z.eqb_refl. change (len [b; b]) with 2. pose proof (len_nonneg (filter (Z.eqb b) (slice In 0 k))).
  pose proof (len_nonneg (filter (Z.eqb b) (slice In (k + 2) (n - k - 2)))). lia.
Qed.

Lemma short_lonely In n : (forall k, is_byte (In k)) -> 0 <= n < 512 -> SomeLonely In n.
Proof.
  intros HIn Hn.
  destruct (existsb (fun b => forallb (fun k => negb ((In (Z.of_nat k) =? b) && (In (Z.of_nat k + 1) =? b))) (seq 0 (Z.to_nat (n - 1)))) range256) eqn:E.
  - apply existsb_exists in E. destruct E as (b & Hb & Hf). exists b. split; [now apply in_range256|]. intros k Hk [K1 K2].
    rewrite forallb_forall in Hf. specialize (Hf (Z.to_nat k) ltac:(apply in_seq; lia)). rewrite Z2Nat.id in Hf by lia. lia.
  - exfalso. pose proof (occ_sum In n HIn ltac:(lia)) as Hs.
    assert (Hle : zsum (fun _ => 2) range256 <= zsum (occ In n) range256).
    { apply zsum_le. intros b Hb. destruct (forallb (fun k => negb ((In (Z.of_nat k) =? b) && (In (Z.of_nat k + 1) =? b))) (seq 0 (Z.to_nat (n - 1)))) eqn:Ef.
      - exfalso. assert (Et : existsb (fun b => forallb (fun k => negb ((In (Z.of_nat k) =? b) && (In (Z.of_nat k + 1) =? b))) (seq 0 (Z.to_nat (n - 1)))) range256 = true)
          by (apply existsb_exists; exists b; auto). congruence.
      - apply not_true_iff_false in Ef. destruct (Z_lt_ge_dec (occ In n b) 2) as [Hlt|]; [|lia]. exfalso. apply Ef. apply forallb_forall. intros k Hk. apply in_seq in Hk.
        destruct ((In (Z.of_nat k) =? b) && (In (Z.of_nat k + 1) =? b)) eqn:Ek; [|reflexivity]. exfalso. apply andb_prop in Ek.
        pose proof (occ_two In n b (Z.of_nat k) ltac:(lia) ltac:(lia) ltac:(lia)). lia. }
    rewrite zsum_const, len_range256 in Hle. lia.
Qed.

(** With only one run length coded value the bound holds. *)
Theorem le_max_within L : (L = 255 \/ L = 32) -> WithinBound (le_compress L true false false) le_bounds.
Proof.
  intros HL In n cap out HIn Hn. rewrite le_bounds_eq by lia. unfold le_compress. rewrite le_bounds_eq by lia. destruct (_ || _); [discriminate|].
  set (info := le_info L true In n). assert (HI : InfoOk info) by apply le_info_ok. destruct (cap <? 32 + 256 + 1); [discriminate|].
  destruct (le_with_info L info In n (w32 (cap - (8 + len (write_info info))))) as [[body|]|] eqn:E; try discriminate.
  destruct (w32 (len body) =? 0); [discriminate|]. intros H.
  assert (HO : out = le32 (8 + len (write_info info) + len body) ++ le32 n ++ write_info info ++ body)
    by (symmetry; exact (f_equal (fun r => match r with COk o => o | _ => [] end) H)). clear H.
  assert (Hb : len body <= n + 1) by (eapply le_body_size_max; [exact HL|exact HIn|exact (le_info_pays L true In n ltac:(lia) HIn Hn)|lia|exact E]).
  rewrite HO, !len_app, !len_le32, len_write_info by exact HI. destruct HI as (_ & Hw & _). lia.
Qed.

(** *** Collected *)
Section Collect.
  Variables (L : Z) (max : bool).
  Hypothesis HL : L = 255 \/ L = 32.
  Lemma le_round_trip : RoundTripI false (le_cond L max) (le_compress L max false false) (le_size L) (le_decs L) 0.
  Proof.
    refine (codecI_round_trip _ _ _ _ _ _ (le_ok L max HL) _ _ (le_total L max _ HL) _). intros n Hn. rewrite le_bounds_eq by lia. unfold le_size.
    assert (0 <= n / L) by (apply Z.div_pos; lia). lia.
  Qed.
  Lemma le_within : WithinBound (le_compress L max false false) (le_size L).
  Proof. exact (codecI_within _ _ _ _ _ _ (le_ok L max HL)). Qed.
  Lemma le_header : HeaderSizesI (le_compress L max false false).
  Proof. exact (codecI_header _ _ _ _ _ _ (le_ok L max HL)). Qed.
  Lemma le_args : CompressArgsI (le_compress L max) le_bounds.
  Proof. apply codecI_args; [now apply le_total|apply le_guarded]. Qed.
  Lemma le_truncated c : RejectsTruncated (le_compress L max false false) (le_decompress L c).
  Proof.
    refine (codecI_truncated _ _ _ _ _ _ (le_ok L max HL) _ _ (le_dec_args L c)). intros n Hn. unfold le_size, max_in in *. clear - HL Hn. destruct HL as [-> | ->]; lia.
  Qed.
  Lemma le_agree : DecodersAgreeI false (le_cond L max) (le_compress L max false false) (le_decs L).
  Proof. exact (codecI_agree _ _ _ _ _ _ (le_ok L max HL)). Qed.
End Collect.
Lemma le_inside L max c : (L = 255 \/ L = 32) -> StaysInsideI false (le_cond L max) (le_compress L max false false) (le_decompress L c) 0.
Proof. intros HL. refine (codecI_inside _ _ _ _ _ _ (le_ok L max HL) _ _). now exists c. Qed.
Lemma le_round_trip_small L In n cap :
  L = 255 \/ L = 32 -> byte_mem In -> 1 <= n < 512 -> le_size L n <= cap < 2 ^ 32 ->
  exists out, le_compress L false false false In n cap = COk out /\ forall dec, le_decs L dec -> RestoresI false dec 0 out In n.
Proof.
  intros HL HIn Hn Hcap. destruct (le_round_trip L false HL In n cap HIn ltac:(unfold max_in; lia) (lonely_not_worth L In n HL HIn ltac:(unfold max_in; lia) (short_lonely In n HIn ltac:(lia))) Hcap) as (out & H1 & _ & _ & H2). now exists out.
Qed.
Lemma le_decompressed_size_ok L max In n cap out C pin inSize :
  L = 255 \/ L = 32 -> byte_mem In -> 1 <= n <= max_in -> le_compress L max false false In n cap = COk out ->
  holds C pin out -> 0 < pin -> len out <= inSize -> le_decompressed_size C pin inSize = n.
Proof.
  intros HL HIn Hn HC Hh Hp Hs. destruct (le_header L max HL In n cap out HIn Hn HC) as (rest & E).
  assert (Hl : 8 <= len out) by (rewrite E, !len_app, !len_le32; pose proof (len_nonneg rest); lia).
  unfold le_decompressed_size. replace ((pin =? 0) || (inSize <? 8)) with false by lia. rewrite E in Hh.
  apply holds_app in Hh. destruct Hh as [_ Hh]. rewrite len_le32 in Hh. apply (rd32_holds C (pin + 4) n rest); [unfold max_in in Hn; lia|exact Hh].
Qed.
Lemma le_table_bijection L max In n C p rest :
  let info := le_info L max In n in
  holds C p (write_info info ++ rest) ->
  exists rle stc, read_info C p = (rle, stc, len (write_info info)) /\
    (forall b, is_byte b -> rle b = li_rle info b) /\
    (forall k, 0 <= k < 256 -> is_byte (tab 0 (li_syms info) k) /\ stc (tab 0 (li_syms info) k) = k) /\
    (forall b, is_byte b -> 0 <= stc b < 256 /\ tab 0 (li_syms info) (stc b) = b).
Proof.
  intros info Hh. assert (HI : InfoOk info) by apply le_info_ok. destruct (read_write_info info C p rest HI Hh) as (rle & stc & E & R1 & R2).
  exists rle, stc. split; [exact E|]. split; [exact R1|]. destruct HI as (HP & _). split.
  - intros k Hk. split; [|now apply R2]. apply in_range256. eapply Permutation_in; [exact HP|]. unfold tab. apply nth_In. rewrite (Permutation_length HP), length_range256. lia.
  - intros b Hb. assert (Hin' : List.In b (li_syms info)) by (eapply Permutation_in; [apply Permutation_sym, HP|now apply in_range256]).
    apply (In_nth _ _ 0) in Hin'. destruct Hin' as (k & Hk & Hkb). rewrite (Permutation_length HP), length_range256 in Hk.
    specialize (R2 (Z.of_nat k) ltac:(lia)). assert (Et : tab 0 (li_syms info) (Z.of_nat k) = b) by (unfold tab; now rewrite Nat2Z.id). rewrite Et in R2. rewrite R2. split; [lia|exact Et].
Qed.
Lemma le_round_trip_max L : L = 255 \/ L = 32 -> RoundTripI false Always (le_compress L true false false) le_bounds (le_decs L) 0.
Proof.
  intros HL In n cap HIn Hn HP Hcap. destruct (le_total L true Always HL In n cap HIn Hn HP Hcap) as (out & E).
  destruct (le_ok L true HL In n cap out HIn Hn E) as (O1 & _ & _ & O4). pose proof (le_max_within L HL In n cap out HIn Hn E) as Hl.
  exists out. split; [exact E|]. split; [exact O1|]. split; [lia|]. now apply O4.
Qed.
