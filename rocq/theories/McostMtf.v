(** The transformations of mmtf.c and bit_mmtf.c take linear time. *)
From Verif Require Import Base Simd SimdProof Spec MtfModel MtfSpec MtfProof CostModel CostThm DcostLe McostModel McostSpec.

(** *** One vector *)

Lemma all_prev W (prev : Z -> bool) : (forall j, 0 <= j < W -> prev j = true) -> forallb prev (lanes W) = true.
Proof. intros H. apply forallb_forall. intros j Hj. apply H. now apply lanes_in. Qed.

(** Every symbol is in its lane of the history. *)
Lemma menc_cost W sym H0 : (forall j, 0 <= j < W -> exists d, is_byte d /\ H0 d j = sym j) ->
  exists k, menc_passes W sym H0 = Some k /\ 0 <= k <= 256.
Proof.
  intros Hs. unfold menc_passes. cbv zeta.
  destruct (passes_bound (menc_step W sym) alone
    (fun '(k, index, cur, out, prev, history0, H) => 1 <= k <= 256 /\
       forall j, 0 <= j < W -> (forall d, 0 <= d < k -> H0 d j = sym j -> prev j = true) /\ (forall r, k <= r -> H r j = H0 r j))
    (fun '(k, _, _, _, _, _, _) => 257 - k)
    (1, 0, H0 0, vec W (fun _ => 0), mask W (fun j => sym j =? H0 0 j), vec W (fun j => sel (mask W (fun j => sym j =? H0 0 j) j) (H0 0 j)), H0)) as (k & E & Hk).
  - intros [[[[[[k index] cur] out] prev] history0] H] (Hk & HJ). exists 0. split; [reflexivity|]. split; [lia|].
    unfold menc_step. destruct (forallb prev (lanes W)) eqn:Ea; [lia|]. cbv zeta.
    assert (Hk2 : k <= 255).
    { destruct (Z_le_gt_dec k 255) as [|Hgt]; [assumption|exfalso]. rewrite all_prev in Ea; [discriminate|]. intros j Hj. destruct (Hs j Hj) as (d & Hd & Ed).
      destruct (HJ j Hj) as [J1 _]. apply (J1 d); [unfold is_byte in Hd; lia|exact Ed]. }
    split; [|lia]. split; [lia|]. intros j Hj. destruct (HJ j Hj) as [J1 J2]. rewrite !mask_at by exact Hj. split.
    + intros d Hd Ed. destruct (Z.eq_dec d k) as [->|Hne].
      * rewrite J2, Ed by lia. rewrite Z.eqb_refl. apply orb_true_r.
      * rewrite (J1 d) by (try exact Ed; lia). reflexivity.
    + intros r Hr. unfold hrow. replace (r =? k) with false by lia. apply J2. lia.
  - split; [lia|]. intros j Hj. rewrite mask_at by exact Hj. split; [|reflexivity]. intros d Hd Ed. replace d with 0 in Ed by lia. rewrite Ed. apply Z.eqb_refl.
  - lia.
  - exists k. split; [exact E|lia].
Qed.
(** Any history, indices that are bytes. *)
Lemma mdec_cost W idx H0 : (forall j, 0 <= j < W -> is_byte (idx j)) ->
  exists r k, mdec_vec W idx H0 = Some r /\ mdec_passes W idx H0 = Some k /\ 0 <= k <= 256.
Proof.
  intros Hs. unfold mdec_passes, mdec_vec. cbv zeta.
  destruct (passes_post (mdec_step W idx) alone
    (fun '(k, index, cur, out, prev, history0, H) => 1 <= k <= 256 /\ index = k - 1 /\ forall j, 0 <= j < W -> prev j = (idx j <? k))
    (fun '(k, _, _, _, _, _, _) => 257 - k) (fun _ => True) (fun _ => 0)
    (1, 0, H0 0, vec W (fun j => sel (mask W (fun j => idx j =? 0) j) (H0 0 j)), mask W (fun j => idx j =? 0), vec W (fun j => sel (mask W (fun j => idx j =? 0) j) (H0 0 j)), H0)) as (r & k & E1 & E & _ & Hk0 & Hk).
  - intros [[[[[[k index] cur] out] prev] history0] H] (Hk & Hi & HJ). exists 0. split; [reflexivity|]. split; [lia|].
    unfold mdec_step. destruct (forallb prev (lanes W)) eqn:Ea; [lia|]. cbv zeta.
    assert (Hk2 : k <= 255).
    { destruct (Z_le_gt_dec k 255) as [|Hgt]; [assumption|exfalso]. rewrite all_prev in Ea; [discriminate|]. intros j Hj. rewrite HJ by exact Hj. specialize (Hs j Hj). unfold is_byte in Hs. lia. }
    split; [|lia]. split; [lia|]. assert (Ew : w8 (index + 1) = k) by (unfold w8; rewrite Z.mod_small; lia). rewrite Ew. split; [lia|].
    intros j Hj. rewrite !mask_at, HJ by exact Hj. lia.
  - split; [lia|]. split; [reflexivity|]. intros j Hj. rewrite mask_at by exact Hj. specialize (Hs j Hj). unfold is_byte in Hs. lia.
  - lia.
  - rewrite E1. destruct r as [[out history0] H]. eexists _, k. split; [reflexivity|]. split; [exact E|lia].
Qed.

(** *** The last bytes *)
Lemma row_passes_le k : forall d f, 1 <= row_passes k d f <= Z.of_nat k + 1.
Proof. induction k as [|k IH]; intros d f; cbn [row_passes]; [lia|]. destruct (f d); [lia|]. specialize (IH (d + 1) f). lia. Qed.
Lemma mtail_le dec H l : forall s, snd (fold_left (mtail_count dec H) l s) <= snd s + 258 * len l.
Proof.
  induction l as [|i l IH]; intros [[[p q] M] k]; cbn [fold_left]; [unfold len; cbn; lia|]. rewrite len_cons. specialize (IH (mtail_count dec H (p, q, M, k) i)).
  etransitivity; [exact IH|]. unfold mtail_count. cbn [snd]. pose proof (row_passes_le 256 0 (fun d => H d i =? M p)) as Hr. set (r := row_passes 256 0 (fun d => H d i =? M p)) in *. clearbody r.
  destruct dec; lia.
Qed.
Lemma len_lanes_max c : len (lanes c) = Z.max 0 c.
Proof. unfold len, lanes. rewrite map_length, seq_length. lia. Qed.

(** *** mmtf.c *)
Theorem mtf_linear dec W : W = 16 \/ W = 32 -> LinearTransform (mtf_passes dec W) 17 8000.
Proof.
  intros HW M0 pin n pout HM Hn Hfw. assert (HW0 : 0 < W) by lia. unfold mtf_passes.
  assert (Hb : forall i, 0 <= i < n -> is_byte (M0 (pin + i))) by (intros; apply HM).
  destruct (run_loop dec W M0 pin n pout HW0 Hfw Hb ltac:(lia)) as (rem & p & q & M & H & E & (X & c & Hc & Hr & Hr0 & -> & -> & HD & HH) & Hlt). rewrite E.
  match goal with |- context [passes ?st ?inner ?s0] => destruct (passes_bound st inner (RInv dec W M0 pin n pout) (fun '(rem, _, _, _, _) => 257 * (rem / W) + 1) s0) as (k & E2 & Hk) end.
  - clear E HD HH Hlt. intros [[[[rem1 p1] q1] M1] H1] HI. unfold mtf_step. destruct (W <=? rem1) eqn:EW; [|exists 0; split; [reflexivity|]; split; [lia|]; destruct HI as (? & ? & ? & ? & ? & _); assert (0 <= rem1 / W) by (apply Z.div_pos; lia); lia].
    destruct HI as (X1 & c1 & Hc1 & Hr1 & Hr01 & -> & -> & HD1 & HH1).
    assert (Hv : forall j, 0 <= j < W -> vec W (fun j => M1 (pin + W * c1 + j)) j = M0 (pin + (W * c1 + j))).
    { intros j Hj. rewrite vec_at by exact Hj. rewrite <- Z.add_assoc. apply (done_read dec W M0 pin n pout Hfw Hb X1 (W * c1)); [exact HD1|lia]. }
    destruct (one_ok dec W M0 pin n pout HW0 Hb X1 c1 M1 H1 _ Hc1 HD1 HH1 ltac:(lia) Hv) as (out & H' & E1 & O1 & O2). rewrite E1.
    assert (HC : exists k, (if dec then mdec_passes else menc_passes) W (vec W (fun j => M1 (pin + W * c1 + j))) H1 = Some k /\ 0 <= k <= 256).
    { destruct dec.
      - destruct (mdec_cost W (vec W (fun j => M1 (pin + W * c1 + j))) H1) as (r & k & _ & K1 & K2); [|exists k; auto]. intros j Hj. rewrite Hv by exact Hj. apply HM.
      - apply menc_cost. intros j Hj. rewrite Hv by exact Hj. pose proof (done_tab false W M0 pin n pout HW0 Hb _ _ _ c1 j HD1 ltac:(lia) Hj) as HT.
        destruct (rank_in (M0 (pin + (W * c1 + j))) _ HT (HM _)) as [R1 R2]. exists (rank (M0 (pin + (W * c1 + j))) (tab W X1 c1 j)). split; [exact R1|]. rewrite HH1 by (try exact R1; exact Hj). exact R2. }
    destruct HC as (k & -> & Hk). exists k. split; [reflexivity|]. split; [lia|].
    assert (Hdiv : (rem1 - W) / W = rem1 / W - 1) by (replace (rem1 - W) with (rem1 + (-1) * W) by lia; rewrite Z.div_add by lia; lia).
    assert (0 <= (rem1 - W) / W) by (apply Z.div_pos; lia). split; [|lia].
    exists (more dec W M0 pin X1 c1), (c1 + 1). replace (W * (c1 + 1)) with (W * c1 + W) by lia. split; [lia|]. split; [lia|]. split; [lia|]. split; [lia|]. split; [lia|]. split; [|exact O2].
    apply (done_more dec W M0 pin n pout HW0 Hb X1 c1 M1); [exact Hc1|exact HD1|lia|lia| |].
    + intros j Hj. rewrite vstore_in by lia. rewrite <- O1 by exact Hj. f_equal. lia.
    + intros x Hx. apply vstore_out. lia.
  - exists (fun _ => 0), 0. rewrite Z.mul_0_r. split; [lia|]. split; [lia|]. split; [lia|]. split; [lia|]. split; [lia|]. split.
    + split; [intros; lia|]. split; [intros; lia|]. reflexivity.
    + intros k j Hk Hj. unfold hist0. now rewrite tab_0.
  - assert (0 <= n / W <= n) by (split; [apply Z.div_pos; lia|apply Z.div_le_upper_bound; nia]). lia.
  - rewrite E2. cbn [oadd]. eexists. split; [reflexivity|].
    pose proof (mtail_le dec H (lanes rem) (pin + W * c, pout + W * c, M, 0)) as Ht. cbn [snd] in Ht. rewrite len_lanes_max in Ht.
    set (t := snd _) in *. clearbody t. destruct HW as [-> | ->]; lia.
Qed.

(** *** bit_mmtf.c *)
Lemma bit8_linear {S} (one : (Z -> Z) -> S -> Z * S) s0 : LinearTransform (bit8_passes one s0) 1 1.
Proof.
  intros M pin n pout HM Hn _. unfold bit8_passes.
  destruct (passes_bound (b8_step one pin n pout) alone (fun '(i, _, _) => 0 <= i <= n) (fun '(i, _, _) => n - i + 1) (0, s0, M)) as (k & E & Hk).
  - intros [[i st] M1] Hi. exists 0. split; [reflexivity|]. split; [lia|]. unfold b8_step. destruct (i <? n) eqn:Ei; [|lia]. destruct (one _ st). lia.
  - lia.
  - lia.
  - exists k. split; [exact E|lia].
Qed.
Lemma bit16_linear {S} (one : (Z -> Z) -> S -> Z * S) s0 : LinearTransform (bit16_passes one s0) 1 1.
Proof.
  intros M pin n pout HM Hn _. unfold bit16_passes. set (m := n - n mod 2). assert (Hm : m mod 2 = 0 /\ 0 <= m <= n) by (unfold m; lia).
  destruct (passes_bound (b16_step one pin m pout) alone (fun '(i, _, _) => 0 <= i <= m /\ i mod 2 = 0) (fun '(i, _, _) => m - i + 1) (0, s0, M)) as (k & E & Hk).
  - intros [[i st] M1] Hi. exists 0. split; [reflexivity|]. split; [lia|]. unfold b16_step. destruct (i <? m) eqn:Ei; [|lia]. destruct (one _ st). lia.
  - lia.
  - lia.
  - exists k. split; [exact E|lia].
Qed.
