(** rle8_mmtf128_decompress takes linear time. *)
From Verif Require Import LargeSpec Base Simd SimdProof Spec MtfModel MtfSpec MtfProof BitMtf MzModel MzBits MzPack MzDec MzEnc MzThm WrThm HsWrite.
From Verif Require Import CostModel CostThm DcostLe McostModel McostSpec McostMtf.

(** A loop that ends, and whose passes are paid for by [F], which grows. *)
Lemma passes_mono {S R} (step : S -> S + R) inner (I : S -> Prop) (F : S -> Z) (G : R -> Z) s0 r :
  loop step s0 = Some r ->
  (forall s, I s -> exists c, inner s = Some c /\ 0 <= c /\ match step s with inl s' => I s' /\ 1 + c + F s <= F s' | inr r => 1 + c + F s <= G r end) ->
  I s0 -> exists k, passes step inner s0 = Some k /\ 0 <= k /\ k + F s0 <= G r.
Proof.
  intros E H H0.
  assert (K : match loop step s0, loop (cstep step inner) (s0, 0) with
    | Some r, Some r' => exists k, r' = Some k /\ 0 <= k /\ k + F s0 <= G r | None, None => True | _, _ => False end).
  { apply (loop_rel step (cstep step inner) (fun s '(t, k) => s = t /\ I s /\ 0 <= k /\ k + F s0 <= F s) (fun r r' => exists k, r' = Some k /\ 0 <= k /\ k + F s0 <= G r)); [|repeat split; try assumption; lia].
    intros s [t k] (<- & Hs & Hk & Hle). unfold cstep. cbn [fst snd]. destruct (H s Hs) as (c & -> & Hc & Hm).
    destruct (step s) as [s2|r1]; [destruct Hm as (M1 & M2); repeat split; try assumption; lia|]. exists (k + 1 + c). repeat split; lia. }
  rewrite E in K. unfold passes. destruct (loop (cstep step inner) (s0, 0)) as [r'|]; [|contradiction]. destruct K as (k & -> & Hk). exists k. split; [reflexivity|exact Hk].
Qed.

(** *** Vectors of bytes *)
Definition ByteVec (v : Z -> Z) : Prop := forall j, 0 <= j < 16 -> is_byte (v j).
Lemma bv_vec v : (forall j, 0 <= j < 16 -> is_byte (v j)) -> ByteVec (vec 16 v).
Proof. intros H j Hj. rewrite vec_at by exact Hj. now apply H. Qed.
Lemma land_small x m : 0 <= m < 256 -> is_byte (Z.land x m).
Proof.
  intros Hm. unfold is_byte. split; [apply Z.land_nonneg; lia|].
  assert (E : Z.land x m = Z.land x m mod 2 ^ 8).
  { rewrite <- Z.land_ones by lia. rewrite <- Z.land_assoc. f_equal. rewrite Z.land_ones by lia. symmetry. apply Z.mod_small. lia. }
  rewrite E. apply Z.mod_pos_bound. lia.
Qed.
Lemma bv_vand v m j : 0 <= m < 256 -> is_byte (vand v m j).
Proof. intros. now apply land_small. Qed.
Lemma bv_sll k v j : is_byte (sll16 k v j).
Proof. unfold sll16, is_byte. apply Z.mod_pos_bound. lia. Qed.
Lemma bv_vor a b j : is_byte (a j) -> is_byte (b j) -> is_byte (vor a b j).
Proof. apply lor_byte_256. Qed.
Lemma bv_bitsel v j : is_byte (bitsel v j).
Proof.
  unfold bitsel, is_byte. assert (0 <= Z.land (v j) (2 ^ (j mod 8))) by (apply Z.land_nonneg; right; apply Z.pow_nonneg; lia). lia.
Qed.

Section Dec.
  Variable C : mem.
  Hypothesis HC : byte_mem C.

  Definition Unp (un : mem -> Z -> list (Z -> Z)) (g : Z) : Prop := forall p, len (un C p) = g /\ Forall ByteVec (un C p).
  Ltac unp := intros p; split; [reflexivity|]; repeat (apply Forall_cons; [apply bv_vec; intros j Hj|]); try apply Forall_nil;
    repeat first [apply bv_vand; lia | apply bv_sll | apply bv_bitsel | apply land_small; lia | apply bv_vor].
  Lemma unp_raw : Unp unraw 1.
  Proof. intros p. split; [reflexivity|]. apply Forall_cons; [|apply Forall_nil]. intros j Hj. rewrite load_at by exact Hj. apply HC. Qed.
  Lemma unp_2 : Unp un2 4. Proof. unp. Qed.
  Lemma unp_2t : Unp un2_tail 1. Proof. unp. Qed.
  Lemma unp_3 : Unp un3 6. Proof. unp. Qed.
  Lemma unp_3t : Unp un3_tail 1. Proof. unp. Qed.
  Lemma unp_4 : Unp un4 2. Proof. unp. Qed.
  Lemma unp_4t : Unp un4_tail 1. Proof. unp. Qed.

  Lemma fold_cons {A B} (f : A -> B -> A) v l a : fold_left f (v :: l) a = fold_left f l (f a v).
  Proof. reflexivity. Qed.
  Lemma blocks_cons q M H v l k : mdec_passes 16 v H = Some k -> blocks_passes (Some (q, M, H)) (v :: l) = oadd (Some k) (blocks_passes (dblock (Some (q, M, H)) v) l).
  Proof. intros <-. reflexivity. Qed.
  Lemma blocks_cost l : forall q M H, Forall ByteVec l -> exists M' H' k, fold_left dblock l (Some (q, M, H)) = Some (q + 16 * len l, M', H') /\
    blocks_passes (Some (q, M, H)) l = Some k /\ 0 <= k <= 256 * len l.
  Proof.
    induction l as [|v l IH]; intros q M H Hl.
    - exists M, H, 0. change (len (@nil (Z -> Z))) with 0. rewrite Z.add_0_r. split; [reflexivity|]. split; [reflexivity|lia].
    - inversion_clear Hl as [|? ? Hv Hl']. destruct (mdec_cost 16 v H Hv) as ([out H1] & k1 & E1 & E2 & Hk1). assert (Ed : dblock (Some (q, M, H)) v = Some (q + 16, vstore 16 out M q, H1)) by (unfold dblock; rewrite E1; reflexivity).
      rewrite fold_cons, (blocks_cons _ _ _ _ _ _ E2), Ed. clear Ed E1 E2. generalize (vstore 16 out M q) as M2. intros M2.
      destruct (IH (q + 16) M2 H1 Hl') as (M' & H' & k & E3 & E4 & Hk). rewrite E3, E4. rewrite len_cons. exists M', H', (k1 + k).
      split; [replace (q + 16 + 16 * len l) with (q + 16 * (1 + len l)) by lia; reflexivity|]. split; [reflexivity|lia].
  Qed.

  Lemma dloop_cost g adv un rem p q M H : Unp un g -> 1 <= g -> 0 <= rem < 2 ^ 40 ->
    exists r p' M' H' k, dloop g adv un C (rem, p, Some (q, M, H)) = Some (r, p', Some (q + 16 * (rem - r), M', H')) /\ 0 <= r < g /\ r <= rem /\
      dloop_passes g adv un C (rem, p, Some (q, M, H)) = Some k /\ 0 <= k <= 257 * (rem - r) + 1.
  Proof.
    intros HU Hg Hrem. unfold dloop, dloop_passes.
    destruct (passes_post (dgroup g adv un C) (dgroup_inner g un C) (fun '(r, _, st) => 0 <= r <= rem /\ exists M' H', st = Some (q + 16 * (rem - r), M', H'))
      (fun '(r, _, _) => 257 * r + 1) (fun '(r, _, st) => 0 <= r <= rem /\ r < g /\ exists M' H', st = Some (q + 16 * (rem - r), M', H')) (fun '(r, _, _) => 257 * r)
      (rem, p, Some (q, M, H))) as ([[r p'] st] & k & E1 & E2 & (Hr & Hrg & M' & H' & ->) & Hk & Hle).
    - intros [[r p1] st] (Hr & M1 & H1 & ->). unfold dgroup, dgroup_inner. destruct (g <=? r) eqn:Eg.
      + destruct (HU p1) as [L1 L2]. destruct (blocks_cost (un C p1) (q + 16 * (rem - r)) M1 H1 L2) as (M2 & H2 & k & E1 & E2 & Hk). rewrite L1 in *. rewrite E1, E2.
        exists k. split; [reflexivity|]. split; [lia|]. split; [|lia]. split; [lia|]. exists M2, H2. repeat first [lia|reflexivity|f_equal].
      + exists 0. split; [reflexivity|]. split; [lia|]. split; [|lia]. split; [lia|]. split; [lia|]. now exists M1, H1.
    - split; [lia|]. exists M, H. repeat first [lia|reflexivity|f_equal].
    - lia.
    - exists r, p', M', H', k. split; [exact E1|]. split; [lia|]. split; [lia|]. split; [exact E2|lia].
  Qed.

  Lemma dcopy_cost p q M H : exists p' c M' H' k, dcopy C p (Some (q, M, H)) = Some (p', Some (q + 16 * c, M', H')) /\ 0 <= c /\
    dcopy_passes C p (Some (q, M, H)) = Some k /\ 0 <= k <= 257 * c + 2.
  Proof.
    unfold dcopy, dcopy_passes. pose proof (HC p) as Hb. unfold is_byte in Hb. pose proof (rd32_range C p HC) as Hr32.
    assert (Hrem : exists rem p1, (if Z.land (C p) 1 =? 0 then (C p / 2 ^ 3, p + 1) else (rd32 C p / 2 ^ 3, p + 4)) = (rem, p1) /\ 0 <= rem < 2 ^ 40).
    { destruct (Z.land (C p) 1 =? 0); eexists _, _; (split; [reflexivity|]); change (2 ^ 3) with 8; lia. }
    destruct Hrem as (rem & p1 & -> & Hrem). cbv beta iota zeta.
    assert (both : forall g adv un un_tail adv_tail, Unp un g -> Unp un_tail 1 -> 1 <= g -> exists p' c M' H' k,
      match dloop g adv un C (rem, p1, Some (q, M, H)) with
      | Some s => match dloop 1 adv_tail un_tail C s with Some (_, p, st) => Some (p, st) | None => None end
      | None => None
      end = Some (p', Some (q + 16 * c, M', H')) /\ 0 <= c /\
      oadd (dloop_passes g adv un C (rem, p1, Some (q, M, H))) match dloop g adv un C (rem, p1, Some (q, M, H)) with Some s => dloop_passes 1 adv_tail un_tail C s | None => None end = Some k /\ 0 <= k <= 257 * c + 2).
    { intros g adv un un_tail adv_tail U1 U2 Hg. destruct (dloop_cost g adv un rem p1 q M H U1 Hg Hrem) as (r & p' & M' & H' & k & E1 & Hr & Hr2 & E2 & Hk). unfold MzModel.dst in *. rewrite E1, E2.
      destruct (dloop_cost 1 adv_tail un_tail r p' (q + 16 * (rem - r)) M' H' U2 ltac:(lia) ltac:(lia)) as (r2 & p2 & M2 & H2 & k2 & E3 & Hr3 & Hr4 & E4 & Hk2). rewrite E3, E4. cbn [oadd].
      exists p2, rem, M2, H2, (k + k2). split; [repeat first [lia|reflexivity|f_equal]|]. split; [lia|]. split; [reflexivity|lia]. }
    destruct (Z.land (C p) 6 =? 0).
    { destruct (dloop_cost 1 16 unraw rem p1 q M H unp_raw ltac:(lia) Hrem) as (r & p' & M' & H' & k & E1 & Hr & Hr2 & E2 & Hk). unfold MzModel.dst in *. rewrite E1, E2.
      exists p', rem, M', H', k. split; [repeat first [lia|reflexivity|f_equal]|]. split; [lia|]. split; [reflexivity|lia]. }
    destruct (Z.land (C p) 6 =? 6); [apply both; [exact unp_2|exact unp_2t|lia]|].
    destruct (Z.land (C p) 6 =? 4); [apply both; [exact unp_3|exact unp_3t|lia]|]. clear both.
    destruct (dloop_cost 2 16 un4 rem p1 q M H unp_4 ltac:(lia) Hrem) as (r & p' & M' & H' & k & E1 & Hr & Hr2 & E2 & Hk). unfold MzModel.dst in *. rewrite E1, E2.
    destruct (r =? 0) eqn:E0.
    - cbn [oadd]. exists p', rem, M', H', (k + 0). split; [repeat first [lia|reflexivity|f_equal]|]. split; [lia|]. split; [reflexivity|lia].
    - destruct (unp_4t p') as [L1 L2]. destruct (blocks_cost (un4_tail C p') (q + 16 * (rem - r)) M' H' L2) as (M2 & H2 & k2 & E3 & E4 & Hk2). rewrite L1 in *. unfold MzModel.dst in *. rewrite E3, E4. cbn [oadd].
      exists (p' + 8), rem, M2, H2, (k + k2). split; [repeat first [lia|reflexivity|f_equal]|]. split; [lia|]. split; [reflexivity|lia].
  Qed.
End Dec.

Lemma drun_cost sym count q M H : is_byte sym -> 1 <= count < 2 ^ 40 ->
  exists M' H' k, drun sym count q M H = Some (q + 16 * count, M', H') /\ drun_passes sym count q M H = Some k /\ 0 <= k <= 257 * count + 2.
Proof.
  intros Hs Hc. unfold is_byte in Hs. unfold drun, drun_passes.
  destruct (passes_post (cyc_step sym H) (fun '(count, _, _) => Some (if (2 <? sym) && (sym + 1 <=? count) then sym + 2 else 0))
    (fun '(c, q1, _) => 0 <= c <= count /\ q1 = q + 16 * (count - c)) (fun '(c, _, _) => 2 * c + 1)
    (fun '(c, q1, _) => 0 <= c <= sym /\ c <= count /\ q1 = q + 16 * (count - c)) (fun '(c, _, _) => 2 * c) (count, q, M)) as ([[c q1] M1] & k & E1 & E2 & (Hc1 & Hc2 & ->) & Hk & Hle).
  - intros [[c q1] M1] (Hc1 & ->). unfold cyc_step. destruct (sym + 1 <=? c) eqn:E.
    + rewrite andb_true_r. destruct (fold_left _ _ _) as [q2 M2]. eexists. split; [reflexivity|]. destruct (2 <? sym) eqn:E2; lia.
    + rewrite andb_false_r. exists 0. split; [reflexivity|]. lia.
  - lia.
  - lia.
  - rewrite E1, E2. destruct (Z_le_gt_dec sym 2) as [Hle2|Hgt].
    + replace (sym <=? 2) with true by lia. cbn [oadd]. 
      assert (HR : exists M' H', (if sym =? 0 then Some (q + 16 * (count - c), M1, H)
        else if sym =? 1 then if c =? 0 then Some (q + 16 * (count - c), M1, H) else Some (q + 16 * (count - c) + 16, vstore 16 (H 1) M1 (q + 16 * (count - c)), hrow (hrow H 0 (H 1)) 1 (H 0))
        else if sym =? 2 then
          if c =? 2 then Some (q + 16 * (count - c) + 32, vstore 16 (H 1) (vstore 16 (H 2) M1 (q + 16 * (count - c))) (q + 16 * (count - c) + 16), hrow (hrow (hrow H 0 (H 1)) 1 (H 2)) 2 (H 0))
          else if c =? 1 then Some (q + 16 * (count - c) + 16, vstore 16 (H 2) M1 (q + 16 * (count - c)), hrow (hrow (hrow H 0 (H 2)) 1 (H 0)) 2 (H 1))
          else Some (q + 16 * (count - c), M1, H)
        else match loop (rest_step sym) (c, q + 16 * (count - c), M1, H) with Some r => Some r | None => None end) = Some (q + 16 * count, M', H')).
      { destruct (sym =? 0) eqn:S0; [eexists _, _; repeat first [lia|reflexivity|f_equal]|]. destruct (sym =? 1) eqn:S1; [destruct (c =? 0) eqn:C0; eexists _, _; repeat first [lia|reflexivity|f_equal]|].
        destruct (sym =? 2) eqn:S2; [|lia]. destruct (c =? 2) eqn:C2; [eexists _, _; repeat first [lia|reflexivity|f_equal]|]. destruct (c =? 1) eqn:C1; eexists _, _; repeat first [lia|reflexivity|f_equal]. }
      destruct HR as (M' & H' & HR). exists M', H', (k + 0). split; [exact HR|]. split; [reflexivity|lia].
    + replace (sym <=? 2) with false by lia. replace (sym =? 0) with false by lia. replace (sym =? 1) with false by lia. replace (sym =? 2) with false by lia.
      destruct (passes_post (rest_step sym) (fun '(count, _, _, _) => Some (if count =? 0 then 0 else sym + 1))
        (fun '(c1, q1, _, _) => 0 <= c1 <= c /\ q1 = q + 16 * (count - c1)) (fun '(c1, _, _, _) => 257 * c1 + 1) (fun '(q1, _, _) => q1 = q + 16 * count) (fun _ => 0)
        (c, q + 16 * (count - c), M1, H)) as ([[q2 M2] H2] & k2 & E3 & E4 & -> & Hk2 & Hle2).
      * intros [[[c1 q1] M2] H2] (Hc3 & ->). unfold rest_step. destruct (c1 =? 0) eqn:E; [exists 0; split; [reflexivity|]; lia|]. cbv zeta. exists (sym + 1). split; [reflexivity|]. lia.
      * lia.
      * lia.
      * rewrite E3, E4. cbn [oadd]. exists M2, H2, (k + k2). split; [reflexivity|]. split; [reflexivity|lia].
Qed.

(** The passes are paid for by the blocks that are written. *)
Lemma mz_any C pin M pout p q M' H' : byte_mem C -> loop (mz_dstep C) (pin, (pout, M, hist0)) = Some (Some (p, (q, M', H'))) ->
  exists k, passes (mz_dstep C) (mz_dinner C) (pin, (pout, M, hist0)) = Some k /\ 0 <= k <= 262 * ((q - pout) / 16) + 3.
Proof.
  intros HC E.
  destruct (passes_mono (mz_dstep C) (mz_dinner C) (fun '(_, (q, _, _)) => exists b, 0 <= b /\ q = pout + 16 * b) (fun '(_, (q, _, _)) => 262 * ((q - pout) / 16))
    (fun r => match r with Some (_, (q, _, _)) => 262 * ((q - pout) / 16) + 3 | None => 0 end) (pin, (pout, M, hist0)) _ E) as (k & E1 & Hk & Hle).
  - intros [p1 [[q1 M1] H1]] (b & Hb & ->). unfold mz_dstep, mz_dinner. destruct (dcopy_cost C HC p1 (pout + 16 * b) M1 H1) as (p2 & c & M2 & H2 & k & E1 & Hc & E2 & Hk). rewrite E1, E2.
    pose proof (HC p2) as Hb2. unfold is_byte in Hb2. pose proof (rd32_range C p2 HC) as Hr32.
    assert (Hcnt : exists cnt p3, (if Z.land (C p2) 1 =? 0 then (C p2 / 2, p2 + 1) else (rd32 C p2 / 2, p2 + 4)) = (cnt, p3) /\ 0 <= cnt < 2 ^ 40).
    { destruct (Z.land (C p2) 1 =? 0); eexists _, _; (split; [reflexivity|]); lia. }
    destruct Hcnt as (cnt & p3 & -> & Hcnt). destruct (cnt =? 0) eqn:E0.
    + cbn [oadd]. exists (k + 0). split; [reflexivity|]. split; [lia|]. replace (pout + 16 * b + 16 * c - pout) with ((b + c) * 16) by lia. replace (pout + 16 * b - pout) with (b * 16) by lia. rewrite !Z.div_mul by lia. lia.
    + destruct (drun_cost (C p3) cnt (pout + 16 * b + 16 * c) M2 H2 (HC p3) ltac:(lia)) as (M3 & H3 & k2 & E3 & E4 & Hk2). rewrite E3, E4. cbn [oadd].
      exists (k + k2). split; [reflexivity|]. split; [lia|]. split; [exists (b + c + cnt); lia|].
      replace (pout + 16 * b + 16 * c + 16 * cnt - pout) with ((b + c + cnt) * 16) by lia. replace (pout + 16 * b - pout) with (b * 16) by lia. rewrite !Z.div_mul by lia. lia.
  - exists 0. lia.
  - exists k. split; [exact E1|]. rewrite Z.sub_diag in Hle. change (0 / 16) with 0 in Hle. lia.
Qed.

Theorem mz_dec_linear undef M0 pout0 : LinearDecodeB (mz_compress undef M0 pout0 false false) (fun n => n + 13) mz_dpasses 17 20.
Proof.
  intros X n cap HX Hn Hcap. pose proof (max_large1 n Hn) as HnL. unfold max_in in Hn. destruct (mz_run_ok undef X n M0 pout0 HX HnL) as (segs & m & c & M' & HV & Hc & Ht & HF & E & Hh & Hle & _).
  set (b := mz_body X segs m c (n - 16 * (total segs + c))) in *. exists (le32 n ++ le32 (8 + len b) ++ b). pose proof (len_nonneg b).
  assert (Hmb : mz_bounds n <= cap) by (rewrite mz_bounds_small by (unfold max_in; lia); lia). split.
  { unfold mz_compress. replace (false || (n =? 0) || false || (cap <? mz_bounds n)) with false by (cbn [orb]; rewrite orb_false_r; lia). rewrite E. f_equal.
    replace (8 + len b) with (len (le32 n ++ le32 (8 + len b) ++ b)) at 1 by (rewrite !len_app, !len_le32; lia). now apply slice_of_holds. }
  clear E Hh M'. intros C pin M pout HCb Hh Hp Hp64 Hq Hq64. unfold mz_dpasses. cbv zeta.
  rewrite (rd32_holds C pin n _) by (try exact Hh; lia). apply holds_app in Hh as [_ Hh]. rewrite len_le32 in Hh. apply holds_app in Hh as [_ Hh]. rewrite len_le32 in Hh. replace (pin + 4 + 4) with (pin + 8) in Hh by lia.
  unfold b, mz_body in Hh. rewrite !app_assoc in Hh. apply holds_app in Hh as [Hh1 _]. rewrite <- !app_assoc in Hh1.
  pose proof (total_nonneg X n ltac:(intros; apply HX) segs 0 HV) as Ht0.
  destruct (dmain_ok X n ltac:(intros; apply HX) M pout C m c segs (pin + 8) 0 (pout, M, hist0)) as ([[q M1] H1] & E1 & (Hq1 & HW & HH)); try assumption; try (unfold max_in; lia).
  { split; [lia|]. split; [split; [lia|reflexivity]|]. intros k j Hk Hj. unfold hist0. now rewrite tab_0. }
  rewrite E1. destruct (mz_any C (pin + 8) M pout _ _ _ _ HCb E1) as (k & E2 & Hk). rewrite E2. cbn [oadd]. eexists. split; [reflexivity|].
  rewrite w64_id by lia. replace ((q - pout) / 16) with (n / 16) in Hk by (rewrite Hq1; replace (pout + 16 * (0 + total segs + c) - pout) with ((n / 16) * 16) by lia; rewrite Z.div_mul; lia). lia.
Qed.
