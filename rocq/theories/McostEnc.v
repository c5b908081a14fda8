(** rle8_mmtf128_compress takes linear time. *)
From Verif Require Import Base Simd SimdProof Spec MtfModel MtfSpec MtfProof BitMtf MzModel MzBits MzPack MzDec MzEnc.
From Verif Require Import CostModel CostSpec CostThm DcostLe McostModel McostMtf.

(** *** Closing a copy *)

(** A loop over groups of [g] blocks and one over those that are left *)
Lemma two_loops (st : Z * Z * Z * mem -> Z * Z * Z * mem + (Z * Z * Z * mem)) (tl : Z * Z * Z * mem -> Z * Z * Z * mem + (Z * mem)) g c p q M :
  1 <= g -> 0 <= c < 2 ^ 40 ->
  (forall i p q M, match st (i, p, q, M) with inl (i', _, _, _) => i' = i + 16 * g /\ i' <= 16 * c | inr (i', _, _, _) => i' = i end) ->
  (forall i p q M, match tl (i, p, q, M) with inl (i', _, _, _) => i' = i + 16 /\ i < 16 * c | inr _ => True end) ->
  exists s k k', loop st (0, p, q, M) = Some s /\ passes st alone (0, p, q, M) = Some k /\ passes tl alone s = Some k' /\ 0 <= k /\ 0 <= k' /\ k + k' <= c + 2.
Proof.
  intros Hg Hc Hst Htl.
  destruct (passes_post st alone (fun '(i, _, _, _) => 0 <= i <= 16 * c /\ i mod 16 = 0) (fun '(i, _, _, _) => (16 * c - i) / 16 + 1)
    (fun '(i, _, _, _) => 0 <= i <= 16 * c /\ i mod 16 = 0) (fun '(i, _, _, _) => (16 * c - i) / 16) (0, p, q, M)) as ([[[i1 p1] q1] M1] & k & E1 & E2 & Hi & Hk & Hle).
  - intros [[[i p1] q1] M1] Hi. exists 0. split; [reflexivity|]. split; [lia|]. specialize (Hst i p1 q1 M1). destruct (st _) as [[[[i' p2] q2] M2]|[[[i' p2] q2] M2]]; lia.
  - lia.
  - lia.
  - destruct (passes_bound tl alone (fun '(i, _, _, _) => 0 <= i <= 16 * c /\ i mod 16 = 0) (fun '(i, _, _, _) => (16 * c - i) / 16 + 1) (i1, p1, q1, M1)) as (k' & E3 & Hk').
    + intros [[[i p2] q2] M2] Hj. exists 0. split; [reflexivity|]. split; [lia|]. specialize (Htl i p2 q2 M2). destruct (tl _) as [[[[i' p3] q3] M3]|r]; lia.
    + exact Hi.
    + lia.
    + exists (i1, p1, q1, M1), k, k'. split; [exact E1|]. split; [exact E2|]. split; [exact E3|]. split; [lia|]. split; [lia|]. lia.
Qed.

Lemma copy_cost bits M h c : 0 <= c < 2 ^ 40 -> exists k, copy_passes bits M h c = Some k /\ 0 <= k <= c + 2.
Proof.
  intros Hc. unfold copy_passes. cbv zeta. set (to := if c <? 32 then _ else _). clearbody to. destruct (clear_of 240 bits).
  - destruct (clear_of 252 bits); [|destruct (clear_of 248 bits)].
    + unfold pack2_passes. destruct (two_loops (pack2_step (c * 16)) (pack2_tail (c * 16)) 4 c (h + 4) to M ltac:(lia) Hc) as (s & k & k' & E1 & E2 & E3 & K1 & K2 & K3).
      * intros i p q M1. unfold pack2_step. destruct (i <=? c * 16 - 64) eqn:E; cbv zeta; lia.
      * intros i p q M1. unfold pack2_tail. destruct (i <? c * 16) eqn:E; [cbv zeta; lia|exact Logic.I].
      * rewrite E1, E2, E3. cbn [oadd]. eexists. split; [reflexivity|lia].
    + unfold pack3_passes. destruct (two_loops (pack3_step (c * 16)) (pack3_tail (c * 16)) 6 c (h + 4) to M ltac:(lia) Hc) as (s & k & k' & E1 & E2 & E3 & K1 & K2 & K3).
      * intros i p q M1. unfold pack3_step. destruct (i <=? c * 16 - 96) eqn:E; cbv zeta; lia.
      * intros i p q M1. unfold pack3_tail. destruct (i <? c * 16) eqn:E; [cbv zeta; lia|exact Logic.I].
      * rewrite E1, E2, E3. cbn [oadd]. eexists. split; [reflexivity|lia].
    + unfold pack4_passes.
      destruct (passes_bound (pack4_step (c * 16)) alone (fun '(i, _, _, _) => 0 <= i <= 16 * c) (fun '(i, _, _, _) => (16 * c - i) / 16 + 1) (0, h + 4, to, M)) as (k & E & Hk).
      * intros [[[i p] q] M1] Hi. exists 0. split; [reflexivity|]. split; [lia|]. unfold pack4_step. destruct (i <=? c * 16 - 32) eqn:E; cbv zeta; lia.
      * lia.
      * lia.
      * exists k. split; [exact E|lia].
  - destruct (c <? 32) eqn:E32; [|exists 0; split; [reflexivity|lia]].
    destruct (passes_bound move_step alone (fun '(i, _, _, _) => 0 <= i) (fun '(i, _, _, _) => i + 1) (c, h + 4, h + 1, M)) as (k & E & Hk).
    + intros [[[i p] q] M1] Hi. exists 0. split; [reflexivity|]. split; [lia|]. unfold move_step. destruct (i =? 0) eqn:E; lia.
    + lia.
    + lia.
    + exists k. split; [exact E|lia].
Qed.

(** *** The encoder *)
Section Enc.
  Variables (X : mem) (n : Z).
  Hypothesis HX : byte_mem X.
  Hypothesis Hn : 1 <= n <= 2 ^ 30.
  Variables (M1 : mem) (base : Z).

  Definition pend (s : mzst) : Z := if z_copying s then z_count s else 0.
  Lemma pend_range b s : EInv X n M1 base b s -> 0 <= pend s <= b.
  Proof.
    intros (Hb & _ & _ & _ & _ & _ & HI). unfold pend. destruct (z_copying s); [|lia]. destruct HI as (segs & HV & Hc & Hb' & _). pose proof (tot0 X n HX segs HV). lia.
  Qed.
  (** What a pass does to the number of blocks of the open copy *)
  Lemma pend_step s s' : mz_step X s = inl s' -> 0 <= pend s ->
    (exists out H, menc_vec 16 (load X (z_in s)) (z_hist s) = Some (out, H) /\ if z_copying s && uniform out then pend s' = 0 else pend s' <= pend s + 1).
  Proof.
    unfold mz_step, pend. destruct (z_rem s <? 16); [discriminate|]. destruct (menc_vec _ _ _) as [[out H]|]; [|discriminate]. intros E Hp. exists out, H. split; [reflexivity|]. cbv zeta in E.
    destruct (z_copying s); cbn [andb].
    - destruct (uniform out).
      + destruct (copy_header _ _ _ _ _) as [[q M]|]; [|discriminate]. injection E as <-. reflexivity.
      + injection E as <-. cbn [z_copying z_count]. lia.
    - destruct (forallb _ _); [injection E as <-; cbn [z_copying]; lia|]. destruct (run_header _ _ _ _) as [q M]. destruct (uniform out); injection E as <-; cbn [z_copying z_count]; lia.
  Qed.

  Lemma block_cost b s : EInv X n M1 base b s -> 16 * b + 16 <= n -> exists k, menc_passes 16 (load X (z_in s)) (z_hist s) = Some k /\ 0 <= k <= 256.
  Proof.
    intros (Hb & _ & Hin & _ & HH & _) Hle. apply menc_cost. intros j Hj. rewrite load_at by exact Hj. rewrite Hin.
    destruct (hist_block X n ltac:(intros; apply HX) b (z_hist s) Hb Hle HH) as (A & _). exists (cod 16 X (16 * b + j)). split; [apply (E_byte X n); [intros; apply HX|lia]|]. now apply A.
  Qed.

  Lemma steps_cost s : EInv X n M1 base 0 s -> exists s' k, loop (mz_step X) s = Some (Some s') /\ passes (mz_step X) (mz_inner X) s = Some k /\ EInv X n M1 base (n / 16) s' /\
    0 <= k /\ k + pend s' <= 261 * (n / 16) + pend s + 1.
  Proof.
    intros H0. destruct (passes_post (mz_step X) (mz_inner X) (fun s => exists b, EInv X n M1 base b s) (fun s => 261 * (z_rem s / 16) + pend s + 1)
      (fun r => exists s', r = Some s' /\ EInv X n M1 base (n / 16) s') (fun r => match r with Some s' => pend s' | None => 0 end) s) as (r & k & E1 & E2 & (s' & -> & HE) & Hk & Hle).
    - intros s1 (b & HI). pose proof (step_ok X n HX ltac:(lia) M1 base b s1 HI) as K. pose proof (pend_range b s1 HI) as Hp. pose proof HI as (Hb & Hbn & _ & Hrem & _). unfold mz_inner. rewrite Hrem. destruct (n - 16 * b <? 16) eqn:Er.
      + rewrite K. exists 0. split; [reflexivity|]. split; [lia|]. split; [exists s1; split; [reflexivity|]; now replace (n / 16) with b by lia|]. lia.
      + destruct K as (s' & K & HI'). destruct (block_cost b s1 HI ltac:(lia)) as (kb & -> & Hkb). destruct (pend_step s1 s' K ltac:(lia)) as (out & H & -> & Hst).
        pose proof (pend_range _ _ HI') as Hp'. assert (Hr' : z_rem s' = n - 16 * (b + 1)) by (destruct HI' as (_ & _ & _ & Q & _); exact Q).
        rewrite K. destruct (z_copying s1 && uniform out) eqn:Ec.
        * apply andb_true_iff in Ec. destruct Ec as [Ecp _]. assert (Hps : pend s1 = z_count s1) by (unfold pend; now rewrite Ecp).
          destruct (copy_cost (z_bits s1) (z_mem s1) (z_last s1) (z_count s1) ltac:(lia)) as (kc & -> & Hkc). cbn [oadd].
          eexists. split; [reflexivity|]. split; [lia|]. split; [exists (b + 1); exact HI'|]. rewrite Hr'. lia.
        * cbn [oadd]. eexists. split; [reflexivity|]. split; [lia|]. split; [exists (b + 1); exact HI'|]. rewrite Hr'. lia.
    - now exists 0.
    - pose proof (pend_range _ _ H0). destruct H0 as (_ & _ & _ & -> & _). lia.
    - exists s', k. split; [exact E1|]. split; [exact E2|]. split; [exact HE|]. split; [exact Hk|]. destruct H0 as (_ & _ & _ & Q & _). rewrite Q in Hle. replace (n - 16 * 0) with n in Hle by lia. lia.
  Qed.
End Enc.

Lemma last_le In H p l : 0 <= fold_right (fun i k => 1 + row_passes 256 0 (fun d => H d i =? In (p + i)) + k) 0 l <= 258 * len l.
Proof.
  induction l as [|i l IH]; cbn [fold_right]; [unfold len; cbn; lia|]. rewrite len_cons. pose proof (row_passes_le 256 0 (fun d => H d i =? In (p + i))) as Hr.
  set (r := row_passes _ _ _) in *. clearbody r. lia.
Qed.

Theorem mz_linear undef M pout : LinearPasses (mz_passes undef M pout) 17 4000.
Proof.
  intros X n HX Hn. unfold max_in in Hn. unfold mz_passes. cbv zeta. set (M1 := put32 M pout n). set (base := pout + 8).
  destruct (steps_cost X n HX Hn M1 base (mkMz n 0 (base + 4) M1 hist0 0 0 true undef base)) as (s & k & E1 & E2 & HI & Hk & Hle).
  { unfold EInv. cbn [z_in z_rem z_hist z_mem z_copying]. split; [lia|]. split; [lia|]. split; [lia|]. split; [lia|]. split; [intros k j Hk Hj; unfold hist0; now rewrite tab_0|]. split; [intros x Hx; reflexivity|].
    exists []. cbn [z_count z_last z_mem z_out z_bits total stream Valid]. cbn zeta. change (len (@nil Z)) with 0. split; [exact Logic.I|]. split; [lia|]. split; [lia|]. split; [lia|]. split; [exact Logic.I|]. split; [lia|]. split; [intros; lia|apply bits_nil]. }
  rewrite E1, E2. change (pend (mkMz n 0 (base + 4) M1 hist0 0 0 true undef base)) with 0 in Hle. pose proof (pend_range X n HX M1 base _ _ HI) as Hp.
  assert (Hc : exists kc, (if z_copying s then copy_passes (z_bits s) (z_mem s) (z_last s) (z_count s) else Some 0) = Some kc /\ 0 <= kc <= pend s + 2).
  { unfold pend in *. destruct (z_copying s); [apply copy_cost; lia|exists 0; split; [reflexivity|lia]]. }
  destruct Hc as (kc & -> & Hkc). cbn [oadd]. eexists. split; [reflexivity|]. unfold mz_last_passes.
  pose proof (last_le X (z_hist s) (z_in s) (lanes (z_rem s))) as Ht. rewrite len_lanes_max in Ht. destruct HI as (_ & _ & _ & Hrem & _). rewrite Hrem in *.
  set (t := fold_right _ _ _) in *. clearbody t. lia.
Qed.
