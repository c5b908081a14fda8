(** rle8m takes linear time. *)
From Verif Require Import Base Simd SimdProof Spec Spec2 ExtModel ExtEnc PktModel Rle8Model LeModel LeSpec LeTable LeDec LeEnc LeSize LeThm LeHos RmThm WrThm.
From Verif Require Import CostModel CostSpec CostThm DcostModel DcostSpec DcostThm DcostLe McostSpec RmcostModel.

Lemma passes_le {S R} (step : S -> S + R) inner (I : S -> Prop) (P : S -> Z) (Q : R -> Prop) (F : R -> Z) s0 :
  (forall s, I s -> exists c, inner s = Some c /\
     match step s with inl s' => I s' /\ 0 <= P s' < P s /\ 1 + c + P s' <= P s | inr r => Q r /\ 1 + c + F r <= P s end) ->
  I s0 -> 0 <= P s0 < 2 ^ 64 -> exists r k, loop step s0 = Some r /\ passes step inner s0 = Some k /\ Q r /\ k + F r <= P s0.
Proof.
  intros H H0 HP.
  destruct (loop_inv step I P (fun _ => True) s0) as (r & E & _); [|exact H0|lia|].
  - intros s Hs. destruct (H s Hs) as (c & _ & Hm). destruct (step s) as [s'|r]; [|exact Logic.I].
    destruct Hm as (M1 & M2 & M3). split; [exact M1|lia].
  - assert (K : match loop step s0, loop (cstep step inner) (s0, 0) with
      | Some r, Some r' => exists k, r' = Some k /\ Q r /\ k + F r <= P s0 | None, None => True | _, _ => False end).
    { apply (loop_rel step (cstep step inner) (fun s '(t, k) => s = t /\ I s /\ k + P s <= P s0)
        (fun r r' => exists k, r' = Some k /\ Q r /\ k + F r <= P s0)); [|repeat split; try assumption; lia].
      intros s [t k] (<- & Hs & Hle). unfold cstep. cbn [fst snd]. destruct (H s Hs) as (c & -> & Hm).
      destruct (step s) as [s2|r1]; [destruct Hm as (M1 & M2 & M3); repeat split; try assumption; lia|].
      destruct Hm as (M1 & M2). exists (k + 1 + c). repeat split; try assumption; lia. }
    rewrite E in K. unfold passes. destruct (loop (cstep step inner) (s0, 0)) as [r'|]; [|contradiction].
    destruct K as (k & -> & Hk). exists r, k. split; [exact E|]. split; [reflexivity|exact Hk].
Qed.

Lemma section_cost info In a m o : byte_mem In -> 0 <= m <= max_in -> exists k, section_passes info In a m o = Some k /\ k <= 2 * m + 1.
Proof.
  intros HIn Hm. unfold section_passes. destruct ((m =? 0) || (o <? m)) eqn:E; [exists 0; split; [reflexivity|lia]|].
  exact (le_linear 255 info ltac:(lia) (fun k => In (a + k)) m (fun k => HIn (a + k)) ltac:(lia)).
Qed.

Theorem rm_linear subs cap : 1 <= subs <= 2 ^ 28 -> LinearPasses (rm_passes subs cap) 2 (2 * subs).
Proof.
  intros Hs In n HIn Hn. unfold rm_passes. set (info := le_info 255 false In n). clearbody info. set (sub := n / subs). cbv zeta.
  pose proof (sub_bounds n subs Hn Hs (subs - 1) ltac:(lia)) as [S1 S2]. fold sub in S1, S2.
  pose proof (sub_bounds n subs Hn Hs subs ltac:(lia)) as [_ S3]. fold sub in S3. assert (Hn' := Hn). unfold max_in in Hn'.
  assert (Hsub : sub <= n) by (unfold sub; apply Z.div_le_upper_bound; nia). clearbody sub.
  set (s0 := (0, _, _, _)).
  destruct (passes_le (rm_step info In subs sub cap) (rm_inner info In subs sub cap) (fun '(i, _, _, _) => 0 <= i <= subs - 1)
    (fun '(i, _, _, _) => (2 * sub + 2) * (subs - 1 - i) + 1) (fun _ => True) (fun _ => 0) s0) as (r & k & E1 & E2 & _ & Hk).
  - intros [[[i index] offs] out] Hi. unfold rm_inner, rm_step. destruct (i <? subs - 1) eqn:Ei; [|exists 0; repeat split; nia].
    destruct (section_cost info In (w32 (sub * i)) sub (w32 (cap - index)) HIn ltac:(lia)) as (c & Ec & Hc). exists c. split; [exact Ec|].
    destruct (le_with_info _ _ _ _ _) as [[body|]|]; [|split; [exact Logic.I|nia]..]. split; [lia|]. split; nia.
  - unfold s0. lia.
  - unfold s0. nia.
  - rewrite E1, E2. unfold s0 in Hk. destruct r as [[|x|] [[index offs] out]]; cbn [oadd].
    1, 3: eexists; split; [reflexivity|]; nia.
    rewrite (w32_id (sub * (subs - 1))) by lia. rewrite (w32_id (n - sub * (subs - 1))) by lia.
    destruct (section_cost info In (sub * (subs - 1)) (n - sub * (subs - 1)) (w32 (cap - index)) HIn ltac:(unfold max_in; lia)) as (c & -> & Hc).
    cbn [oadd]. eexists. split; [reflexivity|]. nia.
Qed.

Theorem rm_dec_linear subs c : 1 <= subs <= 2 ^ 28 -> LinearInStream (rm_compress subs false false) (rm_dpasses c) 18 (3 * subs).
Proof.
  intros Hs In n cap out HIn Hn. unfold rm_compress. destruct (false || (n =? 0) || false || (cap <? rm_bounds subs n) || (subs =? 0)); [discriminate|].
  set (info := le_info 255 false In n). assert (HI : InfoOk info) by apply le_info_ok. destruct (cap <? 32 + 256 + 1); [discriminate|].
  destruct (syms_inverse info HI) as (stc & Hstc). set (sub := n / subs). set (head := write_info info). set (base := 12 + 4 * (subs - 1) + len head).
  destruct (loop (rm_step info In subs sub cap) (0, base, [], [])) as [[r [[index offs] secs]]|] eqn:E1; [|discriminate].
  pose proof (rm_loop_ok info stc In n subs HI Hstc HIn Hn Hs cap _ _ E1) as HR. destruct r as [r| |]; try discriminate. clear E1.
  pose proof (base_bounds info subs HI Hs) as HB. fold head base in HB.
  pose proof (sub_bounds n subs Hn Hs (subs - 1) ltac:(lia)) as [S1 S2]. pose proof (sub_bounds n subs Hn Hs subs ltac:(lia)) as [_ S3]. fold sub in S1, S2, S3.
  assert (S4 : sub * subs = sub * (subs - 1) + sub) by ring.
  assert (Esw : w32 (sub * (subs - 1)) = sub * (subs - 1)) by (apply (sub_w32 n subs Hn Hs (subs - 1)); lia). rewrite Esw. unfold max_in in Hn. rewrite (w32_id (n - sub * (subs - 1))) by lia. set (rest := n - sub * (subs - 1)).
  destruct (le_with_info 255 info (fun k => In (sub * (subs - 1) + k)) rest (w32 (cap - index))) as [[body|]|] eqn:E2; try discriminate.
  intros H.
  assert (HO : out = le32 (w32 (index + len body)) ++ le32 n ++ le32 subs ++ offs ++ head ++ secs ++ body)
    by (symmetry; exact (f_equal (fun r => match r with COk o => o | _ => [] end) H)). clear H.
  assert (Hrest : 1 <= rest) by (apply (section_pos info In rest _ _ _ ltac:(lia) E2)).
  assert (HS : Ser 255 (li_rle info) stc body (slice In (sub * (subs - 1)) rest)) by (eapply section_ser; [exact HI|exact Hstc|exact HIn|exact Hrest|lia|exact E2]).
  assert (Hlb : len body <= 2 * rest) by (pose proof (ser_len _ _ _ _ _ HS) as K; rewrite len_slice in K by lia; exact K).
  destruct HR as (R1 & R2 & R3 & R4 & R5 & R6 & idx & R7 & R8 & R9). fold head base sub in R3, R4, R7, R9.
  pose proof (len_nonneg body). pose proof (len_nonneg secs).
  rewrite w32_id in HO by lia.
  assert (Hlen : len out = index + len body) by (rewrite HO, !len_app, !len_le32; lia).
  intros C pin M pout HC Hh Hp Hp64 Hq Hq64.
  rewrite Hlen in *. rewrite HO in Hh. unfold rm_dpasses.
  rewrite (rd32_holds C pin (index + len body) _) by (try exact Hh; lia).
  apply holds_app in Hh. destruct Hh as [_ Hh]. rewrite len_le32 in Hh.
  rewrite (rd32_holds C (pin + 4) n _) by (try exact Hh; lia).
  apply holds_app in Hh. destruct Hh as [_ Hh]. rewrite len_le32 in Hh. replace (pin + 4 + 4) with (pin + 8) in Hh by lia.
  rewrite (rd32_holds C (pin + 8) subs _) by (try exact Hh; lia).
  apply holds_app in Hh. destruct Hh as [_ Hh]. rewrite len_le32 in Hh. replace (pin + 8 + 4) with (pin + 12) in Hh by lia.
  apply holds_app in Hh. destruct Hh as [Hoffs Hh]. rewrite R2 in Hh. cbv zeta.
  pose proof (read_info_byte C (pin + 12 + 4 * (subs - 1)) HC) as Hst.
  destruct (read_write_info info C (pin + 12 + 4 * (subs - 1)) (secs ++ body) HI Hh) as (rle & stc' & E & _). rewrite E in Hst |- *. fold head in Hst |- *. destruct Hst as [Hst _].
  replace (pin + 12 + 4 * (subs - 1) + len head) with (pin + base) by (unfold base; lia). fold sub.
  destruct (passes_le (rmd_step c rle stc' C pin subs sub) (rmd_inner c rle stc' C pin subs)
    (fun '(i, p, q, N) => 0 <= i <= subs - 1 /\ p = pin + idx i /\ q = pout + sub * i /\ base <= idx i <= base + len secs)
    (fun '(i, p, _, _) => 18 * (pin + base + len secs - p) + 3 * (subs - 1 - i) + 1)
    (fun r => exists M1, r = Some (pin + index, pout + sub * (subs - 1), M1)) (fun _ => 0)
    (0, pin + base, pout, M)) as (r & k & L1 & L2 & (M1 & ->) & Hk).
  - intros [[[i p] q] N] (I1 & -> & -> & I4). unfold rmd_step, rmd_inner. destruct (i <? subs - 1) eqn:Ei.
    + destruct (R9 i ltac:(lia)) as (K1 & body' & o1 & o2 & t1 & t2 & K2 & K3 & K4 & K5 & K6 & K7).
      assert (E3 : rd32 C (pin + 12 + 4 * i) = idx (i + 1)).
      { rewrite K2 in Hoffs. apply holds_app in Hoffs. destruct Hoffs as [_ Ho]. rewrite K3 in Ho. apply (rd32_holds C _ (idx (i + 1)) o2); [exact K1|exact Ho]. }
      rewrite E3. pose proof (len_nonneg body'). pose proof (len_nonneg t2).
      fold head base in K5. assert (Hl : len secs = len t1 + len body' + len t2) by (rewrite K4, !len_app; lia).
      pose proof (sub_bounds n subs ltac:(unfold max_in; lia) Hs i ltac:(lia)) as [_ S5]. fold sub in S5.
      destruct (le_decode_cost 255 c rle stc' C (pin + idx i) (pin + idx (i + 1)) N (pout + sub * i) Hst ltac:(lia) ltac:(lia) ltac:(lia)) as (k1 & D1 & D2).
      destruct (le_decode_any 255 c rle stc' C (pin + idx i) (pin + idx (i + 1)) N (pout + sub * i) sub Hst ltac:(lia) ltac:(lia) ltac:(lia) ltac:(lia)) as (N' & D3 & _).
      exists k1. split; [exact D1|]. rewrite D3. split; [split; [lia|]; split; [lia|]; split; [ring|lia]|]. split; lia.
    + exists 0. split; [reflexivity|]. assert (Ei' : i = subs - 1) by lia. subst i. rewrite R8. split; [eexists; reflexivity|]. lia.
  - rewrite R7, Z.mul_0_r. lia.
  - lia.
  - rewrite L1, L2.
    destruct (le_decode_cost 255 c rle stc' C (pin + index) (pin + (index + len body)) M1 (pout + sub * (subs - 1)) Hst ltac:(lia) ltac:(lia) ltac:(lia)) as (k1 & D1 & D2).
    rewrite D1. cbn [oadd]. eexists. split; [reflexivity|]. lia.
Qed.
