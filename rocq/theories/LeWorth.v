(** The statistics of the low entropy codecs select the values that are worth it. *)
From Verif Require Import Base Spec LargeSpec Simd SimdProof Spec Spec2 ExtModel ExtEnc PktModel Rle8Model LeModel LeSpec LeTable LeDec LeEnc LeSize.

Lemma occ_snoc In n b : 0 <= n -> occ In (n + 1) b = occ In n b + (if b =? In n then 1 else 0).
Proof. intros Hn. unfold occ. rewrite slice_snoc, filter_app, len_app by lia. cbn [filter]. rewrite Z.add_0_l. destruct (b =? In n); reflexivity. Qed.

Lemma gI_spec L In : 2 <= L -> (forall k, is_byte (In k)) -> forall i b, is_byte b ->
  let '(last, count, prob, pcount) := gI L In (Z.of_nat i) in
  run_before In b i = (if b =? last then count else 0) /\ pieces_before L In b i = pcount b /\
  occ In (Z.of_nat i) b = prob b + (if b =? last then count else 0) /\ (0 < prob b -> 0 < pcount b).
Proof.
  intros HL HIn i b Hb. induction i as [|i IH].
  - unfold gI, occ. rewrite !slice_0 by lia. cbn. destruct (b =? -1); auto with zarith.
  - rewrite Nat2Z.inj_succ. unfold Z.succ. rewrite gI_snoc, occ_snoc by lia. cbn [run_before pieces_before].
    pose proof (gI_inv L In HL HIn (Z.of_nat i) ltac:(lia)) as HV.
    destruct (gI L In (Z.of_nat i)) as [[[last count] prob] pcount]. destruct IH as (I1 & I2 & I3 & I4). destruct HV as (V1 & V2 & V3 & _). specialize (V3 b Hb).
    rewrite I1, I2, I3. clear I1 I2 I3. unfold gstep. destruct (In (Z.of_nat i) =? last) eqn:E.
    + rewrite (Z.eqb_sym b (In (Z.of_nat i))). assert (Eb : (In (Z.of_nat i) =? b) = (b =? last)) by lia. rewrite Eb.
      destruct (b =? last); rewrite ?andb_false_r; [|destruct (0 <? 0) eqn:E0; [lia|]; cbn [andb]]; lia.
    + unfold upd. destruct (b =? last) eqn:Ebl.
      * assert (Hbl : b = last) by lia. rewrite <- Hbl in *. rewrite E. replace (b =? In (Z.of_nat i)) with false by lia. cbn [negb].
        assert (Hc : 0 < count). { destruct i; [|destruct (V2 ltac:(lia)); lia]. destruct (V1 eq_refl) as [H _]. unfold is_byte in Hb. lia. }
        replace (0 <? count) with true by lia. cbn [andb]. assert (0 <= count / L) by (apply Z.div_pos; lia). lia.
      * change (0 <? 0) with false. cbn [andb]. rewrite (Z.eqb_sym b (In (Z.of_nat i))). destruct (In (Z.of_nat i) =? b); lia.
Qed.

Lemma rle_iff_worth_large L In n b : 2 <= L -> (forall k, is_byte (In k)) -> 1 <= n <= large_in -> is_byte b ->
  li_rle (le_info L false In n) b = true <-> Worth L In n b.
Proof.
  intros HL HIn Hn Hb. unfold large_in in Hn. unfold le_info. rewrite hist_eq.
  pose proof (gI_hist L In HL HIn n ltac:(lia)) as HG. pose proof (gI_bounds L In n HL HIn ltac:(lia)) as HB. pose proof (gI_inv L In HL HIn n ltac:(lia)) as HV.
  pose proof (gI_spec L In HL HIn (Z.to_nat n) b Hb) as HS. rewrite Z2Nat.id in HS by lia.
  destruct (gI L In n) as [[[last count] prob] pcount]. destruct (histI L In n) as [[[last' count'] prob'] pcount'].
  destruct HG as (-> & -> & HG). destruct (HG b Hb) as [G1 G2]. destruct HB as [B1 B2]. destruct (B2 b Hb) as [B3 B4]. destruct HV as (_ & V2 & V3 & _). specialize (V3 b Hb).
  destruct (V2 ltac:(lia)) as [_ V4]. clear V2. destruct HS as (S1 & S2 & S3 & S4).
  destruct (le_table _) as [syms cnt]. cbn [li_rle]. set (pr := upd prob' last _). set (pc := upd pcount' last _).
  rewrite tab_range by exact Hb. rewrite !tab_range by exact Hb.
  assert (Epr : pr b = occ In n b).
  { rewrite S3. unfold pr, upd. destruct (b =? last) eqn:E; [|lia]. assert (E' : b = last) by lia. rewrite <- E', G1. apply w32_id. lia. }
  assert (Epc : pc b = pieces L In n b).
  { unfold pieces. rewrite S1, S2. unfold pc, upd. destruct (b =? last) eqn:E; [|rewrite Z.ltb_irrefl; lia]. assert (E' : b = last) by lia. rewrite <- E', G2.
    replace (0 <? count) with true by lia. apply w32_id. lia. }
  rewrite Epr, Epc. assert (H0 : 0 <= pieces L In n b) by (unfold pieces; rewrite S2; destruct (0 <? _); lia).
  assert (H1 : 0 < occ In n b -> 0 < pieces L In n b).
  { unfold pieces. rewrite S1, S2, S3. destruct (b =? last); [replace (0 <? count) with true by lia; lia|]. rewrite Z.ltb_irrefl. lia. }
  unfold Worth. clear - H0 H1. split.
  - intros H. apply andb_prop in H. destruct H as [Ha Hd]. pose proof (Z.mul_div_le (occ In n b) (pieces L In n b) ltac:(lia)). nia.
  - intros [Ha Hd]. specialize (H1 Ha). assert (2 <= occ In n b / pieces L In n b) by (apply Z.div_le_lower_bound; lia). lia.
Qed.
Theorem rle_iff_worth L In n b : 2 <= L -> (forall k, is_byte (In k)) -> 1 <= n <= max_in -> is_byte b ->
  li_rle (le_info L false In n) b = true <-> Worth L In n b.
Proof. intros HL HIn Hn. apply rle_iff_worth_large; [exact HL|exact HIn|now apply max_large1]. Qed.

Lemma pieces_pos L In n b : 2 <= L -> (forall k, is_byte (In k)) -> 0 <= n -> is_byte b -> 0 < occ In n b -> 0 < pieces L In n b.
Proof.
  intros HL HIn Hn Hb. pose proof (gI_spec L In HL HIn (Z.to_nat n) b Hb) as HS. rewrite Z2Nat.id in HS by lia. pose proof (gI_inv L In HL HIn n Hn) as HV.
  pose proof (gI_bounds L In n HL HIn Hn) as HB. destruct (gI L In n) as [[[last count] prob] pcount]. destruct HS as (S1 & S2 & S3 & S4).
  destruct HV as (_ & _ & V3 & _). specialize (V3 b Hb). unfold pieces. rewrite S1, S2, S3. destruct (b =? last); [|rewrite Z.ltb_irrefl; lia].
  destruct (0 <? count) eqn:E; lia.
Qed.
