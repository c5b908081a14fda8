(** An input of 2^31 - 1 bytes and rle8_packed_multi. *)
From Verif Require Import Base Spec Simd ExtModel ExtEnc PktModel Rle8Model LargeThm.

Section Multi.
  Variables (avx2 : bool) (n : Z).
  Hypothesis Hn : 0 < n < 2 ^ 62.
  Let W : Z := if avx2 then 32 else 16.

  Local Lemma W_two : W = 16 \/ W = 32.
  Proof. unfold W. destruct avx2; auto. Qed.

  (** No packet has been written, and the next byte is not the last one. *)
  Definition idle8 (s : est8 Z) : Prop := exists i cnt sym, s = mk8 i cnt sym 0 0 [] /\ 0 <= i <= n /\ 0 <= cnt <= 1 /\ upward i =? sym = false.

  Lemma no_packet8 i cnt sym : 0 <= cnt <= 1 -> m_procV true upward i cnt sym 0 0 = None /\ m_procS true upward i cnt sym 0 0 = None.
  Proof.
    intros Hc. unfold m_procV, m_procS, mLONG, mSHORT, mMEDIUM. replace (11 <=? cnt) with false by lia. replace (3 <=? cnt) with false by lia.
    replace (4 <=? cnt) with false by lia. rewrite andb_false_r. cbn [orb]. rewrite andb_false_r. split; reflexivity.
  Qed.

  Lemma scan8_upward i : 0 <= i < n -> exists i', loop (scan8_step W upward n) i = Some i' /\ i <= i' < n.
  Proof.
    intros Hi. pose proof W_two. apply loop_inv with (I := fun j => i <= j < n) (m := fun j => n - j); [|lia|lia].
    intros j Hj. unfold scan8_step. destruct (j <? n - W) eqn:E; [|lia].
    set (f := fun k => negb _). destruct (lead_spec f (W - 1) ltac:(lia)) as (L1 & _ & L3). destruct (lead f (W - 1) =? W - 1) eqn:EL; [lia|]. lia.
  Qed.

  Lemma simd8_upward sym0 : upward 0 =? sym0 = false -> exists r, loop (simd8_step (m_procV true) W upward n) (mk8 0 0 sym0 0 0 []) = Some r /\
    exists s, r = Some s /\ idle8 s.
  Proof.
    intros H0. pose proof W_two. apply loop_inv with (I := idle8) (m := fun s => n - i8 s); [| |cbn [i8]; lia].
    2:{ exists 0, 0, sym0. repeat (split; [reflexivity || lia|]). exact H0. }
    intros s (i & cnt & sym & -> & Hi & Hc & Hs). unfold simd8_step. cbn [i8 count8 sym8 last8 aux8 out8].
    destruct (i <? n - W) eqn:E; [|exists (mk8 i cnt sym 0 0 []); split; [reflexivity|]; exists i, cnt, sym; auto].
    set (f := fun j => upward (i + j) =? sym).
    assert (B : lead f W = 0).
    { destruct (lead_spec f W ltac:(lia)) as (L1 & L2 & _). destruct (Z.eq_dec (lead f W) 0) as [e|e]; [exact e|exfalso].
      specialize (L2 0 ltac:(lia)). unfold f in L2. rewrite Z.add_0_r, Hs in L2. discriminate L2. }
    rewrite B. replace (0 =? W) with false by lia. rewrite !Z.add_0_r.
    assert (ES : (if any f W || (1 <? cnt) then emit8 (m_procV true) upward (mk8 i cnt sym 0 0 []) else mk8 i cnt sym 0 0 []) = mk8 i cnt sym 0 0 []).
    { unfold emit8. cbn [i8 count8 sym8 last8 aux8 out8]. rewrite (proj1 (no_packet8 i cnt sym Hc)). destruct (any f W || (1 <? cnt)); reflexivity. }
    rewrite ES. cbn [i8 last8 aux8 out8]. destruct (scan8_upward i ltac:(lia)) as (i' & -> & Hi'). cbn [i8].
    split; [|lia]. exists (i' + 1), 1, (upward i'). split; [reflexivity|]. split; [lia|]. split; [lia|]. apply upward_diff. lia.
  Qed.

  Lemma scalar8_upward s : idle8 s -> exists cnt sym, loop (scalar8_step false (m_procS true) upward n) s = Some (mk8 n cnt sym 0 0 []) /\ 0 <= cnt <= 1.
  Proof.
    intros HI. assert (K : exists r, loop (scalar8_step false (m_procS true) upward n) s = Some r /\ exists cnt sym, r = mk8 n cnt sym 0 0 [] /\ 0 <= cnt <= 1).
    { apply loop_inv with (I := idle8) (m := fun s => n - i8 s); [|exact HI|destruct HI as (i & cnt & sym & -> & Hi & _); cbn [i8]; lia].
      intros s' (i & cnt & sym & -> & Hi & Hc & Hs). unfold scalar8_step. cbn [i8 count8 sym8 last8 aux8 out8].
      destruct (i <? n) eqn:E; [|exists cnt, sym; split; [f_equal; lia|exact Hc]]. rewrite Hs. unfold emit8. cbn [i8 count8 sym8 last8 aux8 out8].
      rewrite (proj2 (no_packet8 i cnt sym Hc)). cbn [i8 last8 aux8 out8]. split; [|lia].
      exists (i + 1), 1, (upward i). split; [reflexivity|]. split; [lia|]. split; [lia|]. apply upward_diff. lia. }
    destruct K as (r & E & cnt & sym & -> & Hc). eauto.
  Qed.

  Lemma body8_upward : body8 (m_procV true) (m_procS true) (m_term_none true) (m_term_lits true) W upward n (mk8 0 0 (255 - upward 0) 0 0 []) =
    Some (m_term_lits true n ++ slice upward 0 n).
  Proof.
    unfold body8. destruct (simd8_upward (255 - upward 0) eq_refl) as (r & -> & s & -> & Hs). destruct (scalar8_upward s Hs) as (cnt & sym & -> & Hc).
    unfold finish8. cbn [i8 count8 sym8 last8 aux8 out8]. rewrite (proj2 (no_packet8 n cnt sym Hc)), Z.sub_0_r. reflexivity.
  Qed.
End Multi.

Lemma large8_stream avx2 n cap : n = 2 ^ 31 - 1 -> 0 <= cap -> m_compress true avx2 false false upward n cap =
  COk (le32 n ++ le32 (n + 18) ++ 0 :: 128 :: le32 0 ++ le32 1 ++ slice upward 0 n).
Proof.
  intros En Hcap. unfold m_compress, rle_compress_bounds. cbn [orb].
  replace (n =? 0) with false by lia. replace (n >? 2 ^ 30) with true by lia. replace (cap <? 0) with false by lia. cbn [orb].
  rewrite (body8_upward avx2 n) by lia. unfold m_term_lits, m_term_count.
  replace (Z.lor ((n + 1) * 2) 1) with (2 ^ 32 + 1) by (rewrite En; reflexivity).
  replace (le32 (2 ^ 32 + 1)) with (le32 1) by reflexivity.
  assert (HL : len (((128 :: le32 0) ++ le32 1) ++ slice upward 0 n) = n + 9).
  { rewrite !len_app, len_cons, !len_le32, len_slice_le. lia. }
  rewrite HL. replace (9 + (n + 9)) with (n + 18) by lia. reflexivity.
Qed.

Lemma large8_restores_refuted avx2 d : exists In n, byte_mem In /\ max_in < n < 2 ^ 31 /\ forall cap, n + 193 <= cap -> exists out,
  m_compress true avx2 false false In n cap = COk out /\ len out <= cap /\ len out < 2 ^ 32 /\
  ~ Restores (r8_decompress true d) rle_decompress_additional_size out In n.
Proof.
  exists upward, (2 ^ 31 - 1). split; [exact upward_byte|]. split; [unfold max_in; lia|]. intros cap Hcap.
  remember (2 ^ 31 - 1) as n eqn:En. eexists. split; [apply large8_stream; (assumption || lia)|].
  set (out := le32 n ++ _).
  assert (HL : len out = n + 18) by (unfold out; rewrite !len_app, !len_cons, !len_app, !len_le32, len_slice_le; lia).
  rewrite HL. split; [lia|]. split; [lia|]. intros HR. set (C := fun y => nth (Z.to_nat (y - 16)) out 0).
  assert (HC : holds C 16 out) by (apply holds_intro; intros k Hk; unfold C; f_equal; lia).
  destruct (HR C 16 (len out) (fun _ => 1) 16 n HC ltac:(lia) ltac:(lia) ltac:(lia) ltac:(lia) ltac:(lia) ltac:(lia)) as (M' & E' & Hs & _).
  clearbody C. rewrite HL in E'. unfold out in HC. clear HR.
  pose proof (rd32_holds C 16 n _ ltac:(lia) HC) as R0. apply holds_app in HC. destruct HC as [_ HC]. rewrite len_le32 in HC.
  pose proof (rd32_holds C _ (n + 18) _ ltac:(lia) HC) as R1. apply holds_app in HC. destruct HC as [_ HC]. rewrite len_le32 in HC.
  change (0 :: 128 :: le32 0 ++ le32 1 ++ slice upward 0 n) with ([0; 128] ++ le32 0 ++ le32 1 ++ slice upward 0 n) in HC.
  apply holds_app in HC. destruct HC as [[B0 [B1 _]] HC]. change (len [0; 128]) with 2 in HC.
  pose proof (rd32_holds C _ 0 _ ltac:(lia) HC) as R2. apply holds_app in HC. destruct HC as [_ HC]. rewrite len_le32 in HC.
  pose proof (rd32_holds C _ 1 _ ltac:(lia) HC) as R3. pose proof (proj1 HC) as B2. cbn [Z.add Pos.add Pos.add_carry Pos.succ] in *.
  unfold r8_decompress in E'. rewrite ?Z.add_0_r in *. change (16 + 4) with 20 in *. change (16 + 8) with 24 in *. change (16 + 9) with 25 in *.
  rewrite R0, R1, B0 in E'. change (16 =? 0) with false in E'. replace (n + 18 =? 0) with false in E' by lia. replace (n =? 0) with false in E' by lia.
  cbn [orb] in E'. replace (n <? n) with false in E' by lia. replace (n + 18 <? n + 18) with false in E' by lia. cbn [orb] in E'. change (0 =? 0) with true in E'. cbv iota in E'.
  match type of E' with context [loop ?f ?s] => assert (K : exists r, loop f s = Some r /\ r = Some (fun _ => 1)) end.
  { apply loop_inv with (I := fun s => s = (25, 16, 0, fun _ => 1)) (m := fun _ => 1); [|reflexivity|lia].
    intros s ->. unfold pkt_step, m_parse, m_dec_count. rewrite B1. change (Z.land 128 127 =? 0) with true. change (negb (Z.land 128 128 =? 0)) with true. cbv iota beta.
    unfold m_dec_range. change (25 + 1 + 4) with 30. rewrite B2. change (Z.land 1 1 =? 1) with true. cbv iota beta zeta. rewrite R3. reflexivity. }
  destruct K as (r & Er & ->). rewrite Er in E'. injection E' as <-.
  apply (f_equal (fun l => nth 0 l 0)) in Hs. change 0%nat with (Z.to_nat 0) in Hs. rewrite !nth_slice in Hs by lia. discriminate Hs.
Qed.
