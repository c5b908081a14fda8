(** Inputs of 2^31 - 1 bytes. *)
From Verif Require Import Base Spec Simd ExtModel ExtDec ExtEnc ExtThm.

(** Bytes without repetitions of symbols of up to 255 bytes. *)
Definition upward : mem := fun k => k mod 256.
Lemma upward_byte : byte_mem upward.
Proof. intros k. unfold upward, is_byte. lia. Qed.
Lemma upward_diff i k : 0 < k < 256 -> upward (i + k) =? upward i = false.
Proof. intros H. unfold upward. lia. Qed.

Section Packed.
  Variables (S : Z) (v : simd) (n : Z).
  Hypothesis HS : okS S.
  Hypothesis H16 : S <> 16.
  Hypothesis Hn : 0 < n < 2 ^ 62.
  Let c := mkX S true true true.

  Local Lemma S_range : 2 <= S <= 8.
  Proof. unfold okS in HS. lia. Qed.
  Local Lemma W_range : 16 <= simdW v <= 32.
  Proof. destruct v; cbn [simdW]; lia. Qed.

  Lemma scan_upward i : 0 <= i < n -> exists i', scan c v upward n i = Some (i', false) /\ i <= i' < n.
  Proof.
    intros Hi. pose proof S_range. pose proof W_range. unfold scan.
    assert (K : exists r, loop (scan_step c v upward n) i = Some r /\ snd r = false /\ i <= fst r < n).
    { apply loop_inv with (I := fun j => i <= j < n) (m := fun j => n - j); [|lia|lia]. intros j Hj. unfold scan_step. cbn [xS c].
      destruct (j <? n - simdW v - S) eqn:E; [|cbn [fst snd]; split; [reflexivity|lia]].
      set (m := fold_mask _ _). destruct (lead_spec (fun k => negb (m k)) (simdW v) ltac:(lia)) as (L1 & _ & L3).
      destruct (lead _ _ =? simdW v) eqn:EW; [lia|]. exfalso. specialize (L3 ltac:(lia)). apply negb_false_iff in L3.
      pose proof (fold_mask_sound S (simdW v) _ _ HS H16 L3 0 ltac:(lia)) as [_ HF]. cbv beta in HF.
      set (b := lead _ _) in HF. replace (j + S + (b + 0)) with (j + (b + 0) + S) in HF by lia. rewrite Z.eqb_sym, upward_diff in HF by lia. discriminate HF. }
    destruct K as ([j f] & E & Ef & Hj). cbn [fst snd] in Ef, Hj. subst f.
    destruct v; [exists i; split; [reflexivity|lia]|exists j; auto..].
  Qed.

  (** The states of the encoder: no packet has been written. *)
  Definition idle (st : est) : Prop := exists i sym, st = mkE i 0 sym 0 (repeat 0 (Z.to_nat S)) [] false /\ 0 <= i <= n /\
    len sym = S /\ symbyte sym 0 =? upward i = false.

  Lemma no_packet i sym lsym : packet c upward (mkE i 0 sym 0 lsym [] false) = None.
  Proof. pose proof S_range. unfold packet, accept_short, xSHORT, xMEDIUM, xLONG. cbn [e_i e_count e_last e_sym e_lsym xPack xP7 xUnb xS c].
    change (3 <=? 0) with false. cbn [andb orb]. replace (S + 1 + 1 + 1 <=? 0) with false by lia. rewrite andb_false_r.
    unfold xFULL. cbn [xP7 c]. destruct (_ <=? 0) eqn:E2; [exfalso; lia|reflexivity].
  Qed.

  Lemma first_of_load i : symbyte (load upward S i) 0 = upward i.
  Proof. pose proof S_range. unfold symbyte, load. rewrite nth_slice by lia. f_equal. lia. Qed.

  Lemma second_upward i sym : 0 <= i < n -> exists st', enc_second c v upward n (mkE i 0 sym 0 (repeat 0 (Z.to_nat S)) [] false) i 0 = inl st' /\ idle st' /\ i < e_i st'.
  Proof.
    intros Hi. pose proof S_range. unfold enc_second. cbn [e_sym e_last e_lsym e_out]. unfold emit. rewrite no_packet. cbn [xS c].
    replace (S =? 16) with false by lia. destruct (scan_upward i Hi) as (i' & -> & Hi').
    eexists. split; [reflexivity|]. unfold next_run. cbn [xS c e_last e_lsym e_out].
    assert (E : eqb_bytes (load upward S (i' + S)) (load upward S i') = false).
    { destruct (eqb_bytes _ _) eqn:E; [|reflexivity]. apply eqb_bytes_eq in E. pose proof (first_of_load (i' + S)) as F1. rewrite E, first_of_load in F1.
      pose proof (upward_diff i' S ltac:(lia)) as F2. rewrite F1, Z.eqb_refl in F2. discriminate F2. }
    rewrite E, andb_false_r. split; [|cbn [e_i]; lia]. exists (i' + 1), (load upward S i'). split; [reflexivity|]. split; [lia|].
    split; [unfold load; rewrite len_slice_le; lia|]. rewrite first_of_load, Z.eqb_sym. apply upward_diff. lia.
  Qed.

  Lemma encoded_upward : exists sym, loop (enc_step c v upward n) (mkE 0 0 (init_sym c upward) 0 (repeat 0 (Z.to_nat S)) [] false) =
    Some (Some (mkE n 0 sym 0 (repeat 0 (Z.to_nat S)) [] false)).
  Proof.
    pose proof S_range.
    assert (K : exists r, loop (enc_step c v upward n) (mkE 0 0 (init_sym c upward) 0 (repeat 0 (Z.to_nat S)) [] false) = Some r /\
      exists sym, r = Some (mkE n 0 sym 0 (repeat 0 (Z.to_nat S)) [] false)).
    { apply loop_inv with (I := idle) (m := fun st => n - e_i st); [| |cbn [e_i]; lia].
      - intros st (i & sym & -> & Hi & Hl & Hs). unfold enc_step. cbn [e_i e_goto e_sym e_count xS c]. rewrite orb_false_r.
        destruct (i <? n) eqn:E; [|exists sym; do 2 f_equal; lia].
        replace (S =? 16) with false by lia.
        destruct (second_upward i sym ltac:(lia)) as (st' & E2 & Hst & Hlt).
        assert (HI : forall x, x = inl st' -> match x with inl s' => idle s' /\ 0 <= n - e_i s' < n - i | inr r => exists sym, r = Some (mkE n 0 sym 0 (repeat 0 (Z.to_nat S)) [] false) end).
        { intros x ->. split; [exact Hst|]. destruct Hst as (i2 & sym2 & -> & Hi2 & _). cbn [e_i] in *. lia. }
        assert (HP : phase1 c v upward n (mkE i 0 sym 0 (repeat 0 (Z.to_nat S)) [] false) = Some (Fall i 0) \/
                     phase1 c v upward n (mkE i 0 sym 0 (repeat 0 (Z.to_nat S)) [] false) = Some (Second i 0)).
        { unfold phase1. cbn [e_i e_count e_sym xS c]. destruct v eqn:Ev; [left; reflexivity|..]; rewrite <- Ev in *.
          all: assert (K : exists r, loop (match_step c v upward n (enc_vec S v sym)) (i, 0) = Some r /\ (r = Fall i 0 \/ r = Second i 0)) by
            (apply loop_inv with (I := fun s => s = (i, 0)) (m := fun _ => 1); [|reflexivity|lia]; intros s ->; unfold match_step; cbn [xS c];
             destruct (i <? n - simdW v - S); [|auto]; rewrite Z.add_0_r, enc_vec_spec by (try assumption; pose proof W_range; lia);
             rewrite Z.mod_0_l by lia; rewrite Z.eqb_sym, Hs; auto).
          all: destruct K as (r & K1 & [-> | ->]); rewrite Ev in *; auto. }
        destruct HP as [-> | ->].
        + unfold scalar_step. cbn [Z.eqb negb]. apply HI. exact E2.
        + apply HI. exact E2.
      - exists 0, (init_sym c upward). split; [reflexivity|]. split; [lia|]. unfold init_sym. cbn [xS c]. replace (S =? 16) with false by lia.
        split; [unfold len; rewrite map_length; change (len (load upward S 0) = S); unfold load; rewrite len_slice_le; lia|].
        unfold symbyte. rewrite (nth_indep _ 0 (255 - 0)).
        + rewrite (map_nth (fun b => 255 - b)). fold (symbyte (load upward S 0) 0). rewrite first_of_load. reflexivity.
        + rewrite map_length. assert (len (load upward S 0) = S) by (unfold load; rewrite len_slice_le; lia). unfold len in *. lia. }
    destruct K as (r & E & sym & ->). exists sym. exact E.
  Qed.
End Packed.

(** The literal length of the end marker is twice the size plus a flag: of 2^32 + 1 only 1 is left. *)
Lemma large_stream S v n cap : okS S -> S <> 16 -> n = 2 ^ 31 - 1 -> 0 <= cap -> xcomp (mkX S true true true) v upward n cap =
  COk (le32 n ++ le32 (n + 17) ++ 128 :: le32 0 ++ le32 1 ++ slice upward 0 n).
Proof.
  intros HS H16 En Hcap. unfold xcomp, xcompress, rle_compress_bounds. cbn [orb].
  replace (n =? 0) with false by lia. replace (n >? 2 ^ 30) with true by lia. replace (cap <? 0) with false by lia. cbn [orb xS].
  destruct (encoded_upward S v n HS H16 ltac:(lia)) as (sym & ->). unfold finish. rewrite no_packet by assumption.
  cbn [e_i e_last e_out app xP7]. unfold term_count. cbn [xPack].
  replace (Z.lor ((n - 0 + 1) * 2) 1) with (2 ^ 32 + 1) by (rewrite En; reflexivity).
  replace (le32 (2 ^ 32 + 1)) with (le32 1) by reflexivity. rewrite Z.sub_0_r.
  assert (HL : len ((128 :: le32 0) ++ le32 1 ++ slice upward 0 n) = n + 9).
  { rewrite !len_app, len_cons, !len_le32, len_slice_le. lia. }
  rewrite HL. replace (8 + (n + 9)) with (n + 17) by lia. reflexivity.
Qed.

Lemma large_not_restored S v d n : okS S -> S <> 16 -> n = 2 ^ 31 - 1 -> forall cap, n + 193 <= cap -> exists out,
  xcomp (mkX S true true true) v upward n cap = COk out /\ len out <= cap /\ len out < 2 ^ 32 /\
  forall C pin inSize M pout outSize, holds C pin out -> 0 < pin -> 0 < pout -> len out <= inSize -> n <= outSize ->
  xdecompress (mkX S true true true) d C pin inSize M pout outSize = DRet n M.
Proof.
  intros HS H16 En cap Hcap. eexists. split; [apply large_stream; (assumption || lia)|].
  assert (HL : len (le32 n ++ le32 (n + 17) ++ 128 :: le32 0 ++ le32 1 ++ slice upward 0 n) = n + 17).
  { rewrite !len_app, len_cons, !len_app, !len_le32, len_slice_le. lia. }
  rewrite HL. split; [lia|]. split; [lia|]. intros C pin inSize M pout outSize HC Hpin Hpout Hin Hout.
  unfold xdecompress. replace (pin =? 0) with false by lia. replace (pout =? 0) with false by lia. replace (inSize =? 0) with false by lia.
  replace (outSize =? 0) with false by lia. cbn [orb].
  rewrite (rd32_holds C pin n _) by (try exact HC; lia). apply holds_app in HC. destruct HC as [_ HC]. rewrite len_le32 in HC.
  rewrite (rd32_holds C (pin + 4) (n + 17) _) by (try exact HC; lia). apply holds_app in HC. destruct HC as [_ HC]. rewrite len_le32 in HC.
  replace (outSize <? n) with false by lia. replace (inSize <? n + 17) with false by lia. cbn [orb].
  replace (pin + 4 + 4) with (pin + 8) in HC by lia. change (128 :: le32 0 ++ le32 1 ++ slice upward 0 n) with ([128] ++ le32 0 ++ le32 1 ++ slice upward 0 n) in HC.
  apply holds_app in HC. destruct HC as [[H8 _] HC]. change (len [128]) with 1 in HC.
  pose proof (rd32_holds C (pin + 8 + 1) 0 _ ltac:(lia) HC) as R1. apply holds_app in HC. destruct HC as [_ HC]. rewrite len_le32 in HC.
  pose proof (rd32_holds C _ 1 _ ltac:(lia) HC) as R2. assert (B2 : C (pin + 8 + 1 + 4) = 1) by (exact (proj1 HC)).
  assert (K : exists r, loop (dec_step (mkX S true true true) d C) (pin + 8, pout, repeat 0 (Z.to_nat (rawS (xS (mkX S true true true)))), M) = Some r /\ r = Some M).
  { apply loop_inv with (I := fun s => s = (pin + 8, pout, repeat 0 (Z.to_nat (rawS (xS (mkX S true true true)))), M)) (m := fun _ => 1); [|reflexivity|lia].
    intros s ->. unfold dec_step, dec_count. cbn [xPack xS xP7]. rewrite H8. change (Z.land 128 127 =? 0) with true. change (negb (Z.land 128 128 =? 0)) with true. cbv iota beta.
    unfold dec_range. cbn [xP7]. rewrite B2. change (Z.land 1 1 =? 1) with true. cbv iota beta. rewrite R2. change (1 / 2 =? 0) with true. cbv iota beta. reflexivity. }
  destruct K as (r & -> & ->). reflexivity.
Qed.

Lemma large_restores_refuted c v d : List.In c xcodecs -> xP7 c = true -> xS c <> 16 ->
  exists In n, byte_mem In /\ max_in < n < 2 ^ 31 /\ forall cap, n + 193 <= cap -> exists out,
  xcomp c v In n cap = COk out /\ len out <= cap /\ len out < 2 ^ 32 /\
  ~ Restores (xdecompress c d) rle_decompress_additional_size out In n.
Proof.
  intros Hc H7 H16. exists upward, (2 ^ 31 - 1). split; [exact upward_byte|]. split; [unfold max_in; lia|]. intros cap Hcap.
  assert (E : c = mkX (xS c) true true true /\ okS (xS c)).
  { unfold xcodecs, xvariants, xsizes in Hc. cbn [flat_map List.In app] in Hc. unfold okS.
    repeat (destruct Hc as [Hc|Hc]; [subst c; cbn [xP7 xS] in *; first [discriminate H7|split; [reflexivity|lia]]|]). destruct Hc. }
  destruct E as [Ec HS]. rewrite Ec. remember (2 ^ 31 - 1) as n eqn:En.
  destruct (large_not_restored (xS c) v d n HS H16 En cap Hcap) as (out & E & L1 & L2 & HD). exists out. split; [exact E|]. split; [exact L1|]. split; [exact L2|].
  intros HR. set (C := fun y => nth (Z.to_nat (y - 16)) out 0).
  assert (HC : holds C 16 out) by (apply holds_intro; intros k Hk; unfold C; f_equal; lia).
  destruct (HR C 16 (len out) (fun _ => 1) 16 n HC ltac:(lia) ltac:(lia) ltac:(lia) ltac:(lia) ltac:(lia) ltac:(lia)) as (M' & E' & Hs & _).
  rewrite (HD C 16 (len out) (fun _ => 1) 16 n HC) in E' by lia. injection E' as <-.
  apply (f_equal (fun l => nth 0 l 0)) in Hs. change 0%nat with (Z.to_nat 0) in Hs. rewrite !nth_slice in Hs by lia. discriminate Hs.
Qed.
