(** Streams whose header announces one byte: the decoders write all of the data. *)
From Verif Require Import Base Simd SimdProof Spec Spec2 ExtModel PktModel Rle8Model MbModel LutModel SlModel ShModel LeModel MtfModel MtfProof MzModel MzPack HosSpec.
From Verif Require HsModel.
From Verif Require Import EnvThm.

Definition five : mem := fun _ => 5.
(** The stream of 700 equal bytes with the field of the uncompressed size, at offset [o], changed to 1. *)
Definition tampered (comp : compressor) (o : nat) : list Z :=
  match comp five 700 2000 with COk out => firstn o out ++ le32 1 ++ skipn (o + 4) out | _ => [] end.
Definition overruns (dec : decompressor) (s : list Z) : bool :=
  forallb (fun b => (0 <=? b) && (b <? 256)) s &&
  match dec (store (fun _ => 0) 1000 s) 1000 (len s) (fun _ => 0) 5000 1 with DRet _ M' => negb (M' 5600 =? 0) | DDiverge => false end.

Lemma overruns_not dec s : overruns dec s = true -> ~ AnyStreamInside 128 dec.
Proof.
  intros H K. unfold overruns in H. apply andb_true_iff in H. destruct H as [HB H].
  destruct (dec (store (fun _ => 0) 1000 s) 1000 (len s) (fun _ => 0) 5000 1) as [r M'|] eqn:E; [|discriminate].
  specialize (K (store (fun _ => 0) 1000 s) 1000 (len s) (fun _ => 0) 5000 1 r M').
  rewrite K in H; [discriminate| |lia|lia|exact E|lia].
  intros k. unfold store. destruct ((1000 <=? k) && (k <? 1000 + len s)) eqn:Ek; [|unfold is_byte; lia].
  rewrite forallb_forall in HB. specialize (HB (nth (Z.to_nat (k - 1000)) s 0)). unfold is_byte.
  cut (List.In (nth (Z.to_nat (k - 1000)) s 0) s); [intros Q; specialize (HB Q); lia|]. apply nth_In. unfold len in Ek. lia.
Qed.

Definition dsimds := [DSse; DSsse3; DAvx; DAvx512].
Definition d8s := [D8Sse; D8Sse41; D8Avx; D8Avx2; D8Avx512].
Definition lvls := [LSse; LSsse3; LSse41; LAvx; LAvx2; LAvx512].
Definition bools := [true; false].

Lemma ext_overrun c d : List.In c xcodecs -> ~ AnyStreamInside 128 (xdecompress c d).
Proof.
  intros Hc. apply (overruns_not _ (tampered (xcompress c Sse2 false false) 0)).
  assert (H : forallb (fun c => forallb (fun d => overruns (xdecompress c d) (tampered (xcompress c Sse2 false false) 0)) dsimds) xcodecs = true)
    by (vm_compute; reflexivity).
  rewrite forallb_forall in H. specialize (H c Hc). rewrite forallb_forall in H. apply H. destruct d; cbn; tauto.
Qed.

Lemma r8_overrun pk d : ~ AnyStreamInside 128 (r8_decompress pk d).
Proof. apply (overruns_not _ (tampered (m_compress pk false false false) 0)). destruct pk, d; vm_compute; reflexivity. Qed.

Lemma sl_overrun c l : List.In c slcodecs -> ~ AnyStreamInside 128 (sl_decompress c l).
Proof.
  intros Hc. apply (overruns_not _ (tampered (sl_compress c Sse2 false false) 0)).
  assert (H : forallb (fun c => forallb (fun d => overruns (sl_decompress c d) (tampered (sl_compress c Sse2 false false) 0)) lvls) slcodecs = true)
    by (vm_compute; reflexivity).
  rewrite forallb_forall in H. specialize (H c Hc). rewrite forallb_forall in H. apply H. destruct l; cbn; tauto.
Qed.

Lemma sh_overrun c l : List.In c shcodecs -> ~ AnyStreamInside 128 (sh_decompress c l).
Proof.
  intros Hc. apply (overruns_not _ (tampered (sh_compress c Sse2 false false) 0)).
  assert (H : forallb (fun c => forallb (fun d => overruns (sh_decompress c d) (tampered (sh_compress c Sse2 false false) 0)) lvls) shcodecs = true)
    by (vm_compute; reflexivity).
  rewrite forallb_forall in H. specialize (H c Hc). rewrite forallb_forall in H. apply H. destruct l; cbn; tauto.
Qed.

Lemma le_overrun L c : L = 255 \/ L = 32 -> ~ AnyStreamInside 128 (le_decompress L c).
Proof.
  intros HL. apply (overruns_not _ (tampered (le_compress L false false false) 4)).
  destruct HL as [-> | ->], c as [[] []]; vm_compute; reflexivity.
Qed.

Lemma rm_overrun c : ~ AnyStreamInside 128 (rm_decompress c).
Proof.
  apply (overruns_not _ (tampered (rm_compress 1 false false) 4)). destruct c as [[] []]; vm_compute; reflexivity.
Qed.

(** rle8_mmtf128: behind the last block the remaining size is negative and is taken modulo 2^64. *)
Lemma mz_dlast_all C H (k : nat) p q M :
  fold_left (mz_dlast C H) (MtfModel.lanes (Z.of_nat k)) (p, q, M) =
  (p + Z.of_nat k, q + Z.of_nat k, snd (fold_left (mz_dlast C H) (MtfModel.lanes (Z.of_nat k)) (p, q, M))) /\
  forall j, 0 <= j < Z.of_nat k -> snd (fold_left (mz_dlast C H) (MtfModel.lanes (Z.of_nat k)) (p, q, M)) (q + j) = H (C (p + j) + j / 16) (j mod 16).
Proof.
  induction k as [|k [IH1 IH2]].
  - change (MtfModel.lanes (Z.of_nat 0)) with (@nil Z). cbn [fold_left snd]. split; [rewrite !Z.add_0_r; reflexivity|lia].
  - rewrite Nat2Z.inj_succ, <- Z.add_1_r, lanes_S, fold_left_app by lia. rewrite IH1. set (N := snd _) in *. cbn [fold_left mz_dlast snd].
    split; [rewrite !Z.add_assoc; reflexivity|]. intros j Hj. rewrite put8_at. destruct (q + j =? q + Z.of_nat k) eqn:E; [|apply IH2; lia].
    replace j with (Z.of_nat k) by lia. reflexivity.
Qed.

Definition zero : mem := fun _ => 0.
Definition mz_tampered : list Z := tampered (mz_compress (fun _ => 0) (fun _ => 0) 16 false false) 0 ++ map Z.of_nat (seq 1 250).
Definition mzC : mem := store (fun _ => 0) 1000 mz_tampered.
Lemma mz_overrun : ~ AnyStreamInside 128 mz_decompress.
Proof.
  intros K.
  assert (HC : byte_mem mzC).
  { intros k. unfold mzC, store. destruct ((1000 <=? k) && (k <? 1000 + len mz_tampered)) eqn:Ek; [|unfold is_byte; lia].
    assert (HB : forallb (fun b => (0 <=? b) && (b <? 256)) mz_tampered = true) by (vm_compute; reflexivity).
    rewrite forallb_forall in HB. specialize (HB (nth (Z.to_nat (k - 1000)) mz_tampered 0)). unfold is_byte.
    cut (List.In (nth (Z.to_nat (k - 1000)) mz_tampered 0) mz_tampered); [intros Q; specialize (HB Q); lia|]. apply nth_In. unfold len in Ek. lia. }
  destruct (mz_decompress mzC 1000 300 zero 5000 1) as [r M'|] eqn:E.
  - specialize (K mzC 1000 300 zero 5000 1 r M' HC ltac:(lia) ltac:(lia) E).
    unfold mz_decompress in E.
    change ((1000 =? 0) || (5000 =? 0) || (300 =? 0) || (1 =? 0)) with false in E. cbv iota zeta in E.
    assert (E1 : rd32 mzC 1000 = 1) by (vm_compute; reflexivity).
    assert (E2 : ((1 <? 1) || (300 <? rd32 mzC (1000 + 4))) = false) by (vm_compute; reflexivity).
    rewrite E1 in E. rewrite E2 in E. clear E1 E2.
    assert (HL : match loop (mz_dstep mzC) (1000 + 8, (5000, zero, MtfModel.hist0)) with
                 | Some (Some (p, (q, _, H))) => (5600 <=? q) && (q <=? 5700) && negb (H (mzC (p + 200) + 12) 8 =? 0) | _ => false end = true)
      by (vm_compute; reflexivity).
    set (rA := loop (mz_dstep mzC) (1000 + 8, (5000, zero, MtfModel.hist0))) in *. clearbody rA.
    destruct rA as [[[p [[q N] H]]|]|]; [|discriminate HL|discriminate HL].
    assert (HR : w64 (5000 + 1 - q) = 2 ^ 64 + 5001 - q) by (unfold w64; symmetry; apply (Z.mod_unique _ _ (-1)); lia).
    cbv zeta in E. rewrite HR in E. destruct (mz_dlast_all mzC H (Z.to_nat (2 ^ 64 + 5001 - q)) p q N) as [P1 P2].
    rewrite Z2Nat.id in P1, P2 by lia. rewrite P1 in E. set (N' := snd _) in *. clearbody N'.
    assert (M' = N') by congruence. subst M'. specialize (P2 200 ltac:(lia)). change (200 / 16) with 12 in P2. change (200 mod 16) with 8 in P2. rewrite (K (q + 200)) in P2 by lia. unfold zero in P2. lia.
  - clear K. unfold mz_decompress in E.
    change ((1000 =? 0) || (5000 =? 0) || (300 =? 0) || (1 =? 0)) with false in E. cbv iota zeta in E.
    assert (E1 : rd32 mzC 1000 = 1) by (vm_compute; reflexivity).
    assert (E2 : ((1 <? 1) || (300 <? rd32 mzC (1000 + 4))) = false) by (vm_compute; reflexivity).
    rewrite E1 in E. rewrite E2 in E. clear E1 E2.
    assert (HL : match loop (mz_dstep mzC) (1000 + 8, (5000, zero, MtfModel.hist0)) with Some (Some _) => true | _ => false end = true)
      by (vm_compute; reflexivity).
    set (rA := loop (mz_dstep mzC) (1000 + 8, (5000, zero, MtfModel.hist0))) in *. clearbody rA.
    destruct rA as [[[p [[q N] H]]|]|]; [|discriminate HL|discriminate HL].
    destruct (fold_left _ _ _) as [[? ?] ?]. discriminate.
Qed.

Lemma hs_overrun : ~ AnyStreamInside 128 HsModel.sh_decompress.
Proof. apply (overruns_not _ (tampered (HsModel.sh_compress (fun _ => 0) 16 false false) 0)). vm_compute. reflexivity. Qed.
