(** Restored data compressed again, where it lies. *)
From Verif Require Import Base Spec Spec2 Simd ExtModel ExtThm Rle8Model Rle8Thm LutModel SlModel SlThm ShModel ShThm LeModel LeSpec LeThm RmThm MzModel MzThm EnvSpec EnvThm ArchSpec ArchThm ArchLib.
From Verif Require HsModel HsThm.

(** Compressing the output of the decompressor in its buffer, with the same size of the output buffer, gives the same stream. *)
Definition SameAgain (comp : compressor) (dec : decompressor) (need : Z -> Z) (ok : mem -> Z -> Prop) : Prop :=
  forall In n cap out C pin M pout outSize r M', byte_mem In -> 1 <= n <= max_in -> ok In n -> need n <= cap < 2 ^ 32 ->
  comp In n cap = COk out -> holds C pin out -> 0 < pin -> pin + len out + 1024 < 2 ^ 64 ->
  0 < pout -> pout + n + 1024 < 2 ^ 64 -> n <= outSize -> dec C pin (len out) M pout outSize = DRet r M' ->
  comp (fun k => M' (pout + k)) n cap = COk out.

(** What is needed of the compressor. *)
Definition Only (comp : compressor) : Prop := forall In1 In2 n cap, byte_mem In1 -> 1 <= n <= max_in ->
  (forall k, 0 <= k < n -> In1 k = In2 k) -> comp In1 n cap = comp In2 n cap.
Lemma only_input comp : InputOnly comp -> Only comp.
Proof. intros H In1 In2 n cap _ Hn. apply H. lia. Qed.

Lemma slice_nth_eq M In q n : slice M q n = slice In 0 n -> forall k, 0 <= k < n -> In k = M (q + k).
Proof.
  intros H k Hk. pose proof (nth_slice M q n k Hk) as H1. pose proof (nth_slice In 0 n k Hk) as H2. rewrite H in H1. rewrite H1 in H2. rewrite Z.add_0_l in H2. congruence.
Qed.
Lemma same_again slack comp dec f need ok : library slack comp dec f need ok -> Only comp -> SameAgain comp dec need ok.
Proof.
  intros HL HO In n cap out C pin M pout outSize r M' HIn Hn Hok Hcap E HC H1 H2 H3 H4 H5 HD.
  assert (HP : PieceOk slack (mkPiece comp dec f In n cap)). { apply library_ok. exists need, ok. auto. }
  destruct HP as (_ & out' & E' & _ & HR). cbn [a_comp a_dec a_In a_n a_cap] in *. rewrite E in E'. injection E' as <-.
  destruct (HR C pin (len out) M pout outSize HC H1 H2 eq_refl H3 H4 H5) as (M1 & D1 & S1 & _). rewrite HD in D1.
  assert (EM : M' = M1) by exact (f_equal (fun x => match x with DRet _ m => m | _ => M' end) D1). subst M1.
  rewrite <- E. symmetry. apply HO; [exact HIn|exact Hn|]. now apply slice_nth_eq.
Qed.

(** The codecs of single bytes *)
Definition byte_codec (comp : compressor) : Prop :=
  (exists pk avx2, comp = m_compress pk avx2 false false) \/ (exists pk, comp = s_compress pk false false) \/
  (exists c v, List.In c slcodecs /\ slS c = 1 /\ comp = sl_compress c v false false) \/
  (exists c v, List.In c shcodecs /\ shS c = 1 /\ comp = sh_compress c v false false) \/
  (exists L max, (L = 255 \/ L = 32) /\ comp = le_compress L max false false) \/
  (exists subs, 0 <= subs /\ comp = rm_compress subs false false) \/
  (exists undef M pout, comp = mz_compress undef M pout false false) \/
  (exists M pout, comp = HsModel.sh_compress M pout false false).
Lemma byte_codec_only comp : byte_codec comp -> Only comp.
Proof.
  intros [(pk & avx2 & ->)|[(pk & ->)|[(c & v & Hc & HS & ->)|[(c & v & Hc & HS & ->)|[(L & max & HL & ->)|[(subs & Hs & ->)|[(undef & M & pout & ->)|(M & pout & ->)]]]]]]].
  - apply only_input, m_input_only.
  - apply only_input, s_input_only.
  - apply only_input. now apply sl_only_iff.
  - apply only_input. now apply sh_only_iff.
  - apply only_input. now apply le_input_only.
  - apply only_input. now apply rm_input_only.
  - apply only_input. apply mz_input_only.
  - intros In1 In2 n cap HIn Hn AB. apply HsThm.sh_input_only; auto. lia.
Qed.
Lemma byte_same_again slack comp dec f need ok : library slack comp dec f need ok -> byte_codec comp -> SameAgain comp dec need ok.
Proof. intros HL HB. apply (same_again slack comp dec f need ok HL). now apply byte_codec_only. Qed.

(** The others: one symbol, in a buffer that is full of its bytes *)
Definition put7 (l : list Z) : mem := fun k => if k <? 1 then 7 else nth (Z.to_nat (k - 1)) l 7.
Lemma put7_holds l : holds (put7 l) 1 l.
Proof.
  apply holds_intro. intros k Hk. unfold put7. replace (1 + k <? 1) with false by lia. replace (1 + k - 1) with k by lia. apply nth_indep. unfold len in Hk. lia.
Qed.
Definition other_again (comp : compressor) (dec : decompressor) (n cap : Z) : bool :=
  match comp (seven_then (2 * n - 1)) n cap with
  | COk out =>
      match dec (put7 out) 1 (len out) (fun _ => 7) 1 n with
      | DRet _ M => match comp (fun k => M (1 + k)) n cap with COk out' => negb (eqb_bytes out out') | _ => true end
      | DDiverge => false
      end && (len out <? 1000)
  | _ => false
  end.
Lemma seven_then_byte n : byte_mem (seven_then n).
Proof. intros k. unfold seven_then, is_byte. destruct (k <? n); lia. Qed.
Lemma other_again_not comp dec need n cap : other_again comp dec n cap = true -> 1 <= n <= 1000 -> need n <= cap < 2 ^ 32 -> ~ SameAgain comp dec need Always.
Proof.
  intros H Hn Hc HA. unfold other_again in H. destruct (comp (seven_then (2 * n - 1)) n cap) as [|out|] eqn:E; try discriminate.
  apply andb_prop in H. destruct H as [H Hl]. destruct (dec (put7 out) 1 (len out) (fun _ => 7) 1 n) as [r M|] eqn:ED; [|discriminate].
  rewrite (HA (seven_then (2 * n - 1)) n cap out (put7 out) 1 (fun _ => 7) 1 n r M) in H; auto; try lia.
  - rewrite eqb_bytes_refl in H. discriminate.
  - apply seven_then_byte.
  - unfold max_in. lia.
  - exact I.
  - apply put7_holds.
Qed.
Definition dsimds : list dsimd := [DSse; DSsse3; DAvx; DAvx512].
Definition lvls : list lvl := [LSse; LSsse3; LSse41; LAvx; LAvx2; LAvx512].
Definition again_at (comp : compressor) (dec : decompressor) (need : Z -> Z) (S : Z) : bool :=
  (1 <=? S) && (S <=? 1000) && (need S <=? 512) && other_again comp dec S 512.
Lemma again_at_not comp dec need S : again_at comp dec need S = true -> ~ SameAgain comp dec need Always.
Proof.
  unfold again_at. intros H. apply andb_prop in H. destruct H as [H H4]. apply andb_prop in H. destruct H as [H H3]. apply andb_prop in H. destruct H as [H1 H2].
  apply (other_again_not comp dec need S 512 H4); lia.
Qed.
Lemma ext_all_again : forallb (fun c => forallb (fun v => forallb (fun d => again_at (xcomp c v) (xdecompress c d) rle_compress_bounds (xS c)) dsimds) simds) xcodecs = true.
Proof. vm_compute. reflexivity. Qed.
Lemma sl_all_again : forallb (fun c => (slS c =? 1) || forallb (fun v => forallb (fun l => again_at (sl_compress c v false false) (sl_decompress c l) (sl_space c) (slS c)) lvls) simds) slcodecs = true.
Proof. vm_compute. reflexivity. Qed.
Lemma sh_all_again : forallb (fun c => (shS c =? 1) || forallb (fun v => forallb (fun l => again_at (sh_compress c v false false) (sh_decompress c l) sh_space (shS c)) lvls) simds) shcodecs = true.
Proof. vm_compute. reflexivity. Qed.
Lemma greedy_all_again : forallb (fun c => (shS c =? 1) || forallb (fun l => again_at (greedy_compress c false false) (sh_decompress c l) sh_space (shS c)) lvls) greedy_codecs = true.
Proof. vm_compute. reflexivity. Qed.

Lemma ext_again_refuted c v d : List.In c xcodecs -> ~ SameAgain (xcomp c v) (xdecompress c d) rle_compress_bounds Always.
Proof.
  intros Hc. pose proof ext_all_again as H. rewrite forallb_forall in H. specialize (H c Hc). cbv beta in H. rewrite forallb_forall in H. specialize (H v (simds_all v)). cbv beta in H.
  rewrite forallb_forall in H. specialize (H d ltac:(destruct d; cbn; tauto)). exact (again_at_not _ _ _ _ H).
Qed.
Lemma sl_again_refuted c v l : List.In c slcodecs -> slS c <> 1 -> ~ SameAgain (sl_compress c v false false) (sl_decompress c l) (sl_space c) Always.
Proof.
  intros Hc HS. pose proof sl_all_again as H. rewrite forallb_forall in H. specialize (H c Hc). cbv beta in H. replace (slS c =? 1) with false in H by lia. cbn [orb] in H.
  rewrite forallb_forall in H. specialize (H v (simds_all v)). cbv beta in H. rewrite forallb_forall in H. specialize (H l ltac:(destruct l; cbn; tauto)). exact (again_at_not _ _ _ _ H).
Qed.
Lemma short_again_refuted c comp l : sh_encoder c comp -> shS c <> 1 -> ~ SameAgain (comp false false) (sh_decompress c l) sh_space Always.
Proof.
  intros [c0 v Hc|c0 Hc] HS.
  - pose proof sh_all_again as H. rewrite forallb_forall in H. specialize (H c0 Hc). cbv beta in H. replace (shS c0 =? 1) with false in H by lia. cbn [orb] in H.
    rewrite forallb_forall in H. specialize (H v (simds_all v)). cbv beta in H. rewrite forallb_forall in H. specialize (H l ltac:(destruct l; cbn; tauto)). exact (again_at_not _ _ _ _ H).
  - pose proof greedy_all_again as H. rewrite forallb_forall in H. specialize (H c0 Hc). cbv beta in H. replace (shS c0 =? 1) with false in H by lia. cbn [orb] in H.
    rewrite forallb_forall in H. specialize (H l ltac:(destruct l; cbn; tauto)). exact (again_at_not _ _ _ _ H).
Qed.

(** The codecs of longer symbols, if the bytes behind the restored data are the ones behind the input. *)
Definition SameAgainIf (k : Z) (comp : compressor) (dec : decompressor) (need : Z -> Z) : Prop :=
  forall In n cap out C pin M pout outSize r M', byte_mem In -> 1 <= n <= max_in -> need n <= cap < 2 ^ 32 ->
  comp In n cap = COk out -> holds C pin out -> 0 < pin -> pin + len out + 1024 < 2 ^ 64 ->
  0 < pout -> pout + n + 1024 < 2 ^ 64 -> n <= outSize -> dec C pin (len out) M pout outSize = DRet r M' ->
  (forall j, n <= j < n + k -> M' (pout + j) = In j) -> comp (fun j => M' (pout + j)) n cap = COk out.
Lemma same_again_if slack comp dec f need k : library slack comp dec f need Always -> InputUpTo k comp -> SameAgainIf k comp dec need.
Proof.
  intros HL HO In n cap out C pin M pout outSize r M' HIn Hn Hcap E HC H1 H2 H3 H4 H5 HD HB.
  assert (HP : PieceOk slack (mkPiece comp dec f In n cap)). { apply library_ok. exists need, Always. split; [exact HL|]. split; [exact HIn|]. split; [exact Hn|]. split; [exact I|exact Hcap]. }
  destruct HP as (_ & out' & E' & _ & HR). cbn [a_comp a_dec a_In a_n a_cap] in *. rewrite E in E'. injection E' as <-.
  destruct (HR C pin (len out) M pout outSize HC H1 H2 eq_refl H3 H4 H5) as (M1 & D1 & S1 & _). rewrite HD in D1.
  assert (EM : M' = M1) by exact (f_equal (fun x => match x with DRet _ m => m | _ => M' end) D1). subst M1.
  rewrite <- E. symmetry. apply HO; [lia|]. intros j Hj. destruct (Z_lt_ge_dec j n) as [Hlt|Hge].
  - apply (slice_nth_eq M' In pout n S1). lia.
  - symmetry. apply HB. lia.
Qed.
Lemma long_same_again_if :
  (forall c v d, List.In c xcodecs -> SameAgainIf (xS c) (xcomp c v) (xdecompress c d) rle_compress_bounds) /\
  (forall c v l, List.In c slcodecs -> SameAgainIf (slS c) (sl_compress c v false false) (sl_decompress c l) (sl_space c)) /\
  (forall c comp l, sh_encoder c comp -> SameAgainIf (shS c) (comp false false) (sh_decompress c l) sh_space).
Proof.
  split; [|split].
  - intros c v d Hc. apply (same_again_if 128 _ _ 4); [now apply L_ext|]. exact (x_upto c v Hc).
  - intros c v l Hc. apply (same_again_if 128 _ _ 4); [now apply L_symlut|]. apply (upto_more _ (behind (slS c))); [now apply sl_upto|]. unfold behind. destruct (slS c =? 1) eqn:E; lia.
  - intros c comp l He. apply (same_again_if 128 _ _ 4); [now apply (L_short c comp l)|]. destruct He as [c0 v Hc|c0 Hc].
    + apply (upto_more _ (behind (shS c0))); [now apply sh_upto|]. unfold behind. destruct (shS c0 =? 1) eqn:E; lia.
    + now apply greedy_upto.
Qed.
