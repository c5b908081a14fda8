(** The buffer in which the tool puts the streams: large enough for which codecs? *)
From Verif Require Import Base LargeSpec Simd SimdProof Spec Spec2 ExtModel ExtDec ExtEnc PktModel PktDec PktEnc Codec
  ExtThm Rle8Model Rle8Proof Rle8Single Rle8Thm Rle8Bad LutModel SlModel SlProof SlThm ShModel ShThm LeModel LeThm RmThm MzModel MzThm ArchSpec ArchThm ArchLib LeBad ToolBufSpec.
From Verif Require HsModel HsThm ToolRun.

Lemma buffer_297 n : 1 <= n <= max_in -> ToolRun.buffer_size n = n + 297.
Proof.
  intros H. unfold ToolRun.buffer_size, ToolRun.sh_bounds, mz_bounds, le_bounds. rewrite bounds_193 by lia. unfold max_in in H.
  replace (2 ^ 30 <? n) with false by lia. unfold w32. rewrite !Z.mod_small by lia. lia.
Qed.

Lemma library_len slack comp dec f need ok In n cap out : library slack comp dec f need ok -> byte_mem In -> 1 <= n <= max_in -> ok In n -> need n <= cap < 2 ^ 32 ->
  comp In n cap = COk out -> len out <= cap.
Proof.
  intros HL H1 H2 H3 H4 E. inversion HL; subst.
  - destruct (ext_round_trip c v H In n cap H1 H2 (proj1 H4)) as (o & E' & _ & Hl & _). rewrite E in E'. injection E' as <-. exact Hl.
  - destruct (multi_rt pk avx2 In n cap H1 H2 (proj1 H4)) as (o & E' & _ & Hl & _). rewrite E in E'. injection E' as <-. exact Hl.
  - destruct (single_rt pk In n cap H1 H2 (proj1 H4)) as (o & E' & _ & Hl & _). rewrite E in E'. injection E' as <-. exact Hl.
  - destruct (sl_rt c v H In n cap H1 H2 (proj1 H4)) as (o & E' & _ & Hl & _). rewrite E in E'. injection E' as <-. exact Hl.
  - destruct (sh_rt c comp0 H In n cap H1 H2 (proj1 H4)) as (o & E' & _ & Hl & _). rewrite E in E'. injection E' as <-. exact Hl.
  - destruct (le_round_trip L false H In n cap H1 H2 H3 H4) as (o & E' & _ & Hl & _). rewrite E in E'. injection E' as <-. exact Hl.
  - destruct (le_round_trip_max L H In n cap H1 H2 H3 H4) as (o & E' & _ & Hl & _). rewrite E in E'. injection E' as <-. exact Hl.
  - destruct (rm_round_trip subs H In n cap H1 H2 H3 H4) as (o & E' & _ & Hl & _). rewrite E in E'. injection E' as <-. exact Hl.
  - destruct (mz_round_trip undef M pout In n cap H1 H2 (proj1 H4)) as (o & E' & _ & Hl & _). rewrite E in E'. injection E' as <-. exact Hl.
  - destruct (HsThm.sh_round_trip M pout In n cap H1 H2 (proj1 H4)) as (o & E' & _ & Hl & _). rewrite E in E'. injection E' as <-. exact Hl.
Qed.

Lemma library_fits slack comp dec f need ok In n : library slack comp dec f need ok -> byte_mem In -> 1 <= n <= max_in -> ok In n -> need n <= n + 297 -> FitsTool comp dec In n.
Proof.
  intros HL H1 H2 H3 H4. unfold FitsTool. rewrite buffer_297 by exact H2. assert (H5 : need n <= n + 297 < 2 ^ 32) by (unfold max_in in H2; lia).
  destruct (library_ok slack (mkPiece comp dec f In n (n + 297))) as (_ & out & E & _ & HR); [exists need, ok; auto|]. cbn [a_comp a_dec a_In a_n a_cap] in *.
  exists out. split; [exact E|]. split; [exact (library_len _ _ _ _ _ _ _ _ _ _ HL H1 H2 H3 H5 E)|].
  intros C pin M pout HC A1 A2 A3 A4. destruct (HR C pin (len out) M pout (n + 297) HC A1 A2 eq_refl A3 A4 ltac:(lia)) as (M' & D & S & O).
  exists M'. split; [exact D|]. split; [exact S|]. intros x Hx. apply O. assert (slack <= 128) by (inversion HL; lia). unfold rle_decompress_additional_size in Hx. lia.
Qed.

(** *** Every file of up to 2^30 bytes *)
Lemma large_files_fit In n : byte_mem In -> 1 <= n <= max_in ->
  (forall c v d, List.In c xcodecs -> FitsTool (xcomp c v) (xdecompress c d) In n) /\
  (forall avx2 d, FitsTool (m_compress true avx2 false false) (r8_decompress true d) In n) /\
  (forall d, FitsTool (s_compress false false false) (r8_decompress false d) In n) /\
  (forall c v l, List.In c slcodecs -> 4 < slS c -> FitsTool (sl_compress c v false false) (sl_decompress c l) In n) /\
  (forall L c, L = 255 \/ L = 32 -> FitsTool (le_compress L true false false) (le_decompress L c) In n) /\
  (forall undef M pout, FitsTool (mz_compress undef M pout false false) mz_decompress In n).
Proof.
  intros HIn Hn. assert (H193 : rle_compress_bounds n <= n + 297) by (rewrite bounds_193; lia).
  repeat split; intros.
  - eapply library_fits; [now apply L_ext|exact HIn|exact Hn|exact Logic.I|exact H193].
  - eapply library_fits; [apply L_rle8_multi|exact HIn|exact Hn|exact Logic.I|exact H193].
  - eapply library_fits; [apply L_rle8_single|exact HIn|exact Hn|exact Logic.I|exact H193].
  - eapply library_fits; [now apply L_symlut|exact HIn|exact Hn|exact Logic.I|]. unfold sl_space, sl_loss. replace (slS c =? 3) with false by lia. replace (slS c <=? 4) with false by lia. lia.
  - eapply library_fits; [now apply L_only_max_frequency|exact HIn|exact Hn|exact Logic.I|]. unfold le_bounds, w32, max_in in *. rewrite Z.mod_small by lia. lia.
  - eapply library_fits; [apply L_rle8_mmtf128|exact HIn|exact Hn|exact Logic.I|cbv beta; lia].
Qed.

(** *** Smaller files *)
Lemma small_files_fit In n : byte_mem In ->
  (1 <= n <= 27404 -> forall avx2 d, FitsTool (m_compress false avx2 false false) (r8_decompress false d) In n) /\
  (1 <= n <= 6938 -> forall d, FitsTool (s_compress true false false) (r8_decompress true d) In n) /\
  (1 <= n <= 7139 -> forall c v l, List.In c slcodecs -> slS c = 3 -> FitsTool (sl_compress c v false false) (sl_decompress c l) In n) /\
  (1 <= n <= 3473460 -> forall c v l, List.In c slcodecs -> slS c <> 3 -> FitsTool (sl_compress c v false false) (sl_decompress c l) In n) /\
  (1 <= n <= 6881384 -> forall c comp l, sh_encoder c comp -> FitsTool (comp false false) (sh_decompress c l) In n) /\
  (1 <= n <= 35711 -> forall M pout, FitsTool (HsModel.sh_compress M pout false false) HsModel.sh_decompress In n).
Proof.
  intros HIn.
  repeat split; intros Hn; (assert (Hn' : 1 <= n <= max_in) by (unfold max_in; lia)); intros.
  - eapply library_fits; [apply L_rle8_multi|exact HIn|exact Hn'|exact Logic.I|]. unfold multi_space. lia.
  - eapply library_fits; [apply L_rle8_single|exact HIn|exact Hn'|exact Logic.I|]. unfold single_space. lia.
  - eapply library_fits; [now apply L_symlut|exact HIn|exact Hn'|exact Logic.I|]. unfold sl_space, sl_loss. rewrite bounds_193 by lia. replace (slS c =? 3) with true by lia. lia.
  - eapply library_fits; [now apply L_symlut|exact HIn|exact Hn'|exact Logic.I|]. unfold sl_space, sl_loss. rewrite bounds_193 by lia. replace (slS c =? 3) with false by lia. destruct (slS c <=? 4); lia.
  - eapply library_fits; [eapply L_short; eassumption|exact HIn|exact Hn'|exact Logic.I|]. unfold sh_space. rewrite bounds_193 by lia. lia.
  - eapply library_fits; [apply L_rle8_sh|exact HIn|exact Hn'|exact Logic.I|]; unfold HsThm.sh_need. lia.
Qed.

(** *** Files on which rle8_multi and rle8_packed_single write behind the buffer *)
Lemma tool_multi_overflow avx2 : exists out, m_compress false avx2 false false bad_multi bad_n (ToolRun.buffer_size bad_n) = COk out /\ ToolRun.buffer_size bad_n < len out.
Proof. rewrite buffer_297 by exact bad_n_range. apply multi_writes. rewrite bounds_193 by apply bad_n_range. lia. Qed.
Lemma tool_single_overflow : exists out, s_compress true false false bad_single bad_single_n (ToolRun.buffer_size bad_single_n) = COk out /\ ToolRun.buffer_size bad_single_n < len out.
Proof. rewrite buffer_297 by exact bad_single_range. apply packed_single_writes. rewrite bounds_193 by apply bad_single_range. lia. Qed.

Lemma tool_le_overflow L : L = 255 \/ L = 32 -> exists In n out, byte_mem In /\ 1 <= n <= 771 /\
  le_compress L false false false In n (ToolRun.buffer_size n) = COk out /\ ToolRun.buffer_size n < len out.
Proof.
  assert (HB : forall n, 1 <= n <= 771 -> ToolRun.buffer_size n = le_bounds n).
  { intros n Hn. rewrite buffer_297 by (unfold max_in; lia). unfold le_bounds, w32. rewrite Z.mod_small; lia. }
  intros [-> | ->].
  - destruct (too_long_ok _ _ tail255_long) as (out & H). exists tail255, 771, out. rewrite HB by lia. split; [exact tail255_byte|]. split; [lia|exact H].
  - destruct (too_long_ok _ _ tail32_long) as (out & H). exists tail32, 547, out. rewrite HB by lia. split; [exact tail32_byte|]. split; [lia|exact H].
Qed.
Lemma tool_rle8_overflow :
  (exists In n, byte_mem In /\ 1 <= n <= max_in /\ forall avx2, exists out,
    m_compress false avx2 false false In n (ToolRun.buffer_size n) = COk out /\ ToolRun.buffer_size n < len out) /\
  (exists In n out, byte_mem In /\ 1 <= n <= max_in /\
    s_compress true false false In n (ToolRun.buffer_size n) = COk out /\ ToolRun.buffer_size n < len out).
Proof.
  split; [exists bad_multi, bad_n; exact (conj bad_multi_byte (conj bad_n_range tool_multi_overflow))|].
  destruct tool_single_overflow as (out & H). exists bad_single, bad_single_n, out. split; [exact bad_single_byte|]. split; [exact bad_single_range|exact H].
Qed.
