(** --test on a small file of few values: no codec fails. *)
From Coq Require Import String Ascii.
From Verif Require Import Base Spec Spec2 Simd ExtModel Rle8Model LutModel SlModel MtfSpec MtfModel MtfThm MzModel LeModel FuzzModel PlatModel ApiModel.
From Verif Require Import Codec ExtThm Rle8Thm SlProof SlThm ShThm MzThm LeThm ToolTable ToolArgs ToolSpec ToolSel ToolThm ToolLib ToolRun ToolTab ToolCall.
From Verif Require ShModel HsModel HsThm.
Open Scope Z_scope.

(** *** Every codec serves a small file of few values *)

(** The transformations of mmtf.c need SSE2. *)
Definition usable (st : flags) (f : cfn) : bool := match f with KMmtf _ => st FSse2 | _ => true end.

Lemma serves_all st undef n file vs f g : List.In (f, g) all_functions -> usable st f = true -> (forall k, is_byte (file k)) ->
  1 <= n <= 6938 -> (forall k, 0 <= k < n -> List.In (file k) vs) -> len vs + n / 32 <= 251 ->
  Serves (lib_compress st undef f) (lib_decompress st g) n (n + 297) file.
Proof.
  intros Hin Hu HF Hn HV Hvs. assert (Hmax : 1 <= n <= max_in) by (unfold max_in; lia).
  assert (H193 : rle_compress_bounds n = n + 193) by (apply bounds_193; unfold max_in in *; lia).
  assert (Hcap : n <= n + 297 < 2 ^ 32) by lia.
  unfold all_functions in Hin. rewrite !in_app_iff, !in_map_iff in Hin. cbn [List.In] in Hin.
  destruct Hin as [Hin|[Hin|[Hin|[Hin|[Hin|Hin]]]]].
  - assert (HM : forall pk d, Serves (call_list (m_compress pk (match choose Rle8_comp st with Some IAvx2 => true | _ => false end))) (call_dec (r8_decompress pk d)) n (n + 297) file).
    { intros pk d. eapply rt_serves; [apply multi_rt|apply multi_header|exists d; reflexivity|lia|exact HF|exact Hmax|exact Hcap|].
      unfold multi_space. rewrite H193. destruct pk; [lia|]. assert (n / 261 < 27) by (apply Z.div_lt_upper_bound; lia). lia. }
    assert (HS : forall pk d, Serves (call_list (s_compress pk)) (call_dec (r8_decompress pk d)) n (n + 297) file).
    { intros pk d. eapply rt_serves; [apply single_rt|apply single_header|exists d; reflexivity|lia|exact HF|exact Hmax|exact Hcap|].
      unfold single_space. rewrite H193. destruct pk; [|lia]. assert (n / 257 < 27) by (apply Z.div_lt_upper_bound; lia). lia. }
    destruct Hin as [E|[E|[E|[E|[]]]]]; injection E as <- <-; [apply HM|apply HM|apply HS|apply HS].
  - destruct Hin as (c & E & Hc). injection E as <- <-.
    eapply rt_serves; [apply ext_round_trip; exact Hc|apply ext_header; exact Hc|eexists; reflexivity|lia|exact HF|exact Hmax|exact Hcap|lia].
  - destruct Hin as (c & E & Hc). injection E as <- <-.
    eapply rt_serves; [apply sl_rt; exact Hc|apply sl_header; exact Hc|eexists; reflexivity|lia|exact HF|exact Hmax|exact Hcap|].
    unfold sl_space, sl_loss. rewrite H193. destruct (_ =? 3); [assert (n / 68 < 103) by (apply Z.div_lt_upper_bound; lia); lia|].
    destruct (_ <=? 4); [|lia]. rewrite (Z.div_small n 65537) by lia. lia.
  - destruct Hin as (c & E & Hc). injection E as <- <-. pose proof (She_short c (enc_impl (choose (lut_site (ShModel.shS c)) st)) Hc) as He.
    eapply rt_serves; [exact (sh_rt _ _ He)|exact (ShThm.sh_header _ _ He)|eexists; reflexivity|lia|exact HF|exact Hmax|exact Hcap|].
    unfold sh_space. rewrite H193, (Z.div_small n 65537) by lia. lia.
  - destruct Hin as (c & E & Hc). injection E as <- <-. pose proof (She_greedy c Hc) as He.
    eapply rt_serves; [exact (sh_rt _ _ He)|exact (ShThm.sh_header _ _ He)|eexists; reflexivity|lia|exact HF|exact Hmax|exact Hcap|].
    unfold sh_space. rewrite H193, (Z.div_small n 65537) by lia. lia.
  - assert (HL : forall L max, L = 255 \/ L = 32 -> forall c, Serves (call_list (le_compress L max)) (call_dec (le_decompress L c)) n (n + 297) file).
    { intros L max HL c. apply (list_serves _ _ 0); try assumption; [lia|]. intros In HIn HE.
      destruct (le_few L max In n (n + 297) vs HL HIn Hmax ltac:(lia) ltac:(intros k Hk; rewrite HE by exact Hk; now apply HV) Hvs) as (out & O1 & O2 & O3).
      exists out. split; [exact O1|]. split; [exact O2|]. apply O3. exists c. reflexivity. }
    destruct Hin as [E|[E|[E|[E|[E|[E|[E|[E|[E|[E|[]]]]]]]]]]]; injection E as <- <-.
    + apply hs_serves; [exact HF|exact Hmax|]. unfold HsThm.sh_need. assert (n / 128 <= 55) by (apply Z.div_le_upper_bound; lia). lia.
    + apply mz_serves; [exact HF|exact Hmax|lia].
    + apply HL. now left.
    + apply HL. now left.
    + apply HL. now right.
    + apply HL. now right.
    + eapply x_serves; [apply mmtf_enc_spec; exact Hu|apply mmtf_round_trip; exact Hu|exact HF|lia].
    + eapply x_serves; [apply mmtf_enc_spec; exact Hu|apply mmtf_round_trip; exact Hu|exact HF|lia].
    + eapply x_serves; [apply bitmmtf_enc_spec|apply bitmmtf_round_trip|exact HF|lia].
    + eapply x_serves; [apply bitmmtf_enc_spec|apply bitmmtf_round_trip|exact HF|lia].
Qed.

(** memcpy. *)
Lemma copy_serves n cap file : 1 <= n <= cap ->
  Serves (fun M pin n pout _ => CRet n (memory_copy M pout pin n)) (fun M pin r pout _ => CRet n (memory_copy M pout pin n)) n cap file.
Proof.
  intros Hn M pU pK pD (L1 & L2 & L3 & L4 & L5 & L6 & L7 & L8 & L9) HU. exists n, (memory_copy M pK pU n). split; [reflexivity|]. split; [lia|].
  unfold memory_copy. split; [intros x Hx; apply store_out; rewrite len_slice by lia; lia|]. intros M2 H2. exists (store M2 pD (slice M2 pK n)).
  split; [reflexivity|]. split.
  - intros k Hk. rewrite store_in by (rewrite len_slice by lia; lia). replace (pD + k - pD) with k by lia. rewrite nth_slice by lia. rewrite H2 by lia.
    rewrite store_in by (rewrite len_slice by lia; lia). replace (pK + k - pK) with k by lia. rewrite nth_slice by lia. apply HU. lia.
  - intros x Hx. apply store_out. rewrite len_slice by lia. lia.
Qed.

(** *** Repetitions *)
Lemma repeat_comp comp dec n cap file more : Serves comp dec n cap file -> forall M pU pK pD, Layout n cap pU pK pD ->
  (forall k, 0 <= k < n -> M (pU + k) = file k) ->
  exists r M1, repeat_call more (fun M => comp M pU n pK cap) M = CRet r M1 /\ 0 < r <= cap /\ (forall x, x < pK \/ pK + cap <= x -> M1 x = M x) /\
    forall M2, (forall x, pK <= x < pK + r -> M2 x = M1 x) ->
    exists M3, dec M2 pK r pD cap = CRet n M3 /\ (forall k, 0 <= k < n -> M3 (pD + k) = file k) /\
      (forall x, x < pD \/ pD + n + 128 <= x -> M3 x = M2 x).
Proof.
  intros HS. induction more as [|more IH]; intros M pU pK pD HL HU; destruct (HS M pU pK pD HL HU) as (r & M1 & E & Hr & HO & HD).
  - exists r, M1. cbn [repeat_call]. rewrite E. replace (r =? 0) with false by lia. auto.
  - destruct (IH M1 pU pK pD HL) as (r' & M1' & E' & Hr' & HO' & HD').
    { intros k Hk. rewrite HO; [now apply HU|]. destruct HL as (_ & _ & _ & _ & _ & _ & HL & _). unfold apart in HL. lia. }
    exists r', M1'. cbn [repeat_call]. rewrite E. replace (r =? 0) with false by lia. split; [exact E'|]. split; [exact Hr'|].
    split; [intros x Hx; rewrite HO' by exact Hx; now apply HO|exact HD'].
Qed.
Lemma repeat_dec (d : mem -> callres) n pK r pD (file : mem) more M0 : 1 <= n -> (pK + r <= pD \/ pD + n + 128 <= pK) ->
  (forall M2, (forall x, pK <= x < pK + r -> M2 x = M0 x) ->
    exists M3, d M2 = CRet n M3 /\ (forall k, 0 <= k < n -> M3 (pD + k) = file k) /\ (forall x, x < pD \/ pD + n + 128 <= x -> M3 x = M2 x)) ->
  forall M2, (forall x, pK <= x < pK + r -> M2 x = M0 x) ->
  exists M3, repeat_call more d M2 = CRet n M3 /\ (forall k, 0 <= k < n -> M3 (pD + k) = file k) /\ (forall x, x < pD \/ pD + n + 128 <= x -> M3 x = M2 x).
Proof.
  intros Hn Ha HD. induction more as [|more IH]; intros M2 H2; destruct (HD M2 H2) as (M3 & E & E1 & E2); cbn [repeat_call]; rewrite E; replace (n =? 0) with false by lia.
  - exists M3. auto.
  - destruct (IH M3) as (M4 & F & F1 & F2); [intros x Hx; rewrite E2 by lia; now apply H2|]. exists M4. split; [exact F|]. split; [exact F1|].
    intros x Hx. rewrite F2 by exact Hx. now apply E2.
Qed.

Lemma same_bytes_eq M k : forall p q, (forall i, 0 <= i < Z.of_nat k -> M (p + i) = M (q + i)) -> same_bytes M p q k = true.
Proof.
  induction k as [|k IH]; intros p q H; cbn [same_bytes]; [reflexivity|]. rewrite IH.
  - specialize (H 0 ltac:(lia)). rewrite !Z.add_0_r in H. now rewrite H, Z.eqb_refl.
  - intros i Hi. specialize (H (i + 1) ltac:(lia)). replace (p + 1 + i) with (p + (i + 1)) by lia. replace (q + 1 + i) with (q + (i + 1)) by lia. exact H.
Qed.

(** *** One codec *)

(** Outside the three buffers nothing has changed. *)
Definition Kept (w : world) (n cap : Z) (M M' : mem) : Prop :=
  forall x, (x < w_K w \/ w_K w + cap <= x) -> (x < w_D w \/ w_D w + n + 128 <= x) -> M' x = M x.

Lemma run_serves_ok lib comp dec s w n c M file cap : 1 <= n < 2 ^ 32 -> cap = buffer_size n ->
  (forall M, call_compress lib w n c M = comp M (w_U w) n (w_K w) cap) ->
  (forall k M, call_decompress lib w n k c M = dec M (w_K w) k (w_D w) cap) ->
  Serves comp dec n cap file -> Layout n cap (w_U w) (w_K w) (w_D w) -> (forall k, 0 <= k < n -> M (w_U w + k) = file k) ->
  exists M', run_codec lib s w n c M = CodecDone OkCodec M' /\ Kept w n cap M M' /\ (forall k, 0 <= k < n -> M' (w_D w + k) = file k).
Proof.
  intros Hn Hcap HC HD HS HL HU. assert (Ew : w32 n = n) by (apply Z.mod_small; lia).
  destruct (repeat_comp comp dec n cap file (more_calls s w c false) HS M _ _ _ HL HU) as (r & M1 & E & Hr & HO & HDD).
  assert (HL' := HL). destruct HL' as (L1 & L2 & L3 & L4 & L5 & L6 & L7 & L8 & L9). unfold apart in L7, L8, L9.
  unfold run_codec. rewrite Ew, <- Hcap.
  assert (X : forall more f g M, (forall M, f M = g M) -> repeat_call more f M = repeat_call more g M).
  { clear. induction more as [|more IH]; intros f g M H; cbn [repeat_call]; rewrite H; destruct (g M); try reflexivity.
    destruct (_ =? _); [reflexivity|]. now apply IH. }
  rewrite (X _ _ _ M HC), E. replace (r =? 0) with false by lia.
  set (M2 := if _ : bool then _ else M1).
  assert (H2' : forall x, x < w_K w + r \/ w_K w + cap <= x -> M2 x = M1 x).
  { intros x Hx. unfold M2. destruct (_ || _); [|reflexivity]. unfold scramble. replace ((w_K w + r <=? x) && (x <? w_K w + cap)) with false by lia. reflexivity. }
  destruct (repeat_dec (fun M => dec M (w_K w) r (w_D w) cap) n (w_K w) r (w_D w) file (more_calls s w c true) M1 ltac:(lia) ltac:(lia) HDD M2) as (M3 & F & F1 & F2).
  { intros x Hx. apply H2'. lia. }
  rewrite (X _ _ _ M2 (HD r)), F. replace (n =? 0) with false by lia.
  assert (HV : validate M3 (w_U w) (w_D w) n = true).
  { unfold validate. apply same_bytes_eq. intros i Hi. rewrite F1 by lia. rewrite F2 by lia. rewrite H2' by lia. rewrite HO by lia. apply HU. lia. }
  rewrite HV. exists M3. split; [reflexivity|]. split; [|exact F1]. intros x Hx Hy. rewrite F2 by lia. rewrite H2' by lia. now apply HO.
Qed.

(** *** All codecs *)
Lemma buffer_297 n : 1 <= n <= max_in -> buffer_size n = n + 297.
Proof.
  intros Hn. unfold buffer_size. rewrite bounds_193 by lia. rewrite mz_bounds_small by exact Hn. rewrite le_bounds_eq by lia.
  unfold max_in, sh_bounds, w32 in *. rewrite Z.mod_small by lia. lia.
Qed.
Lemma mtf_names c wide g : codec_functions c = Some (KMmtf wide, g) -> is_mtf c = true.
Proof.
  intros E. assert (H : (match codec_functions c with Some (KMmtf _, _) => is_mtf c | _ => true end) = true); [|now rewrite E in H].
  clear E. revert c. apply forall_codec. vm_compute. reflexivity.
Qed.
Lemma no_sse2 wide st undef M pU n pK cap : st FSse2 = false -> lib_compress st undef (KMmtf wide) M pU n pK cap = CRet 0 M.
Proof.
  intros H. unfold lib_compress, call_x. destruct wide; [unfold mmtf, mmtf256|unfold mmtf, mmtf128]; cbn [m_sse2 mcpu_of]; rewrite H; destruct (cap <? n); reflexivity.
Qed.

(** The file is in its buffer. *)
Definition Loaded (w : world) (n : Z) (file M : mem) : Prop := forall k, 0 <= k < n -> M (w_U w + k) = file k.

Lemma codec_passes st s w n c M file vs : (forall k, is_byte (file k)) -> 1 <= n <= 6938 -> (forall k, 0 <= k < n -> List.In (file k) vs) -> len vs + n / 32 <= 251 ->
  Layout n (n + 297) (w_U w) (w_K w) (w_D w) -> Loaded w n file M ->
  exists x M', run_codec (the_library st (w_undef w)) s w n c M = CodecDone x M' /\ fails st s c x = false /\ Kept w n (n + 297) M M'.
Proof.
  intros HF Hn HV Hvs HL HU. assert (Ew : w32 n = n) by (apply Z.mod_small; lia).
  assert (Eb : n + 297 = buffer_size n) by (symmetry; apply buffer_297; unfold max_in; lia).
  destruct (codec_functions c) as [[f g]|] eqn:E.
  - destruct (usable st f) eqn:Hu.
    + destruct (run_serves_ok (the_library st (w_undef w)) (lib_compress st (w_undef w) f) (lib_decompress st g) s w n c M file (n + 297)) as (M' & R & K & _); auto; try lia.
      * intros M0. unfold call_compress, the_library. rewrite E, Ew, <- Eb. reflexivity.
      * intros k M0. unfold call_decompress, the_library. rewrite E, Ew, <- Eb. reflexivity.
      * apply (serves_all st (w_undef w) n file vs f g); auto. now apply (table_function c).
      * exists OkCodec, M'. auto.
    + destruct f; try discriminate. cbn [usable] in Hu. exists NoCompress, M. split.
      * unfold run_codec. assert (H1 : forall M0, call_compress (the_library st (w_undef w)) w n c M0 = CRet 0 M0).
        { intros M0. unfold call_compress, the_library. rewrite E. apply no_sse2, Hu. }
        destruct (more_calls s w c false); cbn [repeat_call]; rewrite H1; reflexivity.
      * split; [|intros x _ _; reflexivity]. cbn [fails]. rewrite Hu, (mtf_names c wide g E). cbn [negb andb]. now rewrite orb_true_r.
  - destruct (run_serves_ok (the_library st (w_undef w)) (fun M pin n pout _ => CRet n (memory_copy M pout pin n)) (fun M pin r pout _ => CRet n (memory_copy M pout pin n)) s w n c M file (n + 297)) as (M' & R & K & _); auto; try lia.
    + intros M0. unfold call_compress, the_library. rewrite E, Ew. reflexivity.
    + intros k M0. unfold call_decompress, the_library. rewrite E, Ew. reflexivity.
    + apply copy_serves. lia.
    + exists OkCodec, M'. auto.
Qed.

Lemma kept_loaded w n file M M' : Layout n (n + 297) (w_U w) (w_K w) (w_D w) -> Kept w n (n + 297) M M' -> Loaded w n file M -> Loaded w n file M'.
Proof.
  intros (L1 & L2 & L3 & L4 & L5 & L6 & L7 & L8 & L9) K H k Hk. unfold apart in *. rewrite K by lia. now apply H.
Qed.
Lemma codecs_pass st s w n file vs cs : (forall k, is_byte (file k)) -> 1 <= n <= 6938 -> (forall k, 0 <= k < n -> List.In (file k) vs) -> len vs + n / 32 <= 251 ->
  Layout n (n + 297) (w_U w) (w_K w) (w_D w) -> forall M, Loaded w n file M ->
  exists M', run_codecs (the_library st (w_undef w)) st s w n cs M = Exit 0 M' /\ Kept w n (n + 297) M M'.
Proof.
  intros HF Hn HV Hvs HL. induction cs as [|c cs IH]; intros M HU; cbn [run_codecs]; [exists M; split; [reflexivity|intros x _ _; reflexivity]|].
  destruct (codec_passes st s w n c M file vs HF Hn HV Hvs HL HU) as (x & M1 & E & F & K). rewrite E, F.
  destruct (IH M1 (kept_loaded _ _ _ _ _ HL K HU)) as (M' & E' & K'). exists M'. split; [exact E'|]. intros y Hy Hz. rewrite K' by assumption. now apply K.
Qed.

Lemma main_runs L m w argv f s file n : command_line m argv = Some (f, s) -> s_fuzz s = false ->
  w_file w = Some (file, n) -> w_alloc w = true -> w_read w = true -> 1 <= n ->
  main_with L m w argv = run_codecs (L (detect m (s_flags s))) (detect m (s_flags s)) s w n (selected (s_args s)) (store (w_memory w) (w_U w) (slice file 0 n)).
Proof.
  intros HA Hf Hw Ha Hr Hn. unfold main_with. rewrite HA, Hf, Hw, Ha, Hr. replace (n <=? 0) with false by lia. reflexivity.
Qed.
Lemma store_loaded w n file M : Loaded w n file (store M (w_U w) (slice file 0 n)).
Proof.
  intros k Hk. rewrite store_in by (rewrite len_slice by lia; lia). replace (w_U w + k - w_U w) with k by lia. rewrite nth_slice by lia. f_equal.
Qed.

Theorem test_passes m w argv f s file n vs : command_line m argv = Some (f, s) -> s_fuzz s = false ->
  w_file w = Some (file, n) -> w_alloc w = true -> w_read w = true ->
  (forall k, is_byte (file k)) -> 1 <= n <= 6938 -> (forall k, 0 <= k < n -> List.In (file k) vs) -> len vs + n / 32 <= 251 ->
  Layout n (n + 297) (w_U w) (w_K w) (w_D w) ->
  exists M', main m w argv = Exit 0 M' /\
    forall x, (x < w_U w \/ w_U w + n <= x) -> (x < w_K w \/ w_K w + (n + 297) <= x) -> (x < w_D w \/ w_D w + n + 128 <= x) -> M' x = w_memory w x.
Proof.
  intros HA Hf Hw Ha Hr HF Hn HV Hvs HL. unfold main. rewrite (main_runs _ m w argv f s file n HA Hf Hw Ha Hr ltac:(lia)).
  set (M0 := store (w_memory w) (w_U w) (slice file 0 n)).
  destruct (codecs_pass (detect m (s_flags s)) s w n file vs (selected (s_args s)) HF Hn HV Hvs HL M0 (store_loaded w n file _)) as (M' & E & K).
  exists M'. split; [exact E|]. intros x H1 H2 H3. rewrite K by assumption. unfold M0. apply store_out. rewrite len_slice by lia. lia.
Qed.

(** *** What exit code 0 shows, for any library *)

(** The functions of the library write into their output buffers only; the decompressors need to do so only when
    they are given what the compressor has written. *)
Definition Tame (lib : library) (w : world) (n : Z) (file : mem) : Prop :=
  forall c comp dec, lib c = Some (comp, dec) -> forall M r M1, Loaded w n file M -> comp M (w_U w) n (w_K w) (buffer_size n) = CRet r M1 ->
    0 <= r <= buffer_size n /\ (forall x, x < w_K w \/ w_K w + buffer_size n <= x -> M1 x = M x) /\
    forall M2 r' M3, (forall x, w_K w <= x < w_K w + r -> M2 x = M1 x) -> dec M2 (w_K w) r (w_D w) (buffer_size n) = CRet r' M3 ->
      forall x, x < w_D w \/ w_D w + n + 128 <= x -> M3 x = M2 x.

(** The compressor has compressed the file; the decompressor was given these bytes and the number of them; then
    the file was in the buffer of the decompressor. *)
Definition Verified (comp dec : call) (w : world) (n : Z) (file : mem) : Prop :=
  exists M k M1 M2 r M3, Loaded w n file M /\ comp M (w_U w) n (w_K w) (buffer_size n) = CRet k M1 /\ k <> 0 /\
    (forall x, w_K w <= x < w_K w + k -> M2 x = M1 x) /\ dec M2 (w_K w) k (w_D w) (buffer_size n) = CRet r M3 /\ r <> 0 /\
    forall i, 0 <= i < n -> w8 (M3 (w_D w + i)) = file i.

Lemma repeat_last more f (P : mem -> Prop) : (forall M r M', P M -> f M = CRet r M' -> P M') ->
  forall M r M', P M -> repeat_call more f M = CRet r M' -> exists M0, P M0 /\ f M0 = CRet r M'.
Proof.
  intros HP. induction more as [|more IH]; intros M r M' H E; cbn [repeat_call] in E; destruct (f M) as [r0 M0| |] eqn:EF; try discriminate.
  - exists M. split; [exact H|]. destruct (r0 =? 0) eqn:E0; [|congruence]. rewrite EF. f_equal; try congruence. assert (r = 0) by congruence. lia.
  - destruct (r0 =? 0) eqn:E0.
    + exists M. split; [exact H|]. rewrite EF. f_equal; try congruence. assert (r = 0) by congruence. lia.
    + exact (IH M0 r M' (HP _ _ _ H EF) E).
Qed.
Lemma same_bytes_inv M k : forall p q, same_bytes M p q k = true -> forall i, 0 <= i < Z.of_nat k -> w8 (M (p + i)) = w8 (M (q + i)).
Proof.
  induction k as [|k IH]; intros p q H i Hi; [lia|]. cbn [same_bytes] in H. apply andb_prop in H. destruct H as [H1 H2].
  destruct (Z.eq_dec i 0) as [->|Hne]; [rewrite !Z.add_0_r; lia|]. specialize (IH _ _ H2 (i - 1) ltac:(lia)).
  replace (p + 1 + (i - 1)) with (p + i) in IH by lia. replace (q + 1 + (i - 1)) with (q + i) in IH by lia. exact IH.
Qed.

Lemma codec_sound lib st s w n file c comp dec M x M' : 1 <= n < 2 ^ 32 -> (forall k, is_byte (file k)) -> Tame lib w n file ->
  Layout n (buffer_size n) (w_U w) (w_K w) (w_D w) -> Loaded w n file M -> lib c = Some (comp, dec) -> s_test s = true ->
  run_codec lib s w n c M = CodecDone x M' -> fails st s c x = false ->
  Loaded w n file M' /\ (Verified comp dec w n file \/ (is_mtf c = true /\ (st FSse2 = false \/ st FAvx = false))).
Proof.
  intros Hn HF HT HL HU Hc Ht HR Hx. assert (Ew : w32 n = n) by (apply Z.mod_small; lia).
  destruct HL as (L1 & L2 & L3 & L4 & L5 & L6 & L7 & L8 & L9). unfold apart in L7, L8, L9.
  assert (HM2 : forall b, is_mtf256 b = true -> is_mtf b = true) by (intros b Hb; unfold is_mtf; rewrite Hb; apply orb_true_r).
  unfold run_codec in HR. destruct (repeat_call (more_calls s w c false) (call_compress lib w n c) M) as [k M1| |] eqn:E1; try discriminate.
  assert (HP1 : forall A r B, Loaded w n file A -> call_compress lib w n c A = CRet r B -> Loaded w n file B).
  { intros A r B HA EA. unfold call_compress in EA. rewrite Hc, Ew in EA. destruct (HT c comp dec Hc A r B HA EA) as (_ & HO & _).
    intros i Hi. rewrite HO by lia. now apply HA. }
  destruct (repeat_last _ _ (Loaded w n file) HP1 _ _ _ HU E1) as (M0 & HM0 & F1).
  unfold call_compress in F1. rewrite Hc, Ew in F1. destruct (HT c comp dec Hc M0 k M1 HM0 F1) as (Hk & HO & HD).
  assert (HU1 : Loaded w n file M1) by (intros i Hi; rewrite HO by lia; now apply HM0).
  destruct (k =? 0) eqn:Ek.
  - injection HR as <- <-. split; [exact HU1|]. right. cbn [fails] in Hx. rewrite Ht in Hx. destruct (st FAvx), (st FSse2); cbn [negb andb orb] in Hx; try discriminate.
    + destruct (is_mtf c); [auto|discriminate].
    + destruct (is_mtf256 c) eqn:E; [split; [now apply HM2|auto]|discriminate].
    + destruct (is_mtf c) eqn:E; [auto|]. rewrite orb_false_r in Hx. destruct (is_mtf256 c) eqn:E'; [apply HM2 in E'; congruence|discriminate].
  - set (M2 := if _ : bool then _ else M1) in HR.
    assert (H2 : forall x, x < w_K w + k \/ w_K w + buffer_size n <= x -> M2 x = M1 x).
    { intros y Hy. unfold M2. destruct (_ || _); [|reflexivity]. unfold scramble. rewrite Ew. replace ((w_K w + k <=? y) && (y <? w_K w + buffer_size n)) with false by lia. reflexivity. }
    destruct (repeat_call (more_calls s w c true) (call_decompress lib w n k c) M2) as [r M3| |] eqn:E2; try discriminate.
    assert (HP2 : forall A r B, (Loaded w n file A /\ forall x, w_K w <= x < w_K w + k -> A x = M1 x) -> call_decompress lib w n k c A = CRet r B ->
      Loaded w n file B /\ forall x, w_K w <= x < w_K w + k -> B x = M1 x).
    { intros A r0 B [HA HB] EA. unfold call_decompress in EA. rewrite Hc, Ew in EA. pose proof (HD A r0 B HB EA) as HX.
      split; [intros i Hi; rewrite HX by lia; now apply HA|intros y Hy; rewrite HX by lia; now apply HB]. }
    assert (HM2' : Loaded w n file M2 /\ forall x, w_K w <= x < w_K w + k -> M2 x = M1 x)
      by (split; [intros i Hi; rewrite H2 by lia; now apply HU1|intros y Hy; apply H2; lia]).
    destruct (repeat_last _ _ _ HP2 _ _ _ HM2' E2) as (M4 & [HM4 HK4] & F2).
    unfold call_decompress in F2. rewrite Hc, Ew in F2. pose proof (HD M4 r M3 HK4 F2) as HX.
    assert (HU3 : Loaded w n file M3) by (intros i Hi; rewrite HX by lia; now apply HM4).
    destruct (r =? 0) eqn:Er.
    + injection HR as <- <-. split; [exact HU3|]. right. cbn [fails] in Hx. rewrite Ht in Hx. destruct (st FSse2), (is_mtf c); cbn [negb andb] in Hx; try discriminate. auto.
    + destruct (validate M3 (w_U w) (w_D w) n) eqn:EV; injection HR as <- <-; [|cbn [fails] in Hx; congruence].
      split; [exact HU3|]. left. exists M0, k, M1, M4, r, M3. split; [exact HM0|]. split; [exact F1|]. split; [lia|]. split; [exact HK4|]. split; [exact F2|]. split; [lia|].
      intros i Hi. rewrite <- (same_bytes_inv M3 (Z.to_nat n) (w_U w) (w_D w) EV i ltac:(lia)). rewrite HU3 by lia. apply Z.mod_small, HF.
Qed.

Lemma buffer_at_least n : n <= buffer_size n.
Proof. unfold buffer_size. lia. Qed.
(** memcpy keeps the file. *)
Lemma copy_sound lib s w n file c M x M' : 1 <= n < 2 ^ 32 -> Layout n (buffer_size n) (w_U w) (w_K w) (w_D w) -> Loaded w n file M -> lib c = None ->
  run_codec lib s w n c M = CodecDone x M' -> Loaded w n file M'.
Proof.
  intros Hn HL HU Hc HR. pose proof (buffer_at_least n) as Hb. assert (Ew : w32 n = n) by (apply Z.mod_small; lia).
  destruct HL as (L1 & L2 & L3 & L4 & L5 & L6 & L7 & L8 & L9). unfold apart in L7, L8, L9.
  assert (HC : forall p q A, (p = w_K w \/ p = w_D w) -> Loaded w n file A -> Loaded w n file (memory_copy A p q n)).
  { intros p q A Hp HA i Hi. unfold memory_copy. rewrite store_out; [now apply HA|]. rewrite len_slice by lia. destruct Hp as [-> | ->]; lia. }
  unfold run_codec in HR. destruct (repeat_call (more_calls s w c false) (call_compress lib w n c) M) as [k M1| |] eqn:E1; try discriminate.
  assert (HP1 : forall A r B, Loaded w n file A -> call_compress lib w n c A = CRet r B -> Loaded w n file B).
  { intros A r B HA EA. unfold call_compress in EA. rewrite Hc in EA. injection EA as _ <-. apply HC; auto. }
  destruct (repeat_last _ _ (Loaded w n file) HP1 _ _ _ HU E1) as (M0 & HM0 & F1). pose proof (HP1 _ _ _ HM0 F1) as HU1.
  assert (Hk : k = n) by (unfold call_compress in F1; rewrite Hc, Ew in F1; congruence). subst k.
  destruct (n =? 0); [injection HR as <- <-; exact HU1|]. set (M2 := if _ : bool then _ else M1) in HR.
  assert (HU2 : Loaded w n file M2).
  { intros i Hi. unfold M2. destruct (_ || _); [|now apply HU1]. unfold scramble. rewrite Ew.
    replace ((w_K w + n <=? w_U w + i) && (w_U w + i <? w_K w + buffer_size n)) with false by lia. now apply HU1. }
  destruct (repeat_call (more_calls s w c true) (call_decompress lib w n n c) M2) as [r M3| |] eqn:E2; try discriminate.
  assert (HP2 : forall A r B, Loaded w n file A -> call_decompress lib w n n c A = CRet r B -> Loaded w n file B).
  { intros A r0 B HA EA. unfold call_decompress in EA. rewrite Hc in EA. injection EA as _ <-. apply HC; auto. }
  destruct (repeat_last _ _ _ HP2 _ _ _ HU2 E2) as (M4 & HM4 & F2). pose proof (HP2 _ _ _ HM4 F2) as HU3.
  destruct (r =? 0); [injection HR as <- <-; exact HU3|]. destruct (validate _ _ _ _); injection HR as <- <-; exact HU3.
Qed.

Lemma codecs_sound lib st s w n file : 1 <= n < 2 ^ 32 -> (forall k, is_byte (file k)) -> Tame lib w n file ->
  Layout n (buffer_size n) (w_U w) (w_K w) (w_D w) -> s_test s = true ->
  forall cs M M', Loaded w n file M -> run_codecs lib st s w n cs M = Exit 0 M' ->
  forall c comp dec, List.In c cs -> lib c = Some (comp, dec) -> Verified comp dec w n file \/ (is_mtf c = true /\ (st FSse2 = false \/ st FAvx = false)).
Proof.
  intros Hn HF HT HL Ht. induction cs as [|c0 cs IH]; intros M M' HU HR c comp dec Hin Hc; [contradiction|]. cbn [run_codecs] in HR.
  destruct (run_codec lib s w n c0 M) as [x M1| |] eqn:E; try discriminate. destruct (fails st s c0 x) eqn:Ex; [discriminate|].
  assert (HU1 : Loaded w n file M1).
  { destruct (lib c0) as [[f g]|] eqn:E0; [|exact (copy_sound lib s w n file c0 M x M1 Hn HL HU E0 E)].
    exact (proj1 (codec_sound lib st s w n file c0 f g M x M1 Hn HF HT HL HU E0 Ht E Ex)). }
  destruct Hin as [->|Hin]; [|exact (IH M1 M' HU1 HR c comp dec Hin Hc)].
  exact (proj2 (codec_sound lib st s w n file c comp dec M x M1 Hn HF HT HL HU Hc Ht E Ex)).
Qed.

Theorem test_sound L m w argv f s file n M' : command_line m argv = Some (f, s) -> s_fuzz s = false -> s_test s = true ->
  w_file w = Some (file, n) -> w_alloc w = true -> w_read w = true -> (forall k, is_byte (file k)) -> 1 <= n < 2 ^ 32 ->
  Layout n (buffer_size n) (w_U w) (w_K w) (w_D w) -> Tame (L (detect m (s_flags s))) w n file ->
  main_with L m w argv = Exit 0 M' ->
  forall c comp dec, List.In c (selected (s_args s)) -> L (detect m (s_flags s)) c = Some (comp, dec) ->
    Verified comp dec w n file \/ (is_mtf c = true /\ (detect m (s_flags s) FSse2 = false \/ detect m (s_flags s) FAvx = false)).
Proof.
  intros HA Hf Ht Hw Ha Hr HF Hn HL HT HM. rewrite (main_runs L m w argv f s file n HA Hf Hw Ha Hr ltac:(lia)) in HM.
  exact (codecs_sound _ _ s w n file Hn HF HT HL Ht _ _ _ (store_loaded w n file _) HM).
Qed.

(** *** Files of 4 GiB or more: memcpy leaves its buffer *)
Lemma buffer_small n : 0 <= n < 2 ^ 32 -> buffer_size n < 2 ^ 32.
Proof.
  intros Hn. assert (HW : forall x, w32 x < 2 ^ 32) by (intros x; exact (proj2 (Z.mod_pos_bound x (2 ^ 32) ltac:(lia)))).
  assert (H1 : rle_compress_bounds n < 2 ^ 32) by (unfold rle_compress_bounds; destruct (n >? 2 ^ 30) eqn:E; lia).
  assert (H2 : mz_bounds n < 2 ^ 32) by (unfold mz_bounds; destruct (2 ^ 30 <? n); [lia|apply HW]).
  unfold buffer_size. repeat apply Z.max_lub_lt; try assumption; try apply HW. lia.
Qed.
Theorem large_copy lib w size M : lib MemCopy = None -> 2 ^ 32 <= size ->
  exists M', call_compress lib w size MemCopy M = CRet (w32 size) M' /\ w_K w + buffer_size (w32 size) < w_K w + size /\
    forall x, w_K w + buffer_size (w32 size) <= x < w_K w + size -> M' x = M (w_U w + (x - w_K w)).
Proof.
  intros Hl Hs. unfold call_compress. rewrite Hl. eexists. split; [reflexivity|].
  assert (Hw : 0 <= w32 size < 2 ^ 32) by (apply Z.mod_pos_bound; lia). pose proof (buffer_small _ Hw). pose proof (buffer_at_least (w32 size)). split; [lia|].
  intros x Hx. unfold memory_copy. rewrite store_in by (rewrite len_slice by lia; lia). now rewrite nth_slice by lia.
Qed.
