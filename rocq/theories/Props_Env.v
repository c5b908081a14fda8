(** Bytes next to the buffers: what the encoders read behind the input, inputs above the limit, and
    streams that no compressor has written. *)
From Verif Require Import Base Simd Spec Spec2 ExtModel PktModel Rle8Model MbModel LutModel SlModel ShModel ShThm LeModel MzModel EnvSpec EnvThm OverThm HosSpec HosThm HosThm2 LeHos HosSpec2 RmHos.
From Verif Require HsModel.

(** C30: the stream depends on the input and on exactly this many bytes behind it: one symbol for the
    multi byte codecs, none for the 8 bit codecs. *)
Theorem C30_ext_depends_exactly : forall c v k, List.In c xcodecs -> (InputUpTo k (xcompress c v false false) <-> xS c <= k).
Proof. exact x_upto_iff. Qed.
Print Assumptions C30_ext_depends_exactly.
Theorem C30_sl_depends_exactly : forall c v k, List.In c slcodecs -> 0 <= k ->
  (InputUpTo k (sl_compress c v false false) <-> (if slS c =? 1 then 0 else slS c) <= k).
Proof. exact sl_upto_iff. Qed.
Print Assumptions C30_sl_depends_exactly.
Theorem C30_short_depends_exactly : forall c v k, List.In c shcodecs -> 0 <= k ->
  (InputUpTo k (sh_compress c v false false) <-> (if shS c =? 1 then 0 else shS c) <= k).
Proof. exact sh_upto_iff. Qed.
Print Assumptions C30_short_depends_exactly.
Theorem C30_greedy_depends_exactly : forall c k, List.In c greedy_codecs -> (InputUpTo k (greedy_compress c false false) <-> shS c <= k).
Proof. exact greedy_upto_iff. Qed.
Print Assumptions C30_greedy_depends_exactly.
Theorem C30_rle8_multi_input_only : forall pk avx2, InputOnly (m_compress pk avx2 false false).
Proof. exact m_input_only. Qed.
Print Assumptions C30_rle8_multi_input_only.
Theorem C30_rle8_single_input_only : forall pk, InputOnly (s_compress pk false false).
Proof. exact s_input_only. Qed.
Print Assumptions C30_rle8_single_input_only.
(** The property as stated, for every codec. *)
Theorem C30_ext_input_only_refuted : forall c v, List.In c xcodecs -> ~ InputOnly (xcompress c v false false).
Proof. exact x_not_only. Qed.
Print Assumptions C30_ext_input_only_refuted.
Theorem C30_sl_input_only_exactly : forall c v, List.In c slcodecs -> (InputOnly (sl_compress c v false false) <-> slS c = 1).
Proof. exact sl_only_iff. Qed.
Print Assumptions C30_sl_input_only_exactly.
Theorem C30_short_input_only_exactly : forall c v, List.In c shcodecs -> (InputOnly (sh_compress c v false false) <-> shS c = 1).
Proof. exact sh_only_iff. Qed.
Print Assumptions C30_short_input_only_exactly.
Theorem C30_greedy_input_only_refuted : forall c, List.In c greedy_codecs -> ~ InputOnly (greedy_compress c false false).
Proof. exact greedy_not_only. Qed.
Print Assumptions C30_greedy_input_only_refuted.

(** C27: every size above 2^30 passes the guard with every capacity. *)
Theorem C27_rle8_multi_oversize_refuted : forall pk avx2 In n cap, 2 ^ 30 < n -> 0 <= cap -> m_compress pk avx2 false false In n cap <> CRefused.
Proof. exact m_oversize. Qed.
Print Assumptions C27_rle8_multi_oversize_refuted.
Theorem C27_rle8_single_oversize_refuted : forall pk In n cap, 2 ^ 30 < n -> 0 <= cap -> s_compress pk false false In n cap <> CRefused.
Proof. exact s_oversize. Qed.
Print Assumptions C27_rle8_single_oversize_refuted.
Theorem C27_sl_oversize_refuted : forall c v In n cap, 2 ^ 30 < n -> 0 <= cap -> sl_compress c v false false In n cap <> CRefused.
Proof. exact sl_oversize. Qed.
Print Assumptions C27_sl_oversize_refuted.
Theorem C27_short_oversize_refuted : forall c comp In n cap, sh_encoder c comp -> 2 ^ 30 < n -> 0 <= cap -> comp false false In n cap <> CRefused.
Proof. exact sh_oversize. Qed.
Print Assumptions C27_short_oversize_refuted.
Theorem C27_rle8_mmtf128_oversize_refuted : forall undef M pout In n cap, 2 ^ 30 < n -> 0 <= cap ->
  mz_compress undef M pout false false In n cap <> CRefused.
Proof. exact mz_oversize. Qed.
Print Assumptions C27_rle8_mmtf128_oversize_refuted.

(** C33: no decoder stays inside of its output buffer and the 128 bytes of
    rle_decompress_additional_size, at any CPU level. *)
Theorem C33_ext_refuted : forall c d, List.In c xcodecs -> ~ AnyStreamInside rle_decompress_additional_size (xdecompress c d).
Proof. exact ext_overrun. Qed.
Print Assumptions C33_ext_refuted.
Theorem C33_rle8_refuted : forall pk d, ~ AnyStreamInside rle_decompress_additional_size (r8_decompress pk d).
Proof. exact r8_overrun. Qed.
Print Assumptions C33_rle8_refuted.
Theorem C33_sl_refuted : forall c l, List.In c slcodecs -> ~ AnyStreamInside rle_decompress_additional_size (sl_decompress c l).
Proof. exact sl_overrun. Qed.
Print Assumptions C33_sl_refuted.
Theorem C33_short_refuted : forall c l, List.In c shcodecs -> ~ AnyStreamInside rle_decompress_additional_size (sh_decompress c l).
Proof. exact sh_overrun. Qed.
Print Assumptions C33_short_refuted.
Theorem C33_low_entropy_refuted : forall L c, L = 255 \/ L = 32 -> ~ AnyStreamInside rle_decompress_additional_size (le_decompress L c).
Proof. exact le_overrun. Qed.
Print Assumptions C33_low_entropy_refuted.
Theorem C33_rle8m_refuted : forall c, ~ AnyStreamInside rle_decompress_additional_size (rm_decompress c).
Proof. exact rm_overrun. Qed.
Print Assumptions C33_rle8m_refuted.
Theorem C33_rle8_mmtf128_refuted : ~ AnyStreamInside rle_decompress_additional_size mz_decompress.
Proof. exact mz_overrun. Qed.
Print Assumptions C33_rle8_mmtf128_refuted.
Theorem C33_rle8_sh_refuted : ~ AnyStreamInside rle_decompress_additional_size HsModel.sh_decompress.
Proof. exact hs_overrun. Qed.
Print Assumptions C33_rle8_sh_refuted.
(** The low entropy decoders end on every stream, and write at most 128 bytes for each byte of it. *)
Theorem C33_low_entropy_any_stream_partial : forall L c, AnyStreamEnds 128 (le_decompress L c).
Proof. exact le_any. Qed.
Print Assumptions C33_low_entropy_any_stream_partial.
(** rle8m ends on every stream, though the offsets of the sections may point anywhere, also back. *)
Theorem C33_rle8m_any_stream_partial : forall c, AnyStreamReturns (rm_decompress c).
Proof. exact rm_any. Qed.
Print Assumptions C33_rle8m_any_stream_partial.

(** C59: no decoder reads only the [inSize] bytes it is given and the 128 bytes behind them. *)
Theorem C59_ext_refuted : forall c d, List.In c xcodecs -> ~ StreamOnly 128 (xdecompress c d).
Proof. exact ext_overread. Qed.
Print Assumptions C59_ext_refuted.
Theorem C59_rle8_refuted : forall pk d, ~ StreamOnly 128 (r8_decompress pk d).
Proof. exact r8_overread. Qed.
Print Assumptions C59_rle8_refuted.
Theorem C59_sl_refuted : forall c l, List.In c slcodecs -> ~ StreamOnly 128 (sl_decompress c l).
Proof. exact sl_overread. Qed.
Print Assumptions C59_sl_refuted.
Theorem C59_short_refuted : forall c l, List.In c shcodecs -> ~ StreamOnly 128 (sh_decompress c l).
Proof. exact sh_overread. Qed.
Print Assumptions C59_short_refuted.
Theorem C59_low_entropy_refuted : forall L c, ~ StreamOnly 128 (le_decompress L c).
Proof. exact le_overread. Qed.
Print Assumptions C59_low_entropy_refuted.
Theorem C59_rle8m_refuted : forall c, ~ StreamOnly 128 (rm_decompress c).
Proof. exact rm_overread. Qed.
Print Assumptions C59_rle8m_refuted.
Theorem C59_rle8_mmtf128_refuted : ~ StreamOnly 128 mz_decompress.
Proof. exact mz_overread. Qed.
Print Assumptions C59_rle8_mmtf128_refuted.
Theorem C59_rle8_sh_refuted : ~ StreamOnly 128 HsModel.sh_decompress.
Proof. exact hs_overread. Qed.
Print Assumptions C59_rle8_sh_refuted.

(** Examples.  Codecs on both sides. *)
Example C30_codecs : List.In (mkX 16 false true false) xcodecs /\ List.In (mkSl 1 false 3) slcodecs /\ List.In (mkSl 6 true 3) slcodecs /\
  List.In (mkSh 1 false 0 true) shcodecs /\ List.In (mkSh 8 false 7 false) shcodecs /\ List.In (mkSh 4 true 1 false) greedy_codecs.
Proof. vm_compute. tauto. Qed.
(** rle32_sym_packed of four equal bytes: the same four bytes behind the input make the stream longer. *)
Example C30_example_behind :
  (match xcompress (mkX 4 false true false) Sse2 false false (fun _ => 9) 4 200 with COk out => len out | _ => 0 end,
   match xcompress (mkX 4 false true false) Sse2 false false (fun x => if x <? 4 then 9 else 8) 4 200 with COk out => len out | _ => 0 end) = (24, 22).
Proof. vm_compute. reflexivity. Qed.
(** A low entropy stream of 52 bytes, 44 of them header, that announces 1 byte and makes 4 * 256. *)
Definition ex_le (k : nat) : list Z := le32 (Z.of_nat (44 + 2 * k)) ++ le32 1 ++ [1] ++ repeat 0 31 ++ [3; 255; 1; 2] ++ concat (repeat [0; 254] k).
Example C33_example_low_entropy :
  match le_decompress 255 (mkCpu true true) (store (fun _ => 7) 1000 (ex_le 4)) 1000 52 (fun _ => 7) 5000 1 with
  | DRet r M' => (r, len (filter (fun x => M' x =? 0) (map Z.of_nat (seq 4000 4000)))) | DDiverge => (0, 0) end = (1, 1024).
Proof. vm_compute. reflexivity. Qed.
(** A stream of rle8m that announces 4 bytes in 4 sections; the second section ends before the first, so that the third decodes the
    same 8 bytes again. *)
Definition ex_rm : list Z := le32 68 ++ le32 4 ++ le32 4 ++ le32 68 ++ le32 60 ++ le32 68 ++ [1] ++ repeat 0 31 ++ [3; 255; 1; 2] ++ concat (repeat [0; 254] 4).
Example C33_example_rle8m :
  match rm_decompress (mkCpu true true) (store (fun _ => 7) 1000 ex_rm) 1000 68 (fun _ => 7) 5000 4 with
  | DRet r M' => (r, len (filter (fun x => M' x =? 0) (map Z.of_nat (seq 4000 4000)))) | DDiverge => (0, 0) end = (4, 1026).
Proof. vm_compute. reflexivity. Qed.
