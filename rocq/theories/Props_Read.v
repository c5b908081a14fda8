(** C61: how many bytes behind a stream the decoders depend on. *)
From Verif Require Import Base Simd Spec PktSpec FmtSpec Fmt8Spec LutSpec ExtModel FmtThm Rle8Model MbModel LutModel SlModel SlProof ShModel ShProof ShThm ReadSpec ReadRef.
From Verif Require Spec2 LeModel LeSpec MzModel HsModel HsThm LeRead LeReadOwn.

(** Every stream of the format, at every CPU level: exactly one vector of the copy. *)
Theorem C61_ext_exactly : forall c d k, List.In c xcodecs -> (FormatUpTo k (WireStream (wire_of c)) (xdecompress c d) <-> dcopyW d <= k).
Proof. exact x_format_iff. Qed.
Print Assumptions C61_ext_exactly.
Theorem C61_rle8_multi_exactly : forall pk d k, FormatUpTo k (M8Stream pk) (r8_decompress pk d) <-> d8W d <= k.
Proof. exact m8_format_iff. Qed.
Print Assumptions C61_rle8_multi_exactly.
Theorem C61_rle8_single_exactly : forall pk d k, FormatUpTo k (S8Stream pk) (r8_decompress pk d) <-> d8W d <= k.
Proof. exact s8_format_iff. Qed.
Print Assumptions C61_rle8_single_exactly.
Theorem C61_sl_exactly : forall c l k, List.In c slcodecs -> (FormatUpTo k (LutStream (slw c)) (sl_decompress c l) <-> lvl_copyW (slS c) l <= k).
Proof. exact lut_format_iff. Qed.
Print Assumptions C61_sl_exactly.
Theorem C61_short_exactly : forall c l k, List.In c shcodecs -> (FormatUpTo k (ShortStream (shw c)) (sh_decompress c l) <-> lvl_copyW (shS c) l <= k).
Proof. exact short_format_iff. Qed.
Print Assumptions C61_short_exactly.

(** The streams of the compressors, whatever the CPU level of either side. *)
Theorem C61_ext_own_streams : forall c v d, List.In c xcodecs -> OwnUpTo (dcopyW d) (xcompress c v false false) (xdecompress c d).
Proof. exact x_own. Qed.
Print Assumptions C61_ext_own_streams.
Theorem C61_rle8_multi_own_streams : forall pk avx2 d, OwnUpTo (d8W d) (m_compress pk avx2 false false) (r8_decompress pk d).
Proof. exact m_own. Qed.
Print Assumptions C61_rle8_multi_own_streams.
Theorem C61_rle8_single_own_streams : forall pk d, OwnUpTo (d8W d) (s_compress pk false false) (r8_decompress pk d).
Proof. exact s_own. Qed.
Print Assumptions C61_rle8_single_own_streams.
Theorem C61_sl_own_streams : forall c v l, List.In c slcodecs -> OwnUpTo (lvl_copyW (slS c) l) (sl_compress c v false false) (sl_decompress c l).
Proof. exact sl_own. Qed.
Print Assumptions C61_sl_own_streams.
Theorem C61_short_own_streams : forall c comp l, sh_encoder c comp -> OwnUpTo (lvl_copyW (shS c) l) (comp false false) (sh_decompress c l).
Proof. exact sh_own. Qed.
Print Assumptions C61_short_own_streams.

(** One vector less two bytes is not enough for any of them. *)
Theorem C61_ext_own_streams_less_refuted : forall c v d, List.In c xcodecs -> ~ OwnUpTo (dcopyW d - 2) (xcompress c v false false) (xdecompress c d).
Proof. exact x_own_refuted. Qed.
Print Assumptions C61_ext_own_streams_less_refuted.
Theorem C61_rle8_multi_own_streams_less_refuted : forall pk avx2 d, ~ OwnUpTo (d8W d - 2) (m_compress pk avx2 false false) (r8_decompress pk d).
Proof. exact m_own_refuted. Qed.
Print Assumptions C61_rle8_multi_own_streams_less_refuted.
Theorem C61_rle8_single_own_streams_less_refuted : forall pk d, ~ OwnUpTo (d8W d - 2) (s_compress pk false false) (r8_decompress pk d).
Proof. exact s_own_refuted. Qed.
Print Assumptions C61_rle8_single_own_streams_less_refuted.
Theorem C61_sl_own_streams_less_refuted : forall c v l, List.In c slcodecs -> ~ OwnUpTo (lvl_copyW (slS c) l - 2) (sl_compress c v false false) (sl_decompress c l).
Proof. exact sl_own_refuted. Qed.
Print Assumptions C61_sl_own_streams_less_refuted.
Theorem C61_short_own_streams_less_refuted : forall c comp l, sh_encoder c comp -> ~ OwnUpTo (lvl_copyW (shS c) l - 2) (comp false false) (sh_decompress c l).
Proof. exact sh_own_refuted. Qed.
Print Assumptions C61_short_own_streams_less_refuted.

(** The other families write nothing behind the output and depend on no byte behind their own streams,
    as far as these are restored. *)
Theorem C61_low_entropy_own_streams : forall L c In n cap out, L = 255 \/ L = 32 -> byte_mem In -> 1 <= n <= max_in -> LeSpec.SomeNotWorth L In n ->
  LeModel.le_compress L false false false In n cap = COk out -> StreamAlone false (LeModel.le_decompress L c) n out.
Proof. exact LeReadOwn.le_own. Qed.
Print Assumptions C61_low_entropy_own_streams.
Theorem C61_low_entropy_max_own_streams : forall L c In n cap out, L = 255 \/ L = 32 -> byte_mem In -> 1 <= n <= max_in ->
  LeModel.le_compress L true false false In n cap = COk out -> StreamAlone false (LeModel.le_decompress L c) n out.
Proof. exact LeReadOwn.le_max_own. Qed.
Print Assumptions C61_low_entropy_max_own_streams.
Theorem C61_rle8m_own_streams : forall subs c In n cap out, 1 <= subs <= 2 ^ 28 -> byte_mem In -> 1 <= n <= max_in -> subs <= n -> LeSpec.SomeNotWorth 255 In n ->
  LeModel.rm_compress subs false false In n cap = COk out -> StreamAlone true (LeModel.rm_decompress c) n out.
Proof. exact LeReadOwn.rm_own. Qed.
Print Assumptions C61_rle8m_own_streams.
Theorem C61_rle8_mmtf128_own_streams : forall undef M pout In n cap out, byte_mem In -> 1 <= n <= max_in -> n + 13 <= cap ->
  MzModel.mz_compress undef M pout false false In n cap = COk out -> StreamAlone false MzModel.mz_decompress n out.
Proof. exact LeReadOwn.mz_own. Qed.
Print Assumptions C61_rle8_mmtf128_own_streams.
Theorem C61_rle8_sh_own_streams : forall M pout In n cap out, byte_mem In -> 1 <= n <= max_in -> HsThm.sh_need n <= cap ->
  HsModel.sh_compress M pout false false In n cap = COk out -> StreamAlone false HsModel.sh_decompress n out.
Proof. exact LeReadOwn.hs_own. Qed.
Print Assumptions C61_rle8_sh_own_streams.
(** Every byte value three times: the stream is not restored, 254 bytes behind it are taken for data. *)
Theorem C61_low_entropy_not_restored_refuted : forall L c, L = 255 \/ L = 32 -> ~ OwnUpTo 253 (LeModel.le_compress L false false false) (LeModel.le_decompress L c).
Proof. exact LeReadOwn.le_own_refuted. Qed.
Print Assumptions C61_low_entropy_not_restored_refuted.

(** The low entropy decoders on any bytes: up to one byte behind [inSize], and up to [outSize] bytes behind
    the largest header; neither bound can be lowered by one. *)
Theorem C61_low_entropy_any_bytes : forall L c, AnyStreamUpTo (fun i o => Z.max (i + 1) (296 + Z.max 0 o)) (LeModel.le_decompress L c).
Proof. exact LeRead.le_any_reads. Qed.
Print Assumptions C61_low_entropy_any_bytes.
Theorem C61_low_entropy_any_bytes_in_refuted : forall L c, L = 255 \/ L = 32 -> ~ AnyStreamUpTo (fun i o => Z.max i (296 + Z.max 0 o)) (LeModel.le_decompress L c).
Proof. exact LeReadOwn.le_any_in_refuted. Qed.
Print Assumptions C61_low_entropy_any_bytes_in_refuted.
Theorem C61_low_entropy_any_bytes_out_refuted : forall L c, ~ AnyStreamUpTo (fun i o => Z.max (i + 1) (295 + Z.max 0 o)) (LeModel.le_decompress L c).
Proof. exact LeReadOwn.le_any_out_refuted. Qed.
Print Assumptions C61_low_entropy_any_bytes_out_refuted.

(** Examples.  The widths: 16, 32 and 64 bytes. *)
Example C61_widths : (dcopyW DSse, dcopyW DAvx512, d8W D8Sse41, d8W D8Avx2, d8W D8Avx512, lvl_copyW 8 LAvx512, lvl_copyW 1 LAvx512) = (16, 32, 16, 32, 64, 32, 64).
Proof. reflexivity. Qed.
(** One byte as rle8_multi: a stream of 21 bytes; the byte 14 positions behind it decides what is
    written 15 positions behind the byte of output by the SSE2 decoder, the one after that nothing. *)
Example C61_example_stream : (match m_compress false false false false (fun _ => 5) 1 256 with COk out => len out | _ => 0 end,
  match m_compress false false false false (fun _ => 5) 1 256 with
  | COk out => (shows (r8_decompress false D8Sse) 14 1 15 out, shows (r8_decompress false D8Sse) 15 1 15 out, shows (r8_decompress false D8Avx512) 62 1 63 out)
  | _ => (false, true, false) end) = (21, (true, false, true)).
Proof. vm_compute. reflexivity. Qed.
(** Streams of the formats that end with a copy of no literals. *)
Example C61_example_format : WireStream (wire_of (mkX 4 true true true)) 1 (xout (mkX 4 true true true)) (xdata (mkX 4 true true true)) /\
  xout (mkX 4 true true true) = [1; 0; 0; 0; 20; 0; 0; 0; 2; 1; 1; 1; 1; 2; 128; 0; 0; 0; 0; 2].
Proof. split; [apply xout_stream; vm_compute; tauto|vm_compute; reflexivity]. Qed.
(** A run of ten bytes as rle8_low_entropy: the same memory whatever follows the stream. *)
Example C61_example_low_entropy :
  match LeModel.le_compress 255 false false false (fun _ => 7) 10 400 with
  | COk out => let C d := fun a => if a <? 16 + len out then nth (Z.to_nat (a - 16)) out 0 else d in
      match LeModel.le_decompress 255 (LeModel.mkCpu true true) (C 0) 16 (len out) (fun _ => 0) 16 10, LeModel.le_decompress 255 (LeModel.mkCpu true true) (C 9) 16 (len out) (fun _ => 0) 16 10 with
      | DRet a M1, DRet b M2 => (a, b, if list_eq_dec Z.eq_dec (slice M1 14 50) (slice M2 14 50) then true else false, slice M1 15 12)
      | _, _ => (0, 0, false, []) end
  | _ => (0, 0, false, []) end = (10, 10, true, [0; 7; 7; 7; 7; 7; 7; 7; 7; 7; 7; 0]).
Proof. vm_compute. reflexivity. Qed.
