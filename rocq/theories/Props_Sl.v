(** Properties of the codecs with a table of recent symbols (rleX_Xsl.h): [c] ranges over
    rle8/16/24/32/48/64_3symlut and _7symlut in symbol and byte flavour (list [slcodecs]),
    [v] over the encoder levels, [l] over the decoder levels. *)
From Verif Require Import Base Simd Spec ExtModel PktModel MbModel LutModel SlModel SlThm SlBad ExtThm.

(** C07.  [sl_space] is rle_compress_bounds plus the loss bounded in C22 below. *)
Theorem C07_sl_round_trip : forall c v, List.In c slcodecs ->
  RoundTrip (sl_compress c v false false) (sl_space c) (sldecs c) rle_decompress_additional_size.
Proof. exact sl_rt. Qed.
Print Assumptions C07_sl_round_trip.

(** C21 *)
Theorem C21_sl_stays_inside : forall c v l, List.In c slcodecs ->
  StaysInside (sl_compress c v false false) (sl_decompress c l) rle_decompress_additional_size.
Proof. exact sl_inside. Qed.
Print Assumptions C21_sl_stays_inside.

(** C22: holds for 48 and 64 bit symbols, up to 5 MB for 8, 16 and 32 bit, and fails for 24 bit. *)
Theorem C22_sl_wide_within_bounds : forall c v, List.In c slcodecs -> 6 <= slS c ->
  WithinBound (sl_compress c v false false) rle_compress_bounds.
Proof. exact sl_within_wide. Qed.
Print Assumptions C22_sl_wide_within_bounds.
Theorem C22_sl_within_bounds_partial : forall c v In n cap out,
  List.In c slcodecs -> slS c <> 3 -> byte_mem In -> 1 <= n <= 5000000 ->
  sl_compress c v false false In n cap = COk out -> len out <= rle_compress_bounds n.
Proof. exact sl_within_5mb. Qed.
Print Assumptions C22_sl_within_bounds_partial.
Theorem C22_sl24_bounds_refuted : forall SC, SC = 3 \/ SC = 7 -> exists In n, byte_mem In /\ 1 <= n <= max_in /\
  forall unb v, exists out, sl_compress (mkSl 3 unb SC) v false false In n (rle_compress_bounds n) = COk out /\
    rle_compress_bounds n < len out.
Proof. exact sl24_overflow. Qed.
Print Assumptions C22_sl24_bounds_refuted.
(** What is true instead, for every codec and input size. *)
Theorem C22_sl_space : forall c v, List.In c slcodecs -> WithinBound (sl_compress c v false false) (sl_space c).
Proof. exact sl_within_space. Qed.
Print Assumptions C22_sl_space.

(** C28 *)
Theorem C28_sl_compress_args : forall c v, List.In c slcodecs -> CompressArgs (sl_compress c v) rle_compress_bounds.
Proof. exact sl_args. Qed.
Print Assumptions C28_sl_compress_args.
Theorem C28_sl_decompress_args : forall c l, DecompressArgs (sl_decompress c l).
Proof. exact sl_decompress_args. Qed.
Print Assumptions C28_sl_decompress_args.

(** C29 *)
Theorem C29_sl_header : forall c v, List.In c slcodecs -> HeaderSizes (sl_compress c v false false).
Proof. exact sl_header. Qed.
Print Assumptions C29_sl_header.
Theorem C29_sl_truncated : forall c v l, List.In c slcodecs ->
  RejectsTruncated (sl_compress c v false false) (sl_decompress c l).
Proof. exact sl_truncated. Qed.
Print Assumptions C29_sl_truncated.

(** C31 *)
Theorem C31_sl_oob_harmless : forall c v, List.In c slcodecs ->
  TailHarmless (sl_compress c v false false) rle_compress_bounds (sldecs c) rle_decompress_additional_size.
Proof. exact sl_tail. Qed.
Print Assumptions C31_sl_oob_harmless.

(** C32 *)
Theorem C32_sl_decoders_agree : forall c v, List.In c slcodecs ->
  DecodersAgree (sl_compress c v false false) (sldecs c).
Proof. exact sl_agree. Qed.
Print Assumptions C32_sl_decoders_agree.

(** Sample inputs with literals and runs: compressed, decompressed, compared. *)
Definition sl_tests (v : simd) (l : lvl) : bool :=
  forallb (fun c => rt_test (sl_compress c v false false) (sl_decompress c l) (sample (slS c)) 250 200) slcodecs.
Example C07_example_base : sl_tests Base_ LSse = true. Proof. vm_compute. reflexivity. Qed.
Example C07_example_sse2 : sl_tests Sse2 LSsse3 = true. Proof. vm_compute. reflexivity. Qed.
Example C07_example_avx2 : sl_tests Avx2 LAvx512 = true. Proof. vm_compute. reflexivity. Qed.
