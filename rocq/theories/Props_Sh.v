(** Properties of the short codecs (rleX_Xsl_short.h): [c] ranges over rle8/16/24/32/48/64_short,
    _1symlut_short, _3symlut_short and _7symlut_short in symbol and byte flavour and
    rle8_single_short (list [shcodecs]), over the formats of the 15 greedy encoders (list
    [greedy_codecs]), [v] over the encoder levels, [l] over the decoder levels.
    [sh_encoder c comp]: [comp] is one of these compressors, writing format [c]. *)
From Verif Require Import Base Simd Spec ExtModel PktModel MbModel LutModel ShModel ShThm ExtThm.

(** C08.  [sh_space] is rle_compress_bounds plus the loss bounded in C22 below. *)
Theorem C08_short_round_trip : forall c v, List.In c shcodecs ->
  RoundTrip (sh_compress c v false false) sh_space (shdecs c) rle_decompress_additional_size.
Proof. intros c v H. exact (sh_rt c _ (She_short c v H)). Qed.
Print Assumptions C08_short_round_trip.

(** C09: the greedy encoders write what the decoders of the short codecs restore. *)
Theorem C09_greedy_round_trip : forall c, List.In c greedy_codecs ->
  RoundTrip (greedy_compress c false false) sh_space (shdecs c) rle_decompress_additional_size.
Proof. intros c H. exact (sh_rt c _ (She_greedy c H)). Qed.
Print Assumptions C09_greedy_round_trip.

(** C21 *)
Theorem C21_short_stays_inside : forall c comp l, sh_encoder c comp ->
  StaysInside (comp false false) (sh_decompress c l) rle_decompress_additional_size.
Proof. exact sh_inside. Qed.
Print Assumptions C21_short_stays_inside.

(** C22: holds up to 10 MB. *)
Theorem C22_short_within_bounds_partial : forall c comp In n cap out,
  sh_encoder c comp -> byte_mem In -> 1 <= n <= 10000000 ->
  comp false false In n cap = COk out -> len out <= rle_compress_bounds n.
Proof. exact sh_within_10mb. Qed.
Print Assumptions C22_short_within_bounds_partial.
(** For every input size. *)
Theorem C22_short_space : forall c comp, sh_encoder c comp -> WithinBound (comp false false) sh_space.
Proof. exact sh_within_space. Qed.
Print Assumptions C22_short_space.

(** C28 *)
Theorem C28_short_compress_args : forall c comp, sh_encoder c comp -> CompressArgs comp rle_compress_bounds.
Proof. exact sh_args. Qed.
Print Assumptions C28_short_compress_args.
Theorem C28_short_decompress_args : forall c l, DecompressArgs (sh_decompress c l).
Proof. exact sh_decompress_args. Qed.
Print Assumptions C28_short_decompress_args.

(** C29 *)
Theorem C29_short_header : forall c comp, sh_encoder c comp -> HeaderSizes (comp false false).
Proof. exact sh_header. Qed.
Print Assumptions C29_short_header.
Theorem C29_short_truncated : forall c comp l, sh_encoder c comp ->
  RejectsTruncated (comp false false) (sh_decompress c l).
Proof. exact sh_truncated. Qed.
Print Assumptions C29_short_truncated.

(** C31 *)
Theorem C31_short_oob_harmless : forall c comp, sh_encoder c comp ->
  TailHarmless (comp false false) rle_compress_bounds (shdecs c) rle_decompress_additional_size.
Proof. exact sh_tail. Qed.
Print Assumptions C31_short_oob_harmless.

(** C32 *)
Theorem C32_short_decoders_agree : forall c comp, sh_encoder c comp ->
  DecodersAgree (comp false false) (shdecs c).
Proof. exact sh_agree. Qed.
Print Assumptions C32_short_decoders_agree.

(** Sample inputs with literals and runs: compressed, decompressed, compared. *)
Definition sh_tests (v : simd) (l : lvl) : bool :=
  forallb (fun c => rt_test (sh_compress c v false false) (sh_decompress c l) (sample (shS c)) 150 200) shcodecs.
Example C08_example_base : sh_tests Base_ LSse = true. Proof. vm_compute. reflexivity. Qed.
Example C08_example_sse2 : sh_tests Sse2 LSsse3 = true. Proof. vm_compute. reflexivity. Qed.
Example C08_example_avx2 : sh_tests Avx2 LAvx512 = true. Proof. vm_compute. reflexivity. Qed.
Example C09_example :
  forallb (fun c => rt_test (greedy_compress c false false) (sh_decompress c LAvx2) (sample (shS c)) 150 200) greedy_codecs = true.
Proof. vm_compute. reflexivity. Qed.
