(** Properties of the extreme multi-byte codecs (rle16/24/32/48/64/128). *)
From Verif Require Import Base Simd Spec ExtModel ExtThm.

(** C01: every encoder (base, SSE2, AVX2) with every decoder. *)
Theorem C01_rleX_round_trip : forall c v,
  List.In c rleX_codecs -> RoundTrip (xcomp c v) rle_compress_bounds (xdecs c) rle_decompress_additional_size.
Proof. exact c01_rt. Qed.
Print Assumptions C01_rleX_round_trip.

(** C02 *)
Theorem C02_rleX_packed_round_trip : forall c v,
  List.In c rleX_packed_codecs -> RoundTrip (xcomp c v) rle_compress_bounds (xdecs c) rle_decompress_additional_size.
Proof. exact c02_rt. Qed.
Print Assumptions C02_rleX_packed_round_trip.

(** C03 *)
Theorem C03_rle24_48_round_trip : forall c v,
  List.In c rle24_48_codecs -> RoundTrip (xcomp c v) rle_compress_bounds (xdecs c) rle_decompress_additional_size.
Proof. exact c03_rt. Qed.
Print Assumptions C03_rle24_48_round_trip.

(** C04 *)
Theorem C04_rle128_round_trip : forall c v,
  List.In c rle128_codecs -> RoundTrip (xcomp c v) rle_compress_bounds (xdecs c) rle_decompress_additional_size.
Proof. exact c04_rt. Qed.
Print Assumptions C04_rle128_round_trip.

(** C21 (extreme multi-byte codecs) *)
Theorem C21_ext_stays_inside : forall c v d,
  List.In c xcodecs -> StaysInside (xcomp c v) (xdecompress c d) rle_decompress_additional_size.
Proof. exact ext_inside. Qed.
Print Assumptions C21_ext_stays_inside.

(** C22 (extreme multi-byte codecs) *)
Theorem C22_ext_within_bounds : forall c v, List.In c xcodecs -> WithinBound (xcomp c v) rle_compress_bounds.
Proof. exact ext_bound193. Qed.
Print Assumptions C22_ext_within_bounds.

(** A sharper bound than the one the library promises. *)
Theorem C22_ext_within_60 : forall c v, List.In c xcodecs -> WithinBound (xcomp c v) (fun n => n + 60).
Proof. exact ext_bound60. Qed.
Print Assumptions C22_ext_within_60.

(** C27: for every size above 2^30 and every capacity the call is not refused. *)
Theorem C27_oversize_refuted : forall c v In n cap, 2 ^ 30 < n -> 0 <= cap -> xcomp c v In n cap <> CRefused.
Proof. exact ext_oversize. Qed.
Print Assumptions C27_oversize_refuted.

(** C28 (extreme multi-byte codecs): compress refuses exactly the invalid arguments. *)
Theorem C28_ext_compress_args : forall c v, List.In c xcodecs -> CompressArgs (xcompress c v) rle_compress_bounds.
Proof. exact ext_compress_args. Qed.
Print Assumptions C28_ext_compress_args.

Theorem C28_ext_decompress_args : forall c d, DecompressArgs (xdecompress c d).
Proof. exact ext_decompress_args. Qed.
Print Assumptions C28_ext_decompress_args.

(** C29 (extreme multi-byte codecs): header fields, and rejection of truncated streams. *)
Theorem C29_ext_header : forall c v, List.In c xcodecs -> HeaderSizes (xcomp c v).
Proof. exact ext_header. Qed.
Print Assumptions C29_ext_header.

Theorem C29_ext_truncated : forall c v d, List.In c xcodecs -> RejectsTruncated (xcomp c v) (xdecompress c d).
Proof. exact ext_truncated. Qed.
Print Assumptions C29_ext_truncated.

(** C30: two memories that agree on the two input bytes give streams of different size. *)
Theorem C30_oob_read_refuted : exists c In1 In2,
  List.In c xcodecs /\ byte_mem In1 /\ byte_mem In2 /\ (forall k, 0 <= k < 2 -> In1 k = In2 k) /\
  forall v, exists o1 o2, xcomp c v In1 2 195 = COk o1 /\ xcomp c v In2 2 195 = COk o2 /\ len o1 <> len o2.
Proof. exact ext_oob_read. Qed.
Print Assumptions C30_oob_read_refuted.

(** C31 (extreme multi-byte codecs): both streams restore the input all the same. *)
Theorem C31_ext_oob_harmless : forall c v,
  List.In c xcodecs -> TailHarmless (xcomp c v) rle_compress_bounds (xdecs c) rle_decompress_additional_size.
Proof. exact ext_tail. Qed.
Print Assumptions C31_ext_oob_harmless.

(** C32 (extreme multi-byte codecs) *)
Theorem C32_ext_decoders_agree : forall c v, List.In c xcodecs -> DecodersAgree (xcomp c v) (xdecs c).
Proof. exact ext_agree. Qed.
Print Assumptions C32_ext_decoders_agree.

(** C33: a 28-byte stream with a one-byte output buffer writes hundreds of bytes behind it. *)
Theorem C33_hostile_stream_refuted : exists C M pout outSize,
  byte_mem C /\ outSize = 1 /\
  forall d, exists M', xdecompress (mkX 2 false false false) d C 1000 (len hostile) M pout outSize = DRet 1 M' /\
    M' (pout + outSize + 128 + 300) <> M (pout + outSize + 128 + 300).
Proof. exact ext_hostile. Qed.
Print Assumptions C33_hostile_stream_refuted.

(** Concrete cases (tests): 250 bytes with two runs of whole and partial symbols, compressed
    to less than 200 bytes and restored. *)
Example C01_example : ext_tests [mkX 2 true false false; mkX 8 false false false] Sse2 DAvx = true.
Proof. vm_compute. reflexivity. Qed.
Example C02_example : ext_tests [mkX 4 true true true] Avx2 DSse = true.
Proof. vm_compute. reflexivity. Qed.
Example C03_example : ext_tests [mkX 3 true false false] Ssse3 DSsse3 = true.
Proof. vm_compute. reflexivity. Qed.
Example C04_example : ext_tests [mkX 16 true true true] Base_ DAvx512 = true.
Proof. vm_compute. reflexivity. Qed.
(** The hypotheses of C29_ext_truncated are met, e.g. by this stream of 24 bytes. *)
Example C29_example : exists out, xcomp (mkX 2 false false false) Avx2 tail_a 2 195 = COk out /\ len out = 24.
Proof. eexists. split; [vm_compute; reflexivity|reflexivity]. Qed.
