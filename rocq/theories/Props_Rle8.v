(** Properties of the 8 bit codecs rle8_multi, rle8_packed_multi, rle8_single, rle8_packed_single.
    [pk]: packed; [avx2]: encoder level; decoders at every level. *)
From Verif Require Import Base Simd Spec ExtModel PktModel Rle8Model Rle8Thm Rle8Bad ExtThm.

(** C05.  [multi_space false] exceeds rle_compress_bounds: see C23. *)
Theorem C05_rle8_multi_round_trip : forall pk avx2,
  RoundTrip (m_compress pk avx2 false false) (multi_space pk) (r8decs pk) rle_decompress_additional_size.
Proof. exact multi_rt. Qed.
Print Assumptions C05_rle8_multi_round_trip.

(** C06 *)
Theorem C06_rle8_single_round_trip : forall pk,
  RoundTrip (s_compress pk false false) (single_space pk) (r8decs pk) rle_decompress_additional_size.
Proof. exact single_rt. Qed.
Print Assumptions C06_rle8_single_round_trip.

(** C21 *)
Theorem C21_rle8_multi_stays_inside : forall pk avx2 d,
  StaysInside (m_compress pk avx2 false false) (r8_decompress pk d) rle_decompress_additional_size.
Proof. exact multi_inside. Qed.
Print Assumptions C21_rle8_multi_stays_inside.
Theorem C21_rle8_single_stays_inside : forall pk d,
  StaysInside (s_compress pk false false) (r8_decompress pk d) rle_decompress_additional_size.
Proof. exact single_inside. Qed.
Print Assumptions C21_rle8_single_stays_inside.

(** C22: the two of the four codecs that respect the bound. *)
Theorem C22_rle8_packed_multi_within_bounds : forall avx2, WithinBound (m_compress true avx2 false false) rle_compress_bounds.
Proof. exact multi_packed_within. Qed.
Print Assumptions C22_rle8_packed_multi_within_bounds.
Theorem C22_rle8_single_within_bounds : WithinBound (s_compress false false false) rle_compress_bounds.
Proof. exact single_within. Qed.
Print Assumptions C22_rle8_single_within_bounds.

(** C23: the other two do not.  With a buffer of exactly rle_compress_bounds bytes they write
    behind its end. *)
Theorem C23_rle8_multi_bounds_refuted : exists In n, byte_mem In /\ 1 <= n <= max_in /\
  forall avx2, exists out,
    m_compress false avx2 false false In n (rle_compress_bounds n) = COk out /\ rle_compress_bounds n < len out.
Proof. exact multi_overflow. Qed.
Print Assumptions C23_rle8_multi_bounds_refuted.
Theorem C23_rle8_packed_single_bounds_refuted : exists In n, byte_mem In /\ 1 <= n <= max_in /\
  exists out, s_compress true false false In n (rle_compress_bounds n) = COk out /\ rle_compress_bounds n < len out.
Proof. exact packed_single_overflow. Qed.
Print Assumptions C23_rle8_packed_single_bounds_refuted.
(** What is true instead. *)
Theorem C23_rle8_multi_space : forall pk avx2, WithinBound (m_compress pk avx2 false false) (multi_space pk).
Proof. exact multi_within_space. Qed.
Print Assumptions C23_rle8_multi_space.
Theorem C23_rle8_single_space : forall pk, WithinBound (s_compress pk false false) (single_space pk).
Proof. exact single_within_space. Qed.
Print Assumptions C23_rle8_single_space.

(** C28 *)
Theorem C28_rle8_multi_compress_args : forall pk avx2, CompressArgs (m_compress pk avx2) rle_compress_bounds.
Proof. exact multi_args. Qed.
Print Assumptions C28_rle8_multi_compress_args.
Theorem C28_rle8_single_compress_args : forall pk, CompressArgs (s_compress pk) rle_compress_bounds.
Proof. exact single_args. Qed.
Print Assumptions C28_rle8_single_compress_args.
Theorem C28_rle8_decompress_args : forall pk d, DecompressArgs (r8_decompress pk d).
Proof. exact r8_decompress_args. Qed.
Print Assumptions C28_rle8_decompress_args.
(** A stream whose mode is neither multi (0) nor single (1) is refused. *)
Theorem C28_rle8_mode_refused : forall pk d C pin inSize M pout outSize, C (pin + 8) <> 0 -> C (pin + 8) <> 1 ->
  r8_decompress pk d C pin inSize M pout outSize = DRet 0 M.
Proof. exact r8_mode_refused. Qed.
Print Assumptions C28_rle8_mode_refused.

(** C29 *)
Theorem C29_rle8_multi_header : forall pk avx2, HeaderSizes (m_compress pk avx2 false false).
Proof. exact multi_header. Qed.
Print Assumptions C29_rle8_multi_header.
Theorem C29_rle8_single_header : forall pk, HeaderSizes (s_compress pk false false).
Proof. exact single_header. Qed.
Print Assumptions C29_rle8_single_header.
Theorem C29_rle8_multi_truncated : forall pk avx2 d, RejectsTruncated (m_compress pk avx2 false false) (r8_decompress pk d).
Proof. exact multi_truncated. Qed.
Print Assumptions C29_rle8_multi_truncated.
Theorem C29_rle8_single_truncated : forall pk d, RejectsTruncated (s_compress pk false false) (r8_decompress pk d).
Proof. exact single_truncated. Qed.
Print Assumptions C29_rle8_single_truncated.

(** C31 *)
Theorem C31_rle8_multi_oob_harmless : forall pk avx2,
  TailHarmless (m_compress pk avx2 false false) rle_compress_bounds (r8decs pk) rle_decompress_additional_size.
Proof. exact multi_tail. Qed.
Print Assumptions C31_rle8_multi_oob_harmless.
Theorem C31_rle8_single_oob_harmless : forall pk,
  TailHarmless (s_compress pk false false) rle_compress_bounds (r8decs pk) rle_decompress_additional_size.
Proof. exact single_tail. Qed.
Print Assumptions C31_rle8_single_oob_harmless.

(** C32 *)
Theorem C32_rle8_multi_decoders_agree : forall pk avx2, DecodersAgree (m_compress pk avx2 false false) (r8decs pk).
Proof. exact multi_agree. Qed.
Print Assumptions C32_rle8_multi_decoders_agree.
Theorem C32_rle8_single_decoders_agree : forall pk, DecodersAgree (s_compress pk false false) (r8decs pk).
Proof. exact single_agree. Qed.
Print Assumptions C32_rle8_single_decoders_agree.

(** Concrete runs (tests): 250 bytes with two runs, compressed to less than 120 bytes. *)
Example C05_example : rt_test (m_compress false true false false) (r8_decompress false D8Avx2) (sample 1) 250 120 = true.
Proof. vm_compute. reflexivity. Qed.
Example C05_example_packed : rt_test (m_compress true false false false) (r8_decompress true D8Sse41) (sample 1) 250 120 = true.
Proof. vm_compute. reflexivity. Qed.
Example C06_example : rt_test (s_compress false false false) (r8_decompress false D8Avx512) (sample 1) 250 190 = true.
Proof. vm_compute. reflexivity. Qed.
Example C06_example_packed : rt_test (s_compress true false false) (r8_decompress true D8Sse) (sample 1) 250 190 = true.
Proof. vm_compute. reflexivity. Qed.
Example C28_example_mode :
  r8_decompress true D8Avx (fun x => nth (Z.to_nat (x - 100)) [1; 0; 0; 0; 10; 0; 0; 0; 2; 0] 0) 100 10 (fun _ => 7) 500 1 = DRet 0 (fun _ => 7).
Proof. reflexivity. Qed.
