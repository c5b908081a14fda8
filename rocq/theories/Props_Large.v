(** C77: inputs of more than 1 GiB. *)
From Verif Require Import Base Spec Spec2 Simd ExtModel ExtThm PktModel Rle8Model Rle8Thm SlModel SlThm ShModel ShThm LeModel LeSpec LeThm MzModel MzThm LargeSpec LargeExt LargeThm Large8.
From Verif Require HsModel HsThm.

(** The 16 to 128 bit compressors accept every input; those of up to 2^31 - 20 bytes are restored, at every encoder and
    decoder level. *)
Theorem C77_large_restored_partial : forall c v, List.In c xcodecs -> RestoredUpTo large_in (fun n => n + 193) (xcomp c v) (xdecs c) 128.
Proof. exact ext_large. Qed.
Print Assumptions C77_large_restored_partial.

(** So do the 8 bit, the symlut and the short compressors and the greedy ones; with n / 64 bytes more in the buffer
    (some need more than the 193, see C22 and C23) inputs of up to 2^31 - 20 bytes are restored. *)
Theorem C77_rle8_multi_large_restored_partial : forall pk avx2, RestoredUpTo large_in large_space (m_compress pk avx2 false false) (r8decs pk) 128.
Proof. exact multi_large. Qed.
Print Assumptions C77_rle8_multi_large_restored_partial.

Theorem C77_rle8_single_large_restored_partial : forall pk, RestoredUpTo large_in large_space (s_compress pk false false) (r8decs pk) 128.
Proof. exact single_large. Qed.
Print Assumptions C77_rle8_single_large_restored_partial.

Theorem C77_symlut_large_restored_partial : forall c v, List.In c slcodecs -> RestoredUpTo large_in large_space (sl_compress c v false false) (sldecs c) 128.
Proof. exact sl_large. Qed.
Print Assumptions C77_symlut_large_restored_partial.

Theorem C77_short_large_restored_partial : forall c comp, sh_encoder c comp -> RestoredUpTo large_in large_space (comp false false) (shdecs c) 128.
Proof. exact sh_large. Qed.
Print Assumptions C77_short_large_restored_partial.

(** rle8_mmtf128 and rle8_sh as well, whatever the memory of the caller and the undefined bits are. *)
Theorem C77_mmtf128_large_restored_partial : forall undef M pout, RestoredUpTo large_in (fun n => n + 13) (mz_compress undef M pout false false) mzdecs 0.
Proof. exact mz_large. Qed.
Print Assumptions C77_mmtf128_large_restored_partial.

Theorem C77_sh_large_restored_partial : forall M pout, RestoredUpTo large_in HsThm.sh_need (HsModel.sh_compress M pout false false) HsThm.shdecs 0.
Proof. exact hs_large. Qed.
Print Assumptions C77_sh_large_restored_partial.

(** The low entropy codecs under the condition for small inputs (C10), given a buffer whose size is a 32 bit number. *)
Theorem C77_low_entropy_large_restored_partial : forall L max In n cap,
  L = 255 \/ L = 32 -> byte_mem In -> 1 <= n <= large_in -> le_cond L max In n -> le_size L n <= cap < 2 ^ 32 ->
  exists out, le_compress L max false false In n cap = COk out /\ len out <= cap /\ forall dec, le_decs L dec -> Restores dec 0 out In n.
Proof. exact le_large. Qed.
Print Assumptions C77_low_entropy_large_restored_partial.

(** rle16 to rle64_byte_packed_compress also accept an input of 2^31 - 1 bytes; no decoder restores it. *)
Theorem C77_large_restored_refuted : forall c v d, List.In c xcodecs -> xP7 c = true -> xS c <> 16 ->
  exists In n, byte_mem In /\ max_in < n < 2 ^ 31 /\ forall cap, n + 193 <= cap -> exists out,
  xcomp c v In n cap = COk out /\ len out <= cap /\ len out < 2 ^ 32 /\
  ~ Restores (xdecompress c d) rle_decompress_additional_size out In n.
Proof. exact large_restores_refuted. Qed.
Print Assumptions C77_large_restored_refuted.

(** And so does rle8_packed_multi. *)
Theorem C77_rle8_packed_multi_large_refuted : forall avx2 d, exists In n, byte_mem In /\ max_in < n < 2 ^ 31 /\ forall cap, n + 193 <= cap -> exists out,
  m_compress true avx2 false false In n cap = COk out /\ len out <= cap /\ len out < 2 ^ 32 /\
  ~ Restores (r8_decompress true d) rle_decompress_additional_size out In n.
Proof. exact large8_restores_refuted. Qed.
Print Assumptions C77_rle8_packed_multi_large_refuted.

(** *** Examples *)
Example C77_restored_example : byte_mem upward /\ max_in < 2 ^ 30 + 5 <= large_in /\ rle_compress_bounds (2 ^ 30 + 5) = 0 /\
  List.In (mkX 3 true true true) xcodecs.
Proof. split; [exact upward_byte|]. split; [vm_compute; split; congruence|]. split; [reflexivity|]. cbn. tauto. Qed.
Example C77_refuted_example : map xS (filter (fun c => xP7 c && negb (xS c =? 16)) xcodecs) = [2; 3; 4; 6; 8].
Proof. reflexivity. Qed.
Example C77_space_example : large_space (2 ^ 30 + 64) = 2 ^ 30 + 64 + 2 ^ 24 + 1 + 193.
Proof. reflexivity. Qed.
Example C77_low_entropy_example : le_cond 255 true upward (2 ^ 30 + 5) /\ le_size 255 (2 ^ 30 + 5) <= 2 ^ 31 < 2 ^ 32.
Proof. split; [exact I|]. vm_compute. split; congruence. Qed.
