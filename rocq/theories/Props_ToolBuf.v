(** C84: the buffers of the tool. *)
From Verif Require Import Base Spec Spec2 Simd ExtModel ExtThm Rle8Model Rle8Thm Rle8Bad LutModel SlModel SlThm ShModel ShThm LeModel LeThm MzModel LeBad ToolBufSpec ToolBufThm ToolBuf24.
From Verif Require HsModel HsThm ToolRun.

(** Files of up to 2^30 bytes: these codecs stay in the buffers that the tool allocates, at every level, and restore the file. *)
Theorem C84_large_files_fit_partial : forall In n, byte_mem In -> 1 <= n <= max_in ->
  (forall c v d, List.In c xcodecs -> FitsTool (xcomp c v) (xdecompress c d) In n) /\
  (forall avx2 d, FitsTool (m_compress true avx2 false false) (r8_decompress true d) In n) /\
  (forall d, FitsTool (s_compress false false false) (r8_decompress false d) In n) /\
  (forall c v l, List.In c slcodecs -> 4 < slS c -> FitsTool (sl_compress c v false false) (sl_decompress c l) In n) /\
  (forall L c, L = 255 \/ L = 32 -> FitsTool (le_compress L true false false) (le_decompress L c) In n) /\
  (forall undef M pout, FitsTool (mz_compress undef M pout false false) mz_decompress In n).
Proof. exact large_files_fit. Qed.
Print Assumptions C84_large_files_fit_partial.

(** The others, but the low entropy codecs of several values, do so for smaller files. *)
Theorem C84_small_files_fit_partial : forall In n, byte_mem In ->
  (1 <= n <= 27404 -> forall avx2 d, FitsTool (m_compress false avx2 false false) (r8_decompress false d) In n) /\
  (1 <= n <= 6938 -> forall d, FitsTool (s_compress true false false) (r8_decompress true d) In n) /\
  (1 <= n <= 7139 -> forall c v l, List.In c slcodecs -> slS c = 3 -> FitsTool (sl_compress c v false false) (sl_decompress c l) In n) /\
  (1 <= n <= 3473460 -> forall c v l, List.In c slcodecs -> slS c <> 3 -> FitsTool (sl_compress c v false false) (sl_decompress c l) In n) /\
  (1 <= n <= 6881384 -> forall c comp l, sh_encoder c comp -> FitsTool (comp false false) (sh_decompress c l) In n) /\
  (1 <= n <= 35711 -> forall M pout, FitsTool (HsModel.sh_compress M pout false false) HsModel.sh_decompress In n).
Proof. exact small_files_fit. Qed.
Print Assumptions C84_small_files_fit_partial.

(** rle8_multi and rle8_packed_single do not always: on files of 235422 and 55230 bytes they write behind the buffer. *)
Theorem C84_buffer_suffices_refuted :
  (exists In n, byte_mem In /\ 1 <= n <= max_in /\ forall avx2, exists out,
    m_compress false avx2 false false In n (ToolRun.buffer_size n) = COk out /\ ToolRun.buffer_size n < len out) /\
  (exists In n out, byte_mem In /\ 1 <= n <= max_in /\
    s_compress true false false In n (ToolRun.buffer_size n) = COk out /\ ToolRun.buffer_size n < len out).
Proof. exact tool_rle8_overflow. Qed.
Print Assumptions C84_buffer_suffices_refuted.

(** Nor do rle8_low_entropy (a file of 771 bytes) and rle8_low_entropy_short (547 bytes). *)
Theorem C84_low_entropy_buffer_refuted : forall L, L = 255 \/ L = 32 -> exists In n out, byte_mem In /\ 1 <= n <= 771 /\
  le_compress L false false false In n (ToolRun.buffer_size n) = COk out /\ ToolRun.buffer_size n < len out.
Proof. exact tool_le_overflow. Qed.
Print Assumptions C84_low_entropy_buffer_refuted.

(** Nor do the 24 bit symlut codecs, at any level, on files of 38280 (3 symbols) and 19720 bytes (7 symbols). *)
Theorem C84_symlut24_buffer_refuted : forall SC, SC = 3 \/ SC = 7 -> exists In n, byte_mem In /\ 1 <= n <= 38280 /\
  forall unb v, exists out, sl_compress (mkSl 3 unb SC) v false false In n (ToolRun.buffer_size n) = COk out /\ ToolRun.buffer_size n < len out.
Proof. exact tool_sl24_overflow. Qed.
Print Assumptions C84_symlut24_buffer_refuted.

(** *** Examples *)
Example C84_example_file : bad_n = 235422 /\ ToolRun.buffer_size bad_n = 235719 /\ bad_single_n = 55230 /\ slice bad_multi 250 12 = [0; 1; 0; 1; 0; 5; 5; 5; 5; 5; 5; 0].
Proof. vm_compute. repeat split; reflexivity. Qed.
Example C84_codecs : List.In (mkX 4 true true true) xcodecs /\ List.In (mkSl 6 true 3) slcodecs /\ 4 < slS (mkSl 6 true 3) /\ List.In (mkSl 3 true 3) slcodecs.
Proof. split; [cbn; tauto|]. split; [cbn; tauto|]. split; [cbn; lia|cbn; tauto]. Qed.
(** A file of 20 bytes: the buffer, the stream, what the decompressor makes of it. *)
Example C84_example : match m_compress false true false false (fun k => k / 15) 20 (ToolRun.buffer_size 20) with
  | COk out => ToolRun.buffer_size 20 = 317 /\ len out = 28 /\
      match r8_decompress false D8Avx2 (fun y => nth (Z.to_nat (y - 1)) out 0) 1 (len out) (fun _ => 9) 1 317 with
      | DRet r M => r = 20 /\ slice M 1 20 = slice (fun k => k / 15) 0 20 | DDiverge => False end
  | _ => False end.
Proof. vm_compute. repeat split; reflexivity. Qed.
