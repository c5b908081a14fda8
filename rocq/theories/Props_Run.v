(** C53, C54: the table of codecs and the run of the tool. *)
From Coq Require Import String Ascii.
From Verif Require Import Base Spec SlModel ExtModel PlatModel ToolTable ToolArgs ToolSpec ToolLib ToolRun ToolTab ToolCall ToolOk ToolBad.
From Verif Require ShModel Props_Tool.
Open Scope string_scope.
Open Scope Z_scope.

(** C53: the compressor and the decompressor of a codec are those that its printed name describes.
    [described] reads the words of the name; [codec_functions] the identifiers in the table. *)
Theorem C53_table_described : forall c, codec_functions c = described (codec_name c).
Proof. exact table_described. Qed.
Print Assumptions C53_table_described.
(** Every configuration of every family is in the table, once. *)
Theorem C53_table_complete : forall fg, List.In fg all_functions -> exists! c, codec_functions c = Some fg.
Proof. exact table_complete. Qed.
Print Assumptions C53_table_complete.
(** Nothing else is, but memcpy. *)
Theorem C53_table_nothing_else : forall c, match codec_functions c with Some fg => List.In fg all_functions | None => c = MemCopy end.
Proof. intros c. destruct (codec_functions c) as [fg|] eqn:E; [exact (table_function c fg E)|exact (table_memcpy c E)]. Qed.
Print Assumptions C53_table_nothing_else.

Example C53_example : described "24 Bit 3LUT Short Grdy (Byte)" = Some (KGreedy (ShModel.mkSh 3 true 3 false), DSh (ShModel.mkSh 3 true 3 false)) /\
  described "48 Bit Packed" = Some (KExt (mkX 6 false true false), DExt (mkX 6 false true false)) /\
  described "16 Bit 7LUT (Byte)" = Some (KSl (mkSl 2 true 7), DSl (mkSl 2 true 7)) /\
  List.length all_functions = 120%nat.
Proof. vm_compute. repeat split; reflexivity. Qed.

(** C54: on a file of at most 6938 bytes that has few different byte values, the tool exits with 0, with or without
    --test, on every machine and with every accepted selection, number of repetitions and limit of the
    instruction set; it writes into its three buffers only. *)
Theorem C54_test_passes : forall m w argv f s file n vs, command_line m argv = Some (f, s) -> s_fuzz s = false ->
  w_file w = Some (file, n) -> w_alloc w = true -> w_read w = true ->
  (forall k, is_byte (file k)) -> 1 <= n <= 6938 -> (forall k, 0 <= k < n -> List.In (file k) vs) -> len vs + n / 32 <= 251 ->
  Layout n (n + 297) (w_U w) (w_K w) (w_D w) ->
  exists M', main m w argv = Exit 0 M' /\
    forall x, (x < w_U w \/ w_U w + n <= x) -> (x < w_K w \/ w_K w + (n + 297) <= x) -> (x < w_D w \/ w_D w + n + 128 <= x) -> M' x = w_memory w x.
Proof. exact test_passes. Qed.
Print Assumptions C54_test_passes.

(** A file of 512 bytes with all values fails the test: the low entropy codec does not restore it (C10). *)
Theorem C54_test_passes_refuted : exists m w argv f s file n, command_line m argv = Some (f, s) /\ s_fuzz s = false /\
  w_file w = Some (file, n) /\ w_alloc w = true /\ w_read w = true /\ (forall k, is_byte (file k)) /\ 1 <= n <= 6938 /\
  Layout n (n + 297) (w_U w) (w_K w) (w_D w) /\ exit_code (main m w argv) = Some (-1).
Proof. exact pass_refuted. Qed.
Print Assumptions C54_test_passes_refuted.

(** Whatever the functions of the library do, as long as they write into their output buffers only: if the tool
    exits with 0 after --test, every selected codec has compressed the file and decompressed the result, and then
    the file was in the output buffer; except for the two move to front codecs on machines without SSE2 or AVX. *)
Theorem C54_test_sound : forall L m w argv f s file n M', command_line m argv = Some (f, s) -> s_fuzz s = false -> s_test s = true ->
  w_file w = Some (file, n) -> w_alloc w = true -> w_read w = true -> (forall k, is_byte (file k)) -> 1 <= n < 2 ^ 32 ->
  Layout n (buffer_size n) (w_U w) (w_K w) (w_D w) -> Tame (L (detect m (s_flags s))) w n file ->
  main_with L m w argv = Exit 0 M' ->
  forall c comp dec, List.In c (selected (s_args s)) -> L (detect m (s_flags s)) c = Some (comp, dec) ->
    Verified comp dec w n file \/ (is_mtf c = true /\ (detect m (s_flags s) FSse2 = false \/ detect m (s_flags s) FAvx = false)).
Proof. exact test_sound. Qed.
Print Assumptions C54_test_sound.

(** That the file is in the output buffer does not show that the decompressor has put it there: one that does
    nothing and returns 1 is not noticed after a codec that works. *)
Theorem C54_test_sound_refuted : exists L m w argv f s file n M', command_line m argv = Some (f, s) /\ s_fuzz s = false /\ s_test s = true /\
  w_file w = Some (file, n) /\ w_alloc w = true /\ w_read w = true /\ (forall k, is_byte (file k)) /\ 1 <= n < 2 ^ 32 /\
  Layout n (buffer_size n) (w_U w) (w_K w) (w_D w) /\ Tame (L (detect m (s_flags s))) w n file /\ main_with L m w argv = Exit 0 M' /\
  exists c comp dec, List.In c (selected (s_args s)) /\ L (detect m (s_flags s)) c = Some (comp, dec) /\ forall M pin k pout cap, dec M pin k pout cap = CRet 1 M.
Proof. exact stale_refuted. Qed.
Print Assumptions C54_test_sound_refuted.

(** The exit code is 0 also if the file could not be read. *)
Theorem C54_unread_refuted : exists m w argv f s, command_line m argv = Some (f, s) /\ s_fuzz s = false /\ s_test s = true /\ w_file w = None /\
  exit_code (main m w argv) = Some 0.
Proof. exact unread_refuted. Qed.
Print Assumptions C54_unread_refuted.

(** For a file of 4 GiB or more, memcpy writes the file over the end of the buffer for compressed data, which was
    allocated for the lower 32 bits of the size. *)
Theorem C54_large_copy_overflows : forall st undef w size M, 2 ^ 32 <= size ->
  exists M', call_compress (the_library st undef) w size MemCopy M = CRet (w32 size) M' /\
    w_K w + buffer_size (w32 size) < w_K w + size /\
    forall x, w_K w + buffer_size (w32 size) <= x < w_K w + size -> M' x = M (w_U w + (x - w_K w)).
Proof. intros st undef w size M H. exact (large_copy (the_library st undef) w size M eq_refl H). Qed.
Print Assumptions C54_large_copy_overflows.

(** *** Examples *)
Definition small_file : list Z := [1; 2; 3; 4; 4; 4; 4; 4; 4; 4; 4; 4; 4; 4; 4; 4; 5; 4; 4; 4].
(** The hypotheses of C54_test_passes hold for it, and the tool does exit with 0 after it has decompressed it. *)
Example C54_example_hypotheses : Layout 20 (20 + 297) (w_U (a_world small_file)) (w_K (a_world small_file)) (w_D (a_world small_file)) /\
  len [1; 2; 3; 4; 5] + 20 / 32 <= 251 /\ forall k, 0 <= k < 20 -> List.In (nth (Z.to_nat k) small_file 0) [1; 2; 3; 4; 5].
Proof.
  split; [unfold Layout, apart, a_world; cbn [w_U w_K w_D]; lia|]. split; [vm_compute; discriminate|]. intros k Hk.
  assert (H : forallb (fun b => existsb (Z.eqb b) [1; 2; 3; 4; 5]) small_file = true) by (vm_compute; reflexivity). rewrite forallb_forall in H.
  assert (K : List.In (nth (Z.to_nat k) small_file 0) small_file) by (apply nth_In; cbn [small_file List.length]; lia).
  specialize (H _ K). apply existsb_exists in H. destruct H as (y & Hy & E). apply Z.eqb_eq in E. now rewrite E.
Qed.
Example C54_example : match main Props_Tool.avx2_machine (a_world small_file) ("x" :: spelled [OTest; ORuns 2; OMode MExtreme; OSize 8; OShort false]) with
  | Exit code M => code = 0 /\ slice M 8192 20 = small_file
  | _ => False end.
Proof. vm_compute. split; reflexivity. Qed.
