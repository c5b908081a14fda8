(** CPU detection, the choice of the implementation, and portability of the streams. *)
From Verif Require Import Base Spec Spec2 Simd ExtModel Rle8Model Rle8Thm LutModel SlModel SlThm ShModel ShThm LeModel LeThm.
From Verif Require Import PlatModel PlatSpec PlatThm ApiModel ApiThm.

(** C43: false for AVX, AVX2 and AVX-512: the flags ignore what the operating system enables. *)
Theorem C43_instructions_supported_refuted : forall i, List.In i [IAvx; IAvx2; IAvx512] ->
  exists m s, x86_64 m /\ choose s (detect m all_off) = Some i /\ ~ executes m i.
Proof. exact not_executed. Qed.
Print Assumptions C43_instructions_supported_refuted.
(** It holds under operating systems that enable all the processor has, and for SSE always. *)
Theorem C43_instructions_supported_partial : forall m s i,
  x86_64 m -> os_complete m -> choose s (detect m all_off) = Some i -> executes m i.
Proof. exact chosen_executes. Qed.
Print Assumptions C43_instructions_supported_partial.
Theorem C43_sse_supported_partial : forall m s i,
  x86_64 m -> choose s (detect m all_off) = Some i -> i <> IAvx -> i <> IAvx2 -> i <> IAvx512 -> executes m i.
Proof. exact chosen_sse. Qed.
Print Assumptions C43_sse_supported_partial.
(** No function gives up on a 64 bit machine. *)
Theorem C43_some_implementation : forall m s, x86_64 m -> choose s (detect m all_off) <> None.
Proof. exact chosen_some. Qed.
Print Assumptions C43_some_implementation.

(** C44: whichever way the accesses of any number of threads interleave, a thread that has returned
    from _DetectCPUFeatures chooses what a single threaded program would choose, from then on. *)
Theorem C44_concurrent_first_calls : forall m sched i s,
  snd (run m sched) i = TDone -> choose s (fst (run m sched)) = choose s (detect m all_off).
Proof. exact done_choice. Qed.
Print Assumptions C44_concurrent_first_calls.
(** And every thread returns after at most 28 turns. *)
Theorem C44_detection_ends : forall m sched i,
  (28 <= count_occ Nat.eq_dec sched i)%nat -> snd (run m sched) i = TDone.
Proof. exact run_done. Qed.
Print Assumptions C44_detection_ends.

(** C32: what is compressed on one machine is restored on every machine. *)
Theorem C32_ext_portable : forall m c, List.In c xcodecs ->
  RoundTrip (ext_compress m c false false) rle_compress_bounds (anywhere (fun m' => ext_decompress m' c)) rle_decompress_additional_size.
Proof. exact ext_anywhere. Qed.
Print Assumptions C32_ext_portable.
Theorem C32_rle8_multi_portable : forall m pk,
  RoundTrip (multi_compress m pk false false) (multi_space pk) (anywhere (fun m' => rle8_decompress m' pk)) rle_decompress_additional_size.
Proof. exact multi_anywhere. Qed.
Print Assumptions C32_rle8_multi_portable.
Theorem C32_rle8_single_portable : forall pk,
  RoundTrip (s_compress pk false false) (single_space pk) (anywhere (fun m' => rle8_decompress m' pk)) rle_decompress_additional_size.
Proof. exact single_anywhere. Qed.
Print Assumptions C32_rle8_single_portable.
Theorem C32_sl_portable : forall m c, List.In c slcodecs ->
  RoundTrip (symlut_compress m c false false) (sl_space c) (anywhere (fun m' => symlut_decompress m' c)) rle_decompress_additional_size.
Proof. exact symlut_anywhere. Qed.
Print Assumptions C32_sl_portable.
Theorem C32_short_portable : forall m c, List.In c shcodecs ->
  RoundTrip (short_compress m c false false) sh_space (anywhere (fun m' => short_decompress m' c)) rle_decompress_additional_size.
Proof. exact short_anywhere. Qed.
Print Assumptions C32_short_portable.
Theorem C32_low_entropy_portable : forall L, L = 255 \/ L = 32 ->
  RoundTripI false Always (le_compress L true false false) le_bounds (anywhere (fun m' => low_entropy_decompress m' L)) 0.
Proof. exact low_entropy_anywhere. Qed.
Print Assumptions C32_low_entropy_portable.

(** *** Examples *)

(** A current machine with AVX-512, one with SSE4.1 only, under complete operating systems. *)
Definition new_machine : machine := avx_machine (2 ^ 5 + 2 ^ 16) 231.
Definition old_machine : machine := mkMachine 5 (2 ^ 0 + 2 ^ 9 + 2 ^ 19) (2 ^ 25 + 2 ^ 26) 0 0 0 1.
Example new_machine_ok : x86_64 new_machine /\ os_complete new_machine.
Proof. unfold x86_64, os_complete, os_enables, has1c, has1d, has7b; cbn; repeat split; intros; try lia; reflexivity. Qed.
Example old_machine_ok : x86_64 old_machine /\ os_complete old_machine.
Proof. unfold x86_64, os_complete, os_enables, has1c, has1d, has7b; cbn; repeat split; intros; try lia; try discriminate; intuition (discriminate || lia). Qed.
Example new_choices : map (on new_machine) [RleX_comp; RleX_dec; Rle24_dec; Rle128_dec; Sl_dec true; Le_dec_multi; Mmtf256]
  = [Some IAvx2; Some IAvx512; Some IAvx2; Some IAvx512; Some IAvx2; Some IAvx; Some IAvx2].
Proof. vm_compute. reflexivity. Qed.
Example old_choices : map (on old_machine) [RleX_comp; RleX_dec; Rle24_dec; Rle128_dec; Sl_dec true; Le_dec_multi; Mmtf256]
  = [Some ISse2; Some ISse41; Some ISsse3; Some ISse2; Some ISse41; Some ISse2; Some ISse2].
Proof. vm_compute. reflexivity. Qed.
(** Two threads in turn: both are done after 28 turns each. *)
Example two_threads : let s := run new_machine (concat (repeat [0; 1; 1; 0]%nat 14)) in
  snd s 0%nat = TDone /\ snd s 1%nat = TDone /\ choose RleX_dec (fst s) = Some IAvx512.
Proof. vm_compute. repeat split. Qed.
