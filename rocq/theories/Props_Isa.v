(** C43: the public functions run implementations the machine can execute. *)
From Verif Require Import Base Spec Simd ExtModel Rle8Model LutModel SlModel ShModel LeModel PlatModel PlatSpec ApiModel IsaSpec ApiIsa Props_Plat.

(** Under operating systems that enable all the processor has (for others see C43_instructions_supported_refuted) every public
    function with several implementations behaves like one that is compiled for instructions of this machine. *)
Theorem C43_calls_supported_partial : forall m, x86_64 m -> os_complete m ->
  (forall c, (exists v, ext_compress m c = xcompress c v /\ executes m (simd_isa v)) /\
             (exists v, ext_decompress m c = xdecompress c v /\ executes m (dsimd_isa (xS c) v))) /\
  (forall pk, (exists avx2 : bool, multi_compress m pk = m_compress pk avx2 /\ executes m (if avx2 then IAvx2 else ISse2)) /\
              (exists v, rle8_decompress m pk = r8_decompress pk v /\ executes m (d8_isa v))) /\
  (forall c, (exists v, symlut_compress m c = sl_compress c v /\ executes m (simd_isa v)) /\
             (exists v, symlut_decompress m c = sl_decompress c v /\ executes m (lvl_isa v))) /\
  (forall c, (exists v, short_compress m c = sh_compress c v /\ executes m (simd_isa v)) /\
             (exists v, short_decompress m c = sh_decompress c v /\ executes m (lvl_isa v))) /\
  (forall L, exists v, low_entropy_decompress m L = le_decompress L v /\ Forall (executes m) (cpu_isas v)).
Proof. exact calls_ex. Qed.
Print Assumptions C43_calls_supported_partial.

(** A machine with AVX but without AVX2, on which the 24 and 48 bit decoders must not take the version for AVX2. *)
Definition avx_only : machine := mkMachine 5 (2 ^ 0 + 2 ^ 9 + 2 ^ 19 + 2 ^ 27 + 2 ^ 28) (2 ^ 25 + 2 ^ 26) 0 0 0 7.
Example C43_example_avx_only : x86_64 avx_only /\ os_complete avx_only /\ ~ executes avx_only IAvx2 /\
  ext_decompress avx_only (mkX 6 false true true) = xdecompress (mkX 6 false true true) DSsse3 /\
  ext_decompress avx_only (mkX 4 false true true) = xdecompress (mkX 4 false true true) DAvx.
Proof.
  split; [|split; [|split]].
  - unfold x86_64, has1c, has1d, has7b; cbn; repeat split; intros; try lia; try reflexivity; intuition (discriminate || lia).
  - unfold os_complete, os_enables, has1c, has1d, has7b; cbn; repeat split; intros; try lia; try reflexivity; intuition (discriminate || lia).
  - intros [_ [H _]]. cbn in H. lia.
  - split; reflexivity.
Qed.
