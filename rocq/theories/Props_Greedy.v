(** The greedy encoders and the ordinary encoders of the same format. *)
From Verif Require Import Base Simd Spec ExtModel PktModel Rle8Model MbModel LutModel ShModel GrBad.

(** C68: false for each of the fifteen greedy encoders. *)
Theorem C68_greedy_not_longer_refuted : forall c, List.In c greedy_codecs -> exists In n, byte_mem In /\ 1 <= n <= max_in /\
  forall v, exists a b, greedy_compress c false false In n (rle_compress_bounds n) = COk a /\ sh_compress c v false false In n (rle_compress_bounds n) = COk b /\ len b < len a.
Proof. exact gr_refuted. Qed.
Print Assumptions C68_greedy_not_longer_refuted.

(** 16 bit, three symbols: 23 bytes instead of 21. *)
Definition gr_sizes (c : shcfg) (l : list Z) : Z * Z :=
  (size_of (greedy_compress c false false (mem_of l) (len l) (rle_compress_bounds (len l))), size_of (sh_compress c Avx2 false false (mem_of l) (len l) (rle_compress_bounds (len l)))).
Example C68_example : List.In (mkSh 2 true 3 false) greedy_codecs /\ gr_sizes (mkSh 2 true 3 false) [1; 0; 0; 1; 0; 1; 0; 0; 1; 0; 1] = (23, 21).
Proof. split; [cbn; tauto|vm_compute; reflexivity]. Qed.
