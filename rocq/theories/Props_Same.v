(** C45: the compressed stream does not depend on the machine the compressor runs on. *)
From Verif Require Import Base Spec Simd ExtModel Rle8Model LutModel SlModel ShModel PlatModel PlatSpec PlatThm ApiModel SameThm Props_Plat.

Theorem C45_ext_same_stream : forall m1 m2 c inNull outNull In n cap, List.In c xcodecs -> 0 <= n < 2 ^ 62 ->
  ext_compress m1 c inNull outNull In n cap = ext_compress m2 c inNull outNull In n cap.
Proof. exact ext_same_machines. Qed.
Print Assumptions C45_ext_same_stream.
Theorem C45_symlut_same_stream : forall m1 m2 c inNull outNull In n cap, List.In c slcodecs -> 0 <= n < 2 ^ 62 ->
  symlut_compress m1 c inNull outNull In n cap = symlut_compress m2 c inNull outNull In n cap.
Proof. exact symlut_same_machines. Qed.
Print Assumptions C45_symlut_same_stream.
Theorem C45_short_same_stream : forall m1 m2 c inNull outNull In n cap, List.In c shcodecs -> 0 <= n < 2 ^ 62 ->
  short_compress m1 c inNull outNull In n cap = short_compress m2 c inNull outNull In n cap.
Proof. exact short_same_machines. Qed.
Print Assumptions C45_short_same_stream.
Theorem C45_rle8_multi_same_stream : forall m1 m2 inNull outNull In n cap, 0 <= n < 2 ^ 62 ->
  multi_compress m1 false inNull outNull In n cap = multi_compress m2 false inNull outNull In n cap.
Proof. exact multi_same_machines. Qed.
Print Assumptions C45_rle8_multi_same_stream.

(** It is false of rle8_packed_multi_compress: the loop over the last bytes accepts fewer runs than
    the vector loop, and how many bytes it handles depends on the width of the vectors. *)
Theorem C45_rle8_packed_multi_refuted : exists m1 m2 In n cap b1 b2,
  x86_64 m1 /\ os_complete m1 /\ x86_64 m2 /\ os_complete m2 /\ (forall k, is_byte (In k)) /\ 0 <= n < 2 ^ 32 /\ rle_compress_bounds n <= cap /\
  multi_compress m1 true false false In n cap = COk b1 /\ multi_compress m2 true false false In n cap = COk b2 /\ length b1 <> length b2.
Proof. exact (packed_multi_differs new_machine old_machine new_machine_ok old_machine_ok eq_refl eq_refl). Qed.
Print Assumptions C45_rle8_packed_multi_refuted.

(** *** Examples: two machines that run different code, an input with runs in all parts of the loops *)
Definition run_input : mem := fun k => if k <? 20 then 7 else if k <? 34 then Z.max 0 k else if k <? 47 then 200 else if k <? 70 then 9 else 1.
Example different_code : map (on new_machine) [RleX_comp; Rle24_comp; Rle8_comp; Sl8_comp; SlX_comp false; SlX_comp true] =
    [Some IAvx2; Some IAvx2; Some IAvx2; Some IAvx2; Some IAvx2; Some IAvx2] /\
  map (on old_machine) [RleX_comp; Rle24_comp; Rle8_comp; Sl8_comp; SlX_comp false; SlX_comp true] =
    [Some ISse2; Some ISsse3; Some ISse2; Some ISse2; Some ISse2; Some ISsse3].
Proof. split; vm_compute; reflexivity. Qed.
Definition small (r : cres) : bool := match r with COk b => Z.of_nat (length b) <? 90 | _ => false end.
Example sample_streams : let n := 90 in let cap := 600 in
  List.In (mkX 4 true true true) xcodecs /\ small (ext_compress new_machine (mkX 4 true true true) false false run_input n cap) = true /\
  ext_compress old_machine (mkX 4 true true true) false false run_input n cap = ext_compress new_machine (mkX 4 true true true) false false run_input n cap /\
  List.In (mkSl 3 true 7) slcodecs /\ small (symlut_compress new_machine (mkSl 3 true 7) false false run_input n cap) = true /\
  List.In (mkSh 1 false 3 false) shcodecs /\ small (short_compress old_machine (mkSh 1 false 3 false) false false run_input n cap) = true /\
  small (multi_compress old_machine false false false run_input n cap) = true.
Proof.
  cbv zeta. split; [vm_compute; tauto|]. split; [vm_compute; reflexivity|]. split; [vm_compute; reflexivity|].
  split; [vm_compute; tauto|]. split; [vm_compute; reflexivity|]. split; [vm_compute; tauto|]. split; vm_compute; reflexivity.
Qed.
