(** Which codecs stay within rle_compress_bounds on every input. *)
From Verif Require Import Base Simd Spec ExtModel LutModel SlModel ShModel BigBad BigGr BigThm.

(** C22: the symlut codecs of at least 48 bit, and no other *)
Theorem C22_sl_bounds_exactly : forall c v, List.In c slcodecs ->
  (WithinBound (sl_compress c v false false) rle_compress_bounds <-> 6 <= slS c).
Proof. exact sl_exactly. Qed.
Print Assumptions C22_sl_bounds_exactly.
Theorem C22_sl_bounds_refuted : forall c, List.In c slcodecs -> slS c = 1 \/ slS c = 2 \/ slS c = 4 ->
  exists In n, byte_mem In /\ 1 <= n <= max_in /\ forall v, exists out,
    sl_compress c v false false In n (rle_compress_bounds n) = COk out /\ rle_compress_bounds n < len out.
Proof. exact sl_exceeds. Qed.
Print Assumptions C22_sl_bounds_refuted.

(** C22: the short codecs of 64 bit and those of whole 32 bit symbols, and no other *)
Theorem C22_short_bounds_exactly : forall c v, List.In c shcodecs ->
  (WithinBound (sh_compress c v false false) rle_compress_bounds <-> shS c = 8 \/ shS c = 4 /\ shUnb c = false).
Proof. exact sh_exactly. Qed.
Print Assumptions C22_short_bounds_exactly.
Theorem C22_short_bounds_refuted : forall c, List.In c shcodecs -> ~ (shS c = 8 \/ shS c = 4 /\ shUnb c = false) ->
  exists In n, byte_mem In /\ 1 <= n <= max_in /\ forall v, exists out,
    sh_compress c v false false In n (rle_compress_bounds n) = COk out /\ rle_compress_bounds n < len out.
Proof. exact sh_exceeds. Qed.
Print Assumptions C22_short_bounds_refuted.

(** C22: none of the greedy encoders *)
Theorem C22_greedy_bounds_refuted : forall c, List.In c greedy_codecs -> exists In n, byte_mem In /\ 1 <= n <= max_in /\
  exists out, greedy_compress c false false In n (rle_compress_bounds n) = COk out /\ rle_compress_bounds n < len out.
Proof. exact greedy_exceeds. Qed.
Print Assumptions C22_greedy_bounds_refuted.

(** The codecs concerned: rle8_3symlut, rle32_7symlut_byte and rle64_3symlut_sym; rle8_single_short,
    rle8_multi_short, rle48_1symlut_byte_short, rle32_sym_short and rle32_byte_short;
    rle64_3symlut_byte_short_greedy. *)
Example C22_codecs :
  List.In (mkSl 1 false 3) slcodecs /\ List.In (mkSl 4 true 7) slcodecs /\ List.In (mkSl 8 false 3) slcodecs /\
  List.In (mkSh 1 false 0 true) shcodecs /\ List.In (mkSh 1 false 0 false) shcodecs /\ List.In (mkSh 6 true 1 false) shcodecs /\
  List.In (mkSh 4 false 0 false) shcodecs /\ List.In (mkSh 4 true 0 false) shcodecs /\ List.In (mkSh 8 true 3 false) greedy_codecs.
Proof. vm_compute. tauto. Qed.
(** The inputs: 13 MB, around the first and second run. *)
Example C22_input_sl : slice (big 2 6) 65530 14 = [250; 251; 252; 253; 2; 201; 2; 201; 2; 201; 244; 245; 246; 247] /\ slice (big 2 6) (65540 + 65530) 12 = [254; 255; 240; 241; 3; 201; 3; 201; 3; 201; 248; 249] /\ big_n 6 = 13108032.
Proof. vm_compute. repeat split. Qed.
Example C22_input_greedy : slice zbig 65530 14 = [210; 211; 212; 213; 0; 0; 0; 0; 0; 0; 204; 205; 206; 207] /\ zbig_n = 13108032.
Proof. vm_compute. repeat split. Qed.
