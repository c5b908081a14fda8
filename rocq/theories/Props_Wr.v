(** What the compress functions do to the memory of the caller.  [x_write], [sl_write],
    [sh_write], [greedy_write], [m_write] (rle8_multi, rle8_packed_multi) and [s_write] (rle8_single,
    rle8_packed_single) are the functions with the stores they do; the arguments are: pIn is NULL,
    input, inSize, output memory, pOut, outSize. *)
From Verif Require Import Base Simd Spec ExtModel PktModel Rle8Model MbModel LutModel SlModel ShModel WrModel WrSpec WrThm WrThm2 WrThm3.

(** C57: the result is in the output buffer, and nothing else was written. *)
Theorem C57_ext_writes : forall c v, Writes (x_write c v) (xcompress c v) 0.
Proof. exact x_writes. Qed.
Print Assumptions C57_ext_writes.
Theorem C57_sl_writes : forall c v, List.In c slcodecs -> Writes (sl_write c v) (sl_compress c v) 0.
Proof. exact sl_writes. Qed.
Print Assumptions C57_sl_writes.
Theorem C57_greedy_writes : forall c, List.In c greedy_codecs -> Writes (greedy_write c) (greedy_compress c) 0.
Proof. exact greedy_writes. Qed.
Print Assumptions C57_greedy_writes.
Theorem C57_rle8_multi_writes : forall undef pk avx2, Writes (m_write undef pk avx2) (m_compress pk avx2) 0.
Proof. exact m_writes. Qed.
Print Assumptions C57_rle8_multi_writes.
Theorem C57_rle8_single_writes : forall undef pk, Writes (s_write undef pk) (s_compress pk) 0.
Proof. exact s_writes. Qed.
Print Assumptions C57_rle8_single_writes.
(** rle48_sym_short and rle48_byte_short may also change one byte behind the result; [sh_extra] is
    1 for them and 0 for every other codec. *)
Theorem C57_short_writes : forall c v, List.In c shcodecs -> Writes (sh_write c v) (sh_compress c v) (sh_extra c).
Proof. exact sh_writes. Qed.
Print Assumptions C57_short_writes.
Theorem C57_short48_refuted : forall unb v, exists In n M p cap r M', byte_mem In /\ 1 <= n <= max_in /\
  sh_write (mkSh 6 unb 0 false) v false In n M p cap = DRet r M' /\ r <> 0 /\ M' (p + r) <> M (p + r).
Proof. exact sh48_behind. Qed.
Print Assumptions C57_short48_refuted.

(** The same from the side of the caller, who only knows the returned size. *)
Theorem C57_ext_only_result : forall c v, List.In c xcodecs -> WritesOnlyResult (x_write c v) 0.
Proof. exact x_only. Qed.
Print Assumptions C57_ext_only_result.
Theorem C57_sl_only_result : forall c v, List.In c slcodecs -> WritesOnlyResult (sl_write c v) 0.
Proof. exact sl_only. Qed.
Print Assumptions C57_sl_only_result.
Theorem C57_short_only_result : forall c v, List.In c shcodecs -> WritesOnlyResult (sh_write c v) (sh_extra c).
Proof. exact sh_only. Qed.
Print Assumptions C57_short_only_result.
Theorem C57_greedy_only_result : forall c, List.In c greedy_codecs -> WritesOnlyResult (greedy_write c) 0.
Proof. exact greedy_only. Qed.
Print Assumptions C57_greedy_only_result.
Theorem C57_rle8_multi_only_result : forall undef pk avx2, WritesOnlyResult (m_write undef pk avx2) 0.
Proof. exact m_only. Qed.
Print Assumptions C57_rle8_multi_only_result.
Theorem C57_rle8_single_only_result : forall undef pk, WritesOnlyResult (s_write undef pk) 0.
Proof. exact s_only. Qed.
Print Assumptions C57_rle8_single_only_result.

(** C58: no byte outside of pOut[0 .. outSize) is written, whatever outSize. *)
Theorem C58_ext_inside : forall c v, List.In c xcodecs -> WritesInside (x_write c v).
Proof. exact x_inside. Qed.
Print Assumptions C58_ext_inside.
Theorem C58_sl_inside_exactly : forall c v, List.In c slcodecs -> (WritesInside (sl_write c v) <-> 6 <= slS c).
Proof. exact sl_inside_iff. Qed.
Print Assumptions C58_sl_inside_exactly.
Theorem C58_short_inside_exactly : forall c v, List.In c shcodecs ->
  (WritesInside (sh_write c v) <-> shS c = 8 \/ shS c = 4 /\ shUnb c = false).
Proof. exact sh_inside_iff. Qed.
Print Assumptions C58_short_inside_exactly.
Theorem C58_greedy_inside_refuted : forall c, List.In c greedy_codecs -> ~ WritesInside (greedy_write c).
Proof. exact greedy_not_inside. Qed.
Print Assumptions C58_greedy_inside_refuted.
Theorem C58_rle8_multi_inside_exactly : forall undef pk avx2, WritesInside (m_write undef pk avx2) <-> pk = true.
Proof. exact m_inside_iff. Qed.
Print Assumptions C58_rle8_multi_inside_exactly.
Theorem C58_rle8_single_inside_exactly : forall undef pk, WritesInside (s_write undef pk) <-> pk = false.
Proof. exact s_inside_iff. Qed.
Print Assumptions C58_rle8_single_inside_exactly.

(** Examples: 40 bytes with a run of a 48 bit symbol at the end, behind literals; the output memory
    holds 170 everywhere, the buffer is at 4096. *)
Definition ex_in : mem := fun x => if x <? 10 then 17 * x else (x - 10) mod 6 + 1.
Definition ex_run (f : wcompressor) (n : Z) : Z * list Z :=
  match f false ex_in n (fun _ => 170) 4096 (n + 193) with DRet r M' => (r, slice M' 4094 (r + 6)) | DDiverge => (-1, []) end.

(** rle48_sym_packed, two bytes before and four bytes behind the result. *)
Example C57_ext_example : ex_run (x_write (mkX 6 false true false) Sse2) 40 =
  (36, [170; 170; 40; 0; 0; 0; 36; 0; 0; 0] ++ [6; 1; 2; 3; 4; 5; 6; 11; 0; 17; 34; 51; 68; 85; 102; 119; 136; 153]
       ++ [128; 0; 0; 0; 0; 0; 0; 0; 0; 0] ++ [170; 170; 170; 170]).
Proof. vm_compute. reflexivity. Qed.
(** rle48_7symlut_byte. *)
Example C57_sl_example : ex_run (sl_write (mkSl 6 true 7) Avx2) 40 =
  (32, [170; 170; 40; 0; 0; 0; 32; 0; 0; 0] ++ [76; 231; 1; 2; 3; 4; 5; 6; 0; 17; 34; 51; 68; 85; 102; 119; 136; 153]
       ++ [65; 0; 0; 0; 0; 0] ++ [170; 170; 170; 170]).
Proof. vm_compute. reflexivity. Qed.
(** rle48_3symlut_byte_short_greedy, 41 bytes: one literal behind the run. *)
Example C57_greedy_example : ex_run (greedy_write (mkSh 6 true 3 false)) 41 =
  (37, [170; 170; 41; 0; 0; 0; 37; 0; 0; 0] ++ [248; 120; 12; 1; 2; 3; 4; 5; 6; 0; 17; 34; 51; 68; 85; 102; 119; 136; 153]
       ++ [56; 4; 0; 0; 0; 3; 0; 0; 0; 1] ++ [170; 170; 170; 170]).
Proof. vm_compute. reflexivity. Qed.
(** rle48_sym_short with the same input: the byte behind the 41 returned bytes is 0. *)
Example C57_short48_example : ex_run (sh_write (mkSh 6 false 0 false) Avx2) 41 =
  (41, [170; 170; 41; 0; 0; 0; 41; 0; 0; 0] ++ [74; 1; 2; 3; 4; 5; 6; 0; 17; 34; 51; 68; 85; 102; 119; 136; 153]
       ++ [240; 8; 0; 0; 0; 3; 0; 0; 0; 0; 0; 0; 0; 0; 0; 1] ++ [0; 170; 170; 170]).
Proof. vm_compute. reflexivity. Qed.
(** rle24_sym_short does not. *)
Example C57_short24_example : snd (ex_run (sh_write (mkSh 3 false 0 false) Avx2) 1) =
  [170; 170; 1; 0; 0; 0; 21; 0; 0; 0] ++ [240; 8; 0; 0; 0; 3; 0; 0; 0; 0; 0; 0; 0] ++ [170; 170; 170; 170].
Proof. vm_compute. reflexivity. Qed.
(** [sh_extra] *)
Example C57_extra : map (fun c => (c, sh_extra c)) (filter (fun c => negb (sh_extra c =? 0)) shcodecs) =
  [(mkSh 6 false 0 false, 1); (mkSh 6 true 0 false, 1)].
Proof. vm_compute. reflexivity. Qed.
(** Codecs on both sides of C58. *)
Example C58_codecs :
  List.In (mkX 3 true true true) xcodecs /\ List.In (mkSl 8 false 3) slcodecs /\ List.In (mkSl 3 false 7) slcodecs /\
  List.In (mkSh 4 false 7 false) shcodecs /\ List.In (mkSh 1 false 0 true) shcodecs /\ List.In (mkSh 2 true 1 false) greedy_codecs.
Proof. vm_compute. tauto. Qed.
