(** C50, C51, C52: the command line of the tool. *)
From Coq Require Import String Ascii.
From Verif Require Import Base Spec PlatModel ToolTable ToolArgs ToolSpec ToolOpt ToolThm.
Open Scope string_scope.
Open Scope Z_scope.

(** Machines for the examples: one with AVX2, one that has SSE2 only, one with AVX-512. *)
Definition avx2_machine : machine := mkMachine 7 (2 ^ 0 + 2 ^ 9 + 2 ^ 12 + 2 ^ 19 + 2 ^ 20 + 2 ^ 27 + 2 ^ 28) (2 ^ 25 + 2 ^ 26) (2 ^ 5) 0 0 7.
Definition sse2_machine : machine := mkMachine 1 0 (2 ^ 25 + 2 ^ 26) 0 0 0 0.

Definition names_selected (m : machine) (argv : list string) : option (list string) :=
  match command_line m argv with Some (_, s) => Some (map codec_name (selected (s_args s))) | None => None end.

(** C50: the codecs that are tested are those whose printed name has what every option asks for, each once.
    Left out: a --not-short that is followed by --low-entropy-short. *)
Theorem C50_selection_partial : forall m file l f s, Forall offered l ->
  ~ clash (fun a b => a = OShort false /\ b = OLowEntropyShort) l ->
  command_line m (file :: spelled l) = Some (f, s) ->
  NoDup (selected (s_args s)) /\
  forall c, List.In c (selected (s_args s)) <-> forall o, List.In o l -> fits (codec_name c) o.
Proof. exact selection. Qed.
Print Assumptions C50_selection_partial.

(** In that case, the codecs that are tested are short although --not-short was asked for. *)
Theorem C50_selection_refuted : exists m file l f s c o, Forall offered l /\ command_line m (file :: spelled l) = Some (f, s) /\
  List.In c (selected (s_args s)) /\ List.In o l /\ ~ fits (codec_name c) o.
Proof. exact selection_refuted. Qed.
Print Assumptions C50_selection_refuted.

(** Accepted options can select nothing at all: two modes. *)
Theorem C50_nonempty_refuted : exists m file l f s, Forall offered l /\ command_line m (file :: spelled l) = Some (f, s) /\
  selected (s_args s) = [].
Proof. exact selection_empty. Qed.
Print Assumptions C50_nonempty_refuted.

(** No two of the codecs are printed under the same name: a line of the table identifies its codec. *)
Theorem C50_names_distinct : forall c d, codec_name c = codec_name d -> c = d.
Proof. exact names_injective. Qed.
Print Assumptions C50_names_distinct.

Example C50_example : names_selected avx2_machine ("x.bin" :: spelled [OMode MExtreme; OByte true; OSize 24; OShort true; OLut 3])
  = Some ["24 Bit 3LUT Short (Byte)"; "24 Bit 3LUT Short Grdy (Byte)"].
Proof. vm_compute. reflexivity. Qed.
Example C50_example_single : names_selected avx2_machine ("x.bin" :: spelled [OSingle true]) =
  Some ["8 Bit Single"; "8 Bit Single Short"; "8 Bit Single Packed"; "Low Entropy Single"; "Low Entropy Short Single"].
Proof. vm_compute. reflexivity. Qed.
Example C50_example_all : option_map (@List.length string) (names_selected avx2_machine ["x.bin"]) = Some 121%nat.
Proof. vm_compute. reflexivity. Qed.

(** C51: after --max-simd x, nothing is used that the machine does not have; the library does not detect
    again; every function chooses an implementation of the level x or lower (SSE2 counts as the lowest). *)
Theorem C51_simd_limited : forall m file l f s x k, Forall offered l -> command_line m (file :: spelled l) = Some (f, s) ->
  List.In (OMaxSimd x) l -> position x simd_names = Some k ->
  (forall f', s_flags s f' = true -> detect m all_off f' = true) /\
  (forall f', detect m (s_flags s) f' = s_flags s f') /\
  (forall s' i, choose s' (s_flags s) = Some i -> level_of i <= Z.max 1 k).
Proof. exact simd_limited. Qed.
Print Assumptions C51_simd_limited.

(** Without the option, the library detects as usual. *)
Theorem C51_simd_unlimited : forall m file l f s, Forall offered l -> command_line m (file :: spelled l) = Some (f, s) ->
  (forall x, ~ List.In (OMaxSimd x) l) -> forall f', detect m (s_flags s) f' = detect m all_off f'.
Proof. exact simd_unlimited_detect. Qed.
Print Assumptions C51_simd_unlimited.

(** --max-simd none: some functions use SSE2 all the same. *)
Theorem C51_none_refuted : exists m file l f s s' i, Forall offered l /\ command_line m (file :: spelled l) = Some (f, s) /\
  List.In (OMaxSimd "none") l /\ choose s' (s_flags s) = Some i /\ level_of i > 0.
Proof. exact none_refuted. Qed.
Print Assumptions C51_none_refuted.

Definition choices (m : machine) (l : list choice) : option (list (option isa)) :=
  match command_line m ("x.bin" :: spelled l) with
  | Some (_, s) => Some (map (fun x => choose x (detect m (s_flags s))) [RleX_comp; RleX_dec; Rle24_dec; Sl_dec true; Mmtf256])
  | None => None
  end.
Example C51_example :
  map (choices avx2_machine) [[]; [OMaxSimd "avx"]; [OMaxSimd "ssse3"]; [OMaxSimd "none"]; [OMaxSimd "avx512f"]; [OMaxSimd "sse5"]]
  = [Some [Some IAvx2; Some IAvx2; Some IAvx2; Some IAvx2; Some IAvx2]; Some [Some ISse2; Some IAvx; Some ISsse3; Some IAvx; Some ISse2];
     Some [Some ISse2; Some ISse2; Some ISsse3; Some ISsse3; Some ISse2]; Some [Some IScalar; Some ISse2; Some ISse2; Some ISse2; None]; None; None].
Proof. vm_compute. reflexivity. Qed.

(** C52: a list of options with offered values is accepted if and only if no two of them exclude each other
    ([refused_pair]), every level of --max-simd is available, and no combination is impossible. *)
Theorem C52_accepted_iff : forall m file l, Forall offered l ->
  ((exists s, command_line m (file :: spelled l) = Some (file, s)) <->
   ~ clash refused_pair l /\ (forall l1 x l2, l = (l1 ++ OMaxSimd x :: l2)%list -> simd_available m l1 x) /\ ~ impossible l).
Proof. exact accepted_iff. Qed.
Print Assumptions C52_accepted_iff.

(** The accepted settings are those given; where an option is repeated, the last counts. *)
Theorem C52_settings : forall m file l f s, Forall offered l -> command_line m (file :: spelled l) = Some (f, s) -> f = file /\ Meant l s.
Proof. exact accepted_settings. Qed.
Print Assumptions C52_settings.

(** Words that are not options, and options without their value, are refused wherever they stand. *)
Theorem C52_unknown_refused : forall m file l w rest, ~ List.In w option_names -> command_line m (file :: spelled l ++ w :: rest) = None.
Proof. exact unknown_refused. Qed.
Print Assumptions C52_unknown_refused.
Theorem C52_missing_value : forall m file l w, List.In w value_options -> command_line m (file :: spelled l ++ [w]) = None.
Proof. exact missing_value. Qed.
Print Assumptions C52_missing_value.
(** So are negative numbers. *)
Theorem C52_negative_refused : forall m file l w k rest, List.In w ["--runs"; "--min-time"] -> 1 <= k <= 2 ^ 31 ->
  command_line m (file :: spelled l ++ w :: ("-" ++ decimal k) :: rest) = None.
Proof. exact negative_refused. Qed.
Print Assumptions C52_negative_refused.

(** Whether options exclude each other depends on their order: --not-short --low-entropy-short is accepted. *)
Theorem C52_exclusive_refuted : exists m file l f s, Forall offered l /\ clash exclusive_also_short l /\
  command_line m (file :: spelled l) = Some (f, s).
Proof. exact exclusive_refuted. Qed.
Print Assumptions C52_exclusive_refuted.

(** Values that are not offered are not always refused: 12 is taken for 128, 2^32 runs and "abc" runs for one run. *)
Theorem C52_values_refuted : exists m,
  (exists f s, command_line m ["x"; "--x-size"; "12"] = Some (f, s) /\ a_bits (s_args s) = 128) /\
  (exists f s, command_line m ["x"; "--runs"; "4294967296"] = Some (f, s) /\ s_runs s = 1) /\
  (exists f s, command_line m ["x"; "--runs"; "abc"] = Some (f, s) /\ s_runs s = 1).
Proof. exact values_refuted. Qed.
Print Assumptions C52_values_refuted.

Example C52_example :
  map (fun l => match command_line avx2_machine ("x" :: spelled l) with Some (_, s) => Some (s_test s, s_runs s, s_minSeconds s, s_noDelays s) | None => None end)
    [[OTest; ORuns 3; OMinTime 0; ORuns 17]; [ORuns 0]; [OShort true; OShort true]; [OMaxSimd "sse2"; OMaxSimd "avx"];
     [OSize 16; OSingle true; OMode MExtreme]; [OSize 16; OSingle true]]
  = [Some (true, 17, 0, true); Some (false, 1, 2, true); None; None; None; Some (false, 8, 2, false)].
Proof. vm_compute. reflexivity. Qed.
Example C52_example_negative :
  map (fun w => match command_line avx2_machine ["x"; "--min-time"; w] with Some (_, s) => Some (s_minSeconds s) | None => None end) ["-1"; "1"; "-0"]
  = [None; Some 1; Some 0].
Proof. vm_compute. reflexivity. Qed.
Example C52_example_machine :
  map (fun m => match command_line m ("x" :: spelled [OMaxSimd "sse3"]) with Some _ => true | None => false end) [avx2_machine; sse2_machine] = [true; false].
Proof. vm_compute. reflexivity. Qed.
