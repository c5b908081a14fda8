(** What a round of the fuzzer in random mode tests, without reference to how it is drawn. *)
From Verif Require Import Base Spec FuzzModel.

(** A section: its type (0 random data, 1 a repeated symbol), which of the 16 symbols, its length. *)
Record rsection := mkRS { rs_type : Z; rs_symbol : Z; rs_length : Z }.
(** Bytes per symbol, whether lengths count symbols (else bytes), the sections. *)
Record rtest := mkRT { rt_symbol : Z; rt_bound : bool; rt_sections : list rsection }.

(** The test of a state: the first relevantStateCount sections (fuzz_fill_buffer, rle_fuzz.c l.360-437). *)
Definition drawn (f : fstate) : rtest :=
  mkRT (f_sl f) (f_bound f) (map (fun s => mkRS (s_type s) (s_sym s) (s_len s)) (firstn (Z.to_nat (f_rel f)) (f_subs f))).

(** The types alternate. *)
Fixpoint alternate (t : Z) (l : list rsection) : Prop :=
  match l with [] => True | s :: l' => rs_type s = t /\ alternate (1 - t) l' end.

Definition in_ranges (ranges : list (Z * Z)) (l : Z) : Prop := exists r, List.In r ranges /\ fst r <= l <= snd r.
(** Tests with at most [sections] sections and lengths from [ranges]. *)
Definition tests_in (ranges : list (Z * Z)) (sections : Z) (t : rtest) : Prop :=
  1 <= rt_symbol t <= 16 /\ 1 <= len (rt_sections t) <= sections /\
  (alternate 0 (rt_sections t) \/ alternate 1 (rt_sections t)) /\
  Forall (fun s => 0 <= rs_symbol s < 16 /\ in_ranges ranges (rs_length s)) (rt_sections t).

(** What the names of the limits promise (flt_small_max_value and so on, l.31-46)... *)
Definition wanted : Z -> rtest -> Prop := tests_in [(1, 280); (768, 8192); (65528, 65560)].
(** ... and what can be drawn: the largest length of each range and the full number of sections are missing. *)
Definition possible (sections : Z) : rtest -> Prop := tests_in [(1, 279); (768, 8191); (65528, 65559)] (sections - 1).
