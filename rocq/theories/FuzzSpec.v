(** What the fuzzer promises, without reference to how it goes from one test to the next. *)
From Verif Require Import Base Spec.

(** The lengths a section takes in iterative mode: every small one, steps of 1/16 in between, and every one
    around 2^16. *)
Definition from_to (a b : Z) : list Z := map (fun i => a + Z.of_nat i) (seq 0 (Z.to_nat (b - a + 1))).
Definition tested_lengths : list Z :=
  from_to 1 280 ++
  [768; 816; 867; 921; 978; 1039; 1103; 1171; 1244; 1321; 1403; 1490; 1583; 1681; 1786; 1897; 2015; 2140; 2273; 2415;
   2565; 2725; 2895; 3075; 3267; 3471; 3687; 3917; 4161; 4421; 4697; 4990; 5301; 5632; 5984; 6358; 6755; 7177; 7625; 8101] ++
  from_to 65528 65560.

(** A test of iterative mode: bytes per symbol, whether lengths count symbols (else bytes), the type of the
    first section (0 random, 1 repeated symbol; they alternate), and the length of each section. *)
Record test := mkTest { t_symbol : Z; t_bound : bool; t_start : Z; t_lengths : list Z }.

Definition planned (sections : Z) (t : test) : Prop :=
  1 <= t_symbol t <= 16 /\ (t_bound t = true -> t_symbol t <> 1) /\ (t_start t = 0 \/ t_start t = 1) /\
  len (t_lengths t) = sections /\ Forall (fun l => List.In l tested_lengths) (t_lengths t).

(** Number of planned tests: 31 symbol sizes and alignments, 2 orders, 353 lengths per section. *)
Definition planned_count (sections : Z) : Z := 62 * 353 ^ sections.

(** Two memories agree on a range. *)
Definition same_range (A : mem) (a : Z) (B : mem) (b : Z) (lo hi : Z) : Prop :=
  forall k, lo <= k < hi -> A (a + k) = B (b + k).

(** [n] bytes at [p] hold one section behind the other, of the given lengths.  Sections of type 1 repeat some
    symbol of [width] bytes; their lengths count symbols if [bound].  Sections of type 0 are unspecified. *)
Fixpoint laid (M : mem) (p : Z) (width : Z) (bound : bool) (type : Z) (lengths : list Z) (n : Z) : Prop :=
  match lengths with
  | [] => n = 0
  | l :: ls =>
      let size := if (type =? 1) && bound then l * width else l in
      (type = 1 -> exists sy, len sy = width /\ forall k, 0 <= k < size -> M (p + k) = nth (Z.to_nat (k mod width)) sy 0) /\
      laid M (p + size) width bound (1 - type) ls (n - size)
  end.

(** The state after [k] rounds of a loop. *)
Inductive after {S R} (step : S -> S + R) (s : S) : Z -> S -> Prop :=
| after_0 : after step s 0 s
| after_S k s1 s2 : after step s k s1 -> step s1 = inl s2 -> after step s (k + 1) s2.
