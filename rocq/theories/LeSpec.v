(** When is it worth it to run length code a byte value?  Counted on the data, without the statistics of the code. *)
From Verif Require Import Base Simd Spec.

(** How often [b] occurs in the first [n] bytes. *)
Definition occ (In : mem) (n b : Z) : Z := len (filter (Z.eqb b) (slice In 0 n)).

(** Length of the run of [b] that ends right before position [k]. *)
Fixpoint run_before (In : mem) (b : Z) (k : nat) : Z :=
  match k with
  | O => 0
  | S k' => if In (Z.of_nat k') =? b then run_before In b k' + 1 else 0
  end.
(** Pieces for the runs of [b] that are followed by another value before position [k]: a run of [r] bytes
    counts for [r / L + 1] pieces. *)
Fixpoint pieces_before (L : Z) (In : mem) (b : Z) (k : nat) : Z :=
  match k with
  | O => 0
  | S k' => pieces_before L In b k' +
      if (0 <? run_before In b k') && negb (In (Z.of_nat k') =? b) then run_before In b k' / L + 1 else 0
  end.
(** A run at the end counts for one piece. *)
Definition pieces (L : Z) (In : mem) (n b : Z) : Z :=
  pieces_before L In b (Z.to_nat n) + if 0 <? run_before In b (Z.to_nat n) then 1 else 0.

(** Two bytes for each piece are not more than the bytes themselves. *)
Definition Worth (L : Z) (In : mem) (n b : Z) : Prop := 0 < occ In n b /\ 2 * pieces L In n b <= occ In n b.
Definition SomeNotWorth (L : Z) (In : mem) (n : Z) : Prop := exists b, is_byte b /\ ~ Worth L In n b.
