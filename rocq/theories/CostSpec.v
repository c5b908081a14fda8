(** Specification for C72: the loops of a compressor are passed at most [a n + b] times, whatever the
    [n] bytes are. *)
From Verif Require Import Base Spec.

Definition LinearPasses (count : mem -> Z -> option Z) (a b : Z) : Prop :=
  forall In n, byte_mem In -> 1 <= n <= max_in -> exists k, count In n = Some k /\ k <= a * n + b.
