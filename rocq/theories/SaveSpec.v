(** Repetitions in the input and what a run length encoder makes of them. *)
From Verif Require Import Base Spec.

(** From [a] to [b] the input repeats its first [S] bytes. *)
Definition Repeats (S : Z) (In : mem) (a b : Z) : Prop := forall x, a <= x -> x + S < b -> In (x + S) = In x.

(** Pieces of the first [n] bytes of the input, in order and without overlap, each of which is a
    repetition. *)
Fixpoint Repetitions (S : Z) (In : mem) (from n : Z) (rs : list (Z * Z)) : Prop :=
  match rs with
  | [] => True
  | (a, b) :: rs' => from <= a /\ a <= b <= n /\ Repeats S In a b /\ Repetitions S In b n rs'
  end.

(** Their total length, without the first [k] bytes of each. *)
Fixpoint saving (k : Z) (rs : list (Z * Z)) : Z :=
  match rs with [] => 0 | (a, b) :: rs' => Z.max 0 (b - a - k) + saving k rs' end.

(** An encoder that makes use of all repetitions of [S] bytes: whatever pieces of the input are
    repetitions, all but [k] bytes of each are saved. *)
Definition Saves (S k : Z) (comp : mem -> Z -> Z -> cres) (size : Z -> Z) : Prop :=
  forall In n cap out rs, byte_mem In -> 1 <= n <= max_in -> comp In n cap = COk out ->
    Repetitions S In 0 n rs -> len out + saving k rs <= size n.

(** An encoder with one symbol, written at [pos] of the stream, that makes use of all repetitions
    of this symbol. *)
Definition SavesSymbol (pos k : Z) (comp : mem -> Z -> Z -> cres) (size : Z -> Z) : Prop :=
  forall In n cap out rs, byte_mem In -> 1 <= n <= max_in -> comp In n cap = COk out ->
    Repetitions 1 In 0 n rs -> (forall a b x, List.In (a, b) rs -> a <= x < b -> In x = nth (Z.to_nat pos) out 0) ->
    len out + saving k rs <= size n.
