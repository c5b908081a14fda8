(** How much of the memory around the input an encoder depends on. *)
From Verif Require Import Base Spec.

(** The result is determined by the [n] input bytes and the [k] bytes behind them. *)
Definition InputUpTo (k : Z) (comp : compressor) : Prop :=
  forall In1 In2 n cap, 0 <= n -> (forall x, 0 <= x < n + k -> In1 x = In2 x) -> comp In1 n cap = comp In2 n cap.
