(** What the buffer for the output has to do with the stream. *)
From Verif Require Import Base Spec.

(** A larger buffer is as good as a smaller one: it is accepted too, and the stream is the same. *)
Definition LargerBuffer (comp : mem -> Z -> Z -> cres) : Prop := forall In n cap cap' out, byte_mem In -> 1 <= n <= max_in ->
  cap <= cap' < 2 ^ 32 -> comp In n cap = COk out -> comp In n cap' = COk out.
(** Whenever a stream comes out, it is the same one. *)
Definition OneStream (comp : mem -> Z -> Z -> cres) : Prop := forall In n cap cap' out out', byte_mem In -> 1 <= n <= max_in ->
  comp In n cap = COk out -> comp In n cap' = COk out' -> out = out'.
(** [comp M pout] is the call in the memory [M] with a buffer at [pout]: the same for all memories and buffers. *)
Definition LargerBufferAnywhere (comp : mem -> Z -> mem -> Z -> Z -> cres) : Prop := forall M pout M' pout' In n cap cap' out, byte_mem In -> 1 <= n <= max_in ->
  cap <= cap' < 2 ^ 32 -> comp M pout In n cap = COk out -> comp M' pout' In n cap' = COk out.
