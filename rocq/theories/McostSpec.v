(** Specifications of C72 and C73 for the transformations, which run on one memory, and for the decoders
    that look up what they read. *)
From Verif Require Import Base Spec MtfSpec.

(** At most [a * n + b] passes for [n] bytes, wherever the buffers lie, as long as the output does not run
    into the input that is still to be read. *)
Definition LinearTransform (count : mem -> Z -> Z -> Z -> option Z) (a b : Z) : Prop :=
  forall M pin n pout, byte_mem M -> 0 <= n < 2 ^ 56 -> forward_ok pin n pout ->
  exists k, count M pin n pout = Some k /\ k <= a * n + b.

(** As [LinearDecode]; the memory that is read consists of bytes. *)
Definition LinearDecodeB (comp : compressor) (bound : Z -> Z) (count : mem -> Z -> mem -> Z -> option Z) (a b : Z) : Prop :=
  forall In n cap, byte_mem In -> 1 <= n <= max_in -> bound n <= cap ->
  exists out, comp In n cap = COk out /\
    forall C pin M pout, byte_mem C -> holds C pin out -> 0 < pin -> pin + len out + 256 < 2 ^ 64 -> 0 < pout -> pout + n + 256 < 2 ^ 64 ->
    exists k, count C pin M pout = Some k /\ k <= a * n + b.

(** On the streams of a compressor that may refuse: at most [a] passes for a byte of the stream, and [b]. *)
Definition LinearInStream (comp : compressor) (count : mem -> Z -> mem -> Z -> option Z) (a b : Z) : Prop :=
  forall In n cap out, byte_mem In -> 1 <= n <= max_in -> comp In n cap = COk out ->
  forall C pin M pout, byte_mem C -> holds C pin out -> 0 < pin -> pin + len out + 1024 < 2 ^ 64 -> 0 < pout -> pout + n + 128 * len out + 1024 < 2 ^ 64 ->
  exists k, count C pin M pout = Some k /\ k <= a * len out + b.
