(** Specification of C73: on the streams of a compressor the loops of a decompressor are passed at most
    [a * n + b] times for [n] decoded bytes, wherever the buffers lie and whatever they held before. *)
From Verif Require Import Base Spec.

Definition LinearDecode (comp : compressor) (bound : Z -> Z) (count : mem -> Z -> mem -> Z -> option Z) (a b : Z) : Prop :=
  forall In n cap, byte_mem In -> 1 <= n <= max_in -> bound n <= cap ->
  exists out, comp In n cap = COk out /\
    forall C pin M pout, holds C pin out -> 0 < pin -> pin + len out + 256 < 2 ^ 64 -> 0 < pout -> pout + n + 256 < 2 ^ 64 ->
    exists k, count C pin M pout = Some k /\ k <= a * n + b.

(** On any bytes: at most [a * size + b] passes, where [size] is the size announced in the first four bytes. *)
Definition LinearDecodeAny (count : mem -> Z -> mem -> Z -> option Z) (a b : Z) : Prop :=
  forall C pin M pout, byte_mem C -> 0 < pin -> 0 < pout ->
    pin + rd32 C pin < 2 ^ 64 -> pout + 128 * (rd32 C pin + 1) < 2 ^ 64 ->
    exists k, count C pin M pout = Some k /\ k <= a * rd32 C pin + b.
