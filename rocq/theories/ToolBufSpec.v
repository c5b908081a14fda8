(** The buffers of the tool, main.c l.722-733. *)
From Verif Require Import Base Spec ExtModel.
From Verif Require ToolRun.

(** A file of [n] bytes, compressed into a buffer of the size the tool allocates, does not leave the buffer, and is restored into a
    buffer of [n + rle_decompress_additional_size] bytes, although the decompressor is told the size of the first buffer (l.970). *)
Definition FitsTool (comp : compressor) (dec : decompressor) (In : mem) (n : Z) : Prop :=
  exists out, comp In n (ToolRun.buffer_size n) = COk out /\ len out <= ToolRun.buffer_size n /\
  forall C pin M pout, holds C pin out -> 0 < pin -> pin + len out + 1024 < 2 ^ 64 -> 0 < pout -> pout + n + 1024 < 2 ^ 64 ->
  exists M', dec C pin (len out) M pout (ToolRun.buffer_size n) = DRet n M' /\ slice M' pout n = slice In 0 n /\
    forall x, x < pout \/ pout + n + rle_decompress_additional_size <= x -> M' x = M x.
