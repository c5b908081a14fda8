(** Decompression of bytes that no compressor has written: the call ends. *)
From Verif Require Import Base Spec.

(** Whatever the stream, the call ends and returns 0 or the size in the header, which is at most [outSize]. *)
Definition AnyStreamReturns (dec : decompressor) : Prop :=
  forall C pin inSize M pout outSize, byte_mem C -> 0 <= pin -> 0 <= inSize < 2 ^ 32 -> 0 <= outSize -> 0 <= pout < 2 ^ 63 ->
  exists r M', dec C pin inSize M pout outSize = DRet r M' /\ (r = 0 \/ r = rd32 C (pin + 4) /\ r <= outSize) /\
  forall x, x < pout -> M' x = M x.
