(** Decompression of bytes that no compressor has written. *)
From Verif Require Import Base Spec.

(** Whatever the stream, a call that ends has written only to the output buffer and [slack] bytes behind. *)
Definition AnyStreamInside (slack : Z) (dec : decompressor) : Prop :=
  forall C pin inSize M pout outSize r M', byte_mem C -> 0 < pin -> 0 < pout -> dec C pin inSize M pout outSize = DRet r M' ->
  forall x, x < pout \/ pout + outSize + slack <= x -> M' x = M x.

(** Whatever the stream, the call ends, returns at most [outSize] and writes at most [Z.max outSize (k * inSize)] bytes. *)
Definition AnyStreamEnds (k : Z) (dec : decompressor) : Prop :=
  forall C pin inSize M pout outSize, byte_mem C -> 0 <= pin -> 0 <= inSize < 2 ^ 32 -> 0 <= outSize -> 0 <= pout -> pout + k * inSize + 1024 < 2 ^ 64 ->
  exists r M', dec C pin inSize M pout outSize = DRet r M' /\ 0 <= r <= outSize /\
  forall x, x < pout \/ pout + Z.max outSize (k * inSize) <= x -> M' x = M x.

(** Two calls that both end have the same effect if the [inSize] bytes of the stream and [k] bytes behind are the same. *)
Definition StreamOnly (k : Z) (dec : decompressor) : Prop :=
  forall C1 C2 pin inSize M pout outSize r1 M1 r2 M2, byte_mem C1 -> byte_mem C2 -> 0 < pin -> 0 < pout ->
  (forall x, pin <= x < pin + inSize + k -> C1 x = C2 x) ->
  dec C1 pin inSize M pout outSize = DRet r1 M1 -> dec C2 pin inSize M pout outSize = DRet r2 M2 ->
  r1 = r2 /\ forall x, M1 x = M2 x.
