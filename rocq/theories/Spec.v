(** Specifications of the API, independent of any codec model.

    A compress call either refuses (returns 0), returns the number of bytes it
    wrote at the start of the output buffer ([COk bytes], in order), or does not
    terminate.  A decompress call returns a number and leaves an output memory. *)
From Verif Require Import Base.

Inductive cres := CRefused | COk (bytes : list Z) | CDiverge.
Inductive dres := DRet (ret : Z) (M : mem) | DDiverge.

(** A compressor called with valid, non-NULL pointers: input memory (relative to the
    input pointer; what lies behind the input is arbitrary), input size, output capacity. *)
Definition compressor := mem -> Z -> Z -> cres.
(** A decompressor: compressed memory, address, size; output memory, address, capacity. *)
Definition decompressor := mem -> Z -> Z -> mem -> Z -> Z -> dres.

Definition byte_mem (m : mem) : Prop := forall k, is_byte (m k).

(** Largest input the API documents as supported (rle.h / rle_compress_bounds). *)
Definition max_in : Z := 2 ^ 30.

(** [dec], given [out] anywhere in memory and an output buffer of at least [n] bytes
    with [slack] writable bytes behind it, restores [In] and leaves everything
    outside of the [n + slack] bytes alone. *)
Definition Restores (dec : decompressor) (slack : Z) (out : list Z) (In : mem) (n : Z) : Prop :=
  forall C pin inSize M pout cap,
    holds C pin out ->
    0 < pin -> pin + len out + 1024 < 2 ^ 64 -> len out <= inSize ->
    0 < pout -> pout + n + 1024 < 2 ^ 64 -> n <= cap ->
    exists M',
      dec C pin inSize M pout cap = DRet n M' /\
      slice M' pout n = slice In 0 n /\
      (forall x, x < pout \/ pout + n + slack <= x -> M' x = M x).

(** Compression succeeds on every input of 1 .. max_in bytes given a buffer of at least
    [bound n] bytes, yields bytes that fit into the buffer, and every decompressor in [decs]
    restores it. *)
Definition RoundTrip (comp : compressor) (bound : Z -> Z) (decs : decompressor -> Prop) (slack : Z) : Prop :=
  forall In n cap,
    byte_mem In -> 1 <= n <= max_in -> bound n <= cap ->
    exists out,
      comp In n cap = COk out /\ Forall is_byte out /\ len out <= cap /\
      forall dec, decs dec -> Restores dec slack out In n.

(** The compressed size never exceeds [bound n]. *)
Definition WithinBound (comp : compressor) (bound : Z -> Z) : Prop :=
  forall In n cap out,
    byte_mem In -> 1 <= n <= max_in -> comp In n cap = COk out -> len out <= bound n.

(** The first two header fields are the two sizes. *)
Definition HeaderSizes (comp : compressor) : Prop :=
  forall In n cap out,
    byte_mem In -> 1 <= n <= max_in -> comp In n cap = COk out ->
    exists rest, out = le32 n ++ le32 (len out) ++ rest.

(** Compress with the NULL-ness of its two pointers made explicit. *)
Definition nullable_compressor := bool -> bool -> compressor.

(** Compression of inputs up to [max_in] is refused exactly if a pointer is NULL, the input is
    empty or the output buffer is smaller than [bound n]. *)
Definition CompressArgs (comp : nullable_compressor) (bound : Z -> Z) : Prop :=
  forall inNull outNull In n cap,
    byte_mem In -> 0 <= n <= max_in ->
    (comp inNull outNull In n cap = CRefused <->
     inNull = true \/ outNull = true \/ n = 0 \/ cap < bound n).

(** Decompression returns 0 and writes nothing if a pointer is NULL, a size is 0, or the header
    announces more output or more input than supplied. *)
Definition DecompressArgs (dec : decompressor) : Prop :=
  forall C pin inSize M pout outSize,
    (pin = 0 \/ pout = 0 \/ inSize = 0 \/ outSize = 0 \/
     outSize < rd32 C pin \/ inSize < rd32 C (pin + 4)) ->
    dec C pin inSize M pout outSize = DRet 0 M.

(** Decompression of a compressed stream with any suffix cut off returns 0 and writes nothing. *)
Definition RejectsTruncated (comp : compressor) (dec : decompressor) : Prop :=
  forall In n cap out C pin inSize M pout outSize,
    byte_mem In -> 1 <= n <= max_in -> comp In n cap = COk out ->
    holds C pin out -> inSize < len out ->
    dec C pin inSize M pout outSize = DRet 0 M.

(** Whatever lies behind the input: compression succeeds and the stream restores the input. *)
Definition TailHarmless (comp : compressor) (bound : Z -> Z) (decs : decompressor -> Prop) (slack : Z) : Prop :=
  forall In1 In2 n cap1 cap2,
    byte_mem In1 -> byte_mem In2 -> 1 <= n <= max_in ->
    (forall k, 0 <= k < n -> In1 k = In2 k) -> bound n <= cap1 -> bound n <= cap2 ->
    exists o1 o2, comp In1 n cap1 = COk o1 /\ comp In2 n cap2 = COk o2 /\
      forall dec, decs dec -> Restores dec slack o1 In1 n /\ Restores dec slack o2 In1 n.

(** Any two decoders return the same size and the same bytes for the output of [comp]. *)
Definition DecodersAgree (comp : compressor) (decs : decompressor -> Prop) : Prop :=
  forall In n cap out dec1 dec2 C1 pin1 inSize1 M1 pout1 cap1 C2 pin2 inSize2 M2 pout2 cap2,
    byte_mem In -> 1 <= n <= max_in -> comp In n cap = COk out -> decs dec1 -> decs dec2 ->
    holds C1 pin1 out -> 0 < pin1 -> pin1 + len out + 1024 < 2 ^ 64 -> len out <= inSize1 ->
    0 < pout1 -> pout1 + n + 1024 < 2 ^ 64 -> n <= cap1 ->
    holds C2 pin2 out -> 0 < pin2 -> pin2 + len out + 1024 < 2 ^ 64 -> len out <= inSize2 ->
    0 < pout2 -> pout2 + n + 1024 < 2 ^ 64 -> n <= cap2 ->
    exists r N1 N2, dec1 C1 pin1 inSize1 M1 pout1 cap1 = DRet r N1 /\
      dec2 C2 pin2 inSize2 M2 pout2 cap2 = DRet r N2 /\ slice N1 pout1 r = slice N2 pout2 r.

(** Decoding the output of [comp] writes nothing outside of [n + slack] bytes. *)
Definition StaysInside (comp : compressor) (dec : decompressor) (slack : Z) : Prop :=
  forall In n cap out C pin inSize M pout outSize,
    byte_mem In -> 1 <= n <= max_in -> comp In n cap = COk out -> holds C pin out ->
    0 < pin -> pin + len out + 1024 < 2 ^ 64 -> len out <= inSize ->
    0 < pout -> pout + n + 1024 < 2 ^ 64 -> n <= outSize ->
    exists r M', dec C pin inSize M pout outSize = DRet r M' /\
      forall x, x < pout \/ pout + n + slack <= x -> M' x = M x.
