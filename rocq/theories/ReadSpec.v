(** How much of the memory behind a stream a decompressor depends on. *)
From Verif Require Import Base Spec Spec2.

(** Where the stream [out] lies in memory, the call returns [n] and its effect on the memory, bytes behind
    the data included, is determined by the stream and the [k] bytes behind it.  [m] is the number of bytes
    the stream stands for. *)
Definition StreamUpTo (k : Z) (dec : decompressor) (n m : Z) (out : list Z) : Prop :=
  forall C1 C2 pin inSize M pout cap,
    holds C1 pin out -> (forall x, pin <= x < pin + len out + k -> C1 x = C2 x) ->
    0 < pin -> pin + len out + 1024 < 2 ^ 64 -> len out <= inSize ->
    0 < pout -> pout + m + 1024 < 2 ^ 64 -> n <= cap ->
    exists M1 M2,
      dec C1 pin inSize M pout cap = DRet n M1 /\ dec C2 pin inSize M pout cap = DRet n M2 /\ (forall x, M1 x = M2 x).

(** [Str n out data]: [out] is a stream of the format that announces [n] bytes and stands for [data]. *)
Definition FormatUpTo (k : Z) (Str : Z -> list Z -> list Z -> Prop) (dec : decompressor) : Prop :=
  forall n out data, Str n out data -> StreamUpTo k dec n (len data) out.

(** The streams that [comp] writes. *)
Definition OwnUpTo (k : Z) (comp : compressor) (dec : decompressor) : Prop :=
  forall In n cap out, byte_mem In -> 1 <= n <= 2 ^ 30 -> comp In n cap = COk out -> StreamUpTo k dec n (n + 16) out.

(** Both calls end with the same result and the same memory, or neither ends. *)
Definition SameEffect (r1 r2 : dres) : Prop :=
  match r1, r2 with
  | DRet a M1, DRet b M2 => a = b /\ forall x, M1 x = M2 x
  | DDiverge, DDiverge => True
  | _, _ => False
  end.

(** Whatever the bytes, the call depends on the first [k inSize outSize] of them only. *)
Definition AnyStreamUpTo (k : Z -> Z -> Z) (dec : decompressor) : Prop :=
  forall C1 C2 pin inSize M pout outSize, byte_mem C1 ->
    (forall x, pin <= x < pin + k inSize outSize -> C1 x = C2 x) ->
    SameEffect (dec C1 pin inSize M pout outSize) (dec C2 pin inSize M pout outSize).

(** The decompressor restores [n] bytes and its effect depends on the stream alone.  With [exact] the caller
    passes the exact length of the stream. *)
Definition StreamAlone (exact : bool) (dec : decompressor) (n : Z) (out : list Z) : Prop :=
  forall C1 C2 pin inSize M pout cap,
    holds C1 pin out -> holds C2 pin out ->
    0 < pin -> pin + len out + 1024 < 2 ^ 64 -> InSize exact inSize (len out) ->
    0 < pout -> pout + n + 1024 < 2 ^ 64 -> n <= cap ->
    exists M1 M2,
      dec C1 pin inSize M pout cap = DRet n M1 /\ dec C2 pin inSize M pout cap = DRet n M2 /\ (forall x, M1 x = M2 x).
