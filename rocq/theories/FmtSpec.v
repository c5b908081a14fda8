(** The wire format of the multi-byte codecs rleN_sym, rleN_byte, rleN_sym_packed and
    rleN_byte_packed (N = 16, 24, 32, 48, 64, 128) as a grammar.  It says which byte strings are
    compressed streams and what they stand for, without reference to any model: a third party
    could write an encoder or a decoder from it. *)
From Verif Require Import Base Spec PktSpec.

(** Symbol size in bytes; runs of any number of bytes ("byte") or of whole symbols only ("sym"). *)
Record wire := mkW { wS : Z; wByte : bool; wPacked : bool }.

(** Shortest run. *)
Definition wMin (f : wire) : Z := if wPacked f then 3 else wS f + 4.

(** Length in bytes of the run whose length field has the value [v >= 1]. *)
Definition wRun (f : wire) (v : Z) : Z :=
  if wByte f then v + wMin f - 1 else (v + wMin f / wS f - 1) * wS f.

(** Symbol and run length [v], after a run of the symbol [last]. *)
Inductive CountField (f : wire) (last sym : list Z) (v : Z) : list Z -> Prop :=
| CF_plain_short : wPacked f = false -> 1 <= v <= 255 -> CountField f last sym v (sym ++ [v])
| CF_plain_long : wPacked f = false -> 1 <= v < 2 ^ 32 -> CountField f last sym v (sym ++ 0 :: le32 v)
| CF_short : wPacked f = true -> 1 <= v <= 127 -> CountField f last sym v (v :: sym)
| CF_long : wPacked f = true -> 1 <= v < 2 ^ 32 -> CountField f last sym v (0 :: le32 v ++ sym)
| CF_same_short : wPacked f = true -> sym = last -> 1 <= v <= 127 -> CountField f last sym v [128 + v]
| CF_same_long : wPacked f = true -> sym = last -> 1 <= v < 2 ^ 32 -> CountField f last sym v (128 :: le32 v).

(** Number [k] of literals. *)
Inductive LitField (f : wire) (k : Z) : list Z -> Prop :=
| LF_short : wByte f && wPacked f = false -> 0 <= k <= 254 -> LitField f k [k + 1]
| LF_long : wByte f && wPacked f = false -> 0 <= k < 2 ^ 32 - 1 -> LitField f k (0 :: le32 (k + 1))
| LF_short7 : wByte f && wPacked f = true -> 0 <= k <= 126 -> LitField f k [2 * (k + 1)]
| LF_long7 : wByte f && wPacked f = true -> 0 <= k < 2 ^ 31 - 1 -> LitField f k (le32 (2 * (k + 1) + 1)).

(** Packets: symbol, run length and literals that precede the run. *)
Inductive Packets (f : wire) : list Z -> list Z -> list Z -> Prop :=
| Pk_nil last : Packets f last [] []
| Pk_cons last sym v cf lf lits bytes data :
    len sym = wS f -> CountField f last sym v cf -> LitField f (len lits) lf ->
    Packets f sym bytes data ->
    Packets f last (cf ++ lf ++ lits ++ bytes) (lits ++ repetition sym (wRun f v) ++ data).

(** Run length 0. *)
Inductive ZeroCount (f : wire) : list Z -> Prop :=
| ZC_plain sym : wPacked f = false -> len sym = wS f -> ZeroCount f (sym ++ 0 :: le32 0)
| ZC_same : wPacked f = true -> ZeroCount f (128 :: le32 0)
| ZC_sym sym : wPacked f = true -> len sym = wS f -> ZeroCount f (0 :: le32 0 ++ sym).

(** End of the stream: run length 0, then the last literals or the literal length -1.  The
    packed byte codec of 128 bits writes the latter in the form of the other codecs. *)
Inductive EndMark (f : wire) : list Z -> list Z -> Prop :=
| End_lits zc lf lits : ZeroCount f zc -> LitField f (len lits) lf -> EndMark f (zc ++ lf ++ lits) lits
| End_none zc : ZeroCount f zc -> wByte f && wPacked f = false -> EndMark f (zc ++ 0 :: le32 0) []
| End_none7 zc : ZeroCount f zc -> wByte f && wPacked f = true -> EndMark f (zc ++ le32 1) []
| End_none128 zc : ZeroCount f zc -> wByte f && wPacked f = true -> wS f = 16 -> EndMark f (zc ++ 0 :: le32 0) [].

(** [WireStream f n out data]: [out] is a stream that announces [n] bytes and stands for [data]. *)
Definition WireStream (f : wire) (n : Z) (out data : list Z) : Prop :=
  exists ps e d1 d2,
    Packets f (repeat 0 (Z.to_nat (wS f))) ps d1 /\ EndMark f e d2 /\ data = d1 ++ d2 /\
    1 <= n < 2 ^ 32 /\ n <= len data /\ 8 + len (ps ++ e) < 2 ^ 32 /\
    out = le32 n ++ le32 (8 + len (ps ++ e)) ++ ps ++ e.

(** A stream of one run of [n] bytes of the byte codecs. *)
Definition run_stream (S : Z) (packed : bool) (sym : list Z) (n : Z) : list Z :=
  let body :=
    if packed then 0 :: le32 (n - 2) ++ sym ++ [2] ++ 128 :: le32 0 ++ le32 1
    else sym ++ 0 :: le32 (n - S - 3) ++ [1] ++ repeat 0 (Z.to_nat S) ++ 0 :: le32 0 ++ 0 :: le32 0 in
  le32 n ++ le32 (8 + len body) ++ body.
