(** The wire formats of the 8 bit codecs rle8_multi, rle8_packed_multi, rle8_single and
    rle8_packed_single as grammars, without reference to any model. *)
From Verif Require Import Base Spec PktSpec.

(** ** Several symbols *)

(** Length of the run whose count is [v]. *)
Definition m8Run (packed : bool) (v : Z) : Z := v + (if packed then 2 else 5).

(** Symbol and count [v] after a run of [last].  Plain: symbol, then the count in one byte, or 0 and
    four bytes.  Packed: seven bits of count, then the symbol; the highest bit says that the symbol
    is [last] and left out. *)
Inductive M8Count (packed : bool) (last sym v : Z) : list Z -> Prop :=
| M8C_short : packed = false -> is_byte sym -> 1 <= v <= 255 -> M8Count packed last sym v [sym; v]
| M8C_long : packed = false -> is_byte sym -> 0 <= v < 2 ^ 32 -> M8Count packed last sym v (sym :: 0 :: le32 v)
| M8C_pshort : packed = true -> is_byte sym -> 1 <= v <= 127 -> M8Count packed last sym v [v; sym]
| M8C_plong : packed = true -> is_byte sym -> 0 <= v < 2 ^ 32 -> M8Count packed last sym v (0 :: le32 v ++ [sym])
| M8C_sshort : packed = true -> sym = last -> 1 <= v <= 127 -> M8Count packed last sym v [128 + v]
| M8C_slong : packed = true -> sym = last -> 0 <= v < 2 ^ 32 -> M8Count packed last sym v (128 :: le32 v).

(** Number of literals plus one, [r].  Plain: one byte, or 0 and four bytes.  Packed: the lowest
    bit tells one byte from four. *)
Inductive M8Lits (packed : bool) (r : Z) : list Z -> Prop :=
| M8L_short : packed = false -> 1 <= r <= 255 -> M8Lits packed r [r]
| M8L_long : packed = false -> 0 <= r < 2 ^ 32 -> M8Lits packed r (0 :: le32 r)
| M8L_pshort : packed = true -> 0 <= r <= 127 -> M8Lits packed r [2 * r]
| M8L_plong : packed = true -> 0 <= r < 2 ^ 31 -> M8Lits packed r (le32 (2 * r + 1)).

Inductive M8Packet (packed : bool) (last : Z) : list Z -> list Z -> list Z -> Z -> Prop :=
| M8Packet_intro sym v cf lits lf :
    M8Count packed last sym v cf -> v <> 0 -> M8Lits packed (len lits + 1) lf ->
    M8Packet packed last (cf ++ lf) lits (repetition [sym] (m8Run packed v)) sym.

(** The count 0 ends the stream after the literals; the long form of a number of literals stored
    as 0 ends it at once. *)
Inductive M8End (packed : bool) (last : Z) : list Z -> list Z -> Prop :=
| M8End_none sym v cf :
    M8Count packed last sym v cf ->
    M8End packed last (cf ++ (if packed then le32 1 else 0 :: le32 0)) []
| M8End_lits sym cf lits lf :
    M8Count packed last sym 0 cf -> M8Lits packed (len lits + 1) lf ->
    M8End packed last ((cf ++ lf) ++ lits) lits.

(** Sizes, 0 for "several symbols", packets; the symbol before the first run is 0. *)
Definition M8Stream (packed : bool) (n : Z) (out data : list Z) : Prop :=
  exists body,
    out = le32 n ++ le32 (9 + len body) ++ [0] ++ body /\ 1 <= n < 2 ^ 32 /\ n <= len data /\ 9 + len body < 2 ^ 32 /\
    Body (M8Packet packed) (M8End packed) 0 body data.

(** ** One symbol *)

Definition s8Run (packed : bool) (v : Z) : Z := v + (if packed then 1 else 3).

(** One byte, or 0 and four bytes. *)
Inductive S8Number (v : Z) : list Z -> Prop :=
| S8N_short : 1 <= v <= 255 -> S8Number v [v]
| S8N_long : 0 <= v < 2 ^ 32 -> S8Number v (0 :: le32 v).

Inductive S8Packet (packed : bool) (sym : Z) : unit -> list Z -> list Z -> list Z -> unit -> Prop :=
| S8Packet_intro v cf lits lf :
    S8Number v cf -> v <> 0 -> S8Number (len lits + 1) lf ->
    S8Packet packed sym tt (cf ++ lf) lits (repetition [sym] (s8Run packed v)) tt.

Inductive S8End : unit -> list Z -> list Z -> Prop :=
| S8End_none v cf : S8Number v cf -> S8End tt (cf ++ 0 :: le32 0) []
| S8End_lits cf lits lf : S8Number 0 cf -> S8Number (len lits + 1) lf -> S8End tt ((cf ++ lf) ++ lits) lits.

(** Sizes, 1 for "one symbol", the symbol, packets. *)
Definition S8Stream (packed : bool) (n : Z) (out data : list Z) : Prop :=
  exists sym body,
    out = le32 n ++ le32 (10 + len body) ++ [1; sym] ++ body /\ 1 <= n < 2 ^ 32 /\ n <= len data /\ 10 + len body < 2 ^ 32 /\ is_byte sym /\
    Body (S8Packet packed sym) S8End tt body data.
