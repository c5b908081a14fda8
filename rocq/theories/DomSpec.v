(** Inputs most of which is one run of one byte value. *)
From Verif Require Import Base Spec LeSpec.

Definition LongRun (In : mem) (n v a k : Z) : Prop := 0 <= a /\ a + k <= n /\ forall x, a <= x < a + k -> In x = v.
(** The run has at least 36 bytes and four times as many as there are others. *)
Definition MostlyRun (In : mem) (n v a k : Z) : Prop := LongRun In n v a k /\ 36 + 4 * (n - k) <= k.

(** An encoder with one symbol, written at [pos] of the stream: if the input is mostly one run (and [Q] holds of its symbol)
    then this symbol is coded, and all but 17 bytes of the run are saved. *)
Definition TakesRun (Q : mem -> Z -> Prop) (pos : Z) (comp : mem -> Z -> Z -> cres) (size : Z -> Z) : Prop :=
  forall In n cap out v a k, byte_mem In -> 1 <= n <= max_in -> comp In n cap = COk out -> MostlyRun In n v a k -> Q In v ->
    nth (Z.to_nat pos) out 0 = v /\ len out + (k - 17) <= size n.

(** Low entropy streams: is the byte value [b] run length coded?  One bit for each value behind the sizes. *)
Definition Coded (out : list Z) (b : Z) : Prop := Z.testbit (nth (Z.to_nat (8 + b / 8)) out 0) (b mod 8) = true.
(** The bytes that two bytes for each piece save; [Pays]: a piece has three bytes on average; [Best]: the first of the values that save most. *)
Definition saved (L : Z) (In : mem) (n b : Z) : Z := occ In n b - 2 * pieces L In n b.
Definition PaysOff (L : Z) (In : mem) (n b : Z) : Prop := 0 < occ In n b /\ 3 * pieces L In n b <= occ In n b.
Definition Best (L : Z) (In : mem) (n b : Z) : Prop := PaysOff L In n b /\
  forall u, is_byte u -> PaysOff L In n u -> saved L In n u <= saved L In n b /\ (u < b -> saved L In n u < saved L In n b).
(** The table behind the bits: its size (0 for 256 values, of which 255 are written) and its entries. *)
Definition tableSize (out : list Z) : Z := if nth 40 out 0 =? 0 then 255 else nth 40 out 0.
Definition tableEntry (out : list Z) (i : Z) : Z := nth (Z.to_nat (41 + i)) out 0.
