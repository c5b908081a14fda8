(** How many bytes do the transformed blocks need?  [E] is the coding of the data by move to front, 16 bytes are a block. *)
From Verif Require Import Base.

(** All bytes of block [b] are [v]. *)
Definition Same (E : mem) (b v : Z) : Prop := forall i, 16 * b <= i < 16 * (b + 1) -> E i = v.
(** The bytes of [c] blocks from block [a] on have at most [w] bits. *)
Definition Covers (E : mem) (a c w : Z) : Prop := forall i, 16 * a <= i < 16 * (a + c) -> E i < 2 ^ w.
(** The smallest of the offered numbers of bits. *)
Definition Least (ok : Z -> Prop) (w : Z) : Prop := List.In w [2; 3; 4; 8] /\ ok w /\ forall v, List.In v [2; 3; 4; 8] -> ok v -> w <= v.

(** The blocks [a] to [nb - 1] cut into pieces: [c] blocks not all of whose bytes are equal, with the smallest number [w] of bits,
    then [r] blocks of one and the same byte, as many as there are; at the end [c'] blocks of the first kind.
    [U]: what is demanded of the first [w] beyond that. *)
Fixpoint Cut (E : mem) (U : Z -> Prop) (nb a : Z) (l : list (Z * Z * Z)) (w' c' : Z) : Prop :=
  match l with
  | [] => 0 <= c' /\ a + c' = nb /\ (forall b v, a <= b < a + c' -> ~ Same E b v) /\ Least (fun w => Covers E a c' w /\ U w) w'
  | (w, c, r) :: t => 0 <= c /\ 1 <= r /\ a + c + r <= nb /\ (forall b v, a <= b < a + c -> ~ Same E b v) /\ Least (fun w => Covers E a c w /\ U w) w /\
      (exists v, (forall b, a + c <= b < a + c + r -> Same E b v) /\ (a + c + r < nb -> ~ Same E (a + c + r) v)) /\
      Cut E (fun _ => True) nb (a + c + r) t w' c'
  end.
(** Their bytes: a number of up to 31 or 127 takes one byte, else four; a run has its byte. *)
Definition copySize (w c : Z) : Z := (if c <? 32 then 1 else 4) + 2 * w * c.
Fixpoint cutSize (l : list (Z * Z * Z)) (w' c' : Z) : Z :=
  match l with
  | [] => copySize w' c'
  | (w, c, r) :: t => copySize w c + (if r <? 128 then 1 else 4) + 1 + cutSize t w' c'
  end.
