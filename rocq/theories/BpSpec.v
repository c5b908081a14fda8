(** What packing and unpacking [w] bits of every byte means. *)
From Verif Require Import Base Spec BpModel.

(** A function packing or unpacking: memory, input pointer, output pointer, size argument. *)
Definition bitfun := mem -> Z -> Z -> Z -> bres (Z * mem).

Definition Apart (p n q m : Z) : Prop := p + n <= q \/ q + m <= p.
Definition Aligned (b : bool) (p : Z) : Prop := b = true -> p mod 16 = 0.

(** [enc] packs [n] bytes below [lim] into [size n] bytes, writes nothing else and returns the end of
    what it wrote.  Wherever those bytes are moved, [dec], given [arg n], yields [n] bytes, writes
    nothing else and returns the end of what it read.  Byte [k] it yields is the lowest [w] bits of
    byte [from n k] of the input.  This for all [n] in [dom]; the flags are whether the pointers have
    to be aligned to 16 bytes. *)
Definition YieldsBits (from : Z -> Z -> Z) (w lim : Z) (dom : Z -> Prop) (size arg : Z -> Z) (ei eo di do : bool) (enc dec : bitfun) : Prop :=
  forall M pin pout n,
    0 <= n < 2 ^ 62 -> dom n -> Aligned ei pin -> Aligned eo pout -> Apart pin n pout (size n) ->
    (forall k, 0 <= k < n -> 0 <= M (pin + k) < lim) ->
    exists M1,
      enc M pin pout n = Ret (pout + size n, M1) /\
      (forall a, a < pout \/ pout + size n <= a -> M1 a = M a) /\
      forall M2 p2 q2,
        slice M2 p2 (size n) = slice M1 pout (size n) -> Aligned di p2 -> Aligned do q2 -> Apart p2 (size n) q2 n ->
        exists M3,
          dec M2 p2 q2 (arg n) = Ret (p2 + size n, M3) /\
          (forall k, 0 <= k < n -> M3 (q2 + k) = M (pin + from n k) mod 2 ^ w) /\
          (forall a, a < q2 \/ q2 + n <= a -> M3 a = M2 a).

(** Every byte comes back as its lowest [w] bits. *)
Definition KeepsBits : Z -> Z -> (Z -> Prop) -> (Z -> Z) -> (Z -> Z) -> bool -> bool -> bool -> bool -> bitfun -> bitfun -> Prop := YieldsBits (fun _ k => k).

(** Sizes that are whole numbers of vectors. *)
Definition vectors (g : Z) (n : Z) : Prop := n mod (16 * g) = 0.
