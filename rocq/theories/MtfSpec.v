(** What the move-to-front transformations are supposed to compute.  Of the model only the type of
    results is used. *)
From Verif Require Import Base MtfModel.

(** Textbook move to front: a list of all byte values, the rank of a value in it, and the list
    with the value moved to the front. *)
Definition bytes256 : list Z := map Z.of_nat (seq 0 256).
Fixpoint rank (x : Z) (l : list Z) : Z :=
  match l with
  | [] => 0
  | y :: l' => if y =? x then 0 else 1 + rank x l'
  end.
Definition to_front (x : Z) (l : list Z) : list Z := x :: filter (fun y => negb (y =? x)) l.
(** The list after the values [hist]. *)
Definition mtf_table (hist : list Z) : list Z := fold_left (fun t x => to_front x t) hist bytes256.

(** Bytes [W] apart form a lane.  The earlier bytes of the lane of byte [i]: *)
Definition lane_hist (W : Z) (X : mem) (i : Z) : list Z :=
  map (fun m => X (i mod W + W * Z.of_nat m)) (seq 0 (Z.to_nat (i / W))).

(** [Y] is the move-to-front coding of the [n] bytes [X], each lane on its own. *)
Definition LaneMtf (W : Z) (X : mem) (n : Z) (Y : mem) : Prop :=
  forall i, 0 <= i < n -> Y i = rank (X i) (mtf_table (lane_hist W X i)).

(** [Y] is [X] with each byte combined (xor) with the one [D] before it, 0 at the start. *)
Definition XorDiff (D : Z) (X : mem) (n : Z) (Y : mem) : Prop :=
  forall i, 0 <= i < n -> Y i = Z.lxor (X i) (if i <? D then 0 else X (i - D)).

(** Source and destination may overlap if the destination does not start behind the source. *)
Definition forward_ok (pin n pout : Z) : Prop := pout <= pin \/ pin + n <= pout.

(** A transformation of the memory: memory, pIn, inSize, pOut, outSize. *)
Definition xform := mem -> Z -> Z -> Z -> Z -> xres.
(** The bytes at [p]. *)
Definition at_ (M : mem) (p : Z) : mem := fun i => M (p + i).

(** Acceptable arguments. *)
Definition XArgs (M : mem) (pin n pout outSize : Z) : Prop :=
  0 < pin /\ 0 < pout /\ 0 <= n <= outSize /\ pin + n < 2 ^ 64 /\ pout + n < 2 ^ 64 /\ forward_ok pin n pout /\
  forall i, 0 <= i < n -> is_byte (M (pin + i)).

(** [f] writes n bytes related to the n input bytes by [P], and nothing else. *)
Definition Computes (f : xform) (P : mem -> Z -> mem -> Prop) : Prop :=
  forall M pin n pout outSize, XArgs M pin n pout outSize ->
    exists M', f M pin n pout outSize = XRet n M' /\ P (at_ M pin) n (at_ M' pout) /\
      (forall i, 0 <= i < n -> is_byte (M' (pout + i))) /\
      (forall x, x < pout \/ pout + n <= x -> M' x = M x).

(** [g] applied to what [f] has written restores the input of [f], wherever the data is. *)
Definition UndoneBy (f g : xform) : Prop :=
  forall M pin n pmid sizeMid M1, XArgs M pin n pmid sizeMid -> f M pin n pmid sizeMid = XRet n M1 ->
  forall N pin' pout outSize, (forall i, 0 <= i < n -> N (pin' + i) = M1 (pmid + i)) -> XArgs N pin' n pout outSize ->
    exists M2, g N pin' n pout outSize = XRet n M2 /\ (forall i, 0 <= i < n -> M2 (pout + i) = M (pin + i)) /\
      (forall x, x < pout \/ pout + n <= x -> M2 x = N x).

(** [f] and then [g] in place changes nothing. *)
Definition InPlace (f g : xform) : Prop :=
  forall M p n size, XArgs M p n p size ->
    exists M1 M2, f M p n p size = XRet n M1 /\ g M1 p n p size = XRet n M2 /\ forall x, M2 x = M x.

(** Too small a buffer is refused and nothing is written. *)
Definition SmallRefused (f : xform) : Prop :=
  forall M pin n pout outSize, outSize < n -> f M pin n pout outSize = XRet 0 M.
Definition NullRefused (f : xform) : Prop :=
  forall M pin n pout outSize, pin = 0 \/ pout = 0 -> f M pin n pout outSize = XRet 0 M.

(** The result does not depend on which of the two is used. *)
Definition Same (f g : xform) : Prop :=
  forall M pin n pout outSize, XArgs M pin n pout outSize ->
    exists M1 M2, f M pin n pout outSize = XRet n M1 /\ g M pin n pout outSize = XRet n M2 /\ forall x, M1 x = M2 x.

(** 16 bit: an odd last byte is copied. *)
Definition XorDiff16 (X : mem) (n : Z) (Y : mem) : Prop :=
  XorDiff 2 X (n - n mod 2) Y /\ (n mod 2 = 1 -> Y (n - 1) = X (n - 1)).
