(** What the compress functions do to memory, as opposed to which bytes they emit. *)
From Verif Require Import Base Spec.

(** [f inNull In n M p outSize] is the call on the input buffer [In] of [n] bytes, output memory
    [M] and output buffer at [p].  It returns the size of what [comp] emits and leaves exactly that
    at [p], refuses when [comp] refuses, and changes no byte outside of the returned size plus [extra]
    bytes behind. *)
Definition Writes (f : bool -> mem -> Z -> mem -> Z -> Z -> dres) (comp : nullable_compressor) (extra : Z) : Prop :=
  forall inNull In n M p outSize, 0 <= n ->
  match comp inNull (p =? 0) In n outSize with
  | CRefused => f inNull In n M p outSize = DRet 0 M
  | COk out => exists M', f inNull In n M p outSize = DRet (w32 (len out)) M' /\
      slice M' p (len out) = out /\
      forall x, x < p \/ p + len out + extra <= x -> M' x = M x
  | CDiverge => f inNull In n M p outSize = DDiverge
  end.

(** Whatever the call does, it changes only the bytes it returns. *)
Definition WritesOnlyResult (f : bool -> mem -> Z -> mem -> Z -> Z -> dres) (extra : Z) : Prop :=
  forall inNull In n M p outSize r M', byte_mem In -> 0 <= n <= max_in ->
  f inNull In n M p outSize = DRet r M' ->
  forall x, x < p \/ p + r + (if r =? 0 then 0 else extra) <= x -> M' x = M x.

(** It never touches a byte outside of the buffer the caller supplied. *)
Definition WritesInside (f : bool -> mem -> Z -> mem -> Z -> Z -> dres) : Prop :=
  forall inNull In n M p outSize r M', byte_mem In -> 0 <= n <= max_in -> 0 < p ->
  f inNull In n M p outSize = DRet r M' ->
  forall x, x < p \/ p + outSize <= x -> M' x = M x.
