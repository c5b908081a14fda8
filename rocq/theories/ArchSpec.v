(** Several streams stored one behind the other and restored one behind the other: what a program does that
    keeps many compressed pieces in one buffer and finds them by their headers. *)
From Verif Require Import Base Spec Spec2.

(** A piece: how it is compressed and decompressed, where in the header the compressed size is (0 or 4; the
    other field is the size of the input), the input and the size of the buffer given to the compressor. *)
Record piece := mkPiece
  { a_comp : compressor; a_dec : decompressor; a_field : Z; a_In : mem; a_n : Z; a_cap : Z }.

(** The compressed bytes of all pieces in a row. *)
Inductive packed : list piece -> list Z -> Prop :=
| packed_nil : packed [] []
| packed_cons x xs out rest : a_comp x (a_In x) (a_n x) (a_cap x) = COk out -> packed xs rest -> packed (x :: xs) (out ++ rest).

(** A call of a decompressor: address and size of the stream, address of the output. *)
Record job := mkJob { j_dec : decompressor; j_in : Z; j_size : Z; j_out : Z }.
(** The calls for the streams from [p] on, with outputs from [q] on; only the headers are looked at. *)
Fixpoint jobs (ds : list (decompressor * Z)) (C : mem) (p q : Z) : list job :=
  match ds with
  | [] => []
  | (d, f) :: ds' => mkJob d p (rd32 C (p + f)) q :: jobs ds' C (p + rd32 C (p + f)) (q + rd32 C (p + (4 - f)))
  end.
Definition decoders (xs : list piece) : list (decompressor * Z) := map (fun x => (a_dec x, a_field x)) xs.

(** Do them one after the other; give up if a call returns 0.  [outEnd]: end of the output buffer. *)
Fixpoint do_jobs (js : list job) (C : mem) (outEnd : Z) (M : mem) : option mem :=
  match js with
  | [] => Some M
  | j :: js' =>
      match j_dec j C (j_in j) (j_size j) M (j_out j) (outEnd - j_out j) with
      | DRet r M' => if r =? 0 then None else do_jobs js' C outEnd M'
      | DDiverge => None
      end
  end.

Definition total (xs : list piece) : Z := fold_right (fun x k => a_n x + k) 0 xs.
Definition contents (xs : list piece) : list Z := concat (map (fun x => slice (a_In x) 0 (a_n x)) xs).

(** The buffers: the streams lie at [pin], the output goes to [pout]. *)
Definition placed (C : mem) (bytes : list Z) (pin : Z) (pout size outEnd : Z) : Prop :=
  holds C pin bytes /\ 0 < pin /\ pin + len bytes + 1024 < 2 ^ 64 /\ 0 < pout /\ pout + size + 1024 < 2 ^ 64 /\ pout + size <= outEnd.

(** All pieces are restored by the calls in this order, and nothing outside of the output is changed
    but [slack] bytes behind it. *)
Definition Unpacks (xs : list piece) (C : mem) (js : list job) (pout outEnd slack : Z) : Prop :=
  forall M, exists M', do_jobs js C outEnd M = Some M' /\ slice M' pout (total xs) = contents xs /\
    forall x, x < pout \/ pout + total xs + slack <= x -> M' x = M x.
