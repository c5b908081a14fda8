(** Streams of packets in general: a packet is a header, literals and a run that follows them in
    the data.  [A]: what a reader has to remember between packets. *)
From Verif Require Import Base Spec.

Section Packets.
  Context {A : Type}.

  (** [P a h lits run a']: in state [a] the header [h] announces [lits] and then the bytes [run]. *)
  Variable P : A -> list Z -> list Z -> list Z -> A -> Prop.
  (** [E a e lits]: in state [a] the bytes [e] end the stream, with the last literals [lits]. *)
  Variable E : A -> list Z -> list Z -> Prop.

  (** Packets and the data they stand for. *)
  Inductive Serial : A -> list Z -> list Z -> A -> Prop :=
  | Serial_nil a : Serial a [] [] a
  | Serial_cons a h lits run a1 bytes data a2 :
      P a h lits run a1 -> Serial a1 bytes data a2 ->
      Serial a (h ++ lits ++ bytes) (lits ++ run ++ data) a2.

  (** [body], read in state [a], stands for [data]. *)
  Definition Body (a : A) (body data : list Z) : Prop :=
    exists bytes d1 a1 e d2, Serial a bytes d1 a1 /\ E a1 e d2 /\ body = bytes ++ e /\ data = d1 ++ d2.
End Packets.

(** The first [n] bytes of the endless repetition of [sym]. *)
Definition repetition (sym : list Z) (n : Z) : list Z :=
  slice (fun k => nth (Z.to_nat (k mod len sym)) sym 0) 0 n.

(** [dec] returns the announced size, writes [data] and leaves everything outside of the data and
    [slack] more bytes alone. *)
Definition RestoresData (dec : decompressor) (slack : Z) (n : Z) (out data : list Z) : Prop :=
  forall C pin inSize M pout cap,
    holds C pin out ->
    0 < pin -> pin + len out + 1024 < 2 ^ 64 -> len out <= inSize ->
    0 < pout -> pout + len data + 1024 < 2 ^ 64 -> n <= cap ->
    exists M',
      dec C pin inSize M pout cap = DRet n M' /\
      slice M' pout (len data) = data /\
      (forall x, x < pout \/ pout + len data + slack <= x -> M' x = M x).
