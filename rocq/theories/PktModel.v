(** Code shapes shared by several codec families.

    Every RLE decoder of the library is a loop over packets: parse a header, copy the
    literals, return if the run length is zero, else fill the run.  The 8 bit encoders
    of rle8_extreme_cpu.h, rleX_Xsl.h and rleX_Xsl_short.h share one search loop.  The
    definitions here are those shapes with the codec specific part as a parameter;
    the codec models instantiate them. *)
From Verif Require Import Base Simd Spec ExtModel.

(** Result of parsing one packet header: the [return] on an end marker without
    literals, or new read pointer, decoder registers, literal count, run length field. *)
Inductive pres (T : Type) := PStop | PGo (p : Z) (st : T) (off cnt : Z).
Arguments PStop {T}.
Arguments PGo {T}.

(** One iteration of a decode loop: rle8_extreme_cpu.h l.1551-1629 and every other
    decompress_* function there; rleX_Xsl.h and rleX_Xsl_short.h decompress_*.
    [W] is the width of the MEMCPY macro. *)
Definition pkt_step {T : Type} (parse : mem -> Z -> T -> pres T)
    (fill : T -> mem -> Z -> Z -> option (Z * mem)) (W : Z) (C : mem)
    (s : Z * Z * T * mem) : (Z * Z * T * mem) + option mem :=
  let '(p, q, st, M) := s in
  match parse C p st with
  | PStop => inr (Some M)
  | PGo p1 st1 off cnt =>
      match memcpyW W C p1 M q off with
      | None => inr None
      | Some (p2, q2, M2) =>
          if cnt =? 0 then inr (Some M2)
          else
            match fill st1 M2 q2 cnt with
            | None => inr None
            | Some (q3, M3) => inl (p2, q3, st1, M3)
            end
      end
  end.

(** *** 8 bit search loop *)

(** [A]: what the codec remembers between packets (last symbols). *)
Record est8 (A : Type) := mk8
  { i8 : Z; count8 : Z; sym8 : Z; last8 : Z; aux8 : A; out8 : list Z }.
Arguments mk8 {A}. Arguments i8 {A}. Arguments count8 {A}. Arguments sym8 {A}.
Arguments last8 {A}. Arguments aux8 {A}. Arguments out8 {A}.

(** A codec's packet decision for the run of [count] bytes [sym] ending at [i] with literals
    from [last] on: [None] = not worth a packet. *)
Definition proc8 (A : Type) := mem -> Z -> Z -> Z -> Z -> A -> option (list Z * A).

Definition emit8 {A} (proc : proc8 A) (In : mem) (s : est8 A) : est8 A :=
  match proc In (i8 s) (count8 s) (sym8 s) (last8 s) (aux8 s) with
  | Some (bytes, a) => mk8 (i8 s) (count8 s) (sym8 s) (i8 s) a (out8 s ++ bytes)
  | None => s
  end.

(** Is any lane set? ([mask != 0]) *)
Definition any (f : Z -> bool) (W : Z) : bool := existsb (fun k => f (Z.of_nat k)) (seq 0 (Z.to_nat W)).

(** Search for two equal adjacent bytes: rle8_extreme_cpu.h l.894-916 (W = 16), l.1062-1084
    (W = 32); rleX_Xsl.h l.384-406, l.453-475; rleX_Xsl_short.h l.561-583, l.630-652. *)
Definition scan8_step (W : Z) (In : mem) (n i : Z) : Z + Z :=
  if i <? n - W then
    let b := lead (fun j => negb (In (i + j) =? In (i + j + 1))) (W - 1) in
    if b =? W - 1 then inl (i + (W - 1)) else inr (i + b)
  else inr i.

(** The SIMD loop: rle8_extreme_cpu.h l.782-923 (W = 16), l.950-1091 (W = 32); rleX_Xsl.h
    l.358-413, l.427-482; rleX_Xsl_short.h l.535-590, l.604-659. *)
Definition simd8_step {A} (proc : proc8 A) (W : Z) (In : mem) (n : Z) (s : est8 A) : est8 A + option (est8 A) :=
  if i8 s <? n - W then
    let f := fun j => In (i8 s + j) =? sym8 s in
    let b := lead f W in
    if b =? W then inl (mk8 (i8 s + W) (count8 s + W) (sym8 s) (last8 s) (aux8 s) (out8 s))
    else
      let s1 := if any f W || (1 <? count8 s)
                then emit8 proc In (mk8 (i8 s + b) (count8 s + b) (sym8 s) (last8 s) (aux8 s) (out8 s))
                else s in
      match loop (scan8_step W In n) (i8 s1) with
      | Some i' => inl (mk8 (i' + 1) 1 (In i') (last8 s1) (aux8 s1) (out8 s1))
      | None => inr None
      end
  else inr (Some s).

(** The scalar loop behind it: rle8_extreme_cpu.h l.111-200; rleX_Xsl.h l.300-313;
    rleX_Xsl_short.h l.439-456.  In the single symbol codecs ([single]; rle8_extreme_cpu.h
    l.382-545 and the SINGLE branch of rleX_Xsl_short.h) the symbol stays and the count
    becomes [(pIn[i] == symbol)], which is 0 there. *)
Definition scalar8_step {A} (single : bool) (proc : proc8 A) (In : mem) (n : Z) (s : est8 A) : est8 A + est8 A :=
  if i8 s <? n then
    if In (i8 s) =? sym8 s then inl (mk8 (i8 s + 1) (count8 s + 1) (sym8 s) (last8 s) (aux8 s) (out8 s))
    else
      let s1 := emit8 proc In s in
      if single then inl (mk8 (i8 s + 1) 0 (sym8 s) (last8 s1) (aux8 s1) (out8 s1))
      else inl (mk8 (i8 s + 1) 1 (In (i8 s)) (last8 s1) (aux8 s1) (out8 s1))
  else inr s.

(** Tail: last packet if worth it and the end marker, or end marker and literals. *)
Definition finish8 {A} (proc : proc8 A) (term_none : list Z) (term_lits : Z -> list Z) (In : mem) (s : est8 A) : list Z :=
  match proc In (i8 s) (count8 s) (sym8 s) (last8 s) (aux8 s) with
  | Some (bytes, _) => out8 s ++ bytes ++ term_none
  | None => out8 s ++ term_lits (i8 s - last8 s) ++ slice In (last8 s) (i8 s - last8 s)
  end.

(** SIMD loop, scalar loop, tail.  [procV] is the decision of the SIMD loop, [procS] that of
    scalar loop and tail. *)
Definition body8 {A} (procV procS : proc8 A) (term_none : list Z) (term_lits : Z -> list Z)
    (W : Z) (In : mem) (n : Z) (s0 : est8 A) : option (list Z) :=
  match loop (simd8_step procV W In n) s0 with
  | Some (Some s1) =>
      match loop (scalar8_step false procS In n) s1 with
      | Some s2 => Some (finish8 procS term_none term_lits In s2)
      | None => None
      end
  | _ => None
  end.
