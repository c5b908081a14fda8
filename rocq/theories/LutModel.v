(** Parts shared by rleX_Xsl.h and rleX_Xsl_short.h: the table of recent symbols, the
    variable length number fields and the decoder levels. *)
From Verif Require Import Base Simd Spec ExtModel.

(** *** Table of recent symbols *)

(** First position of the symbol, table size if absent: the search loop of process_symbol,
    rleX_Xsl.h l.118-122, rleX_Xsl_short.h l.158-166 (one entry: [symbol != lastSymbol]). *)
Fixpoint lut_index (sym : list Z) (lut : list (list Z)) : Z :=
  match lut with
  | [] => 0
  | x :: r => if eqb_bytes x sym then 0 else 1 + lut_index sym r
  end.

(** [x] taken from position [k] (or new, [k] = table size) goes to the front, the entries
    before [k] move back by one; a new one pushes out the last.  The switch statements of
    process_symbol, rleX_Xsl.h l.137-191, rleX_Xsl_short.h l.202-257, and of the decoders,
    rleX_Xsl.h l.610-690, rleX_Xsl_short.h l.1309-1372 ([symbol] there is the first entry,
    [other] the rest). *)
Definition lut_front {X : Type} (SC : Z) (x : X) (k : Z) (l : list X) : list X :=
  x :: firstn (Z.to_nat (SC - 1)) (firstn (Z.to_nat k) l ++ skipn (Z.to_nat (k + 1)) l).

(** Initial entries, every byte of a symbol the same: rleX_Xsl.h l.279-288,
    rleX_Xsl_multibyte_encoder.h, rleX_Xsl_short.h l.391-406. *)
Definition lut_bytes (SC : Z) : list Z := firstn (Z.to_nat SC) [0; 127; 255; 1; 126; 128; 254].
Definition lut_init (S SC : Z) : list (list Z) := map (fun b => repeat b (Z.to_nat S)) (lut_bytes SC).

(** Decoder registers: the entries as loaded (24 and 48 bit symbols occupy 4 and 8 bytes),
    rleX_Xsl.h l.533-544 and the same in every decoder. *)
Definition reg_init (S SC : Z) : list (list Z) :=
  map (fun b => repeat b (Z.to_nat S) ++ repeat 0 (Z.to_nat (rawS S - S))) (lut_bytes SC).

(** Symbol index [k] in a decoder: new read pointer and table. *)
Definition dec_sym (S SC : Z) (C : mem) (p k : Z) (regs : list (list Z)) : Z * list (list Z) :=
  if k =? SC then (p + S, lut_front SC (load C (rawS S) p) k regs)
  else (p, lut_front SC (nth (Z.to_nat k) regs []) k regs).

(** *** Numbers: a small field, extended by 2 or 4 bytes if it holds 1 or 0 *)

(** rleX_Xsl.h l.193-208, rleX_Xsl_short.h l.276-290.  The cast of a tiny value to uint8_t /
    uint16_t does not change it. *)
Definition tiny (max v : Z) : Z := if v <=? max then v else if v <=? 65535 then 1 else 0.
(** rleX_Xsl.h l.226-251, rleX_Xsl_short.h l.323-349.  The code tests whether the small field
    differs from the value; a value above [max] differs from 0 and 1. *)
Definition ext (max v : Z) : list Z := if v <=? max then [] else if v <=? 65535 then le16 v else le32 v.

(** rleX_Xsl.h l.740-760, rleX_Xsl_short.h l.1281-1299: new read pointer and value. *)
Definition read_ext (C : mem) (p f : Z) : Z * Z :=
  if f =? 0 then (p + 4, rd32 C p) else if f =? 1 then (p + 2, rd16 C p) else (p, f).

(** What process_symbol charges for a number, rleX_Xsl.h l.130, rleX_Xsl_short.h l.197 (the
    constant 0xFFFFF in the code; fields above 0xFFFF already take 4 bytes). *)
Definition ext_penalty (max v : Z) : Z := if v <=? 1048575 then (if v <=? max then 0 else 2) else 4.

(** *** Decoder levels: what the CPU supports *)

Inductive lvl := LSse | LSsse3 | LSse41 | LAvx | LAvx2 | LAvx512.

(** Width of COPY_SEGMENT_*: rleX_Xsl.h l.67-90, rleX_Xsl_short.h l.105-128. *)
Definition lvl_copyW (S : Z) (l : lvl) : Z :=
  match l with
  | LSse | LSsse3 | LSse41 => 16
  | LAvx | LAvx2 => 32
  | LAvx512 => if S =? 1 then 64 else 32
  end.

(** Run fill of each decoder.  24 and 48 bit have no AVX-512 version (the AVX2 one is called)
    and their AVX version fills with SSSE3 shuffles; the others have no SSSE3 version. *)
Definition lvl_dsimd (S : Z) (l : lvl) : dsimd :=
  if (S =? 3) || (S =? 6) then
    match l with LSse => DSse | LSsse3 | LSse41 | LAvx => DSsse3 | LAvx2 | LAvx512 => DAvx end
  else match l with LSse | LSsse3 | LSse41 => DSse | LAvx | LAvx2 => DAvx | LAvx512 => DAvx512 end.

Definition lvl_fill (S : Z) (l : lvl) (reg : list Z) (M : mem) (q cnt : Z) : option (Z * mem) :=
  if S =? 1 then memsetW (lvl_copyW 1 l) (symbyte reg 0) M q cnt
  else dfill S (lvl_dsimd S l) reg M q cnt.
