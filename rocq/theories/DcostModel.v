(** How often the loops of the decoders are passed.  The work of one pass is bounded by a constant: one
    packet head, or the load and the stores of one vector. *)
From Verif Require Import Base Simd Spec ExtModel PktModel Rle8Model LutModel SlModel ShModel LeModel CostModel.

(** *** The loops of the macros of rleX_extreme_common.h (Simd.v) *)

(** MEMCPY_*: the short copy and the bytes before the first aligned address take no pass (l.32-170). *)
Definition copy_passes (W : Z) (C : mem) (p : Z) (M : mem) (q off : Z) : option Z :=
  if off <=? W then Some 0
  else
    let '(pc, qc, M1) :=
      if p mod W =? 0 then (p, q, M)
      else let pc := p - p mod W + W in (pc, q + (pc - p), vcopy W C p M q) in
    passes (copy_step W C (w64 (q + off))) alone (pc, qc, M1).

(** MEMSET_* (l.172-269) *)
Definition set_passes (W : Z) (b : Z) (M : mem) (q cnt : Z) : option Z :=
  if cnt <=? W then Some 0
  else
    let '(qc, M1) :=
      if q mod W =? 0 then (q, M)
      else (q - q mod W + W, vstore W (fun _ => b) M q) in
    passes (fill_step true W (fun _ => b) (w64 (q + cnt))) alone (qc, M1).

(** MEMSET_*_MULTI (l.271-306), and the fill with three vectors (rle24_extreme_cpu_decode.h l.225-246,
    rle48_extreme_cpu_decode.h l.226-247). *)
Definition dfill_passes (S : Z) (d : dsimd) (reg : list Z) (M : mem) (q cnt : Z) : option Z :=
  if (S =? 3) || (S =? 6) then
    let '(v0, v1, v2) := if S =? 3 then vec24 (dvec d) reg else vec48 (dvec d) reg in
    passes (fill3_step (simdW (dvec d)) v0 v1 v2 (w64 (q + cnt))) alone (q, M)
  else passes (fill_step false (dfillW d) (fun j => symbyte reg (j mod S)) (w64 (q + cnt))) alone (q, M).

(** *** The loops inside of one pass of the loop over the packets *)

(** ExtModel.v, [dec_step] *)
Definition ext_dec_inner (c : xcfg) (d : dsimd) (C : mem) (s : Z * Z * list Z * mem) : option Z :=
  let '(p, q, reg, M) := s in
  let '(p2, reg2, cnt) := dec_count c C p reg in
  let '(p3, off, stop) := dec_range c C p2 in
  if stop then Some 0
  else
    oadd (copy_passes (dcopyW d) C p3 M q (w64 (off - 1)))
      match memcpyW (dcopyW d) C p3 M q (w64 (off - 1)) with
      | None => None
      | Some (p4, q4, M4) =>
          if cnt =? 0 then Some 0
          else dfill_passes (xS c) d reg2 M4 q4
                 (if xUnb c then cnt + xSHORT c - 1 else (cnt + xSHORT c / xS c - 1) * xS c)
      end.

(** PktModel.v, [pkt_step] *)
Definition pkt_inner {T : Type} (parse : mem -> Z -> T -> pres T) (fillp : T -> mem -> Z -> Z -> option Z)
    (W : Z) (C : mem) (s : Z * Z * T * mem) : option Z :=
  let '(p, q, st, M) := s in
  match parse C p st with
  | PStop => Some 0
  | PGo p1 st1 off cnt =>
      oadd (copy_passes W C p1 M q off)
        match memcpyW W C p1 M q off with
        | None => None
        | Some (p2, q2, M2) => if cnt =? 0 then Some 0 else fillp st1 M2 q2 cnt
        end
  end.

(** The fills of rle8_extreme_cpu.h, rleX_Xsl.h, rleX_Xsl_short.h ([m_fill], [s_fill], [sl_fill], [sh_fill]) *)
Definition m_fillp (pk : bool) (d : d8) (sym : Z) (M : mem) (q cnt : Z) : option Z :=
  set_passes (d8W d) sym M q (cnt + (mSHORT pk - 1)).
Definition s_fillp (pk : bool) (d : d8) (sym : Z) (M : mem) (q cnt : Z) : option Z :=
  set_passes (d8W d) sym M q (cnt + (sSHORT pk - 1)).
Definition lvl_fillp (S : Z) (l : lvl) (reg : list Z) (M : mem) (q cnt : Z) : option Z :=
  if S =? 1 then set_passes (lvl_copyW 1 l) (symbyte reg 0) M q cnt
  else dfill_passes S (lvl_dsimd S l) reg M q cnt.
Definition sl_fillp (c : slcfg) (l : lvl) (regs : list (list Z)) (M : mem) (q cnt : Z) : option Z :=
  lvl_fillp (slS c) l (hd [] regs) M q
    (if slUnb c || (slS c =? 1) then w64 (cnt + (slSHORT - 2)) else w64 ((cnt + slSHORT / slS c - 2) * slS c)).
Definition sh_fillp (c : shcfg) (l : lvl) (regs : list (list Z)) (M : mem) (q cnt : Z) : option Z :=
  lvl_fillp (shS c) l (hd [] regs) M q
    (if shUnb c || (shS c =? 1) then w64 (cnt + (shSHORT c - 2)) else w64 ((cnt + shSHORT c / shS c - 2) * shS c)).

(** *** The decompress functions, called with buffers that pass their guards: the stream at [pin], the
    output at [pout] *)

(** rleX_extreme_cpu.h l.82-111 and the others of [xdecompress] *)
Definition xdec_passes (c : xcfg) (d : dsimd) (C : mem) (pin : Z) (M : mem) (pout : Z) : option Z :=
  passes (dec_step c d C) (ext_dec_inner c d C) (pin + 8, pout, repeat 0 (Z.to_nat (rawS (xS c))), M).

(** rle8_extreme_cpu.h l.702-764 *)
Definition r8_dec_passes (pk : bool) (d : d8) (C : mem) (pin : Z) (M : mem) (pout : Z) : option Z :=
  if C (pin + 8) =? 0 then
    passes (pkt_step (m_parse pk) (m_fill pk d) (d8W d) C) (pkt_inner (m_parse pk) (m_fillp pk d) (d8W d) C) (pin + 9, pout, 0, M)
  else if C (pin + 8) =? 1 then
    passes (pkt_step s_parse (s_fill pk d) (d8W d) C) (pkt_inner s_parse (s_fillp pk d) (d8W d) C) (pin + 10, pout, C (pin + 9), M)
  else Some 0.

(** rleX_Xsl.h l.1848-1881 *)
Definition sl_dec_passes (c : slcfg) (l : lvl) (C : mem) (pin : Z) (M : mem) (pout : Z) : option Z :=
  passes (pkt_step (sl_parse c l) (sl_fill c l) (lvl_copyW (slS c) l) C)
    (pkt_inner (sl_parse c l) (sl_fillp c l) (lvl_copyW (slS c) l) C) (pin + 8, pout, reg_init (slS c) (slSC c), M).

(** rleX_Xsl_short.h l.2611-2648 *)
Definition sh_dec_passes (c : shcfg) (l : lvl) (C : mem) (pin : Z) (M : mem) (pout : Z) : option Z :=
  let '(p, regs) := if shOne c then (pin + 9, [[C (pin + 8)]]) else (pin + 8, reg_init (shS c) (shSC c)) in
  passes (pkt_step (sh_parse c l) (sh_fill c l) (lvl_copyW (shS c) l) C)
    (pkt_inner (sh_parse c l) (sh_fillp c l) (lvl_copyW (shS c) l) C) (p, pout, regs, M).

(** *** rle8_low_entropy_cpu.c l.930-1022, rle8_low_entropy_short_cpu.c l.440-532 ([le_decode]) *)

(** The fills of the SIMD loops: [le_fillV]; [les_fillV] has no loop. *)
Definition le_fillp (L W : Z) (b : Z) (M : mem) (q count : Z) : option Z :=
  if L =? 255 then if count =? 0 then Some 0 else set_passes W b M q count else Some 0.
(** Besides them the multi symbol loops look at the lanes one by one ([W] at most, a constant). *)
Definition le_simd_inner (L W : Z) (hit : Z -> bool) (stc : Z -> Z) (C : mem) (pPreEnd : Z) (s : Z * Z * mem) : option Z :=
  let '(p, q, M) := s in
  if p <? pPreEnd then
    let idx := lead (fun j => negb (hit (C (p + j)))) W in
    if idx =? W then Some 0
    else le_fillp L W (C (p + idx)) (vcopy W C p M q) (q + idx + 1) (stc (C (p + idx + 1)))
  else Some 0.
Definition fillS_passes (b : Z) (M : mem) (q count : Z) : option Z :=
  if count <? 16 then Some 0
  else
    let '(q1, rem, M1) := if q mod 16 =? 0 then (q, count, M)
                          else (q - q mod 16 + 16, count - (q - q mod 16 + 16 - q), vstore 16 (fun _ => b) M q) in
    passes (fillS_step b) alone (q1, rem, M1).
Definition le_tail_inner (rle : Z -> bool) (stc : Z -> Z) (C : mem) (pEnd : Z) (s : Z * Z * mem) : option Z :=
  let '(p, q, M) := s in
  if p <? pEnd then
    if rle (C p) then fillS_passes (C p) (vstore 1 (fun _ => C p) M q) (q + 1) (stc (C (p + 1))) else Some 0
  else Some 0.
Definition le_decode_passes (L : Z) (c : cpu) (rle : Z -> bool) (stc : Z -> Z) (C : mem) (p pEnd : Z) (M : mem) (q : Z) : option Z :=
  let rleCount := w8 (len (filter rle range256)) in
  if rleCount =? 0 then Some 0
  else
    let multi := negb (rleCount =? 1) in
    let W := if (if multi then cpu_avx c else cpu_avx2 c) then 32 else 16 in
    let sym := hd 0 (filter rle range256) in
    let hit := if multi then rle else Z.eqb sym in
    let fill := if L =? 255 then le_fillV W else les_fillV multi W in
    oadd (passes (le_simd_step W hit fill stc C (pEnd - 256)) (le_simd_inner L W hit stc C (pEnd - 256)) (p, q, M))
      match loop (le_simd_step W hit fill stc C (pEnd - 256)) (p, q, M) with
      | Some (Some s) => passes (le_tail_step rle stc C pEnd) (le_tail_inner rle stc C pEnd) s
      | _ => None
      end.
(** rle8_low_entropy_decompress, l.101-122; short: l.103-124.  The loops that read the tables (l.545-606) are
    not counted: they are passed at most 32 + 255 + 256 * 256 times, whatever the stream is. *)
Definition le_dec_passes (L : Z) (c : cpu) (C : mem) (pin : Z) (M : mem) (pout : Z) : option Z :=
  let '(rle, stc, k) := read_info C (pin + 8) in
  le_decode_passes L c rle stc C (pin + 8 + k) (pin + rd32 C pin) M pout.
