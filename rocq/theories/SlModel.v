(** Model of rleX_Xsl.h and rleX_Xsl_multibyte_encoder.h: the "symlut" codecs
    rle8_3symlut, rle8_7symlut, rle{16,24,32,48,64}_{3,7}symlut_{sym,byte}. *)
From Verif Require Import Base Simd Spec ExtModel PktModel MbModel LutModel.

Record slcfg := mkSl
  { slS : Z     (* bytes per symbol: TYPE_SIZE / 8 *)
  ; slUnb : bool (* UNBOUND ("byte"): run lengths need not be multiples of the symbol size *)
  ; slSC : Z    (* SYMBOL_COUNT: 3 or 7 *) }.

(** The configurations instantiated by rleX_Xsl.c. *)
Definition slcodecs : list slcfg :=
  flat_map (fun SC => mkSl 1 false SC :: flat_map (fun S => [mkSl S false SC; mkSl S true SC]) [2; 3; 4; 6; 8]) [3; 7].

(** rleX_Xsl.h l.1-25. *)
Definition slSHORT : Z := 3.
Definition slLONG (c : slcfg) : Z := 2 + 4 + 4 + slS c.
Definition slRB (c : slcfg) : Z := if slSC c =? 3 then 7 else 6.
Definition slMAXR (c : slcfg) : Z := 2 ^ slRB c - 1.
Definition slMAXC : Z := 127.

(** l.126-130. *)
Definition sl_stored (c : slcfg) (count : Z) : Z :=
  if slUnb c || (slS c =? 1) then count - slSHORT + 2 else count / slS c - slSHORT / slS c + 2.

(** l.213-224: symbol index, count field, literal length field; the symbol if it is new. *)
Definition sl_head (c : slcfg) (k stored range : Z) (sym : list Z) : list Z :=
  le16 (Z.lor (Z.lor (Z.shiftl k (7 + slRB c)) (Z.shiftl (tiny slMAXC stored) (slRB c))) (tiny (slMAXR c) range))
  ++ (if k =? slSC c then sym else []) ++ ext slMAXC stored ++ ext (slMAXR c) range.

(** process_symbol, l.114-264.  The position in the output is implicit. *)
Definition sl_proc (c : slcfg) : procM (list (list Z)) := fun In i count sym last lut =>
  let k := lut_index sym lut in
  let range := i - last - count + 2 in
  let stored := sl_stored c count in
  let penalty := ext_penalty (slMAXR c) range + ext_penalty slMAXC stored + (if k =? slSC c then 1 else 0) in
  if (slLONG c <=? count) || (slSHORT + penalty <=? count) then
    Some (sl_head c k stored range sym ++ slice In last (i - count - last), lut_front (slSC c) sym k lut)
  else None.

(** End markers: l.317-340, rleX_Xsl_multibyte_encoder.h l.341-366. *)
Definition sl_term_none (c : slcfg) : list Z := le16 (Z.lor (Z.shiftl 1 (slRB c)) 1) ++ le16 0 ++ le16 0.
Definition sl_term_lits (c : slcfg) (copy : Z) : list Z := le16 (Z.shiftl 1 (slRB c)) ++ le16 0 ++ le32 (copy + 2).

(** 8 bit: l.269-485 (the symbol as a list of one byte).  Others: rleX_Xsl_multibyte_encoder.h
    with the dispatcher l.508-526. *)
Definition sl_body (c : slcfg) (v : simd) (In : mem) (n : Z) : option (list Z) :=
  let lut := lut_init (slS c) (slSC c) in
  if slS c =? 1 then
    let proc := fun In i count sym last a => sl_proc c In i count [sym] last a in
    body8 proc proc (sl_term_none c) (sl_term_lits c) (match v with Avx2 => 32 | _ => 16 end) In n
      (mk8 0 0 (255 - In 0) 0 lut [])
  else mb_body (sl_proc c) (sl_term_none c) (sl_term_lits c) (slS c) (slUnb c) v In n lut.

Definition sl_compress (c : slcfg) (v : simd) : nullable_compressor := fun inNull outNull In n outSize =>
  if inNull || (n =? 0) || outNull || (outSize <? rle_compress_bounds n) then CRefused
  else
    match sl_body c v In n with
    | Some body => COk (le32 n ++ le32 (8 + len body) ++ body)
    | None => CDiverge
    end.

(** *** Decoders *)

(** Header of a packet, l.596-762; the same text at every level, except that the AVX-512
    version also returns on a 32 bit literal length of 0 (l.1823-1824). *)
Definition sl_parse (c : slcfg) (l : lvl) (C : mem) (p : Z) (regs : list (list Z)) : pres (list (list Z)) :=
  let v := rd16 C p in
  let off := Z.land v (slMAXR c) in
  let cnt := Z.land (Z.shiftr v (slRB c)) slMAXC in
  let k := Z.shiftr v (7 + slRB c) in
  let '(p1, regs1) := dec_sym (slS c) (slSC c) C (p + 2) k regs in
  let '(p2, cnt1) := read_ext C p1 cnt in
  let '(p3, off1) := read_ext C p2 off in
  let strict := match l with LAvx512 => negb ((slS c =? 3) || (slS c =? 6)) | _ => false end in
  if (off1 =? 0) && ((off =? 1) || strict) then PStop
  else PGo p3 regs1 (w64 (off1 - 2)) cnt1.

(** l.769-788. *)
Definition sl_fill (c : slcfg) (l : lvl) (regs : list (list Z)) (M : mem) (q cnt : Z) : option (Z * mem) :=
  lvl_fill (slS c) l (hd [] regs) M q
    (if slUnb c || (slS c =? 1) then w64 (cnt + (slSHORT - 2)) else w64 ((cnt + slSHORT / slS c - 2) * slS c)).

(** l.1848-1881. *)
Definition sl_decompress (c : slcfg) (l : lvl) (C : mem) (pin inSize : Z) (M : mem) (pout outSize : Z) : dres :=
  if (pin =? 0) || (pout =? 0) || (inSize =? 0) || (outSize =? 0) then DRet 0 M
  else
    let expIn := rd32 C (pin + 4) in
    let expOut := rd32 C pin in
    if (outSize <? expOut) || (inSize <? expIn) then DRet 0 M
    else
      match loop (pkt_step (sl_parse c l) (sl_fill c l) (lvl_copyW (slS c) l) C) (pin + 8, pout, reg_init (slS c) (slSC c), M) with
      | Some (Some M') => DRet expOut M'
      | _ => DDiverge
      end.
