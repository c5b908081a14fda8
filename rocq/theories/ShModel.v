(** Model of rleX_Xsl_short.h and rleX_Xsl_short_multibyte_encoder.h: the "short" codecs
    rle8_{3,7,1}symlut_short, rle8_multi_short, rle8_single_short,
    rle{16,24,32,48,64}_{3,7,1}symlut_{sym,byte}_short, rle{16,24,32,48,64}_{sym,byte}_short
    and the greedy encoders of the byte flavours with a symbol table. *)
From Verif Require Import Base Simd Spec ExtModel PktModel Rle8Model MbModel LutModel.

Record shcfg := mkSh
  { shS : Z       (* bytes per symbol: TYPE_SIZE / 8 *)
  ; shUnb : bool  (* UNBOUND ("byte") *)
  ; shSC : Z      (* SYMBOL_COUNT: 3, 7, 1 or 0 *)
  ; shOne : bool  (* SINGLE: one symbol for the whole stream *) }.

(** The configurations instantiated by rleX_Xsl_short.c. *)
Definition shcodecs : list shcfg :=
  mkSh 1 false 0 true ::
  flat_map (fun SC => mkSh 1 false SC false ::
    flat_map (fun S => [mkSh S false SC false; mkSh S true SC false]) [2; 3; 4; 6; 8]) [3; 7; 1; 0].

(** Constants, l.1-46. *)
Definition shSHORT (c : shcfg) : Z := if negb (shSC c =? 0) || shOne c then 2 else 2 + shS c.
Definition shLONG (c : shcfg) : Z :=
  if negb (shSC c =? 0) then 11 + shS c else if shOne c then 11 else 12 + shS c.
Definition shLB (c : shcfg) : Z := if shSC c =? 3 then 2 else if shSC c =? 1 then 1 else if shSC c =? 0 then 0 else 3.
Definition shCP (c : shcfg) : Z := if shSC c =? 3 then 3 else if shSC c =? 1 then 3 else if shSC c =? 0 then 4 else 2.
Definition shRP (c : shcfg) : Z := 8 - shLB c - shCP c.
Definition shMAXPR (c : shcfg) : Z := 2 ^ shRP c - 1.
Definition shMAXPC (c : shcfg) : Z := 2 ^ shCP c - 2.
Definition shINVALID (c : shcfg) : Z := 2 ^ shCP c - 1.
Definition shRB (c : shcfg) : Z :=
  if shSC c =? 7 then 24 - shLB c - shRP c - 9 else 24 - shLB c - shCP c - 9.
Definition shMAXC : Z := 511.
Definition shMAXR (c : shcfg) : Z := 2 ^ shRB c - 1.

(** l.170-174. *)
Definition sh_stored (c : shcfg) (count : Z) : Z :=
  if shUnb c || (shS c =? 1) then count - shSHORT c + 2 else count / shS c - shSHORT c / shS c + 2.

(** l.261-318: the one byte form; the three byte form with the number extensions.  Without a table
    (SYMBOL_COUNT 0) the code has no index term, here it is 0. *)
Definition sh_pack1 (c : shcfg) (k count3 range3 : Z) : list Z :=
  [Z.lor (Z.lor (w8 (Z.shiftl k (shCP c + shRP c))) (Z.shiftl (w8 count3) (shRP c))) (w8 range3)].
Definition sh_pack3 (c : shcfg) (k tc tr : Z) : list Z :=
  [ Z.lor (Z.lor (w8 (Z.shiftl k (shCP c + shRP c))) (w8 (Z.shiftl (shINVALID c) (shRP c))))
          (w8 (Z.shiftr (Z.shiftl tc (shRB c - 8)) 8));
    w8 (Z.lor (Z.shiftl tc (shRB c - 8)) (Z.shiftr tr 8));
    w8 tr ].

(** l.180-184.  The differences are converted to uint64_t. *)
Definition sh_small (c : shcfg) (stored range : Z) : bool :=
  (w64 (range - 2) <=? shMAXPR c) && (w64 (stored - 2) <=? shMAXPC c).

(** l.261-361: packed numbers, extensions, symbol. *)
Definition sh_head (c : shcfg) (k stored range : Z) (sym : list Z) : list Z :=
  (if sh_small c stored range then sh_pack1 c k (w64 (stored - 2)) (w64 (range - 2))
   else sh_pack3 c k (tiny shMAXC stored) (tiny (shMAXR c) range) ++ ext shMAXC stored ++ ext (shMAXR c) range)
  ++ (if (k =? shSC c) && negb (shOne c) then sym else []).

(** l.185-199. *)
Definition sh_penalty (c : shcfg) (k stored range : Z) : Z :=
  (if negb (shSC c =? 0) && (k =? shSC c) then shS c else 0)
  + (if sh_small c stored range then 0
     else 2 + (if (stored <=? shMAXC) && (range <=? shMAXR c) then 0
               else ext_penalty (shMAXR c) range + ext_penalty shMAXC stored)).

(** process_symbol, l.156-372. *)
Definition sh_proc (c : shcfg) : procM (list (list Z)) := fun In i count sym last lut =>
  let k := if shSC c =? 0 then 0 else lut_index sym lut in
  let range := i - last - count + 2 in
  let stored := sh_stored c count in
  if (shLONG c <=? count) || (shSHORT c + sh_penalty c k stored range <=? count) then
    Some (sh_head c k stored range sym ++ slice In last (i - count - last),
          if shSC c =? 0 then lut else lut_front (shSC c) sym k lut)
  else None.

(** End markers: l.461-516, rleX_Xsl_short_multibyte_encoder.h l.350-402. *)
Definition sh_term2 (c : shcfg) : list Z :=
  [Z.shiftl (shINVALID c) (shRP c); if shSC c =? 3 then 4 else if shSC c =? 1 then 8 else if shSC c =? 0 then 8 else 2].
Definition sh_nosym (c : shcfg) : bool := (shSC c =? 0) && negb (shOne c).
Definition sh_term_none (c : shcfg) : list Z :=
  sh_term2 c ++ [1] ++ le16 0 ++ le16 0 ++ (if sh_nosym c then [0] else []).
Definition sh_term_lits (c : shcfg) (copy : Z) : list Z :=
  sh_term2 c ++ [0] ++ le16 0 ++ le32 (copy + 2) ++ (if sh_nosym c then repeat 0 (Z.to_nat (shS c)) else []).

(** One iteration of compress_single_sse2, l.1061-1122. *)
Definition sh_single_step (proc : proc8 (list (list Z))) (In : mem) (n : Z) (s : est8 (list (list Z)))
    : est8 (list (list Z)) + option (est8 (list (list Z))) :=
  if i8 s <? n - 16 then
    let f := fun j => In (i8 s + j) =? sym8 s in
    let b := lead f 16 in
    if b =? 16 then inl (mk8 (i8 s + 16) (count8 s + 16) (sym8 s) (last8 s) (aux8 s) (out8 s))
    else
      let s1 := if any f 16 || (1 <? count8 s)
                then emit8 proc In (mk8 (i8 s + b) (count8 s + b) (sym8 s) (last8 s) (aux8 s) (out8 s))
                else s in
      match loop (sscan_step 2 (sym8 s) In n) (i8 s1) with
      | Some (i', found) => inl (mk8 (i' + 1) (if found then 1 else 0) (sym8 s1) (last8 s1) (aux8 s1) (out8 s1))
      | None => inr None
      end
  else inr (Some s).

(** compress of rle8_single_short, l.381-523: symbol byte and stream. *)
Definition sh_body_single (c : shcfg) (In : mem) (n : Z) : option (list Z) :=
  let proc : proc8 (list (list Z)) := fun In i count sym last a => sh_proc c In i count [sym] last a in
  match approx_symbol In n with
  | Some sym =>
      match loop (sh_single_step proc In n) (mk8 0 0 sym 0 [] []) with
      | Some (Some s1) =>
          match loop (scalar8_step true proc In n) s1 with
          | Some s2 => Some (sym :: finish8 proc (sh_term_none c) (sh_term_lits c) In s2)
          | None => None
          end
      | _ => None
      end
  | None => None
  end.

(** 8 bit: l.381-659.  Others: rleX_Xsl_short_multibyte_encoder.h, dispatcher l.684-703. *)
Definition sh_body (c : shcfg) (v : simd) (In : mem) (n : Z) : option (list Z) :=
  let lut := lut_init (shS c) (shSC c) in
  if shOne c then sh_body_single c In n
  else if shS c =? 1 then
    let proc : proc8 (list (list Z)) := fun In i count sym last a => sh_proc c In i count [sym] last a in
    body8 proc proc (sh_term_none c) (sh_term_lits c) (match v with Avx2 => 32 | _ => 16 end) In n
      (mk8 0 0 (255 - In 0) 0 lut [])
  else mb_body (sh_proc c) (sh_term_none c) (sh_term_lits c) (shS c) (shUnb c) v In n lut.

Definition sh_wrap (body : mem -> Z -> option (list Z)) : nullable_compressor := fun inNull outNull In n outSize =>
  if inNull || (n =? 0) || outNull || (outSize <? rle_compress_bounds n) then CRefused
  else
    match body In n with
    | Some body => COk (le32 n ++ le32 (8 + len body) ++ body)
    | None => CDiverge
    end.

Definition sh_compress (c : shcfg) (v : simd) : nullable_compressor := sh_wrap (sh_body c v).

(** *** Greedy encoder, l.746-1054 *)

(** Number of equal leading bytes: [ctz(a ^ b) / 8]. *)
Fixpoint common (a b : list Z) : Z :=
  match a, b with
  | x :: a', y :: b' => if x =? y then 1 + common a' b' else 0
  | _, _ => 0
  end.

(** The table entry sharing the longest prefix with [next], an equal one at once: l.888-954.
    16 bit: only an equal one counts.  With one entry the code takes its match length. *)
Fixpoint best_match (S : Z) (next : list Z) (lut : list (list Z)) (best : list Z) (cnt : Z) : list Z * Z :=
  match lut with
  | [] => (best, cnt)
  | x :: r =>
      if eqb_bytes x next then (x, S)
      else if (negb (S =? 2)) && (cnt <? common next x) then best_match S next r x (common next x)
      else best_match S next r best cnt
  end.

(** From the label [not_a_full_match_but_a_match] to the end of the iteration, l.855-988. *)
Definition greedy_second (c : shcfg) (In : mem) (n : Z) (st : estm (list (list Z))) : estm (list (list Z)) :=
  let S := shS c in
  let st1 := emitM (sh_proc c) In st in
  let i := m_i st1 in
  let sym := load In S i in
  let fits := i + S <=? n in
  if fits && eqb_bytes (load In S (i + S)) sym
  then mkM (i + S * 2) (S * 2) sym (m_last st1) (m_aux st1) (m_out st1) false
  else if fits then
    let '(best, cnt) := best_match S sym (m_aux st1) [] 0 in
    if 2 <=? cnt
    then mkM (i + cnt) cnt best (m_last st1) (m_aux st1) (m_out st1) (negb (S =? 2) && (cnt <? S))
    else mkM (i + 1) 0 sym (m_last st1) (m_aux st1) (m_out st1) false
  else mkM (i + 1) 0 sym (m_last st1) (m_aux st1) (m_out st1) false.

(** One iteration, l.783-989; [m_goto]: entered at the label. *)
Definition greedy_step (c : shcfg) (In : mem) (n : Z) (st : estm (list (list Z)))
    : estm (list (list Z)) + estm (list (list Z)) :=
  let S := shS c in let i := m_i st in
  if m_goto st then inl (greedy_second c In n st)
  else if i <? n then
    if negb (m_count st =? 0) && (i + S <=? n) then
      if eqb_bytes (load In S i) (m_sym st)
      then inl (mkM (i + S) (m_count st + S) (m_sym st) (m_last st) (m_aux st) (m_out st) false)
      else
        let m := common (m_sym st) (load In S i) in
        inl (greedy_second c In n (mkM (i + m) (m_count st + m) (m_sym st) (m_last st) (m_aux st) (m_out st) false))
    else inl (greedy_second c In n st)
  else inr st.

Definition greedy_body (c : shcfg) (In : mem) (n : Z) : option (list Z) :=
  match loop (greedy_step c In n) (mkM 0 0 (not_first (shS c) In) 0 (lut_init (shS c) (shSC c)) [] false) with
  | Some st => Some (finishM (sh_proc c) (sh_term_none c) (sh_term_lits c) In st)
  | None => None
  end.

Definition greedy_codecs : list shcfg :=
  flat_map (fun SC => map (fun S => mkSh S true SC false) [2; 3; 4; 6; 8]) [3; 7; 1].

Definition greedy_compress (c : shcfg) : nullable_compressor := sh_wrap (greedy_body c).

(** *** Decoders *)

(** Symbol part: l.1309-1380. *)
Definition sh_sym (c : shcfg) (C : mem) (p k : Z) (regs : list (list Z)) : Z * list (list Z) :=
  if shOne c then (p, regs) else dec_sym (shS c) (shSC c) C p (if shSC c =? 0 then 0 else k) regs.

(** Header of a packet, l.1241-1380 and the same in every other decoder. *)
Definition sh_parse (c : shcfg) (l : lvl) (C : mem) (p : Z) (regs : list (list Z)) : pres (list (list Z)) :=
  let b1 := C p in
  let k := Z.shiftr b1 (shCP c + shRP c) in
  let count3 := Z.land (Z.shiftr b1 (shRP c)) (shINVALID c) in
  if count3 =? shINVALID c then
    let b2 := C (p + 1) in
    let b3 := C (p + 2) in
    let cnt := Z.lor (Z.shiftr b2 (shRB c - 8)) (Z.shiftl (Z.land b1 (shMAXPR c)) (8 - (shRB c - 8))) in
    let off := Z.lor b3 (Z.shiftl (Z.land b2 (2 ^ (shRB c - 8) - 1)) 8) in
    let '(p1, cnt1) := read_ext C (p + 3) cnt in
    let '(p2, off1) := read_ext C p1 off in
    if (off =? 1) && (off1 =? 0) then PStop
    else let '(p3, regs1) := sh_sym c C p2 k regs in PGo p3 regs1 (w64 (off1 - 2)) cnt1
  else
    let '(p3, regs1) := sh_sym c C (p + 1) k regs in
    PGo p3 regs1 (w64 (Z.land b1 (shMAXPR c) + 2 - 2)) (count3 + 2).

(** l.1417-1455. *)
Definition sh_fill (c : shcfg) (l : lvl) (regs : list (list Z)) (M : mem) (q cnt : Z) : option (Z * mem) :=
  lvl_fill (shS c) l (hd [] regs) M q
    (if shUnb c || (shS c =? 1) then w64 (cnt + (shSHORT c - 2)) else w64 ((cnt + shSHORT c / shS c - 2) * shS c)).

(** l.2611-2648; single: the decoders read the symbol first, l.1186-1191. *)
Definition sh_decompress (c : shcfg) (l : lvl) (C : mem) (pin inSize : Z) (M : mem) (pout outSize : Z) : dres :=
  if (pin =? 0) || (pout =? 0) || (inSize =? 0) || (outSize =? 0) then DRet 0 M
  else
    let expIn := rd32 C (pin + 4) in
    let expOut := rd32 C pin in
    if (outSize <? expOut) || (inSize <? expIn) then DRet 0 M
    else
      let '(p, regs) := if shOne c then (pin + 9, [[C (pin + 8)]]) else (pin + 8, reg_init (shS c) (shSC c)) in
      match loop (pkt_step (sh_parse c l) (sh_fill c l) (lvl_copyW (shS c) l) C) (p, pout, regs, M) with
      | Some (Some M') => DRet expOut M'
      | _ => DDiverge
      end.
