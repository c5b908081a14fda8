(** The encoders with the stores they really do.

    [ExtModel], [Rle8Model], [SlModel] and [ShModel] describe an encoder by the list of bytes it
    emits.  The C code stores into pOut, and not always as many bytes as it advances: a 24 bit
    symbol is stored as an uint32_t and a 48 bit symbol as an uint64_t (rle24_extreme_cpu_encode.h
    l.218, rle48_extreme_cpu_encode.h l.216, rleX_Xsl.h l.40-48 and l.220, rleX_Xsl_short.h l.358,
    rleX_Xsl_short_multibyte_encoder.h l.399), after which [index] grows by 3 or 6.  Here the
    encoders carry the memory and the write position instead of the list.

    Decisions, tables and the search for runs are those of the list models. *)
From Verif Require Import Base Simd Spec ExtModel PktModel Rle8Model MbModel LutModel SlModel ShModel.

(** Output memory and address of [pOut + index]. *)
Definition wst : Type := mem * Z.

(** Store [bytes] at the write position, which then advances by [adv]. *)
Definition put (bytes : list Z) (adv : Z) (w : wst) : wst := (store (fst w) (snd w) bytes, snd w + adv).

(** Consecutive stores that each advance by their width (uint8_t, uint16_t, uint32_t fields,
    memcpy) are written as one. *)
Definition putx (bytes : list Z) (w : wst) : wst := put bytes (len bytes) w.

(** [*(symbol_t * )&pOut[index] = symbol; index += S].  Symbols are lists of S bytes, so [len sym]
    is S; in the 24 and 48 bit codecs symbols are masked (rle24_extreme_cpu_encode.h l.345, l.355;
    rleX_Xsl_multibyte_encoder.h l.307, l.321), so the further bytes of the store are 0. *)
Definition put_sym (S : Z) (sym : list Z) (w : wst) : wst :=
  put (sym ++ repeat 0 (Z.to_nat (rawS S - S))) (len sym) w.

(** Arguments: pIn is NULL; input; inSize; output memory, pOut (0 = NULL), outSize.  Input and
    output buffer do not overlap. *)
Definition wcompressor := bool -> mem -> Z -> mem -> Z -> Z -> dres.

(** [((uint32_t * )pOut)[0] = inSize] at the start; [hdr]: what else is stored before the body
    starts at [pOut + start]; at the end [return ((uint32_t * )pOut)[1] = index].
    rleX_extreme_cpu_encode.h l.19-24, l.605-608; rleX_Xsl.h l.274-277, l.342; rleX_Xsl_short.h
    l.386-389, l.519-522; rleX_Xsl_multibyte_encoder.h l.23-27, l.369;
    rleX_Xsl_short_multibyte_encoder.h l.20-27, l.411. *)
Definition w_wrap (hdr : list Z) (start : Z) (body : mem -> Z -> wst -> option wst) : wcompressor :=
  fun inNull In n M pout outSize =>
  if inNull || (n =? 0) || (pout =? 0) || (outSize <? rle_compress_bounds n) then DRet 0 M
  else
    match body In n (store M pout (le32 n ++ hdr), pout + start) with
    | Some (M1, q) => DRet (w32 (q - pout)) (store M1 (pout + 4) (le32 (q - pout)))
    | None => DDiverge
    end.

(** *** 16 to 128 bit extreme codecs *)

(** Symbol and count: rleX_extreme_cpu_encode.h l.182-228, rle24_extreme_cpu_encode.h l.174-220,
    rle48_extreme_cpu_encode.h l.172-218, rle128_extreme_cpu.h l.101-146. *)
Definition emit_countW (c : xcfg) (sym lsym : list Z) (count : Z) (w : wst) : wst :=
  let sc := stored_count c count in
  if xPack c then
    let same := eqb_bytes sym lsym in
    let m := if same then 128 else 0 in
    let w1 := putx (if sc <=? 127 then [Z.lor (w8 sc) m] else m :: le32 sc) w in
    if same then w1 else put_sym (xS c) sym w1
  else putx (if sc <=? 255 then [w8 sc] else 0 :: le32 sc) (put_sym (xS c) sym w).

(** As [packet]. *)
Definition packetW (c : xcfg) (In : mem) (st : est) : option (wst -> wst) :=
  let range := e_i st - e_last st - e_count st + 1 in
  let lits := slice In (e_last st) (e_i st - e_count st - e_last st) in
  if accept_short c range (e_count st) (e_sym st) (e_lsym st) then
    Some (fun w => putx lits (putx (emit_range_short c range) (emit_countW c (e_sym st) (e_lsym st) (e_count st) w)))
  else if xLONG c <=? e_count st then
    Some (fun w => putx lits (putx (emit_range_long c range) (emit_countW c (e_sym st) (e_lsym st) (e_count st) w)))
  else None.

(** As [emit]; the list of emitted bytes of [est] stays empty. *)
Definition emitW (c : xcfg) (In : mem) (s : est * wst) : est * wst :=
  let '(st, w) := s in
  match packetW c In st with
  | Some f => (mkE (e_i st) (e_count st) (e_sym st) (e_i st) (e_sym st) [] (e_goto st), f w)
  | None => (st, w)
  end.

(** As [enc_second]. *)
Definition enc_secondW (c : xcfg) (v : simd) (In : mem) (n : Z) (s : est * wst) (i count : Z)
    : (est * wst) + option (est * wst) :=
  let '(st, w) := s in
  let '(st1, w1) := emitW c In (mkE i count (e_sym st) (e_last st) (e_lsym st) [] false, w) in
  match (if xS c =? 16 then loop (scan_step128 In n) i else scan c v In n i) with
  | Some (i', found) => inl (next_run c In n st1 i' found, w1)
  | None => inr None
  end.

(** As [enc_step]. *)
Definition enc_stepW (c : xcfg) (v : simd) (In : mem) (n : Z) (s : est * wst) : (est * wst) + option (est * wst) :=
  let '(st, w) := s in
  if (e_i st <? n) || e_goto st then
    match (if xS c =? 16 then loop (match_step128 c In n (e_sym st)) (e_i st, e_count st)
           else phase1 c v In n st) with
    | Some (Second i count) => enc_secondW c v In n s i count
    | Some (Fall i count) =>
        match scalar_step c In n i count (e_sym st) with
        | inl (i', count') => inl (mkE i' count' (e_sym st) (e_last st) (e_lsym st) [] false, w)
        | inr (i', count') => enc_secondW c v In n s i' count'
        end
    | None => inr None
    end
  else inr (Some s).

(** End marker: rleX_extreme_cpu_encode.h l.454-466, rle24_extreme_cpu_encode.h l.440-452. *)
Definition term_countW (c : xcfg) (w : wst) : wst :=
  if xPack c then putx (128 :: le32 0) w
  else putx (0 :: le32 0) (put_sym (xS c) (repeat 0 (Z.to_nat (xS c))) w).

(** As [finish]. *)
Definition finishW (c : xcfg) (In : mem) (s : est * wst) : wst :=
  let '(st, w) := s in
  match packetW c In st with
  | Some f => putx (term_range c) (term_countW c (f w))
  | None =>
      let copySize := e_i st - e_last st in
      putx (slice In (e_last st) copySize)
        (putx (if xP7 c then le32 (Z.lor ((copySize + 1) * 2) 1) else 0 :: le32 (copySize + 1)) (term_countW c w))
  end.

Definition x_bodyW (c : xcfg) (v : simd) (In : mem) (n : Z) (w : wst) : option wst :=
  match loop (enc_stepW c v In n) (mkE 0 0 (init_sym c In) 0 (repeat 0 (Z.to_nat (xS c))) [] false, w) with
  | Some (Some s) => Some (finishW c In s)
  | _ => None
  end.

(** [hdr]: the compressed size is set to 0 first, rleX_extreme_cpu_encode.h l.22-24. *)
Definition x_write (c : xcfg) (v : simd) : wcompressor := w_wrap (le32 0) 8 (x_bodyW c v).

(** *** The other families: the loops of [PktModel] and [MbModel] with memory and position as part
    of what the codec remembers *)

(** process_symbol: what it does to the output and the new table. *)
Definition procW (A : Type) := mem -> Z -> Z -> list Z -> Z -> A -> option ((wst -> wst) * A).

Definition onW {A} (p : procW A) : procM (A * wst) := fun In i count sym last aw =>
  match p In i count sym last (fst aw) with
  | Some (f, a) => Some ([], (a, f (snd aw)))
  | None => None
  end.

(** As [finishM] and [mb_body]. *)
Definition finishMW {A} (p : procW A) (term_none : wst -> wst) (term_lits : Z -> wst -> wst) (In : mem) (st : estm (A * wst)) : wst :=
  match p In (m_i st) (m_count st) (m_sym st) (m_last st) (fst (m_aux st)) with
  | Some (f, _) => term_none (f (snd (m_aux st)))
  | None => putx (slice In (m_last st) (m_i st - m_last st)) (term_lits (m_i st - m_last st) (snd (m_aux st)))
  end.
Definition mb_bodyW {A} (p : procW A) (term_none : wst -> wst) (term_lits : Z -> wst -> wst)
    (S : Z) (unb : bool) (v : simd) (In : mem) (n : Z) (a0 : A) (w : wst) : option wst :=
  match loop (mb_step (onW p) S unb v In n) (mkM 0 0 (not_first S In) 0 (a0, w) [] false) with
  | Some (Some st) => Some (finishMW p term_none term_lits In st)
  | _ => None
  end.

(** As [finish8] and [body8]: 8 bit codecs store as many bytes as they advance, so what their
    decision emits is stored as it is. *)
Definition onW8 {A} (p : proc8 A) : proc8 (A * wst) := fun In i count sym last aw =>
  match p In i count sym last (fst aw) with
  | Some (bytes, a) => Some ([], (a, putx bytes (snd aw)))
  | None => None
  end.
Definition finish8W {A} (p : proc8 A) (term_none : list Z) (term_lits : Z -> list Z) (In : mem) (s : est8 (A * wst)) : wst :=
  match p In (i8 s) (count8 s) (sym8 s) (last8 s) (fst (aux8 s)) with
  | Some (bytes, _) => putx term_none (putx bytes (snd (aux8 s)))
  | None => putx (slice In (last8 s) (i8 s - last8 s)) (putx (term_lits (i8 s - last8 s)) (snd (aux8 s)))
  end.
Definition body8W {A} (procV procS : proc8 A) (term_none : list Z) (term_lits : Z -> list Z)
    (W : Z) (In : mem) (n sym : Z) (a0 : A) (w : wst) : option wst :=
  match loop (simd8_step (onW8 procV) W In n) (mk8 0 0 sym 0 (a0, w) []) with
  | Some (Some s1) =>
      match loop (scalar8_step false (onW8 procS) In n) s1 with
      | Some s2 => Some (finish8W procS term_none term_lits In s2)
      | None => None
      end
  | _ => None
  end.

(** *** rleX_Xsl.h *)

(** l.207-264. *)
Definition sl_headW (c : slcfg) (k stored range : Z) (sym : list Z) (w : wst) : wst :=
  let w1 := putx (le16 (Z.lor (Z.lor (Z.shiftl k (7 + slRB c)) (Z.shiftl (tiny slMAXC stored) (slRB c))) (tiny (slMAXR c) range))) w in
  let w2 := if k =? slSC c then put_sym (slS c) sym w1 else w1 in
  putx (ext (slMAXR c) range) (putx (ext slMAXC stored) w2).

(** process_symbol, l.114-264; the decision and the table are those of [sl_proc]. *)
Definition sl_procW (c : slcfg) : procW (list (list Z)) := fun In i count sym last lut =>
  match sl_proc c In i count sym last lut with
  | Some (_, lut') =>
      Some (fun w => putx (slice In last (i - count - last))
                       (sl_headW c (lut_index sym lut) (sl_stored c count) (i - last - count + 2) sym w), lut')
  | None => None
  end.

(** As [sl_body]. *)
Definition sl_bodyW (c : slcfg) (v : simd) (In : mem) (n : Z) (w : wst) : option wst :=
  let lut := lut_init (slS c) (slSC c) in
  if slS c =? 1 then
    let proc := fun In i count sym last a => sl_proc c In i count [sym] last a in
    body8W proc proc (sl_term_none c) (sl_term_lits c) (match v with Avx2 => 32 | _ => 16 end) In n (255 - In 0) lut w
  else mb_bodyW (sl_procW c) (putx (sl_term_none c)) (fun k => putx (sl_term_lits c k)) (slS c) (slUnb c) v In n lut w.

Definition sl_write (c : slcfg) (v : simd) : wcompressor := w_wrap [] 8 (sl_bodyW c v).

(** *** rleX_Xsl_short.h *)

(** l.261-361. *)
Definition sh_headW (c : shcfg) (k stored range : Z) (sym : list Z) (w : wst) : wst :=
  let w1 := putx (if sh_small c stored range then sh_pack1 c k (w64 (stored - 2)) (w64 (range - 2))
                  else sh_pack3 c k (tiny shMAXC stored) (tiny (shMAXR c) range) ++ ext shMAXC stored ++ ext (shMAXR c) range) w in
  if (k =? shSC c) && negb (shOne c) then put_sym (shS c) sym w1 else w1.

(** process_symbol, l.156-372; the decision and the table are those of [sh_proc]. *)
Definition sh_procW (c : shcfg) : procW (list (list Z)) := fun In i count sym last lut =>
  match sh_proc c In i count sym last lut with
  | Some (_, lut') =>
      Some (fun w => putx (slice In last (i - count - last))
                       (sh_headW c (if shSC c =? 0 then 0 else lut_index sym lut) (sh_stored c count) (i - last - count + 2) sym w), lut')
  | None => None
  end.

(** End marker before literals, rleX_Xsl_short_multibyte_encoder.h l.380-402, rleX_Xsl_short.h
    l.1020-1048: without a table the symbol field is there and is stored as a symbol_t. *)
Definition sh_term_litsW (c : shcfg) (copy : Z) (w : wst) : wst :=
  let w1 := putx (sh_term2 c ++ [0] ++ le16 0 ++ le32 (copy + 2)) w in
  if sh_nosym c then put_sym (shS c) (repeat 0 (Z.to_nat (shS c))) w1 else w1.

(** As [sh_single_step], for any remembered state. *)
Definition sh_single_stepP {A} (proc : proc8 A) (In : mem) (n : Z) (s : est8 A) : est8 A + option (est8 A) :=
  if i8 s <? n - 16 then
    let f := fun j => In (i8 s + j) =? sym8 s in
    let b := lead f 16 in
    if b =? 16 then inl (mk8 (i8 s + 16) (count8 s + 16) (sym8 s) (last8 s) (aux8 s) (out8 s))
    else
      let s1 := if any f 16 || (1 <? count8 s)
                then emit8 proc In (mk8 (i8 s + b) (count8 s + b) (sym8 s) (last8 s) (aux8 s) (out8 s))
                else s in
      match loop (sscan_step 2 (sym8 s) In n) (i8 s1) with
      | Some (i', found) => inl (mk8 (i' + 1) (if found then 1 else 0) (sym8 s1) (last8 s1) (aux8 s1) (out8 s1))
      | None => inr None
      end
  else inr (Some s).

(** As [sh_body_single]. *)
Definition sh_body_singleW (c : shcfg) (In : mem) (n : Z) (w : wst) : option wst :=
  let proc : proc8 (list (list Z)) := fun In i count sym last a => sh_proc c In i count [sym] last a in
  match approx_symbol In n with
  | Some sym =>
      match loop (sh_single_stepP (onW8 proc) In n) (mk8 0 0 sym 0 ([], putx [sym] w) []) with
      | Some (Some s1) =>
          match loop (scalar8_step true (onW8 proc) In n) s1 with
          | Some s2 => Some (finish8W proc (sh_term_none c) (sh_term_lits c) In s2)
          | None => None
          end
      | _ => None
      end
  | None => None
  end.

(** As [sh_body]. *)
Definition sh_bodyW (c : shcfg) (v : simd) (In : mem) (n : Z) (w : wst) : option wst :=
  let lut := lut_init (shS c) (shSC c) in
  if shOne c then sh_body_singleW c In n w
  else if shS c =? 1 then
    let proc : proc8 (list (list Z)) := fun In i count sym last a => sh_proc c In i count [sym] last a in
    body8W proc proc (sh_term_none c) (sh_term_lits c) (match v with Avx2 => 32 | _ => 16 end) In n (255 - In 0) lut w
  else mb_bodyW (sh_procW c) (putx (sh_term_none c)) (sh_term_litsW c) (shS c) (shUnb c) v In n lut w.

Definition sh_write (c : shcfg) (v : simd) : wcompressor := w_wrap [] 8 (sh_bodyW c v).

(** As [greedy_second], l.870-1003. *)
Definition greedy_secondW (c : shcfg) (In : mem) (n : Z) (st : estm (list (list Z) * wst)) : estm (list (list Z) * wst) :=
  let S := shS c in
  let st1 := emitM (onW (sh_procW c)) In st in
  let i := m_i st1 in
  let sym := load In S i in
  let fits := i + S <=? n in
  if fits && eqb_bytes (load In S (i + S)) sym
  then mkM (i + S * 2) (S * 2) sym (m_last st1) (m_aux st1) (m_out st1) false
  else if fits then
    let '(best, cnt) := best_match S sym (fst (m_aux st1)) [] 0 in
    if 2 <=? cnt
    then mkM (i + cnt) cnt best (m_last st1) (m_aux st1) (m_out st1) (negb (S =? 2) && (cnt <? S))
    else mkM (i + 1) 0 sym (m_last st1) (m_aux st1) (m_out st1) false
  else mkM (i + 1) 0 sym (m_last st1) (m_aux st1) (m_out st1) false.

(** As [greedy_step], l.790-1003. *)
Definition greedy_stepW (c : shcfg) (In : mem) (n : Z) (st : estm (list (list Z) * wst))
    : estm (list (list Z) * wst) + estm (list (list Z) * wst) :=
  let S := shS c in let i := m_i st in
  if m_goto st then inl (greedy_secondW c In n st)
  else if i <? n then
    if negb (m_count st =? 0) && (i + S <=? n) then
      if eqb_bytes (load In S i) (m_sym st)
      then inl (mkM (i + S) (m_count st + S) (m_sym st) (m_last st) (m_aux st) (m_out st) false)
      else
        let m := common (m_sym st) (load In S i) in
        inl (greedy_secondW c In n (mkM (i + m) (m_count st + m) (m_sym st) (m_last st) (m_aux st) (m_out st) false))
    else inl (greedy_secondW c In n st)
  else inr st.

Definition greedy_bodyW (c : shcfg) (In : mem) (n : Z) (w : wst) : option wst :=
  match loop (greedy_stepW c In n) (mkM 0 0 (not_first (shS c) In) 0 (lut_init (shS c) (shSC c), w) [] false) with
  | Some st => Some (finishMW (sh_procW c) (putx (sh_term_none c)) (sh_term_litsW c) In st)
  | None => None
  end.

Definition greedy_write (c : shcfg) : wcompressor := w_wrap [] 8 (greedy_bodyW c).

(** *** rle8_extreme_cpu.h *)

(** multi_compress, l.86-344.  [undef]: header.compressedLength is not set when the header is
    copied (l.91-95). *)
Definition m_write (undef : Z) (pk avx2 : bool) : wcompressor :=
  w_wrap (le32 undef ++ [0]) 9 (fun In n w =>
    body8W (m_procV pk) (m_procS pk) (m_term_none pk) (m_term_lits pk) (if avx2 then 32 else 16) In n (255 - In 0) 0 w).

(** As [s_decide], l.1137-1284. *)
Definition s_decideW (pk : bool) (sym : Z) (In : mem) (n : Z) (sw : sst * wst) : option (sst * wst) :=
  let '(s, w) := sw in
  let i := ss_i s in let count := ss_count s in let last := ss_last s in
  let range := i - last - count + 1 in
  if sSHORT pk <=? count then
    if range <=? 255 then
      Some (mkS i count i [] 0 (ss_first s), putx (s_packet_short pk In i count last) w)
    else if s_accept_long pk count then
      Some (mkS i count i [] 0 (ss_first s), putx (s_packet_long pk In i count last) w)
    else
      let wc := ss_w s + 1 in
      if (wc =? 1) || (255 <? w64 (i - ss_first s)) then Some (mkS i count last [] 1 (i - count), w)
      else if 2 <? wc then
        match loop (recount_step In n sym) (ss_first s, 0) with
        | Some (i', count') =>
            Some (mkS i' count' i' [] 0 (ss_first s), putx (s_packet_wasted pk In i' count' last) w)
        | None => None
        end
      else Some (mkS i count last [] wc (ss_first s), w)
  else Some (s, w).

(** As [single_step], l.1115-1314. *)
Definition single_stepW (pk : bool) (sym : Z) (In : mem) (n : Z) (sw : sst * wst) : (sst * wst) + option (sst * wst) :=
  let '(s, w) := sw in
  if ss_i s <? n - 16 then
    let f := fun j => In (ss_i s + j) =? sym in
    let b := lead f 16 in
    if b =? 16 then inl (mkS (ss_i s + 16) (ss_count s + 16) (ss_last s) [] (ss_w s) (ss_first s), w)
    else
      match (if any f 16 || (1 <? ss_count s)
             then s_decideW pk sym In n (mkS (ss_i s + b) (ss_count s + b) (ss_last s) [] (ss_w s) (ss_first s), w)
             else Some (s, w)) with
      | Some (s1, w1) =>
          match loop (sscan_step (sSHORT pk) sym In n) (ss_i s1) with
          | Some (i', found) =>
              inl (mkS (i' + 1) (if found then 1 else 0) (ss_last s1) [] (ss_w s1) (ss_first s1), w1)
          | None => inr None
          end
      | None => inr None
      end
  else inr (Some sw).

(** single_compress, l.346-700. *)
Definition s_bodyW (pk : bool) (In : mem) (n : Z) (w : wst) : option wst :=
  match approx_symbol In n with
  | Some sym =>
      match loop (single_stepW pk sym In n) (mkS 0 0 0 [] 0 0, putx [sym] w) with
      | Some (Some (s1, w1)) =>
          match loop (scalar8_step true (onW8 (s_procS pk)) In n) (mk8 (ss_i s1) (ss_count s1) sym (ss_last s1) (tt, w1) []) with
          | Some s2 => Some (finish8W (s_procS pk) s_term_none s_term_lits In s2)
          | None => None
          end
      | _ => None
      end
  | None => None
  end.
Definition s_write (undef : Z) (pk : bool) : wcompressor := w_wrap (le32 undef ++ [1]) 9 (s_bodyW pk).
