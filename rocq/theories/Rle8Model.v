(** Model of the 8 bit "extreme" codecs rle8_multi, rle8_packed_multi, rle8_single and
    rle8_packed_single: src/rle8_extreme_cpu.h (compiled twice, plain and with PACKED and
    PREFER_7_BIT_OR_4_BYTE_COPY) and src/rle8_extreme_cpu.c. *)
From Verif Require Import Base Simd Spec ExtModel PktModel.

(** rle8_extreme_cpu.h l.1-24; [pk] is PACKED (and PREFER_7_BIT_OR_4_BYTE_COPY). *)
Definition mSHORT (pk : bool) : Z := if pk then 3 else 6.
Definition mMEDIUM : Z := 4.
Definition mLONG : Z := 11.     (* only used when PACKED *)
Definition sSHORT (pk : bool) : Z := if pk then 2 else 4.
Definition sMEDIUM : Z := 6.    (* only used when PACKED *)
Definition sLONG (pk : bool) : Z := if pk then 10 else 8.

(** *** Multi symbol encoder *)

(** Literal length field: l.153-178 (= l.254-280, l.848-872). *)
Definition m_range (pk : bool) (range : Z) : list Z :=
  if pk then (if range <=? 127 then [w8 (range * 2)] else le32 (Z.lor (range * 2) 1))
  else (if range <=? 255 then [w8 range] else 0 :: le32 range).

(** Symbol and count fields: l.120-151 (= l.215-252, l.803-846).  [same]: the symbol is
    omitted (only the SIMD loop of the PACKED codec does that). *)
Definition m_count (pk : bool) (sym count : Z) (same : bool) : list Z :=
  let sc := count - mSHORT pk + 1 in
  if pk then
    let m := if same then 128 else 0 in
    (if sc <=? 127 then [Z.lor (w8 sc) m] else m :: le32 sc) ++ (if same then [] else [sym])
  else [sym] ++ (if sc <=? 255 then [w8 sc] else 0 :: le32 sc).

Definition m_packet (pk : bool) (In : mem) (i count sym last : Z) (same : bool) : list Z :=
  m_count pk sym count same ++ m_range pk (i - last - count + 1) ++ slice In last (i - count - last).

(** Packet decision of compress_multi_sse2 / _avx2: l.801-890 (= l.969-1058).  The remembered
    value is [lastSymbol]. *)
Definition m_procV (pk : bool) : proc8 Z := fun In i count sym last lsym =>
  let range := i - last - count + 1 in
  if pk then
    if (mLONG <=? count) ||
       ((range <=? 127) && (((sym =? lsym) && (mSHORT pk <=? count)) || (mMEDIUM <=? count)))
    then Some (m_packet pk In i count sym last (sym =? lsym), sym) else None
  else
    if mSHORT pk <=? count then Some (m_packet pk In i count sym last false, sym) else None.

(** Packet decision of the scalar loop and the tail of multi_compress: l.119-192, l.207-289. *)
Definition m_procS (pk : bool) : proc8 Z := fun In i count sym last lsym =>
  if (if pk then mLONG else mSHORT pk) <=? count
  then Some (m_packet pk In i count sym last false, sym) else None.

(** End marker, first part: l.281-293 (= l.309-321). *)
Definition m_term_count (pk : bool) : list Z := if pk then 128 :: le32 0 else 0 :: 0 :: le32 0.
(** Second part after a run, l.295-303; with [k] literals following, l.325-333. *)
Definition m_term_none (pk : bool) : list Z := m_term_count pk ++ (if pk then le32 1 else 0 :: le32 0).
Definition m_term_lits (pk : bool) (k : Z) : list Z :=
  m_term_count pk ++ (if pk then le32 (Z.lor ((k + 1) * 2) 1) else 0 :: le32 (k + 1)).

(** multi_compress, l.86-344.  [avx2]: CPU level. *)
Definition m_compress (pk avx2 : bool) (inNull outNull : bool) (In : mem) (n outSize : Z) : cres :=
  if inNull || (n =? 0) || outNull || (outSize <? rle_compress_bounds n) then CRefused
  else
    match body8 (m_procV pk) (m_procS pk) (m_term_none pk) (m_term_lits pk) (if avx2 then 32 else 16) In n
            (mk8 0 0 (255 - In 0) 0 0 []) with
    | Some body => COk (le32 n ++ le32 (9 + len body) ++ [0] ++ body)
    | None => CDiverge
    end.

(** *** Single symbol encoder *)

(** Array update. *)
Definition upd (f : Z -> Z) (k v : Z) : Z -> Z := fun x => if x =? k then v else f x.

(** One iteration of the loop of rle8_single_compress_get_approx_optimal_symbol_sse2,
    rle8_extreme_cpu.c l.77-126.  State: inIndex, lastSymbol, count, prob, pcount. *)
Definition approx_step (In : mem) (n : Z) (s : Z * Z * Z * (Z -> Z) * (Z -> Z))
  : (Z * Z * Z * (Z -> Z) * (Z -> Z)) + option (Z * Z * (Z -> Z) * (Z -> Z)) :=
  let '(i, sym, count, prob, pcount) := s in
  if i <? n - 16 then
    let f := fun j => In (i + j) =? sym in
    let b := lead f 16 in
    if b =? 16 then inl (i + 16, sym, w32 (count + 15), prob, pcount)
    else
      let '(i1, prob1, pcount1) :=
        if any f 16 || (1 <? count)
        then (i + b, upd prob sym (w32 (prob sym + w32 (count + b))), upd pcount sym (w32 (pcount sym + 1)))
        else (i, prob, pcount) in
      match loop (scan8_step 16 In n) i1 with
      | Some i2 => inl (i2 + 1, In i2, 1, prob1, pcount1)
      | None => inr None
      end
  else inr (Some (sym, count, prob, pcount)).

(** Selection of the symbol that saves most, l.131-147. *)
Definition approx_best (prob pcount : Z -> Z) : Z * Z :=
  fold_left (fun '(best, idx) k =>
    let s := Z.of_nat k in
    if (0 <? pcount s) && (2 <? prob s / pcount s) then
      let saved := w32 (prob s - w32 (pcount s * 2)) in
      if best <? saved then (saved, s) else (best, idx)
    else (best, idx)) (seq 0 256) (0, 0).

(** rle8_single_compress_get_approx_optimal_symbol_sse2, rle8_extreme_cpu.c l.54-150. *)
Definition approx_symbol (In : mem) (n : Z) : option Z :=
  let pcount0 := if In 0 =? 0 then fun _ => 0 else upd (fun _ => 0) 0 (2 ^ 32 - 1) in
  match loop (approx_step In n) (0, 255 - In 0, 0, fun _ => 0, pcount0) with
  | Some (Some (sym, count, prob, pcount)) =>
      Some (snd (approx_best (upd prob sym (w32 (prob sym + count))) (upd pcount sym (w32 (pcount sym + 1)))))
  | _ => None
  end.

(** Count field: l.402-413 and everywhere else. *)
Definition s_count (pk : bool) (count : Z) : list Z :=
  let sc := count - sSHORT pk + 1 in if sc <=? 255 then [w8 sc] else 0 :: le32 sc.

Definition s_packet_short (pk : bool) (In : mem) (i count last : Z) : list Z :=
  s_count pk count ++ [w8 (i - last - count + 1)] ++ slice In last (i - count - last).
Definition s_packet_long (pk : bool) (In : mem) (i count last : Z) : list Z :=
  s_count pk count ++ (0 :: le32 (i - last - count + 1)) ++ slice In last (i - count - last).

(** Packet decision of the scalar loop and the tail: l.391-505, l.548-651. *)
Definition s_procS (pk : bool) : proc8 unit := fun In i count sym last _ =>
  let range := i - last - count + 1 in
  if (range <=? 255) && (sSHORT pk <=? count) then Some (s_packet_short pk In i count last, tt)
  else if sLONG pk <=? count then Some (s_packet_long pk In i count last, tt)
  else None.

(** State of compress_single_sse2: i, count, lastRLE, output, wastedChances, firstWastedChanceIndex. *)
Record sst := mkS { ss_i : Z; ss_count : Z; ss_last : Z; ss_out : list Z; ss_w : Z; ss_first : Z }.

(** Recount of the first wasted run, l.1256-1260. *)
Definition recount_step (In : mem) (n sym : Z) (s : Z * Z) : (Z * Z) + (Z * Z) :=
  let '(i, count) := s in
  if i <? n - 16 then (if In i =? sym then inl (i + 1, count + 1) else inr (i, count)) else inr (i, count).

(** The packet written after a roll back, l.1262-1278: the count is always one byte. *)
Definition s_packet_wasted (pk : bool) (In : mem) (i count last : Z) : list Z :=
  [w8 (count - sSHORT pk + 1)] ++ (0 :: le32 (i - last - count + 1)) ++ slice In last (i - count - last).

(** Acceptance of the long form, l.1189-1193. *)
Definition s_accept_long (pk : bool) (count : Z) : bool :=
  (sLONG pk <=? count) || (pk && (count - sSHORT pk + 1 <=? 255) && (sMEDIUM <=? count)).

(** Decision at the end of a run, l.1138-1286.  [None]: inner loop diverges. *)
Definition s_decide (pk : bool) (sym : Z) (In : mem) (n : Z) (s : sst) : option sst :=
  let i := ss_i s in let count := ss_count s in let last := ss_last s in
  let range := i - last - count + 1 in
  if sSHORT pk <=? count then
    if range <=? 255 then
      Some (mkS i count i (ss_out s ++ s_packet_short pk In i count last) 0 (ss_first s))
    else if s_accept_long pk count then
      Some (mkS i count i (ss_out s ++ s_packet_long pk In i count last) 0 (ss_first s))
    else
      let w := ss_w s + 1 in
      if (w =? 1) || (255 <? w64 (i - ss_first s)) then Some (mkS i count last (ss_out s) 1 (i - count))
      else if 2 <? w then
        match loop (recount_step In n sym) (ss_first s, 0) with
        | Some (i', count') =>
            Some (mkS i' count' i' (ss_out s ++ s_packet_wasted pk In i' count' last) 0 (ss_first s))
        | None => None
        end
      else Some (mkS i count last (ss_out s) w (ss_first s))
  else Some s.

(** __builtin_popcount of a lane mask. *)
Definition popcnt (f : Z -> bool) (W : Z) : Z := len (filter (fun k => f (Z.of_nat k)) (seq 0 (Z.to_nat W))).

(** Search for the symbol, l.1290-1312; result: position, found.  [lim] is the minimum run length
    (RLE8_EXTREME_SINGLE_MIN_RANGE_SHORT). *)
Definition sscan_step (lim sym : Z) (In : mem) (n i : Z) : Z + (Z * bool) :=
  if i <? n - 16 then
    let f := fun j => In (i + j) =? sym in
    if negb (any f 16) || (negb (f 15) && (popcnt f 16 <? lim)) then inl (i + 16)
    else inr (i + lead (fun j => negb (f j)) 16, true)
  else inr (i, false).

(** One iteration of compress_single_sse2, l.1115-1314. *)
Definition single_step (pk : bool) (sym : Z) (In : mem) (n : Z) (s : sst) : sst + option sst :=
  if ss_i s <? n - 16 then
    let f := fun j => In (ss_i s + j) =? sym in
    let b := lead f 16 in
    if b =? 16 then inl (mkS (ss_i s + 16) (ss_count s + 16) (ss_last s) (ss_out s) (ss_w s) (ss_first s))
    else
      match (if any f 16 || (1 <? ss_count s)
             then s_decide pk sym In n (mkS (ss_i s + b) (ss_count s + b) (ss_last s) (ss_out s) (ss_w s) (ss_first s))
             else Some s) with
      | Some s1 =>
          match loop (sscan_step (sSHORT pk) sym In n) (ss_i s1) with
          | Some (i', found) =>
              inl (mkS (i' + 1) (if found then 1 else 0) (ss_last s1) (ss_out s1) (ss_w s1) (ss_first s1))
          | None => inr None
          end
      | None => inr None
      end
  else inr (Some s).

(** End markers, l.562-580 (= l.645-663) and l.669-687. *)
Definition s_term_none : list Z := (0 :: le32 0) ++ (0 :: le32 0).
Definition s_term_lits (k : Z) : list Z := (0 :: le32 0) ++ (0 :: le32 (k + 1)).

(** single_compress, l.346-700.  [range + count] of l.689 is [copySize + 1]. *)
Definition s_compress (pk : bool) (inNull outNull : bool) (In : mem) (n outSize : Z) : cres :=
  if inNull || (n =? 0) || outNull || (outSize <? rle_compress_bounds n) then CRefused
  else
    match approx_symbol In n with
    | Some sym =>
        match loop (single_step pk sym In n) (mkS 0 0 0 [] 0 0) with
        | Some (Some s1) =>
            match loop (scalar8_step true (s_procS pk) In n) (mk8 (ss_i s1) (ss_count s1) sym (ss_last s1) tt (ss_out s1)) with
            | Some s2 =>
                let body := finish8 (s_procS pk) s_term_none s_term_lits In s2 in
                COk (le32 n ++ le32 (10 + len body) ++ [1] ++ [sym] ++ body)
            | None => CDiverge
            end
        | _ => CDiverge
        end
    | None => CDiverge
    end.

(** *** Decoders *)

(** The five implementations and the width of their MEMCPY / MEMSET macros. *)
Inductive d8 := D8Sse | D8Sse41 | D8Avx | D8Avx2 | D8Avx512.
Definition d8W (d : d8) : Z := match d with D8Sse | D8Sse41 => 16 | D8Avx | D8Avx2 => 32 | D8Avx512 => 64 end.

(** Literal length field of the multi symbol decoder, l.1588-1620: new pointer, offset, return. *)
Definition m_dec_range (pk : bool) (C : mem) (p : Z) : Z * Z * bool :=
  let b := C p in
  if pk then
    if Z.land b 1 =? 1 then let o := rd32 C p / 2 in (p + 4, o, o =? 0) else (p + 1, b / 2, false)
  else
    if b =? 0 then let o := rd32 C (p + 1) in (p + 1 + 4, o, o =? 0) else (p + 1, b, false).

(** Symbol and count fields, l.1558-1586: new pointer, symbol, count.  The register is the symbol
    broadcast to all lanes. *)
Definition m_dec_count (pk : bool) (C : mem) (p : Z) (sym : Z) : Z * Z * Z :=
  if pk then
    let b := C p in
    let cnt7 := Z.land b 127 in
    let same := negb (Z.land b 128 =? 0) in
    let '(p1, cnt) := if cnt7 =? 0 then (p + 1 + 4, rd32 C (p + 1)) else (p + 1, cnt7) in
    if same then (p1, sym, cnt) else (p1 + 1, C p1, cnt)
  else
    if C (p + 1) =? 0 then (p + 2 + 4, C p, rd32 C (p + 2)) else (p + 2, C p, C (p + 1)).

(** Header of one packet, l.1558-1620 (same text in decompress_multi_sse41, _avx, _avx2, _avx512f). *)
Definition m_parse (pk : bool) (C : mem) (p : Z) (sym : Z) : pres Z :=
  let '(p2, sym2, cnt) := m_dec_count pk C p sym in
  let '(p3, off, stop) := m_dec_range pk C p2 in
  if stop then PStop else PGo p3 sym2 (w64 (off - 1)) cnt.

(** l.1626-1632. *)
Definition m_fill (pk : bool) (d : d8) (sym : Z) (M : mem) (q cnt : Z) : option (Z * mem) :=
  memsetW (d8W d) sym M q (cnt + (mSHORT pk - 1)).

(** Single symbol decoder, l.2018-2076 (same text in the other four). *)
Definition s_parse (C : mem) (p : Z) (sym : Z) : pres Z :=
  let '(p2, cnt) := if C p =? 0 then (p + 1 + 4, rd32 C (p + 1)) else (p + 1, C p) in
  if C p2 =? 0 then
    let o := rd32 C (p2 + 1) in
    if o =? 0 then PStop else PGo (p2 + 1 + 4) sym (w64 (o - 1)) cnt
  else PGo (p2 + 1) sym (w64 (C p2 - 1)) cnt.

Definition s_fill (pk : bool) (d : d8) (sym : Z) (M : mem) (q cnt : Z) : option (Z * mem) :=
  memsetW (d8W d) sym M q (cnt + (sSHORT pk - 1)).

(** rle8_decompress / rle8_packed_decompress, l.702-764. *)
Definition r8_decompress (pk : bool) (d : d8) (C : mem) (pin inSize : Z) (M : mem) (pout outSize : Z) : dres :=
  if (pin =? 0) || (pout =? 0) || (inSize =? 0) || (outSize =? 0) then DRet 0 M
  else
    let expIn := rd32 C (pin + 4) in
    let expOut := rd32 C pin in
    let mode := C (pin + 8) in
    if (outSize <? expOut) || (inSize <? expIn) then DRet 0 M
    else if mode =? 0 then
      match loop (pkt_step (m_parse pk) (m_fill pk d) (d8W d) C) (pin + 9, pout, 0, M) with
      | Some (Some M') => DRet expOut M'
      | _ => DDiverge
      end
    else if mode =? 1 then
      match loop (pkt_step s_parse (s_fill pk d) (d8W d) C) (pin + 10, pout, C (pin + 9), M) with
      | Some (Some M') => DRet expOut M'
      | _ => DDiverge
      end
    else DRet 0 M.
