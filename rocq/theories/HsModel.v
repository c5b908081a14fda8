(** Model of rle_sh.c (rle8_sh).

    The control flow of the encoder never looks at the output buffer.  The encoder is therefore
    modelled as the list of the writes it does, in order ([op]), and the writes are then executed
    one after the other on the memory that contains the output buffer ([exec]). *)
From Verif Require Import Base Simd Spec MtfModel MzModel.

(** rle8_sh_bounds, l.93-96: uint32_t + size_t, truncated to uint32_t *)
Definition sh_bounds (n : Z) : Z := w32 (n + 4 * 2 + 1 + 4).

(** *** Writing *)

(** rle8_sh_write_bits(pHeader, bits, count); one or more stores through pOut, which advance it *)
Inductive op := Bits (bits count : Z) | Put (l : list Z).

(** Memory, pOut and rle8_sh_header_state without the unused pHeaderStart.  headerSize is a
    uint32_t; at most 4 bits per byte of input are written, so that it cannot wrap. *)
Record wst := mkW { w_mem : mem; w_out : Z; w_hp : Z; w_next : Z; w_hs : Z }.

(** l.26-36 *)
Definition wbit (w : wst) (b : Z) : wst :=
  let M := put8 (w_mem w) (w_hp w) (Z.lor (w_mem w (w_hp w)) (b * 2 ^ w_next w)) in
  let next := Z.land (w_next w + 1) 7 in
  if next =? 0 then mkW (put8 M (w_hp w - 1) 0) (w_out w) (w_hp w - 1) next (w_hs w + 1)
  else mkW M (w_out w) (w_hp w) next (w_hs w).
(** l.20-38 *)
Definition write_bits (w : wst) (bits count : Z) : wst :=
  fst (fold_left (fun '(w, value) _ => (wbit w (Z.land value 1), value / 2)) (lanes count) (w, bits)).
Definition exec (w : wst) (o : op) : wst :=
  match o with
  | Bits bits count => write_bits w bits count
  | Put l => mkW (store (w_mem w) (w_out w) l) (w_out w + len l) (w_hp w) (w_next w) (w_hs w)
  end.

(** *** rle8_sh_compress *)

(** lastRleSymbol, lastOccuredSymbol, secondMostImportant, thirdMostImportant; l.287-290, l.526-529 *)
Record syms := mkS { s_rle : Z; s_occ : Z; s_sec : Z; s_thr : Z }.
Definition syms0 : syms := mkS 127 128 128 126.
(** l.136-142, l.181-187, l.250-256, l.547-553, l.662-668 *)
Definition learn (g : syms) (sym : Z) : syms :=
  if sym =? s_occ g then mkS (s_rle g) sym sym (s_sec g) else mkS (s_rle g) sym (s_sec g) (s_thr g).
Definition seen (g : syms) (sym : Z) : syms := mkS (s_rle g) sym (s_sec g) (s_thr g).

(** One symbol: l.118-149 ([enc]), l.160-194, l.229-264.  [enc] selects the pattern of the third symbol. *)
Definition sh_symbol (enc : bool) (a : list op * syms) (sym : Z) : list op * syms :=
  let '(ops, g) := a in
  if sym =? s_rle g then (ops ++ [Bits 0 1], g)
  else if sym =? s_sec g then (ops ++ [Bits 3 3], seen g sym)
  else if sym =? s_thr g then (ops ++ [if enc then Bits 7 3 else Bits 7 4], seen g sym)
  else (ops ++ [Bits 1 2; Put [sym]], learn g sym).
(** for (i = 0; i < count; i++) over pBlockStart[i] *)
Definition sh_symbols (enc : bool) (In : mem) (start count : Z) (a : list op * syms) : list op * syms :=
  fold_left (fun a i => sh_symbol enc a (In (start + i))) (lanes count) a.

(** rle8_sh_encoded_copy, l.98-203; the state of the loop is remainingCopyCount, pBlockStart and
    what was written. *)
Definition ecopy_step (In : mem) (s : Z * Z * (list op * syms)) : (Z * Z * (list op * syms)) + (list op * syms) :=
  let '(remaining, start, (ops, g)) := s in
  if remaining =? 0 then inr (ops, g)
  else if 161 <? remaining then
    let stored := Z.min 255 (remaining - 161) in
    let count := stored + 161 in
    inl (remaining - count, start + count, sh_symbols true In start count (ops ++ [Bits 127 7; Put [w8 stored]], g))
  else inr (sh_symbols false In start remaining (ops, g)).
Definition ecopy (In : mem) (start count : Z) (a : list op * syms) : option (list op * syms) :=
  loop (ecopy_step In) (count, start, a).

(** rle8_sh_copy, l.205-267 *)
Definition scopy (In : mem) (start count : Z) (a : list op * syms) : list op * syms :=
  let '(ops, g) := a in
  if 255 + 7 <? count then (ops ++ [Bits 63 7; Put (le32 (w32 (count - 7))); Put (slice In start count)], g)
  else if 7 <=? count then (ops ++ [Bits 31 7; Put [w8 (count - 7)]; Put (slice In start count)], g)
  else sh_symbols false In start count (ops, g).

(** l.401-406, l.318-323 *)
Definition change_ops (count sym : Z) : list op := [Bits 95 7; Put (le32 (w32 (count - 14))); Put [sym]].
(** l.415-435, l.464-484 *)
Definition run_ops (count rle : Z) : list op :=
  if 255 + 14 <? count then change_ops count rle
  else if 14 <=? count then [Bits 15 5; Put [w8 (count - 14)]]
  else map (fun _ => Bits 0 1) (lanes count).

Record est := mkE {
  e_ops : list op; e_g : syms; e_last : Z; e_copy : Z; e_change : Z; e_run : Z; e_sym : Z;
  e_same : bool; e_wascopy : bool; e_blk : Z }.

(** One iteration, l.302-448. *)
Definition sh_step (In : mem) (os : option est) (i : Z) : option est :=
  match os with
  | None => None
  | Some s =>
      let symbol := In i in
      let a := (e_ops s, e_g s) in
      let rle := s_rle (e_g s) in
      if symbol =? rle then
        if negb (e_same s) then
          if 10 <=? e_change s then
            (* l.308-329 *)
            let '(ops, g) := scopy In (e_blk s) (w64 (e_copy s - e_change s)) a in
            Some (mkE (ops ++ change_ops (e_change s) (e_last s)) (mkS (e_last s) (s_occ g) (s_sec g) (s_thr g))
                      symbol 1 1 0 0 false (e_wascopy s) (e_blk s + e_copy s))
          else
            (* l.333-336 *)
            Some (mkE (e_ops s) (e_g s) symbol (e_copy s) 0 1 (e_sym s + 1) true (e_wascopy s) (e_blk s))
        else
          let run := e_run s + 1 in
          let sym := e_sym s + 1 in
          if 14 <? run then
            (* l.346-364 *)
            let real := w64 (sym - run) in
            let r := if w64 (w64 (e_copy s - real) * 2) <? w64 (real * 7) then ecopy In (e_blk s) (e_copy s) a
                     else Some (scopy In (e_blk s) (e_copy s) a) in
            match r with
            | Some (ops, g) => Some (mkE ops g symbol 0 (e_change s) run 0 true false (e_blk s + e_copy s))
            | None => None
            end
          else Some (mkE (e_ops s) (e_g s) (e_last s) (e_copy s) (e_change s) run sym (e_same s) (e_wascopy s) (e_blk s))
      else
        (* l.370-375 *)
        let back := e_same s && e_wascopy s in
        let same := if back then false else e_same s in
        let copy := if back then e_copy s + e_run s else e_copy s in
        let run := if back then 0 else e_run s in
        (* l.377-411: what was written, lastSymbol, copyCount, rleChangeCount, rleSymbolCopyCount, pBlockStart *)
        let r :=
          if symbol =? e_last s then Some (a, e_last s, copy, e_change s + 1, e_sym s, e_blk s)
          else if 10 <=? e_change s then
            let without := w64 (copy - e_change s) in
            let r := if w64 (w64 (without - e_sym s) * 2) <? w64 (e_sym s * 7) then ecopy In (e_blk s) without a
                     else Some (scopy In (e_blk s) without a) in
            match r with
            | Some (ops, g) => Some (ops ++ change_ops (e_change s) (e_last s), mkS (e_last s) (s_occ g) (s_sec g) (s_thr g),
                                     symbol, 0, 1, 0, e_blk s + copy)
            | None => None
            end
          else Some (a, symbol, copy, 1, e_sym s, e_blk s) in
        match r with
        | Some (ops, g, last, copy, change, sym, blk) =>
            (* l.413-447 *)
            if negb (e_wascopy s) then Some (mkE (ops ++ run_ops run (s_rle g)) g last 1 change 0 0 false true i)
            else Some (mkE ops g last (copy + 1) change run sym same true blk)
        | None => None
        end
  end.

(** l.287-490 *)
Definition sh_ops (In : mem) (n : Z) : option (list op) :=
  match fold_left (sh_step In) (lanes n) (Some (mkE [] syms0 0 0 0 0 0 false false 0)) with
  | Some s =>
      let ops :=
        if e_wascopy s then
          let copy := if e_same s then e_copy s + e_run s else e_copy s in
          fst (scopy In (e_blk s) copy (e_ops s, e_g s))
        else e_ops s ++ run_ops (e_run s) (s_rle (e_g s)) in
      Some (ops ++ [Bits 63 7; Put (le32 0)])
  | None => None
  end.

(** memmove *)
Definition move (M : mem) (dst src count : Z) : mem :=
  fun x => if (dst <=? x) && (x <? dst + count) then M (src + (x - dst)) else M x.

(** l.274-504: the returned size and the memory *)
Definition sh_run (In : mem) (n cap : Z) (M : mem) (pout : Z) : option (Z * mem) :=
  match sh_ops In n with
  | Some ops =>
      let M := put32 M pout n in
      let top := pout + cap - 1 in
      let w := fold_left exec ops (mkW (put8 M top 0) (pout + 8) top 0 1) in
      let headerOffset := w32 (w_out w - pout) in
      let '(hs, hp) := if w_next w =? 0 then (w_hs w - 1, w_hp w + 1) else (w_hs w, w_hp w) in
      let M := move (w_mem w) (w_out w) hp hs in
      let r := w32 (headerOffset + hs) in
      Some (r, put32 M (pout + 4) r)
  | None => None
  end.

(** rle8_sh_compress, l.269-505 *)
Definition sh_compress (M : mem) (pout : Z) (inNull outNull : bool) (In : mem) (n cap : Z) : cres :=
  if inNull || (n =? 0) || outNull || (cap <? mz_bounds n) then CRefused
  else
    match sh_run In n cap M pout with
    | Some (r, M) => COk (slice M pout r)
    | None => CDiverge
    end.

(** *** rle8_sh_decompress *)

(** rle8_sh_read_header: value, remainingBits, pHeader *)
Record rst := mkR { r_value : Z; r_rem : Z; r_hp : Z }.
(** rle8_sh_consume_bits, l.47-58.  remainingBits stays between 1 and 16; the shift is done as int
    and truncated to uint16_t. *)
Definition consume (C : mem) (h : rst) (bits : Z) : rst :=
  let rem := r_rem h - bits in
  let value := r_value h / 2 ^ bits in
  if rem <=? 8 then mkR (Z.lor value (C (r_hp h) * 2 ^ rem) mod 65536) (rem + 8) (r_hp h - 1)
  else mkR value rem (r_hp h).
Definition bit (h : rst) (k : Z) : bool := negb (Z.land (r_value h) (2 ^ k) =? 0).

(** pIn, pOut, memory, symbols, header *)
Record dst := mkD { d_in : Z; d_out : Z; d_mem : mem; d_g : syms; d_h : rst }.

(** l.535-574 and, with [enc], l.650-689: one symbol; [None] if none of these patterns is there. *)
Definition dsymbol (enc : bool) (C : mem) (s : dst) : option dst :=
  let h := d_h s in
  let g := d_g s in
  let emit sym g bits := Some (mkD (d_in s) (d_out s + 1) (put8 (d_mem s) (d_out s) sym) g (consume C h bits)) in
  if negb (bit h 0) then emit (s_rle g) g 1
  else if negb (bit h 1) then
    let sym := C (d_in s) in
    Some (mkD (d_in s + 1) (d_out s + 1) (put8 (d_mem s) (d_out s) sym) (learn g sym) (consume C h 2))
  else if negb (bit h 2) then emit (s_sec g) (seen g (s_sec g)) 3
  else if enc then emit (s_thr g) (seen g (s_thr g)) 3
  else if negb (bit h 3) then emit (s_thr g) (seen g (s_thr g)) 4
  else None.

(** memset *)
Definition fill (M : mem) (p v count : Z) : mem := fun x => if (p <=? x) && (x <? p + count) then v else M x.

(** One iteration, l.535-695; [inr] is the return of l.614. *)
Definition sh_dstep (C : mem) (s : dst) : dst + mem :=
  match dsymbol false C s with
  | Some s => inl s
  | None =>
      let h := d_h s in
      let g := d_g s in
      let p := d_in s in
      let q := d_out s in
      if negb (bit h 4) then
        (* l.577-585 *)
        let count := C p + 14 in
        inl (mkD (p + 1) (q + count) (fill (d_mem s) q (s_rle g) count) g (consume C h 5))
      else
        let value := Z.land (r_value h / 2 ^ 5) 3 in
        let h := consume C h 7 in
        if value =? 0 then
          (* l.594-606 *)
          let count := C p + 7 in
          inl (mkD (p + 1 + count) (q + count) (store (d_mem s) q (slice C (p + 1) count)) g h)
        else if value =? 1 then
          (* l.608-625 *)
          let count := rd32 C p in
          if count =? 0 then inr (d_mem s)
          else
            let count := count + 7 in
            inl (mkD (p + 4 + count) (q + count) (store (d_mem s) q (slice C (p + 4) count)) g h)
        else if value =? 2 then
          (* l.627-640 *)
          let count := w32 (rd32 C p + 14) in
          let sym := C (p + 4) in
          inl (mkD (p + 5) (q + count) (fill (d_mem s) q sym count) (mkS sym (s_occ g) (s_sec g) (s_thr g)) h)
        else
          (* l.642-693 *)
          let count := C p + 161 in
          match fold_left (fun os _ => match os with Some s => dsymbol true C s | None => None end) (lanes count)
                          (Some (mkD (p + 1) q (d_mem s) g h)) with
          | Some s => inl s
          | None => inr (d_mem s) (* never: dsymbol true is total *)
          end
  end.

(** rle8_sh_decompress, l.509-697 *)
Definition sh_decompress : decompressor := fun C pin inSize M pout outSize =>
  if (pin =? 0) || (pout =? 0) || (inSize =? 0) || (outSize =? 0) then DRet 0 M
  else
    let expectedOut := rd32 C pin in
    let expectedIn := rd32 C (pin + 4) in
    if (outSize <? expectedOut) || (inSize <? expectedIn) then DRet 0 M
    else
      let hp := pin + expectedIn - 1 in
      match loop (sh_dstep C) (mkD (pin + 8) pout M syms0 (mkR (C hp) 8 (hp - 1))) with
      | Some M => DRet expectedOut M
      | None => DDiverge
      end.
