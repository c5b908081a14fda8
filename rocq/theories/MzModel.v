(** Model of rle8_mmtf.c (rle8_mmtf128) and of bitpack_encode4_sse2_unaligned_m128i of bitpack.h. *)
From Verif Require Import Base Simd Spec MtfModel.

(** rle8_mmtf128_compress_bounds, l.26-32. *)
Definition mz_bounds (n : Z) : Z := if 2 ^ 30 <? n then 0 else w32 (n + 8).

(** 16 bit lanes of two bytes: _mm_slli_epi16, _mm_srli_epi16. *)
Definition lane16 (v : Z -> Z) (j : Z) : Z := v (j - j mod 2) + 256 * v (j - j mod 2 + 1).
Definition sll16 (k : Z) (v : Z -> Z) : Z -> Z := fun j => ((lane16 v j * 2 ^ k) mod 65536 / 256 ^ (j mod 2)) mod 256.
Definition srl16 (k : Z) (v : Z -> Z) : Z -> Z := fun j => (lane16 v j / 2 ^ k / 256 ^ (j mod 2)) mod 256.
Definition vor (a b : Z -> Z) : Z -> Z := fun j => Z.lor (a j) (b j).
Definition vand (a : Z -> Z) (m : Z) : Z -> Z := fun j => Z.land (a j) m.
(** _mm_movemask_epi8: the top bits *)
Definition movemask8 (v : Z -> Z) : Z := movemask (fun j => 128 <=? v j).
Definition load (M : mem) (p : Z) : Z -> Z := vec 16 (fun j => M (p + j)).
Definition put8 (M : mem) (p v : Z) : mem := vstore 1 (fun _ => v) M p.
Definition put16 (M : mem) (p v : Z) : mem := store M p (le16 v).
Definition put32 (M : mem) (p v : Z) : mem := store M p (le32 v).
(** 64 bit load and store *)
Definition rd64 (M : mem) (p : Z) : Z := rd32 M p + 2 ^ 32 * rd32 M (p + 4).
Definition put64 (M : mem) (p v : Z) : mem := store M p (le32 (v mod 2 ^ 32) ++ le32 (v / 2 ^ 32)).

(** *** Packing, in place.  [pin], [pout] point into the same memory; state: i, pIn, pOut, memory. *)

(** bitpack_encode2_simple_sse2_unaligned_m128i, l.45-85: l.51-66 and l.68-84 *)
Definition pack2_step (size : Z) (s : Z * Z * Z * mem) : (Z * Z * Z * mem) + (Z * Z * Z * mem) :=
  let '(i, p, q, M) := s in
  if i <=? size - 64 then
    let p0 := load M p in let p1 := load M (p + 16) in let p2 := load M (p + 32) in let p3 := load M (p + 48) in
    let pack := vec 16 (vor (vor (sll16 6 p3) (sll16 4 p2)) (vor (sll16 2 p1) p0)) in
    inl (i + 64, p + 64, q + 16, vstore 16 pack M q)
  else inr s.
Definition pack2_tail (size : Z) (s : Z * Z * Z * mem) : (Z * Z * Z * mem) + (Z * mem) :=
  let '(i, p, q, M) := s in
  if i <? size then
    let combined := Z.lor (Z.lor (Z.lor (rd32 M p) (w32 (rd32 M (p + 4) * 2 ^ 2))) (w32 (rd32 M (p + 8) * 2 ^ 4))) (w32 (rd32 M (p + 12) * 2 ^ 6)) in
    inl (i + 16, p + 16, q + 4, put32 M q combined)
  else inr (q, M).
Definition pack2 (M : mem) (pin pout size : Z) : option (Z * mem) :=
  match loop (pack2_step size) (0, pin, pout, M) with
  | Some s => loop (pack2_tail size) s
  | None => None
  end.

(** bitpack_encode3_simple_sse2_unaligned_m128i, l.91-149: l.98-128 and l.130-146 *)
Definition pack3_step (size : Z) (s : Z * Z * Z * mem) : (Z * Z * Z * mem) + (Z * Z * Z * mem) :=
  let '(i, p, q, M) := s in
  if i <=? size - 96 then
    let p0 := load M p in let p1 := load M (p + 16) in let p2 := load M (p + 32) in
    let p3 := load M (p + 48) in let p4 := load M (p + 64) in let p5 := load M (p + 80) in
    let cA := vec 16 (vor (vor p0 (sll16 3 p1)) (sll16 6 (vand p2 3))) in
    let M1 := vstore 16 cA M q in
    let cB := vec 16 (vor (vor p3 (sll16 3 p4)) (sll16 6 (vand p5 3))) in
    let M2 := vstore 16 cB M1 (q + 16) in
    let mask25 := Z.lor (movemask8 (sll16 5 p2)) (w32 (movemask8 (sll16 5 p5) * 2 ^ 16)) in
    inl (i + 96, p + 96, q + 36, put32 M2 (q + 32) mask25)
  else inr s.
Definition pack3_tail (size : Z) (s : Z * Z * Z * mem) : (Z * Z * Z * mem) + (Z * mem) :=
  let '(i, p, q, M) := s in
  if i <? size then
    let p0 := load M p in
    let M1 := put16 M q (movemask8 (sll16 7 p0)) in
    let M2 := put16 M1 (q + 2) (movemask8 (sll16 6 p0)) in
    let M3 := put16 M2 (q + 4) (movemask8 (sll16 5 p0)) in
    inl (i + 16, p + 16, q + 6, M3)
  else inr (q, M).
Definition pack3 (M : mem) (pin pout size : Z) : option (Z * mem) :=
  match loop (pack3_step size) (0, pin, pout, M) with
  | Some s => loop (pack3_tail size) s
  | None => None
  end.

(** bitpack_encode4_sse2_unaligned_m128i, bitpack.h l.793-825 *)
Definition pack4_step (size : Z) (s : Z * Z * Z * mem) : (Z * Z * Z * mem) + (Z * Z * Z * mem) :=
  let '(i, p, q, M) := s in
  if i <=? size - 32 then
    let hi := load M p in let lo := load M (p + 16) in
    inl (i + 32, p + 32, q + 16, vstore 16 (vec 16 (vor (sll16 4 hi) lo)) M q)
  else inr s.
Definition pack4 (M : mem) (pin pout size : Z) : option (Z * mem) :=
  match loop (pack4_step size) (0, pin, pout, M) with
  | Some (i, p, q, M) =>
      if i <? size then Some (q + 8, put64 M q (Z.lor (rd64 M p) (w64 (rd64 M (p + 8) * 2 ^ 4))))
      else Some (q, M)
  | None => None
  end.

(** l.292-305, l.506-519: state: remainingCount, pSrc, pDst, memory *)
Definition move_step (s : Z * Z * Z * mem) : (Z * Z * Z * mem) + mem :=
  let '(c, p, q, M) := s in
  if c =? 0 then inr M else inl (c - 1, p + 16, q + 16, vstore 16 (load M p) M q).

(** *** rle8_mmtf128_compress *)

(** No bits of [m] used: l.257, l.260, l.268. *)
Definition clear_of (m : Z) (bits : Z -> Z) : bool := forallb (fun j => 0 =? Z.land m (bits j)) (lanes 16).

(** The header of a copy and the packing of its blocks, l.240-368 and l.454-582.  [h] is
    pLastHeader, [q] is pOut; returns pOut and the memory. *)
Definition copy_header (bits : Z -> Z) (M : mem) (h q count : Z) : option (Z * mem) :=
  let start := h + 4 in
  if count <? 32 then
    let M := put8 M h (w8 (w8 count * 2 ^ 3)) in
    let q := q - 3 in
    if clear_of 240 bits then
      if clear_of 252 bits then pack2 (put8 M h (Z.lor (M h) 6)) start (start - 3) (count * 16)
      else if clear_of 248 bits then pack3 (put8 M h (Z.lor (M h) 4)) start (start - 3) (count * 16)
      else pack4 (put8 M h (Z.lor (M h) 2)) start (start - 3) (count * 16)
    else
      match loop move_step (count, h + 4, h + 1, M) with
      | Some M => Some (q, M)
      | None => None
      end
  else
    let M := put32 M h (Z.lor (w32 (w32 count * 2 ^ 3)) 1) in
    if clear_of 240 bits then
      if clear_of 252 bits then pack2 (put8 M h (Z.lor (M h) 6)) start start (count * 16)
      else if clear_of 248 bits then pack3 (put8 M h (Z.lor (M h) 4)) start start (count * 16)
      else pack4 (put8 M h (Z.lor (M h) 2)) start start (count * 16)
    else Some (q, M).

(** The header of a run, l.397-411, l.599-617. *)
Definition run_header (M : mem) (h count symbol : Z) : Z * mem :=
  if count <? 128 then (h + 2, put8 (put8 M h (w8 (w8 count * 2))) (h + 1) symbol)
  else (h + 5, put8 (put32 M h (Z.lor (w32 (w32 count * 2)) 1)) (h + 4) symbol).

(** All lanes equal to the lowest, l.229-231 *)
Definition uniform (out : Z -> Z) : bool := forallb (fun j => out j =? out 0) (lanes 16).

Record mzst := mkMz {
  z_rem : Z; z_in : Z; z_out : Z; z_mem : mem; z_hist : Z -> Z -> Z;
  z_symbol : Z; z_count : Z; z_copying : bool; z_bits : Z -> Z; z_last : Z }.

(** One iteration, l.190-446. *)
Definition mz_step (In : mem) (s : mzst) : mzst + option mzst :=
  if z_rem s <? 16 then inr (Some s)
  else
    match menc_vec 16 (load In (z_in s)) (z_hist s) with
    | None => inr None
    | Some (out, H) =>
        let go := mkMz (z_rem s - 16) (z_in s + 16) in
        if z_copying s then
          if uniform out then
            match copy_header (z_bits s) (z_mem s) (z_last s) (z_out s) (z_count s) with
            | Some (q, M) => inl (go q M H (out 0) 1 false (z_bits s) q)
            | None => inr None
            end
          else inl (go (z_out s + 16) (vstore 16 out (z_mem s) (z_out s)) H (z_symbol s) (z_count s + 1) true
                       (vec 16 (vor (z_bits s) out)) (z_last s))
        else if forallb (fun j => z_symbol s =? out j) (lanes 16) then
          inl (go (z_out s) (z_mem s) H (z_symbol s) (z_count s + 1) false (z_bits s) (z_last s))
        else
          let '(q, M) := run_header (z_mem s) (z_last s) (z_count s) (z_symbol s) in
          if uniform out then inl (go (q + 1) (put8 M q 0) H (out 0) 1 false (z_bits s) (q + 1))
          else inl (go (q + 4 + 16) (vstore 16 out M (q + 4)) H (z_symbol s) 1 true out q)
    end.

(** l.448-626 *)
Definition mz_finish (s : mzst) : option (Z * mem) :=
  if z_copying s then
    match copy_header (z_bits s) (z_mem s) (z_last s) (z_out s) (z_count s) with
    | Some (q, M) => Some (q + 1, put8 M q 0)
    | None => None
    end
  else
    let '(q, M) := run_header (z_mem s) (z_last s) (z_count s) (z_symbol s) in
    Some (q + 2, put8 (put8 M q 0) (q + 1) 0).

(** l.628-643: state: pIn, pOut, memory *)
Definition mz_last (In : mem) (H : Z -> Z -> Z) (s : Z * Z * mem) (i : Z) : Z * Z * mem :=
  let '(p, q, M) := s in
  match find_row 256 0 (fun d => H d i =? In p) with
  | Some d => (p + 1, q + 1, put8 M q (w8 d))
  | None => (p + 1, q, M)
  end.

(** l.157-646: what happens after the check of the arguments.  [undef] is what currentBitMask
    contains after _mm_undefined_si128: any 16 bytes.  Returns the value and the memory. *)
Definition mz_run (undef : Z -> Z) (In : mem) (n : Z) (M : mem) (pout : Z) : option (Z * mem) :=
  let M := put32 M pout n in
  let q := pout + 8 in
  match loop (mz_step In) (mkMz n 0 (q + 4) M hist0 0 0 true undef q) with
  | Some (Some s) =>
      match mz_finish s with
      | Some (q, M) =>
          let '(_, q, M) := fold_left (mz_last In (z_hist s)) (lanes (z_rem s)) (z_in s, q, M) in
          let r := w32 (q - pout) in
          Some (r, put32 M (pout + 4) r)
      | None => None
      end
  | _ => None
  end.

(** rle8_mmtf128_compress, l.153-647.  The output buffer at [pout] contains anything ([M]) before;
    the result is what it contains afterwards, up to the returned size. *)
Definition mz_compress (undef : Z -> Z) (M : mem) (pout : Z) (inNull outNull : bool) (In : mem) (n cap : Z) : cres :=
  if inNull || (n =? 0) || outNull || (cap <? mz_bounds n) then CRefused
  else
    match mz_run undef In n M pout with
    | Some (r, M) => COk (slice M pout r)
    | None => CDiverge
    end.

(** *** rle8_mmtf128_decompress *)

(** Decode one block of indices and store it, e.g. l.725-757: pOut, memory, history. *)
Definition dst := option (Z * mem * (Z -> Z -> Z)).
Definition dblock (s : dst) (indices : Z -> Z) : dst :=
  match s with
  | Some (q, M, H) =>
      match mdec_vec 16 indices H with
      | Some (out, H) => Some (q + 16, vstore 16 out M q, H)
      | None => None
      end
  | None => None
  end.

(** A loop that reads [adv] bytes for [g] blocks: inSizeRemaining, pIn, state. *)
Definition dgroup (g adv : Z) (unpack : mem -> Z -> list (Z -> Z)) (C : mem) (s : Z * Z * dst) : (Z * Z * dst) + (Z * Z * dst) :=
  let '(rem, p, st) := s in
  if g <=? rem then inl (rem - g, p + adv, fold_left dblock (unpack C p) st) else inr s.
Definition dloop (g adv : Z) (unpack : mem -> Z -> list (Z -> Z)) (C : mem) (s : Z * Z * dst) : option (Z * Z * dst) :=
  loop (dgroup g adv unpack C) s.

(** l.725 *)
Definition unraw (C : mem) (p : Z) : list (Z -> Z) := [load C p].
(** l.771-785; l.828-833 *)
Definition un2 (C : mem) (p : Z) : list (Z -> Z) :=
  let pack := load C p in
  map (vec 16) [vand pack 3; vand (srl16 2 pack) 3; vand (srl16 4 pack) 3; vand (srl16 6 pack) 3].
Definition un2_tail (C : mem) (p : Z) : list (Z -> Z) :=
  let combined := rd32 C p in
  [vec 16 (fun j => Z.land ((combined / 2 ^ (2 * (j / 4)) / 256 ^ (j mod 4)) mod 256) 3)].
(** _mm_unpacklo_epi8, _mm_unpackhi_epi8, _mm_set1_epi32, _mm_set1_epi16 and the bits selected by
    patternBitSelect, as 0 and 1: l.904-914, l.975-997 *)
Definition unpacklo (a b : Z -> Z) : Z -> Z := fun j => if j mod 2 =? 0 then a (j / 2) else b (j / 2).
Definition unpackhi (a b : Z -> Z) : Z -> Z := fun j => if j mod 2 =? 0 then a (8 + j / 2) else b (8 + j / 2).
Definition set1_32 (x : Z) : Z -> Z := fun j => (x / 256 ^ (j mod 4)) mod 256.
Definition set1_16 (x : Z) : Z -> Z := fun j => (x / 256 ^ (j mod 2)) mod 256.
Definition bitsel (v : Z -> Z) : Z -> Z := fun j => Z.min (Z.land (v j) (2 ^ (j mod 8))) 1.
(** l.884-923; l.966-1002 *)
Definition un3 (C : mem) (p : Z) : list (Z -> Z) :=
  let cA := load C p in
  let cB := load C (p + 16) in
  let v := set1_32 (rd32 C (p + 32)) in
  let v := unpacklo v v in
  let v := unpacklo v v in
  let vlo := bitsel (unpacklo v v) in
  let vhi := bitsel (unpackhi v v) in
  map (vec 16) [vand cA 7; vand (srl16 3 cA) 7; vor (vand (srl16 6 cA) 3) (sll16 2 vlo);
                vand cB 7; vand (srl16 3 cB) 7; vor (vand (srl16 6 cB) 3) (sll16 2 vhi)].
Definition un3_tail (C : mem) (p : Z) : list (Z -> Z) :=
  let bits x := let v := set1_16 x in let v := unpacklo v v in let v := unpacklo v v in bitsel (unpacklo v v) in
  [vec 16 (vor (vor (sll16 1 (bits (rd16 C (p + 2)))) (sll16 2 (bits (rd16 C (p + 4))))) (bits (rd16 C p)))].
(** l.1050-1060; l.1103-1108 *)
Definition un4 (C : mem) (p : Z) : list (Z -> Z) :=
  let pack := load C p in
  map (vec 16) [vand (srl16 4 pack) 15; vand pack 15].
Definition un4_tail (C : mem) (p : Z) : list (Z -> Z) :=
  let v := rd64 C p in
  [vec 16 (fun j => Z.land ((v / 2 ^ (4 * (j / 8)) / 256 ^ (j mod 8)) mod 256) 15)].

(** l.671-1148: pIn, state *)
Definition dcopy (C : mem) (p : Z) (st : dst) : option (Z * dst) :=
  let b := C p in
  let '(rem, p) := if Z.land b 1 =? 0 then (b / 2 ^ 3, p + 1) else (rd32 C p / 2 ^ 3, p + 4) in
  let both g adv un un_tail adv_tail :=
    match dloop g adv un C (rem, p, st) with
    | Some s => match dloop 1 adv_tail un_tail C s with Some (_, p, st) => Some (p, st) | None => None end
    | None => None
    end in
  if Z.land b 6 =? 0 then
    match dloop 1 16 unraw C (rem, p, st) with Some (_, p, st) => Some (p, st) | None => None end
  else if Z.land b 6 =? 6 then both 4 16 un2 un2_tail 4
  else if Z.land b 6 =? 4 then both 6 36 un3 un3_tail 6
  else
    match dloop 2 16 un4 C (rem, p, st) with
    | Some (rem, p, st) => if rem =? 0 then Some (p, st) else Some (p + 8, fold_left dblock (un4_tail C p) st)
    | None => None
    end.

(** l.1178-1182: symbol 0; l.1189-1194; l.1211-1217 and l.1243-1252: runs of whole cycles.
    State: count, pOut, memory. *)
Definition cyc_step (sym : Z) (H : Z -> Z -> Z) (s : Z * Z * mem) : (Z * Z * mem) + (Z * Z * mem) :=
  let '(count, q, M) := s in
  if sym + 1 <=? count then
    let '(_, M) := fold_left (fun '(q, M) i => (q + 16, vstore 16 (H (sym - i)) M q)) (lanes (sym + 1)) (q, M) in
    inl (count - (sym + 1), q + 16 * (sym + 1), M)
  else inr s.
(** l.1260-1270: rows symbol .. 1 *)
Definition down (H : Z -> Z -> Z) (sym : Z) : Z -> Z -> Z :=
  fold_left (fun H i => hrow H (sym - i) (H (sym - i - 1))) (lanes sym) H.
(** l.1254-1273: count, pOut, memory, history *)
Definition rest_step (sym : Z) (s : Z * Z * mem * (Z -> Z -> Z)) : (Z * Z * mem * (Z -> Z -> Z)) + (Z * mem * (Z -> Z -> Z)) :=
  let '(count, q, M, H) := s in
  if count =? 0 then inr (q, M, H)
  else
    let v := H sym in
    inl (count - 1, q + 16, vstore 16 v M q, hrow (down H sym) 0 v).

(** l.1174-1274 *)
Definition drun (sym count q : Z) (M : mem) (H : Z -> Z -> Z) : dst :=
  match loop (cyc_step sym H) (count, q, M) with
  | Some (count, q, M) =>
      if sym =? 0 then Some (q, M, H)
      else if sym =? 1 then
        if count =? 0 then Some (q, M, H)
        else Some (q + 16, vstore 16 (H 1) M q, hrow (hrow H 0 (H 1)) 1 (H 0))
      else if sym =? 2 then
        if count =? 2 then Some (q + 32, vstore 16 (H 1) (vstore 16 (H 2) M q) (q + 16), hrow (hrow (hrow H 0 (H 1)) 1 (H 2)) 2 (H 0))
        else if count =? 1 then Some (q + 16, vstore 16 (H 2) M q, hrow (hrow (hrow H 0 (H 2)) 1 (H 0)) 2 (H 1))
        else Some (q, M, H)
      else
        match loop (rest_step sym) (count, q, M, H) with
        | Some r => Some r
        | None => None
        end
  | None => None
  end.

(** The loop l.669-1276: pIn, pOut, memory, history. *)
Definition mz_dstep (C : mem) (s : Z * (Z * mem * (Z -> Z -> Z))) : (Z * (Z * mem * (Z -> Z -> Z))) + option (Z * (Z * mem * (Z -> Z -> Z))) :=
  let '(p, st) := s in
  match dcopy C p (Some st) with
  | Some (p, Some (q, M, H)) =>
      let b := C p in
      let '(count, p) := if Z.land b 1 =? 0 then (b / 2, p + 1) else (rd32 C p / 2, p + 4) in
      if count =? 0 then inr (Some (p, (q, M, H)))
      else
        match drun (C p) count q M H with
        | Some st => inl (p + 1, st)
        | None => inr None
        end
  | _ => inr None
  end.

(** l.1281-1288.  history[index * 16 + i]: of the encoder's streams i is below 16; beyond it belongs
    to a later row.  What lies behind the 256 rows is taken to be more rows. *)
Definition mz_dlast (C : mem) (H : Z -> Z -> Z) (s : Z * Z * mem) (i : Z) : Z * Z * mem :=
  let '(p, q, M) := s in (p + 1, q + 1, put8 M q (H (C p + i / 16) (i mod 16))).

(** rle8_mmtf128_decompress, l.649-1291.  l.1279 is unsigned; if more was written than announced
    the loop would run for a wrapped number of bytes. *)
Definition mz_decompress : decompressor := fun C pin inSize M pout outSize =>
  if (pin =? 0) || (pout =? 0) || (inSize =? 0) || (outSize =? 0) then DRet 0 M
  else
    let expectedOut := rd32 C pin in
    let expectedIn := rd32 C (pin + 4) in
    if (outSize <? expectedOut) || (inSize <? expectedIn) then DRet 0 M
    else
      match loop (mz_dstep C) (pin + 8, (pout, M, hist0)) with
      | Some (Some (p, (q, M, H))) =>
          let remaining := w64 (pout + expectedOut - q) in
          let '(_, _, M) := fold_left (mz_dlast C H) (lanes remaining) (p, q, M) in
          DRet expectedOut M
      | _ => DDiverge
      end.
