(** Model of rle8_low_entropy_cpu.c, rle8_low_entropy_short_cpu.c (run length coding of selected
    byte values, run lengths written as table entries) and of the multi section format rle8m
    in rle8_low_entropy_cpu.c.

    [L] is the longest run of one packet: 255 in rle8_low_entropy_cpu.c (and rle8m),
    ULTRA_MAX_BLOCK_LENGTH = 32 in rle8_low_entropy_short_cpu.c. *)
From Verif Require Import Base Simd Spec ExtModel PktModel Rle8Model.

(** The byte values in ascending order: [for (i = 0; i < 256; i++)]. *)
Definition range256 : list Z := map Z.of_nat (seq 0 256).
Definition upto (k : Z) : list Z := map Z.of_nat (seq 0 (Z.to_nat k)).

(** *** Statistics *)

(** rle8_low_entropy_compress_info_t, rle.h l.67-72: table of run counts, flags, symbolCount. *)
Record leinfo := mkLi { li_syms : list Z; li_rle : Z -> bool; li_count : Z }.

(** Body of the counting loop, rle8_low_entropy_cpu.c l.280-293 (the same at l.367-380 and in
    rle8_low_entropy_short_cpu.c l.562-575, l.649-662).  State: lastSymbol, count, prob, pcount. *)
Definition hist_step (L : Z) (s : Z * Z * (Z -> Z) * (Z -> Z)) (b : Z) : Z * Z * (Z -> Z) * (Z -> Z) :=
  let '(last, count, prob, pcount) := s in
  if b =? last then (last, w32 (count + 1), prob, pcount)
  else (b, 1, upd prob last (w32 (prob last + count)), upd pcount last (w32 (pcount last + (count / L + 1)))).

(** prob and pcount: l.274-296. *)
Definition hist (L : Z) (In : mem) (n : Z) : (Z -> Z) * (Z -> Z) :=
  let pcount0 := if In 0 =? 0 then fun _ => 0 else upd (fun _ => 0) 0 (2 ^ 32 - 1) in
  let '(last, count, prob, pcount) := fold_left (hist_step L) (slice In 0 n) (0, 0, fun _ => 0, pcount0) in
  (upd prob last (w32 (prob last + count)), upd pcount last (w32 (pcount last + 1))).

(** Tables of 256 entries, indexed. *)
Definition tab {X} (d : X) (l : list X) : Z -> X := fun k => nth (Z.to_nat k) l d.

(** Most frequent unconsumed value, the first one if several: l.316-326.  State: max, maxIndex. *)
Definition sel_max (pcount : Z -> Z) (consumed : Z -> bool) : Z :=
  snd (fold_left (fun '(m, mi) i => if negb (consumed i) && (m <? pcount i) then (pcount i, i) else (m, mi)) range256 (0, 0)).

(** l.314-330. *)
Fixpoint select (k : nat) (pcount : Z -> Z) (consumed : Z -> bool) : list Z :=
  match k with
  | O => []
  | S k' => let x := sel_max pcount consumed in
            x :: select k' pcount (fun i => (i =? x) || consumed i)
  end.

(** symbolsByProb and symbolCount, l.304-333.  The loop l.304-312 writes the values that do not
    occur from the back in descending order: they follow the others in ascending order. *)
Definition le_table (pcount : Z -> Z) : list Z * Z :=
  let unused := filter (fun i => pcount i =? 0) range256 in
  let remaining := 256 - len unused in
  (select (Z.to_nat remaining) pcount (fun i => pcount i =? 0) ++ unused, w8 remaining).

(** rle8_low_entropy_get_compress_info l.254-338 and, for the symbol saving most,
    rle8_low_entropy_get_compress_info_only_max_frequency l.340-439; in
    rle8_low_entropy_short_cpu.c l.536-620, l.622-721.  The selection l.385-403 is
    the one of [approx_best]. *)
Definition le_info (L : Z) (max : bool) (In : mem) (n : Z) : leinfo :=
  let '(prob, pcount) := hist L In n in
  let prob := tab 0 (map prob range256) in
  let pcount := tab 0 (map pcount range256) in
  let '(syms, count) := le_table pcount in
  let rle := if max then let '(best, idx) := approx_best prob pcount in
                         fun i => (0 <? best) && (i =? idx)
             else fun i => (0 <? pcount i) && (2 <=? prob i / pcount i) in
  mkLi syms (tab false (map rle range256)) count.

(** rle8_low_entropy_write_compress_info, l.441-472. *)
Definition flag_byte (rle : Z -> bool) (i : Z) : Z :=
  fold_left (fun acc j => Z.lor acc (Z.shiftl (if rle (j + i * 8) then 1 else 0) j)) (upto 8) 0.
Definition le_written (count : Z) : Z := if count =? 0 then 255 else count.
Definition write_info (info : leinfo) : list Z :=
  map (flag_byte (li_rle info)) (upto 32) ++ [li_count info] ++
  firstn (Z.to_nat (le_written (li_count info))) (li_syms info).

(** *** Encoder *)

(** One iteration of rle8_low_entropy_compress_with_info, l.488-540 (short: l.142-194).  The two
    loops differ in [range] only; as [i] only grows, they are one loop that looks at [target].
    State: i, output. *)
Definition le_step (L : Z) (info : leinfo) (In : mem) (n : Z) (s : Z * list Z) : (Z * list Z) + list Z :=
  let '(i, out) := s in
  if i <? n then
    let b := In i in
    if li_rle info b then
      let range := if i <? n - 256 then L else w8 (Z.min (n - i - 1) L) in
      let count := lead (fun j => In (1 + j + i) =? b) (range - 1) in
      inl (i + count + 1, out ++ [b; tab 0 (li_syms info) count])
    else inl (i + 1, out ++ [b])
  else inr out.

(** [In] relative to the section.  Refusal (0) of l.476: [None] is refusal, [Some None] divergence. *)
Definition le_with_info (L : Z) (info : leinfo) (In : mem) (n outSize : Z) : option (option (list Z)) :=
  if (n =? 0) || (outSize <? n) then None
  else Some (loop (le_step L info In n) (0, [])).

(** rle8_low_entropy_compress_bounds, l.6-9 (short: l.16-19, not used there). *)
Definition le_bounds (n : Z) : Z := w32 (n + 32 + 1 + 256 + 8).

(** rle8_low_entropy_compress, l.11-50, _only_max_frequency, l.52-91; short: l.21-101.  The size
    returned is the length of the bytes; that it is cut to 32 bits matters only for outputs
    of 2^32 bytes and more. *)
Definition le_compress (L : Z) (max : bool) : nullable_compressor := fun inNull outNull In n outSize =>
  if inNull || (n =? 0) || outNull || (outSize <? le_bounds n) then CRefused
  else
    let info := le_info L max In n in
    if outSize <? 32 + 256 + 1 then CRefused
    else
      let head := write_info info in
      match le_with_info L info In n (w32 (outSize - (8 + len head))) with
      | None => CRefused
      | Some None => CDiverge
      | Some (Some body) =>
          if w32 (len body) =? 0 then CRefused
          else COk (le32 (8 + len head + len body) ++ le32 n ++ head ++ body)
      end.

(** *** Decoder *)

(** rle8_low_entropy_read_decompress_info, l.545-606: flags, symbolToCount, bytes read. *)
Definition read_rle (C : mem) (p : Z) : Z -> bool :=
  fun i => negb (Z.land (C (p + i / 8)) (2 ^ (i mod 8)) =? 0).
Definition read_table (syms : list Z) : Z -> Z :=
  let t1 := fold_left (fun t i => upd t (tab 0 syms i) i) (upto (len syms)) (fun _ => 0) in
  fst (fold_left (fun '(t, next) i => if existsb (Z.eqb i) syms then (t, next) else (upd t i next, w8 (next + 1)))
         range256 (t1, w8 (len syms))).
Definition read_info (C : mem) (p : Z) : (Z -> bool) * (Z -> Z) * Z :=
  let k := le_written (C (p + 32)) in
  (tab false (map (read_rle C p) range256), tab 0 (map (read_table (slice C (p + 33) k)) range256), 33 + k).

(** CPU features looked at: avxSupported, avx2Supported. *)
Record cpu := mkCpu { cpu_avx : bool; cpu_avx2 : bool }.
Definition cpus : list cpu := [mkCpu false false; mkCpu true false; mkCpu true true; mkCpu false true].

(** Fill after a packet in the SIMD loops, l.657-683, l.742-768, l.803-831, l.880-912: the code
    of the macros MEMSET_SSE and MEMSET_AVX. *)
Definition le_fillV (W b : Z) (M : mem) (q count : Z) : option mem :=
  if count =? 0 then Some M
  else match memsetW W b M q count with Some (_, M') => Some M' | None => None end.

(** Short: l.248-250, l.309-310, l.344-351, l.405-406.  [multi]: the SSE variant skips empty runs. *)
Definition les_fillV (multi : bool) (W b : Z) (M : mem) (q count : Z) : option mem :=
  if multi && (W =? 16) && (count =? 0) then Some M
  else if W =? 16 then Some (vstore 16 (fun _ => b) (vstore 16 (fun _ => b) M q) (q + 16))
  else Some (vstore 32 (fun _ => b) M q).

(** One iteration of the SIMD loops l.627-685, l.712-770, l.779-842, l.856-923 (short: l.218-252,
    l.279-312, l.321-362, l.376-417).  [hit]: the lanes looked for.  The multi symbol variants look
    at the lanes one by one; the first hit is the first set bit.  State: pIn, pOut, memory.
    [pEnd - 256] is taken as a number: addresses below 256 are not valid. *)
Definition le_simd_step (W : Z) (hit : Z -> bool) (fill : Z -> mem -> Z -> Z -> option mem) (stc : Z -> Z)
    (C : mem) (pPreEnd : Z) (s : Z * Z * mem) : (Z * Z * mem) + option (Z * Z * mem) :=
  let '(p, q, M) := s in
  if p <? pPreEnd then
    let M1 := vcopy W C p M q in
    let idx := lead (fun j => negb (hit (C (p + j)))) W in
    if idx =? W then inl (p + W, q + W, M1)
    else
      let b := C (p + idx) in
      let p1 := p + idx + 1 in
      let q1 := q + idx + 1 in
      let count := stc (C p1) in
      match fill b M1 q1 count with
      | Some M2 => inl (p1 + 1, q1 + count, M2)
      | None => inr None
      end
  else inr (Some (p, q, M)).

(** Run of the final loop, l.980-1016 (short: l.490-526): new pointer and memory.  The stores of the
    loop l.1002-1007 (short: l.512-517) are aligned; [inr None]: one faults. *)
Definition fillS_step (b : Z) (s : Z * Z * mem) : (Z * Z * mem) + option (Z * Z * mem) :=
  let '(q, rem, M) := s in
  if 15 <? rem then
    if al_ok 16 q then inl (q + 16, rem - 16, vstore 16 (fun _ => b) M q) else inr None
  else inr (Some (q, rem, M)).
Definition le_fillS (b : Z) (M : mem) (q count : Z) : option (Z * mem) :=
  if count <? 16 then Some (q + count, vstore count (fun _ => b) M q)
  else
    let '(q1, rem, M1) := if q mod 16 =? 0 then (q, count, M)
                          else (q - q mod 16 + 16, count - (q - q mod 16 + 16 - q), vstore 16 (fun _ => b) M q) in
    match loop (fillS_step b) (q1, rem, M1) with
    | Some (Some (q2, rem2, M2)) =>
        Some (if rem2 =? 0 then (q2, M2) else (q2 + rem2, vstore 16 (fun _ => b) M2 (q2 - (16 - rem2))))
    | _ => None
    end.

(** One iteration of the final loop, l.969-1019 (short: l.479-529). *)
Definition le_tail_step (rle : Z -> bool) (stc : Z -> Z) (C : mem) (pEnd : Z) (s : Z * Z * mem)
    : (Z * Z * mem) + option (Z * Z * mem) :=
  let '(p, q, M) := s in
  if p <? pEnd then
    let b := C p in
    let M1 := vstore 1 (fun _ => b) M q in
    if rle b then
      match le_fillS b M1 (q + 1) (stc (C (p + 1))) with
      | Some (q2, M2) => inl (p + 2, q2, M2)
      | None => inr None
      end
    else inl (p + 1, q + 1, M1)
  else inr (Some (p, q, M)).

(** rle8_low_entropy_decompress_with_info, l.930-1022; short: l.440-532.  rleSymbolCount is a
    uint8_t.  The single symbol loops look for the first selected value. *)
Definition le_decode (L : Z) (c : cpu) (rle : Z -> bool) (stc : Z -> Z) (C : mem) (p pEnd : Z) (M : mem) (q expOut : Z) : dres :=
  let rleCount := w8 (len (filter rle range256)) in
  if rleCount =? 0 then DRet expOut (vcopy expOut C p M q)
  else
    let multi := negb (rleCount =? 1) in
    let W := if (if multi then cpu_avx c else cpu_avx2 c) then 32 else 16 in
    let sym := hd 0 (filter rle range256) in
    let hit := if multi then rle else Z.eqb sym in
    let fill := if L =? 255 then le_fillV W else les_fillV multi W in
    match loop (le_simd_step W hit fill stc C (pEnd - 256)) (p, q, M) with
    | Some (Some s) =>
        match loop (le_tail_step rle stc C pEnd) s with
        | Some (Some (_, _, M')) => DRet expOut M'
        | _ => DDiverge
        end
    | _ => DDiverge
    end.

(** rle8_low_entropy_decompress, l.101-122; short: l.103-124. *)
Definition le_decompress (L : Z) (c : cpu) : decompressor := fun C pin inSize M pout outSize =>
  if (pin =? 0) || (pout =? 0) || (inSize =? 0) || (outSize =? 0) then DRet 0 M
  else
    let expIn := rd32 C pin in
    let expOut := rd32 C (pin + 4) in
    if (outSize <? expOut) || (inSize <? expIn) then DRet 0 M
    else
      let '(rle, stc, k) := read_info C (pin + 8) in
      le_decode L c rle stc C (pin + 8 + k) (pin + expIn) M pout expOut.

(** rle8_low_entropy_decompressed_size, l.93-99. *)
Definition le_decompressed_size (C : mem) (pin inSize : Z) : Z :=
  if (pin =? 0) || (inSize <? 8) then 0 else rd32 C (pin + 4).

(** *** rle8m *)

(** rle8m_compress_bounds, l.126-129. *)
Definition rm_bounds (subs n : Z) : Z := w32 (w32 (n + 32 + 1 + 256) + 4 * w32 (2 + subs - 1 + 1)).

(** One section, l.164-174.  State: i, index, offsets, sections. *)
Definition rm_step (info : leinfo) (In : mem) (subs sub outSize : Z) (s : Z * Z * list Z * list Z)
    : (Z * Z * list Z * list Z) + cres * (Z * list Z * list Z) :=
  let '(i, index, offs, out) := s in
  if i <? subs - 1 then
    match le_with_info 255 info (fun k => In (w32 (sub * i) + k)) sub (w32 (outSize - index)) with
    | None => inr (CRefused, (index, offs, out))
    | Some None => inr (CDiverge, (index, offs, out))
    | Some (Some body) =>
        let index1 := index + len body in
        inl (i + 1, index1, offs ++ le32 (w32 index1), out ++ body)
    end
  else inr (COk [], (index, offs, out)).

(** rle8m_compress, l.131-191. *)
Definition rm_compress (subs : Z) : nullable_compressor := fun inNull outNull In n outSize =>
  if inNull || (n =? 0) || outNull || (outSize <? rm_bounds subs n) || (subs =? 0) then CRefused
  else
    let info := le_info 255 false In n in
    if outSize <? 32 + 256 + 1 then CRefused
    else
      let head := write_info info in
      let sub := n / subs in
      match loop (rm_step info In subs sub outSize) (0, 12 + 4 * (subs - 1) + len head, [], []) with
      | Some (COk _, (index, offs, out)) =>
          let rest := w32 (n - w32 (sub * (subs - 1))) in
          match le_with_info 255 info (fun k => In (w32 (sub * (subs - 1)) + k)) rest (w32 (outSize - index)) with
          | None => CRefused
          | Some None => CDiverge
          | Some (Some body) =>
              COk (le32 (w32 (index + len body)) ++ le32 n ++ le32 subs ++ offs ++ head ++ out ++ body)
          end
      | Some (r, _) => r
      | None => CDiverge
      end.

(** One section of rle8m_decompress, l.223-235.  State: i, pCIn, pOut, memory. *)
Definition rmd_step (c : cpu) (rle : Z -> bool) (stc : Z -> Z) (C : mem) (pin subs sub : Z) (s : Z * Z * Z * mem)
    : (Z * Z * Z * mem) + option (Z * Z * mem) :=
  let '(i, p, q, M) := s in
  if i <? subs - 1 then
    let pEnd := pin + rd32 C (pin + 12 + 4 * i) in
    match le_decode 255 c rle stc C p pEnd M q sub with
    | DRet _ M1 => inl (i + 1, pEnd, q + sub, M1)
    | DDiverge => inr None
    end
  else inr (Some (p, q, M)).

(** rle8m_decompress, l.193-250.  decompress_with_info always returns the size it is given, so the
    tests l.230 and l.245 never fail.  The last section ends at [pIn + inSize], l.241. *)
Definition rm_decompress (c : cpu) : decompressor := fun C pin inSize M pout outSize =>
  if (pin =? 0) || (pout =? 0) || (inSize =? 0) || (outSize =? 0) then DRet 0 M
  else
    let expIn := rd32 C pin in
    let expOut := rd32 C (pin + 4) in
    if (outSize <? expOut) || (inSize <? expIn) then DRet 0 M
    else
      let subs := rd32 C (pin + 8) in
      if subs =? 0 then DRet 0 M
      else
        let '(rle, stc, k) := read_info C (pin + 12 + 4 * (subs - 1)) in
        let sub := expOut / subs in
        match loop (rmd_step c rle stc C pin subs sub) (0, pin + 12 + 4 * (subs - 1) + k, pout, M) with
        | Some (Some (p, q, M1)) =>
            match le_decode 255 c rle stc C p (pin + inSize) M1 q (w32 (expOut - w32 (sub * (subs - 1)))) with
            | DRet _ M2 => DRet expOut M2
            | DDiverge => DDiverge
            end
        | _ => DDiverge
        end.
