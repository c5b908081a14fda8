(** How often the loops of rle_sh.c are passed.  The work of one pass is bounded by a constant; memcpy and
    memset count as one pass for every byte, apart from the memmove of the header at the end of the
    encoder, which is shorter than the stream. *)
From Verif Require Import Base Simd Spec MtfModel MzModel HsModel CostModel.

(** *** rle8_sh_compress *)

(** rle8_sh_encoded_copy, l.98-203 ([ecopy]): the loop and those over the symbols, l.118-149, l.160-194 *)
Definition ecopy_passes (In : mem) (start count : Z) (a : list op * syms) : option Z :=
  passes (ecopy_step In)
    (fun '(remaining, _, _) =>
       Some (if remaining =? 0 then 0 else if 161 <? remaining then Z.min 255 (remaining - 161) + 161 + 1 else remaining + 1))
    (count, start, a).
(** rle8_sh_copy, l.205-267 ([scopy]): memcpy or the loop l.229-264 *)
Definition scopy_passes (count : Z) : Z := count + 1.
(** l.415-435, l.464-484 ([run_ops]) *)
Definition run_passes (count : Z) : Z := if 14 <=? count then 0 else count + 1.

(** The loops inside of one iteration, l.302-448; the branches are those of [sh_step]. *)
Definition sh_inner (In : mem) (s : est) (i : Z) : option Z :=
  let symbol := In i in
  let a := (e_ops s, e_g s) in
  if symbol =? s_rle (e_g s) then
    if negb (e_same s) then
      if 10 <=? e_change s then Some (scopy_passes (w64 (e_copy s - e_change s))) else Some 0
    else
      let run := e_run s + 1 in
      let sym := e_sym s + 1 in
      if 14 <? run then
        let real := w64 (sym - run) in
        if w64 (w64 (e_copy s - real) * 2) <? w64 (real * 7) then ecopy_passes In (e_blk s) (e_copy s) a
        else Some (scopy_passes (e_copy s))
      else Some 0
  else
    let back := e_same s && e_wascopy s in
    let copy := if back then e_copy s + e_run s else e_copy s in
    let run := if back then 0 else e_run s in
    oadd
      (if symbol =? e_last s then Some 0
       else if 10 <=? e_change s then
         let without := w64 (copy - e_change s) in
         if w64 (w64 (without - e_sym s) * 2) <? w64 (e_sym s * 7) then ecopy_passes In (e_blk s) without a
         else Some (scopy_passes without)
       else Some 0)
      (Some (if negb (e_wascopy s) then run_passes run else 0)).
(** One iteration and the passes so far *)
Definition sh_count (In : mem) (st : option est * option Z) (i : Z) : option est * option Z :=
  let '(os, k) := st in
  (sh_step In os i, match os with Some s => oadd k (oadd (Some 1) (sh_inner In s i)) | None => None end).
(** rle8_sh_write_bits, l.24-37 *)
Definition bits_passes (ops : list op) : Z := fold_right (fun o k => match o with Bits _ c => c + 1 | Put _ => 0 end + k) 0 ops.
(** l.287-490 ([sh_ops]) and the loops of all calls of rle8_sh_write_bits *)
Definition hs_passes (In : mem) (n : Z) : option Z :=
  match fold_left (sh_count In) (lanes n) (Some (mkE [] syms0 0 0 0 0 0 false false 0), Some 0), sh_ops In n with
  | (Some s, Some k), Some ops =>
      Some (k + 1 + (if e_wascopy s then scopy_passes (if e_same s then e_copy s + e_run s else e_copy s) else run_passes (e_run s)) + bits_passes ops)
  | _, _ => None
  end.

(** *** rle8_sh_decompress *)

(** memset and memcpy of l.577-640, and the loop l.650-689, inside of one iteration *)
Definition sh_dinner (C : mem) (s : dst) : option Z :=
  match dsymbol false C s with
  | Some _ => Some 0
  | None =>
      let p := d_in s in
      if negb (bit (d_h s) 4) then Some (C p + 14)
      else
        let value := Z.land (r_value (d_h s) / 2 ^ 5) 3 in
        if value =? 0 then Some (C p + 7)
        else if value =? 1 then Some (if rd32 C p =? 0 then 0 else rd32 C p + 7)
        else if value =? 2 then Some (w32 (rd32 C p + 14))
        else Some (C p + 161 + 1)
  end.
(** l.509-697 ([sh_decompress]) after the checks *)
Definition hs_dpasses (C : mem) (pin : Z) (M : mem) (pout : Z) : option Z :=
  let hp := pin + rd32 C (pin + 4) - 1 in
  passes (sh_dstep C) (sh_dinner C) (mkD (pin + 8) pout M syms0 (mkR (C hp) 8 (hp - 1))).
