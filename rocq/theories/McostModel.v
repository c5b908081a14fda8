(** How often the loops of mmtf.c, bit_mmtf.c and rle8_mmtf.c are passed.  The work of one pass is
    bounded by a constant. *)
From Verif Require Import Base Simd Spec MtfModel MzModel CostModel.

(** *** mmtf.c *)

(** The inner loop of an encoder (mmtf.c l.138-153; MtfModel.v, [menc_vec]) *)
Definition menc_passes (W : Z) (symbols : Z -> Z) (H : Z -> Z -> Z) : option Z :=
  let cur := H 0 in
  let matched := mask W (fun j => symbols j =? cur j) in
  passes (menc_step W symbols) alone (1, 0, cur, vec W (fun _ => 0), matched, vec W (fun j => sel (matched j) (cur j)), H).
(** of a decoder (l.279-295; [mdec_vec]) *)
Definition mdec_passes (W : Z) (indices : Z -> Z) (H : Z -> Z -> Z) : option Z :=
  let cur := H 0 in
  let matched := mask W (fun j => indices j =? 0) in
  let out := vec W (fun j => sel (matched j) (cur j)) in
  passes (mdec_step W indices) alone (1, 0, cur, out, matched, out, H).
(** The search for the row of one of the last bytes, l.166-174 *)
Fixpoint row_passes (k : nat) (d : Z) (f : Z -> bool) : Z :=
  match k with O => 1 | S k' => if f d then 1 else 1 + row_passes k' (d + 1) f end.
(** l.161-175, l.303-310.  State: pIn, pOut, memory and the passes so far. *)
Definition mtail_count (dec : bool) (H : Z -> Z -> Z) (s : Z * Z * mem * Z) (i : Z) : Z * Z * mem * Z :=
  let '(p, q, M, k) := s in
  ((if dec then mdec_tail else menc_tail) H (p, q, M) i, k + 1 + if dec then 0 else row_passes 256 0 (fun d => H d i =? M p)).
(** All loops of [mtf_run]: l.122-159 with the ones inside, then those of the last bytes. *)
Definition mtf_passes (dec : bool) (W : Z) (M : mem) (pin inSize pout : Z) : option Z :=
  oadd
    (passes (mtf_step W (if dec then mdec_vec W else menc_vec W))
       (fun '(rem, p, q, M, H) => if W <=? rem then (if dec then mdec_passes else menc_passes) W (vec W (fun j => M (p + j))) H else Some 0)
       (inSize, pin, pout, M, hist0))
    match loop (mtf_step W (if dec then mdec_vec W else menc_vec W)) (inSize, pin, pout, M, hist0) with
    | Some (Some (rem, p, q, M, H)) => Some (1 + snd (fold_left (mtail_count dec H) (lanes rem) (p, q, M, 0)))
    | _ => None
    end.

(** *** bit_mmtf.c, l.18-60, l.64-128 *)
Definition bit8_passes {S} (one : (Z -> Z) -> S -> Z * S) (s0 : S) (M : mem) (pin inSize pout : Z) : option Z :=
  passes (b8_step one pin inSize pout) alone (0, s0, M).
Definition bit16_passes {S} (one : (Z -> Z) -> S -> Z * S) (s0 : S) (M : mem) (pin inSize pout : Z) : option Z :=
  passes (b16_step one pin (inSize - inSize mod 2) pout) alone (0, s0, M).

(** *** rle8_mmtf.c, rle8_mmtf128_compress *)

(** The loops of the packing functions, l.45-149, bitpack.h l.793-825 *)
Definition pack2_passes (M : mem) (pin pout size : Z) : option Z :=
  oadd (passes (pack2_step size) alone (0, pin, pout, M))
    match loop (pack2_step size) (0, pin, pout, M) with Some s => passes (pack2_tail size) alone s | None => None end.
Definition pack3_passes (M : mem) (pin pout size : Z) : option Z :=
  oadd (passes (pack3_step size) alone (0, pin, pout, M))
    match loop (pack3_step size) (0, pin, pout, M) with Some s => passes (pack3_tail size) alone s | None => None end.
Definition pack4_passes (M : mem) (pin pout size : Z) : option Z := passes (pack4_step size) alone (0, pin, pout, M).

(** l.240-368, l.454-582 ([copy_header]): the loop that moves the blocks or those of the packing function.
    Which bytes are packed does not matter here, so that the memory is taken as before the header. *)
Definition copy_passes (bits : Z -> Z) (M : mem) (h count : Z) : option Z :=
  let start := h + 4 in
  let to := if count <? 32 then start - 3 else start in
  if clear_of 240 bits then
    if clear_of 252 bits then pack2_passes M start to (count * 16)
    else if clear_of 248 bits then pack3_passes M start to (count * 16)
    else pack4_passes M start to (count * 16)
  else if count <? 32 then passes move_step alone (count, h + 4, h + 1, M)
  else Some 0.

(** The loops inside of one iteration, l.190-446 ([mz_step]) *)
Definition mz_inner (In : mem) (s : mzst) : option Z :=
  if z_rem s <? 16 then Some 0
  else
    oadd (menc_passes 16 (load In (z_in s)) (z_hist s))
      match menc_vec 16 (load In (z_in s)) (z_hist s) with
      | Some (out, _) => if z_copying s && uniform out then copy_passes (z_bits s) (z_mem s) (z_last s) (z_count s) else Some 0
      | None => None
      end.
(** l.628-643 *)
Definition mz_last_passes (In : mem) (H : Z -> Z -> Z) (p rem : Z) : Z :=
  1 + fold_right (fun i k => 1 + row_passes 256 0 (fun d => H d i =? In (p + i)) + k) 0 (lanes rem).
(** l.157-646 ([mz_run]) *)
Definition mz_passes (undef : Z -> Z) (M : mem) (pout : Z) (In : mem) (n : Z) : option Z :=
  let s0 := mkMz n 0 (pout + 8 + 4) (put32 M pout n) hist0 0 0 true undef (pout + 8) in
  oadd (passes (mz_step In) (mz_inner In) s0)
    match loop (mz_step In) s0 with
    | Some (Some s) =>
        oadd (if z_copying s then copy_passes (z_bits s) (z_mem s) (z_last s) (z_count s) else Some 0)
             (Some (mz_last_passes In (z_hist s) (z_in s) (z_rem s)))
    | _ => None
    end.

(** *** rle8_mmtf128_decompress *)

(** The inner loops of the blocks [l], one after the other *)
Fixpoint blocks_passes (s : MzModel.dst) (l : list (Z -> Z)) : option Z :=
  match l with
  | [] => Some 0
  | v :: l => oadd match s with Some (q, M, H) => mdec_passes 16 v H | None => None end (blocks_passes (dblock s v) l)
  end.
Definition dgroup_inner (g : Z) (unpack : mem -> Z -> list (Z -> Z)) (C : mem) (s : Z * Z * MzModel.dst) : option Z :=
  let '(rem, p, st) := s in if g <=? rem then blocks_passes st (unpack C p) else Some 0.
Definition dloop_passes (g adv : Z) (unpack : mem -> Z -> list (Z -> Z)) (C : mem) (s : Z * Z * MzModel.dst) : option Z :=
  passes (dgroup g adv unpack C) (dgroup_inner g unpack C) s.

(** l.671-1148 ([dcopy]) *)
Definition dcopy_passes (C : mem) (p : Z) (st : MzModel.dst) : option Z :=
  let b := C p in
  let '(rem, p) := if Z.land b 1 =? 0 then (b / 2 ^ 3, p + 1) else (rd32 C p / 2 ^ 3, p + 4) in
  let both g adv un un_tail adv_tail :=
    oadd (dloop_passes g adv un C (rem, p, st))
      match dloop g adv un C (rem, p, st) with Some s => dloop_passes 1 adv_tail un_tail C s | None => None end in
  if Z.land b 6 =? 0 then dloop_passes 1 16 unraw C (rem, p, st)
  else if Z.land b 6 =? 6 then both 4 16 un2 un2_tail 4
  else if Z.land b 6 =? 4 then both 6 36 un3 un3_tail 6
  else
    oadd (dloop_passes 2 16 un4 C (rem, p, st))
      match dloop 2 16 un4 C (rem, p, st) with
      | Some (rem, p, st) => if rem =? 0 then Some 0 else blocks_passes st (un4_tail C p)
      | None => None
      end.
(** l.1174-1274 ([drun]): the rows of a cycle are a loop (l.1245-1249) for the symbols from 3 on; so is the
    move of the rows (l.1264-1269). *)
Definition drun_passes (sym count q : Z) (M : mem) (H : Z -> Z -> Z) : option Z :=
  oadd (passes (cyc_step sym H) (fun '(count, _, _) => Some (if (2 <? sym) && (sym + 1 <=? count) then sym + 2 else 0)) (count, q, M))
    match loop (cyc_step sym H) (count, q, M) with
    | Some (count, q, M) =>
        if sym <=? 2 then Some 0
        else passes (rest_step sym) (fun '(count, _, _, _) => Some (if count =? 0 then 0 else sym + 1)) (count, q, M, H)
    | None => None
    end.
(** The loops inside of one pass of the loop l.669-1276 ([mz_dstep]) *)
Definition mz_dinner (C : mem) (s : Z * (Z * mem * (Z -> Z -> Z))) : option Z :=
  let '(p, st) := s in
  oadd (dcopy_passes C p (Some st))
    match dcopy C p (Some st) with
    | Some (p, Some (q, M, H)) =>
        let b := C p in
        let '(count, p) := if Z.land b 1 =? 0 then (b / 2, p + 1) else (rd32 C p / 2, p + 4) in
        if count =? 0 then Some 0 else drun_passes (C p) count q M H
    | _ => Some 0
    end.
(** l.649-1291 ([mz_decompress]) after the checks *)
Definition mz_dpasses (C : mem) (pin : Z) (M : mem) (pout : Z) : option Z :=
  let s0 := (pin + 8, (pout, M, hist0)) in
  oadd (passes (mz_dstep C) (mz_dinner C) s0)
    match loop (mz_dstep C) s0 with
    | Some (Some (_, (q, _, _))) => Some (1 + w64 (pout + rd32 C pin - q))
    | _ => None
    end.
