(** How often the loops of rle8m (rle8_low_entropy_cpu.c) are passed; the tables of the values are not
    counted, as in CostModel.v and DcostModel.v. *)
From Verif Require Import Base Simd Spec LeModel CostModel DcostModel.

(** A section: rle8_low_entropy_compress_with_info, l.474-541 ([le_with_info]) *)
Definition section_passes (info : leinfo) (In : mem) (a m outSize : Z) : option Z :=
  if (m =? 0) || (outSize <? m) then Some 0 else le_passes 255 info (fun k => In (a + k)) m.
(** Inside of one iteration of l.164-174 ([rm_step]) *)
Definition rm_inner (info : leinfo) (In : mem) (subs sub outSize : Z) (s : Z * Z * list Z * list Z) : option Z :=
  let '(i, index, _, _) := s in
  if i <? subs - 1 then section_passes info In (w32 (sub * i)) sub (w32 (outSize - index)) else Some 0.
(** rle8m_compress, l.131-191 ([rm_compress]) after the checks *)
Definition rm_passes (subs outSize : Z) (In : mem) (n : Z) : option Z :=
  let info := le_info 255 false In n in
  let sub := n / subs in
  let s0 := (0, 12 + 4 * (subs - 1) + len (write_info info), [], []) in
  oadd (passes (rm_step info In subs sub outSize) (rm_inner info In subs sub outSize) s0)
    match loop (rm_step info In subs sub outSize) s0 with
    | Some (COk _, (index, _, _)) =>
        section_passes info In (w32 (sub * (subs - 1))) (w32 (n - w32 (sub * (subs - 1)))) (w32 (outSize - index))
    | Some _ => Some 0
    | None => None
    end.

(** Inside of one iteration of l.223-235 ([rmd_step]) *)
Definition rmd_inner (c : cpu) (rle : Z -> bool) (stc : Z -> Z) (C : mem) (pin subs : Z) (s : Z * Z * Z * mem) : option Z :=
  let '(i, p, q, M) := s in
  if i <? subs - 1 then le_decode_passes 255 c rle stc C p (pin + rd32 C (pin + 12 + 4 * i)) M q else Some 0.
(** rle8m_decompress, l.193-250 ([rm_decompress]) after the checks; [inSize] is the size in the header, which
    is the size of the stream. *)
Definition rm_dpasses (c : cpu) (C : mem) (pin : Z) (M : mem) (pout : Z) : option Z :=
  let subs := rd32 C (pin + 8) in
  let '(rle, stc, k) := read_info C (pin + 12 + 4 * (subs - 1)) in
  let sub := rd32 C (pin + 4) / subs in
  let s0 := (0, pin + 12 + 4 * (subs - 1) + k, pout, M) in
  oadd (passes (rmd_step c rle stc C pin subs sub) (rmd_inner c rle stc C pin subs) s0)
    match loop (rmd_step c rle stc C pin subs sub) s0 with
    | Some (Some (p, q, M1)) => le_decode_passes 255 c rle stc C p (pin + rd32 C pin) M1 q
    | _ => None
    end.
