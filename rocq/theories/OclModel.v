(** Model of the OpenCL decompressor of rle8m: the kernels in rle8_ocl_kernel.h and the host
    code in rle8_ocl.c.

    The OpenCL runtime is not modelled beyond this: buffers are byte memories starting at 0;
    writes to them and reads from them are performed in the order of the calls; the work groups
    of one launch (one work item each, localSize = 1) run interleaved in any order, one memory
    write at a time. *)
From Verif Require Import Base Simd Spec ExtModel PktModel Rle8Model LeModel.

(** *** The kernels *)

(** State of a work item: at the head of the while loop (pStart, pOut), or in the for loop that
    repeats [b] (pStart, pOut, b, count, i). *)
Inductive kst := KHead (p q : Z) | KRun (p q b count i : Z).

(** One step of rle8_decompress, rle8_ocl_kernel.h l.9-44 ([hit b]: [rle[b]]) and of
    rle8_decompress_single, l.46-79 ([hit b]: [b == symbol]).  [G]: the output buffer. *)
Definition kstep (hit : Z -> bool) (stc : Z -> Z) (D : mem) (pEnd : Z) (k : kst) (G : mem) : kst * mem :=
  match k with
  | KHead p q =>
      if p <? pEnd then
        let b := D p in
        let G1 := upd G q b in
        if hit b then (KRun (p + 2) (q + 1) b (stc (D (p + 1))) 0, G1) else (KHead (p + 1) (q + 1), G1)
      else (k, G)
  | KRun p q b count i =>
      if i <? count then (KRun p (q + 1) b count (i + 1), upd G q b) else (KHead p q, G)
  end.
(** l.12-18, l.49-54: the state in which group [g] starts.  The product is computed in 32 bits. *)
Definition kstart (offs : Z -> Z) (sub g : Z) : kst := KHead (offs g) (w32 (g * sub)).

(** The states of all groups and the output buffer; the group [g] makes a step. *)
Definition gstep (hit : Z -> bool) (stc : Z -> Z) (D : mem) (offs : Z -> Z) (s : (Z -> kst) * mem) (g : Z) : (Z -> kst) * mem :=
  let '(ks, G) := s in
  let '(k, G1) := kstep hit stc D (offs (g + 1)) (ks g) G in
  (fun x => if x =? g then k else ks x, G1).
(** A launch under the schedule [sched]. *)
Definition launch (hit : Z -> bool) (stc : Z -> Z) (D : mem) (offs : Z -> Z) (sub : Z) (sched : list Z) (G : mem) : (Z -> kst) * mem :=
  fold_left (gstep hit stc D offs) sched (kstart offs sub, G).

(** *** The host *)

(** The global variables, rle8_ocl.c l.36-54: initialized, the sizes of the last initialisation,
    pSubSectionOffsets (number of elements if not NULL, content), and whether pPlatforms is NULL
    or points to freed memory. *)
Record host := mkHost { h_init : bool; h_in : Z; h_out : Z; h_max : Z; h_cap : option Z; h_offs : mem; h_dangling : bool }.
(** Program start. *)
Definition host0 : host := mkHost false 0 0 0 None (fun _ => 0) false.

(** How the runtime behaves during a call of rle8m_opencl_init: the offsets cannot be allocated,
    there is no platform, the platform list cannot be allocated, a later call fails, success. *)
Inductive init_env := INoMem | INoPlatform | INoList | IFails | IWorks.
(** The whole environment of a call; [v_run]: the OpenCL calls after the initialisation succeed;
    [v_offs]: the content of newly allocated offsets; [v_gpu]: the content of the output
    buffer before the launch. *)
Record env := mkEnv { v_init : init_env; v_run : bool; v_offs : mem; v_gpu : mem; v_sched : list Z }.

(** rle8m_opencl_destroy, l.185-263 *)
Definition ocl_destroy (h : host) : host := mkHost false 0 0 0 None (h_offs h) (h_dangling h).

(** rle8m_opencl_init, l.56-183; [None]: freed memory is freed again (l.180, pPlatforms is not
    reset after it is freed).  Sizes are taken as numbers: no wrap of 4 * (maxSubsectionCount + 1). *)
Definition ocl_init (e : init_env) (offs : mem) (h : host) (inSize outSize maxSubs : Z) : option (bool * host) :=
  if h_init h && (inSize <=? h_in h) && (outSize <=? h_out h) && (maxSubs <=? h_max h) then Some (true, h)
  else
    let h := ocl_destroy h in
    let fails dangling := Some (false, mkHost false 0 0 0 None (h_offs h) dangling) in
    match e with
    | INoMem | INoPlatform => if h_dangling h then None else fails false
    | INoList => fails false
    | IFails => fails true
    | IWorks => Some (true, mkHost true inSize outSize maxSubs (Some (maxSubs + 1)) offs true)
    end.

(** The offsets of the sections, l.293-298. *)
Definition sub_offsets (C : mem) (pin subs index expIn : Z) : mem := fun i =>
  if i =? 0 then 0
  else if i <? subs then w32 (rd32 C (pin + 12 + 4 * (i - 1)) - index)
  else w32 (expIn - index).

(** What the host passes to the kernels: flags, run lengths, start of the sections, their number
    and size, l.269-313. *)
Definition ocl_subs (C : mem) (pin : Z) : Z := rd32 C (pin + 8).
Definition ocl_table (C : mem) (pin : Z) : (Z -> bool) * (Z -> Z) * Z := read_info C (pin + 12 + 4 * (ocl_subs C pin - 1)).
Definition ocl_index (C : mem) (pin : Z) : Z := 12 + 4 * (ocl_subs C pin - 1) + snd (ocl_table C pin).
(** l.300-313, l.351: one selected symbol: rle8_decompress_single, otherwise rle8_decompress. *)
Definition ocl_hit (C : mem) (pin : Z) : Z -> bool :=
  let rle := fst (fst (ocl_table C pin)) in
  let hits := filter rle range256 in
  if len hits =? 1 then Z.eqb (hd 0 hits) else rle.
(** The launch, l.335-390, with the offsets [offs]. *)
Definition ocl_launch (C : mem) (pin : Z) (offs : mem) (sched : list Z) (G : mem) : (Z -> kst) * mem :=
  launch (ocl_hit C pin) (snd (fst (ocl_table C pin))) (fun a => C (pin + ocl_index C pin + a)) offs (rd32 C (pin + 4) / ocl_subs C pin) sched G.

(** rle8m_opencl_decompress, l.265-413; [None]: memory that is not allocated is written.  The
    32 bit elements of pSubSectionOffsets are the values of [h_offs]. *)
Definition ocl_decompress (e : env) (h : host) (C : mem) (pin inSize : Z) (M : mem) (pout outSize : Z) : option (Z * mem * host) :=
  if (pin =? 0) || (pout =? 0) || (inSize =? 0) || (outSize =? 0) then Some (0, M, h)
  else
    let expIn := rd32 C pin in
    let expOut := rd32 C (pin + 4) in
    if (outSize <? expOut) || (inSize <? expIn) then Some (0, M, h)
    else
      let subs := ocl_subs C pin in
      if subs =? 0 then Some (0, M, h)
      else
        let index := ocl_index C pin in
        match h_cap h with
        | None => None
        | Some cap =>
            if cap <? subs + 1 then None
            else
              let offs := sub_offsets C pin subs index expIn in
              let h := mkHost (h_init h) (h_in h) (h_out h) (h_max h) (h_cap h) (fun i => if i <=? subs then offs i else h_offs h i) (h_dangling h) in
              match ocl_init (v_init e) (v_offs e) h (w64 (expIn - index)) expOut subs with
              | None => None
              | Some (false, h) => Some (0, M, h)
              | Some (true, h) =>
                  if v_run e then Some (expOut, vcopy expOut (snd (ocl_launch C pin (h_offs h) (v_sched e) (v_gpu e))) 0 M pout, h)
                  else Some (0, M, h)
              end
        end.
