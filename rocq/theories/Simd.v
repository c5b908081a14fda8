(** The copy and fill macros of src/rleX_extreme_common.h (the PREFER_STREAM
    branch, lines 30-312, which is the one selected by line 19).

    Addresses are absolute; [C] is the memory read from, [M] the one written to
    (assumed not to alias).  Ordinary and streaming loads and stores of one width
    transfer the same bytes and are not distinguished.  The loops of the copies
    and of the fills with one byte use instructions that fault unless the address
    is a multiple of the width: the model checks it and stops with no result
    ([None]), like for a loop that does not end.  Prefetches are dropped. *)
From Verif Require Import Base.

(** One vector load + store of [W] bytes: [*(q..q+W) = *(p..p+W)]. *)
Definition vcopy (W : Z) (C : mem) (p : Z) (M : mem) (q : Z) : mem :=
  fun x => if (q <=? x) && (x <? q + W) then C (p + (x - q)) else M x.

(** One vector store; [v j] is byte lane [j] of the register. *)
Definition vstore (W : Z) (v : Z -> Z) (M : mem) (q : Z) : mem :=
  fun x => if (q <=? x) && (x <? q + W) then v (x - q) else M x.

(** Does an instruction for [W] bytes that demands alignment accept the address? *)
Definition al_ok (W p : Z) : bool := p mod W =? 0.

(** The copy loop, rleX_extreme_common.h l.52-57 (and 80-85, 108-113, 136-141, 164-169): the load is
    aligned (_mm_load_si128, _mm_stream_load_si128, ...), the store is not.  [inr None]: the load faults. *)
Definition copy_step (W : Z) (C : mem) (qend : Z) (s : Z * Z * mem) : (Z * Z * mem) + option mem :=
  let '(pc, qc, M) := s in
  if qc <? qend then
    if al_ok W pc then inl (pc + W, qc + W, vcopy W C pc M qc) else inr None
  else inr (Some M).

(** MEMCPY_SSE (W = 16, l.32-58), MEMCPY_SSE41 (W = 16, l.60-86), MEMCPY_AVX and
    MEMCPY_AVX2 (W = 32, l.88-142), MEMCPY_AVX512 (W = 64, l.144-170); the _MULTI
    versions l.308-312 are the same macros (AVX512_MULTI is MEMCPY_AVX).
    Returns the advanced [pInStart], the advanced [pOut] and the new memory. *)
Definition memcpyW (W : Z) (C : mem) (p : Z) (M : mem) (q off : Z) : option (Z * Z * mem) :=
  let p' := w64 (p + off) in
  let q' := w64 (q + off) in
  if off <=? W then Some (p', q', vcopy W C p M q)
  else
    let '(pc, qc, M1) :=
      if p mod W =? 0 then (p, q, M)
      else let pc := p - p mod W + W in (pc, q + (pc - p), vcopy W C p M q) in
    match loop (copy_step W C q') (pc, qc, M1) with
    | Some (Some M') => Some (p', q', M')
    | _ => None
    end.

(** The fill loop, l.276-279, 288-291, 300-303 with unaligned stores ([al] = false), l.189-192, 211-214,
    265-268 with aligned ones ([al] = true).  [inr None]: the store faults. *)
Definition fill_step (al : bool) (W : Z) (v : Z -> Z) (qend : Z) (s : Z * mem) : (Z * mem) + option mem :=
  let '(qc, M) := s in
  if qc <? qend then
    if negb al || al_ok W qc then inl (qc + W, vstore W v M qc) else inr None
  else inr (Some M).

(** MEMSET_SSE_MULTI (W = 16, l.271-282), MEMSET_AVX_MULTI (W = 32, l.284-294),
    MEMSET_AVX512_MULTI (W = 64, l.296-306). *)
Definition memset_multiW (W : Z) (v : Z -> Z) (M : mem) (q cnt : Z) : option (Z * mem) :=
  let q' := w64 (q + cnt) in
  match loop (fill_step false W v q') (q, M) with
  | Some (Some M') => Some (q', M')
  | _ => None
  end.

(** MEMSET_SSE (W = 16, l.172-193), MEMSET_AVX / MEMSET_AVX2 (W = 32, l.195-217),
    MEMSET_AVX512 (W = 64, l.249-269), for a register with all lanes equal [b]. *)
Definition memsetW (W : Z) (b : Z) (M : mem) (q cnt : Z) : option (Z * mem) :=
  let q' := w64 (q + cnt) in
  if cnt <=? W then Some (q', vstore W (fun _ => b) M q)
  else
    let '(qc, M1) :=
      if q mod W =? 0 then (q, M)
      else (q - q mod W + W, vstore W (fun _ => b) M q) in
    match loop (fill_step true W (fun _ => b) q') (qc, M1) with
    | Some (Some M') => Some (q', M')
    | _ => None
    end.
