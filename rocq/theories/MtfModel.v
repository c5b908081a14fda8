(** Model of mmtf.c and bit_mmtf.c.  Input and output lie in one memory, so that the functions can
    be applied in place. *)
From Verif Require Import Base Simd.

(** Result of a transformation: return value and memory, a fault of an aligned access, a loop that
    does not end. *)
Inductive xres := XRet (ret : Z) (M : mem) | XFault | XDiverge.

Definition lanes (W : Z) : list Z := map Z.of_nat (seq 0 (Z.to_nat W)).
(** A vector register, evaluated. *)
Definition vec (W : Z) (f : Z -> Z) : Z -> Z := let l := map f (lanes W) in fun j => nth (Z.to_nat j) l 0.
Definition mask (W : Z) (f : Z -> bool) : Z -> bool := let l := map f (lanes W) in fun j => nth (Z.to_nat j) l false.
(** and with a mask *)
Definition sel (b : bool) (v : Z) : Z := if b then v else 0.

(** *** mmtf.c *)

(** history: [H d j] is lane j of row d. *)
Definition hrow (H : Z -> Z -> Z) (k : Z) (v : Z -> Z) : Z -> Z -> Z := fun d => if d =? k then v else H d.
(** l.116-117 *)
Definition hist0 : Z -> Z -> Z := fun d _ => d.

(** The inner loop of the encoders, l.138-153, l.206-221, l.408-423, l.479-494 and, with the 32
    lanes in two halves and one index for both, l.557-579.
    State: row of pHistory, index, currentHist, out, prevMatched, history0, history. *)
Definition menc_step (W : Z) (symbols : Z -> Z) (s : Z * Z * (Z -> Z) * (Z -> Z) * (Z -> bool) * (Z -> Z) * (Z -> Z -> Z))
  : (Z * Z * (Z -> Z) * (Z -> Z) * (Z -> bool) * (Z -> Z) * (Z -> Z -> Z)) + (Z -> Z) * (Z -> Z) * (Z -> Z -> Z) :=
  let '(k, index, cur, out, prev, history0, H) := s in
  if forallb prev (lanes W) then inr (out, history0, H)
  else
    let last := cur in
    let cur := H k in
    let matched := mask W (fun j => symbols j =? cur j) in
    let index := w8 (index + 1) in
    let out := vec W (fun j => Z.lor (out j) (sel (matched j) index)) in
    let history0 := vec W (fun j => Z.lor (history0 j) (sel (matched j) (cur j))) in
    let H := hrow H k (vec W (fun j => Z.lor (sel (negb (prev j)) (last j)) (sel (prev j) (cur j)))) in
    let prev := mask W (fun j => prev j || matched j) in
    inl (k + 1, index, cur, out, prev, history0, H).

(** One vector, l.124-158: out and history. *)
Definition menc_vec (W : Z) (symbols : Z -> Z) (H : Z -> Z -> Z) : option ((Z -> Z) * (Z -> Z -> Z)) :=
  let cur := H 0 in
  let matched := mask W (fun j => symbols j =? cur j) in
  match loop (menc_step W symbols) (1, 0, cur, vec W (fun _ => 0), matched, vec W (fun j => sel (matched j) (cur j)), H) with
  | Some (out, history0, H) => Some (out, hrow H 0 history0)
  | None => None
  end.

(** The inner loop of the decoders, l.279-295, l.341-357, l.639-655, l.704-720, l.776-799. *)
Definition mdec_step (W : Z) (indices : Z -> Z) (s : Z * Z * (Z -> Z) * (Z -> Z) * (Z -> bool) * (Z -> Z) * (Z -> Z -> Z))
  : (Z * Z * (Z -> Z) * (Z -> Z) * (Z -> bool) * (Z -> Z) * (Z -> Z -> Z)) + (Z -> Z) * (Z -> Z) * (Z -> Z -> Z) :=
  let '(k, index, cur, out, prev, history0, H) := s in
  if forallb prev (lanes W) then inr (out, history0, H)
  else
    let last := cur in
    let index := w8 (index + 1) in
    let matched := mask W (fun j => indices j =? index) in
    let cur := H k in
    let out := vec W (fun j => Z.lor (out j) (sel (matched j) (cur j))) in
    let history0 := vec W (fun j => Z.lor (history0 j) (sel (matched j) (cur j))) in
    let H := hrow H k (vec W (fun j => Z.lor (sel (negb (prev j)) (last j)) (sel (prev j) (cur j)))) in
    let prev := mask W (fun j => prev j || matched j) in
    inl (k + 1, index, cur, out, prev, history0, H).

(** One vector, l.265-300. *)
Definition mdec_vec (W : Z) (indices : Z -> Z) (H : Z -> Z -> Z) : option ((Z -> Z) * (Z -> Z -> Z)) :=
  let cur := H 0 in
  let matched := mask W (fun j => indices j =? 0) in
  let out := vec W (fun j => sel (matched j) (cur j)) in
  match loop (mdec_step W indices) (1, 0, cur, out, matched, out, H) with
  | Some (out, history0, H) => Some (out, hrow H 0 history0)
  | None => None
  end.

(** The loop over the vectors, e.g. l.122-159.  State: inSizeRemaining, pIn, pOut, memory,
    history. *)
Definition mtf_step (W : Z) (one : (Z -> Z) -> (Z -> Z -> Z) -> option ((Z -> Z) * (Z -> Z -> Z))) (s : Z * Z * Z * mem * (Z -> Z -> Z))
  : (Z * Z * Z * mem * (Z -> Z -> Z)) + option (Z * Z * Z * mem * (Z -> Z -> Z)) :=
  let '(rem, p, q, M, H) := s in
  if W <=? rem then
    match one (vec W (fun j => M (p + j))) H with
    | Some (out, H1) => inl (rem - W, p + W, q + W, vstore W out M q, H1)
    | None => inr None
    end
  else inr (Some (rem, p, q, M, H)).

(** The search of the last bytes, l.166-174. *)
Fixpoint find_row (k : nat) (d : Z) (f : Z -> bool) : option Z :=
  match k with
  | O => None
  | S k' => if f d then Some d else find_row k' (d + 1) f
  end.
(** l.161-175.  State: pIn, pOut, memory; [i] counts the bytes. *)
Definition menc_tail (H : Z -> Z -> Z) (s : Z * Z * mem) (i : Z) : Z * Z * mem :=
  let '(p, q, M) := s in
  match find_row 256 0 (fun d => H d i =? M p) with
  | Some d => (p + 1, q + 1, vstore 1 (fun _ => w8 d) M q)
  | None => (p + 1, q, M)
  end.
(** l.303-310 *)
Definition mdec_tail (H : Z -> Z -> Z) (s : Z * Z * mem) (i : Z) : Z * Z * mem :=
  let '(p, q, M) := s in
  (p + 1, q + 1, vstore 1 (fun _ => H (M p) i) M q).

(** mmtf128_encode_aligned_sse41 l.112, mmtf128_encode_unaligned l.180, mmtf256_encode_aligned
    l.382, _unaligned l.453, _unaligned_sse2 l.521 ([dec] = false), mmtf128_decode_aligned_sse41
    l.253, _unaligned l.315, mmtf256_decode_aligned l.613, _unaligned l.678, _unaligned_sse2 l.740
    ([dec] = true).  The aligned variants use loads and stores that fault if not aligned. *)
Definition mtf_run (dec : bool) (W : Z) (aligned : bool) (M : mem) (pin inSize pout : Z) : xres :=
  if aligned && (W <=? inSize) && negb ((pin mod W =? 0) && (pout mod W =? 0)) then XFault
  else
    match loop (mtf_step W (if dec then mdec_vec W else menc_vec W)) (inSize, pin, pout, M, hist0) with
    | Some (Some (rem, p, q, M, H)) =>
        let '(_, _, M) := fold_left ((if dec then mdec_tail else menc_tail) H) (lanes rem) (p, q, M) in
        XRet inSize M
    | _ => XDiverge
    end.

(** What _DetectCPUFeatures finds, simd_platform.c. *)
Record mcpu := mkMcpu { m_sse2 : bool; m_sse41 : bool; m_avx2 : bool }.

(** mmtf128_encode / mmtf128_decode, l.35-65. *)
Definition mmtf128 (dec : bool) (c : mcpu) (M : mem) (pin inSize pout outSize : Z) : xres :=
  if outSize <? inSize then XRet 0 M
  else if negb (m_sse2 c) then XRet 0 M
  else mtf_run dec 16 ((pin mod 16 =? 0) && (pout mod 32 =? 0) && m_sse41 c) M pin inSize pout.
(** mmtf256_encode / mmtf256_decode, l.69-105. *)
Definition mmtf256 (dec : bool) (c : mcpu) (M : mem) (pin inSize pout outSize : Z) : xres :=
  if outSize <? inSize then XRet 0 M
  else if negb (m_sse2 c) then XRet 0 M
  else if negb (m_avx2 c) then mtf_run dec 32 false M pin inSize pout
  else mtf_run dec 32 ((pin mod 32 =? 0) && (pout mod 32 =? 0)) M pin inSize pout.

(** *** bit_mmtf.c *)

Definition movemask (f : Z -> bool) : Z := fold_right (fun j acc => sel (f j) (2 ^ j) + acc) 0 (lanes 16).
(** l.24, l.46; l.70, l.103 *)
Definition mask8 : Z -> Z := fun j => if j <? 8 then 2 ^ j else 0.
Definition mask16 : Z -> Z := fun j => 2 ^ (j mod 8).
(** The vectors of one input byte or two: l.28; l.77-79 *)
Definition set1 (a : Z) : Z -> Z := fun _ => a.
Definition set2 (a b : Z) : Z -> Z := fun j => if j <? 8 then a else b.

(** l.28-33, l.81-86: the mask of the bytes that differ, the new state. *)
Definition benc_vec (mk v state : Z -> Z) : Z * (Z -> Z) :=
  let current := vec 16 (fun j => Z.land (mk j) (v j)) in
  (2 ^ 32 - 1 - movemask (fun j => current j =? state j), current).
(** l.50-55, l.114-119.  The state consists of bytes 0 and 255. *)
Definition bdec_vec (mk v : Z -> Z) (state : Z -> bool) : Z * (Z -> bool) :=
  let last := mask 16 (fun j => xorb (mk j =? Z.land (mk j) (v j)) (state j)) in
  (movemask last, last).

(** bitmmtf8_encode l.18-38, bitmmtf8_decode l.40-60.  State: i, state, memory. *)
Definition b8_step {S} (one : (Z -> Z) -> S -> Z * S) (pin inSize pout : Z) (s : Z * S * mem) : (Z * S * mem) + mem :=
  let '(i, st, M) := s in
  if i <? inSize then
    let '(bm, st) := one (set1 (M (pin + i))) st in
    inl (i + 1, st, vstore 1 (fun _ => w8 bm) M (pout + i))
  else inr M.
Definition bit8_run {S} (one : (Z -> Z) -> S -> Z * S) (s0 : S) (M : mem) (pin inSize pout outSize : Z) : xres :=
  if (pin =? 0) || (pout =? 0) || (outSize <? inSize) then XRet 0 M
  else match loop (b8_step one pin inSize pout) (0, s0, M) with
       | Some M => XRet inSize M
       | None => XDiverge
       end.
Definition bitmmtf8_encode := bit8_run (benc_vec mask8) (fun _ => 0).
Definition bitmmtf8_decode := bit8_run (bdec_vec mask8) (fun _ => false).

(** bitmmtf16_encode l.64-95, bitmmtf16_decode l.97-128. *)
Definition b16_step {S} (one : (Z -> Z) -> S -> Z * S) (pin loopSize pout : Z) (s : Z * S * mem) : (Z * S * mem) + mem :=
  let '(i, st, M) := s in
  if i <? loopSize then
    let '(bm, st) := one (set2 (M (pin + i)) (M (pin + i + 1))) st in
    inl (i + 2, st, vstore 2 (fun j => nth (Z.to_nat j) (le16 (bm mod 2 ^ 16)) 0) M (pout + i))
  else inr M.
Definition bit16_run {S} (one : (Z -> Z) -> S -> Z * S) (s0 : S) (M : mem) (pin inSize pout outSize : Z) : xres :=
  if (pin =? 0) || (pout =? 0) || (outSize <? inSize) then XRet 0 M
  else match loop (b16_step one pin (inSize - inSize mod 2) pout) (0, s0, M) with
       | Some M => XRet inSize (if inSize mod 2 =? 1 then vstore 1 (fun _ => M (pin + inSize - 1)) M (pout + inSize - 1) else M)
       | None => XDiverge
       end.
Definition bitmmtf16_encode := bit16_run (benc_vec mask16) (fun _ => 0).
Definition bitmmtf16_decode := bit16_run (bdec_vec mask16) (fun _ => false).
