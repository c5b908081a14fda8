(** Specification for C71: what the copies and fills do on a processor that accepts every address.

    On x86-64 _mm_load_si128, _mm_store_si128, _mm_stream_load_si128 and their wider forms raise a fault
    unless the address is a multiple of the width.  A copy of at most [W] bytes takes one unaligned
    vector.  A longer one takes one unaligned vector up to the next multiple of [W] (if it does not
    start at one) and goes on with aligned vectors.  If no aligned access is ever misplaced, then the
    machine that faults computes the same as this one. *)
From Verif Require Import Base Simd Spec Spec2.

(** rleX_extreme_common.h l.32-170 without the demand for alignment *)
Definition anycopy_step (W : Z) (C : mem) (qend : Z) (s : Z * Z * mem) : (Z * Z * mem) + mem :=
  let '(pc, qc, M) := s in
  if qc <? qend then inl (pc + W, qc + W, vcopy W C pc M qc) else inr M.
Definition anycopy (W : Z) (C : mem) (p : Z) (M : mem) (q off : Z) : option (Z * Z * mem) :=
  if off <=? W then Some (w64 (p + off), w64 (q + off), vcopy W C p M q)
  else
    let d := if p mod W =? 0 then 0 else W - p mod W in
    let M1 := if p mod W =? 0 then M else vcopy W C p M q in
    match loop (anycopy_step W C (w64 (q + off))) (p + d, q + d, M1) with
    | Some M' => Some (w64 (p + off), w64 (q + off), M')
    | None => None
    end.

(** rleX_extreme_common.h l.172-269 without the demand for alignment *)
Definition anyset_step (W b qend : Z) (s : Z * mem) : (Z * mem) + mem :=
  let '(qc, M) := s in
  if qc <? qend then inl (qc + W, vstore W (fun _ => b) M qc) else inr M.
Definition anyset (W b : Z) (M : mem) (q cnt : Z) : option (Z * mem) :=
  if cnt <=? W then Some (w64 (q + cnt), vstore W (fun _ => b) M q)
  else
    let d := if q mod W =? 0 then 0 else W - q mod W in
    let M1 := if q mod W =? 0 then M else vstore W (fun _ => b) M q in
    match loop (anyset_step W b (w64 (q + cnt))) (q + d, M1) with
    | Some M' => Some (w64 (q + cnt), M')
    | None => None
    end.

(** The runs of the last bytes of rle8_low_entropy_cpu.c (l.977-1016) and rle8_low_entropy_short_cpu.c
    (l.487-526) without the demand for alignment *)
Definition anyrun_step (b : Z) (s : Z * Z * mem) : (Z * Z * mem) + (Z * Z * mem) :=
  let '(q, rem, M) := s in
  if 15 <? rem then inl (q + 16, rem - 16, vstore 16 (fun _ => b) M q) else inr (q, rem, M).
Definition anyrun (b : Z) (M : mem) (q count : Z) : option (Z * mem) :=
  if count <? 16 then Some (q + count, vstore count (fun _ => b) M q)
  else
    let d := if q mod 16 =? 0 then 0 else 16 - q mod 16 in
    let M1 := if q mod 16 =? 0 then M else vstore 16 (fun _ => b) M q in
    match loop (anyrun_step b) (q + d, count - d, M1) with
    | Some (q2, rem, M2) => if rem =? 0 then Some (q2, M2) else Some (q2 + rem, vstore 16 (fun _ => b) M2 (q2 - (16 - rem)))
    | None => None
    end.

(** Wherever the stream [out] and the output buffer lie, every decompressor of the format returns, with
    the same number and the same bytes.  [sz]: the sizes of the stream the caller may give. *)
Definition OneResult (decs : decompressor -> Prop) (sz : Z -> Prop) (out : list Z) (n : Z) : Prop :=
  forall dec1 dec2 C1 pin1 inSize1 M1 pout1 cap1 C2 pin2 inSize2 M2 pout2 cap2,
    decs dec1 -> decs dec2 ->
    holds C1 pin1 out -> 0 < pin1 -> pin1 + len out + 1024 < 2 ^ 64 -> sz inSize1 ->
    0 < pout1 -> pout1 + n + 1024 < 2 ^ 64 -> n <= cap1 ->
    holds C2 pin2 out -> 0 < pin2 -> pin2 + len out + 1024 < 2 ^ 64 -> sz inSize2 ->
    0 < pout2 -> pout2 + n + 1024 < 2 ^ 64 -> n <= cap2 ->
    exists N1 N2, dec1 C1 pin1 inSize1 M1 pout1 cap1 = DRet n N1 /\ dec2 C2 pin2 inSize2 M2 pout2 cap2 = DRet n N2 /\
      slice N1 pout1 n = slice N2 pout2 n.

Definition AnyPlace (comp : compressor) (bound : Z -> Z) (decs : decompressor -> Prop) : Prop :=
  forall In n cap,
    byte_mem In -> 1 <= n <= max_in -> bound n <= cap ->
    exists out, comp In n cap = COk out /\ OneResult decs (fun size => len out <= size) out n.

(** For the codecs whose sizes are 32 bit numbers, for the inputs with [P]. *)
Definition AnyPlaceI (exact : bool) (P : mem -> Z -> Prop) (comp : compressor) (bound : Z -> Z) (decs : decompressor -> Prop) : Prop :=
  forall In n cap,
    byte_mem In -> 1 <= n <= max_in -> P In n -> bound n <= cap < 2 ^ 32 ->
    exists out, comp In n cap = COk out /\ OneResult decs (fun size => InSize exact size (len out)) out n.
