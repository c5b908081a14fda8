(** Model of the "extreme" multi-byte codecs:
    - 16/32/64 bit: src/rleX_extreme_cpu_encode.h, _decode.h, rleX_extreme_cpu.h
    - 24 bit: src/rle24_extreme_cpu_encode.h, _decode.h, rle24_extreme_cpu.h
    - 48 bit: src/rle48_extreme_cpu_encode.h, _decode.h, rle48_extreme_cpu.h
    - 128 bit: src/rle128_extreme_cpu.h
    The four file families share one text up to symbol size and SIMD search, so
    they share one parametrised model. *)
From Verif Require Import Base Simd Spec.

(** Configuration of one codec: symbol size in bytes, UNBOUND ("byte" variants),
    PACKED, PREFER_7_BIT_OR_4_BYTE_COPY. *)
Record xcfg := mkX { xS : Z; xUnb : bool; xPack : bool; xP7 : bool }.

(** The configurations compiled by rleX_extreme_cpu.c, rle24_extreme_cpu.c,
    rle48_extreme_cpu.c and rle128_extreme_cpu.c: sym, byte, byte_packed (with
    PREFER_7_BIT_OR_4_BYTE_COPY) and sym_packed (without). *)
Definition xsizes : list Z := [2; 3; 4; 6; 8; 16].
Definition xvariants (S : Z) : list xcfg :=
  [mkX S false false false; mkX S true false false; mkX S true true true; mkX S false true false].
Definition xcodecs : list xcfg := flat_map xvariants xsizes.

(** rleX_extreme_cpu.h l.1-16, rle24_extreme_cpu.h l.1-16, rle48_extreme_cpu.h l.1-16,
    rle128_extreme_cpu.h l.1-16. *)
Definition xMAXR (c : xcfg) : Z := if xP7 c then 127 else 255.
Definition xFULL (c : xcfg) : Z := if xP7 c then 5 else 4.
Definition xSHORT (c : xcfg) : Z := if xPack c then 3 else (xS c + 1 + 1) + 2.
Definition xMEDIUM (c : xcfg) : Z := (xS c + 1 + 1) + 1.
Definition xLONG (c : xcfg) : Z := (xS c + 1 + 4 + xFULL c) + (if xPack c then 1 else 2).

(** Symbols are the list of their bytes (masked to S bytes in the 24/48 bit files). *)
Fixpoint eqb_bytes (a b : list Z) : bool :=
  match a, b with
  | [], [] => true
  | x :: a', y :: b' => (x =? y) && eqb_bytes a' b'
  | _, _ => false
  end.

Definition symbyte (sym : list Z) (j : Z) : Z := nth (Z.to_nat j) sym 0.

(** *** Bit masks.  A movemask result is the boolean of each lane; lanes >= W are 0. *)
Definition mask (W : Z) (f : Z -> bool) : Z -> bool := fun j => (0 <=? j) && (j <? W) && f j.
Definition mand (a b : Z -> bool) : Z -> bool := fun j => a j && b j.
Definition mshr (a : Z -> bool) (k : Z) : Z -> bool := fun j => a (j + k).

(** Number of leading lanes j = 0, 1, ... < n with [f j]; this is
    __builtin_ctz(~mask) (and, with [f] negated, __builtin_ctz(mask)), with
    result [n] when there is no such lane. *)
Fixpoint lead_nat (f : Z -> bool) (n : nat) (j : Z) : Z :=
  match n with
  | O => j
  | S n' => if f j then lead_nat f n' (j + 1) else j
  end.
Definition lead (f : Z -> bool) (n : Z) : Z := lead_nat f (Z.to_nat n) 0.

(** "Check if all symbols match": rleX_extreme_cpu_encode.h l.333-344,
    rle24_extreme_cpu_encode.h l.326-327, rle48_extreme_cpu_encode.h l.324-326. *)
Definition fold_mask (S : Z) (m : Z -> bool) : Z -> bool :=
  if S =? 2 then mand m (mshr m 1)
  else if S =? 4 then let a := mand m (mshr m 2) in mand a (mshr a 1)
  else if S =? 8 then
    let a := mand m (mshr m 4) in let b := mand a (mshr a 2) in mand b (mshr b 1)
  else if S =? 3 then mand m (mand (mshr m 1) (mshr m 2))
  else let a := mand m (mshr m 3) in mand a (mand (mshr a 1) (mshr a 2)).

(** Rounding a match length down to whole symbols: rleX_extreme_cpu_encode.h l.80
    ([bit &= ~(S-1)]), rle24/48 l.109 / l.107 ([bit -= bit % S]). *)
Definition align_bit (S b : Z) : Z :=
  if (S =? 3) || (S =? 6) then b - b mod S else Z.land b (Z.lnot (S - 1)).

(** *** SIMD registers holding the repeated symbol. *)

(** CPU levels of the encoders. *)
Inductive simd := Base_ | Sse2 | Ssse3 | Avx2.
Definition simdW (v : simd) : Z := match v with Avx2 => 32 | _ => 16 end.

(** _mm_set1_epi32 / _mm_set1_epi64x of a raw symbol [r] of R bytes, 16 lanes. *)
Definition set1 (R : Z) (r : list Z) (n : Z) : list Z :=
  map (fun j => symbyte r (Z.of_nat j mod R)) (seq 0 (Z.to_nat n)).

(** _mm_or_si128(_mm_srli_si128(x, k), _mm_slli_si128(x, 16 - k)): byte rotation. *)
Definition rot16 (x : list Z) (k : Z) : list Z :=
  map (fun j => symbyte x ((Z.of_nat j + k) mod 16)) (seq 0 16).

(** _mm_and_si128 with a mask of 0 / -1 lanes.  The mask is written in the
    argument order of _mm_set_epi8, i.e. highest lane first. *)
Fixpoint sel (x : list Z) (m : list Z) : list Z :=
  match x, m with
  | a :: x', b :: m' => (if b =? -1 then a else 0) :: sel x' m'
  | _, _ => []
  end.
Definition and_pat (x hi_first : list Z) : list Z := sel x (rev hi_first).
Fixpoint vor (a b : list Z) : list Z :=
  match a, b with
  | x :: a', y :: b' => Z.lor x y :: vor a' b'
  | _, _ => []
  end.

(** _mm_shuffle_epi8 / _mm256_shuffle_epi8 with non-negative indices (given highest
    lane first), per 128 bit lane. *)
Definition shuffle (x hi_first : list Z) : list Z :=
  map (fun '(j, k) => symbyte x (Z.of_nat (j / 16 * 16)%nat + k)) (combine (seq 0 (length hi_first)) (rev hi_first)).

(** rle24_extreme_cpu_decode.h l.31-44 (SSE2 patterns), l.46-52 (shuffles). *)
Definition p24_00 := [0;-1;-1;-1;0;0;0;0;0;0;0;0;0;-1;-1;-1].
Definition p24_01 := [-1;0;0;0;0;0;0;0;0;0;-1;-1;-1;0;0;0].
Definition p24_02 := [0;0;0;0;0;0;0;-1;-1;-1;0;0;0;0;0;0].
Definition p24_03 := [0;0;0;0;-1;-1;-1;0;0;0;0;0;0;0;0;0].
Definition p24_10 := [0;0;0;0;0;-1;-1;-1;0;0;0;0;0;0;0;0].
Definition p24_11 := [0;0;-1;-1;-1;0;0;0;0;0;0;0;0;0;-1;-1].
Definition p24_12 := [-1;-1;0;0;0;0;0;0;0;0;0;-1;-1;-1;0;0].
Definition p24_13 := [0;0;0;0;0;0;0;0;-1;-1;-1;0;0;0;0;0].
Definition p24_20 := [0;0;0;0;0;0;0;0;0;-1;-1;-1;0;0;0;0].
Definition p24_21 := [0;0;0;0;0;0;-1;-1;-1;0;0;0;0;0;0;0].
Definition p24_22 := [0;0;0;-1;-1;-1;0;0;0;0;0;0;0;0;0;-1].
Definition p24_23 := [-1;-1;-1;0;0;0;0;0;0;0;0;0;-1;-1;-1;0].
Definition s24_128_0 := [0;2;1;0;2;1;0;2;1;0;2;1;0;2;1;0].
Definition s24_128_1 := [1;0;2;1;0;2;1;0;2;1;0;2;1;0;2;1].
Definition s24_128_2 := [2;1;0;2;1;0;2;1;0;2;1;0;2;1;0;2].
Definition s24_256_0 := [1;0;2;1;0;2;1;0;2;1;0;2;1;0;2;1;0;2;1;0;2;1;0;2;1;0;2;1;0;2;1;0].
Definition s24_256_1 := [0;2;1;0;2;1;0;2;1;0;2;1;0;2;1;0;2;1;0;2;1;0;2;1;0;2;1;0;2;1;0;2].
Definition s24_256_2 := [2;1;0;2;1;0;2;1;0;2;1;0;2;1;0;2;1;0;2;1;0;2;1;0;2;1;0;2;1;0;2;1].

(** rle48_extreme_cpu_decode.h l.31-43 (SSE2 patterns), l.45-51 (shuffles). *)
Definition p48_00 := [0;0;0;0;0;0;0;0;0;0;-1;-1;-1;-1;-1;-1].
Definition p48_10 := [0;0;-1;-1;-1;-1;-1;-1;0;0;0;0;0;0;0;0].
Definition p48_02 := [0;0;0;0;-1;-1;-1;-1;-1;-1;0;0;0;0;0;0].
Definition p48_12 := [-1;-1;0;0;0;0;0;0;0;0;0;0;0;0;0;0].
Definition p48_22 := [0;0;0;0;0;0;0;0;0;0;0;0;-1;-1;-1;-1].
Definition p48_04 := [-1;-1;-1;-1;0;0;0;0;0;0;0;0;0;0;0;0].
Definition p48_14 := [0;0;0;0;0;0;0;0;0;0;0;0;0;0;-1;-1].
Definition p48_24 := [0;0;0;0;0;0;-1;-1;-1;-1;-1;-1;0;0;0;0].
Definition p48_16 := [0;0;0;0;0;0;0;0;-1;-1;-1;-1;-1;-1;0;0].
Definition p48_26 := [-1;-1;-1;-1;-1;-1;0;0;0;0;0;0;0;0;0;0].
Definition s48_128_0 := [3;2;1;0;5;4;3;2;1;0;5;4;3;2;1;0].
Definition s48_128_1 := [1;0;5;4;3;2;1;0;5;4;3;2;1;0;5;4].
Definition s48_128_2 := [5;4;3;2;1;0;5;4;3;2;1;0;5;4;3;2].
Definition s48_256_0 := [1;0;5;4;3;2;1;0;5;4;3;2;1;0;5;4;3;2;1;0;5;4;3;2;1;0;5;4;3;2;1;0].
Definition s48_256_1 := [3;2;1;0;5;4;3;2;1;0;5;4;3;2;1;0;5;4;3;2;1;0;5;4;3;2;1;0;5;4;3;2].
Definition s48_256_2 := [5;4;3;2;1;0;5;4;3;2;1;0;5;4;3;2;1;0;5;4;3;2;1;0;5;4;3;2;1;0;5;4].

(** symbol0, symbol1, symbol2 of rle24_extreme_cpu_decode.h l.116-139 / l.199-223 (the
    encoder's symbolSimd, rle24_extreme_cpu_encode.h l.67-84, is symbol0).  [r] is
    the raw 4-byte load. *)
Definition vec24 (v : simd) (r : list Z) : list Z * list Z * list Z :=
  match v with
  | Ssse3 => let s := set1 4 r 16 in (shuffle s s24_128_0, shuffle s s24_128_1, shuffle s s24_128_2)
  | Avx2 => let s := set1 4 r 32 in (shuffle s s24_256_0, shuffle s s24_256_1, shuffle s s24_256_2)
  | _ =>
      let s := set1 4 r 16 in
      let s1 := rot16 s 1 in let s2 := rot16 s 2 in let s3 := rot16 s 3 in
      (vor (vor (and_pat s p24_00) (and_pat s1 p24_01)) (vor (and_pat s3 p24_03) (and_pat s2 p24_02)),
       vor (vor (and_pat s p24_10) (and_pat s1 p24_11)) (vor (and_pat s3 p24_13) (and_pat s2 p24_12)),
       vor (vor (and_pat s p24_20) (and_pat s1 p24_21)) (vor (and_pat s3 p24_23) (and_pat s2 p24_22)))
  end.

(** symbol0, symbol1, symbol2 of rle48_extreme_cpu_decode.h l.115-140 / l.201-224; the
    encoder's symbolSimd, rle48_extreme_cpu_encode.h l.66-82, is symbol0. *)
Definition vec48 (v : simd) (r : list Z) : list Z * list Z * list Z :=
  match v with
  | Ssse3 => let s := set1 8 r 16 in (shuffle s s48_128_0, shuffle s s48_128_1, shuffle s s48_128_2)
  | Avx2 => let s := set1 8 r 32 in (shuffle s s48_256_0, shuffle s s48_256_1, shuffle s s48_256_2)
  | _ =>
      let s := set1 8 r 16 in
      let s2 := rot16 s 2 in let s4 := rot16 s 4 in let s6 := rot16 s 6 in
      (vor (vor (and_pat s p48_00) (and_pat s2 p48_02)) (and_pat s4 p48_04),
       vor (vor (and_pat s p48_10) (and_pat s2 p48_12)) (vor (and_pat s4 p48_14) (and_pat s6 p48_16)),
       vor (vor (and_pat s2 p48_22) (and_pat s4 p48_24)) (and_pat s6 p48_26))
  end.

(** Size of the register-sized raw load of a symbol (uint32_t for 24 bit, uint64_t for 48 bit). *)
Definition rawS (S : Z) : Z := if S =? 3 then 4 else if S =? 6 then 8 else S.

(** The encoder's symbolSimd: lane j of the register compared against.  In the 24/48 bit
    encoders the symbol is masked, so its raw form is padded with zero bytes. *)
Definition enc_vec (S : Z) (v : simd) (sym : list Z) : list Z :=
  if S =? 3 then fst (fst (vec24 v (sym ++ [0])))
  else if S =? 6 then fst (fst (vec48 v (sym ++ [0; 0])))
  else set1 S sym (simdW v).

(** *** Encoder *)

Record est := mkE
  { e_i : Z; e_count : Z; e_sym : list Z; e_last : Z; e_lsym : list Z; e_out : list Z;
    e_goto : bool  (* next iteration entered by [goto continue_outer_loop] *) }.

(** Stored run length: rleX_extreme_cpu_encode.h l.187-191 (and the same lines in every other place). *)
Definition stored_count (c : xcfg) (count : Z) : Z :=
  if xUnb c then count - xSHORT c + 1 else count / xS c - xSHORT c / xS c + 1.

(** Symbol, count and "same symbol" fields: l.182-228 (short) = l.246-293 (long). *)
Definition emit_count (c : xcfg) (sym lsym : list Z) (count : Z) : list Z :=
  let sc := stored_count c count in
  if xPack c then
    let same := eqb_bytes sym lsym in
    let m := if same then 128 else 0 in
    (if sc <=? 127 then [Z.lor (w8 sc) m] else m :: le32 sc) ++ (if same then [] else sym)
  else sym ++ (if sc <=? 255 then [w8 sc] else 0 :: le32 sc).

(** Literal length field of the short form, l.230-236. *)
Definition emit_range_short (c : xcfg) (range : Z) : list Z :=
  if xP7 c then [w8 (range * 2)] else [w8 range].

(** Literal length field of the long form, l.295-303. *)
Definition emit_range_long (c : xcfg) (range : Z) : list Z :=
  if xP7 c then le32 (Z.lor (range * 2) 1) else 0 :: le32 range.

(** Acceptance of the short form, l.176-180. *)
Definition accept_short (c : xcfg) (range count : Z) (sym lsym : list Z) : bool :=
  (range <=? xMAXR c) &&
  (if xPack c then ((xSHORT c <=? count) && eqb_bytes sym lsym) || (xMEDIUM c <=? count)
   else xSHORT c <=? count).

(** The packet for the run ending at [i] and the literals before it (main loop l.172-312;
    the first half of the two accepting branches of the tail, l.385-452 and l.480-544,
    is the same text).  [None]: run not worth a packet. *)
Definition packet (c : xcfg) (In : mem) (st : est) : option (list Z) :=
  let range := e_i st - e_last st - e_count st + 1 in
  let lits := slice In (e_last st) (e_i st - e_count st - e_last st) in
  if accept_short c range (e_count st) (e_sym st) (e_lsym st) then
    Some (emit_count c (e_sym st) (e_lsym st) (e_count st) ++ emit_range_short c range ++ lits)
  else if xLONG c <=? e_count st then
    Some (emit_count c (e_sym st) (e_lsym st) (e_count st) ++ emit_range_long c range ++ lits)
  else None.

Definition emit (c : xcfg) (In : mem) (st : est) : est :=
  match packet c In st with
  | Some bytes => mkE (e_i st) (e_count st) (e_sym st) (e_i st) (e_sym st) (e_out st ++ bytes) (e_goto st)
  | None => st
  end.

Definition load (In : mem) (S i : Z) : list Z := slice In i S.

(** How the first (match) loop ended. *)
Inductive after1 := Second (i count : Z) | Fall (i count : Z).

(** First SIMD loop, rleX_extreme_cpu_encode.h l.57-99 (rle24 l.86-127, rle48 l.84-125). *)
Definition match_step (c : xcfg) (v : simd) (In : mem) (n : Z) (vec : list Z) (s : Z * Z) : (Z * Z) + after1 :=
  let '(i, count) := s in
  let W := simdW v in
  if i <? n - W - xS c then
    let f := fun j => In (i + j) =? symbyte vec j in
    if f 0 then
      let b := lead f W in
      if b =? W then let a := W - W mod xS c in inl (i + a, count + a)
      else let b' := if xUnb c then b else align_bit (xS c) b in inr (Second (i + b') (count + b'))
    else inr (Second i count)
  else inr (Fall i count).

Definition phase1 (c : xcfg) (v : simd) (In : mem) (n : Z) (st : est) : option after1 :=
  match v with
  | Base_ => Some (Fall (e_i st) (e_count st))
  | _ => loop (match_step c v In n (enc_vec (xS c) v (e_sym st))) (e_i st, e_count st)
  end.

(** Scalar continuation of the run, l.102-166.  [inl] = [continue].  In the UNBOUND branch
    ctz(diff) / 8 is the number of equal leading bytes (l.117-148). *)
Definition scalar_step (c : xcfg) (In : mem) (n i count : Z) (sym : list Z) : (Z * Z) + (Z * Z) :=
  if negb (count =? 0) then
    if i + xS c <=? n then
      if eqb_bytes (load In (xS c) i) sym then inl (i + xS c, count + xS c)
      else if xUnb c then
        let d := lead (fun j => In (i + j) =? symbyte sym j) (xS c) in inr (i + d, count + d)
      else inr (i, count)
    else inr (i, count)
  else inr (i, count).

(** Search loop, l.315-366 (rle24 l.309-352, rle48 l.307-351).  [inl] final = [goto
    continue_outer_loop] with the position of the match. *)
Definition scan_step (c : xcfg) (v : simd) (In : mem) (n : Z) (i : Z) : Z + (Z * bool) :=
  let W := simdW v in
  if i <? n - W - xS c then
    let m := fold_mask (xS c) (mask W (fun j => In (i + j) =? In (i + xS c + j))) in
    let b := lead (fun j => negb (m j)) W in
    if b =? W then inl (i + (W - xS c)) else inr (i + b, true)
  else inr (i, false).

Definition scan (c : xcfg) (v : simd) (In : mem) (n i : Z) : option (Z * bool) :=
  match v with
  | Base_ => Some (i, false)
  | _ => loop (scan_step c v In n) i
  end.

(** Start of the next run candidate, l.359-364 and l.369-380. *)
Definition next_run (c : xcfg) (In : mem) (n : Z) (st : est) (i : Z) (found : bool) : est :=
  let S := xS c in
  if found then mkE (i + S * 2) (S * 2) (load In S i) (e_last st) (e_lsym st) (e_out st) true
  else
    let sym := load In S i in
    if (i + S <=? n) && eqb_bytes (load In S (i + S)) sym
    then mkE (i + S * 2) (S * 2) sym (e_last st) (e_lsym st) (e_out st) false
    else mkE (i + 1) 0 sym (e_last st) (e_lsym st) (e_out st) false.

(** rle128_extreme_cpu.h l.64-88. *)
Definition match_step128 (c : xcfg) (In : mem) (n : Z) (sym : list Z) (s : Z * Z) : (Z * Z) + after1 :=
  let '(i, count) := s in
  if i <? n - 16 then
    let b := lead (fun j => In (i + j) =? symbyte sym j) 16 in
    if b =? 16 then inl (i + 16, count + 16)
    else if xUnb c then inr (Second (i + b) (count + b)) else inr (Second i count)
  else inr (Second i count).

(** rle128_extreme_cpu.h l.233-266.  [31 - clz(~mask << 16) - 15] is one more than the
    index of the highest lane that differs. *)
Fixpoint highest_nat (f : Z -> bool) (n : nat) : Z :=
  match n with
  | O => -1
  | S n' => if f (Z.of_nat n') then Z.of_nat n' else highest_nat f n'
  end.
Definition scan_step128 (In : mem) (n : Z) (i : Z) : Z + (Z * bool) :=
  if i <? n - 32 then
    let f := fun j => In (i + j) =? In (i + 16 + j) in
    if lead f 16 =? 16 then inr (i, true)
    else if negb (f 15) then inl (i + 16)
    else inl (i + (highest_nat (fun j => negb (f j)) 16 + 16 - 15))
  else inr (i, false).

(** Second half of one iteration, from emission on: l.168-381 / rle128 l.90-280.  [inr None] if
    an inner loop diverges. *)
Definition enc_second (c : xcfg) (v : simd) (In : mem) (n : Z) (st : est) (i count : Z) : est + option est :=
  let st1 := emit c In (mkE i count (e_sym st) (e_last st) (e_lsym st) (e_out st) false) in
  match (if xS c =? 16 then loop (scan_step128 In n) i else scan c v In n i) with
  | Some (i', found) => inl (next_run c In n st1 i' found)
  | None => inr None
  end.

(** One iteration of the outer loop: l.46-382 / rle128 l.59-281.  The result is [inl] next
    state, [inr (Some final)] when [i < inSize] fails. *)
Definition enc_step (c : xcfg) (v : simd) (In : mem) (n : Z) (st : est) : est + option est :=
  if (e_i st <? n) || e_goto st then
    match (if xS c =? 16 then loop (match_step128 c In n (e_sym st)) (e_i st, e_count st)
           else phase1 c v In n st) with
    | Some (Second i count) => enc_second c v In n st i count
    | Some (Fall i count) =>
        match scalar_step c In n i count (e_sym st) with
        | inl (i', count') => inl (mkE i' count' (e_sym st) (e_last st) (e_lsym st) (e_out st) false)
        | inr (i', count') => enc_second c v In n st i' count'
        end
    | None => inr None
    end
  else inr (Some st).

(** End marker: run length 0, l.454-466 (= 546-558, 574-586). *)
Definition term_count (c : xcfg) : list Z :=
  if xPack c then 128 :: le32 0 else repeat 0 (Z.to_nat (xS c)) ++ 0 :: le32 0.

(** Literal length field of the end marker after an accepted run, l.468-476; the 128 bit
    codec always writes five zero bytes (rle128_extreme_cpu.h l.367-370, l.453-456). *)
Definition term_range (c : xcfg) : list Z :=
  if xP7 c && negb (xS c =? 16) then le32 1 else 0 :: le32 0.

(** Tail, l.384-603. *)
Definition finish (c : xcfg) (In : mem) (st : est) : list Z :=
  match packet c In st with
  | Some bytes => e_out st ++ bytes ++ term_count c ++ term_range c
  | None =>
      let copySize := e_i st - e_last st in
      e_out st ++ term_count c
        ++ (if xP7 c then le32 (Z.lor ((copySize + 1) * 2) 1) else 0 :: le32 (copySize + 1))
        ++ slice In (e_last st) copySize
  end.

(** Initial symbol: complement of the first symbol (l.32, rle24 l.37, rle48 l.37); the
    128 bit codec xors with zero instead (rle128_extreme_cpu.h l.50). *)
Definition init_sym (c : xcfg) (In : mem) : list Z :=
  if xS c =? 16 then load In 16 0 else map (fun b => 255 - b) (load In (xS c) 0).

(** rle_compress_bounds, rle8_extreme_cpu.c l.22-28 (uint32 arithmetic cannot wrap here). *)
Definition rle_compress_bounds (n : Z) : Z := if n >? 2 ^ 30 then 0 else n + 193.

(** rle_decompress_additional_size, rle8_extreme_cpu.c l.17-20. *)
Definition rle_decompress_additional_size : Z := 128.

(** The whole compress function (guards: rleX_extreme_cpu.h l.47-60 and _encode.h l.16;
    header l.19-24, l.605-608).  [inNull], [outNull]: the pointer arguments are NULL. *)
Definition xcompress (c : xcfg) (v : simd) (inNull outNull : bool) (In : mem) (n outSize : Z) : cres :=
  if inNull || (n =? 0) || outNull || (outSize <? rle_compress_bounds n) then CRefused
  else
    let st := mkE 0 0 (init_sym c In) 0 (repeat 0 (Z.to_nat (xS c))) [] false in
    match loop (enc_step c v In n) st with
    | Some (Some st') =>
        let body := finish c In st' in
        COk (le32 n ++ le32 (8 + len body) ++ body)
    | _ => CDiverge
    end.

(** *** Decoder *)

(** Decoder implementations: sse2, sse41, avx, avx2, avx512f for 16/32/64 bit; sse2, ssse3,
    avx2 for 24/48 bit; sse, avx, avx512f for 128 bit.  Streaming and plain loads agree. *)
Inductive dsimd := DSse | DSsse3 | DAvx | DAvx512.

(** Copy width: MEMCPY_SSE*_MULTI 16, MEMCPY_AVX*_MULTI 32, MEMCPY_AVX512_MULTI = MEMCPY_AVX 32. *)
Definition dcopyW (d : dsimd) : Z := match d with DSse | DSsse3 => 16 | _ => 32 end.
Definition dfillW (d : dsimd) : Z := match d with DSse | DSsse3 => 16 | DAvx => 32 | DAvx512 => 64 end.
(** Which implementation of the 24/48 bit shuffles the decoder uses ([DAvx] is avx2). *)
Definition dvec (d : dsimd) : simd := match d with DSse => Sse2 | DSsse3 => Ssse3 | _ => Avx2 end.

(** Three stores per iteration, rle24_extreme_cpu_decode.h l.225-246. *)
Definition fill3_step (W : Z) (v0 v1 v2 : list Z) (qend : Z) (s : Z * mem) : (Z * mem) + mem :=
  let '(qc, M) := s in
  if qc <? qend then
    inl (qc + 3 * W,
         vstore W (symbyte v2) (vstore W (symbyte v1) (vstore W (symbyte v0) M qc) (qc + W)) (qc + 2 * W))
  else inr M.

(** Fill of one run; [reg] is the raw symbol load. *)
Definition dfill (S : Z) (d : dsimd) (reg : list Z) (M : mem) (q cnt : Z) : option (Z * mem) :=
  if (S =? 3) || (S =? 6) then
    let '(v0, v1, v2) := if S =? 3 then vec24 (dvec d) reg else vec48 (dvec d) reg in
    let W := simdW (dvec d) in
    let q' := w64 (q + cnt) in
    match loop (fill3_step W v0 v1 v2 q') (q, M) with
    | Some M' => Some (q', M')
    | None => None
    end
  else memset_multiW (dfillW d) (fun j => symbyte reg (j mod S)) M q cnt.

(** Symbol and count fields: new read pointer, raw symbol, count.  rleX_extreme_cpu_decode.h
    l.45-93 (rle24 l.74-112, rle48 l.73-111, rle128 l.508-545). *)
Definition dec_count (c : xcfg) (C : mem) (p : Z) (reg : list Z) : Z * list Z * Z :=
  let S := xS c in
  if xPack c then
    let b := C p in
    let cnt7 := Z.land b 127 in
    let same := negb (Z.land b 128 =? 0) in
    let '(p1, cnt) := if cnt7 =? 0 then (p + 1 + 4, rd32 C (p + 1)) else (p + 1, cnt7) in
    if same then (p1, reg, cnt) else (p1 + S, slice C p1 (rawS S), cnt)
  else
    let b := C (p + S) in
    if b =? 0 then (p + S + 1 + 4, slice C p (rawS S), rd32 C (p + S + 1))
    else (p + S + 1, slice C p (rawS S), b).

(** Literal length field: new read pointer, offset before [offset--], whether to return.
    rleX_extreme_cpu_decode.h l.95-127 (rle24 l.142-174, rle48 l.143-175, rle128 l.547-575). *)
Definition dec_range (c : xcfg) (C : mem) (p : Z) : Z * Z * bool :=
  let b := C p in
  if xP7 c then
    if Z.land b 1 =? 1 then let o := rd32 C p / 2 in (p + 4, o, o =? 0) else (p + 1, b / 2, false)
  else
    if b =? 0 then let o := rd32 C (p + 1) in (p + 1 + 4, o, o =? 0) else (p + 1, b, false).

(** One iteration of the decode loop, rleX_extreme_cpu_decode.h l.43-163 (rle24 l.72-247,
    rle48 l.71-252, rle128 l.506-587, l.600-681, l.694-775). *)
Definition dec_step (c : xcfg) (d : dsimd) (C : mem) (s : Z * Z * list Z * mem)
  : (Z * Z * list Z * mem) + option mem :=
  let '(p, q, reg, M) := s in
  let S := xS c in
  let '(p2, reg2, cnt) := dec_count c C p reg in
  let '(p3, off, stop) := dec_range c C p2 in
  if stop then inr (Some M)
  else
    match memcpyW (dcopyW d) C p3 M q (w64 (off - 1)) with
    | None => inr None
    | Some (p4, q4, M4) =>
        if cnt =? 0 then inr (Some M4)
        else
          let n := if xUnb c then cnt + xSHORT c - 1 else (cnt + xSHORT c / S - 1) * S in
          match dfill S d reg2 M4 q4 n with
          | None => inr None
          | Some (q5, M5) => inl (p4, q5, reg2, M5)
          end
    end.

(** rleX_extreme_cpu.h l.82-111, rle24_extreme_cpu.h l.84-109, rle48_extreme_cpu.h l.84-109,
    rle128_extreme_cpu.h l.778-803.  [pin], [pout]: buffer addresses (0 = NULL). *)
Definition xdecompress (c : xcfg) (d : dsimd) (C : mem) (pin inSize : Z) (M : mem) (pout outSize : Z) : dres :=
  if (pin =? 0) || (pout =? 0) || (inSize =? 0) || (outSize =? 0) then DRet 0 M
  else
    let expIn := rd32 C (pin + 4) in
    let expOut := rd32 C pin in
    if (outSize <? expOut) || (inSize <? expIn) then DRet 0 M
    else
      match loop (dec_step c d C) (pin + 8, pout, repeat 0 (Z.to_nat (rawS (xS c))), M) with
      | Some (Some M') => DRet expOut M'
      | _ => DDiverge
      end.
