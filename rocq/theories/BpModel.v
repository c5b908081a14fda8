(** Model of the packing functions of bitpack.h.  The `aligned' variants differ from the others only
    in their load and store instructions, which fault if the address is not a multiple of 16; the
    flags [ai], [ao] say whether the loads, the stores are of that kind.  Input and output are parts
    of the same memory.  Pointers and counters are unbounded. *)
From Verif Require Import Base Simd Spec MtfModel MzModel.

Inductive bres (A : Type) := Ret (x : A) | Fault | Div.
Arguments Ret {A}. Arguments Fault {A}. Arguments Div {A}.
Definition bind {A B} (r : bres A) (f : A -> bres B) : bres B := match r with Ret x => f x | Fault => Fault | Div => Div end.

(** i, pIn, pOut, memory *)
Definition bst := (Z * Z * Z * mem)%type.
Definition may (aligned : bool) (p : Z) : bool := negb aligned || (p mod 16 =? 0).
(** A loop `for (; cont(i); i += di)' whose body turns memory [M] into [upd M pIn pOut] and advances
    the pointers by [sp] and [sq]. *)
Definition bstep (ai ao : bool) (cont : Z -> bool) (di sp sq : Z) (upd : mem -> Z -> Z -> mem) (s : bst) : bst + option bst :=
  let '(i, p, q, M) := s in
  if cont i then (if may ai p && may ao q then inl (i + di, p + sp, q + sq, upd M p q) else inr None) else inr (Some s).
Definition bloop (ai ao : bool) (cont : Z -> bool) (di sp sq : Z) (upd : mem -> Z -> Z -> mem) (s : bst) : bres bst :=
  match loop (bstep ai ao cont di sp sq upd) s with Some (Some s) => Ret s | Some None => Fault | None => Div end.
(** The same with `if'. *)
Definition bif (cont : Z -> bool) (di sp sq : Z) (upd : mem -> Z -> Z -> mem) (s : bst) : bres bst :=
  let '(i, p, q, M) := s in
  Ret (if cont i then (i + di, p + sp, q + sq, upd M p q) else s).
(** What the functions return: pOut (packing) or pIn (unpacking), and the memory.  For the functions
    of type void it is the last value of the pointer, which the caller does not see. *)
Definition bout (r : bres bst) : bres (Z * mem) := bind r (fun '(_, _, q, M) => Ret (q, M)).
Definition bin (r : bres bst) : bres (Z * mem) := bind r (fun '(_, p, _, M) => Ret (p, M)).

(** Consecutive stores of vectors *)
Definition vstores (M : mem) (q : Z) (l : list (Z -> Z)) : mem := fst (fold_left (fun '(M, q) v => (vstore 16 v M q, q + 16)) l (M, q)).

(** *** 3 bits *)

(** bitpack_encode3_3_sse2_{aligned,unaligned}, l.15-42, l.48-75; the body is also that of l.420-440 *)
Definition enc33_upd (M : mem) (p q : Z) : mem :=
  let p0 := load M p in let p1 := load M (p + 16) in let p2 := load M (p + 32) in
  let p01p := vor p0 (sll16 3 p1) in
  let p2p := sll16 6 (vand p2 3) in
  let M1 := vstore 16 (vec 16 (vor p01p p2p)) M q in
  put16 M1 (q + 16) (movemask8 (sll16 5 p2)).
Definition encode3_3 (ai : bool) (M : mem) (pin pout size : Z) : bres (Z * mem) :=
  bout (bloop ai false (fun i => i <? size) 48 48 18 enc33_upd (0, pin, pout, M)).

(** _mm_set1_epi16 and three times _mm_unpacklo_epi8, patternBitSelect, patternLow1: l.108-115 *)
Definition spread (x : Z) : Z -> Z :=
  let v := set1_16 x in let v := unpacklo v v in let v := unpacklo v v in let v := unpacklo v v in bitsel v.

(** bitpack_decode3_3_sse2_{aligned,unaligned}, l.83-123, l.129-169; the body is also that of l.520-552 *)
Definition dec33_upd (M : mem) (p q : Z) : mem :=
  let cA := load M p in
  let d0 := vec 16 (vand cA 7) in
  let d1 := vec 16 (vand (srl16 3 cA) 7) in
  let d2lo := vand (srl16 6 cA) 3 in
  let M := vstores M q [d0; d1] in
  let v := spread (rd16 M (p + 16)) in
  vstores M (q + 32) [vec 16 (vor d2lo (sll16 2 v))].
Definition decode3_3 (ao : bool) (M : mem) (pin pout size : Z) : bres (Z * mem) :=
  bin (bloop false ao (fun i => i <? size) 18 18 48 dec33_upd (0, pin, pout, M)).

(** bitpack_encode3_6_sse2_{aligned,unaligned}, l.177-214, l.220-257; the body is also that of l.388-418 *)
Definition enc36_upd (M : mem) (p q : Z) : mem :=
  let p0 := load M p in let p1 := load M (p + 16) in let p2 := load M (p + 32) in
  let p3 := load M (p + 48) in let p4 := load M (p + 64) in let p5 := load M (p + 80) in
  let M1 := vstore 16 (vec 16 (vor (vor p0 (sll16 3 p1)) (sll16 6 (vand p2 3)))) M q in
  let M2 := vstore 16 (vec 16 (vor (vor p3 (sll16 3 p4)) (sll16 6 (vand p5 3)))) M1 (q + 16) in
  let mask25 := Z.lor (movemask8 (sll16 5 p2)) (w32 (movemask8 (sll16 5 p5) * 2 ^ 16)) in
  put32 M2 (q + 32) mask25.
Definition encode3_6 (ai : bool) (M : mem) (pin pout size : Z) : bres (Z * mem) :=
  bout (bloop ai false (fun i => i <? size) 96 96 36 enc36_upd (0, pin, pout, M)).

(** bitpack_decode3_6_sse2_{aligned,unaligned}, l.265-316, l.322-373; the body is also that of l.477-518 *)
Definition dec36_upd (M : mem) (p q : Z) : mem :=
  let cA := load M p in
  let cB := load M (p + 16) in
  let d0 := vec 16 (vand cA 7) in
  let d1 := vec 16 (vand (srl16 3 cA) 7) in
  let d2lo := vand (srl16 6 cA) 3 in
  let d3 := vec 16 (vand cB 7) in
  let d4 := vec 16 (vand (srl16 3 cB) 7) in
  let d5lo := vand (srl16 6 cB) 3 in
  let M := vstores M q [d0; d1] in
  let v := set1_32 (rd32 M (p + 32)) in
  let v := unpacklo v v in
  let v := unpacklo v v in
  let vlo := bitsel (unpacklo v v) in
  let vhi := bitsel (unpackhi v v) in
  vstores M (q + 32) [vec 16 (vor d2lo (sll16 2 vlo)); d3; d4; vec 16 (vor d5lo (sll16 2 vhi))].
Definition decode3_6 (ao : bool) (M : mem) (pin pout size : Z) : bres (Z * mem) :=
  bin (bloop false ao (fun i => i <? size) 36 36 96 dec36_upd (0, pin, pout, M)).

(** bitpack_encode3_sse2_unaligned_m128i, l.380-461.  l.420-440 do not advance pIn. *)
Definition enc3t_upd (M : mem) (p q : Z) : mem :=
  let p0 := load M p in
  let M1 := put16 M q (movemask8 (sll16 7 p0)) in
  let M2 := put16 M1 (q + 2) (movemask8 (sll16 6 p0)) in
  put16 M2 (q + 4) (movemask8 (sll16 5 p0)).
Definition encode3_m128i (M : mem) (pin pout size : Z) : bres (Z * mem) :=
  bout (bind (bloop false false (fun i => i <=? size - 96) 96 96 36 enc36_upd (0, pin, pout, M)) (fun s =>
        bind (bif (fun i => i <=? size - 48) 48 0 18 enc33_upd s) (fun s =>
        bloop false false (fun i => i <? size) 16 16 6 enc3t_upd s))).

(** bitpack_decode3_sse2_unaligned_m128i, l.466-598 *)
Definition dec3t_upd (M : mem) (p q : Z) : mem :=
  let v0 := spread (rd16 M p) in
  let v1 := sll16 1 (spread (rd16 M (p + 2))) in
  let v2 := sll16 2 (spread (rd16 M (p + 4))) in
  vstores M q [vec 16 (vor (vor v1 v2) v0)].
Definition decode3_m128i (M : mem) (pin pout size : Z) : bres (Z * mem) :=
  bin (bind (bloop false false (fun i => i <=? size - 96) 96 36 96 dec36_upd (0, pin, pout, M)) (fun s =>
       bind (bif (fun i => i <=? size - 48) 48 18 48 dec33_upd s) (fun s =>
       bloop false false (fun i => i <? size) 16 6 16 dec3t_upd s))).

(** *** 4 bits *)

(** bitpack_encode4_sse2_{unaligned,aligned}, l.604-643, l.647-686: l.612-623, l.628-634, l.636-640 *)
Definition enc4_upd (M : mem) (p q : Z) : mem :=
  let hi := load M p in let lo := load M (p + 16) in
  vstore 16 (vec 16 (vor (sll16 4 hi) lo)) M q.
Definition enc4s_upd (M : mem) (p q : Z) : mem := put8 M q (w8 (Z.lor (M p) (M (p + 1) * 2 ^ 4))).
Definition copy1_upd (M : mem) (p q : Z) : mem := put8 M q (M p).
Definition encode4 (al : bool) (M : mem) (pin pout size : Z) : bres (Z * mem) :=
  bout (bind (bloop al al (fun i => i <=? size - 32) 32 32 16 enc4_upd (0, pin, pout, M)) (fun s =>
        bind (bloop false false (fun i => i <? size - 1) 2 2 1 enc4s_upd s) (fun s =>
        bif (fun i => i <? size) 0 0 1 copy1_upd s))).

(** bitpack_decode4_sse2_{unaligned,aligned}, l.692-737, l.741-786: l.702-714, l.719-728, l.730-734 *)
Definition dec4_upd (M : mem) (p q : Z) : mem :=
  let pack := load M p in
  vstores M q [vec 16 (vand (srl16 4 pack) 15); vec 16 (vand pack 15)].
Definition dec4s_upd (M : mem) (p q : Z) : mem := let sym := M p in put8 (put8 M q (Z.land sym 15)) (q + 1) (sym / 2 ^ 4).
Definition decode4 (al : bool) (M : mem) (pin pout size : Z) : bres (Z * mem) :=
  bin (bind (bloop al al (fun i => i <=? size - 32) 32 16 32 dec4_upd (0, pin, pout, M)) (fun s =>
       bind (bloop false false (fun i => i <? size - 1) 2 1 2 dec4s_upd s) (fun s =>
       bif (fun i => i <? size) 0 1 0 copy1_upd s))).

(** bitpack_encode4_sse2_unaligned_m128i, l.793-825 (MzModel.v has it as [pack4]) *)
Definition enc4t_upd (M : mem) (p q : Z) : mem := put64 M q (Z.lor (rd64 M p) (w64 (rd64 M (p + 8) * 2 ^ 4))).
Definition encode4_m128i (M : mem) (pin pout size : Z) : bres (Z * mem) :=
  bout (bind (bloop false false (fun i => i <=? size - 32) 32 32 16 enc4_upd (0, pin, pout, M)) (fun s =>
        bif (fun i => i <? size) 0 0 8 enc4t_upd s)).

(** bitpack_decode4_sse2_unaligned_m128i, l.830-869 *)
Definition dec4t_upd (M : mem) (p q : Z) : mem :=
  let v := rd64 M p in
  let M := put64 M q (Z.land v 0x0F0F0F0F0F0F0F0F) in
  put64 M (q + 8) (Z.land (v / 2 ^ 4) 0x0F0F0F0F0F0F0F0F).
Definition decode4_m128i (M : mem) (pin pout size : Z) : bres (Z * mem) :=
  bin (bind (bloop false false (fun i => i <=? size - 32) 32 16 32 dec4_upd (0, pin, pout, M)) (fun s =>
       bif (fun i => i <? size) 0 8 0 dec4t_upd s)).

(** *** 2 bits *)

(** bitpack_encode2_sse2_{unaligned,aligned}, l.875-894, l.898-917 *)
Definition enc2_upd (M : mem) (p q : Z) : mem :=
  let p0 := load M p in let p1 := load M (p + 16) in let p2 := load M (p + 32) in let p3 := load M (p + 48) in
  vstore 16 (vec 16 (vor (vor (sll16 6 p3) (sll16 4 p2)) (vor (sll16 2 p1) p0))) M q.
Definition encode2 (al : bool) (M : mem) (pin pout size : Z) : bres (Z * mem) :=
  bout (bloop al al (fun i => i <? size) 64 64 16 enc2_upd (0, pin, pout, M)).

(** bitpack_decode2_sse2_{unaligned,aligned}, l.923-947, l.951-975 *)
Definition dec2_upd (M : mem) (p q : Z) : mem :=
  let pack := load M p in
  vstores M q [vec 16 (vand pack 3); vec 16 (vand (srl16 2 pack) 3); vec 16 (vand (srl16 4 pack) 3); vec 16 (vand (srl16 6 pack) 3)].
Definition decode2 (al : bool) (M : mem) (pin pout size : Z) : bres (Z * mem) :=
  bin (bloop al al (fun i => i <? size) 16 16 64 dec2_upd (0, pin, pout, M)).

(** bitpack_encode2_sse2_unaligned_m128i, l.982-1039: l.988-1001, l.1005-1021, l.1023-1036.  l.986
    subtracts in 64 bits, unsigned; the result, as int64_t, is the difference. *)
Definition enc2q_upd (M : mem) (p q : Z) : mem :=
  put64 M q (Z.lor (Z.lor (Z.lor (rd64 M p) (w64 (rd64 M (p + 8) * 2 ^ 2))) (w64 (rd64 M (p + 16) * 2 ^ 4))) (w64 (rd64 M (p + 24) * 2 ^ 6))).
Definition enc2d_upd (M : mem) (p q : Z) : mem :=
  put32 M q (Z.lor (Z.lor (Z.lor (rd32 M p) (w32 (rd32 M (p + 4) * 2 ^ 2))) (w32 (rd32 M (p + 8) * 2 ^ 4))) (w32 (rd32 M (p + 12) * 2 ^ 6))).
Definition encode2_m128i (M : mem) (pin pout size : Z) : bres (Z * mem) :=
  bout (bind (bloop false false (fun i => i <=? size - 64) 64 64 16 enc2_upd (0, pin, pout, M)) (fun s =>
        bind (bif (fun i => i + 32 <=? size) 32 32 8 enc2q_upd s) (fun s =>
        bif (fun i => i <? size) 0 0 4 enc2d_upd s))).

(** bitpack_decode2_sse2_unaligned_m128i, l.1044-1108 *)
Definition dec2q_upd (M : mem) (p q : Z) : mem :=
  let c := rd64 M p in
  let pat := 0x0303030303030303 in
  let M := put64 M q (Z.land c pat) in
  let M := put64 M (q + 8) (Z.land (c / 2 ^ 2) pat) in
  let M := put64 M (q + 16) (Z.land (c / 2 ^ 4) pat) in
  put64 M (q + 24) (Z.land (c / 2 ^ 6) pat).
Definition dec2d_upd (M : mem) (p q : Z) : mem :=
  let c := rd32 M p in
  let pat := 0x03030303 in
  let M := put32 M q (Z.land c pat) in
  let M := put32 M (q + 4) (Z.land (c / 2 ^ 2) pat) in
  let M := put32 M (q + 8) (Z.land (c / 2 ^ 4) pat) in
  put32 M (q + 12) (Z.land (c / 2 ^ 6) pat).
Definition decode2_m128i (M : mem) (pin pout size : Z) : bres (Z * mem) :=
  bin (bind (bloop false false (fun i => i <=? size - 64) 64 16 64 dec2_upd (0, pin, pout, M)) (fun s =>
       bind (bif (fun i => i + 32 <=? size) 32 8 32 dec2q_upd s) (fun s =>
       bif (fun i => i <? size) 0 4 0 dec2d_upd s))).

(** *** 1 bit *)

(** bitpack_encode1_sse2_{aligned,unaligned}, l.1115-1131, l.1136-1152 *)
Definition enc1_upd (M : mem) (p q : Z) : mem := put16 M q (movemask8 (sll16 7 (load M p))).
Definition encode1 (ai : bool) (M : mem) (pin pout size : Z) : bres (Z * mem) :=
  bout (bloop ai false (fun i => i <? size) 16 16 2 enc1_upd (0, pin, pout, M)).

(** bitpack_decode1_sse2_{aligned,unaligned}, l.1159-1185, l.1190-1216 *)
Definition dec1_upd (M : mem) (p q : Z) : mem := vstores M q [vec 16 (spread (rd16 M p))].
Definition decode1 (ao : bool) (M : mem) (pin pout size : Z) : bres (Z * mem) :=
  bin (bloop false ao (fun i => i <? size) 2 2 16 dec1_upd (0, pin, pout, M)).
