(** How often the loops of the encoders are passed.  The work of one pass is bounded by a constant
    (compares of one vector, one packet head), apart from the copies of the literals, which together
    are not longer than the stream. *)
From Verif Require Import Base Simd Spec ExtModel PktModel MbModel Rle8Model LutModel SlModel ShModel LeModel.

(** Passes of [while (...) { ... }]: the condition is evaluated once more than the body.  [inner]: passes
    of the loops inside of one pass.  [None]: does not end. *)
Definition cstep {S R : Type} (step : S -> S + R) (inner : S -> option Z) (s : S * Z) : (S * Z) + option Z :=
  match inner (fst s) with
  | None => inr None
  | Some c => match step (fst s) with inl s' => inl (s', snd s + 1 + c) | inr _ => inr (Some (snd s + 1 + c)) end
  end.
Definition passes {S R : Type} (step : S -> S + R) (inner : S -> option Z) (s : S) : option Z :=
  match loop (cstep step inner) (s, 0) with Some r => r | None => None end.
Definition alone {S : Type} (_ : S) : option Z := Some 0.
Definition oadd (a b : option Z) : option Z := match a, b with Some x, Some y => Some (x + y) | _, _ => None end.

(** *** rleX_extreme_cpu_encode.h, rle24_extreme_cpu_encode.h, rle48_extreme_cpu_encode.h,
    rle128_extreme_cpu.h, rleX_Xsl_multibyte_encoder.h, rleX_Xsl_short_multibyte_encoder.h *)

(** The loop that follows a run (rleX_extreme_cpu_encode.h l.57-99, rle128_extreme_cpu.h l.64-88). *)
Definition match_passes (c : xcfg) (v : simd) (In : mem) (n i count : Z) (sym : list Z) : option Z :=
  if xS c =? 16 then passes (match_step128 c In n sym) alone (i, count)
  else match v with Base_ => Some 0 | _ => passes (match_step c v In n (enc_vec (xS c) v sym)) alone (i, count) end.
(** The loop that looks for the next one (l.315-366, rle128_extreme_cpu.h l.233-266). *)
Definition scan_passes (c : xcfg) (v : simd) (In : mem) (n i : Z) : option Z :=
  if xS c =? 16 then passes (scan_step128 In n) alone i
  else match v with Base_ => Some 0 | _ => passes (scan_step c v In n) alone i end.
(** The loops inside of one pass of the main loop that starts at [i] with a run of [count] bytes [sym];
    [go]: whether it is entered. *)
Definition pass_inner (c : xcfg) (v : simd) (In : mem) (n : Z) (go : bool) (i count : Z) (sym : list Z) : option Z :=
  if go then
    oadd (match_passes c v In n i count sym)
      match (if xS c =? 16 then loop (match_step128 c In n sym) (i, count)
             else phase1 c v In n (mkE i count sym 0 [] [] false)) with
      | Some (Second i1 _) => scan_passes c v In n i1
      | Some (Fall i1 count1) =>
          match scalar_step c In n i1 count1 sym with
          | inl _ => Some 0
          | inr (i2, _) => scan_passes c v In n i2
          end
      | None => None
      end
  else Some 0.

(** The compress functions of the extreme codecs (ExtModel.v) *)
Definition ext_passes (c : xcfg) (v : simd) (In : mem) (n : Z) : option Z :=
  passes (enc_step c v In n) (fun st => pass_inner c v In n ((e_i st <? n) || e_goto st) (e_i st) (e_count st) (e_sym st))
    (mkE 0 0 (init_sym c In) 0 (repeat 0 (Z.to_nat (xS c))) [] false).

(** Those of the symbol table codecs for symbols of more than one byte (MbModel.v) *)
Definition mb_passes {A} (proc : procM A) (S : Z) (unb : bool) (v : simd) (In : mem) (n : Z) (a0 : A) : option Z :=
  passes (mb_step proc S unb v In n)
    (fun st => pass_inner (mcfg S unb) v In n ((m_i st <? n) || m_goto st) (m_i st) (MbModel.m_count st) (m_sym st))
    (mkM 0 0 (not_first S In) 0 a0 [] false).

(** *** 8 bit symbols *)

(** The loop inside of the SIMD loop (PktModel.v, [simd8_step]) *)
Definition simd8_inner {A} (proc : proc8 A) (W : Z) (In : mem) (n : Z) (s : est8 A) : option Z :=
  if i8 s <? n - W then
    let f := fun j => In (i8 s + j) =? sym8 s in
    let b := lead f W in
    if b =? W then Some 0
    else passes (scan8_step W In n) alone (if any f W || (1 <? count8 s) then i8 s + b else i8 s)
  else Some 0.
(** SIMD loop and scalar loop ([body8]) *)
Definition body8_passes {A} (procV procS : proc8 A) (W : Z) (In : mem) (n : Z) (s0 : est8 A) : option Z :=
  match loop (simd8_step procV W In n) s0 with
  | Some (Some s1) => oadd (passes (simd8_step procV W In n) (simd8_inner procV W In n) s0) (passes (scalar8_step false procS In n) alone s1)
  | _ => None
  end.

(** The search for the best symbol (Rle8Model.v, [approx_symbol]); the loops of l.61-76 and l.131-147 over
    256 values are counted as well. *)
Definition approx_inner (In : mem) (n : Z) (s : Z * Z * Z * (Z -> Z) * (Z -> Z)) : option Z :=
  let '(i, sym, count, prob, pcount) := s in
  if i <? n - 16 then
    let f := fun j => In (i + j) =? sym in
    let b := lead f 16 in
    if b =? 16 then Some 0
    else passes (scan8_step 16 In n) alone (if any f 16 || (1 <? count) then i + b else i)
  else Some 0.
Definition approx_passes (In : mem) (n : Z) : option Z :=
  oadd (Some 256) (passes (approx_step In n) (approx_inner In n)
    (0, 255 - In 0, 0, fun _ => 0, if In 0 =? 0 then fun _ => 0 else upd (fun _ => 0) 0 (2 ^ 32 - 1))).

(** The single symbol encoder (Rle8Model.v, [single_step]): the recount of l.1256-1260 after going back and
    the search of l.1290-1312. *)
Definition s_rolls (pk : bool) (s : sst) : bool :=
  (sSHORT pk <=? ss_count s) && negb (ss_i s - ss_last s - ss_count s + 1 <=? 255) && negb (s_accept_long pk (ss_count s)) &&
  negb ((ss_w s + 1 =? 1) || (255 <? w64 (ss_i s - ss_first s))) && (2 <? ss_w s + 1).
Definition single_inner (pk : bool) (sym : Z) (In : mem) (n : Z) (s : sst) : option Z :=
  if ss_i s <? n - 16 then
    let f := fun j => In (ss_i s + j) =? sym in
    let b := lead f 16 in
    if b =? 16 then Some 0
    else
      let s0 := mkS (ss_i s + b) (ss_count s + b) (ss_last s) (ss_out s) (ss_w s) (ss_first s) in
      match (if any f 16 || (1 <? ss_count s) then s_decide pk sym In n s0 else Some s) with
      | Some s1 =>
          oadd (if (any f 16 || (1 <? ss_count s)) && s_rolls pk s0 then passes (recount_step In n sym) alone (ss_first s, 0) else Some 0)
            (passes (sscan_step (sSHORT pk) sym In n) alone (ss_i s1))
      | None => None
      end
  else Some 0.
Definition single_passes (pk : bool) (In : mem) (n : Z) : option Z :=
  match approx_symbol In n with
  | Some sym =>
      match loop (single_step pk sym In n) (mkS 0 0 0 [] 0 0) with
      | Some (Some s1) =>
          oadd (approx_passes In n)
            (oadd (passes (single_step pk sym In n) (single_inner pk sym In n) (mkS 0 0 0 [] 0 0))
              (passes (scalar8_step true (s_procS pk) In n) alone (mk8 (ss_i s1) (ss_count s1) sym (ss_last s1) tt (ss_out s1))))
      | _ => None
      end
  | None => None
  end.

(** The encoder of rle8_short_single (ShModel.v, [sh_single_step]) *)
Definition sh_single_inner (In : mem) (n : Z) (s : est8 (list (list Z))) : option Z :=
  if i8 s <? n - 16 then
    let f := fun j => In (i8 s + j) =? sym8 s in
    let b := lead f 16 in
    if b =? 16 then Some 0
    else passes (sscan_step 2 (sym8 s) In n) alone (if any f 16 || (1 <? count8 s) then i8 s + b else i8 s)
  else Some 0.
Definition sh_single_passes (c : shcfg) (In : mem) (n : Z) : option Z :=
  let proc : proc8 (list (list Z)) := fun In i count sym last a => sh_proc c In i count [sym] last a in
  match approx_symbol In n with
  | Some sym =>
      match loop (sh_single_step proc In n) (mk8 0 0 sym 0 [] []) with
      | Some (Some s1) =>
          oadd (approx_passes In n)
            (oadd (passes (sh_single_step proc In n) (sh_single_inner In n) (mk8 0 0 sym 0 [] []))
              (passes (scalar8_step true proc In n) alone s1))
      | _ => None
      end
  | None => None
  end.

(** *** The compress functions *)

(** rle8_multi_compress, rle8_packed_multi_compress *)
Definition multi_passes (pk avx2 : bool) (In : mem) (n : Z) : option Z :=
  body8_passes (m_procV pk) (m_procS pk) (if avx2 then 32 else 16) In n (mk8 0 0 (255 - In 0) 0 0 []).

(** The codecs with a table of symbols *)
Definition sl_passes (c : slcfg) (v : simd) (In : mem) (n : Z) : option Z :=
  if slS c =? 1 then
    let proc : proc8 (list (list Z)) := fun In i count sym last a => sl_proc c In i count [sym] last a in
    body8_passes proc proc (match v with Avx2 => 32 | _ => 16 end) In n (mk8 0 0 (255 - In 0) 0 (lut_init (slS c) (slSC c)) [])
  else mb_passes (sl_proc c) (slS c) (slUnb c) v In n (lut_init (slS c) (slSC c)).

(** The short ones *)
Definition sh_passes (c : shcfg) (v : simd) (In : mem) (n : Z) : option Z :=
  if shOne c then sh_single_passes c In n
  else if shS c =? 1 then
    let proc : proc8 (list (list Z)) := fun In i count sym last a => sh_proc c In i count [sym] last a in
    body8_passes proc proc (match v with Avx2 => 32 | _ => 16 end) In n (mk8 0 0 (255 - In 0) 0 (lut_init (shS c) (shSC c)) [])
  else mb_passes (sh_proc c) (shS c) (shUnb c) v In n (lut_init (shS c) (shSC c)).

(** The greedy ones: the loop over the table l.888-954 has at most seven passes. *)
Definition greedy_passes (c : shcfg) (In : mem) (n : Z) : option Z :=
  passes (greedy_step c In n) (fun _ => Some (shSC c)) (mkM 0 0 (not_first (shS c) In) 0 (lut_init (shS c) (shSC c)) [] false).

(** Low entropy: the passes of the counting of l.501-509 (short: l.155-163) are the length of the run and one more. *)
Definition le_inner (L : Z) (info : leinfo) (In : mem) (n : Z) (s : Z * list Z) : option Z :=
  let '(i, _) := s in
  if (i <? n) && li_rle info (In i) then
    Some (lead (fun j => In (1 + j + i) =? In i) ((if i <? n - 256 then L else w8 (Z.min (n - i - 1) L)) - 1) + 1)
  else Some 0.
Definition le_passes (L : Z) (info : leinfo) (In : mem) (n : Z) : option Z :=
  passes (le_step L info In n) (le_inner L info In n) (0, []).
