(** Model of the fuzzer (src/rle_fuzz.c), the tool that decides whether the codecs work. *)
From Verif Require Import Base Spec.

(** *** Random numbers *)

(** fuzz_read_rand_predictable, l.76-89.  The argument is the static variable [last]; the result is the
    number returned and the new value of [last]. *)
Definition rand_predictable (last : Z) : Z * Z :=
  let last' := w64 (last * 6364136223846793005 + 16162083637807947543) in
  let xorshifted := w32 (Z.shiftr (Z.lxor (Z.shiftr last 18) last) 27) in
  let rot := Z.shiftr last 59 in
  (Z.lor (Z.shiftr xorshifted rot) (w32 (Z.shiftl xorshifted (Z.land (- rot) 31))), last').

(** The initial value, l.78. *)
Definition rand_start : Z := 17880510443906141196.

(** fuzz_read_rand, l.91-113, takes its numbers from the clock (the static variable [initialized] is
    never set, so every call starts afresh).  The k-th vector read is [R k], a function of its 16 bytes,
    over which the theorems quantify.  A generator is the variable [last] of l.78 and the number of
    vectors read so far. *)
Definition oracle := Z -> mem.
Record gen := mkGen { g_last : Z; g_count : Z }.

Definition read_predictable (g : gen) : Z * gen :=
  let '(v, l) := rand_predictable (g_last g) in (v, mkGen l (g_count g)).
Definition read_rand (R : oracle) (g : gen) : mem * gen := (R (g_count g), mkGen (g_last g) (g_count g + 1)).

(** fuzz_rand_between, l.115-121.  buffer[0] is the low half of the vector; [hi = lo] would be a division by
    zero in C; the theorems exclude it. *)
Definition rand_between (R : oracle) (g : gen) (lo hi : Z) : Z * gen :=
  let '(v, g') := read_rand R g in
  ((rd32 v 0 + 2 ^ 32 * rd32 v 4) mod (hi - lo) + lo, g').

(** *** The state of the fuzzer, l.13-72.  Section types: 0 fst_random_data, 1 fst_repeating_symbol.  Length
    types: 0 flt_small, 1 flt_medium, 2 flt_16_bit_limit, 3 _flt_count.  stateCount is the length of
    [f_subs]. *)
Definition small_min : Z := 1.
Definition small_max : Z := 280.
Definition medium_min : Z := 768.
Definition medium_max : Z := 8192.
Definition limit_min : Z := 65528.
Definition limit_max : Z := 65560.
Definition max_symbol_length : Z := 16.
Definition symbol_count : Z := 16.

Record sub := mkSub { s_type : Z; s_lt : Z; s_len : Z; s_sym : Z }.
Record fstate := mkF
  { f_sym : Z -> Z -> Z; f_sl : Z; f_bound : bool; f_iter : bool; f_rel : Z; f_last : Z; f_start : Z; f_subs : list sub }.

(** fuzz_sub_state_reset, l.123-128; fuzz_sub_state_init, l.130-135. *)
Definition sub_reset (s : sub) : sub := mkSub (s_type s) 0 small_min 0.
Definition sub_init (t : Z) : sub := mkSub t 0 small_min 0.

(** fuzz_sub_state_set_random_with_same_type, l.137-157. *)
Definition sub_random (R : oracle) (g : gen) (s : sub) : sub * gen :=
  let '(sym, g1) := rand_between R g 0 symbol_count in
  let '(d, g2) := rand_between R g1 0 256 in
  if d <? 208 then let '(l, g3) := rand_between R g2 small_min small_max in (mkSub (s_type s) 0 l sym, g3)
  else if d <? 248 then let '(l, g3) := rand_between R g2 medium_min medium_max in (mkSub (s_type s) 1 l sym, g3)
  else let '(l, g3) := rand_between R g2 limit_min limit_max in (mkSub (s_type s) 2 l sym, g3).

(** fuzz_sub_state_try_increment, l.159-206. *)
Definition sub_increment (s : sub) : bool * sub :=
  let s' :=
    if s_lt s =? 1 then
      let l := s_len s * 17 / 16 in
      if l >? medium_max then mkSub (s_type s) 2 limit_min (s_sym s) else mkSub (s_type s) 1 l (s_sym s)
    else if s_lt s =? 2 then
      let l := s_len s + 1 in
      if l >? limit_max then mkSub (s_type s) 3 0 (s_sym s) else mkSub (s_type s) 2 l (s_sym s)
    else
      let l := s_len s + 1 in
      if l >? small_max then mkSub (s_type s) 1 medium_min (s_sym s) else mkSub (s_type s) (s_lt s) l (s_sym s)
  in (s_lt s' <? 3, s').

Fixpoint upd {A} (i : nat) (x : A) (l : list A) : list A :=
  match l, i with
  | [], _ => []
  | _ :: l', O => x :: l'
  | y :: l', S i' => y :: upd i' x l'
  end.

(** fuzz_state_increment_sub_states, l.208-221: the loop from index [i] down to 0. *)
Fixpoint subs_increment (i : nat) (l : list sub) : bool * list sub :=
  let '(ok, s) := sub_increment (nth i l (sub_init 0)) in
  if ok then (true, upd i s l)
  else
    let l' := upd i (sub_reset s) l in
    match i with O => (false, l') | S i' => subs_increment i' l' end.

(** The loops that initialise all sections, e.g. l.230-231: types alternate, beginning with [start]. *)
Fixpoint subs_init_from (start : Z) (i : Z) (n : nat) : list sub :=
  match n with O => [] | S n' => sub_init ((i + start) mod 2) :: subs_init_from start (i + 1) n' end.
Definition subs_init (start : Z) (n : Z) : list sub := subs_init_from start 0 (Z.to_nat n).

Definition with_subs (f : fstate) (l : list sub) : fstate :=
  mkF (f_sym f) (f_sl f) (f_bound f) (f_iter f) (f_rel f) (f_last f) (f_start f) l.
Definition restarted (f : fstate) (sl : Z) (bound : bool) (start : Z) : fstate :=
  mkF (f_sym f) sl bound (f_iter f) (f_rel f) (f_last f) start (subs_init start (len (f_subs f))).

(** fuzz_state_increment, l.266-283, with fuzz_state_increment_sub_states (l.208-221),
    _sub_state_order (l.223-234), _symbol_alignment (l.236-248) and _symbol_length (l.250-264) in place.
    With no sections l.210 counts from -1 and the loop of l.212 does nothing. *)
Definition increment (f : fstate) : bool * fstate :=
  let '(ok, l) :=
    if len (f_subs f) =? 0 then (false, [])
    else subs_increment (Z.to_nat (Z.min (len (f_subs f) - 1) (f_last f))) (f_subs f) in
  let f1 := with_subs f l in
  if ok then (true, f1)
  else if f_start f1 + 1 <? 2 then (true, restarted f1 (f_sl f1) (f_bound f1) (f_start f1 + 1))
  else if negb (f_bound f1 || (f_sl f1 =? 1)) then (true, restarted f1 (f_sl f1) true 0)
  else if f_sl f1 + 1 >? max_symbol_length then
         (false, mkF (f_sym f1) (f_sl f1 + 1) (f_bound f1) (f_iter f1) (f_rel f1) (f_last f1) (f_start f1 + 1) (f_subs f1))
  else (true, restarted f1 (f_sl f1 + 1) false 0).

(** reasonableSymbolLengths, l.291. *)
Definition reasonable (i : Z) : Z := nth (Z.to_nat i) [1; 2; 3; 4; 6; 8; 16] 0.

(** The loop of l.302-306 over the first [k] sections. *)
Fixpoint randomise (R : oracle) (g : gen) (start i : Z) (k : nat) (l : list sub) : list sub * gen :=
  match k, l with
  | S k', _ :: l' =>
      let '(s, g1) := sub_random R g (sub_init ((i + start) mod 2)) in
      let '(r, g2) := randomise R g1 start (i + 1) k' l' in
      (s :: r, g2)
  | _, _ => (l, g)
  end.

(** fuzz_state_advance, l.285-309. *)
Definition advance (R : oracle) (g : gen) (f : fstate) : bool * fstate * gen :=
  if f_iter f then let '(b, f') := increment f in (b, f', g)
  else
    let '(d, g1) := rand_between R g 0 16 in
    let '(sl, g2) :=
      if d <? 13 then let '(i, g') := rand_between R g1 1 7 in (reasonable i, g')
      else rand_between R g1 1 (max_symbol_length + 1) in
    let '(b, g3) := rand_between R g2 0 2 in
    let '(st, g4) := rand_between R g3 0 2 in
    let '(rel, g5) := rand_between R g4 1 (len (f_subs f)) in
    let '(l, g6) := randomise R g5 st 0 (Z.to_nat rel) (f_subs f) in
    (true, mkF (f_sym f) sl (negb (b =? 0)) (f_iter f) rel (f_last f) st l, g6).

(** fuzz_sub_state_get_required_buffer_capacity, l.311-314. *)
Definition buffer_capacity (f : fstate) : Z := len (f_subs f) * limit_max * max_symbol_length.

(** The symbols drawn by fuzz_create, l.335-342: row [i], four bytes at a time. *)
Fixpoint draw_words (n : nat) (g : gen) : list Z * gen :=
  match n with
  | O => ([], g)
  | S n' => let '(v, g1) := read_predictable g in
            let '(r, g2) := draw_words n' g1 in (le32 v ++ r, g2)
  end.

(** fuzz_create, l.316-349; malloc is assumed to succeed. *)
Definition fuzz_create (g : gen) (sections : Z) (iterative : bool) : fstate * gen :=
  let '(syms, g') := draw_words (Z.to_nat (symbol_count * (max_symbol_length / 4))) g in
  (mkF (fun i j => nth (Z.to_nat (16 * i + j)) syms 0) 1 false iterative sections (sections - 1) 0 (subs_init 0 sections), g').

(** *** fuzz_fill_buffer, l.360-437 *)

(** Random data in iterative mode, l.371-385: [v] is the length as int64_t. *)
Definition fill32 (p l : Z) : Z * gen * mem -> (Z * gen * mem) + (Z * gen * mem) := fun '(j, g, M) =>
  if j <=? l - 4 then let '(v, g') := read_predictable g in inl (j + 4, g', store M (p + j) (le32 v))
  else inr (j, g, M).
Definition fill8 (p l : Z) : Z * gen * mem -> (Z * gen * mem) + (Z * gen * mem) := fun '(j, g, M) =>
  if j <? l then let '(v, g') := read_predictable g in inl (j + 1, g', store M (p + j) [w8 v])
  else inr (j, g, M).

(** Random data in random mode, l.387-407: vectors of 16 bytes, four bytes apart, then single bytes of
    another vector. *)
Definition fill128 (R : oracle) (p l : Z) : Z * gen * mem -> (Z * gen * mem) + (Z * gen * mem) := fun '(j, g, M) =>
  if j <=? l - 16 then let '(v, g') := read_rand R g in inl (j + 4, g', store M (p + j) (slice v 0 16))
  else inr (j, g, M).

(** A section of a repeated symbol, l.412-431: [sy] is the symbol, [l] the length in bytes. *)
Definition fill_symbol (p l : Z) (sy : list Z) : Z * mem -> (Z * mem) + (Z * mem) := fun '(j, M) =>
  if j <=? l - len sy then inl (j + len sy, store M (p + j) sy) else inr (j, M).

(** One section at address [p]; the result is the address behind it.  [None]: a loop that does not end, or a
    read outside of the array of symbols. *)
Definition fill_section (R : oracle) (f : fstate) (s : sub) (p : Z) (g : gen) (M : mem) : option (Z * gen * mem) :=
  if s_type s =? 1 then
    if (s_sym s <? 0) || (symbol_count <=? s_sym s) || (max_symbol_length <? f_sl f) then None
    else
      let l := if f_bound f then s_len s * f_sl f else s_len s in
      let sy := map (fun j => f_sym f (s_sym s) (Z.of_nat j)) (seq 0 (Z.to_nat (f_sl f))) in
      match loop (fill_symbol p l sy) (0, M) with
      | Some (j, M1) =>
          Some (p + l, g, if j <? l then store M1 (p + j) (firstn (Z.to_nat (l - j)) sy) else M1)
      | None => None
      end
  else if f_iter f then
    match loop (fill32 p (s_len s)) (0, g, M) with
    | Some s1 =>
        match loop (fill8 p (s_len s)) s1 with
        | Some (_, g2, M2) => Some (p + s_len s, g2, M2)
        | None => None
        end
    | None => None
    end
  else
    match loop (fill128 R p (s_len s)) (0, g, M) with
    | Some (j, g1, M1) =>
        let '(v, g2) := read_rand R g1 in
        Some (p + s_len s, g2, store M1 (p + j) (slice v 0 (s_len s - j)))
    | None => None
    end.

Fixpoint fill_sections (R : oracle) (f : fstate) (l : list sub) (p : Z) (g : gen) (M : mem) : option (Z * gen * mem) :=
  match l with
  | [] => Some (p, g, M)
  | s :: l' =>
      match fill_section R f s p g M with
      | Some (p', g', M') => fill_sections R f l' p' g' M'
      | None => None
      end
  end.

(** fuzz_fill_buffer: size, generator and memory afterwards. *)
Definition fill_buffer (R : oracle) (f : fstate) (p : Z) (g : gen) (M : mem) : option (Z * gen * mem) :=
  match fill_sections R f (firstn (Z.to_nat (f_rel f)) (f_subs f)) p g M with
  | Some (p', g', M') => Some (p' - p, g', M')
  | None => None
  end.

(** *** MemoryEquals, l.440-525 *)

(** [cmp | (A ^ B)] of the vectors at [offset + at], lane by lane. *)
Definition diff (A : mem) (a : Z) (B : mem) (b : Z) (offset : Z) (c : mem) : mem := fun i =>
  Z.lor (c i) (Z.lxor (A (a + offset + i)) (B (b + offset + i))).
Definition vec_or (x y : mem) : mem := fun i => Z.lor (x i) (y i).
Definition zero_vec : mem := fun _ => 0.

(** l.465-475 = l.492-502 (the two copies differ in the load instructions only): four vectors at a time. *)
Definition eq4_step (A : mem) (a : Z) (B : mem) (b : Z) (last : Z) :
  Z * (mem * mem * mem * mem) -> (Z * (mem * mem * mem * mem)) + (Z * (mem * mem * mem * mem)) :=
  fun '(o, (c0, c1, c2, c3)) =>
  if o <? last then
    inl (o + 128, (diff A a B b o c0, diff A a B b (o + 32) c1, diff A a B b (o + 64) c2, diff A a B b (o + 96) c3))
  else inr (o, (c0, c1, c2, c3)).

(** l.480-481 = l.509-510. *)
Definition eq1_step (A : mem) (a : Z) (B : mem) (b : Z) (last : Z) : Z * mem -> (Z * mem) + (Z * mem) := fun '(o, c) =>
  if o <? last then inl (o + 32, diff A a B b o c) else inr (o, c).

(** [_mm256_movemask_epi8(c) != 0]: the highest bit of some byte is set. *)
Definition movemask (c : mem) : bool := existsb (fun i => Z.testbit (c (Z.of_nat i)) 7) (seq 0 32).

(** l.515-519, l.521-523: [None] of the result: go on, [Some false]: return false. *)
Definition eq64_step (A : mem) (a : Z) (B : mem) (b : Z) (last : Z) : Z -> Z + option Z := fun o =>
  if o <? last then
    if (rd32 A (a + o) =? rd32 B (b + o)) && (rd32 A (a + o + 4) =? rd32 B (b + o + 4)) then inl (o + 8) else inr None
  else inr (Some o).
Definition eq8_step (A : mem) (a : Z) (B : mem) (b : Z) (length : Z) : Z -> Z + bool := fun o =>
  if o <? length then if A (a + o) =? B (b + o) then inl (o + 1) else inr false else inr true.

(** [None]: a loop that does not end. *)
Definition memory_equals (A : mem) (a : Z) (B : mem) (b : Z) (length : Z) : option bool :=
  let tail o :=
    match loop (eq64_step A a B b (Z.max 0 (length - 8))) o with
    | Some (Some o') => loop (eq8_step A a B b length) o'
    | Some None => Some false
    | None => None
    end in
  let endInSimd := Z.max 0 (length - 32) in
  if endInSimd =? 0 then tail 0
  else
    let endInSimd4 := Z.max 0 (length - 128) in
    let start :=
      if endInSimd4 =? 0 then Some (0, zero_vec)
      else
        match loop (eq4_step A a B b endInSimd4) (0, (zero_vec, zero_vec, zero_vec, zero_vec)) with
        | Some (o, (c0, c1, c2, c3)) => Some (o, vec_or (vec_or c0 c1) (vec_or c2 c3))
        | None => None
        end in
    match start with
    | Some (o, c) =>
        match loop (eq1_step A a B b endInSimd) (o, c) with
        | Some (o', c') => if movemask c' then Some false else tail o'
        | None => None
        end
    | None => None
    end.

(** *** fuzz, l.533-757 *)

(** A compress callback writes at an address of a memory and returns a number: input (relative to the
    input pointer), its size, output memory, output address, capacity. *)
Definition cfun := mem -> Z -> mem -> Z -> Z -> dres.

(** Invert the bytes from [p + i] to [p + e], l.627-632. *)
Definition scramble (M : mem) (p i e : Z) : mem := fun x => if (p + i <=? x) && (x <? p + e) then 255 - M x else M x.

(** One codec, l.612-745: memories of compressed and decompressed data afterwards, or [None] if the program
    stops with __debugbreak; the outer option: a call that does not return. *)
Definition fuzz_codec (c : cfun * decompressor) (U : mem) (pU n : Z) (cap : Z) (pK pD : Z) (KD : mem * mem) :
  option (option (mem * mem)) :=
  let '(K, D) := KD in
  match fst c (fun k => U (pU + k)) n K pK cap with
  | DDiverge => None
  | DRet size K1 =>
      if size =? 0 then Some None
      else
        let K2 := scramble K1 pK size (Z.min cap (n + 64)) in
        let D1 := store D pD (repeat 0 (Z.to_nat n)) in
        match snd c K2 pK size D1 pD n with
        | DDiverge => None
        | DRet r D2 =>
            if negb (r =? n) then Some None
            else match memory_equals U pU D2 pD n with
                 | Some true => Some (Some (K2, D2))
                 | Some false => Some None
                 | None => None
                 end
        end
  end.

Fixpoint fuzz_codecs (cs : list (cfun * decompressor)) (U : mem) (pU n cap pK pD : Z) (KD : mem * mem) :
  option (option (mem * mem)) :=
  match cs with
  | [] => Some (Some KD)
  | c :: cs' =>
      match fuzz_codec c U pU n cap pK pD KD with
      | Some (Some KD') => fuzz_codecs cs' U pU n cap pK pD KD'
      | r => r
      end
  end.

(** The size of the buffer for compressed data, l.558-565 (every bound without wrap: the capacity of the
    input buffer is about 8 MB at most). *)
Definition fuzz_buffer_size (inputCapacity : Z) : Z := inputCapacity + 297.

(** What [fuzz] does: it stops the program with a trap, or it returns true. *)
Inductive fuzz_result := FzTrap | FzTrue.

Record fuzzer := mkFz { z_f : fstate; z_g : gen; z_U : mem; z_KD : mem * mem }.

(** An iteration of l.582-747. *)
Definition fuzz_step (R : oracle) (cs : list (cfun * decompressor)) (pU pK pD cap : Z) (z : fuzzer) :
  fuzzer + option fuzz_result :=
  match fill_buffer R (z_f z) pU (z_g z) (z_U z) with
  | None => inr None
  | Some (n, g1, U1) =>
      match fuzz_codecs cs U1 pU n cap pK pD (z_KD z) with
      | None => inr None
      | Some None => inr (Some FzTrap)
      | Some (Some KD1) =>
          let '(more, f2, g2) := advance R g1 (z_f z) in
          if more then inl (mkFz f2 g2 U1 KD1) else inr (Some FzTrue)
      end
  end.

(** fuzz(sectionCount, iterative) with the callbacks [cs]; the buffers lie at [pU], [pK], [pD] in memories
    [U], [K], [D] of arbitrary content.  [None]: no result. *)
Definition fuzz (R : oracle) (cs : list (cfun * decompressor)) (g : gen) (sections : Z) (iterative : bool)
    (U : mem) (pU : Z) (K : mem) (pK : Z) (D : mem) (pD : Z) : option fuzz_result :=
  let '(f, g1) := fuzz_create g sections iterative in
  match loop (fuzz_step R cs pU pK pD (fuzz_buffer_size (buffer_capacity f))) (mkFz f g1 U (K, D)) with
  | Some r => r
  | None => None
  end.
