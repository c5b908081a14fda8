(** Model of the command line of the tool: src/main.c l.93-691 (what is under #ifdef _WIN32 is left out).
    An argument is a [string] without NUL, so that [strncmp(arg, literal, sizeof(literal)) == 0] is equality. *)
From Coq Require Import String Ascii.
From Verif Require Import Base Spec PlatModel ToolTable.
Open Scope string_scope.
Open Scope Z_scope.

(** atoi of glibc, [(int)strtol(s, NULL, 10)]: blanks, a sign, digits; clamped to 64 bits, then cut to 32 (C
    leaves values outside int undefined). *)
Definition is_blank (c : ascii) : bool := let x := Z.of_nat (nat_of_ascii c) in (x =? 32) || ((9 <=? x) && (x <=? 13)).
Fixpoint skip_blanks (s : string) : string :=
  match s with String c r => if is_blank c then skip_blanks r else s | EmptyString => s end.
Fixpoint digits (s : string) (v : Z) : Z :=
  match s with
  | String c r => let d := Z.of_nat (nat_of_ascii c) - 48 in if (0 <=? d) && (d <=? 9) then digits r (10 * v + d) else v
  | EmptyString => v
  end.
Definition strtol (s : string) : Z :=
  let s := skip_blanks s in
  match s with
  | String c r => if (c =? "-")%char then Z.max (- 2 ^ 63) (- digits r 0)
                  else if (c =? "+")%char then Z.min (2 ^ 63 - 1) (digits r 0)
                  else Z.min (2 ^ 63 - 1) (digits s 0)
  | EmptyString => 0
  end.
Definition to_int (x : Z) : Z := let y := x mod 2 ^ 32 in if y <? 2 ^ 31 then y else y - 2 ^ 32.
Definition atoi (s : string) : Z := to_int (strtol s).

(** The character at an index, NUL at the end. *)
Definition char_at (s : string) (i : nat) : string := match String.get i s with Some c => String c "" | None => "" end.

(** --max-simd, l.172-313: the steps of the block in their order, each with the flag it requires if it is the
    one asked for, and the flags it turns off otherwise. *)
Definition simd_steps : list (string * flag * list flag) :=
  [("avx512f", FAvx512F,
    [FAvx512F; FAvx512PF; FAvx512ER; FAvx512CD; FAvx512BW; FAvx512DQ; FAvx512VL; FAvx512IFMA; FAvx512VBMI; FAvx512VNNI;
     FAvx512VBMI2; FAvx512POPCNTDQ; FAvx512BITALG; FAvx5124VNNIW; FAvx5124FMAPS]);
   ("avx2", FAvx2, [FAvx2; FFma3]); ("avx", FAvx, [FAvx]); ("sse4.2", FSse42, [FSse42]); ("sse4.1", FSse41, [FSse41]);
   ("ssse3", FSsse3, [FSsse3]); ("sse3", FSse3, [FSse3]); ("sse2", FSse2, [FSse2])].
Definition turn_off (st : flags) (l : list flag) : flags := fold_left (fun st f => set_flag st f false) l st.
Fixpoint limit_simd (steps : list (string * flag * list flag)) (x : string) (st : flags) : option flags :=
  match steps with
  | [] => if x =? "none" then Some st else None
  | (name, need, offs) :: rest =>
      if x =? name then if st need then Some st else None
      else limit_simd rest x (turn_off st offs)
  end%string.

(** The local variables of main, _Args, and the flags of simd_platform.c. *)
Record settings := mkSettings {
  s_args : args; s_runs : Z; s_minSeconds : Z; s_analyze : bool; s_noDelays : bool; s_test : bool;
  s_fuzz : bool; s_fuzzIterative : bool; s_stdDev : bool; s_flags : flags }.

Definition no_args : args := mkArgs false false false false false false false false false false false false false false false false false 0 false 0.
Definition initial (st : flags) : settings := mkSettings no_args 8 2 false false false false false false st.

Definition set_args (s : settings) (a : args) : settings :=
  mkSettings a (s_runs s) (s_minSeconds s) (s_analyze s) (s_noDelays s) (s_test s) (s_fuzz s) (s_fuzzIterative s) (s_stdDev s) (s_flags s).

(** The assignments to _Args. *)
Definition set_mode (a : args) (extreme lowEntropy sh rleMmtf mmtf : bool) : args :=
  mkArgs true (a_extreme a || extreme) (a_lowEntropy a || lowEntropy) (a_sh a || sh) (a_rleMmtf a || rleMmtf) (a_mmtf a || mmtf)
    (a_hasShort a) (a_short a) (a_hasSingle a) (a_single a) (a_hasAlignment a) (a_byte a) (a_hasPacked a) (a_packed a)
    (a_hasGreedy a) (a_greedy a) (a_hasLut a) (a_lut a) (a_hasBits a) (a_bits a).
Definition set_short (a : args) (b : bool) : args :=
  mkArgs (a_hasMode a) (a_extreme a) (a_lowEntropy a) (a_sh a) (a_rleMmtf a) (a_mmtf a)
    true b (a_hasSingle a) (a_single a) (a_hasAlignment a) (a_byte a) (a_hasPacked a) (a_packed a)
    (a_hasGreedy a) (a_greedy a) (a_hasLut a) (a_lut a) (a_hasBits a) (a_bits a).
Definition set_single (a : args) (b : bool) : args :=
  mkArgs (a_hasMode a) (a_extreme a) (a_lowEntropy a) (a_sh a) (a_rleMmtf a) (a_mmtf a)
    (a_hasShort a) (a_short a) true b (a_hasAlignment a) (a_byte a) (a_hasPacked a) (a_packed a)
    (a_hasGreedy a) (a_greedy a) (a_hasLut a) (a_lut a) (a_hasBits a) (a_bits a).
Definition set_alignment (a : args) (b : bool) : args :=
  mkArgs (a_hasMode a) (a_extreme a) (a_lowEntropy a) (a_sh a) (a_rleMmtf a) (a_mmtf a)
    (a_hasShort a) (a_short a) (a_hasSingle a) (a_single a) true b (a_hasPacked a) (a_packed a)
    (a_hasGreedy a) (a_greedy a) (a_hasLut a) (a_lut a) (a_hasBits a) (a_bits a).
Definition set_packed (a : args) (b : bool) : args :=
  mkArgs (a_hasMode a) (a_extreme a) (a_lowEntropy a) (a_sh a) (a_rleMmtf a) (a_mmtf a)
    (a_hasShort a) (a_short a) (a_hasSingle a) (a_single a) (a_hasAlignment a) (a_byte a) true b
    (a_hasGreedy a) (a_greedy a) (a_hasLut a) (a_lut a) (a_hasBits a) (a_bits a).
Definition set_greedy (a : args) (b : bool) : args :=
  mkArgs (a_hasMode a) (a_extreme a) (a_lowEntropy a) (a_sh a) (a_rleMmtf a) (a_mmtf a)
    (a_hasShort a) (a_short a) (a_hasSingle a) (a_single a) (a_hasAlignment a) (a_byte a) (a_hasPacked a) (a_packed a)
    true b (a_hasLut a) (a_lut a) (a_hasBits a) (a_bits a).
Definition set_lut (a : args) (k : Z) : args :=
  mkArgs (a_hasMode a) (a_extreme a) (a_lowEntropy a) (a_sh a) (a_rleMmtf a) (a_mmtf a)
    (a_hasShort a) (a_short a) (a_hasSingle a) (a_single a) (a_hasAlignment a) (a_byte a) (a_hasPacked a) (a_packed a)
    (a_hasGreedy a) (a_greedy a) true k (a_hasBits a) (a_bits a).
Definition set_bits (a : args) (k : Z) : args :=
  mkArgs (a_hasMode a) (a_extreme a) (a_lowEntropy a) (a_sh a) (a_rleMmtf a) (a_mmtf a)
    (a_hasShort a) (a_short a) (a_hasSingle a) (a_single a) (a_hasAlignment a) (a_byte a) (a_hasPacked a) (a_packed a)
    (a_hasGreedy a) (a_greedy a) (a_hasLut a) (a_lut a) true k.

(** The value of --x-size, l.463-512, and of --lut-size, l.527-549; [None]: "Invalid Parameter.". *)
Definition size_value (x : string) : option Z :=
  (if char_at x 0 =? "8" then Some 8
   else if char_at x 0 =? "1" then (if char_at x 1 =? "6" then Some 16 else if char_at x 1 =? "2" then Some 128 else None)
   else if char_at x 0 =? "2" then (if char_at x 1 =? "4" then Some 24 else if char_at x 1 =? "5" then Some 256 else None)
   else if char_at x 0 =? "3" then Some 32
   else if char_at x 0 =? "4" then Some 48
   else if char_at x 0 =? "6" then Some 64
   else None)%string.
Definition lut_value (x : string) : option Z :=
  (if char_at x 0 =? "0" then Some 0 else if char_at x 0 =? "1" then Some 1
   else if char_at x 0 =? "3" then Some 3 else if char_at x 0 =? "7" then Some 7 else None)%string.

(** One option; [None]: main returns 1.  [x] is the next argument, if there is one; the second result tells
    whether it was consumed.  l.145-657. *)
Definition parse_option (m : machine) (o : string) (x : option string) (s : settings) : option (settings * bool) :=
  let a := s_args s in
  let with_args a' := Some (set_args s a', false) in
  (if o =? "--test" then
     Some (mkSettings a (s_runs s) (s_minSeconds s) (s_analyze s) true true (s_fuzz s) (s_fuzzIterative s) (s_stdDev s) (s_flags s), false)
   else if o =? "--sd" then
     Some (mkSettings a (s_runs s) (s_minSeconds s) (s_analyze s) (s_noDelays s) (s_test s) (s_fuzz s) (s_fuzzIterative s) true (s_flags s), false)
   else if o =? "--fuzz-iterative" then
     Some (mkSettings a (s_runs s) (s_minSeconds s) (s_analyze s) (s_noDelays s) (s_test s) true true (s_stdDev s) (s_flags s), false)
   else if o =? "--fuzz-random" then
     Some (mkSettings a (s_runs s) (s_minSeconds s) (s_analyze s) (s_noDelays s) (s_test s) true false (s_stdDev s) (s_flags s), false)
   else if o =? "--max-simd" then
     match x with
     | Some x =>
         match limit_simd simd_steps x (detect m (s_flags s)) with
         | Some st => Some (mkSettings a (s_runs s) (s_minSeconds s) (s_analyze s) (s_noDelays s) (s_test s) (s_fuzz s) (s_fuzzIterative s) (s_stdDev s) st, true)
         | None => None
         end
     | None => None
     end
   else if o =? "--runs" then
     match x with
     | Some x =>
         let r := atoi x in
         if (r <? 0)%Z then None
         else if (r =? 0)%Z then Some (mkSettings a 1 (s_minSeconds s) (s_analyze s) true (s_test s) (s_fuzz s) (s_fuzzIterative s) (s_stdDev s) (s_flags s), true)
         else Some (mkSettings a r (s_minSeconds s) (s_analyze s) (s_noDelays s) (s_test s) (s_fuzz s) (s_fuzzIterative s) (s_stdDev s) (s_flags s), true)
     | None => None
     end
   else if o =? "--min-time" then
     match x with
     | Some x =>
         if (atoi x <? 0)%Z then None
         else Some (mkSettings a (s_runs s) (atoi x) (s_analyze s) (s_noDelays s) (s_test s) (s_fuzz s) (s_fuzzIterative s) (s_stdDev s) (s_flags s), true)
     | None => None
     end
   else if o =? "--low-entropy" then with_args (set_mode a false true false false false)
   else if o =? "--single" then if a_hasSingle a then None else with_args (set_single a true)
   else if o =? "--multi" then if a_hasSingle a then None else with_args (set_single a false)
   else if o =? "--short" then if a_hasShort a then None else with_args (set_short a true)
   else if o =? "--not-short" then if a_hasShort a then None else with_args (set_short a false)
   else if o =? "--greedy" then if a_hasGreedy a then None else with_args (set_greedy a true)
   else if o =? "--not-greedy" then if a_hasGreedy a then None else with_args (set_greedy a false)
   else if o =? "--low-entropy-short" then with_args (set_short (set_mode a false true false false false) true)
   else if o =? "--extreme" then with_args (set_mode a true false false false false)
   else if o =? "--x-size" then
     match x with
     | Some x => if a_hasBits a then None
                 else match size_value x with Some k => Some (set_args s (set_bits a k), true) | None => None end
     | None => None
     end
   else if o =? "--lut-size" then
     match x with
     | Some x => if a_hasLut a then None
                 else match lut_value x with Some k => Some (set_args s (set_lut a k), true) | None => None end
     | None => None
     end
   else if o =? "--byte-aligned" then if a_hasAlignment a then None else with_args (set_alignment a true)
   else if o =? "--symbol-aligned" then if a_hasAlignment a then None else with_args (set_alignment a false)
   else if o =? "--packed" then if a_hasPacked a then None else with_args (set_packed a true)
   else if o =? "--not-packed" then if a_hasPacked a then None else with_args (set_packed a false)
   else if o =? "--mmtf" then with_args (set_mode a false false false false true)
   else if o =? "--sh" then with_args (set_mode a false false true false false)
   else if o =? "--rle-mmtf" then with_args (set_mode a false false false true false)
   else if o =? "--analyze" then
     Some (mkSettings a (s_runs s) (s_minSeconds s) true (s_noDelays s) (s_test s) (s_fuzz s) (s_fuzzIterative s) (s_stdDev s) (s_flags s), false)
   else None)%string.

(** The loop l.143-658. *)
Fixpoint parse (m : machine) (l : list string) (s : settings) : option settings :=
  match l with
  | [] => Some s
  | o :: rest =>
      match rest with
      | [] => match parse_option m o None s with Some (s', _) => Some s' | None => None end
      | x :: rest' =>
          match parse_option m o (Some x) s with
          | Some (s', true) => parse m rest' s'
          | Some (s', false) => parse m rest s'
          | None => None
          end
      end
  end.

(** The combinations that are refused, l.671-690. *)
Definition valid_args (a : args) : bool :=
  negb ((a_hasMode a && a_extreme a) && (a_hasSingle a && a_single a) && (a_hasBits a && negb (a_bits a =? 8))) &&
  negb ((a_hasMode a && a_extreme a) && (a_hasBits a && (a_bits a =? 256))) &&
  negb ((a_hasMode a && (a_mmtf a || a_rleMmtf a)) &&
        (a_hasBits a && negb (a_bits a =? 8) && negb (a_bits a =? 16) && negb (a_bits a =? 256) && negb (a_bits a =? 128))).

(** main up to l.691: [pArgv] without the name of the program; [None]: main returns 1.  Result: file name and
    settings. *)
Definition command_line (m : machine) (argv : list string) : option (string * settings) :=
  match argv with
  | [] => None
  | file :: options =>
      match parse m options (initial all_off) with
      | Some s => if valid_args (s_args s) then Some (file, s) else None
      | None => None
      end
  end.
