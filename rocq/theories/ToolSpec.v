(** What the options of the tool ask for, in terms of the names it prints.  Independent of main.c and of the
    lists in codec_funcs.h. *)
From Coq Require Import String Ascii.
From Verif Require Import Base Spec PlatModel.
Open Scope string_scope.
Open Scope Z_scope.

(** The words of a name. *)
Fixpoint split (sep : ascii) (s cur : string) : list string :=
  match s with
  | EmptyString => [cur]
  | String c r => if (c =? sep)%char then cur :: split sep r "" else split sep r (cur ++ String c "")
  end.
Definition words (name : string) : list string := split " " name "".
Definition has (w : string) (name : string) : bool := existsb (String.eqb w) (words name).

(** The numbers that occur in names. *)
Definition number (w : string) : option Z :=
  (if w =? "8" then Some 8 else if w =? "16" then Some 16 else if w =? "24" then Some 24 else if w =? "32" then Some 32
   else if w =? "48" then Some 48 else if w =? "64" then Some 64 else if w =? "128" then Some 128
   else if w =? "256" then Some 256 else None)%string.

Inductive mode := MExtreme | MLowEntropy | MMmtf | MSh | MRleMmtf.
Definition mode_of (name : string) : option mode :=
  if has "Entropy" name then Some MLowEntropy
  else if has "(Transform)" name then Some MMmtf
  else if has "Huffman-esque" name then Some MSh
  else if has "MMTF" name then Some MRleMmtf
  else if has "memcpy" name then None
  else Some MExtreme.

(** Symbol size in bits: the number before the (last) word "Bit"; the width of the transform for the codec
    that is followed by one; 8 for the low entropy codecs; memcpy has none. *)
Fixpoint before_bit (l : list string) : option Z :=
  match l with
  | w :: rest => match before_bit rest with
                 | Some k => Some k
                 | None => match rest with "Bit" :: _ => number w | _ => None end
                 end
  | [] => None
  end.
Definition bits_of (name : string) : option Z :=
  if has "Entropy" name then Some 8
  else match words name with
       | [_; "Bit"; "MMTF"; k] => number k
       | l => before_bit l
       end.

(** Number of symbols in the table of recent symbols; the packed codecs remember one. *)
Definition lut_of (name : string) : Z :=
  if has "7LUT" name then 7 else if has "3LUT" name then 3
  else if has "1LUT" name || has "Packed" name then 1 else 0.

(** Whether there is a variant for a single symbol. *)
Definition single_of (name : string) : option bool :=
  if has "Single" name then Some true
  else if has "Huffman-esque" name || has "MTF" name || (has "MMTF" name && negb (has "(Transform)" name)) then None
  else Some false.

(** *** Options *)
Inductive choice :=
| OTest | OStdDev | OAnalyze | OFuzz (iterative : bool) | OMaxSimd (x : string) | ORuns (k : Z) | OMinTime (k : Z)
| OMode (m : mode) | OLowEntropyShort | OSingle (b : bool) | OShort (b : bool) | OGreedy (b : bool) | OByte (b : bool)
| OPacked (b : bool) | OSize (k : Z) | OLut (k : Z).

(** Whether a codec is one of those the option asks for. *)
Definition fits (name : string) (o : choice) : Prop :=
  match o with
  | OMode m => mode_of name = Some m
  | OLowEntropyShort => mode_of name = Some MLowEntropy /\ has "Short" name = true
  | OSingle b => single_of name = Some b
  | OShort b => has "Short" name = b
  | OGreedy b => has "Grdy" name = b
  | OByte b => has (if b then "(Byte)" else "(Symbol)") name = true
  | OPacked b => has "Packed" name = b
  | OSize k => bits_of name = Some k
  | OLut k => lut_of name = k
  | _ => True
  end.

(** Decimal digits. *)
Definition digit (d : Z) : string := String (ascii_of_nat (Z.to_nat (48 + d))) "".
Fixpoint decimal_from (fuel : nat) (k : Z) (acc : string) : string :=
  match fuel with
  | O => acc
  | S f => let acc := digit (k mod 10) ++ acc in if k <? 10 then acc else decimal_from f (k / 10) acc
  end.
Definition decimal (k : Z) : string := decimal_from 20 k "".

(** How an option is written. *)
Definition spell (o : choice) : list string :=
  match o with
  | OTest => ["--test"] | OStdDev => ["--sd"] | OAnalyze => ["--analyze"]
  | OFuzz true => ["--fuzz-iterative"] | OFuzz false => ["--fuzz-random"]
  | OMaxSimd x => ["--max-simd"; x] | ORuns k => ["--runs"; decimal k] | OMinTime k => ["--min-time"; decimal k]
  | OMode MExtreme => ["--extreme"] | OMode MLowEntropy => ["--low-entropy"] | OMode MMmtf => ["--mmtf"]
  | OMode MSh => ["--sh"] | OMode MRleMmtf => ["--rle-mmtf"]
  | OLowEntropyShort => ["--low-entropy-short"]
  | OSingle true => ["--single"] | OSingle false => ["--multi"]
  | OShort true => ["--short"] | OShort false => ["--not-short"]
  | OGreedy true => ["--greedy"] | OGreedy false => ["--not-greedy"]
  | OByte true => ["--byte-aligned"] | OByte false => ["--symbol-aligned"]
  | OPacked true => ["--packed"] | OPacked false => ["--not-packed"]
  | OSize k => ["--x-size"; decimal k] | OLut k => ["--lut-size"; decimal k]
  end.
Definition spelled (l : list choice) : list string := List.concat (map spell l).

(** Options of which only one may be given. *)
Definition exclusive (a b : choice) : Prop :=
  match a, b with
  | OSingle _, OSingle _ | OShort _, OShort _ | OGreedy _, OGreedy _ | OByte _, OByte _ | OPacked _, OPacked _
  | OSize _, OSize _ | OLut _, OLut _ => True
  | _, _ => False
  end.
(** The same if the option that means --low-entropy and --short counts as the latter. *)
Definition exclusive_also_short (a b : choice) : Prop :=
  exclusive a b \/ (exists s, a = OShort s /\ b = OLowEntropyShort) \/ (exists s, a = OLowEntropyShort /\ b = OShort s).

(** [l] contains two options, one behind the other, related by [R]. *)
Definition clash (R : choice -> choice -> Prop) (l : list choice) : Prop :=
  exists l1 a l2 b l3, l = (l1 ++ a :: l2 ++ b :: l3)%list /\ R a b.

(** Values that are offered. *)
Definition offered (o : choice) : Prop :=
  match o with
  | OSize k => List.In k [8; 16; 24; 32; 48; 64; 128; 256]
  | OLut k => List.In k [0; 1; 3; 7]
  | ORuns k | OMinTime k => 0 <= k < 2 ^ 31
  | _ => True
  end.

(** The combinations for which there is no codec and that are announced as an error. *)
Definition impossible (l : list choice) : Prop :=
  (List.In (OMode MExtreme) l /\ List.In (OSingle true) l /\ exists k, List.In (OSize k) l /\ k <> 8) \/
  (List.In (OMode MExtreme) l /\ List.In (OSize 256) l) \/
  ((List.In (OMode MMmtf) l \/ List.In (OMode MRleMmtf) l) /\
   exists k, List.In (OSize k) l /\ k <> 8 /\ k <> 16 /\ k <> 128 /\ k <> 256).

(** The last value given by an option. *)
Definition last_value {X} (f : choice -> option X) (d : X) (l : list choice) : X :=
  fold_left (fun x o => match f o with Some y => y | None => x end) l d.

(** *** Instruction sets *)
Definition simd_names : list string := ["none"; "sse2"; "sse3"; "ssse3"; "sse4.1"; "sse4.2"; "avx"; "avx2"; "avx512f"].
Fixpoint position (x : string) (l : list string) : option Z :=
  match l with
  | [] => None
  | y :: r => if String.eqb x y then Some 0 else match position x r with Some k => Some (1 + k) | None => None end
  end.
Definition level_of (i : isa) : Z :=
  match i with IScalar => 0 | ISse2 => 1 | ISsse3 => 3 | ISse41 => 4 | IAvx => 6 | IAvx2 => 7 | IAvx512 => 8 end.
(** The flag of a level, and the level a flag belongs to. *)
Definition flag_of_level (k : Z) : option flag :=
  match k with
  | 1 => Some FSse2 | 2 => Some FSse3 | 3 => Some FSsse3 | 4 => Some FSse41 | 5 => Some FSse42 | 6 => Some FAvx
  | 7 => Some FAvx2 | 8 => Some FAvx512F | _ => None
  end.
Definition level_of_flag (f : flag) : Z :=
  match f with
  | FDetected | FSse | FAesNi => 0
  | FSse2 => 1 | FSse3 => 2 | FSsse3 => 3 | FSse41 => 4 | FSse42 => 5 | FAvx => 6 | FAvx2 | FFma3 => 7
  | _ => 8
  end.

(** The words that are options, and those of them that need a value. *)
Definition option_names : list string :=
  ["--test"; "--sd"; "--analyze"; "--fuzz-iterative"; "--fuzz-random"; "--max-simd"; "--runs"; "--min-time"; "--extreme";
   "--low-entropy"; "--mmtf"; "--sh"; "--rle-mmtf"; "--low-entropy-short"; "--single"; "--multi"; "--short"; "--not-short";
   "--greedy"; "--not-greedy"; "--byte-aligned"; "--symbol-aligned"; "--packed"; "--not-packed"; "--x-size"; "--lut-size"].
Definition value_options : list string := ["--max-simd"; "--runs"; "--min-time"; "--x-size"; "--lut-size"].

(** Pairs of options of which the second is refused. *)
Definition refused_pair (a b : choice) : Prop := exclusive a b \/ (a = OLowEntropyShort /\ exists s, b = OShort s).

(** What is asked of the machine by --max-simd: a known name, a supported level, and none below it before. *)
Definition simd_available (m : machine) (before : list choice) (x : string) : Prop :=
  exists k, position x simd_names = Some k /\
    (forall f, flag_of_level k = Some f -> detect m all_off f = true) /\
    (forall y j, List.In (OMaxSimd y) before -> position y simd_names = Some j -> k <= j).
