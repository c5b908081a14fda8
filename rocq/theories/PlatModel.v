(** Model of the detection of CPU features (src/simd_platform.c) and of the places that choose an
    implementation by it. *)
From Verif Require Import Base Spec.

(** The globals of simd_platform.c l.28-53. *)
Inductive flag :=
| FDetected | FSse | FSse2 | FSse3 | FSsse3 | FSse41 | FSse42 | FAvx | FAvx2 | FFma3
| FAvx512F | FAvx512PF | FAvx512ER | FAvx512CD | FAvx512BW | FAvx512DQ | FAvx512VL | FAvx512IFMA
| FAvx512VBMI | FAvx512VNNI | FAvx512VBMI2 | FAvx512POPCNTDQ | FAvx512BITALG | FAvx5124VNNIW | FAvx5124FMAPS | FAesNi.

Definition flag_eq (a b : flag) : {a = b} + {a <> b}.
Proof. decide equality. Defined.

Definition flags := flag -> bool.
Definition all_off : flags := fun _ => false.
Definition set_flag (st : flags) (f : flag) (b : bool) : flags := fun g => if flag_eq g f then b else st g.

(** What the instructions CPUID and XGETBV answer: EAX of leaf 0 (read as int32), ECX and EDX of leaf
    1, EBX, ECX and EDX of leaf 7, and XCR0. *)
Record machine := mkMachine
  { m_leaf0 : Z; m_1c : Z; m_1d : Z; m_7b : Z; m_7c : Z; m_7d : Z; m_xcr0 : Z }.

(** [(x & (1 << b)) != 0]. *)
Definition bit (x b : Z) : bool := negb (Z.land x (2 ^ b) =? 0).

(** The assignments of _DetectCPUFeatures in their order, simd_platform.c l.60-111. *)
Definition writes (m : machine) : list (flag * bool) :=
  (if 1 <=? m_leaf0 m then
     (if bit (m_1c m) 27 && bit (m_1c m) 28 then [(FAvx, negb (Z.land (m_xcr0 m) 6 =? 0))] else []) ++
     [(FSse, bit (m_1d m) 25); (FSse2, bit (m_1d m) 26); (FSse3, bit (m_1c m) 0); (FSsse3, bit (m_1c m) 9);
      (FSse41, bit (m_1c m) 19); (FSse42, bit (m_1c m) 20); (FFma3, bit (m_1c m) 12); (FAesNi, bit (m_1c m) 25)]
   else []) ++
  (if 7 <=? m_leaf0 m then
     [(FAvx2, bit (m_7b m) 5); (FAvx512F, bit (m_7b m) 16); (FAvx512PF, bit (m_7b m) 26); (FAvx512ER, bit (m_7b m) 27);
      (FAvx512CD, bit (m_7b m) 28); (FAvx512BW, bit (m_7b m) 30); (FAvx512DQ, bit (m_7b m) 17); (FAvx512VL, bit (m_7b m) 31);
      (FAvx512IFMA, bit (m_7b m) 21); (FAvx512VBMI, bit (m_7c m) 1); (FAvx512VNNI, bit (m_7c m) 11);
      (FAvx512VBMI2, bit (m_7c m) 6); (FAvx512POPCNTDQ, bit (m_7c m) 14); (FAvx512BITALG, bit (m_7c m) 12);
      (FAvx5124VNNIW, bit (m_7d m) 2); (FAvx5124FMAPS, bit (m_7d m) 3)]
   else []) ++
  [(FDetected, true)].

(** _DetectCPUFeatures, l.55-112. *)
Definition detect (m : machine) (st : flags) : flags :=
  if st FDetected then st else fold_left (fun st '(f, b) => set_flag st f b) (writes m) st.

(** Instruction sets of the implementations (the target attributes of the functions). *)
Inductive isa := IScalar | ISse2 | ISsse3 | ISse41 | IAvx | IAvx2 | IAvx512.

(** The places where an implementation is chosen.  [mask]: SYMBOL_MASK (24 and 48 bit) is defined;
    [aligned]: the alignment test on the pointers succeeds. *)
Inductive site :=
| RleX_comp | RleX_dec              (* rleX_extreme_cpu.h l.54-59, l.99-108 *)
| Rle24_comp | Rle24_dec            (* rle24_extreme_cpu.h, rle48_extreme_cpu.h l.62-69, l.101-106 *)
| Rle128_dec                        (* rle128_extreme_cpu.h l.795-800 *)
| Rle8_comp | Rle8_dec              (* rle8_extreme_cpu.h l.106-109, l.724-733 = l.745-754 *)
| Sl8_comp                          (* rleX_Xsl.h l.295-298, rleX_Xsl_short.h l.427-430 *)
| SlX_comp (mask : bool)            (* rleX_Xsl.h l.515-524, rleX_Xsl_short.h l.692-701 *)
| Sl_dec (mask : bool)              (* rleX_Xsl.h l.1862-1879, rleX_Xsl_short.h l.2629-2646 *)
| Le_dec_single | Le_dec_multi      (* rle8_low_entropy_cpu.c l.954-957, l.963-966; short l.464-467, l.473-476 *)
| Mmtf128 (aligned : bool)          (* mmtf.c l.42-48, l.58-64 *)
| Mmtf256.                          (* mmtf.c l.76-85, l.95-104 *)

(** The choice; [None]: the function returns 0 without doing anything. *)
Definition choose (s : site) (st : flags) : option isa :=
  match s with
  | RleX_comp => Some (if st FAvx2 then IAvx2 else if st FSse2 then ISse2 else IScalar)
  | RleX_dec | Rle8_dec =>
      Some (if st FAvx512F then IAvx512 else if st FAvx2 then IAvx2 else if st FAvx then IAvx
            else if st FSse41 then ISse41 else ISse2)
  | Rle24_comp => Some (if st FAvx2 then IAvx2 else if st FSsse3 then ISsse3 else if st FSse2 then ISse2 else IScalar)
  | Rle24_dec => Some (if st FAvx2 then IAvx2 else if st FSsse3 then ISsse3 else ISse2)
  | Rle128_dec => Some (if st FAvx512F then IAvx512 else if st FAvx then IAvx else ISse2)
  | Rle8_comp | Sl8_comp => Some (if st FAvx2 then IAvx2 else ISse2)
  | SlX_comp mask =>
      Some (if st FAvx2 then IAvx2 else if mask && st FSsse3 then ISsse3 else if st FSse2 then ISse2 else IScalar)
  | Sl_dec mask =>
      Some (if negb mask && st FAvx512F then IAvx512 else if st FAvx2 then IAvx2 else if st FAvx then IAvx
            else if st FSse41 then ISse41 else if mask && st FSsse3 then ISsse3 else ISse2)
  | Le_dec_single => Some (if st FAvx2 then IAvx2 else ISse2)
  | Le_dec_multi => Some (if st FAvx then IAvx else ISse2)
  | Mmtf128 aligned => if st FSse2 then Some (if aligned && st FSse41 then ISse41 else ISse2) else None
  | Mmtf256 => if st FSse2 then Some (if st FAvx2 then IAvx2 else ISse2) else None
  end.

(** *** Several threads that call the library for the first time

    The flags are the only shared state.  A thread performs one access to them at a time: first it reads
    _CpuFeaturesDetected, then it does its assignments one after the other, then it is done with
    _DetectCPUFeatures.  Accesses are sequentially consistent. *)
Inductive thread := TNew | TRun (todo : list (flag * bool)) | TDone.

Definition thread_step (m : machine) (st : flags) (t : thread) : flags * thread :=
  match t with
  | TNew => if st FDetected then (st, TDone) else (st, TRun (writes m))
  | TRun [] => (st, TDone)
  | TRun ((f, b) :: todo) => (set_flag st f b, TRun todo)
  | TDone => (st, TDone)
  end.

Definition system := (flags * (nat -> thread))%type.

Definition sys_step (m : machine) (s : system) (i : nat) : system :=
  let '(st, ts) := s in
  let '(st', t') := thread_step m st (ts i) in
  (st', fun j => if Nat.eqb j i then t' else ts j).

(** Run a schedule, a list of threads that get a turn, from the state at program start. *)
Definition run (m : machine) (sched : list nat) : system :=
  fold_left (sys_step m) sched (all_off, fun _ => TNew).
