(** What a machine can execute (Intel SDM vol. 1, 14.3 and 15.2), independent of the library. *)
From Verif Require Import Base PlatModel.

Definition has1c (m : machine) (b : Z) : Prop := 1 <= m_leaf0 m /\ Z.testbit (m_1c m) b = true.
Definition has1d (m : machine) (b : Z) : Prop := 1 <= m_leaf0 m /\ Z.testbit (m_1d m) b = true.
Definition has7b (m : machine) (b : Z) : Prop := 7 <= m_leaf0 m /\ Z.testbit (m_7b m) b = true.

(** The operating system uses XSAVE and has enabled the given bit of XCR0. *)
Definition os_enables (m : machine) (b : Z) : Prop := has1c m 27 /\ Z.testbit (m_xcr0 m) b = true.

(** AVX needs the state of XMM (bit 1) and YMM (bit 2); AVX-512 also opmask and ZMM (bits 5 to 7). *)
Definition executes (m : machine) (i : isa) : Prop :=
  let avx := has1c m 28 /\ os_enables m 1 /\ os_enables m 2 in
  match i with
  | IScalar => True
  | ISse2 => has1d m 26
  | ISsse3 => has1c m 9
  | ISse41 => has1c m 19
  | IAvx => avx
  | IAvx2 => avx /\ has7b m 5
  | IAvx512 => avx /\ has7b m 5 /\ has7b m 16 /\ os_enables m 5 /\ os_enables m 6 /\ os_enables m 7
  end.

(** A 64 bit x86 processor whose features build on each other, under an operating system that has
    put a permitted value into XCR0 (XSETBV refuses the others). *)
Definition x86_64 (m : machine) : Prop :=
  1 <= m_leaf0 m < 2 ^ 31 /\ has1d m 25 /\ has1d m 26 /\
  (has7b m 5 -> has1c m 28) /\ (has7b m 16 -> has7b m 5) /\
  Z.testbit (m_xcr0 m) 0 = true /\
  (Z.testbit (m_xcr0 m) 2 = true -> Z.testbit (m_xcr0 m) 1 = true) /\
  (Z.testbit (m_xcr0 m) 5 = Z.testbit (m_xcr0 m) 6 /\ Z.testbit (m_xcr0 m) 6 = Z.testbit (m_xcr0 m) 7) /\
  (Z.testbit (m_xcr0 m) 5 = true -> Z.testbit (m_xcr0 m) 2 = true).

(** The operating system enables the state of all features the processor has. *)
Definition os_complete (m : machine) : Prop :=
  (has1c m 28 -> os_enables m 1 /\ os_enables m 2) /\
  (has7b m 16 -> os_enables m 5 /\ os_enables m 6 /\ os_enables m 7).
