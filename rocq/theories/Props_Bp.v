(** Properties of the packing functions of bitpack.h.  The flags of a function are whether it uses the
    aligned loads and stores; with them [Aligned] asks for a pointer divisible by 16. *)
From Verif Require Import Base Spec BpModel BpSpec BpThm.

(** C46.  The full statement is that of [C46_encode1]: with [256] for the bound on the bytes that are
    packed, and for all whole numbers of vectors.  It is true of 1 bit only.  For 2, 3 and 4 bits it
    holds of bytes that have no other bits, but for bitpack_encode3_sse2_unaligned_m128i, which also
    loses vectors. *)
Theorem C46_encode1 : forall ai ao,
  KeepsBits 1 256 (vectors 1) (fun n => n / 8) (fun n => n / 8) ai false false ao (encode1 ai) (decode1 ao).
Proof. exact encode1_keeps. Qed.
Print Assumptions C46_encode1.
Theorem C46_encode2_partial : forall a b,
  KeepsBits 2 4 (vectors 4) (fun n => n / 4) (fun n => n / 4) a a b b (encode2 a) (decode2 b).
Proof. exact encode2_keeps. Qed.
Print Assumptions C46_encode2_partial.
Theorem C46_encode2_m128i_partial :
  KeepsBits 2 4 (vectors 1) (fun n => n / 4) (fun n => n) false false false false encode2_m128i decode2_m128i.
Proof. exact encode2_m128i_keeps. Qed.
Print Assumptions C46_encode2_m128i_partial.
Theorem C46_encode3_3_partial : forall ai ao,
  KeepsBits 3 8 (vectors 3) (fun n => n * 3 / 8) (fun n => n * 3 / 8) ai false false ao (encode3_3 ai) (decode3_3 ao).
Proof. exact encode3_3_keeps. Qed.
Print Assumptions C46_encode3_3_partial.
Theorem C46_encode3_6_partial : forall ai ao,
  KeepsBits 3 8 (vectors 6) (fun n => n * 3 / 8) (fun n => n * 3 / 8) ai false false ao (encode3_6 ai) (decode3_6 ao).
Proof. exact encode3_6_keeps. Qed.
Print Assumptions C46_encode3_6_partial.
Theorem C46_encode4_partial : forall a b,
  KeepsBits 4 16 (fun _ => True) (fun n => (n + 1) / 2) (fun n => n) a a b b (encode4 a) (decode4 b).
Proof. exact encode4_keeps. Qed.
Print Assumptions C46_encode4_partial.
Theorem C46_encode4_m128i_partial :
  KeepsBits 4 16 (vectors 1) (fun n => n / 2) (fun n => n) false false false false encode4_m128i decode4_m128i.
Proof. exact encode4_m128i_keeps. Qed.
Print Assumptions C46_encode4_m128i_partial.

(** Up to three vectors after the groups of six *)
Theorem C46_encode3_m128i_partial :
  KeepsBits 3 8 (fun n => vectors 1 n /\ n mod 96 < 64) (fun n => n * 3 / 8) (fun n => n) false false false false encode3_m128i decode3_m128i.
Proof. exact encode3_m128i_keeps. Qed.
Print Assumptions C46_encode3_m128i_partial.
(** What it does with four or five: the last one or two are replaced by those 48 bytes before. *)
Theorem C46_encode3_m128i_exactly :
  YieldsBits (fun n k => if (64 <=? n mod 96) && (96 * (n / 96) + 48 <=? k) then k - 48 else k) 3 8 (vectors 1)
    (fun n => n * 3 / 8) (fun n => n) false false false false encode3_m128i decode3_m128i.
Proof. exact encode3_m128i_yields. Qed.
Print Assumptions C46_encode3_m128i_exactly.
Theorem C46_encode3_m128i_refuted :
  ~ KeepsBits 3 8 (vectors 1) (fun n => n * 3 / 8) (fun n => n) false false false false encode3_m128i decode3_m128i.
Proof. exact encode3_m128i_loses. Qed.
Print Assumptions C46_encode3_m128i_refuted.

(** Other bits than the lowest change the neighbours. *)
Theorem C46_encode2_refuted : forall a b,
  ~ KeepsBits 2 256 (vectors 4) (fun n => n / 4) (fun n => n / 4) a a b b (encode2 a) (decode2 b).
Proof. exact encode2_masks. Qed.
Print Assumptions C46_encode2_refuted.
Theorem C46_encode2_m128i_refuted :
  ~ KeepsBits 2 256 (vectors 1) (fun n => n / 4) (fun n => n) false false false false encode2_m128i decode2_m128i.
Proof. exact encode2_m128i_masks. Qed.
Print Assumptions C46_encode2_m128i_refuted.
Theorem C46_encode3_3_refuted : forall ai ao,
  ~ KeepsBits 3 256 (vectors 3) (fun n => n * 3 / 8) (fun n => n * 3 / 8) ai false false ao (encode3_3 ai) (decode3_3 ao).
Proof. exact encode3_3_masks. Qed.
Print Assumptions C46_encode3_3_refuted.
Theorem C46_encode3_6_refuted : forall ai ao,
  ~ KeepsBits 3 256 (vectors 6) (fun n => n * 3 / 8) (fun n => n * 3 / 8) ai false false ao (encode3_6 ai) (decode3_6 ao).
Proof. exact encode3_6_masks. Qed.
Print Assumptions C46_encode3_6_refuted.
Theorem C46_encode4_refuted : forall a b,
  ~ KeepsBits 4 256 (fun _ => True) (fun n => (n + 1) / 2) (fun n => n) a a b b (encode4 a) (decode4 b).
Proof. exact encode4_masks. Qed.
Print Assumptions C46_encode4_refuted.
Theorem C46_encode4_m128i_refuted :
  ~ KeepsBits 4 256 (vectors 1) (fun n => n / 2) (fun n => n) false false false false encode4_m128i decode4_m128i.
Proof. exact encode4_m128i_masks. Qed.
Print Assumptions C46_encode4_m128i_refuted.

(** *** Examples *)
(** Memory that holds varied values below [b], packed from 32 to 1024 and unpacked to 2048 *)
Definition vals (b : Z) : mem := fun a => (a * a + 3 * a / 7) mod b.
Definition back (enc dec : bitfun) (arg : Z -> Z) (b n : Z) : option (list Z) :=
  match enc (vals b) 32 1024 n with
  | Ret (_, M1) => match dec M1 1024 2048 (arg n) with Ret (_, M3) => Some (slice M3 2048 n) | _ => None end
  | _ => None
  end.
Example ex_hypotheses : Aligned true 32 /\ Aligned true 1024 /\ Aligned true 2048 /\ Apart 32 192 1024 72 /\ Apart 1024 72 2048 192 /\ vectors 3 192 /\ vectors 6 192 /\ (forall k, 0 <= k < 192 -> 0 <= vals 8 (32 + k) < 8).
Proof. unfold Aligned, Apart, vectors, vals. repeat split; intros; try reflexivity; try lia; apply Z.mod_pos_bound; lia. Qed.
Example ex_encode3 : back (encode3_3 true) (decode3_3 true) (fun n => n * 3 / 8) 8 192 = Some (slice (vals 8) 32 192) /\
  back (encode3_6 true) (decode3_6 false) (fun n => n * 3 / 8) 8 192 = Some (slice (vals 8) 32 192) /\
  back encode3_m128i decode3_m128i (fun n => n) 8 (96 + 48) = Some (slice (vals 8) 32 (96 + 48)) /\
  back encode3_m128i decode3_m128i (fun n => n) 8 (96 + 80) = Some (slice (vals 8) 32 144 ++ slice (vals 8) (32 + 96) 32).
Proof. vm_compute. auto. Qed.
Example ex_encode124 : back (encode1 true) (decode1 true) (fun n => n / 8) 2 48 = Some (slice (vals 2) 32 48) /\
  back (encode2 true) (decode2 true) (fun n => n / 4) 4 64 = Some (slice (vals 4) 32 64) /\
  back encode2_m128i decode2_m128i (fun n => n) 4 112 = Some (slice (vals 4) 32 112) /\
  back (encode4 true) (decode4 false) (fun n => n) 16 77 = Some (slice (vals 16) 32 77) /\
  back encode4_m128i decode4_m128i (fun n => n) 16 80 = Some (slice (vals 16) 32 80).
Proof. vm_compute. auto. Qed.
(** The aligned variants need the alignment. *)
Example ex_fault : encode2 true (vals 4) 33 1024 64 = Fault /\ encode2 true (vals 4) 32 1032 64 = Fault /\ decode1 true (vals 2) 32 1025 2 = Fault.
Proof. vm_compute. auto. Qed.
