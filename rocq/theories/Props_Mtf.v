(** Properties of the move-to-front transformations: [mmtf wide dec c] is mmtf256 ([wide]) or
    mmtf128, decode ([dec]) or encode, on a processor with features [c]; [bitmmtf wide dec] is
    bitmmtf16 or bitmmtf8. *)
From Verif Require Import Base Simd MtfModel MtfSpec MtfProof BitMtf MtfThm.

(** C15 *)
Theorem C15_mmtf_round_trip : forall wide c c', m_sse2 c = true -> m_sse2 c' = true ->
  UndoneBy (mmtf wide false c) (mmtf wide true c').
Proof. exact mmtf_round_trip. Qed.
Print Assumptions C15_mmtf_round_trip.
(** Every byte string is the encoding of another one. *)
Theorem C15_mmtf_converse : forall wide c c', m_sse2 c = true -> m_sse2 c' = true ->
  UndoneBy (mmtf wide true c) (mmtf wide false c').
Proof. exact mmtf_converse. Qed.
Print Assumptions C15_mmtf_converse.
Theorem C15_mmtf_same_on_all_cpus : forall wide dec c c', m_sse2 c = true -> m_sse2 c' = true ->
  Same (mmtf wide dec c) (mmtf wide dec c').
Proof. exact mmtf_same. Qed.
Print Assumptions C15_mmtf_same_on_all_cpus.

(** C16 *)
Theorem C16_mmtf_is_lane_mtf : forall wide c, m_sse2 c = true ->
  Computes (mmtf wide false c) (LaneMtf (if wide then 32 else 16)).
Proof. exact mmtf_enc_spec. Qed.
Print Assumptions C16_mmtf_is_lane_mtf.
Theorem C16_mmtf_decode_inverts_lane_mtf : forall wide c, m_sse2 c = true ->
  Computes (mmtf wide true c) (fun X n Y => LaneMtf (if wide then 32 else 16) Y n X).
Proof. exact mmtf_dec_spec. Qed.
Print Assumptions C16_mmtf_decode_inverts_lane_mtf.

(** C17 *)
Theorem C17_bitmmtf_round_trip : forall wide, UndoneBy (bitmmtf wide false) (bitmmtf wide true).
Proof. exact bitmmtf_round_trip. Qed.
Print Assumptions C17_bitmmtf_round_trip.
Theorem C17_bitmmtf_converse : forall wide, UndoneBy (bitmmtf wide true) (bitmmtf wide false).
Proof. exact bitmmtf_converse. Qed.
Print Assumptions C17_bitmmtf_converse.

(** C18 *)
Theorem C18_bitmmtf8_is_xor : Computes bitmmtf8_encode (XorDiff 1).
Proof. exact (bitmmtf_enc_spec false). Qed.
Print Assumptions C18_bitmmtf8_is_xor.
Theorem C18_bitmmtf16_is_xor : Computes bitmmtf16_encode XorDiff16.
Proof. exact (bitmmtf_enc_spec true). Qed.
Print Assumptions C18_bitmmtf16_is_xor.
Theorem C18_bitmmtf8_decode_inverts : Computes bitmmtf8_decode (fun X n Y => XorDiff 1 Y n X).
Proof. exact (bitmmtf_dec_spec false). Qed.
Print Assumptions C18_bitmmtf8_decode_inverts.
Theorem C18_bitmmtf16_decode_inverts : Computes bitmmtf16_decode (fun X n Y => XorDiff16 Y n X).
Proof. exact (bitmmtf_dec_spec true). Qed.
Print Assumptions C18_bitmmtf16_decode_inverts.

(** C28 *)
Theorem C28_mmtf_small_refused : forall wide dec c, SmallRefused (mmtf wide dec c).
Proof. exact mmtf_small. Qed.
Print Assumptions C28_mmtf_small_refused.
Theorem C28_bitmmtf_small_refused : forall wide dec, SmallRefused (bitmmtf wide dec).
Proof. exact bitmmtf_small. Qed.
Print Assumptions C28_bitmmtf_small_refused.
Theorem C28_bitmmtf_null_refused : forall wide dec, NullRefused (bitmmtf wide dec).
Proof. exact bitmmtf_null. Qed.
Print Assumptions C28_bitmmtf_null_refused.

(** C39 *)
Theorem C39_mmtf_in_place : forall wide c, m_sse2 c = true -> InPlace (mmtf wide false c) (mmtf wide true c).
Proof. exact mmtf_in_place. Qed.
Print Assumptions C39_mmtf_in_place.
Theorem C39_bitmmtf_in_place : forall wide, InPlace (bitmmtf wide false) (bitmmtf wide true).
Proof. exact bitmmtf_in_place. Qed.
Print Assumptions C39_bitmmtf_in_place.

(** Samples. *)
Definition mtf_data : mem := fun k => if (100 <=? k) && (k <? 217) then (k * k * 3 + k / 7) mod 11 else 0.
Example mtf_args : XArgs mtf_data 100 117 100 117 /\ XArgs mtf_data 100 117 1024 200.
Proof.
  assert (forall k, is_byte (mtf_data k)) by (intros k; unfold is_byte, mtf_data; destruct ((100 <=? k) && (k <? 217)); lia).
  split; unfold XArgs, forward_ok; repeat split; try lia; try (now left); try (now right); intros; apply H.
Qed.
Definition mtf_test (f g : xform) (q p : Z) : bool :=
  match f mtf_data 100 117 q 117 with
  | XRet r M => match g M q 117 p 117 with
      | XRet r2 M2 => (r =? 117) && (r2 =? 117) && forallb (fun k => M2 (p + k) =? mtf_data (100 + k)) (lanes 117) && negb (forallb (fun k => M (q + k) =? mtf_data (100 + k)) (lanes 117))
      | _ => false end
  | _ => false end.
Example C15_example : mtf_test (mmtf128 false (mkMcpu true true true)) (mmtf128 true (mkMcpu true true true)) 1024 2048 = true. Proof. vm_compute. reflexivity. Qed.
Example C39_example : mtf_test (mmtf256 false (mkMcpu true true true)) (mmtf256 true (mkMcpu true false false)) 100 100 = true. Proof. vm_compute. reflexivity. Qed.
Example C17_example : mtf_test bitmmtf8_encode bitmmtf8_decode 100 1000 && mtf_test bitmmtf16_encode bitmmtf16_decode 1000 100 = true. Proof. vm_compute. reflexivity. Qed.
(** 3, 3, 1, 0, 3 in one lane: the table is 0 1 2 3 .., then 3 0 1 2 .., the same, 1 3 0 2 .., 0 1 3 2 .. *)
Example C16_example : map (fun i => rank (nth (Z.to_nat i) [3; 3; 1; 0; 3] 0) (mtf_table (lane_hist 1 (fun k => nth (Z.to_nat k) [3; 3; 1; 0; 3] 0) i))) [0; 1; 2; 3; 4] = [3; 0; 2; 2; 2].
Proof. Transparent bytes256. vm_compute. reflexivity. Qed.
