(** The transformations, rle8_mmtf128 and rle8m take linear time. *)
From Verif Require Import Base Simd Spec MtfModel MzModel LeModel.
From Verif Require Import CostModel CostSpec DcostModel McostModel McostSpec McostMtf McostEnc McostDec RmThm RmcostModel RmcostThm.

(** C72, mmtf128 and mmtf256: all loops of the transformation, wherever the buffers lie. *)
Theorem C72_mmtf_linear : forall W, W = 16 \/ W = 32 -> LinearTransform (mtf_passes false W) 17 8000.
Proof. exact (mtf_linear false). Qed.
Print Assumptions C72_mmtf_linear.
(** bitmmtf8 and bitmmtf16 *)
Theorem C72_bitmmtf_linear : LinearTransform (bit8_passes (benc_vec mask8) (fun _ => 0)) 1 1 /\ LinearTransform (bit16_passes (benc_vec mask16) (fun _ => 0)) 1 1.
Proof. exact (conj (bit8_linear _ _) (bit16_linear _ _)). Qed.
Print Assumptions C72_bitmmtf_linear.
(** rle8_mmtf128, whatever the memory holds and wherever the output is. *)
Theorem C72_rle8_mmtf128_linear : forall undef M pout, LinearPasses (mz_passes undef M pout) 17 4000.
Proof. exact mz_linear. Qed.
Print Assumptions C72_rle8_mmtf128_linear.
(** rle8m, also if it refuses; a section costs two passes more. *)
Theorem C72_rle8m_linear : forall subs cap, 1 <= subs <= 2 ^ 28 -> LinearPasses (rm_passes subs cap) 2 (2 * subs).
Proof. exact rm_linear. Qed.
Print Assumptions C72_rle8m_linear.

(** C73: the way back; the transformations on any bytes. *)
Theorem C73_mmtf_linear : forall W, W = 16 \/ W = 32 -> LinearTransform (mtf_passes true W) 17 8000.
Proof. exact (mtf_linear true). Qed.
Print Assumptions C73_mmtf_linear.
Theorem C73_bitmmtf_linear : LinearTransform (bit8_passes (bdec_vec mask8) (fun _ => false)) 1 1 /\ LinearTransform (bit16_passes (bdec_vec mask16) (fun _ => false)) 1 1.
Proof. exact (conj (bit8_linear _ _) (bit16_linear _ _)). Qed.
Print Assumptions C73_bitmmtf_linear.
Theorem C73_rle8_mmtf128_linear : forall undef M0 pout0, LinearDecodeB (mz_compress undef M0 pout0 false false) (fun n => n + 13) mz_dpasses 17 20.
Proof. exact mz_dec_linear. Qed.
Print Assumptions C73_rle8_mmtf128_linear.
(** rle8m: in the size of the stream, as for the low entropy codecs. *)
Theorem C73_rle8m_linear : forall subs c, 1 <= subs <= 2 ^ 28 -> LinearInStream (rm_compress subs false false) (rm_dpasses c) 18 (3 * subs).
Proof. exact rm_dec_linear. Qed.
Print Assumptions C73_rle8m_linear.

(** *** Examples *)

Definition wave_mem (k : Z) : Z := if k mod 103 <? 60 then 7 else 50 + k mod 103.
(** Bytes that make every symbol the last of its row. *)
Definition late_mem (k : Z) : Z := 255 - (k / 16) mod 256.
Definition at_ (a : Z) (l : list Z) : mem := fun x => if (a <=? x) && (x <? a + len l) then nth (Z.to_nat (x - a)) l 0 else 205.
Example passes_mtf :
  (mtf_passes false 16 (fun k => wave_mem (k - 64)) 64 150 4096, mtf_passes true 16 (fun k => wave_mem (k - 64)) 64 150 4096, mtf_passes false 32 (fun k => late_mem (k - 64)) 64 70 4096,
   bit8_passes (benc_vec mask8) (fun _ => 0) wave_mem 64 150 4096, bit16_passes (bdec_vec mask16) (fun _ => false) wave_mem 64 151 4096) =
  (Some 581, Some 600, Some 2045, Some 151, Some 76).
Proof. vm_compute. reflexivity. Qed.
Example passes_mz : (mz_passes (fun _ => 0) (fun _ => 0) 64 wave_mem 300,
   match mz_compress (fun _ => 0) (fun _ => 0) 64 false false wave_mem 300 313 with COk out => (len out, mz_dpasses (at_ 64 out) 64 (fun _ => 0) 4096) | _ => (0, None) end) = (Some 2966, (210, Some 1278)).
Proof. vm_compute. reflexivity. Qed.
Example passes_rm : (rm_passes 7 2000 wave_mem 500,
   match rm_compress 7 false false wave_mem 500 2000 with COk out => (len out, rm_dpasses (mkCpu true true) (at_ 64 out) 64 (fun _ => 0) 4096) | _ => (0, None) end) = (Some 527, (339, Some 250)).
Proof. vm_compute. reflexivity. Qed.
