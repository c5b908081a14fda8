(** rle8_sh takes linear time. *)
From Verif Require Import Base Simd Spec HsModel HsThm.
From Verif Require Import CostModel CostSpec McostSpec HcostModel HcostThm.

(** C72: all loops of the compressor; memcpy counts as one pass for every byte. *)
Theorem C72_rle8_sh_linear : LinearPasses hs_passes 13 20.
Proof. exact hs_linear. Qed.
Print Assumptions C72_rle8_sh_linear.
(** C73: on its streams the decompressor, too; memcpy and memset count as one pass for every byte. *)
Theorem C73_rle8_sh_linear : forall M0 pout0, LinearDecodeB (sh_compress M0 pout0 false false) sh_need hs_dpasses 2 1.
Proof. exact hs_dec_linear. Qed.
Print Assumptions C73_rle8_sh_linear.

(** *** Examples *)

Definition wave_mem (k : Z) : Z := if k mod 103 <? 60 then 7 else 50 + k mod 103.
Definition mix_mem (k : Z) : Z := if k mod 7 <? 5 then 127 else k mod 5.
Definition at_ (a : Z) (l : list Z) : mem := fun x => if (a <=? x) && (x <? a + len l) then nth (Z.to_nat (x - a)) l 0 else 205.
Definition both (In : mem) (n : Z) : option Z * (Z * option Z) :=
  (hs_passes In n, match sh_compress (fun _ => 0) 64 false false In n (sh_need n) with COk out => (len out, hs_dpasses (at_ 64 out) 64 (fun _ => 0) 4096) | _ => (0, None) end).
Example passes_sh : (both wave_mem 300, both mix_mem 300, both (fun _ => 127) 300) = ((Some 568, (148, Some 307)), (Some 629, (314, Some 302)), (Some 603, (19, Some 302))).
Proof. vm_compute. reflexivity. Qed.
