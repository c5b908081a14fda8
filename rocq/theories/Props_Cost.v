(** The encoders take linear time. *)
From Verif Require Import Base Simd Spec ExtModel ExtEnc PktModel MbModel Rle8Model LutModel SlModel ShModel LeModel.
From Verif Require Import CostModel CostSpec CostThm.

(** C72: all loops of a compressor together, the loops inside of loops included, are passed at most [a n + b]
    times for [n] bytes of input, whatever they are and whatever the SIMD level is.  This includes the encoders
    that look ahead, the ones that look for the best entry of a table and the single symbol encoders,
    which go back in the input. *)
Theorem C72_ext_linear : forall c v, List.In c xcodecs -> LinearPasses (ext_passes c v) 3 54.
Proof. intros c v Hc. exact (ext_linear c v (xcodecs_cok c Hc)). Qed.
Print Assumptions C72_ext_linear.
Theorem C72_rle8_multi_linear : forall pk avx2, LinearPasses (multi_passes pk avx2) 3 2.
Proof. exact multi_linear. Qed.
Print Assumptions C72_rle8_multi_linear.
Theorem C72_rle8_single_linear : forall pk, LinearPasses (single_passes pk) 9 261.
Proof. exact single_linear. Qed.
Print Assumptions C72_rle8_single_linear.
Theorem C72_sl_linear : forall c v, List.In c slcodecs -> LinearPasses (sl_passes c v) 3 54.
Proof. exact sl_linear. Qed.
Print Assumptions C72_sl_linear.
Theorem C72_short_linear : forall c v, List.In c shcodecs -> LinearPasses (sh_passes c v) 5 260.
Proof. exact sh_linear. Qed.
Print Assumptions C72_short_linear.
Theorem C72_greedy_linear : forall c, List.In c greedy_codecs -> LinearPasses (greedy_passes c) 8 8.
Proof. exact greedy_linear. Qed.
Print Assumptions C72_greedy_linear.
Theorem C72_low_entropy_linear : forall L info, L = 255 \/ L = 32 -> LinearPasses (le_passes L info) 2 1.
Proof. intros L info H. exact (le_linear L info (ltac:(destruct H; lia))). Qed.
Print Assumptions C72_low_entropy_linear.

(** *** Examples *)

(** Runs of 100 bytes with three others between them; bytes without order; runs that the single symbol
    encoder passes over and returns to. *)
Definition runs_mem (k : Z) : Z := if k mod 103 <? 100 then 7 else 50 + k mod 103.
Definition noise_mem (k : Z) : Z := (k * k + 3 * k) mod 251.
Definition waste_mem (k : Z) : Z := if k <? 300 then 1 + k mod 101 else if k mod 9 <? 5 then 200 else 1 + k mod 101.
Example passes_ext : map (fun c => (ext_passes c Sse2 runs_mem 1000, ext_passes c Avx2 runs_mem 1000, ext_passes c Base_ runs_mem 1000, ext_passes c Sse2 noise_mem 1000))
  [mkX 2 false false false; mkX 3 true true true; mkX 16 false true false] =
  [(Some 96, Some 67, Some 505, Some 90); (Some 96, Some 67, Some 340, Some 113); (Some 104, Some 104, Some 104, Some 137)].
Proof. vm_compute. reflexivity. Qed.
Example passes_multi : (multi_passes true false runs_mem 1000, multi_passes true true runs_mem 1000) = (Some 88, Some 59).
Proof. vm_compute. reflexivity. Qed.
Example passes_single : (single_passes false waste_mem 1000, single_passes true waste_mem 1000) = (Some 631, Some 629).
Proof. vm_compute. reflexivity. Qed.
(** The encoder goes back in these bytes. *)
Fixpoint goes_back (k : nat) (s : sst) : bool :=
  match k with
  | O => false
  | S k' => match single_step false 200 waste_mem 1000 s with inl s' => (ss_i s' <? ss_i s) || goes_back k' s' | inr _ => false end
  end.
Example single_goes_back : approx_symbol waste_mem 1000 = Some 200 /\ goes_back 200 (mkS 0 0 0 [] 0 0) = true.
Proof. vm_compute. split; reflexivity. Qed.
Example passes_tables :
  (map (fun c => sl_passes c Sse2 runs_mem 1000) [mkSl 1 false 3; mkSl 2 false 3; mkSl 6 true 7],
   map (fun c => sh_passes c Sse2 waste_mem 1000) [mkSh 1 false 0 true; mkSh 1 false 3 false; mkSh 3 true 7 false],
   map (fun c => greedy_passes c runs_mem 1000) [mkSh 2 true 3 false; mkSh 2 true 7 false; mkSh 8 true 1 false]) =
  ([Some 88; Some 96; Some 105], [Some 622; Some 191; Some 113], [Some 2020; Some 4040; Some 272]).
Proof. vm_compute. reflexivity. Qed.
Example passes_low_entropy :
  le_passes 255 (mkLi [0; 1; 2; 3] (fun b => b =? 7) 4) runs_mem 1000 = Some 1012.
Proof. vm_compute. reflexivity. Qed.
