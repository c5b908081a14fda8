(** C81: restored data compressed again. *)
From Verif Require Import Base Spec Spec2 Simd ExtModel ExtThm Rle8Model Rle8Thm LutModel SlModel SlThm ShModel ShThm LeModel MzModel ArchLib AgainThm.

(** The codecs of single bytes: what the decompressor has restored gives the same stream if it is compressed again in the same buffer,
    whatever the buffer holds behind it. *)
Theorem C81_byte_codecs_same_again_partial : forall slack comp dec f need ok, library slack comp dec f need ok -> byte_codec comp ->
  SameAgain comp dec need ok.
Proof. exact byte_same_again. Qed.
Print Assumptions C81_byte_codecs_same_again_partial.

(** The codecs of longer symbols, every one at every level: another stream. *)
Theorem C81_ext_same_again_refuted : forall c v d, List.In c xcodecs -> ~ SameAgain (xcomp c v) (xdecompress c d) rle_compress_bounds Always.
Proof. exact ext_again_refuted. Qed.
Print Assumptions C81_ext_same_again_refuted.
Theorem C81_symlut_same_again_refuted : forall c v l, List.In c slcodecs -> slS c <> 1 ->
  ~ SameAgain (sl_compress c v false false) (sl_decompress c l) (sl_space c) Always.
Proof. exact sl_again_refuted. Qed.
Print Assumptions C81_symlut_same_again_refuted.
Theorem C81_short_same_again_refuted : forall c comp l, sh_encoder c comp -> shS c <> 1 ->
  ~ SameAgain (comp false false) (sh_decompress c l) sh_space Always.
Proof. exact short_again_refuted. Qed.
Print Assumptions C81_short_same_again_refuted.

(** It is the symbol behind the data that matters: the same stream again if that one is the same. *)
Theorem C81_long_symbols_same_again_partial :
  (forall c v d, List.In c xcodecs -> SameAgainIf (xS c) (xcomp c v) (xdecompress c d) rle_compress_bounds) /\
  (forall c v l, List.In c slcodecs -> SameAgainIf (slS c) (sl_compress c v false false) (sl_decompress c l) (sl_space c)) /\
  (forall c comp l, sh_encoder c comp -> SameAgainIf (shS c) (comp false false) (sh_decompress c l) sh_space).
Proof. exact long_same_again_if. Qed.
Print Assumptions C81_long_symbols_same_again_partial.

(** *** Examples *)
Definition ex_comp : compressor := m_compress true true false false.
Definition ex_in : mem := fun k => k / 30.
Example C81_example : library 128 ex_comp (r8_decompress true D8Avx2) 4 (multi_space true) Always /\ byte_codec ex_comp /\
  match ex_comp ex_in 100 1000 with
  | COk out =>
      match r8_decompress true D8Avx2 (put7 out) 1 (len out) (fun _ => 9) 1 200 with
      | DRet r M => r = 100 /\ M 150 <> ex_in 149 /\ ex_comp (fun k => M (1 + k)) 100 1000 = COk out
      | DDiverge => False end
  | _ => False end.
Proof.
  split; [apply L_rle8_multi|]. split; [left; now exists true, true|]. vm_compute. split; [reflexivity|]. split; [intros H; discriminate H|reflexivity].
Qed.
Example C81_codecs : List.In (mkX 2 false false false) xcodecs /\ List.In (mkSl 6 true 3) slcodecs /\ slS (mkSl 6 true 3) <> 1.
Proof. split; [cbn; tauto|]. split; [cbn; tauto|]. cbn. lia. Qed.
(** rle16_sym: the same stream again, the buffer goes on as the input did. *)
Definition ex_pairs : mem := fun k => if k <? 40 then k mod 2 else 7.
Example C81_long_example : match xcomp (mkX 2 false false false) Sse2 ex_pairs 44 1000 with
  | COk out =>
      match xdecompress (mkX 2 false false false) DSse (put7 out) 1 (len out) (fun _ => 7) 1 200 with
      | DRet r M => r = 44 /\ slice M 1 46 = slice ex_pairs 0 46 /\ xcomp (mkX 2 false false false) Sse2 (fun k => M (1 + k)) 44 1000 = COk out
      | DDiverge => False end
  | _ => False end.
Proof. vm_compute. repeat split. Qed.
