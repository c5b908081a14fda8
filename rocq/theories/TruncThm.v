(** Streams of which the end is missing. *)
From Verif Require Import Base Spec Spec2 Simd ExtModel ExtThm Rle8Model Rle8Thm LutModel SlModel SlThm ShModel ShThm LeModel LeSpec LeThm RmThm MzModel MzThm ArchSpec ArchThm ArchLib TruncSpec.
From Verif Require HsModel HsThm.

(** The header field that decides is read from the bytes that are left. *)
Lemma cut_field C pin out f k : 0 <= f -> f + 4 <= k < len out -> holds C pin (firstn (Z.to_nat k) out) ->
  (forall C' p, holds C' p out -> rd32 C' (p + f) = len out) -> rd32 C (pin + f) = len out.
Proof.
  intros Hf Hk HC H. set (C' := fun y => nth (Z.to_nat (y - pin)) out 0).
  rewrite <- (H C' pin).
  - assert (HE : forall j, f <= j < f + 4 -> C (pin + j) = C' (pin + j)).
    { intros j Hj. assert (Hl : len (firstn (Z.to_nat k) out) = k) by (unfold len in *; rewrite firstn_length; lia).
      rewrite (holds_nth _ _ _ j HC) by lia. unfold C'. replace (pin + j - pin) with j by lia.
      rewrite <- (firstn_skipn (Z.to_nat k) out) at 2. rewrite app_nth1; [reflexivity|]. unfold len in Hl. lia. }
    unfold rd32. rewrite <- !Z.add_assoc. now rewrite !HE by lia.
  - apply holds_intro. intros j Hj. unfold C'. f_equal. lia.
Qed.

Lemma library_refuses_cut slack x : library_piece slack x -> RefusesCut x (a_field x + 4).
Proof.
  intros HL out k C pin M pout outSize E Hk HC. destruct (library_ok slack x HL) as (_ & out' & E' & Hh & _). rewrite E in E'. injection E' as <-.
  destruct HL as (need & ok & HL & _).
  assert (Hf : 0 <= a_field x) by (inversion HL; lia).
  pose proof (cut_field C pin out (a_field x) k Hf Hk HC (fun C' p H => proj1 (Hh C' p H))) as HR.
  destruct x as [comp dec f In n cap]; cbn [a_comp a_dec a_field a_In a_n a_cap] in *.
  inversion HL; subst.
  - apply ext_decompress_args. lia.
  - apply r8_decompress_args. lia.
  - apply r8_decompress_args. lia.
  - apply sl_decompress_args. lia.
  - apply sh_decompress_args. lia.
  - apply le_dec_args. rewrite Z.add_0_r in HR. lia.
  - apply le_dec_args. rewrite Z.add_0_r in HR. lia.
  - apply rm_dec_args. rewrite Z.add_0_r in HR. lia.
  - apply mz_dec_args. lia.
  - apply HsThm.sh_dec_args. lia.
Qed.
