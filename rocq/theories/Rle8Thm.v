(** Main results about the 8 bit codecs rle8_multi, rle8_packed_multi, rle8_single,
    rle8_packed_single. *)
From Verif Require Import Base Simd SimdProof Spec LargeSpec ExtModel ExtDec ExtEnc PktModel PktDec PktEnc Codec
  Rle8Model Rle8Proof Rle8Single.

Definition r8decs (pk : bool) : decompressor -> Prop := fun dec => exists d, dec = r8_decompress pk d.

Lemma multi_good_large pk avx2 : GoodTo (m_compress pk avx2) (r8decs pk) 128 (mbound pk) rle_compress_bounds large_in.
Proof.
  intros In n cap HIn Hn Hcap. destruct (m_compress_ok pk avx2 In n cap HIn Hn Hcap) as (body & HC & HS & Hlen).
  pose proof (len_nonneg body). assert (H9 : 9 + len body < 2 ^ 32).
  { unfold mbound, large_in in *. destruct pk; lia. }
  assert (Hl : 8 + len ([0] ++ body) = 9 + len body) by (rewrite len_app; change (len [0]) with 1; lia).
  exists ([0] ++ body). rewrite Hl. split; [exact HC|]. split; [|split; [exact Hlen|]].
  - destruct HS as (? & ? & ? & ? & ? & ? & ? & ? & ? & ? & ? & Hb). constructor; [unfold is_byte; lia|exact Hb].
  - intros dec [d ->]. now apply r8_multi_restores.
Qed.

Lemma multi_good pk avx2 : Good (m_compress pk avx2) (r8decs pk) 128 (mbound pk) rle_compress_bounds.
Proof. apply large_good, multi_good_large. Qed.

Lemma single_good_large pk : GoodTo (s_compress pk) (r8decs pk) 128 (sbound pk) rle_compress_bounds large_in.
Proof.
  intros In n cap HIn Hn Hcap. destruct (s_compress_ok pk In n cap HIn Hn Hcap) as (sym & body & HC & Hsym & HS & Hlen).
  pose proof (len_nonneg body). assert (H9 : 10 + len body < 2 ^ 32).
  { unfold sbound, large_in in *. destruct pk; lia. }
  assert (Hl : 8 + len ([1] ++ [sym] ++ body) = 10 + len body).
  { rewrite !len_app. change (len [1]) with 1. change (len [sym]) with 1. lia. }
  exists ([1] ++ [sym] ++ body). rewrite Hl. split; [exact HC|]. split; [|split; [exact Hlen|]].
  - destruct HS as (? & ? & ? & ? & ? & ? & ? & ? & ? & ? & ? & Hb). constructor; [unfold is_byte; lia|]. constructor; [exact Hsym|exact Hb].
  - intros dec [d ->]. now apply r8_single_restores.
Qed.

Lemma single_good pk : Good (s_compress pk) (r8decs pk) 128 (sbound pk) rle_compress_bounds.
Proof. apply large_good, single_good_large. Qed.

Lemma guard_true inNull outNull n cap b :
  inNull = true \/ outNull = true \/ n = 0 \/ cap < b -> inNull || (n =? 0) || outNull || (cap <? b) = true.
Proof.
  intros [->|[->|[->|H]]]; cbn [orb Z.eqb].
  - reflexivity.
  - now rewrite orb_true_r.
  - now rewrite !orb_true_r.
  - replace (cap <? b) with true by lia. now rewrite orb_true_r.
Qed.

Lemma multi_guarded pk avx2 : Guarded (m_compress pk avx2) rle_compress_bounds.
Proof. intros inNull outNull In n cap H. unfold m_compress. now rewrite guard_true. Qed.
Lemma single_guarded pk : Guarded (s_compress pk) rle_compress_bounds.
Proof. intros inNull outNull In n cap H. unfold s_compress. now rewrite guard_true. Qed.

Lemma r8_mode_refused pk d C pin inSize M pout outSize : C (pin + 8) <> 0 -> C (pin + 8) <> 1 ->
  r8_decompress pk d C pin inSize M pout outSize = DRet 0 M.
Proof.
  intros H0 H1. unfold r8_decompress. cbv zeta. destruct (_ || _); [reflexivity|]. destruct (_ || _); [reflexivity|].
  destruct (C (pin + 8) =? 0) eqn:E0; [lia|]. destruct (C (pin + 8) =? 1) eqn:E1; [lia|]. reflexivity.
Qed.
Lemma r8_decompress_args pk d : DecompressArgs (r8_decompress pk d).
Proof.
  intros C pin inSize M pout outSize H. unfold r8_decompress.
  destruct ((pin =? 0) || (pout =? 0) || (inSize =? 0) || (outSize =? 0)) eqn:E; [reflexivity|].
  replace ((outSize <? rd32 C pin) || (inSize <? rd32 C (pin + 4))) with true by lia. reflexivity.
Qed.

(** The buffer that suffices for the two codecs that can exceed [rle_compress_bounds]. *)
Definition multi_space (pk : bool) (n : Z) : Z := if pk then rle_compress_bounds n else n + 193 + n / 261.
Definition single_space (pk : bool) (n : Z) : Z := if pk then n + 193 + 4 * (n / 257) else rle_compress_bounds n.

Lemma multi_rt pk avx2 : RoundTrip (m_compress pk avx2 false false) (multi_space pk) (r8decs pk) 128.
Proof.
  eapply codec_round_trip; [apply multi_good|]. intros n Hn. unfold multi_space, mbound. rewrite bounds_193 by lia. destruct pk; lia.
Qed.
Lemma single_rt pk : RoundTrip (s_compress pk false false) (single_space pk) (r8decs pk) 128.
Proof.
  eapply codec_round_trip; [apply single_good|]. intros n Hn. unfold single_space, sbound. rewrite bounds_193 by lia. destruct pk; lia.
Qed.

Lemma multi_packed_within avx2 : WithinBound (m_compress true avx2 false false) rle_compress_bounds.
Proof.
  eapply codec_within; [apply multi_good|apply multi_guarded|]. intros n Hn. rewrite bounds_193 by lia. unfold mbound. lia.
Qed.
Lemma single_within : WithinBound (s_compress false false false) rle_compress_bounds.
Proof.
  eapply codec_within; [apply single_good|apply single_guarded|]. intros n Hn. rewrite bounds_193 by lia. unfold sbound. lia.
Qed.
Lemma multi_within_space pk avx2 : WithinBound (m_compress pk avx2 false false) (multi_space pk).
Proof.
  eapply codec_within; [apply multi_good|apply multi_guarded|]. intros n Hn. unfold multi_space, mbound.
  rewrite bounds_193 by lia. destruct pk; lia.
Qed.
Lemma single_within_space pk : WithinBound (s_compress pk false false) (single_space pk).
Proof.
  eapply codec_within; [apply single_good|apply single_guarded|]. intros n Hn. unfold single_space, sbound.
  rewrite bounds_193 by lia. destruct pk; lia.
Qed.

Lemma multi_args pk avx2 : CompressArgs (m_compress pk avx2) rle_compress_bounds.
Proof. eapply codec_args; [apply multi_good|apply multi_guarded]. Qed.
Lemma single_args pk : CompressArgs (s_compress pk) rle_compress_bounds.
Proof. eapply codec_args; [apply single_good|apply single_guarded]. Qed.
Lemma multi_header pk avx2 : HeaderSizes (m_compress pk avx2 false false).
Proof. eapply codec_header; [apply multi_good|apply multi_guarded]. Qed.
Lemma single_header pk : HeaderSizes (s_compress pk false false).
Proof. eapply codec_header; [apply single_good|apply single_guarded]. Qed.
Lemma multi_truncated pk avx2 d : RejectsTruncated (m_compress pk avx2 false false) (r8_decompress pk d).
Proof.
  eapply codec_truncated; [apply multi_good|apply multi_guarded| |apply r8_decompress_args]. intros n. unfold mbound, max_in. destruct pk; lia.
Qed.
Lemma single_truncated pk d : RejectsTruncated (s_compress pk false false) (r8_decompress pk d).
Proof.
  eapply codec_truncated; [apply single_good|apply single_guarded| |apply r8_decompress_args]. intros n. unfold sbound, max_in. destruct pk; lia.
Qed.
Lemma multi_tail pk avx2 : TailHarmless (m_compress pk avx2 false false) rle_compress_bounds (r8decs pk) 128.
Proof. eapply codec_tail; [apply multi_good|]. intros. lia. Qed.
Lemma single_tail pk : TailHarmless (s_compress pk false false) rle_compress_bounds (r8decs pk) 128.
Proof. eapply codec_tail; [apply single_good|]. intros. lia. Qed.
Lemma multi_agree pk avx2 : DecodersAgree (m_compress pk avx2 false false) (r8decs pk).
Proof. eapply codec_agree; [apply multi_good|apply multi_guarded]. Qed.
Lemma single_agree pk : DecodersAgree (s_compress pk false false) (r8decs pk).
Proof. eapply codec_agree; [apply single_good|apply single_guarded]. Qed.
Lemma multi_inside pk avx2 d : StaysInside (m_compress pk avx2 false false) (r8_decompress pk d) 128.
Proof. eapply codec_inside; [apply multi_good|apply multi_guarded|now exists d]. Qed.
Lemma single_inside pk d : StaysInside (s_compress pk false false) (r8_decompress pk d) 128.
Proof. eapply codec_inside; [apply single_good|apply single_guarded|now exists d]. Qed.
