(** Inputs above 2^30 bytes. *)
From Verif Require Import Base Simd Spec ExtModel PktModel Rle8Model MbModel LutModel SlModel ShModel ShThm MzModel LeModel.

Lemma over_guard n cap : 2 ^ 30 < n -> 0 <= cap -> false || (n =? 0) || false || (cap <? rle_compress_bounds n) = false.
Proof. intros. unfold rle_compress_bounds. replace (n >? 2 ^ 30) with true by lia. lia. Qed.

Lemma m_oversize pk avx2 In n cap : 2 ^ 30 < n -> 0 <= cap -> m_compress pk avx2 false false In n cap <> CRefused.
Proof.
  intros Hn Hc. unfold m_compress. rewrite over_guard by assumption. set (rA := body8 _ _ _ _ _ _ _ _). clearbody rA. destruct rA; discriminate.
Qed.
Lemma s_oversize pk In n cap : 2 ^ 30 < n -> 0 <= cap -> s_compress pk false false In n cap <> CRefused.
Proof.
  intros Hn Hc. unfold s_compress. rewrite over_guard by assumption. set (rA := approx_symbol In n). clearbody rA. destruct rA as [sym|]; [|discriminate].
  set (rB := loop _ (mkS 0 0 0 [] 0 0)). clearbody rB. destruct rB as [[s1|]|]; try discriminate.
  set (rC := loop _ _). clearbody rC. destruct rC; discriminate.
Qed.
Lemma sl_oversize c v In n cap : 2 ^ 30 < n -> 0 <= cap -> sl_compress c v false false In n cap <> CRefused.
Proof. intros Hn Hc. unfold sl_compress. rewrite over_guard by assumption. set (rA := sl_body c v In n). clearbody rA. destruct rA; discriminate. Qed.
Lemma shw_oversize body In n cap : 2 ^ 30 < n -> 0 <= cap -> sh_wrap body false false In n cap <> CRefused.
Proof. intros Hn Hc. unfold sh_wrap. rewrite over_guard by assumption. set (rA := body In n). clearbody rA. destruct rA; discriminate. Qed.
Lemma sh_oversize c comp In n cap : sh_encoder c comp -> 2 ^ 30 < n -> 0 <= cap -> comp false false In n cap <> CRefused.
Proof. intros [c' v _|c' _] Hn Hc; now apply shw_oversize. Qed.
Lemma mz_oversize undef M pout In n cap : 2 ^ 30 < n -> 0 <= cap -> mz_compress undef M pout false false In n cap <> CRefused.
Proof.
  intros Hn Hc. unfold mz_compress, mz_bounds. replace (2 ^ 30 <? n) with true by lia. replace (false || (n =? 0) || false || (cap <? 0)) with false by lia.
  set (rA := mz_run undef In n M pout). clearbody rA. destruct rA as [[r M']|]; discriminate.
Qed.
