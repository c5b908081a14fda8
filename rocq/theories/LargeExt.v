(** What compress accepts is restored, also above 1 GiB: the codecs with the guard [rle_compress_bounds]. *)
From Verif Require Import Base Spec LargeSpec Simd ExtModel ExtEnc ExtThm Codec Rle8Model Rle8Proof Rle8Single Rle8Thm SlModel SlProof SlThm ShModel ShEnc ShThm MzModel MzThm Spec2 LeModel LeSpec LeWorth LeThm.
From Verif Require HsModel HsThm.

Lemma bounds_small n : 1 <= n -> rle_compress_bounds n <= n + 193.
Proof. intros H. unfold rle_compress_bounds. destruct (n >? 2 ^ 30); lia. Qed.

Lemma ext_large c v : List.In c xcodecs -> RestoredUpTo large_in (fun n => n + 193) (xcomp c v) (xdecs c) 128.
Proof.
  intros Hc. eapply codec_restored; [now apply ext_good_large|]. intros n Hn. cbv beta. pose proof (bounds_small n ltac:(lia)). unfold large_in in Hn. lia.
Qed.

(** 8 bit, symlut and short codecs: some make more than 193 bytes of overhead. *)
Definition large_space (n : Z) : Z := n + n / 64 + 193.

Lemma multi_large pk avx2 : RestoredUpTo large_in large_space (m_compress pk avx2 false false) (r8decs pk) 128.
Proof.
  eapply codec_restored; [apply multi_good_large|]. intros n Hn. pose proof (bounds_small n ltac:(lia)). unfold large_in, large_space, mbound in *. destruct pk; lia.
Qed.
Lemma single_large pk : RestoredUpTo large_in large_space (s_compress pk false false) (r8decs pk) 128.
Proof.
  eapply codec_restored; [apply single_good_large|]. intros n Hn. pose proof (bounds_small n ltac:(lia)). unfold large_in, large_space, sbound in *. destruct pk; lia.
Qed.
Lemma sl_large c v : List.In c slcodecs -> RestoredUpTo large_in large_space (sl_compress c v false false) (sldecs c) 128.
Proof.
  intros Hc. eapply codec_restored; [now apply sl_good_large|]. intros n Hn. pose proof (bounds_small n ltac:(lia)). pose proof (slsize_small c n Hn).
  unfold large_in, large_space, slsize, sl_loss in *. destruct (slS c =? 3); [|destruct (slS c <=? 4)]; lia.
Qed.
Lemma sh_large c comp : sh_encoder c comp -> RestoredUpTo large_in large_space (comp false false) (shdecs c) 128.
Proof.
  intros Hc. eapply codec_restored; [now apply sh_good_large|]. intros n Hn. pose proof (bounds_small n ltac:(lia)). pose proof (shsize_small n Hn).
  unfold large_in, large_space, shsize in *. lia.
Qed.

(** rle8_mmtf128 and rle8_sh: the guard [rle8_mmtf128_compress_bounds] is 0 above 2^30 as well. *)
Lemma mz_large undef M pout : RestoredUpTo large_in (fun n => n + 13) (mz_compress undef M pout false false) mzdecs 0.
Proof.
  eapply codec_restored; [apply mz_good_large|]. intros n Hn. cbv beta. pose proof (HsThm.mz_bounds_le n Hn). unfold large_in in Hn. lia.
Qed.
Lemma hs_large M pout : RestoredUpTo large_in HsThm.sh_need (HsModel.sh_compress M pout false false) HsThm.shdecs 0.
Proof.
  intros In n cap HIn Hn Hc. destruct (HsThm.sh_good_large M pout In n cap HIn Hn Hc) as (ops & _ & E & _ & H2 & H3). exists (HsThm.sh_stream n ops).
  split; [exact E|]. split; [lia|]. split; [unfold HsThm.sh_need, large_in in *; lia|]. intros dec ->. exact H3.
Qed.

(** The low entropy codecs, whose sizes are 32 bit numbers. *)
Lemma le_large L max In n cap : L = 255 \/ L = 32 -> byte_mem In -> 1 <= n <= large_in -> le_cond L max In n -> le_size L n <= cap < 2 ^ 32 ->
  exists out, le_compress L max false false In n cap = COk out /\ len out <= cap /\ forall dec, le_decs L dec -> Restores dec 0 out In n.
Proof.
  intros HL HIn Hn HP Hcap. assert (H0 : 0 <= n / L) by (apply Z.div_pos; lia).
  destruct (le_total_large L max Always HL In n cap HIn Hn I ltac:(rewrite le_bounds_eq_large by lia; unfold le_size in Hcap; lia)) as (out & E).
  destruct (le_ok_large L max HL In n cap out HIn Hn E) as (_ & O2 & _ & O4). exists out. split; [exact E|]. split; [lia|]. exact (O4 HP).
Qed.
