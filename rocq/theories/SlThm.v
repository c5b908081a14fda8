(** Main results about the symlut codecs. *)
From Verif Require Import Base Simd SimdProof Spec LargeSpec PktSpec LutSpec ExtModel ExtDec ExtEnc PktModel PktDec PktEnc Codec Rle8Thm
  MbModel MbEnc LutModel LutProof SlModel SlProof.

Definition sldecs (c : slcfg) : decompressor -> Prop := fun dec => exists l, dec = sl_decompress c l.

Lemma sl_restores c l body In n :
  slok c -> StreamP (LutPacket (slw c)) (LutEnd (slw c)) (if slS c =? 1 then 0 else slS c) (first_table (slS c) (slSC c)) body In n ->
  1 <= n <= large_in -> 8 + len body < 2 ^ 32 ->
  Restores (sl_decompress c l) 128 (le32 n ++ le32 (8 + len body) ++ body) In n.
Proof.
  intros Hc HS Hn Hlen C pin inSize M pout cap Hh Hpin Hpin2 Hin Hpout Hpout2 Hcap. unfold large_in in Hn.
  apply (StreamP_mono _ (SlPkt c) _ (SlTerm c) _ 16) in HS; [|intros; now apply LutPacket_pkt|intros; now apply LutEnd_term|destruct Hc as (_ & H8 & _); destruct (_ =? _); lia].
  rewrite !len_app, !len_le32 in *. pose proof (len_nonneg body).
  unfold sl_decompress.
  rewrite (rd32_holds C pin n _) by (try exact Hh; lia).
  apply holds_app in Hh. destruct Hh as [_ Hh]. rewrite len_le32 in Hh.
  rewrite (rd32_holds C (pin + 4) (8 + len body) _) by (try exact Hh; lia).
  apply holds_app in Hh. destruct Hh as [_ Hh]. rewrite len_le32 in Hh.
  replace ((pin =? 0) || (pout =? 0) || (inSize =? 0) || (cap =? 0)) with false by lia.
  replace ((cap <? n) || (inSize <? 8 + len body)) with false by lia.
  destruct (stream_dec (sl_parse c) (sl_fill c) (lvl_copyW (slS c)) (Rlut (slS c) (slSC c)) (lvl_copyW_ok (slS c)) l C (pin + 8)
    (reg_init (slS c) (slSC c)) M pout (lut_init (slS c) (slSC c)) body In n) as (M' & HL & H1 & H2); try assumption; try lia.
  - destruct Hc as (HS1 & _ & HSC). pose proof (okS1_pos _ HS1). apply lut_init_ok; lia.
  - replace (pin + 8) with (pin + 4 + 4) by lia. exact Hh.
  - rewrite HL. exists M'. split; [reflexivity|]. split; [exact H1|]. intros x Hx. apply H2. lia.
Qed.

Lemma slsize_small c n : 1 <= n <= large_in -> slsize c n < 2 ^ 32.
Proof. unfold slsize, sl_loss, large_in. intros H. destruct (_ =? _); [|destruct (_ <=? _)]; lia. Qed.

Lemma sl_good_large c v : List.In c slcodecs -> GoodTo (sl_compress c v) (sldecs c) 128 (slsize c) rle_compress_bounds large_in.
Proof.
  intros Hc In n cap HIn Hn Hcap. apply slcodecs_ok in Hc.
  destruct (sl_compress_ok c v In n cap Hc HIn Hn Hcap) as (body & HC & HS & Hlen).
  pose proof (slsize_small c n Hn). exists body. split; [exact HC|]. split; [|split; [exact Hlen|]].
  - destruct HS as (? & ? & ? & ? & ? & ? & ? & ? & ? & ? & ? & Hb). exact Hb.
  - intros dec [l ->]. apply sl_restores; try assumption. lia.
Qed.

Lemma sl_good c v : List.In c slcodecs -> Good (sl_compress c v) (sldecs c) 128 (slsize c) rle_compress_bounds.
Proof. intros H. now apply large_good, sl_good_large. Qed.

Lemma sl_guarded c v : Guarded (sl_compress c v) rle_compress_bounds.
Proof. intros inNull outNull In n cap H. unfold sl_compress. now rewrite guard_true. Qed.

Lemma sl_decompress_args c l : DecompressArgs (sl_decompress c l).
Proof.
  intros C pin inSize M pout outSize H. unfold sl_decompress.
  destruct ((pin =? 0) || (pout =? 0) || (inSize =? 0) || (outSize =? 0)) eqn:E; [reflexivity|].
  replace ((outSize <? rd32 C pin) || (inSize <? rd32 C (pin + 4))) with true by lia. reflexivity.
Qed.

(** Capacity that always suffices. *)
Definition sl_space (c : slcfg) (n : Z) : Z := rle_compress_bounds n + sl_loss c n.

Lemma sl_loss_nonneg c n : 0 <= n -> 0 <= sl_loss c n.
Proof. intros H. unfold sl_loss. destruct (_ =? _); [|destruct (_ <=? _)]; lia. Qed.

Lemma sl_rt c v : List.In c slcodecs -> RoundTrip (sl_compress c v false false) (sl_space c) (sldecs c) 128.
Proof.
  intros Hc. eapply codec_round_trip; [now apply sl_good|]. intros n Hn. unfold sl_space, slsize. rewrite bounds_193 by lia.
  pose proof (sl_loss_nonneg c n). lia.
Qed.
Lemma sl_within_space c v : List.In c slcodecs -> WithinBound (sl_compress c v false false) (sl_space c).
Proof.
  intros Hc. eapply codec_within; [now apply sl_good|apply sl_guarded|]. intros n Hn. unfold sl_space, slsize. rewrite bounds_193 by lia. lia.
Qed.
(** 48 and 64 bit: within rle_compress_bounds; the other sizes but 24 bit: for inputs up to 5 MB. *)
Lemma sl_within_wide c v : List.In c slcodecs -> 6 <= slS c -> WithinBound (sl_compress c v false false) rle_compress_bounds.
Proof.
  intros Hc H6. eapply codec_within; [now apply sl_good|apply sl_guarded|]. intros n Hn. unfold slsize, sl_loss. rewrite bounds_193 by lia.
  replace (slS c =? 3) with false by lia. replace (slS c <=? 4) with false by lia. lia.
Qed.
Lemma sl_within_5mb c v In n cap out : List.In c slcodecs -> slS c <> 3 -> byte_mem In -> 1 <= n <= 5000000 ->
  sl_compress c v false false In n cap = COk out -> len out <= rle_compress_bounds n.
Proof.
  intros Hc H3 HIn Hn HC. rewrite bounds_193 by (unfold max_in; lia).
  destruct (codec_ok (sl_compress c v) (sldecs c) 128 (slsize c) rle_compress_bounds (sl_good c v Hc) (sl_guarded c v) In n cap out HIn)
    as (body & _ & -> & HL & _); [unfold max_in; lia|exact HC|].
  unfold slsize, sl_loss in HL. replace (slS c =? 3) with false in HL by lia. destruct (slS c <=? 4); lia.
Qed.
Lemma sl_args c v : List.In c slcodecs -> CompressArgs (sl_compress c v) rle_compress_bounds.
Proof. intros Hc. eapply codec_args; [now apply sl_good|apply sl_guarded]. Qed.
Lemma sl_header c v : List.In c slcodecs -> HeaderSizes (sl_compress c v false false).
Proof. intros Hc. eapply codec_header; [now apply sl_good|apply sl_guarded]. Qed.
Lemma sl_truncated c v l : List.In c slcodecs -> RejectsTruncated (sl_compress c v false false) (sl_decompress c l).
Proof.
  intros Hc. eapply codec_truncated; [now apply sl_good|apply sl_guarded| |apply sl_decompress_args]. intros n Hn. now apply slsize_small, max_large1.
Qed.
Lemma sl_tail c v : List.In c slcodecs -> TailHarmless (sl_compress c v false false) rle_compress_bounds (sldecs c) 128.
Proof. intros Hc. eapply codec_tail; [now apply sl_good|]. intros. lia. Qed.
Lemma sl_agree c v : List.In c slcodecs -> DecodersAgree (sl_compress c v false false) (sldecs c).
Proof. intros Hc. eapply codec_agree; [now apply sl_good|apply sl_guarded]. Qed.
Lemma sl_inside c v l : List.In c slcodecs -> StaysInside (sl_compress c v false false) (sl_decompress c l) 128.
Proof. intros Hc. eapply codec_inside; [now apply sl_good|apply sl_guarded|now exists l]. Qed.
