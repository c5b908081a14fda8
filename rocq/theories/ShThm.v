(** Main results about the short codecs. *)
From Verif Require Import Base Simd SimdProof Spec LargeSpec PktSpec LutSpec ExtModel ExtDec ExtEnc PktModel PktDec PktEnc Codec Rle8Thm
  MbModel MbEnc LutModel LutProof ShModel ShProof ShEnc.

Definition shdecs (c : shcfg) : decompressor -> Prop := fun dec => exists l, dec = sh_decompress c l.

(** The compressors of a format: at every level, and the greedy one where there is one. *)
Inductive sh_encoder : shcfg -> nullable_compressor -> Prop :=
| She_short c v : List.In c shcodecs -> sh_encoder c (sh_compress c v)
| She_greedy c : List.In c greedy_codecs -> sh_encoder c (greedy_compress c).

Lemma sh_restores c l body In n :
  shok c -> ShStream c body In n -> 1 <= n <= large_in -> 8 + len body < 2 ^ 32 ->
  Restores (sh_decompress c l) 128 (le32 n ++ le32 (8 + len body) ++ body) In n.
Proof.
  intros Hc (sym0 & stream & Hsym & Hbody & HS) Hn Hlen C pin inSize M pout cap Hh Hpin Hpin2 Hin Hpout Hpout2 Hcap. unfold large_in in Hn.
  rewrite !len_app, !len_le32 in *. pose proof (len_nonneg body).
  unfold sh_decompress.
  rewrite (rd32_holds C pin n _) by (try exact Hh; lia).
  apply holds_app in Hh. destruct Hh as [_ Hh]. rewrite len_le32 in Hh.
  rewrite (rd32_holds C (pin + 4) (8 + len body) _) by (try exact Hh; lia).
  apply holds_app in Hh. destruct Hh as [_ Hh]. rewrite len_le32 in Hh.
  replace (pin + 4 + 4) with (pin + 8) in Hh by lia.
  replace ((pin =? 0) || (pout =? 0) || (inSize =? 0) || (cap =? 0)) with false by lia.
  replace ((cap <? n) || (inSize <? 8 + len body)) with false by lia. cbv zeta.
  apply (StreamP_mono _ (ShPkt c sym0) _ (ShTerm c sym0) _ 16) in HS;
    [|intros; now apply ShortPacket_pkt|intros; now apply ShortEnd_term|destruct Hc as (_ & H8 & _); destruct (_ =? _); lia].
  rewrite first_table_init in HS. destruct (shOne c) eqn:Ho.
  - subst body. cbn [holds] in Hh. destruct Hh as [Hh1 Hh]. rewrite Hh1, len_cons in *.
    replace (pin + 8 + 1) with (pin + 9) in Hh by lia.
    destruct (stream_dec (sh_parse c) (sh_fill c) (lvl_copyW (shS c)) (Rsh c sym0) (lvl_copyW_ok (shS c)) l C (pin + 9)
      [[sym0]] M pout (lut_init (shS c) (shSC c)) stream In n) as (M' & HL & H1 & H2); try assumption; try lia.
    + unfold Rsh. rewrite Ho. reflexivity.
    + rewrite HL. exists M'. split; [reflexivity|]. split; [exact H1|]. intros x Hx. apply H2. lia.
  - subst body.
    destruct (stream_dec (sh_parse c) (sh_fill c) (lvl_copyW (shS c)) (Rsh c sym0) (lvl_copyW_ok (shS c)) l C (pin + 8)
      (reg_init (shS c) (shSC c)) M pout (lut_init (shS c) (shSC c)) stream In n) as (M' & HL & H1 & H2); try assumption; try lia.
    + unfold Rsh. rewrite Ho. destruct Hc as (HS1 & _ & HSC & _). pose proof (okS1_pos _ HS1). apply lut_init_ok; lia.
    + rewrite HL. exists M'. split; [reflexivity|]. split; [exact H1|]. intros x Hx. apply H2. lia.
Qed.

Lemma shsize_small n : 1 <= n <= large_in -> shsize n < 2 ^ 32.
Proof. unfold shsize, large_in. lia. Qed.

Lemma sh_encoder_ok c comp : sh_encoder c comp -> exists body, comp = sh_wrap body /\ shok c /\
  forall In n, byte_mem In -> 1 <= n <= large_in ->
  exists l, body In n = Some l /\ ShStream c l In n /\ Forall is_byte l /\ 8 + len l <= shsize n.
Proof.
  intros [c' v H|c' H].
  - exists (sh_body c' v). split; [reflexivity|]. apply shcodecs_ok in H. split; [exact H|]. intros In n HIn Hn. now apply sh_body_ok.
  - exists (greedy_body c'). split; [reflexivity|]. apply greedy_codecs_ok in H. destruct H as (H1 & H2 & H3 & H4 & H5).
    split; [exact H1|]. intros In n HIn Hn. now apply greedy_body_ok.
Qed.

Lemma sh_good_large c comp : sh_encoder c comp -> GoodTo comp (shdecs c) 128 shsize rle_compress_bounds large_in.
Proof.
  intros He In n cap HIn Hn Hcap. destruct (sh_encoder_ok c comp He) as (body & -> & Hc & HB).
  destruct (HB In n HIn Hn) as (l & Hl & HS & Hb & HL). pose proof (shsize_small n Hn).
  exists l. split; [|split; [exact Hb|split; [exact HL|]]].
  - unfold sh_wrap. cbn [orb]. replace (n =? 0) with false by lia. replace (cap <? rle_compress_bounds n) with false by lia. cbn [orb].
    rewrite Hl. reflexivity.
  - intros dec [lv ->]. apply sh_restores; try assumption. lia.
Qed.

Lemma sh_good c comp : sh_encoder c comp -> Good comp (shdecs c) 128 shsize rle_compress_bounds.
Proof. intros H. now apply large_good, (sh_good_large c). Qed.

Lemma sh_guarded c comp : sh_encoder c comp -> Guarded comp rle_compress_bounds.
Proof.
  intros He. destruct (sh_encoder_ok c comp He) as (body & -> & _). intros inNull outNull In n cap H. unfold sh_wrap. now rewrite guard_true.
Qed.

Lemma sh_decompress_args c l : DecompressArgs (sh_decompress c l).
Proof.
  intros C pin inSize M pout outSize H. unfold sh_decompress.
  destruct ((pin =? 0) || (pout =? 0) || (inSize =? 0) || (outSize =? 0)) eqn:E; [reflexivity|].
  replace ((outSize <? rd32 C pin) || (inSize <? rd32 C (pin + 4))) with true by lia. reflexivity.
Qed.

(** Capacity that always suffices. *)
Definition sh_space (n : Z) : Z := rle_compress_bounds n + n / 65537.

Lemma sh_rt c comp : sh_encoder c comp -> RoundTrip (comp false false) sh_space (shdecs c) 128.
Proof.
  intros He. eapply codec_round_trip; [exact (sh_good _ _ He)|]. intros n Hn. unfold sh_space, shsize. rewrite bounds_193 by lia. lia.
Qed.
Lemma sh_within_space c comp : sh_encoder c comp -> WithinBound (comp false false) sh_space.
Proof.
  intros He. eapply codec_within; [exact (sh_good _ _ He)|eapply sh_guarded; exact He|]. intros n Hn. unfold sh_space, shsize. rewrite bounds_193 by lia. lia.
Qed.
Lemma sh_within_10mb c comp In n cap out : sh_encoder c comp -> byte_mem In -> 1 <= n <= 10000000 ->
  comp false false In n cap = COk out -> len out <= rle_compress_bounds n.
Proof.
  intros He HIn Hn HC. rewrite bounds_193 by (unfold max_in; lia).
  destruct (codec_ok comp (shdecs c) 128 shsize rle_compress_bounds (sh_good c comp He) (sh_guarded c comp He) In n cap out HIn)
    as (body & _ & -> & HL & _); [unfold max_in; lia|exact HC|].
  unfold shsize in HL. lia.
Qed.
Lemma sh_args c comp : sh_encoder c comp -> CompressArgs comp rle_compress_bounds.
Proof. intros He. eapply codec_args; [exact (sh_good _ _ He)|eapply sh_guarded; exact He]. Qed.
Lemma sh_header c comp : sh_encoder c comp -> HeaderSizes (comp false false).
Proof. intros He. eapply codec_header; [exact (sh_good _ _ He)|eapply sh_guarded; exact He]. Qed.
Lemma sh_truncated c comp l : sh_encoder c comp -> RejectsTruncated (comp false false) (sh_decompress c l).
Proof.
  intros He. eapply codec_truncated; [exact (sh_good _ _ He)|eapply sh_guarded; exact He| |apply sh_decompress_args]. intros n Hn. now apply shsize_small, max_large1.
Qed.
Lemma sh_tail c comp : sh_encoder c comp -> TailHarmless (comp false false) rle_compress_bounds (shdecs c) 128.
Proof. intros He. eapply codec_tail; [exact (sh_good _ _ He)|]. intros. lia. Qed.
Lemma sh_agree c comp : sh_encoder c comp -> DecodersAgree (comp false false) (shdecs c).
Proof. intros He. eapply codec_agree; [exact (sh_good _ _ He)|eapply sh_guarded; exact He]. Qed.
Lemma sh_inside c comp l : sh_encoder c comp -> StaysInside (comp false false) (sh_decompress c l) 128.
Proof. intros He. eapply codec_inside; [exact (sh_good _ _ He)|eapply sh_guarded; exact He|now exists l]. Qed.
