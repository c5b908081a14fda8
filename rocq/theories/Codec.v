(** Consequences common to all codecs with the 8 byte header: from the correctness of compress
    and decompress to the statements of Spec.v. *)
From Verif Require Import Base Spec LargeSpec ExtModel.

Section Codec.
  Variables (comp : nullable_compressor) (decs : decompressor -> Prop) (slack : Z).
  (** Bound on the size of the output, and capacity demanded by the guard. *)
  Variables (size guard : Z -> Z).

  Definition GoodTo (most : Z) : Prop := forall In n cap,
    byte_mem In -> 1 <= n <= most -> guard n <= cap ->
    exists body, comp false false In n cap = COk (le32 n ++ le32 (8 + len body) ++ body) /\
      Forall is_byte body /\ 8 + len body <= size n /\
      forall dec, decs dec -> Restores dec slack (le32 n ++ le32 (8 + len body) ++ body) In n.

  Definition Good : Prop := GoodTo max_in.

  Lemma large_good : GoodTo large_in -> Good.
  Proof. intros H In n cap HIn Hn. apply H; [exact HIn|now apply max_large1]. Qed.

  Definition Guarded : Prop := forall inNull outNull In n cap,
    inNull = true \/ outNull = true \/ n = 0 \/ cap < guard n -> comp inNull outNull In n cap = CRefused.

  Hypothesis HG : Good.
  Hypothesis HR : Guarded.

  Lemma codec_ok In n cap out :
    byte_mem In -> 1 <= n <= max_in -> comp false false In n cap = COk out ->
    exists body, out = le32 n ++ le32 (8 + len body) ++ body /\ len out = 8 + len body /\ 8 + len body <= size n /\
      forall dec, decs dec -> Restores dec slack out In n.
  Proof.
    intros HIn Hn HC. assert (Hcap : guard n <= cap).
    { destruct (Z_lt_ge_dec cap (guard n)) as [H|H]; [|lia]. rewrite HR in HC by tauto. discriminate. }
    destruct (HG In n cap HIn Hn Hcap) as (body & HC' & H1 & H2 & H3).
    rewrite HC in HC'. assert (HO := f_equal (fun r => match r with COk o => o | _ => [] end) HC'). cbv beta iota in HO.
    exists body. split; [exact HO|]. split; [rewrite HO, !len_app, !len_le32; lia|]. split; [exact H2|]. rewrite HO. exact H3.
  Qed.

  Lemma codec_round_trip (bound : Z -> Z) :
    (forall n, 1 <= n <= max_in -> guard n <= bound n /\ size n <= bound n) ->
    RoundTrip (comp false false) bound decs slack.
  Proof.
    intros Hb In n cap HIn Hn Hcap. specialize (Hb n Hn).
    destruct (HG In n cap HIn Hn ltac:(lia)) as (body & HC & H1 & H2 & H3).
    eexists. split; [exact HC|]. split; [|split; [|exact H3]].
    - apply Forall_app. split; [apply Forall_le32|]. apply Forall_app. split; [apply Forall_le32|exact H1].
    - rewrite !len_app, !len_le32. lia.
  Qed.

  Lemma codec_within (bound : Z -> Z) : (forall n, 1 <= n <= max_in -> size n <= bound n) ->
    WithinBound (comp false false) bound.
  Proof.
    intros Hb In n cap out HIn Hn HC. destruct (codec_ok In n cap out HIn Hn HC) as (body & _ & -> & H & _). specialize (Hb n Hn). lia.
  Qed.

  Lemma codec_header : HeaderSizes (comp false false).
  Proof.
    intros In n cap out HIn Hn HC. destruct (codec_ok In n cap out HIn Hn HC) as (body & Ho & Hl & _). exists body.
    rewrite Hl. exact Ho.
  Qed.

  Lemma codec_args : CompressArgs comp guard.
  Proof.
    intros inNull outNull In n cap HIn Hn. split; [|apply HR]. intros HC.
    destruct inNull; [tauto|]. destruct outNull; [tauto|]. destruct (Z.eq_dec n 0) as [|Hn0]; [tauto|].
    destruct (Z_lt_ge_dec cap (guard n)) as [H|H]; [tauto|].
    destruct (HG In n cap HIn ltac:(lia) ltac:(lia)) as (body & HC' & _). rewrite HC in HC'. discriminate.
  Qed.

  Lemma codec_truncated dec : (forall n, 1 <= n <= max_in -> size n < 2 ^ 32) -> DecompressArgs dec -> RejectsTruncated (comp false false) dec.
  Proof.
    intros Hsize HD In n cap out C pin inSize M pout outSize HIn Hn HC Hh Hs.
    destruct (codec_ok In n cap out HIn Hn HC) as (body & Ho & Hl & H & _). specialize (Hsize n Hn).
    pose proof (len_nonneg body). apply HD. rewrite Ho in Hh. apply holds_app in Hh. destruct Hh as [_ Hh]. rewrite len_le32 in Hh.
    rewrite (rd32_holds C (pin + 4) (8 + len body) _) by (try exact Hh; lia). lia.
  Qed.

  Lemma codec_tail (bound : Z -> Z) : (forall n, 1 <= n <= max_in -> guard n <= bound n) ->
    TailHarmless (comp false false) bound decs slack.
  Proof.
    intros Hb In1 In2 n cap1 cap2 H1 H2 Hn Heq Hc1 Hc2. specialize (Hb n Hn).
    destruct (HG In1 n cap1 H1 Hn ltac:(lia)) as (b1 & HC1 & _ & _ & HR1).
    destruct (HG In2 n cap2 H2 Hn ltac:(lia)) as (b2 & HC2 & _ & _ & HR2).
    eexists _, _. split; [exact HC1|]. split; [exact HC2|]. intros dec Hd. split; [now apply HR1|].
    intros C pin inSize M pout cap A1 A2 A3 A4 A5 A6 A7.
    destruct (HR2 dec Hd C pin inSize M pout cap A1 A2 A3 A4 A5 A6 A7) as (M' & E1 & E2 & E3).
    exists M'. split; [exact E1|]. split; [|exact E3]. rewrite E2. apply slice_ext. intros k Hk. symmetry. apply Heq. lia.
  Qed.

  Lemma codec_agree : DecodersAgree (comp false false) decs.
  Proof.
    intros In n cap out dec1 dec2 C1 pin1 inSize1 M1 pout1 cap1 C2 pin2 inSize2 M2 pout2 cap2 HIn Hn HC Hd1 Hd2
      A1 A2 A3 A4 A5 A6 A7 B1 B2 B3 B4 B5 B6 B7.
    destruct (codec_ok In n cap out HIn Hn HC) as (body & _ & _ & _ & H).
    destruct (H dec1 Hd1 C1 pin1 inSize1 M1 pout1 cap1 A1 A2 A3 A4 A5 A6 A7) as (N1 & E1 & E2 & _).
    destruct (H dec2 Hd2 C2 pin2 inSize2 M2 pout2 cap2 B1 B2 B3 B4 B5 B6 B7) as (N2 & F1 & F2 & _).
    exists n, N1, N2. split; [exact E1|]. split; [exact F1|]. now rewrite E2, F2.
  Qed.

  Lemma codec_inside dec : decs dec -> StaysInside (comp false false) dec slack.
  Proof.
    intros Hd In n cap out C pin inSize M pout outSize HIn Hn HC A1 A2 A3 A4 A5 A6 A7.
    destruct (codec_ok In n cap out HIn Hn HC) as (body & _ & _ & _ & H).
    destruct (H dec Hd C pin inSize M pout outSize A1 A2 A3 A4 A5 A6 A7) as (N1 & E1 & _ & E3).
    exists n, N1. split; [exact E1|exact E3].
  Qed.
End Codec.

Lemma bounds_193 n : n <= max_in -> rle_compress_bounds n = n + 193.
Proof. intros H. unfold rle_compress_bounds, max_in in *. replace (n >? 2 ^ 30) with false by lia. reflexivity. Qed.

Lemma codec_restored comp decs slack size guard most space : GoodTo comp decs slack size guard most ->
  (forall n, 1 <= n <= most -> guard n <= space n /\ size n <= space n /\ size n < 2 ^ 32) ->
  RestoredUpTo most space (comp false false) decs slack.
Proof.
  intros HG Hb In n cap HIn Hn Hcap. specialize (Hb n Hn). destruct (HG In n cap HIn Hn ltac:(lia)) as (body & HC & H1 & H2 & H3).
  eexists. split; [exact HC|]. rewrite !len_app, !len_le32. split; [lia|]. split; [lia|exact H3].
Qed.
