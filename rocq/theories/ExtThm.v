(** Main results about the extreme multi-byte codecs. *)
From Verif Require Import Base Simd SimdProof Spec LargeSpec ExtModel ExtDec ExtEnc Codec.

Definition xcomp (c : xcfg) (v : simd) : compressor := xcompress c v false false.
Definition xdecs (c : xcfg) : decompressor -> Prop := fun dec => exists d, dec = xdecompress c d.

Lemma app_len_inv {A} (a b c d : list A) : len a = len c -> a ++ b = c ++ d -> a = c /\ b = d.
Proof.
  unfold len. revert c. induction a as [|x a IH]; intros [|y c] Hl H; cbn [length app] in *; try lia.
  - split; [reflexivity|exact H].
  - injection H as -> H. destruct (IH c ltac:(lia) H) as [-> ->]. split; reflexivity.
Qed.

Lemma regok_zero S : okS S -> regok S (repeat 0 (Z.to_nat (rawS S))) (repeat 0 (Z.to_nat S)).
Proof.
  intros H. pose proof (rawS_nonneg S H). apply okS_pos in H. split.
  - unfold len. rewrite repeat_length. lia.
  - intros j Hj. unfold symbyte. rewrite !nth_repeat. reflexivity.
Qed.

Lemma xdecompress_ok c d bytes meaning fsym tb tl In n m :
  cok c -> Ser c (repeat 0 (Z.to_nat (xS c))) bytes meaning fsym -> Term c tb tl ->
  meaning ++ tl = slice In 0 m -> n <= m <= n + xS c -> 1 <= n <= large_in ->
  len (bytes ++ tb) <= n + 2 * xS c + 10 ->
  Restores (xdecompress c d) 128 (le32 n ++ le32 (8 + len (bytes ++ tb)) ++ bytes ++ tb) In n.
Proof.
  intros Hc HSer HT Hmean Hm Hn Hlen C pin inSize M pout cap Hh Hpin Hpin2 Hin Hpout Hpout2 Hcap.
  pose proof Hc as [HS _]. pose proof (okS_pos _ HS) as HS2. unfold large_in in Hn.
  rewrite !len_app, !len_le32 in *. pose proof (len_nonneg bytes). pose proof (len_nonneg tb).
  unfold xdecompress.
  rewrite (rd32_holds C pin n _) by (try exact Hh; lia).
  apply holds_app in Hh. destruct Hh as [_ Hh]. rewrite len_le32 in Hh.
  rewrite (rd32_holds C (pin + 4) (8 + (len bytes + len tb)) _) by (try exact Hh; lia).
  apply holds_app in Hh. destruct Hh as [_ Hh]. rewrite len_le32 in Hh.
  replace ((pin =? 0) || (pout =? 0) || (inSize =? 0) || (cap =? 0)) with false by lia.
  replace ((cap <? n) || (inSize <? 8 + (len bytes + len tb))) with false by lia.
  assert (Htot : len (meaning ++ tl) = m) by (rewrite Hmean; apply len_slice; lia).
  destruct (dec_loop_ok c d C (pin + 8) (repeat 0 (Z.to_nat (rawS (xS c)))) M pout (repeat 0 (Z.to_nat (xS c)))
    bytes meaning fsym tb tl (meaning ++ tl)) as (M' & HL & H1 & H2); try assumption; try lia.
  - now apply regok_zero.
  - reflexivity.
  - replace (pin + 8) with (pin + 4 + 4) by lia. exact Hh.
  - rewrite len_app. lia.
  - rewrite HL. exists M'. split; [reflexivity|]. rewrite Htot in H1, H2. rewrite Hmean in H1. split.
    + replace m with (n + (m - n)) in H1 by lia. rewrite !slice_app in H1 by lia.
      apply app_len_inv in H1; [apply H1|]. rewrite !len_slice by lia. reflexivity.
    + intros x Hx. apply H2. lia.
Qed.

Lemma ext_good_large c v : In c xcodecs ->
  GoodTo (xcompress c v) (xdecs c) 128 (fun n => n + 60) rle_compress_bounds large_in.
Proof.
  intros Hin In n cap HIn Hn Hcap. apply xcodecs_cok in Hin. pose proof Hin as [HS _]. pose proof (okS_pos _ HS) as HS2.
  destruct (xcompress_ok c v In n cap Hin HIn Hn Hcap) as (bytes & meaning & fsym & tb & tl & m & HC & H1 & H2 & H3 & H4 & H5 & H6).
  exists (bytes ++ tb). split; [exact HC|]. split; [exact H6|]. split; [lia|].
  intros dec [d ->]. eapply xdecompress_ok; eauto.
Qed.

Lemma ext_good c v : In c xcodecs -> Good (xcompress c v) (xdecs c) 128 (fun n => n + 60) rle_compress_bounds.
Proof. intros H. now apply large_good, ext_good_large. Qed.

Lemma ext_guarded c v : Guarded (xcompress c v) rle_compress_bounds.
Proof.
  intros inNull outNull In n cap H. unfold xcompress.
  replace (inNull || (n =? 0) || outNull || (cap <? rle_compress_bounds n)) with true; [reflexivity|].
  destruct H as [->|[->|[->|H]]]; cbn [orb Z.eqb].
  - reflexivity.
  - now rewrite orb_true_r.
  - now rewrite !orb_true_r.
  - replace (cap <? rle_compress_bounds n) with true by lia. now rewrite orb_true_r.
Qed.

Lemma ext_sizes n : 1 <= n <= max_in -> n + 60 < 2 ^ 32.
Proof. unfold max_in. lia. Qed.

(** ** Groups of codecs named by the properties *)

(** rle16/32/64_{sym,byte} *)
Definition rleX_codecs : list xcfg :=
  [mkX 2 false false false; mkX 2 true false false; mkX 4 false false false; mkX 4 true false false;
   mkX 8 false false false; mkX 8 true false false].
(** rle16/32/64_{sym,byte}_packed *)
Definition rleX_packed_codecs : list xcfg :=
  [mkX 2 false true false; mkX 2 true true true; mkX 4 false true false; mkX 4 true true true;
   mkX 8 false true false; mkX 8 true true true].
(** rle24/48_{sym,byte}{,_packed} *)
Definition rle24_48_codecs : list xcfg := xvariants 3 ++ xvariants 6.
(** rle128_{sym,byte}{,_packed} *)
Definition rle128_codecs : list xcfg := xvariants 16.

Lemma rleX_in c : In c rleX_codecs -> In c xcodecs.
Proof. unfold rleX_codecs, xcodecs. cbn. intuition. Qed.
Lemma rleX_packed_in c : In c rleX_packed_codecs -> In c xcodecs.
Proof. unfold rleX_packed_codecs, xcodecs. cbn. intuition. Qed.
Lemma rle24_48_in c : In c rle24_48_codecs -> In c xcodecs.
Proof. unfold rle24_48_codecs, xcodecs. cbn. intuition. Qed.
Lemma rle128_in c : In c rle128_codecs -> In c xcodecs.
Proof. unfold rle128_codecs, xcodecs. cbn. intuition. Qed.

Lemma ext_round_trip c v : In c xcodecs -> RoundTrip (xcomp c v) rle_compress_bounds (xdecs c) 128.
Proof.
  intros H. eapply (codec_round_trip (xcompress c v)); [now apply ext_good|]. intros n Hn. rewrite bounds_193 by lia. lia.
Qed.

Lemma c01_rt c v : In c rleX_codecs -> RoundTrip (xcomp c v) rle_compress_bounds (xdecs c) 128.
Proof. intros H. apply ext_round_trip. now apply rleX_in. Qed.
Lemma c02_rt c v : In c rleX_packed_codecs -> RoundTrip (xcomp c v) rle_compress_bounds (xdecs c) 128.
Proof. intros H. apply ext_round_trip. now apply rleX_packed_in. Qed.
Lemma c03_rt c v : In c rle24_48_codecs -> RoundTrip (xcomp c v) rle_compress_bounds (xdecs c) 128.
Proof. intros H. apply ext_round_trip. now apply rle24_48_in. Qed.
Lemma c04_rt c v : In c rle128_codecs -> RoundTrip (xcomp c v) rle_compress_bounds (xdecs c) 128.
Proof. intros H. apply ext_round_trip. now apply rle128_in. Qed.

Lemma ext_bound60 c v : In c xcodecs -> WithinBound (xcomp c v) (fun n => n + 60).
Proof.
  intros H. eapply (codec_within (xcompress c v)); [now apply ext_good|apply ext_guarded|]. intros n Hn. cbv beta. lia.
Qed.

Lemma ext_bound193 c v : In c xcodecs -> WithinBound (xcomp c v) rle_compress_bounds.
Proof.
  intros H. eapply (codec_within (xcompress c v)); [now apply ext_good|apply ext_guarded|]. intros n Hn. rewrite bounds_193 by lia. lia.
Qed.

Lemma ext_header c v : In c xcodecs -> HeaderSizes (xcomp c v).
Proof. intros H. eapply (codec_header (xcompress c v)); [now apply ext_good|apply ext_guarded]. Qed.

Lemma ext_compress_args c v : In c xcodecs -> CompressArgs (xcompress c v) rle_compress_bounds.
Proof. intros H. eapply codec_args; [now apply ext_good|apply ext_guarded]. Qed.

Lemma ext_decompress_args c d : DecompressArgs (xdecompress c d).
Proof.
  intros C pin inSize M pout outSize H. unfold xdecompress.
  destruct ((pin =? 0) || (pout =? 0) || (inSize =? 0) || (outSize =? 0)) eqn:E; [reflexivity|].
  replace ((outSize <? rd32 C pin) || (inSize <? rd32 C (pin + 4))) with true by lia. reflexivity.
Qed.

Lemma ext_truncated c v d : In c xcodecs -> RejectsTruncated (xcomp c v) (xdecompress c d).
Proof.
  intros H. eapply (codec_truncated (xcompress c v)); [now apply ext_good|apply ext_guarded|exact ext_sizes|apply ext_decompress_args].
Qed.

Lemma ext_tail c v : In c xcodecs -> TailHarmless (xcomp c v) rle_compress_bounds (xdecs c) 128.
Proof. intros H. eapply (codec_tail (xcompress c v)); [now apply ext_good|]. intros. lia. Qed.

Lemma ext_agree c v : In c xcodecs -> DecodersAgree (xcomp c v) (xdecs c).
Proof. intros H. eapply (codec_agree (xcompress c v)); [now apply ext_good|apply ext_guarded]. Qed.

Lemma ext_inside c v d : In c xcodecs -> StaysInside (xcomp c v) (xdecompress c d) 128.
Proof. intros H. eapply (codec_inside (xcompress c v)); [now apply ext_good|apply ext_guarded|]. now exists d. Qed.

(** Sizes above 2^30 pass the guard although [rle_compress_bounds] says 0. *)
Lemma ext_oversize c v In n cap : 2 ^ 30 < n -> 0 <= cap -> xcomp c v In n cap <> CRefused.
Proof.
  intros Hn Hcap. unfold xcomp, xcompress. cbn [orb]. unfold rle_compress_bounds.
  replace (n >? 2 ^ 30) with true by lia. replace ((n =? 0) || false || (cap <? 0)) with false by lia.
  destruct (loop _ _) as [[st|]|]; discriminate.
Qed.

(** ** Reads behind the input *)

Definition tail_a : mem := fun _ => 7.
Definition tail_b : mem := fun k => if k <? 2 then 7 else 9.

Lemma ext_oob_read : exists c In1 In2,
  List.In c xcodecs /\ byte_mem In1 /\ byte_mem In2 /\ (forall k, 0 <= k < 2 -> In1 k = In2 k) /\
  forall v, exists o1 o2, xcomp c v In1 2 195 = COk o1 /\ xcomp c v In2 2 195 = COk o2 /\ len o1 <> len o2.
Proof.
  exists (mkX 2 false false false), tail_a, tail_b. split; [cbn; tauto|].
  split; [unfold byte_mem, is_byte, tail_a; lia|].
  split; [intros k; unfold is_byte, tail_b; destruct (k <? 2); lia|].
  split; [intros k Hk; unfold tail_a, tail_b; destruct (k <? 2) eqn:E; lia|].
  intros v. exists [2; 0; 0; 0; 24; 0; 0; 0; 0; 0; 0; 0; 0; 0; 0; 0; 5; 0; 0; 0; 7; 7; 7; 7],
    [2; 0; 0; 0; 22; 0; 0; 0; 0; 0; 0; 0; 0; 0; 0; 0; 3; 0; 0; 0; 7; 7].
  destruct v; (split; [vm_compute; reflexivity|]); (split; [vm_compute; reflexivity|vm_compute; discriminate]).
Qed.

(** ** Hostile streams *)

(** A 28-byte rle16_sym stream that announces 1 output byte and then a run of 600 bytes. *)
Definition hostile : list Z :=
  le32 1 ++ le32 28 ++ [170; 187; 0] ++ le32 298 ++ [1] ++ term_count (mkX 2 false false false) ++ term_range (mkX 2 false false false).

Lemma ext_hostile : exists C M pout outSize,
  byte_mem C /\ outSize = 1 /\
  forall d, exists M', xdecompress (mkX 2 false false false) d C 1000 (len hostile) M pout outSize = DRet 1 M' /\
    M' (pout + outSize + 128 + 300) <> M (pout + outSize + 128 + 300).
Proof.
  exists (store (fun _ => 0) 1000 hostile), (fun _ => 0), 5000, 1. split.
  { intros k. unfold store. destruct ((1000 <=? k) && (k <? 1000 + len hostile)) eqn:E; [|unfold is_byte; lia].
    assert (HF : Forall is_byte hostile) by (unfold hostile, is_byte; repeat constructor; vm_compute; congruence).
    rewrite Forall_forall in HF. apply HF. apply nth_In. unfold len in E. lia. }
  split; [reflexivity|]. intros d.
  assert (HB : match xdecompress (mkX 2 false false false) d (store (fun _ => 0) 1000 hostile) 1000 (len hostile) (fun _ => 0) 5000 1 with
               | DRet r M' => (r =? 1) && negb (M' (5000 + 1 + 128 + 300) =? 0)
               | DDiverge => false
               end = true) by (destruct d; vm_compute; reflexivity).
  destruct (xdecompress (mkX 2 false false false) d (store (fun _ => 0) 1000 hostile) 1000 (len hostile) (fun _ => 0) 5000 1) as [r M'|]; [|discriminate].
  exists M'. split; [f_equal; lia|]. lia.
Qed.

(** ** Concrete runs used by the examples (tests, not proofs) *)

(** Compress, decompress at an odd address, compare; also require that the stream is smaller
    than [maxlen], so that the case is not just a literal copy. *)
Definition rt_test (comp : compressor) (dec : decompressor) (In : mem) (n maxlen : Z) : bool :=
  match comp In n (n + 193) with
  | COk out =>
      match dec (store (fun _ => 0) 1001 out) 1001 (len out) (fun _ => 0) 100003 n with
      | DRet r M' => (r =? n) && eqb_bytes (slice M' 100003 n) (slice In 0 n) && (len out <? maxlen)
      | DDiverge => false
      end
  | _ => false
  end.

(** 40 literals, a run of period [S] from 40 to 150, literals, a second run from 160 to 230. *)
Definition sample (S : Z) : mem :=
  fun k => if k <? 40 then (k * k + 7 * k) mod 251
           else if k <? 150 then 100 + (k - 40) mod S
           else if k <? 160 then (k * k) mod 256
           else if k <? 230 then 200 + (k - 160) mod S
           else (3 * k * k) mod 256.

Definition ext_tests (l : list xcfg) (v : simd) (d : dsimd) : bool :=
  forallb (fun c => rt_test (xcomp c v) (xdecompress c d) (sample (xS c)) 250 200) l.
