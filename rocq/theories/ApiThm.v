(** Streams written on one machine are restored on any other. *)
From Verif Require Import Base Spec Spec2 Simd ExtModel ExtThm Rle8Model Rle8Thm LutModel SlModel SlThm ShModel ShThm LeModel LeThm.
From Verif Require Import PlatModel PlatSpec PlatThm ApiModel.

Lemma rt_decs comp bound (decs decs' : decompressor -> Prop) slack :
  (forall d, decs' d -> decs d) -> RoundTrip comp bound decs slack -> RoundTrip comp bound decs' slack.
Proof.
  intros H R In n cap HIn Hn Hc. destruct (R In n cap HIn Hn Hc) as (out & E & B & L & K). exists out.
  repeat (split; [assumption|]). auto.
Qed.
Lemma rtI_decs exact P comp bound (decs decs' : decompressor -> Prop) slack :
  (forall d, decs' d -> decs d) -> RoundTripI exact P comp bound decs slack -> RoundTripI exact P comp bound decs' slack.
Proof.
  intros H R In n cap HIn Hn HP Hc. destruct (R In n cap HIn Hn HP Hc) as (out & E & B & L & K). exists out.
  repeat (split; [assumption|]). auto.
Qed.

(** The decompressors of all machines. *)
Definition anywhere (dec : machine -> decompressor) : decompressor -> Prop := fun d => exists m, d = dec m.

Lemma ext_anywhere m c : List.In c xcodecs ->
  RoundTrip (ext_compress m c false false) rle_compress_bounds (anywhere (fun m' => ext_decompress m' c)) rle_decompress_additional_size.
Proof. intros Hc. eapply rt_decs; [|apply ext_round_trip; exact Hc]. intros d (m' & ->). eexists. reflexivity. Qed.
Lemma multi_anywhere m pk :
  RoundTrip (multi_compress m pk false false) (multi_space pk) (anywhere (fun m' => rle8_decompress m' pk)) rle_decompress_additional_size.
Proof. eapply rt_decs; [|apply multi_rt]. intros d (m' & ->). eexists. reflexivity. Qed.
Lemma single_anywhere pk :
  RoundTrip (s_compress pk false false) (single_space pk) (anywhere (fun m' => rle8_decompress m' pk)) rle_decompress_additional_size.
Proof. eapply rt_decs; [|apply single_rt]. intros d (m' & ->). eexists. reflexivity. Qed.
Lemma symlut_anywhere m c : List.In c slcodecs ->
  RoundTrip (symlut_compress m c false false) (sl_space c) (anywhere (fun m' => symlut_decompress m' c)) rle_decompress_additional_size.
Proof. intros Hc. eapply rt_decs; [|apply sl_rt; exact Hc]. intros d (m' & ->). eexists. reflexivity. Qed.
Lemma short_anywhere m c : List.In c shcodecs ->
  RoundTrip (short_compress m c false false) sh_space (anywhere (fun m' => short_decompress m' c)) rle_decompress_additional_size.
Proof. intros Hc. unfold short_compress. refine (rt_decs _ _ _ _ _ _ (sh_rt c _ (She_short c (enc_impl (on m (lut_site (shS c)))) Hc))).
  intros d (m' & ->). exists (lut_impl (on m' (Sl_dec (odd_size (shS c))))). reflexivity. Qed.
Lemma low_entropy_anywhere L : L = 255 \/ L = 32 ->
  RoundTripI false Always (le_compress L true false false) le_bounds (anywhere (fun m' => low_entropy_decompress m' L)) 0.
Proof. intros HL. eapply rtI_decs; [|apply le_round_trip_max; exact HL]. intros d (m' & ->). unfold low_entropy_decompress.
  match goal with |- le_decs _ (le_decompress _ ?x) => exists x end. reflexivity. Qed.
