(** The extreme multi-byte codecs and their wire format: the decoders restore every stream of the
    format, the encoders write streams of the format. *)
From Verif Require Import Base LargeSpec Simd SimdProof Spec ExtModel ExtDec ExtEnc Codec ExtThm PktSpec FmtSpec.

Definition wire_of (c : xcfg) : wire := mkW (xS c) (xUnb c) (xPack c).

(** Codecs whose literal length format follows from the variant. *)
Definition fok (c : xcfg) : Prop := cok c /\ xP7 c = xUnb c && xPack c.

Lemma xcodecs_fok c : List.In c xcodecs -> fok c.
Proof.
  intros H. split; [now apply xcodecs_cok|]. unfold xcodecs, xsizes, xvariants in H. cbn [flat_map app] in H.
  repeat (destruct H as [<-|H]; [reflexivity|]). destruct H.
Qed.

Lemma land128 v : 0 <= v < 128 -> Z.land (128 + v) 127 = v /\ Z.land (128 + v) 128 = 128 /\ Z.land v 127 = v /\ Z.land v 128 = 0.
Proof.
  intros H.
  pose proof (forall_range 128 (fun v => (Z.land (128 + v) 127 =? v) && (Z.land (128 + v) 128 =? 128)
     && (Z.land v 127 =? v) && (Z.land v 128 =? 0)) eq_refl v H) as K.
  cbv beta in K. rewrite !andb_true_iff in K. lia.
Qed.

Lemma count_field_dec c C p reg last sym v cf rest :
  cok c -> len sym = xS c -> regok (xS c) reg last -> CountField (wire_of c) last sym v cf ->
  holds C p (cf ++ rest) ->
  exists reg', dec_count c C p reg = (p + len cf, reg', v) /\ regok (xS c) reg' sym /\ 1 <= v < 2 ^ 32.
Proof.
  intros [HS _] Hl Hreg HC H. pose proof (rawS_nonneg _ HS) as Hraw. apply okS_pos in HS. unfold dec_count.
  destruct HC as [HP Hv|HP Hv|HP Hv|HP Hv|HP -> Hv|HP -> Hv]; cbn [wire_of wPacked] in HP; rewrite HP.
  - rewrite <- app_assoc in H. pose proof (holds_slice_load C p (xS c) sym _ Hl ltac:(lia) H) as HR.
    apply holds_app in H. destruct H as [_ H]. rewrite Hl in H. cbn [app holds] in H. destruct H as [H _]. rewrite H.
    replace (v =? 0) with false by lia. eexists. split; [|split; [exact HR|lia]].
    f_equal. f_equal. rewrite len_app, Hl, len_cons, len_nil. lia.
  - rewrite <- app_assoc in H. pose proof (holds_slice_load C p (xS c) sym _ Hl ltac:(lia) H) as HR.
    apply holds_app in H. destruct H as [_ H]. rewrite Hl in H. cbn [app holds] in H. destruct H as [H H2]. rewrite H.
    cbn [Z.eqb]. rewrite (rd32_holds C (p + xS c + 1) v rest) by (try exact H2; lia).
    eexists. split; [|split; [exact HR|lia]]. rewrite len_app, Hl, len_cons, len_le32. f_equal. f_equal. lia.
  - cbn [app holds] in H. destruct H as [H H2]. rewrite H. destruct (land128 v ltac:(lia)) as (_ & _ & B1 & B2).
    rewrite B1, B2. replace (v =? 0) with false by lia. cbn [negb Z.eqb].
    eexists. split; [|split; [eapply holds_slice_load; [exact Hl|lia|exact H2]|lia]].
    f_equal. f_equal. rewrite len_cons, Hl. lia.
  - cbn [app holds] in H. destruct H as [H H2]. rewrite H. change (Z.land 0 127) with 0. change (Z.land 0 128) with 0.
    cbn [negb Z.eqb]. rewrite <- app_assoc in H2. rewrite (rd32_holds C (p + 1) v (sym ++ rest)) by (try exact H2; lia).
    apply holds_app in H2. rewrite len_le32 in H2. destruct H2 as [_ H2].
    eexists. split; [|split; [eapply holds_slice_load; [exact Hl|lia|exact H2]|lia]].
    f_equal. f_equal. rewrite len_cons, len_app, len_le32, Hl. lia.
  - cbn [app holds] in H. destruct H as [H _]. rewrite H. destruct (land128 v ltac:(lia)) as (B1 & B2 & _).
    rewrite B1, B2. replace (v =? 0) with false by lia. cbn [negb Z.eqb]. exists reg. split; [reflexivity|split; [exact Hreg|lia]].
  - cbn [app holds] in H. destruct H as [H H2]. rewrite H. change (Z.land 128 127) with 0. change (Z.land 128 128) with 128.
    cbn [negb Z.eqb]. rewrite (rd32_holds C (p + 1) v rest) by (try exact H2; lia).
    exists reg. split; [|split; [exact Hreg|lia]]. rewrite len_cons, len_le32. f_equal. f_equal. lia.
Qed.

Lemma zero_count_dec c C p reg zc rest :
  cok c -> ZeroCount (wire_of c) zc -> holds C p (zc ++ rest) ->
  exists reg', dec_count c C p reg = (p + len zc, reg', 0).
Proof.
  intros [HS _] HZ H. apply okS_pos in HS. unfold dec_count.
  destruct HZ as [sym HP Hl|HP|sym HP Hl]; cbn [wire_of wPacked wS] in HP, H; try (cbn [wire_of wS] in Hl); rewrite HP.
  - rewrite <- app_assoc in H. apply holds_app in H. destruct H as [_ H]. rewrite Hl in H. cbn [app holds] in H. destruct H as [H H2].
    rewrite H. cbn [Z.eqb]. rewrite (rd32_holds C (p + xS c + 1) 0 rest) by (try exact H2; lia).
    eexists. rewrite len_app, Hl, len_cons, len_le32. f_equal. f_equal. lia.
  - cbn [app holds] in H. destruct H as [H H2]. rewrite H. change (Z.land 128 127) with 0. change (Z.land 128 128) with 128.
    cbn [negb Z.eqb]. rewrite (rd32_holds C (p + 1) 0 rest) by (try exact H2; lia).
    eexists. f_equal. f_equal. rewrite len_cons, len_le32. lia.
  - cbn [app holds] in H. destruct H as [H H2]. rewrite H. change (Z.land 0 127) with 0. change (Z.land 0 128) with 0.
    cbn [negb Z.eqb]. rewrite <- app_assoc in H2. rewrite (rd32_holds C (p + 1) 0 (sym ++ rest)) by (try exact H2; lia).
    eexists. f_equal. f_equal. rewrite len_cons, len_app, len_le32, Hl. lia.
Qed.

Lemma lit_field_dec c C p k lf rest :
  fok c -> LitField (wire_of c) k lf -> holds C p (lf ++ rest) ->
  dec_range c C p = (p + len lf, k + 1, false) /\ 0 <= k.
Proof.
  intros [_ HP7] HL H. unfold dec_range. rewrite HP7. clear HP7.
  destruct HL as [HB Hk|HB Hk|HB Hk|HB Hk]; cbn [wire_of wByte wPacked] in HB; rewrite HB.
  - cbn [app holds] in H. destruct H as [H _]. rewrite H. replace (k + 1 =? 0) with false by lia. split; [reflexivity|lia].
  - cbn [app holds] in H. destruct H as [H H2]. rewrite H. cbn [Z.eqb].
    rewrite (rd32_holds C (p + 1) (k + 1) rest) by (try exact H2; lia). replace (k + 1 =? 0) with false by lia.
    rewrite len_cons, len_le32. split; [f_equal; f_equal; lia|lia].
  - cbn [app holds] in H. destruct H as [H _]. rewrite H. rewrite land1.
    replace ((2 * (k + 1)) mod 2 =? 1) with false by lia. change (len [2 * (k + 1)]) with 1. split; [f_equal; f_equal; lia|lia].
  - rewrite (rd32_holds C p (2 * (k + 1) + 1) rest) by (try exact H; lia).
    unfold le32 in H. cbn [app holds] in H. destruct H as [H _]. rewrite H. rewrite land1.
    replace ((2 * (k + 1) + 1) mod 256 mod 2 =? 1) with true by lia. rewrite len_le32.
    replace ((2 * (k + 1) + 1) / 2) with (k + 1) by lia. replace (k + 1 =? 0) with false by lia. split; [reflexivity|lia].
Qed.

Lemma wRun_nonneg c v : cok c -> 1 <= v -> 0 <= wRun (wire_of c) v.
Proof.
  intros [HS _] Hv. apply okS_pos in HS. unfold wRun, wMin. cbn [wire_of wByte wPacked wS].
  assert (0 <= (if xPack c then 3 else xS c + 4) / xS c) by (apply Z.div_pos; destruct (xPack c); lia).
  destruct (xUnb c); [destruct (xPack c); lia|]. nia.
Qed.

Lemma wRun_decoded c v :
  (if xUnb c then v + xSHORT c - 1 else (v + xSHORT c / xS c - 1) * xS c) = wRun (wire_of c) v.
Proof.
  unfold wRun, wMin, xSHORT. cbn [wire_of wByte wPacked wS].
  replace (xS c + 1 + 1 + 2) with (xS c + 4) by lia. reflexivity.
Qed.

Lemma repetition_periodic sym n : repetition sym n = periodic sym n.
Proof. reflexivity. Qed.

(** The decode loop on any stream of the format. *)
Lemma wire_loop_ok c d C p0 reg0 M0 q0 last bytes data e tl total :
  fok c -> regok (xS c) reg0 last ->
  Packets (wire_of c) last bytes data -> EndMark (wire_of c) e tl -> total = data ++ tl ->
  holds C p0 (bytes ++ e) ->
  0 < p0 -> 0 < q0 -> p0 + len (bytes ++ e) + 128 < 2 ^ 64 -> q0 + len total + 128 < 2 ^ 64 ->
  exists M', loop (dec_step c d C) (p0, q0, reg0, M0) = Some (Some M') /\
    slice M' q0 (len total) = total /\
    (forall x, x < q0 \/ q0 + len total + 96 <= x -> M' x = M0 x).
Proof.
  intros Hf Hreg0 HSer HTerm Htot Hh Hp0 Hq0 HpB HqB. pose proof Hf as [Hc HP7].
  destruct (loop_inv (dec_step c d C)
    (fun '(p, q, reg, M) => exists last bytes data,
       regok (xS c) reg last /\ Packets (wire_of c) last bytes data /\
       holds C p (bytes ++ e) /\ 0 < p /\
       p + len (bytes ++ e) + 128 < 2 ^ 64 /\
       q0 <= q /\ total = slice M q0 (q - q0) ++ data ++ tl /\
       (forall x, x < q0 \/ q0 + len total + 96 <= x -> M x = M0 x))
    (fun '(p, _, _, _) => Z.max 0 (2 ^ 64 - p))
    (fun r => exists M', r = Some M' /\ slice M' q0 (len total) = total /\
       (forall x, x < q0 \/ q0 + len total + 96 <= x -> M' x = M0 x))
    (p0, q0, reg0, M0)) as (r & HL & M' & -> & H1 & H2).
  - clear reg0 Hreg0 last bytes data HSer Hh HpB Htot.
    intros [[[p q] reg] M] (last & bytes & data & Hreg & HSer & Hh & Hp & HpB & Hq & Htot & Hout).
    assert (Hlt : len total = (q - q0) + len data + len tl).
    { rewrite Htot at 1. rewrite !len_app, len_slice by lia. lia. }
    pose proof (len_nonneg data). pose proof (len_nonneg tl).
    unfold dec_step. destruct HSer as [last|last sym v cf lf lits bytes data Hlen Hcf Hlf HSer].
    + (* end marker *)
      cbn [app] in *.
      assert (Hfin : tl = [] -> slice M q0 (len total) = total).
      { intros ->. rewrite Htot at 2. rewrite !app_nil_r. rewrite !len_nil in Hlt. f_equal. lia. }
      destruct HTerm as [zc lf tl Hzc Hlf|zc Hzc HB|zc Hzc HB|zc Hzc HB H16];
        destruct (zero_count_dec c C p reg zc _ Hc Hzc Hh) as (reg' & ->);
        apply holds_app in Hh; destruct Hh as [_ Hh]; rewrite len_app in HpB; pose proof (len_nonneg zc).
      * destruct (lit_field_dec c C _ (len tl) lf tl Hf Hlf Hh) as [-> _].
        rewrite len_app in HpB. pose proof (len_nonneg lf).
        apply holds_app in Hh. destruct Hh as [_ Hh].
        rewrite len_nil in Hlt.
        destruct (copy_lits d C (p + len zc + len lf) M q tl []) as (M4 & HM4 & Hs4 & Hout4); try lia.
        { rewrite app_nil_r. exact Hh. }
        rewrite HM4. cbn [Z.eqb]. exists M4. split; [reflexivity|]. split.
        -- rewrite Htot at 2. replace (len total) with ((q - q0) + len tl) by lia. rewrite slice_app by lia.
           f_equal.
           ++ apply slice_ext. intros k Hk. apply Hout4. lia.
           ++ replace (q0 + (q - q0)) with q by lia. exact Hs4.
        -- intros x Hx. rewrite Hout4; [apply Hout; lia|]. lia.
      * cbn [wire_of wByte wPacked] in HB. unfold dec_range. rewrite HP7, HB.
        cbn [holds] in Hh. destruct Hh as [Hh Hh2]. rewrite Hh. cbn [Z.eqb].
        rewrite (rd32_holds C _ 0 []) by (try (rewrite app_nil_r; exact Hh2); lia).
        cbn [Z.eqb]. exists M. split; [reflexivity|]. split; [now apply Hfin|exact Hout].
      * cbn [wire_of wByte wPacked] in HB. unfold dec_range. rewrite HP7, HB.
        rewrite (rd32_holds C _ 1 []) by (try (rewrite app_nil_r; exact Hh); lia).
        unfold le32 in Hh. cbn [app holds] in Hh. destruct Hh as [Hh _]. rewrite Hh.
        change (Z.land (1 mod 256) 1 =? 1) with true. cbn iota. change (1 / 2 =? 0) with true. cbn iota.
        exists M. split; [reflexivity|]. split; [now apply Hfin|exact Hout].
      * cbn [wire_of wByte wPacked] in HB. unfold dec_range. rewrite HP7, HB.
        cbn [holds] in Hh. destruct Hh as [Hh _]. rewrite Hh. change (Z.land 0 1 =? 1) with false. cbn iota.
        change (0 / 2) with 0. rewrite len_cons in HpB. pose proof (len_nonneg (le32 0)). rewrite len_nil in *.
        destruct (memcpyW_wrap (dcopyW d) C (p + len zc + 1) M q) as (M4 & HM4 & Hout4); try lia.
        { apply dcopyW_pos. }
        rewrite HM4. cbn [Z.eqb]. exists M4. split; [reflexivity|]. split.
        -- rewrite <- (Hfin eq_refl) at 2. apply slice_ext. intros k Hk. apply Hout4. lia.
        -- intros x Hx. rewrite Hout4; [apply Hout; lia|]. destruct (dcopyW_pos d); lia.
    + (* packet *)
      cbn [wire_of wS] in Hlen. rewrite <- !app_assoc in Hh.
      destruct (count_field_dec c C p reg last sym v cf _ Hc Hlen Hreg Hcf Hh) as (reg' & -> & Hreg' & Hv).
      rewrite <- !app_assoc in HpB. rewrite len_app in HpB. pose proof (len_nonneg cf).
      assert (1 <= len cf).
      { pose proof (proj1 Hc) as HS. apply okS_pos in HS.
        pose proof (len_nonneg sym). pose proof (len_nonneg (le32 v)).
        destruct Hcf; rewrite ?len_app, ?len_cons, ?len_app, ?len_nil; lia. }
      apply holds_app in Hh. destruct Hh as [_ Hh].
      destruct (lit_field_dec c C _ (len lits) lf _ Hf Hlf Hh) as [-> _].
      rewrite len_app in HpB. pose proof (len_nonneg lf).
      apply holds_app in Hh. destruct Hh as [_ Hh].
      rewrite (len_app lits (bytes ++ e)) in HpB.
      pose proof (len_nonneg lits). pose proof (len_nonneg (bytes ++ e)).
      pose proof (wRun_nonneg c v Hc ltac:(lia)) as Hcp.
      pose proof (len_periodic sym _ Hcp) as Hlper.
      rewrite repetition_periodic in *.
      rewrite !len_app, Hlper in Hlt. pose proof (len_nonneg data).
      destruct (copy_lits d C (p + len cf + len lf) M q lits (bytes ++ e)) as (M4 & HM4 & Hs4 & Hout4); try lia.
      { exact Hh. }
      rewrite HM4. replace (v =? 0) with false by lia.
      rewrite wRun_decoded.
      destruct (dfill_spec (xS c) d reg' M4 (q + len lits) (wRun (wire_of c) v)) as (M5 & HM5 & Hin5 & Hout5); try lia.
      { apply Hc. } { apply Hreg'. }
      rewrite HM5. set (count := wRun (wire_of c) v) in *.
      split; [|lia].
      exists sym, bytes, data. split; [exact Hreg'|]. split; [exact HSer|].
      apply holds_app in Hh. split; [apply Hh|]. split; [lia|]. split; [lia|]. split; [lia|]. split.
      * rewrite Htot at 1. rewrite <- !app_assoc.
        replace (q + len lits + count - q0) with ((q - q0) + (len lits + count)) by lia.
        rewrite slice_app by lia. rewrite (slice_app _ (q0 + (q - q0))) by lia.
        rewrite <- !app_assoc. f_equal.
        { apply slice_ext. intros k Hk. rewrite Hout5 by lia. rewrite Hout4 by lia. reflexivity. }
        replace (q0 + (q - q0)) with q by lia. f_equal.
        { rewrite <- Hs4 at 1. apply slice_ext. intros k Hk. rewrite Hout5 by lia. reflexivity. }
        f_equal. unfold periodic. apply slice_map_shift. intros k Hk. rewrite Hin5 by lia.
        replace (q + len lits + k - (q + len lits)) with k by lia. rewrite Hlen, Z.add_0_l.
        destruct Hreg' as [_ Hr2]. destruct Hc as [HS _]. apply okS_pos in HS. symmetry. apply Hr2. apply Z.mod_pos_bound. lia.
      * intros x Hx. rewrite Hout5 by lia. rewrite Hout4 by lia. apply Hout. lia.
  - exists last, bytes, data. split; [exact Hreg0|]. split; [exact HSer|]. split; [exact Hh|]. split; [lia|].
    split; [lia|]. split; [lia|]. split; [|reflexivity].
    replace (q0 - q0) with 0 by lia. rewrite slice_0 by lia. exact Htot.
  - lia.
  - exists M'. split; [exact HL|]. split; [exact H1|exact H2].
Qed.

Lemma wire_restores c d n out data : fok c -> WireStream (wire_of c) n out data ->
  RestoresData (xdecompress c d) 96 n out data.
Proof.
  intros Hf (ps & e & d1 & d2 & HP & HE & Hd & Hn & Hnd & Hlen & Ho).
  intros C pin inSize M pout cap Hh Hpin Hpin2 Hin Hpout Hpout2 Hcap. pose proof Hf as [Hc _]. pose proof (proj1 Hc) as HS.
  rewrite Ho in Hh, Hpin2, Hin. clear Ho out.
  rewrite !len_app, !len_le32 in *. pose proof (len_nonneg ps). pose proof (len_nonneg e).
  unfold xdecompress.
  rewrite (rd32_holds C pin n _) by (try exact Hh; lia).
  apply holds_app in Hh. destruct Hh as [_ Hh]. rewrite len_le32 in Hh.
  rewrite (rd32_holds C (pin + 4) (8 + (len ps + len e)) _) by (try exact Hh; lia).
  apply holds_app in Hh. destruct Hh as [_ Hh]. rewrite len_le32 in Hh.
  replace ((pin =? 0) || (pout =? 0) || (inSize =? 0) || (cap =? 0)) with false by lia.
  replace ((cap <? n) || (inSize <? 8 + (len ps + len e))) with false by lia.
  destruct (wire_loop_ok c d C (pin + 8) (repeat 0 (Z.to_nat (rawS (xS c)))) M pout (repeat 0 (Z.to_nat (xS c)))
    ps d1 e d2 data) as (M' & HL & H1 & H2); try assumption; try lia.
  - now apply regok_zero.
  - replace (pin + 8) with (pin + 4 + 4) by lia. exact Hh.
  - rewrite len_app. lia.
  - rewrite HL. exists M'. split; [reflexivity|]. split; assumption.
Qed.

Lemma wire_restores_in c d n out data : List.In c xcodecs -> WireStream (wire_of c) n out data ->
  RestoresData (xdecompress c d) 96 n out data.
Proof. intros H. apply wire_restores. now apply xcodecs_fok. Qed.

(** *** The encoders *)

Lemma ser_packets c last bytes data fsym : cok c -> xP7 c = xUnb c && xPack c ->
  Ser c last bytes data fsym -> Packets (wire_of c) last bytes data.
Proof.
  intros Hc HP7 H. induction H as [last|last sym count lits rf bytes data fsym Hcnt Hlen Hrf HS IH]; [constructor|].
  pose proof (stored_ok c count Hc Hcnt) as [Hst Hdec].
  assert (Hw : wRun (wire_of c) (stored_count c count) = count) by (rewrite <- wRun_decoded; exact Hdec).
  rewrite <- Hw at 2. rewrite <- repetition_periodic. apply (Pk_cons _ last sym (stored_count c count)); [exact Hlen| | |exact IH].
  - unfold emit_count. set (sc := stored_count c count) in *. destruct (xPack c) eqn:EP.
    + destruct (eqb_bytes sym last) eqn:Es.
      * apply eqb_bytes_eq in Es. rewrite app_nil_r. destruct (sc <=? 127) eqn:E.
        -- rewrite w8_id by lia. replace (Z.lor sc 128) with (128 + sc).
           ++ apply CF_same_short; [exact EP|exact Es|lia].
           ++ pose proof (forall_range 128 (fun sc => 128 + sc =? Z.lor sc 128) eq_refl sc ltac:(lia)) as K. cbv beta in K. lia.
        -- apply CF_same_long; [exact EP|exact Es|lia].
      * destruct (sc <=? 127) eqn:E.
        -- rewrite w8_id by lia. rewrite Z.lor_0_r. apply CF_short; [exact EP|lia].
        -- apply CF_long; [exact EP|lia].
    + destruct (sc <=? 255) eqn:E.
      * rewrite w8_id by lia. apply CF_plain_short; [exact EP|lia].
      * apply CF_plain_long; [exact EP|lia].
  - destruct Hrf as [[-> Hr]|[-> Hr]].
    + unfold emit_range_short, xMAXR in *. destruct (xP7 c) eqn:E7.
      * rewrite w8_id by lia. replace ((len lits + 1) * 2) with (2 * (len lits + 1)) by lia.
        apply LF_short7; [symmetry; exact HP7|lia].
      * rewrite w8_id by lia. apply LF_short; [symmetry; exact HP7|lia].
    + unfold emit_range_long. destruct (xP7 c) eqn:E7.
      * rewrite lor1 by lia. apply LF_long7; [symmetry; exact HP7|lia].
      * apply LF_long; [symmetry; exact HP7|lia].
Qed.

Lemma zero_count_term c : cok c -> ZeroCount (wire_of c) (term_count c).
Proof.
  intros [HS _]. apply okS_pos in HS. unfold term_count. destruct (xPack c) eqn:EP; [now apply ZC_same|].
  apply ZC_plain; [exact EP|]. cbn [wire_of wS]. unfold len. rewrite repeat_length. lia.
Qed.

Lemma term_endmark c tb tl : cok c -> xP7 c = xUnb c && xPack c -> Term c tb tl -> EndMark (wire_of c) tb tl.
Proof.
  intros Hc HP7 [|lits rf Hrf].
  - unfold term_range. destruct (xP7 c) eqn:E7; cbn [andb].
    + destruct (xS c =? 16) eqn:E16; cbn [negb].
      * apply End_none128; [now apply zero_count_term|symmetry; exact HP7|cbn [wire_of wS]; lia].
      * apply End_none7; [now apply zero_count_term|symmetry; exact HP7].
    + apply End_none; [now apply zero_count_term|symmetry; exact HP7].
  - apply End_lits; [now apply zero_count_term|]. pose proof (len_nonneg lits).
    destruct Hrf as [[-> Hr]|[-> Hr]].
    + unfold emit_range_short, xMAXR in *. destruct (xP7 c) eqn:E7.
      * rewrite w8_id by lia. replace ((len lits + 1) * 2) with (2 * (len lits + 1)) by lia.
        apply LF_short7; [symmetry; exact HP7|lia].
      * rewrite w8_id by lia. apply LF_short; [symmetry; exact HP7|lia].
    + unfold emit_range_long. destruct (xP7 c) eqn:E7.
      * rewrite lor1 by lia. apply LF_long7; [symmetry; exact HP7|lia].
      * apply LF_long; [symmetry; exact HP7|lia].
Qed.

Lemma wire_encodes c v In n cap out : List.In c xcodecs -> byte_mem In -> 1 <= n <= max_in ->
  xcomp c v In n cap = COk out ->
  exists m, n <= m <= n + xS c /\ WireStream (wire_of c) n out (slice In 0 m).
Proof.
  intros Hin HIn Hn HC. pose proof (xcodecs_fok c Hin) as [Hc HP7]. pose proof (okS_pos _ (proj1 Hc)) as HS.
  pose proof (max_large1 n Hn) as Hn'. unfold max_in in Hn.
  destruct (Z.lt_ge_cases cap (rle_compress_bounds n)) as [Hcap|Hcap].
  { unfold xcomp in HC. rewrite (ext_guarded c v false false In n cap) in HC by (right; right; right; exact Hcap). discriminate. }
  destruct (xcompress_ok c v In n cap Hc HIn Hn' Hcap) as (bytes & data & fsym & tb & tl & m & HC2 & H1 & H2 & H3 & H4 & H5 & H6).
  unfold xcomp in HC. rewrite HC2 in HC. injection HC as <-.
  exists m. split; [exact H4|]. exists bytes, tb, data, tl.
  split; [exact (ser_packets c _ bytes data fsym Hc HP7 H1)|]. split; [now apply term_endmark|]. split; [symmetry; exact H3|].
  split; [lia|]. split; [rewrite len_slice; lia|]. split; [lia|reflexivity].
Qed.

(** *** Streams of one run *)

Lemma run_stream_ok c sym n : fok c -> xUnb c = true -> len sym = xS c ->
  (if xPack c then 3 else xS c + 4) <= n < 2 ^ 32 ->
  WireStream (wire_of c) n (run_stream (xS c) (xPack c) sym n) (repetition sym n).
Proof.
  intros [Hc HP7] HU Hl Hn. pose proof (okS_pos _ (proj1 Hc)) as HS.
  assert (HR : len (repeat 0 (Z.to_nat (xS c))) = xS c) by (unfold len; rewrite repeat_length; lia).
  assert (Hrep : len (repetition sym n) = n) by (apply len_slice; destruct (xPack c); lia).
  unfold run_stream. destruct (xPack c) eqn:EP.
  - exists ((0 :: le32 (n - 2) ++ sym) ++ [2] ++ [] ++ []), ((128 :: le32 0) ++ le32 1), ([] ++ repetition sym n ++ []), [].
    split; [|split; [|split; [|split; [lia|split; [rewrite Hrep; lia|]]]]].
    + replace n with (wRun (wire_of c) (n - 2)) at 2
        by (unfold wRun, wMin; cbn [wire_of wByte wPacked]; rewrite HU, EP; lia).
      apply Pk_cons; [exact Hl|apply CF_long; [exact EP|lia]| |apply Pk_nil].
      change [2] with [2 * (len (@nil Z) + 1)]. apply LF_short7; [cbn [wire_of wByte wPacked]; now rewrite HU, EP|cbn; lia].
    + apply End_none7; [now apply ZC_same|cbn [wire_of wByte wPacked]; now rewrite HU, EP].
    + now rewrite !app_nil_r.
    + split.
      * rewrite !len_app, !len_cons, !len_app, !len_le32, !len_nil. lia.
      * rewrite ?app_nil_r. cbn [app]. repeat rewrite <- ?app_assoc. cbn [app]. repeat rewrite <- ?app_assoc. reflexivity.
  - exists ((sym ++ 0 :: le32 (n - xS c - 3)) ++ [1] ++ [] ++ []), ((repeat 0 (Z.to_nat (xS c)) ++ 0 :: le32 0) ++ 0 :: le32 0), ([] ++ repetition sym n ++ []), [].
    split; [|split; [|split; [|split; [lia|split; [rewrite Hrep; lia|]]]]].
    + replace n with (wRun (wire_of c) (n - xS c - 3)) at 2
        by (unfold wRun, wMin; cbn [wire_of wByte wPacked wS]; rewrite HU, EP; lia).
      apply Pk_cons; [exact Hl|apply CF_plain_long; [exact EP|lia]| |apply Pk_nil].
      change [1] with [len (@nil Z) + 1]. apply LF_short; [cbn [wire_of wByte wPacked]; now rewrite HU, EP|cbn; lia].
    + apply End_none; [|cbn [wire_of wByte wPacked]; now rewrite HU, EP]. apply ZC_plain; [exact EP|exact HR].
    + now rewrite !app_nil_r.
    + split.
      * rewrite !len_app, !len_cons, !len_le32, !len_nil. lia.
      * rewrite ?app_nil_r. repeat (rewrite <- app_assoc; cbn [app]). reflexivity.
Qed.

Lemma run_restores c d sym n : List.In c xcodecs -> xUnb c = true -> len sym = xS c ->
  (if xPack c then 3 else xS c + 4) <= n < 2 ^ 32 ->
  RestoresData (xdecompress c d) 96 n (run_stream (xS c) (xPack c) sym n) (repetition sym n).
Proof.
  intros Hin HU Hl Hn. apply xcodecs_fok in Hin. apply wire_restores; [exact Hin|]. now apply run_stream_ok.
Qed.

Lemma repetition_nth sym n k : 0 <= k < n -> nth (Z.to_nat k) (repetition sym n) 0 = nth (Z.to_nat (k mod len sym)) sym 0.
Proof. intros H. unfold repetition. rewrite nth_slice by lia. reflexivity. Qed.

Lemma run_bytes c d sym n C pin inSize M pout cap : List.In c xcodecs -> xUnb c = true -> len sym = xS c ->
  (if xPack c then 3 else xS c + 4) <= n < 2 ^ 32 ->
  holds C pin (run_stream (xS c) (xPack c) sym n) -> 0 < pin -> pin + 2048 < 2 ^ 64 -> 256 <= inSize ->
  0 < pout -> pout + n + 1024 < 2 ^ 64 -> n <= cap ->
  exists M', xdecompress c d C pin inSize M pout cap = DRet n M' /\
    (forall k, 0 <= k < n -> M' (pout + k) = nth (Z.to_nat (k mod xS c)) sym 0) /\
    (forall x, x < pout \/ pout + n + 96 <= x -> M' x = M x).
Proof.
  intros Hin HU Hl Hn Hh Hpin Hpin2 Hsz Hpout Hpout2 Hcap.
  pose proof (okS_pos _ (proj1 (xcodecs_cok c Hin))) as HS.
  assert (HR : len (repeat 0 (Z.to_nat (xS c))) = xS c) by (unfold len; rewrite repeat_length; lia).
  assert (Hrep : len (repetition sym n) = n) by (apply len_slice; destruct (xPack c); lia).
  assert (Hout : len (run_stream (xS c) (xPack c) sym n) <= 256).
  { unfold run_stream. destruct (xPack c).
    - rewrite !len_app, !len_le32, !len_cons, !len_app, !len_cons, !len_app, !len_le32, !len_nil. lia.
    - rewrite !len_app, !len_le32, !len_cons, !len_app, !len_cons, !len_app, !len_cons, !len_le32, !len_nil. lia. }
  destruct (run_restores c d sym n Hin HU Hl Hn C pin inSize M pout cap) as (M' & H1 & H2 & H3); try assumption; try lia.
  exists M'. split; [exact H1|]. rewrite Hrep in H2, H3. split; [|exact H3].
  intros k Hk. rewrite <- Hl. rewrite <- (repetition_nth sym n k Hk). rewrite <- H2. rewrite nth_slice by lia. reflexivity.
Qed.
