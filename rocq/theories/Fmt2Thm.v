(** The 8 bit codecs, the symlut codecs and the short codecs and their wire formats: the decoders
    restore every stream of the format, the encoders write streams of the format. *)
From Verif Require Import Base LargeSpec Simd SimdProof Spec PktSpec Fmt8Spec LutSpec ExtModel ExtDec ExtEnc PktModel PktDec PktEnc Codec
  Rle8Model Rle8Proof Rle8Single Rle8Thm MbModel MbEnc LutModel LutProof SlModel SlProof SlThm ShModel ShProof ShEnc ShThm.

(** *** Decoders *)

Lemma body_dec {D T A} (parse : D -> mem -> Z -> T -> pres T) (fill : D -> T -> mem -> Z -> Z -> option (Z * mem)) (W : D -> Z) (R : T -> A -> Prop)
    (P : A -> list Z -> list Z -> list Z -> A -> Prop) (E : A -> list Z -> list Z -> Prop) d C p reg M q a body data :
  (forall d, 0 < W d <= 64) ->
  (forall a h lits run a', P a h lits run a' -> Pkt parse fill R a h lits run a') -> (forall a e lits, E a e lits -> GTerm parse R a e lits) ->
  Body P E a body data -> R reg a -> holds C p body -> 0 < p -> 0 < q -> p + len body + 128 < 2 ^ 64 -> q + len data + 128 < 2 ^ 64 ->
  exists M', loop (pkt_step (parse d) (fill d) (W d) C) (p, q, reg, M) = Some (Some M') /\
    slice M' q (len data) = data /\ (forall x, x < q \/ q + len data + 96 <= x -> M' x = M x).
Proof.
  intros HW HP HE (bytes & d1 & a1 & e & d2 & HS & HT & -> & ->) HR Hh Hp Hq Hp2 Hq2.
  apply (gdec_loop_ok parse fill W R HW d C p reg M q a bytes d1 a1 e d2 (d1 ++ d2)); try assumption; try reflexivity; [|now apply HE].
  clear - HS HP. induction HS; [constructor|]. econstructor; eauto.
Qed.

Lemma m8_accepts pk d n out data : M8Stream pk n out data -> RestoresData (r8_decompress pk d) 96 n out data.
Proof.
  intros (body & -> & Hn & Hd & Hlen & HB) C pin inSize M pout cap Hh Hpin Hpin2 Hin Hpout Hpout2 Hcap.
  rewrite !len_app, !len_le32 in *. change (len [0]) with 1 in *. pose proof (len_nonneg body).
  unfold r8_decompress.
  rewrite (rd32_holds C pin n _) by (try exact Hh; lia).
  apply holds_app in Hh. destruct Hh as [_ Hh]. rewrite len_le32 in Hh.
  rewrite (rd32_holds C (pin + 4) (9 + len body) _) by (try exact Hh; lia).
  apply holds_app in Hh. destruct Hh as [_ Hh]. rewrite len_le32 in Hh.
  cbn [app holds] in Hh. destruct Hh as [Hmode Hh].
  replace (pin + 4 + 4) with (pin + 8) in * by lia. rewrite Hmode.
  replace ((pin =? 0) || (pout =? 0) || (inSize =? 0) || (cap =? 0)) with false by lia.
  replace ((cap <? n) || (inSize <? 9 + len body)) with false by lia. cbn [Z.eqb].
  replace (pin + 8 + 1) with (pin + 9) in Hh by lia.
  destruct (body_dec (fun _ : d8 => m_parse pk) (m_fill pk) d8W eq _ _ d C (pin + 9) 0 M pout 0 body data d8W_ok (M8Packet_pkt pk) (M8End_term pk) HB)
    as (M' & HL & H1 & H2); try assumption; try lia; try reflexivity.
  rewrite HL. exists M'. split; [reflexivity|]. split; assumption.
Qed.

Lemma s8_accepts pk d n out data : S8Stream pk n out data -> RestoresData (r8_decompress pk d) 96 n out data.
Proof.
  intros (sym & body & -> & Hn & Hd & Hlen & Hsym & HB) C pin inSize M pout cap Hh Hpin Hpin2 Hin Hpout Hpout2 Hcap.
  rewrite !len_app, !len_le32 in *. change (len [1; sym]) with 2 in *. pose proof (len_nonneg body).
  unfold r8_decompress.
  rewrite (rd32_holds C pin n _) by (try exact Hh; lia).
  apply holds_app in Hh. destruct Hh as [_ Hh]. rewrite len_le32 in Hh.
  rewrite (rd32_holds C (pin + 4) (10 + len body) _) by (try exact Hh; lia).
  apply holds_app in Hh. destruct Hh as [_ Hh]. rewrite len_le32 in Hh.
  cbn [app holds] in Hh. destruct Hh as (Hmode & Hs & Hh).
  replace (pin + 4 + 4) with (pin + 8) in * by lia. rewrite Hmode.
  replace (pin + 8 + 1) with (pin + 9) in * by lia. rewrite Hs.
  replace ((pin =? 0) || (pout =? 0) || (inSize =? 0) || (cap =? 0)) with false by lia.
  replace ((cap <? n) || (inSize <? 10 + len body)) with false by lia. cbn [Z.eqb].
  replace (pin + 9 + 1) with (pin + 10) in Hh by lia.
  destruct (body_dec (fun _ : d8 => s_parse) (s_fill pk) d8W (SR sym) _ _ d C (pin + 10) sym M pout tt body data d8W_ok (S8Packet_pkt pk sym) (S8End_term sym) HB)
    as (M' & HL & H1 & H2); try assumption; try lia; try reflexivity.
  rewrite HL. exists M'. split; [reflexivity|]. split; assumption.
Qed.

Lemma lut_accepts c l n out data : List.In c slcodecs -> LutStream (slw c) n out data -> RestoresData (sl_decompress c l) 96 n out data.
Proof.
  intros Hc (body & -> & Hn & Hd & Hlen & HB) C pin inSize M pout cap Hh Hpin Hpin2 Hin Hpout Hpout2 Hcap. apply slcodecs_ok in Hc.
  rewrite !len_app, !len_le32 in *. pose proof (len_nonneg body). cbn [lwS lwSC slw] in HB. rewrite first_table_init in HB.
  unfold sl_decompress.
  rewrite (rd32_holds C pin n _) by (try exact Hh; lia).
  apply holds_app in Hh. destruct Hh as [_ Hh]. rewrite len_le32 in Hh.
  rewrite (rd32_holds C (pin + 4) (8 + len body) _) by (try exact Hh; lia).
  apply holds_app in Hh. destruct Hh as [_ Hh]. rewrite len_le32 in Hh.
  replace ((pin =? 0) || (pout =? 0) || (inSize =? 0) || (cap =? 0)) with false by lia.
  replace ((cap <? n) || (inSize <? 8 + len body)) with false by lia.
  replace (pin + 4 + 4) with (pin + 8) in Hh by lia.
  destruct (body_dec (sl_parse c) (sl_fill c) (lvl_copyW (slS c)) (Rlut (slS c) (slSC c)) _ _ l C (pin + 8) (reg_init (slS c) (slSC c)) M pout _ body data
    (lvl_copyW_ok (slS c)) (fun a h lits run a' H => LutPacket_pkt c a h lits run a' Hc H) (fun a e lits H => LutEnd_term c a e lits Hc H) HB)
    as (M' & HL & H1 & H2); try assumption; try lia.
  - destruct Hc as (HS1 & _ & HSC). pose proof (okS1_pos _ HS1). apply lut_init_ok; lia.
  - rewrite HL. exists M'. split; [reflexivity|]. split; assumption.
Qed.

Lemma short_accepts c l n out data : List.In c shcodecs -> ShortStream (shw c) n out data -> RestoresData (sh_decompress c l) 96 n out data.
Proof.
  intros Hc (sym0 & body & HB) C pin inSize M pout cap Hh Hpin Hpin2 Hin Hpout Hpout2 Hcap. apply shcodecs_ok in Hc. cbv zeta in HB.
  cbn [swOne swS swSC shw] in HB. set (inner := if shOne c then sym0 :: body else body) in *. destruct HB as (-> & Hn & Hd & Hlen & Hsym & HB).
  rewrite !len_app, !len_le32 in *. pose proof (len_nonneg inner). rewrite first_table_init in HB.
  unfold sh_decompress.
  rewrite (rd32_holds C pin n _) by (try exact Hh; lia).
  apply holds_app in Hh. destruct Hh as [_ Hh]. rewrite len_le32 in Hh.
  rewrite (rd32_holds C (pin + 4) (8 + len inner) _) by (try exact Hh; lia).
  apply holds_app in Hh. destruct Hh as [_ Hh]. rewrite len_le32 in Hh.
  replace ((pin =? 0) || (pout =? 0) || (inSize =? 0) || (cap =? 0)) with false by lia.
  replace ((cap <? n) || (inSize <? 8 + len inner)) with false by lia. cbv zeta.
  replace (pin + 4 + 4) with (pin + 8) in Hh by lia.
  assert (HD : forall p reg, Rsh c sym0 reg (lut_init (shS c) (shSC c)) -> holds C p body -> 0 < p -> p + len body + 128 < 2 ^ 64 ->
    exists M', loop (pkt_step (sh_parse c l) (sh_fill c l) (lvl_copyW (shS c) l) C) (p, pout, reg, M) = Some (Some M') /\
      slice M' pout (len data) = data /\ (forall x, x < pout \/ pout + len data + 96 <= x -> M' x = M x)).
  { intros p reg HR Hp1 Hp2 Hp3.
    apply (body_dec (sh_parse c) (sh_fill c) (lvl_copyW (shS c)) (Rsh c sym0) _ _ l C p reg M pout _ body data
      (lvl_copyW_ok (shS c)) (fun a h lits run a' H => ShortPacket_pkt c sym0 a h lits run a' Hc H) (fun a e lits H => ShortEnd_term c sym0 a e lits Hc H) HB);
      try assumption; lia. }
  unfold Rsh in HD. subst inner. destruct (shOne c) eqn:Ho.
  - cbn [holds] in Hh. destruct Hh as [Hh1 Hh]. rewrite Hh1. rewrite len_cons in *. replace (pin + 8 + 1) with (pin + 9) in Hh by lia.
    destruct (HD (pin + 9) [[sym0]] eq_refl Hh ltac:(lia) ltac:(lia)) as (M' & HL & H1 & H2). rewrite HL. exists M'. split; [reflexivity|]. split; assumption.
  - destruct (HD (pin + 8) (reg_init (shS c) (shSC c))) as (M' & HL & H1 & H2); try assumption; try lia.
    + destruct Hc as (HS1 & _ & HSC & _). pose proof (okS1_pos _ HS1). apply lut_init_ok; lia.
    + rewrite HL. exists M'. split; [reflexivity|]. split; assumption.
Qed.

(** *** Encoders *)

Lemma m8_encodes pk avx2 In n cap out : byte_mem In -> 1 <= n <= max_in -> m_compress pk avx2 false false In n cap = COk out ->
  M8Stream pk n out (slice In 0 n).
Proof.
  intros HIn Hn HC. destruct (Z.lt_ge_cases cap (rle_compress_bounds n)) as [Hcap|Hcap].
  { rewrite (multi_guarded pk avx2 false false In n cap) in HC by (right; right; right; exact Hcap). discriminate. }
  destruct (m_compress_ok pk avx2 In n cap HIn (max_large1 n Hn) Hcap) as (body & HC2 & HS & Hlen). rewrite HC2 in HC. injection HC as <-.
  destruct (StreamP_body _ _ _ _ _ _ _ HS) as (m & Hm & HB). replace m with n in HB by lia. exists body.
  unfold mbound, max_in in *. pose proof (len_nonneg body). split; [reflexivity|]. split; [lia|]. split; [rewrite len_slice; lia|]. split; [destruct pk; lia|exact HB].
Qed.

Lemma s8_encodes pk In n cap out : byte_mem In -> 1 <= n <= max_in -> s_compress pk false false In n cap = COk out ->
  S8Stream pk n out (slice In 0 n).
Proof.
  intros HIn Hn HC. destruct (Z.lt_ge_cases cap (rle_compress_bounds n)) as [Hcap|Hcap].
  { rewrite (single_guarded pk false false In n cap) in HC by (right; right; right; exact Hcap). discriminate. }
  destruct (s_compress_ok pk In n cap HIn (max_large1 n Hn) Hcap) as (sym & body & HC2 & Hsym & HS & Hlen). rewrite HC2 in HC. injection HC as <-.
  destruct (StreamP_body _ _ _ _ _ _ _ HS) as (m & Hm & HB). replace m with n in HB by lia. exists sym, body.
  unfold sbound, max_in in *. pose proof (len_nonneg body). split; [reflexivity|]. split; [lia|]. split; [rewrite len_slice; lia|]. split; [destruct pk; lia|]. split; assumption.
Qed.

Lemma lut_encodes c v In n cap out : List.In c slcodecs -> byte_mem In -> 1 <= n <= max_in -> sl_compress c v false false In n cap = COk out ->
  exists m, n <= m <= n + (if slS c =? 1 then 0 else slS c) /\ LutStream (slw c) n out (slice In 0 m).
Proof.
  intros Hc HIn Hn HC. apply slcodecs_ok in Hc. destruct (Z.lt_ge_cases cap (rle_compress_bounds n)) as [Hcap|Hcap].
  { rewrite (sl_guarded c v false false In n cap) in HC by (right; right; right; exact Hcap). discriminate. }
  destruct (sl_compress_ok c v In n cap Hc HIn (max_large1 n Hn) Hcap) as (body & HC2 & HS & Hlen). rewrite HC2 in HC. injection HC as <-.
  destruct (StreamP_body _ _ _ _ _ _ _ HS) as (m & Hm & HB). exists m. split; [exact Hm|]. exists body.
  pose proof (slsize_small c n (max_large1 n Hn)). unfold max_in in *. pose proof (len_nonneg body). split; [reflexivity|]. split; [lia|]. split; [rewrite len_slice; lia|]. split; [lia|exact HB].
Qed.

Lemma short_encodes c comp In n cap out : sh_encoder c comp -> byte_mem In -> 1 <= n <= max_in -> comp false false In n cap = COk out ->
  exists m, n <= m <= n + (if shS c =? 1 then 0 else shS c) /\ ShortStream (shw c) n out (slice In 0 m).
Proof.
  intros He HIn Hn HC. destruct (sh_encoder_ok c comp He) as (body & -> & Hc & HB).
  destruct (HB In n HIn (max_large1 n Hn)) as (l & Hl & (sym0 & stream & Hsym & Hll & HS) & Hb & HL). unfold sh_wrap in HC. rewrite Hl in HC.
  destruct (_ || _); [discriminate|]. injection HC as <-.
  destruct (StreamP_body _ _ _ _ _ _ _ HS) as (m & Hm & HBd). exists m. split; [exact Hm|]. exists sym0, stream. cbv zeta. cbn [swOne swS swSC shw].
  rewrite <- Hll. pose proof (shsize_small n (max_large1 n Hn)). unfold max_in in *. pose proof (len_nonneg l).
  split; [reflexivity|]. split; [lia|]. split; [rewrite len_slice; destruct (shS c =? 1); lia|]. split; [lia|]. split; assumption.
Qed.

(** *** Streams of one run *)

Lemma lut_run_ok c sym n : List.In c slcodecs -> slUnb c || (slS c =? 1) = true -> len sym = slS c -> Forall is_byte sym -> 2 <= n < 2 ^ 32 ->
  LutStream (slw c) n (lut_run_stream (slw c) sym n) (repetition sym n).
Proof.
  intros Hc HU Hl Hb Hn. apply slcodecs_ok in Hc. destruct Hc as (HS & H8 & HSC). pose proof (okS1_pos _ HS) as HS2.
  assert (Hrep : len (repetition sym n) = n) by (apply len_slice; lia).
  eexists. split; [reflexivity|]. split; [lia|]. split; [lia|]. split.
  { unfold lwHead. rewrite !len_app, !len_le32, !len_le16. lia. }
  exists ((lwHead (slw c) (lwSC (slw c)) 0 2 ++ sym ++ le32 (n - 1) ++ []) ++ [] ++ []), ([] ++ repetition sym n ++ []).
  do 3 eexists. split; [|split; [|split]].
  - eapply Serial_cons; [|apply Serial_nil].
    replace (repetition sym n) with (repetition sym (lwRun (slw c) (n - 1))).
    + apply (LutPacket_intro (slw c) _ (lwSC (slw c)) sym sym _ (n - 1) 0 (le32 (n - 1)) [] 2 []).
      * apply Recall_new; assumption.
      * constructor. lia.
      * lia.
      * unfold lwRun. cbn [lwByte lwS slw]. rewrite HU. lia.
      * change (len (@nil Z) + 2) with 2. apply Number_small. unfold lwBits. destruct (lwSC (slw c) =? 3); split; cbv; discriminate.
    + unfold lwRun. cbn [lwByte lwS slw]. rewrite HU. f_equal. lia.
  - apply (LutEnd_none (slw c) _ 0 [] 0 0 (le32 0)); [left; cbn [lwSC slw]; split; [lia|reflexivity]|constructor; lia].
  - rewrite !app_nil_r. repeat rewrite <- app_assoc. reflexivity.
  - now rewrite !app_nil_r.
Qed.

Lemma repetition_bytes M sym n pout : slice M pout (len (repetition sym n)) = repetition sym n -> 0 <= n ->
  forall k, 0 <= k < n -> M (pout + k) = nth (Z.to_nat (k mod len sym)) sym 0.
Proof.
  intros H Hn k Hk. assert (Hrep : len (repetition sym n) = n) by (apply len_slice; lia). rewrite Hrep in H.
  transitivity (nth (Z.to_nat k) (repetition sym n) 0); [rewrite <- H; now rewrite nth_slice by lia|].
  unfold repetition. now rewrite nth_slice by lia.
Qed.

Lemma lut_run_bytes c l sym n C pin inSize M pout cap : List.In c slcodecs -> slUnb c || (slS c =? 1) = true ->
  len sym = slS c -> Forall is_byte sym -> 2 <= n < 2 ^ 32 ->
  holds C pin (lut_run_stream (slw c) sym n) -> 0 < pin -> pin + 2048 < 2 ^ 64 -> 256 <= inSize ->
  0 < pout -> pout + n + 1024 < 2 ^ 64 -> n <= cap ->
  exists M', sl_decompress c l C pin inSize M pout cap = DRet n M' /\
    (forall k, 0 <= k < n -> M' (pout + k) = nth (Z.to_nat (k mod slS c)) sym 0) /\
    (forall x, x < pout \/ pout + n + 96 <= x -> M' x = M x).
Proof.
  intros Hin HU Hl Hb Hn Hh Hpin Hpin2 Hsz Hpout Hpout2 Hcap.
  assert (Hrep : len (repetition sym n) = n) by (apply len_slice; lia).
  assert (Hout : len (lut_run_stream (slw c) sym n) <= 256).
  { unfold lut_run_stream, lwHead. rewrite !len_app, !len_le32, !len_le16, Hl. apply slcodecs_ok in Hin. destruct Hin as (_ & H8 & _). lia. }
  destruct (lut_accepts c l n _ _ Hin (lut_run_ok c sym n Hin HU Hl Hb Hn) C pin inSize M pout cap) as (M' & H1 & H2 & H3); try assumption; try lia.
  exists M'. split; [exact H1|]. rewrite <- Hl. split; [apply repetition_bytes; [exact H2|lia]|]. now rewrite Hrep in H3.
Qed.

Lemma short_run_ok c sym n : List.In c shcodecs -> shUnb c || (shS c =? 1) = true -> shOne c = false -> len sym = shS c -> Forall is_byte sym ->
  shSHORT c <= n < 2 ^ 32 ->
  ShortStream (shw c) n (short_run_stream (shw c) sym n) (repetition sym n).
Proof.
  intros Hc HU Ho Hl Hb Hn. apply shcodecs_ok in Hc. pose proof Hc as (HS & H8 & HSC & _). pose proof (okS1_pos _ HS) as HS2.
  pose proof (shSHORT_ok c Hc) as (K1 & _). destruct (shw_consts c Hc) as (_ & _ & E3 & _ & E5). pose proof (sh_max_pos c Hc) as (HM1 & _). unfold shMAXR in HM1.
  assert (Hrep : len (repetition sym n) = n) by (apply len_slice; lia).
  assert (Hrun : swRun (shw c) (n - swMin (shw c) + 2) = n) by (unfold swRun; cbn [swByte swS shw]; rewrite HU; lia).
  exists 0. eexists. cbv zeta. cbn [swOne shw]. rewrite Ho. split; [reflexivity|]. split; [lia|]. split; [lia|]. split.
  { rewrite !len_app, !len_le32, !len_le16. unfold len at 1 3. cbn [be24 length]. lia. }
  split; [unfold is_byte; lia|].
  set (h := fun k fl => be24 ((k * 2 ^ swC (shw c) + (2 ^ swC (shw c) - 1)) * 2 ^ (swC3 (shw c) + swL3 (shw c)) + 0 * 2 ^ swL3 (shw c) + fl)).
  exists (((h (swSC (shw c)) 2 ++ le32 (n - swMin (shw c) + 2) ++ []) ++ sym) ++ [] ++ []), ([] ++ repetition sym n ++ []).
  set (T0 := first_table (swS (shw c)) (swSC (shw c))).
  exists (if shSC c =? 0 then T0 else sym :: removelast T0). do 2 eexists. split; [|split; [|split]].
  - eapply Serial_cons; [|apply Serial_nil].
    replace (repetition sym n) with (repetition sym (swRun (shw c) (n - swMin (shw c) + 2))) by now rewrite Hrun.
    eapply (ShortPacket_intro (shw c) 0 _ (swSC (shw c)) sym sym _ (n - swMin (shw c) + 2) []).
    + destruct (Z.eq_dec (shSC c) 0) as [H0|H0].
      * rewrite H0. cbn [Z.eqb swSC shw]. rewrite H0. apply ShortSymbol_given; cbn [swOne swSC swS shw]; assumption.
      * apply ShortSymbol_table; cbn [swOne swSC swS shw]; try assumption.
        replace (shSC c =? 0) with false by lia. apply Recall_new; assumption.
    + apply ShortHead_3; [constructor; lia|]. change (len (@nil Z) + 2) with 2. apply Number_small. rewrite E3. lia.
    + lia.
    + lia.
  - apply (ShortEnd_none (shw c) 0 _ 0 0 0 (le32 0) []); cbn [swSC swS shw]; [lia|constructor; lia|unfold len; cbn; lia|constructor].
  - rewrite !app_nil_r. repeat rewrite <- app_assoc. reflexivity.
  - now rewrite !app_nil_r.
Qed.

Lemma short_run_bytes c l sym n C pin inSize M pout cap : List.In c shcodecs -> shUnb c || (shS c =? 1) = true -> shOne c = false ->
  len sym = shS c -> Forall is_byte sym -> shSHORT c <= n < 2 ^ 32 ->
  holds C pin (short_run_stream (shw c) sym n) -> 0 < pin -> pin + 2048 < 2 ^ 64 -> 256 <= inSize ->
  0 < pout -> pout + n + 1024 < 2 ^ 64 -> n <= cap ->
  exists M', sh_decompress c l C pin inSize M pout cap = DRet n M' /\
    (forall k, 0 <= k < n -> M' (pout + k) = nth (Z.to_nat (k mod shS c)) sym 0) /\
    (forall x, x < pout \/ pout + n + 96 <= x -> M' x = M x).
Proof.
  intros Hin HU Ho Hl Hb Hn Hh Hpin Hpin2 Hsz Hpout Hpout2 Hcap. pose proof (shSHORT_ok c (shcodecs_ok c Hin)) as (K1 & _).
  assert (Hrep : len (repetition sym n) = n) by (apply len_slice; lia).
  assert (Hout : len (short_run_stream (shw c) sym n) <= 256).
  { unfold short_run_stream. cbv zeta. rewrite !len_app, !len_le32, !len_le16, Hl. unfold len at 1 2. cbn [be24 length].
    apply shcodecs_ok in Hin. destruct Hin as (_ & H8 & _). lia. }
  destruct (short_accepts c l n _ _ Hin (short_run_ok c sym n Hin HU Ho Hl Hb Hn) C pin inSize M pout cap) as (M' & H1 & H2 & H3); try assumption; try lia.
  exists M'. split; [exact H1|]. rewrite <- Hl. split; [apply repetition_bytes; [exact H2|lia]|]. now rewrite Hrep in H3.
Qed.
