(** Correctness of the short codecs. *)
From Verif Require Import Base Simd SimdProof Spec LargeSpec PktSpec LutSpec ExtModel ExtDec ExtEnc PktModel PktDec PktEnc Rle8Model Rle8Proof Rle8Single
  MbModel MbEnc LutModel LutProof ShModel.

Definition shok (c : shcfg) : Prop :=
  okS1 (shS c) /\ shS c <= 8 /\ (shSC c = 0 \/ shSC c = 1 \/ shSC c = 3 \/ shSC c = 7) /\ (shOne c = true -> shS c = 1 /\ shSC c = 0).

Lemma shcodecs_ok c : List.In c shcodecs -> shok c.
Proof.
  intros H. unfold shcodecs in H. cbn in H. unfold shok, okS1, okS.
  repeat (destruct H as [<-|H]; [cbn [shS shSC shOne]; lia|]). destruct H.
Qed.

Lemma greedy_codecs_ok c : List.In c greedy_codecs -> shok c /\ okS (shS c) /\ shUnb c = true /\ shOne c = false /\ shSC c <> 0.
Proof.
  intros H. unfold greedy_codecs in H. cbn in H. unfold shok, okS1, okS.
  repeat (destruct H as [<-|H]; [cbn [shS shSC shOne shUnb]; lia|]). destruct H.
Qed.

Lemma sh_consts c : shok c ->
  (shSC c = 0 /\ shCP c = 4 /\ shRP c = 4 /\ shRB c = 11) \/ (shSC c = 1 /\ shCP c = 3 /\ shRP c = 4 /\ shRB c = 11) \/
  (shSC c = 3 /\ shCP c = 3 /\ shRP c = 3 /\ shRB c = 10) \/ (shSC c = 7 /\ shCP c = 2 /\ shRP c = 3 /\ shRB c = 9).
Proof.
  intros (_ & _ & H & _). unfold shRB, shRP, shCP, shLB. destruct H as [-> | [-> | [-> | ->]]]; cbn; lia.
Qed.

Ltac pows := change (2 ^ 1) with 2 in *; change (2 ^ 2) with 4 in *; change (2 ^ 3) with 8 in *; change (2 ^ 4) with 16 in *;
  change (2 ^ 5) with 32 in *; change (2 ^ 6) with 64 in *; change (2 ^ 7) with 128 in *; change (2 ^ 8) with 256 in *;
  change (2 ^ 9) with 512 in *; change (2 ^ 10) with 1024 in *; change (2 ^ 11) with 2048 in *; change (2 ^ 0) with 1 in *.

Ltac zn := change (4 + 4) with 8 in *; change (3 + 4) with 7 in *; change (3 + 3) with 6 in *; change (2 + 3) with 5 in *; change (11 - 8) with 3 in *; change (10 - 8) with 2 in *; change (9 - 8) with 1 in *; change (8 - 3) with 5 in *; change (8 - 2) with 6 in *; change (8 - 1) with 7 in *; pows.

Lemma land_15 x : Z.land x 15 = x mod 16. Proof. exact (Z.land_ones x 4 ltac:(lia)). Qed.
Lemma land_7 x : Z.land x 7 = x mod 8. Proof. exact (Z.land_ones x 3 ltac:(lia)). Qed.
Lemma land_3 x : Z.land x 3 = x mod 4. Proof. exact (Z.land_ones x 2 ltac:(lia)). Qed.
Lemma land_1 x : Z.land x 1 = x mod 2. Proof. exact (Z.land_ones x 1 ltac:(lia)). Qed.
Ltac masks := zn; change (16 - 1) with 15 in *; change (4 - 1) with 3 in *; change (2 - 1) with 1 in *; change (16 - 2) with 14 in *;
  change (4 - 2) with 2 in *; rewrite ?land_15, ?land_7, ?land_3, ?land_1.

(** The configuration as the format sees it. *)
Definition shw (c : shcfg) : shortwire := mkSW (shS c) (shUnb c) (shSC c) (shOne c).

Lemma shw_consts c : shok c -> swC (shw c) = shCP c /\ swL (shw c) = shRP c /\ swL3 (shw c) = shRB c /\
  swC3 (shw c) = (if shSC c =? 7 then 10 else 9) /\ swMin (shw c) = shSHORT c.
Proof.
  intros Hc. pose proof (sh_consts c Hc) as HK. unfold swC3, swL3, swL, swC, swI, swMin, shSHORT. cbn [swSC swS swOne shw].
  split; [|split; [|split; [|split]]].
  5: destruct (shSC c =? 0), (shOne c); reflexivity.
  all: destruct HK as [(H1 & H2 & H3 & H4)|[(H1 & H2 & H3 & H4)|[(H1 & H2 & H3 & H4)|(H1 & H2 & H3 & H4)]]]; rewrite H1, ?H2, ?H3, ?H4; reflexivity.
Qed.

(** *** The bits of a header *)

Lemma sh_bits1 c k c3 r3 : shok c -> 0 <= k <= shSC c -> 0 <= c3 <= shMAXPC c -> 0 <= r3 <= shMAXPR c ->
  let b := k * 2 ^ (shCP c + shRP c) + c3 * 2 ^ shRP c + r3 in
  is_byte b /\ Z.land b (shMAXPR c) = r3 /\
    Z.land (Z.shiftr b (shRP c)) (shINVALID c) = c3 /\ c3 <> shINVALID c /\ (shSC c <> 0 -> Z.shiftr b (shCP c + shRP c) = k).
Proof.
  intros Hc Hk Hc3 Hr3. cbv zeta. unfold shMAXPC, shMAXPR, shINVALID, is_byte in *.
  destruct (sh_consts c Hc) as [(H1 & H2 & H3 & _)|[(H1 & H2 & H3 & _)|[(H1 & H2 & H3 & _)|(H1 & H2 & H3 & _)]]];
    rewrite H1, H2, H3 in *; zn.
  all: masks; rewrite !Z.shiftr_div_pow2 by lia; zn; lia.
Qed.

Lemma sh_pack1_sum c k c3 r3 : shok c -> 0 <= k <= shSC c -> 0 <= c3 <= shMAXPC c -> 0 <= r3 <= shMAXPR c ->
  sh_pack1 c k c3 r3 = [k * 2 ^ (shCP c + shRP c) + c3 * 2 ^ shRP c + r3].
Proof.
  intros Hc Hk Hc3 Hr3. unfold sh_pack1, shMAXPC, shMAXPR in *. f_equal. rewrite <- Z.add_assoc.
  rewrite <- Z.lor_assoc. destruct (sh_consts c Hc) as [(H1 & H2 & H3 & _)|[(H1 & H2 & H3 & _)|[(H1 & H2 & H3 & _)|(H1 & H2 & H3 & _)]]];
      rewrite H1, H2, H3 in *; pows; (rewrite (w8_id c3), (w8_id r3) by lia); rewrite (lor_shift c3 r3) by (zn; lia);
      (rewrite w8_id by (rewrite Z.shiftl_mul_pow2 by lia; zn; lia)); apply lor_shift; zn; lia.
Qed.

(** The three bytes. *)
Definition sh_three (c : shcfg) (k tc tr : Z) : list Z :=
  [ k * 2 ^ (shCP c + shRP c) + ((2 ^ shCP c - 1) * 2 ^ shRP c + tc / 2 ^ (8 - (shRB c - 8)));
    (tc mod 2 ^ (8 - (shRB c - 8))) * 2 ^ (shRB c - 8) + tr / 256;
    tr mod 256 ].

Lemma sh_three_be24 c k tc tr : shok c -> 0 <= k <= shSC c -> 0 <= tc < 2 ^ swC3 (shw c) -> 0 <= tr <= shMAXR c ->
  be24 ((k * 2 ^ swC (shw c) + (2 ^ swC (shw c) - 1)) * 2 ^ (swC3 (shw c) + swL3 (shw c)) + tc * 2 ^ swL3 (shw c) + tr) = sh_three c k tc tr.
Proof.
  intros Hc Hk Htc Htr. destruct (shw_consts c Hc) as (E1 & E2 & E3 & E4 & _). rewrite E1, E3, E4 in *. unfold be24, sh_three, shMAXR in *.
  destruct (sh_consts c Hc) as [(H1 & H2 & H3 & H4)|[(H1 & H2 & H3 & H4)|[(H1 & H2 & H3 & H4)|(H1 & H2 & H3 & H4)]]];
    rewrite H1, H2, H3, H4 in *; cbn [Z.eqb Pos.eqb] in *;
    change (2 ^ (9 + 11)) with 1048576; change (2 ^ (9 + 10)) with 524288; change (2 ^ (10 + 9)) with 524288; zn.
  all: f_equal; [lia|f_equal; [lia|f_equal; lia]].
Qed.

Lemma sh_pack3_sum c k tc tr : shok c -> 0 <= k <= shSC c -> 0 <= tc < 2 ^ swC3 (shw c) -> 0 <= tr <= shMAXR c ->
  sh_pack3 c k tc tr = sh_three c k tc tr.
Proof.
  intros Hc Hk Htc Htr. destruct (shw_consts c Hc) as (_ & _ & _ & E4 & _). rewrite E4 in Htc. unfold sh_pack3, sh_three, shMAXR, shINVALID in *.
  assert (HV : Z.lor (Z.lor (w8 (Z.shiftl k (shCP c + shRP c))) (w8 (Z.shiftl (2 ^ shCP c - 1) (shRP c)))) (w8 (Z.shiftr (Z.shiftl tc (shRB c - 8)) 8))
               = k * 2 ^ (shCP c + shRP c) + ((2 ^ shCP c - 1) * 2 ^ shRP c + tc / 2 ^ (8 - (shRB c - 8)))
               /\ w8 (Z.lor (Z.shiftl tc (shRB c - 8)) (Z.shiftr tr 8)) = (tc mod 2 ^ (8 - (shRB c - 8))) * 2 ^ (shRB c - 8) + tr / 256).
  { rewrite <- Z.lor_assoc. destruct (sh_consts c Hc) as [(H1 & H2 & H3 & H4)|[(H1 & H2 & H3 & H4)|[(H1 & H2 & H3 & H4)|(H1 & H2 & H3 & H4)]]];
      rewrite H1, H2, H3, H4 in *; cbn [Z.eqb Pos.eqb] in *; zn;
      (split; [|rewrite lor_shift by (rewrite ?Z.shiftr_div_pow2 by lia; pows; lia); rewrite Z.shiftr_div_pow2 by lia; unfold w8; pows; lia]);
      (replace (w8 (Z.shiftr (Z.shiftl tc _) 8)) with (tc / 2 ^ (8 - (shRB c - 8)))
        by (rewrite H4; rewrite Z.shiftr_div_pow2, Z.shiftl_mul_pow2 by lia; unfold w8; zn; lia));
      rewrite H4; zn.
    all: change (16 - 1) with 15 in *; change (4 - 1) with 3 in *; change (w8 (Z.shiftl 15 4)) with (Z.shiftl 15 4); change (w8 (Z.shiftl 7 4)) with (Z.shiftl 7 4);
      change (w8 (Z.shiftl 7 3)) with (Z.shiftl 7 3); change (w8 (Z.shiftl 3 3)) with (Z.shiftl 3 3).
    - rewrite (lor_shift 15 (tc / 32) 4) by (zn; lia). rewrite w8_id by (rewrite Z.shiftl_mul_pow2 by lia; zn; lia). apply lor_shift; zn; lia.
    - rewrite (lor_shift 7 (tc / 32) 4) by (zn; lia). rewrite w8_id by (rewrite Z.shiftl_mul_pow2 by lia; zn; lia). apply lor_shift; zn; lia.
    - rewrite (lor_shift 7 (tc / 64) 3) by (zn; lia). rewrite w8_id by (rewrite Z.shiftl_mul_pow2 by lia; zn; lia). apply lor_shift; zn; lia.
    - rewrite (lor_shift 3 (tc / 128) 3) by (zn; lia). rewrite w8_id by (rewrite Z.shiftl_mul_pow2 by lia; zn; lia). apply lor_shift; zn; lia. }
  destruct HV as [-> ->]. reflexivity.
Qed.

Lemma sh_bits3 c k tc tr : shok c -> 0 <= k <= shSC c -> 0 <= tc < 2 ^ swC3 (shw c) -> 0 <= tr <= shMAXR c ->
  exists b1 b2 b3, sh_three c k tc tr = [b1; b2; b3] /\
    Z.land (Z.shiftr b1 (shRP c)) (shINVALID c) = shINVALID c /\ (shSC c <> 0 -> Z.shiftr b1 (shCP c + shRP c) = k) /\
    Z.lor (Z.shiftr b2 (shRB c - 8)) (Z.shiftl (Z.land b1 (shMAXPR c)) (8 - (shRB c - 8))) = tc /\
    Z.lor b3 (Z.shiftl (Z.land b2 (2 ^ (shRB c - 8) - 1)) 8) = tr.
Proof.
  intros Hc Hk Htc Htr. destruct (shw_consts c Hc) as (_ & _ & _ & E4 & _). rewrite E4 in Htc.
  unfold sh_three, shMAXPR, shMAXR, shINVALID in *. do 3 eexists. split; [reflexivity|].
  destruct (sh_consts c Hc) as [(H1 & H2 & H3 & H4)|[(H1 & H2 & H3 & H4)|[(H1 & H2 & H3 & H4)|(H1 & H2 & H3 & H4)]]];
    rewrite H1, H2, H3, H4 in *; cbn [Z.eqb Pos.eqb] in *; zn.
  all: masks; rewrite !Z.shiftr_div_pow2 by lia; zn.
  all: rewrite !(Z.lor_comm _ (Z.shiftl _ _)), !lor_shift by (zn; lia); zn; lia.
Qed.

Definition Rsh (c : shcfg) (sym0 : Z) (regs lut : list (list Z)) : Prop :=
  if shOne c then regs = [[sym0]] else Rlut (shS c) (shSC c) regs lut.
Definition sh_key (c : shcfg) (sym : list Z) (lut : list (list Z)) : Z := if shSC c =? 0 then 0 else lut_index sym lut.
Definition sh_next (c : shcfg) (sym : list Z) (lut : list (list Z)) : list (list Z) :=
  if shSC c =? 0 then lut else lut_front (shSC c) sym (sh_key c sym lut) lut.

(** *** Decoder on the grammar *)

Lemma ShortSymbol_range c sym0 regs lut k sym sb lut' : shok c -> Rsh c sym0 regs lut ->
  ShortSymbol (shw c) sym0 lut k sym sb lut' -> 0 <= k <= shSC c /\ len sym = shS c.
Proof.
  intros (_ & _ & HSC & Ho1) HR [Ho|sym1 Ho H0 Hl Hb|k' sym1 sb' table' Ho H0 HRc]; cbn [swOne swSC swS shw] in *.
  - destruct (Ho1 Ho) as [H1 _]. split; [lia|]. now rewrite H1.
  - split; [lia|exact Hl].
  - unfold Rsh in HR. rewrite Ho in HR. destruct HR as [|(HR1 & _ & HR2)]; [lia|].
    destruct (Recall_front (shS c) (shSC c) lut k' sym1 sb' _ ltac:(lia) HRc HR1) as (K1 & _).
    destruct (Recall_symlen _ _ _ _ _ _ _ HRc HR2) as [K2 _]. split; assumption.
Qed.

Lemma sh_sym_ok c sym0 C p regs lut sym sb lut' k k2 rest :
  shok c -> Rsh c sym0 regs lut -> ShortSymbol (shw c) sym0 lut k sym sb lut' -> (shSC c <> 0 -> k2 = k) ->
  holds C p (sb ++ rest) ->
  exists regs', sh_sym c C p k2 regs = (p + len sb, regs') /\ regok (shS c) (hd [] regs') sym /\ Rsh c sym0 regs' lut'.
Proof.
  intros Hc HR HSy Hk Hh. destruct (ShortSymbol_range c sym0 regs lut k sym sb lut' Hc HR HSy) as [Hkr Hl].
  pose proof Hc as (HS & _ & HSC & Hone). pose proof (okS1_pos _ HS) as HS2.
  unfold sh_sym, Rsh in *. destruct HSy as [Ho|sym Ho H0 Hl' Hb|k sym sb table' Ho H0 HRc]; cbn [swOne swSC swS shw] in *; rewrite Ho in *.
  - destruct (Hone eq_refl) as [H1 H0]. exists regs. subst regs. cbn [hd]. rewrite len_nil, Z.add_0_r. split; [reflexivity|]. split; [|reflexivity].
    rewrite H1. split; [reflexivity|]. intros j Hj. unfold symbyte. replace j with 0 by lia. reflexivity.
  - rewrite H0 in *. cbn [Z.eqb].
    destruct (dec_sym_ok (shS c) 0 C p regs lut sym 0 rest) as (regs' & HD & Hreg & HRl); try assumption; try lia.
    exists regs'. split; [exact HD|]. split; [exact Hreg|]. apply HRl. lia.
  - replace (shSC c =? 0) with false by lia. rewrite (Hk H0). pose proof HR as HR'. destruct HR' as [|(HR1 & _ & HR2)]; [lia|].
    destruct (Recall_front (shS c) (shSC c) lut k sym sb _ ltac:(lia) HRc HR1) as (K1 & K2 & K3 & ->).
    assert (Hsb : sb = if k =? shSC c then sym else []) by (destruct (k =? shSC c) eqn:E; [apply K3; lia|apply K2; lia]).
    rewrite Hsb in *.
    destruct (dec_sym_ok (shS c) (shSC c) C p regs lut sym k rest) as (regs' & HD & Hreg & HRl); try assumption; try lia.
    { intros _. split; [exact K1|]. intros H. now apply K2. }
    exists regs'. split; [exact HD|]. split; [exact Hreg|]. now apply HRl.
Qed.

Lemma sh_max_pos c : shok c -> 511 <= shMAXR c <= 2047 /\ 7 <= shMAXPR c <= 15 /\ 2 <= shMAXPC c <= 14.
Proof.
  intros Hc. unfold shMAXR, shMAXPR, shMAXPC.
  destruct (sh_consts c Hc) as [(H1 & H2 & H3 & H4)|[(H1 & H2 & H3 & H4)|[(H1 & H2 & H3 & H4)|(H1 & H2 & H3 & H4)]]]; rewrite H2, H3, H4; cbn; lia.
Qed.

Lemma swC3_max c : shok c -> 511 <= 2 ^ swC3 (shw c) - 1 <= 1023.
Proof. intros Hc. destruct (shw_consts c Hc) as (_ & _ & _ & -> & _). destruct (_ =? _); cbn; lia. Qed.

(** The three byte form up to the symbol. *)
Lemma sh_parse3 c lv C p regs k v fc ec r fl el rest :
  shok c -> 0 <= k <= shSC c -> Number (2 ^ swC3 (shw c) - 1) v fc ec -> Number (2 ^ swL3 (shw c) - 1) r fl el ->
  let h := be24 ((k * 2 ^ swC (shw c) + (2 ^ swC (shw c) - 1)) * 2 ^ (swC3 (shw c) + swL3 (shw c)) + fc * 2 ^ swL3 (shw c) + fl) ++ ec ++ el in
  holds C p (h ++ rest) ->
  exists k2, (shSC c <> 0 -> k2 = k) /\
  sh_parse c lv C p regs =
    if (fl =? 1) && (r =? 0) then PStop
    else let '(p3, regs1) := sh_sym c C (p + len h) k2 regs in PGo p3 regs1 (w64 (r - 2)) v.
Proof.
  intros Hc Hk HN1 HN2 h Hh. unfold h in *. clear h. pose proof (swC3_max c Hc) as HM3. pose proof (sh_max_pos c Hc) as (HM1 & _).
  destruct (shw_consts c Hc) as (_ & _ & E3 & _). assert (EM : 2 ^ swL3 (shw c) - 1 = shMAXR c) by (rewrite E3; reflexivity). rewrite EM in HN2.
  pose proof (Number_field _ _ _ _ HN1 ltac:(lia)) as Htc. pose proof (Number_field _ _ _ _ HN2 ltac:(lia)) as Htr.
  rewrite sh_three_be24 in * by (try assumption; lia).
  destruct (sh_bits3 c k fc fl Hc Hk ltac:(lia) Htr) as (b1 & b2 & b3 & Hb & B1 & B2 & B3 & B4).
  rewrite Hb in *. cbn [app holds] in Hh. destruct Hh as (H1 & H2 & H3 & Hh).
  exists (Z.shiftr b1 (shCP c + shRP c)). split; [exact B2|].
  unfold sh_parse. cbv zeta. rewrite H1, B1, Z.eqb_refl, H2. replace (p + 1 + 1) with (p + 2) in * by lia. rewrite H3, B3, B4.
  replace (p + 2 + 1) with (p + 3) in * by lia. rewrite <- !app_assoc in Hh.
  rewrite (Number_read _ _ _ _ C _ _ HN1 Hh). apply holds_app in Hh. destruct Hh as [_ Hh].
  rewrite (Number_read _ _ _ _ C _ _ HN2 Hh).
  replace (p + 3 + len ec + len el) with (p + len ([b1; b2; b3] ++ ec ++ el)); [reflexivity|].
  cbn [app]. rewrite !len_cons, len_app. lia.
Qed.

Lemma sh_parse_ok c lv C p regs k v l h rest :
  shok c -> 0 <= k <= shSC c -> ShortHead (shw c) k v l h -> 0 <= l -> holds C p (h ++ rest) ->
  0 <= v < 2 ^ 32 /\ l + 2 < 2 ^ 32 /\
  exists k2, (shSC c <> 0 -> k2 = k) /\
  sh_parse c lv C p regs = let '(p3, regs1) := sh_sym c C (p + len h) k2 regs in PGo p3 regs1 l v.
Proof.
  intros Hc Hk HH Hl Hh. pose proof (swC3_max c Hc) as HM3. pose proof (sh_max_pos c Hc) as (HM1 & HM2 & _).
  destruct (shw_consts c Hc) as (E1 & E2 & E3 & _).
  destruct HH as [Hv Hl2|fc ec fl el HN1 HN2].
  - rewrite E1, E2 in *. destruct (sh_bits1 c k (v - 2) l Hc Hk) as (B0 & B1 & B2 & B3 & B4); [unfold shMAXPC; lia|unfold shMAXPR; lia|].
    cbn [app holds] in Hh. destruct Hh as [Hb0 Hh]. unfold shMAXPR in HM2.
    assert (Hv16 : 2 ^ shCP c <= 16) by (pose proof (sh_max_pos c Hc) as (_ & _ & HX); unfold shMAXPC in HX; lia).
    split; [lia|]. split; [lia|]. eexists. split; [exact B4|].
    unfold sh_parse. cbv zeta. rewrite Hb0, B1, B2. replace (v - 2 =? shINVALID c) with false by lia.
    match goal with |- context [len [?x]] => change (len [x]) with 1 end.
    destruct (sh_sym c C (p + 1) _ regs) as [p3 regs1]. rewrite w64_id by lia. f_equal; lia.
  - pose proof (Number_value _ _ _ _ HN1 ltac:(lia)) as Hv.
    assert (EM : 2 ^ swL3 (shw c) - 1 = shMAXR c) by (rewrite E3; reflexivity).
    pose proof (Number_value _ _ _ _ HN2 ltac:(lia)) as Hr. split; [exact Hv|]. split; [lia|].
    destruct (sh_parse3 c lv C p regs k v fc ec (l + 2) fl el rest Hc Hk HN1 HN2 Hh) as (k2 & Hk2 & HP).
    exists k2. split; [exact Hk2|]. rewrite HP. replace (l + 2 =? 0) with false by lia. rewrite andb_false_r.
    destruct (sh_sym c C _ k2 regs) as [p3 regs1]. rewrite w64_id by lia. f_equal; lia.
Qed.

Notation ShPkt c sym0 := (Pkt (sh_parse c) (sh_fill c) (Rsh c sym0)).
Notation ShTerm c sym0 := (GTerm (sh_parse c) (Rsh c sym0)).

Lemma shSHORT_ok c : shok c -> 2 <= shSHORT c <= 10 /\ 0 <= shSHORT c / shS c <= 10 /\
  (shS c <> 1 -> forall q, shSHORT c <= shS c * q -> shSHORT c / shS c <= q).
Proof.
  intros (HS & H8 & _). pose proof (okS1_pos _ HS) as HS2.
  assert (H1 : 2 <= shSHORT c <= 10) by (unfold shSHORT; destruct (_ || _); lia).
  split; [exact H1|]. split.
  - split; [apply Z.div_pos; lia|]. apply Z.div_le_upper_bound; nia.
  - intros _ q Hq. apply Z.div_le_upper_bound in Hq; lia.
Qed.

Lemma shRun_fill c v : shok c -> 0 <= v < 2 ^ 32 -> 0 < swRun (shw c) v ->
  swRun (shw c) v < 2 ^ 36 /\
  (if shUnb c || (shS c =? 1) then w64 (v + (shSHORT c - 2)) else w64 ((v + shSHORT c / shS c - 2) * shS c)) = swRun (shw c) v.
Proof.
  intros Hc Hv Hr. pose proof (shSHORT_ok c Hc) as (K1 & K2 & _). destruct (shw_consts c Hc) as (_ & _ & _ & _ & E5).
  destruct Hc as (HS & H8 & _). pose proof (okS1_pos _ HS) as HS2. unfold swRun in *. rewrite E5 in *. cbn [swByte swS shw] in *.
  destruct (shUnb c || (shS c =? 1)).
  - rewrite w64_id by lia. lia.
  - assert ((v + shSHORT c / shS c - 2) * shS c < 2 ^ 36) by nia. rewrite w64_id by lia. lia.
Qed.

Lemma ShortPacket_pkt c sym0 lut h lits run lut' : shok c -> ShortPacket (shw c) sym0 lut h lits run lut' -> ShPkt c sym0 lut h lits run lut'.
Proof.
  intros Hc [k sym sb table' v lits' h' HSy HH Hv Hrun]. pose proof Hc as (HS & _ & HSC & _). pose proof (len_nonneg lits') as Hl0.
  rewrite repetition_periodic. assert (Hlp : len (periodic sym (swRun (shw c) v)) = swRun (shw c) v) by (apply len_slice; lia).
  split; [lia|]. intros d C p regs HR Hh.
  destruct (ShortSymbol_range c sym0 regs lut k sym sb _ Hc HR HSy) as [Hk Hls].
  destruct (sh_parse_ok c d C p regs k v (len lits') h' sb Hc Hk HH Hl0 Hh) as (Hvr & Hlr & k2 & Hk2 & HP).
  destruct (shRun_fill c v Hc Hvr Hrun) as [Hbig Hfill].
  apply holds_app in Hh. destruct Hh as [_ Hh]. rewrite <- (app_nil_r sb) in Hh.
  destruct (sh_sym_ok c sym0 C _ regs lut sym sb table' k k2 [] Hc HR HSy Hk2 Hh) as (regs' & HD & Hreg & HRl).
  rewrite HD in HP. exists regs', v. split; [rewrite HP; f_equal; rewrite len_app; lia|]. split; [exact Hv|]. split; [exact HRl|].
  intros M q Hq Hq2. rewrite Hlp in *. unfold sh_fill. rewrite Hfill. apply lvl_fill_ok; try assumption; lia.
Qed.

Lemma ShortEnd_term c sym0 lut e lits : shok c -> ShortEnd (shw c) sym0 lut e lits -> ShTerm c sym0 lut e lits.
Proof.
  intros Hc [k v fc ec cut Hk HN1 _ _|k sb lits' h HH HA].
  - constructor. intros d C p regs HR Hh.
    assert (HN2 : Number (2 ^ swL3 (shw c) - 1) 0 1 (le16 0)) by (constructor; lia).
    rewrite (app_assoc ec) in Hh. rewrite app_assoc in Hh.
    destruct (sh_parse3 c d C p regs k v fc ec 0 1 (le16 0) cut Hc Hk HN1 HN2 Hh) as (k2 & _ & ->). reflexivity.
  - constructor. intros d C p regs HR Hh. pose proof (len_nonneg lits') as Hl0. pose proof Hc as (_ & _ & HSC & Hone).
    cbn [swOne swS swSC shw] in HA.
    assert (Hk : 0 <= k <= shSC c) by (destruct (shOne c); [|unfold AnySymbol in HA]; lia).
    destruct (sh_parse_ok c d C p regs k 0 (len lits') h sb Hc Hk HH Hl0 Hh) as (_ & _ & k2 & Hk2 & HP). rewrite HP.
    unfold sh_sym. destruct (shOne c) eqn:Ho.
    + destruct HA as [_ ->]. exists regs. now rewrite app_nil_r.
    + unfold dec_sym. assert (HK : (if shSC c =? 0 then 0 else k2) = k) by (destruct (shSC c =? 0) eqn:E; [lia|apply Hk2; lia]). rewrite HK.
      destruct HA as [[HA ->]|(-> & HA & _)].
      * replace (k =? shSC c) with false by lia. eexists. now rewrite app_nil_r.
      * rewrite Z.eqb_refl. eexists. rewrite len_app, HA, Z.add_assoc. reflexivity.
Qed.

Lemma lor_byte a b : is_byte a -> is_byte b -> is_byte (Z.lor a b).
Proof.
  unfold is_byte. intros Ha Hb. split; [apply Z.lor_nonneg; lia|].
  destruct (Z.eq_dec (Z.lor a b) 0) as [->|H0]; [lia|].
  assert (0 <= Z.lor a b) by (apply Z.lor_nonneg; lia). change 256 with (2 ^ 8). apply Z.log2_lt_pow2; [lia|]. rewrite Z.log2_lor by lia.
  assert (Hx : forall x, 0 <= x < 256 -> Z.log2 x < 8).
  { intros x Hx. destruct (Z.eq_dec x 0) as [->|]; [cbn; lia|]. apply Z.log2_lt_pow2; [lia|]. change (2 ^ 8) with 256. lia. }
  pose proof (Hx a Ha). pose proof (Hx b Hb). lia.
Qed.
Lemma w8_byte x : is_byte (w8 x).
Proof. unfold is_byte, w8. lia. Qed.

Lemma bytes_sh_head c k stored range sym : shok c -> Forall is_byte sym -> Forall is_byte (sh_head c k stored range sym).
Proof.
  intros Hc H. unfold sh_head. apply Forall_app. split; [|destruct (_ && _); auto].
  destruct (sh_small c stored range) eqn:E.
  - unfold sh_pack1. constructor; [|constructor]. apply lor_byte; [apply lor_byte|]; try apply w8_byte.
    unfold sh_small in E. apply andb_true_iff in E. destruct E as [_ E]. unfold is_byte. rewrite Z.shiftl_mul_pow2.
    + assert (0 <= w64 (stored - 2)) by (unfold w64; lia). revert E. unfold shMAXPC. pose proof (sh_consts c Hc) as HK.
      generalize (w64 (stored - 2)) H0. intros x Hx E. unfold w8.
      destruct HK as [(_ & H2 & H3 & _)|[(_ & H2 & H3 & _)|[(_ & H2 & H3 & _)|(_ & H2 & H3 & _)]]]; rewrite H2, H3 in *; zn; lia.
    + pose proof (sh_consts c Hc). lia.
  - unfold sh_pack3. cbn [app]. constructor; [apply lor_byte; [apply lor_byte|]; apply w8_byte|]. constructor; [apply w8_byte|]. constructor; [apply w8_byte|].
    apply Forall_app. split; apply bytes_ext.
Qed.

Lemma len_sh_head c k stored range sym : len sym = shS c ->
  len (sh_head c k stored range sym) =
  (if sh_small c stored range then 1 else 3 + len (ext shMAXC stored) + len (ext (shMAXR c) range))
  + (if (k =? shSC c) && negb (shOne c) then shS c else 0).
Proof.
  intros H. unfold sh_head. rewrite len_app. f_equal; [|destruct (_ && _); [exact H|reflexivity]].
  destruct (sh_small c stored range); [reflexivity|]. unfold sh_pack3. cbn [app]. rewrite !len_cons, len_app. lia.
Qed.

(** Stored and restored run length. *)
Lemma sh_stored_ok c count : shok c -> shSHORT c <= count <= large_in + 8 -> (shUnb c = false -> shS c <> 1 -> count mod shS c = 0) ->
  2 <= sh_stored c count <= count + 2 /\ swRun (shw c) (sh_stored c count) = count.
Proof.
  intros Hc Hcnt Hm. pose proof (shSHORT_ok c Hc) as (K1 & K2 & K3). destruct (shw_consts c Hc) as (_ & _ & _ & _ & E5).
  destruct Hc as (HS & H8 & _). pose proof (okS1_pos _ HS) as HS2.
  unfold swRun. rewrite E5. cbn [swByte swS shw]. unfold sh_stored, large_in in *. destruct (shUnb c || (shS c =? 1)) eqn:E.
  - lia.
  - apply orb_false_iff in E. destruct E as [E1 E2]. specialize (Hm E1 ltac:(lia)).
    assert (HD : count = shS c * (count / shS c)) by (apply Z_div_exact_full_2; lia).
    assert (HLT : count / shS c <= count) by (apply Z.div_le_upper_bound; nia).
    specialize (K3 ltac:(lia) (count / shS c) ltac:(lia)).
    split; [lia|]. transitivity (shS c * (count / shS c)); [ring|lia].
Qed.

(** Bound on the size of the packets for the first [x] bytes: at most one byte is lost per packet
    behind more than 65533 literals. *)
Definition shB (x : Z) : Z := x + x / 65537.

Lemma sh_cost c k count stored range :
  shok c -> 2 <= stored <= count + 2 ->
  (shLONG c <=? count) || (shSHORT c + sh_penalty c k stored range <=? count) = true ->
  (if sh_small c stored range then 1 else 3 + len (ext shMAXC stored) + len (ext (shMAXR c) range))
  + (if (k =? shSC c) && negb (shOne c) then shS c else 0) <= count + (if range <=? 65535 then 0 else 1).
Proof.
  intros Hc Hs Hacc. pose proof (sh_max_pos c Hc) as (HM1 & _). destruct Hc as (HS & H8 & HSC & Ho). pose proof (okS1_pos _ HS) as HS2.
  rewrite !len_ext. unfold sh_penalty, ext_penalty in Hacc. apply orb_true_iff in Hacc.
  assert (HLS : (if (k =? shSC c) && negb (shOne c) then shS c else 0) + (2 - (if negb (shSC c =? 0) && (k =? shSC c) then shS c else 0)) <= shSHORT c
     /\ 11 + (if (k =? shSC c) && negb (shOne c) then shS c else 0) <= shLONG c).
  { unfold shSHORT, shLONG. destruct (shOne c).
    - specialize (Ho eq_refl). destruct (shSC c =? 0) eqn:E0; [|lia]. cbn [negb orb andb]. rewrite andb_false_r. lia.
    - destruct (shSC c =? 0) eqn:E0; destruct (k =? shSC c) eqn:Ek; cbn [negb orb andb]; lia. }
  assert (HY : (if (k =? shSC c) && negb (shOne c) then shS c else 0) <= 8) by (clear - H8; destruct ((k =? shSC c) && negb (shOne c)); lia).
  destruct HLS as [HL1 HL2]. clear HSC Ho. revert HM1 Hacc HL1 HL2 HY. unfold shMAXC. generalize (shMAXR c) as mr. intros mr HM1 Hacc.
  generalize (if (k =? shSC c) && negb (shOne c) then shS c else 0) as y.
  revert Hacc. generalize (if negb (shSC c =? 0) && (k =? shSC c) then shS c else 0) as z. intros z Hacc y HL1 HL2 HY.
  destruct (sh_small c stored range); [destruct (range <=? 65535); lia|].
  destruct (stored <=? 511) eqn:?; destruct (stored <=? 65535) eqn:?; destruct (range <=? mr) eqn:?; destruct (range <=? 65535) eqn:?; cbn [andb] in *; try lia;
    destruct (range <=? 1048575) eqn:?; destruct (stored <=? 1048575) eqn:?; lia.
Qed.

(** *** Encoder writes the grammar *)

Definition shW (c : shcfg) (lut : list (list Z)) : Prop := shSC c <> 0 -> len lut = shSC c.
Notation ShG c sym0 := (guarded (shW c) (ShortPacket (shw c) sym0)).
Notation ShE c sym0 := (guarded_end (shW c) (ShortEnd (shw c) sym0)).

Lemma Number_tiny_le max max' v : max <= max' -> 2 <= v < 2 ^ 32 -> Number max' v (tiny max v) (ext max v).
Proof.
  intros Hm Hv. unfold tiny, ext. destruct (v <=? max) eqn:E; [constructor; lia|]. destruct (v <=? 65535) eqn:E2; constructor; lia.
Qed.

Lemma sh_head_ok c k stored range : shok c -> 0 <= k <= shSC c -> 2 <= stored < 2 ^ 32 -> 2 <= range < 2 ^ 32 ->
  ShortHead (shw c) k stored (range - 2)
    (if sh_small c stored range then sh_pack1 c k (w64 (stored - 2)) (w64 (range - 2))
     else sh_pack3 c k (tiny shMAXC stored) (tiny (shMAXR c) range) ++ ext shMAXC stored ++ ext (shMAXR c) range).
Proof.
  intros Hc Hk Hs Hr. pose proof (sh_max_pos c Hc) as (HM1 & HM2 & HM3). pose proof (swC3_max c Hc) as HMC.
  destruct (shw_consts c Hc) as (E1 & E2 & E3 & _).
  destruct (sh_small c stored range) eqn:ES.
  - unfold sh_small in ES. apply andb_true_iff in ES. destruct ES as [ES1 ES2]. rewrite !w64_id in * by lia.
    rewrite sh_pack1_sum by (try assumption; lia). unfold shMAXPR, shMAXPC in *. rewrite <- E1, <- E2 in *. constructor; lia.
  - assert (Htc : 0 <= tiny shMAXC stored <= shMAXC) by (apply tiny_range; unfold shMAXC; lia).
    assert (Htr : 0 <= tiny (shMAXR c) range <= shMAXR c) by (apply tiny_range; lia). unfold shMAXC in Htc.
    rewrite sh_pack3_sum, <- sh_three_be24 by (try assumption; unfold shMAXC; lia).
    apply ShortHead_3; [apply Number_tiny_le; unfold shMAXC; lia|].
    replace (range - 2 + 2) with range by lia. rewrite E3. apply Number_tiny. lia.
Qed.

Lemma sh_pkt c sym0 In i count sym last lut :
  shok c -> len sym = shS c -> Forall is_byte sym -> (shOne c = true -> sym = [sym0]) -> shSHORT c <= count -> 0 <= last <= i - count -> i <= large_in + 8 ->
  (shUnb c = false -> shS c <> 1 -> count mod shS c = 0) ->
  ShG c sym0 lut (sh_head c (sh_key c sym lut) (sh_stored c count) (i - last - count + 2) sym)
    (slice In last (i - count - last)) (periodic sym count) (sh_next c sym lut).
Proof.
  intros Hc Hl Hb Ho Hcnt Hlast Hi Hmod HW. unfold shW in *. pose proof Hc as (HS & _ & HSC & Hone). pose proof (shSHORT_ok c Hc) as (K1 & _).
  destruct (sh_stored_ok c count Hc) as [Hst Hrun]; [lia|exact Hmod|]. unfold large_in in *.
  assert (Hkr : 0 <= sh_key c sym lut <= shSC c).
  { unfold sh_key. destruct (shSC c =? 0) eqn:E; [lia|]. rewrite <- HW by lia. apply lut_index_range. }
  split.
  - rewrite <- repetition_periodic.
    replace (repetition sym count) with (repetition sym (swRun (shw c) (sh_stored c count))) by now rewrite Hrun.
    unfold sh_head. apply ShortPacket_intro with (k := sh_key c sym lut).
    + unfold sh_next, sh_key. destruct (shOne c) eqn:Eo.
      * destruct (Hone eq_refl) as [_ H0]. rewrite H0, andb_false_r, (Ho eq_refl). cbn [Z.eqb]. constructor. exact Eo.
      * rewrite andb_true_r. destruct (shSC c =? 0) eqn:E0.
        { replace (0 =? shSC c) with true by lia. apply ShortSymbol_given; cbn [swOne swSC swS shw]; try assumption. lia. }
        apply ShortSymbol_table; cbn [swOne swSC swS shw]; [exact Eo|lia|]. apply Recall_index; try assumption; [lia|apply HW; lia].
    + rewrite len_slice by lia. replace (i - count - last) with (i - last - count + 2 - 2) by lia. apply sh_head_ok; try assumption; lia.
    + lia.
    + lia.
  - unfold sh_next. intros H0. replace (shSC c =? 0) with false by lia. apply len_lut_front; [lia|lia|now apply HW].
Qed.

Lemma sh_penalty_nonneg c k s r : 1 <= shS c -> 0 <= sh_penalty c k s r.
Proof.
  intros H. unfold sh_penalty, ext_penalty. destruct (_ && _); destruct (sh_small c s r); try lia; destruct (_ && _); try lia;
    destruct (r <=? 1048575); destruct (s <=? 1048575); destruct (r <=? shMAXR c); destruct (s <=? shMAXC); lia.
Qed.

Lemma sh_proc_ok c sym0 In i count sym last lut bytes lut' :
  shok c -> byte_mem In ->
  (shUnb c = false -> shS c <> 1 -> count mod shS c = 0) ->
  0 <= last <= i - count -> i <= large_in + 8 -> len sym = shS c -> Forall is_byte sym -> (shOne c = true -> sym = [sym0]) ->
  sh_proc c In i count sym last lut = Some (bytes, lut') ->
  (exists h, bytes = h ++ slice In last (i - count - last) /\
    ShG c sym0 lut h (slice In last (i - count - last)) (periodic sym count) lut') /\
  Forall is_byte bytes /\ len bytes + shB last <= shB i.
Proof.
  intros Hc HIn Hmod Hl Hi Hs Hb Ho H. pose proof Hc as (HS & _ & HSC & _). pose proof (okS1_pos _ HS) as HS2. pose proof (shSHORT_ok c Hc) as (K1 & _).
  unfold sh_proc in H. cbv zeta in H. fold (sh_key c sym lut) in H. fold (sh_next c sym lut) in H.
  destruct (_ || _) eqn:E; [|discriminate].
  pose proof (sh_penalty_nonneg c (sh_key c sym lut) (sh_stored c count) (i - last - count + 2) ltac:(lia)) as HP0.
  assert (HLS : shSHORT c <= shLONG c) by (unfold shSHORT, shLONG; destruct (shSC c =? 0), (shOne c); cbn [negb orb]; lia).
  assert (Hcnt : shSHORT c <= count) by (apply orb_true_iff in E; lia).
  destruct (sh_stored_ok c count Hc) as [Hst _]; [unfold large_in in *; lia|exact Hmod|].
  pose proof (sh_cost c (sh_key c sym lut) count (sh_stored c count) (i - last - count + 2) Hc Hst E) as HC.
  apply some_pair in H. destruct H as [<- <-]. split; [|split].
  - eexists. split; [reflexivity|]. apply sh_pkt; assumption.
  - apply Forall_app. split; [now apply bytes_sh_head|]. apply Forall_slice. exact HIn.
  - rewrite len_app, len_slice, len_sh_head by (try assumption; lia).
    unfold shB. destruct (i - last - count + 2 <=? 65535) eqn:ER.
    2:{ assert (3 <= count); [|lia]. pose proof (sh_max_pos c Hc) as (HM1 & HM2 & _). unfold large_in in *.
        assert (HF : sh_small c (sh_stored c count) (i - last - count + 2) = false).
        { unfold sh_small. rewrite (w64_id (i - last - count + 2 - 2)) by lia. replace (_ <=? shMAXPR c) with false by lia. reflexivity. }
        rewrite HF in HC. rewrite (len_ext (shMAXR c)) in HC. rewrite ER in HC. replace (_ <=? shMAXR c) with false in HC by lia.
        pose proof (len_nonneg (ext shMAXC (sh_stored c count))). destruct (_ && _); lia. }
    assert (last / 65537 <= i / 65537) by (apply Z.div_le_mono; lia). lia.
Qed.

Lemma sh_term_pack c f : shok c -> f = 0 \/ f = 1 -> sh_term2 c ++ [f] =
  be24 ((0 * 2 ^ swC (shw c) + (2 ^ swC (shw c) - 1)) * 2 ^ (swC3 (shw c) + swL3 (shw c)) + 1 * 2 ^ swL3 (shw c) + f).
Proof.
  intros Hc Hf. pose proof Hc as (_ & _ & HSC & _). pose proof (sh_max_pos c Hc) as (HM1 & _). pose proof (swC3_max c Hc).
  rewrite sh_three_be24 by (try assumption; lia). unfold sh_term2, sh_three, shINVALID.
  destruct (sh_consts c Hc) as [(H1 & H2 & H3 & H4)|[(H1 & H2 & H3 & H4)|[(H1 & H2 & H3 & H4)|(H1 & H2 & H3 & H4)]]];
    rewrite H1, H2, H3, H4; destruct Hf as [-> | ->]; reflexivity.
Qed.

Lemma sh_term_none_ok c sym0 a : shok c -> ShE c sym0 a (sh_term_none c) [].
Proof.
  intros Hc _. pose proof Hc as (HS & _ & HSC & _). pose proof (okS1_pos _ HS) as HS2. unfold sh_term_none.
  rewrite (app_assoc (sh_term2 c) [1]), (sh_term_pack c 1 Hc) by lia.
  apply (ShortEnd_none (shw c) sym0 a 0 0 1 (le16 0) (if sh_nosym c then [0] else [])); cbn [swSC swS shw].
  - lia.
  - constructor. lia.
  - destruct (sh_nosym c); unfold len; cbn [length]; lia.
  - destruct (sh_nosym c); repeat constructor; unfold is_byte; lia.
Qed.

Lemma sh_term_lits_ok c sym0 a lits : shok c -> len lits <= large_in + 8 ->
  exists tb, tb = sh_term_lits c (len lits) ++ lits /\ ShE c sym0 a tb lits.
Proof.
  intros Hc Hlen. eexists. split; [reflexivity|]. intros _. unfold sh_term_lits.
  pose proof Hc as (HS & _ & HSC & Ho). pose proof (okS1_pos _ HS) as HS2. pose proof (len_nonneg lits). unfold large_in in *.
  rewrite (app_assoc (sh_term2 c) [0]), (sh_term_pack c 0 Hc) by lia. rewrite (app_assoc (le16 0)), (app_assoc (be24 _)).
  apply (ShortEnd_lits (shw c) sym0 a 0); cbn [swOne swSC swS shw].
  - apply ShortHead_3; constructor; lia.
  - unfold sh_nosym. destruct (shOne c) eqn:Eo.
    + rewrite andb_false_r. split; reflexivity.
    + rewrite andb_true_r. destruct (shSC c =? 0) eqn:E0.
      * right. split; [lia|]. split; [now rewrite len_repeat by lia|]. apply Forall_forall. intros x Hx. apply repeat_spec in Hx. subst x. unfold is_byte. lia.
      * left. split; [lia|reflexivity].
Qed.

Lemma sh_term_bytes c : shok c -> Forall is_byte (sh_term_none c) /\ forall k, Forall is_byte (sh_term_lits c k).
Proof.
  intros Hc. assert (H2 : Forall is_byte (sh_term2 c)).
  { unfold sh_term2, shINVALID. destruct (sh_consts c Hc) as [(H1 & H2 & H3 & H4)|[(H1 & H2 & H3 & H4)|[(H1 & H2 & H3 & H4)|(H1 & H2 & H3 & H4)]]];
    rewrite H1, H2, H3; repeat constructor; cbn; lia. }
  unfold sh_term_none, sh_term_lits. split; [|intros k]; (apply Forall_app; split; [exact H2|]); constructor; try (unfold is_byte; lia);
    (apply Forall_app; split; [apply Forall_le16|]); (apply Forall_app; split; [first [apply Forall_le16|apply Forall_le32]|]);
    destruct (sh_nosym c); try constructor; try (unfold is_byte; lia); try constructor.
  apply Forall_forall. intros x Hx. apply repeat_spec in Hx. subst x. unfold is_byte. lia.
Qed.

Lemma len_sh_terms c k : shok c -> len (sh_term_none c) <= 8 /\ len (sh_term_lits c k) <= 9 + shS c.
Proof.
  intros (HS & _). pose proof (okS1_pos _ HS) as HS2. unfold sh_term_none, sh_term_lits. rewrite !len_app, !len_le16, len_le32.
  change (len (sh_term2 c)) with 2. change (len [1]) with 1. change (len [0]) with 1. destruct (sh_nosym c); rewrite ?len_nil, ?len_repeat by lia;
  change (len [0]) with 1; lia.
Qed.
