(** rle8_sh: what the writes of the encoder leave in the output buffer, where the bytes grow upwards
    and the bits downwards. *)
From Verif Require Import Base Simd SimdProof Spec MtfModel MtfSpec MzModel MzPack HsModel HsStream HsEnc.

(** *** Bits as bytes *)
Fixpoint bv (l : list bool) : Z := match l with [] => 0 | b :: l => 2 * bv l + Z.b2z b end.
Lemma bv_range l : 0 <= bv l < 2 ^ len l.
Proof.
  induction l as [|b l IH]; [cbv; split; congruence|]. cbn [bv]. rewrite len_cons, Z.pow_add_r by (pose proof (len_nonneg l); lia).
  destruct b; cbn [Z.b2z]; lia.
Qed.
Lemma bv_bit l : forall t, 0 <= t -> Z.testbit (bv l) t = nth (Z.to_nat t) l false.
Proof.
  induction l as [|b l IH]; intros t Ht; cbn [bv].
  - rewrite Z.bits_0. now destruct (Z.to_nat t).
  - destruct (Z.eq_dec t 0) as [->|Hne]; [apply Z.testbit_0_r|].
    replace t with (Z.succ (t - 1)) at 1 by lia. rewrite Z.testbit_succ_r, IH by lia.
    replace (Z.to_nat t) with (S (Z.to_nat (t - 1))) by lia. reflexivity.
Qed.
Definition nthb (B : list bool) (i : Z) : bool := if i <? 0 then false else nth (Z.to_nat i) B false.
(** Bits [8j .. 8j+7] *)
Definition byteof (B : list bool) (j : Z) : Z := bv (map (fun t => nthb B (8 * j + t)) (lanes 8)).
Lemma byteof_range B j : 0 <= byteof B j < 256.
Proof. pose proof (bv_range (map (fun t => nthb B (8 * j + t)) (lanes 8))) as H. exact H. Qed.
Lemma byteof_bit B j t : 0 <= t < 8 -> Z.testbit (byteof B j) t = nthb B (8 * j + t).
Proof.
  intros Ht. unfold byteof. rewrite bv_bit by lia. assert (Hc : t = 0 \/ t = 1 \/ t = 2 \/ t = 3 \/ t = 4 \/ t = 5 \/ t = 6 \/ t = 7) by lia.
  destruct Hc as [->|[->|[->|[->|[->|[->|[->| ->]]]]]]]; reflexivity.
Qed.
Lemma nthb_app_l B C i : i < len B -> nthb (B ++ C) i = nthb B i.
Proof. intros H. unfold nthb. destruct (i <? 0) eqn:E; [reflexivity|]. apply app_nth1. unfold len in H. lia. Qed.
Lemma nthb_last B b : nthb (B ++ [b]) (len B) = b.
Proof. unfold nthb. pose proof (len_nonneg B). replace (len B <? 0) with false by lia. unfold len. rewrite Nat2Z.id, app_nth2, Nat.sub_diag by lia. reflexivity. Qed.
Lemma nthb_out B i : len B <= i -> nthb B i = false.
Proof. intros H. unfold nthb. destruct (i <? 0); [reflexivity|]. apply nth_overflow. unfold len in H. lia. Qed.
Lemma byteof_bits B j v : 0 <= v < 256 -> (forall t, 0 <= t < 8 -> Z.testbit v t = nthb B (8 * j + t)) -> v = byteof B j.
Proof.
  intros Hv H. apply Z.bits_inj'. intros t Ht. destruct (Z_lt_ge_dec t 8) as [Hl|Hg].
  - rewrite byteof_bit, H by lia. reflexivity.
  - pose proof (byteof_range B j). rewrite !(testbit_small _ 8) by lia. reflexivity.
Qed.
Lemma byteof_app_l B C j : 8 * j + 8 <= len B -> byteof (B ++ C) j = byteof B j.
Proof.
  intros H. apply byteof_bits; [apply byteof_range|]. intros t Ht. rewrite byteof_bit, nthb_app_l by lia. reflexivity.
Qed.
Lemma byteof_out B j : len B <= 8 * j -> byteof B j = 0.
Proof. intros H. symmetry. apply byteof_bits; [lia|]. intros t Ht. rewrite nthb_out, Z.bits_0 by lia. reflexivity. Qed.
Lemma lor_byte_256 a b : 0 <= a < 256 -> 0 <= b < 256 -> 0 <= Z.lor a b < 256.
Proof.
  intros Ha Hb. assert (H0 : 0 <= Z.lor a b) by (apply Z.lor_nonneg; lia). split; [exact H0|].
  destruct (Z.eq_dec (Z.lor a b) 0) as [->|Hne]; [lia|]. change 256 with (2 ^ 8). apply Z.log2_lt_pow2; [lia|].
  destruct (Z_lt_ge_dec (Z.log2 (Z.lor a b)) 8) as [|Hge]; [assumption|]. exfalso.
  pose proof (Z.bit_log2 (Z.lor a b) ltac:(lia)) as H. rewrite Z.lor_spec, !(testbit_small _ 8) in H by lia. discriminate.
Qed.
Lemma byteof_push B b : Z.lor (byteof B (len B / 8)) (Z.b2z b * 2 ^ (len B mod 8)) = byteof (B ++ [b]) (len B / 8).
Proof.
  pose proof (len_nonneg B). assert (Hm : 0 <= len B mod 8 < 8) by lia. apply byteof_bits.
  - apply lor_byte_256; [apply byteof_range|]. pose proof (Z.pow_le_mono_r 2 (len B mod 8) 7 ltac:(lia) ltac:(lia)) as Hp. change (2 ^ 7) with 128 in Hp.
    pose proof (Z.pow_pos_nonneg 2 (len B mod 8) ltac:(lia) ltac:(lia)). destruct b; cbn [Z.b2z]; lia.
  - intros t Ht. rewrite Z.lor_spec, byteof_bit, Z.mul_pow2_bits by lia. destruct (Z.eq_dec t (len B mod 8)) as [E|Hne].
    + replace (8 * (len B / 8) + t) with (len B) by lia. rewrite nthb_last, nthb_out by lia. replace (t - len B mod 8) with 0 by lia. cbn [orb]. now destruct b.
    + assert (Hb : Z.testbit (Z.b2z b) (t - len B mod 8) = false).
      { destruct (Z_lt_ge_dec (t - len B mod 8) 0); [now apply Z.testbit_neg_r|]. destruct b; cbn [Z.b2z]; [|apply Z.bits_0]. rewrite (testbit_small 1 1) by lia. reflexivity. }
      rewrite Hb, orb_false_r. destruct (Z_lt_ge_dec (8 * (len B / 8) + t) (len B)); [now rewrite nthb_app_l|].
      rewrite !nthb_out; [reflexivity|rewrite len_app; change (len [b]) with 1; lia|lia].
Qed.

(** *** The invariant of the writer *)
Section Writer.
  Variables (M0 : mem) (pout cap n : Z).
  Let top := pout + cap - 1.
  Definition Fits (B : list bool) (P : list Z) : Prop := 8 + len P + len B / 8 + 1 <= cap.
  Definition wok (w : wst) (B : list bool) (P : list Z) : Prop :=
    w_out w = pout + 8 + len P /\ w_hp w = top - len B / 8 /\ w_next w = len B mod 8 /\ w_hs w = len B / 8 + 1 /\
    (len B / 8 + 5 <= cap -> holds (w_mem w) pout (le32 n)) /\
    (Fits B P -> holds (w_mem w) (pout + 8) P /\ (forall j, 0 <= j <= len B / 8 -> w_mem w (top - j) = byteof B j) /\
       forall x, x < pout \/ pout + cap <= x -> w_mem w x = M0 x).

  Lemma wok_init : cap >= 9 -> wok (mkW (put8 (put32 M0 pout n) top 0) (pout + 8) top 0 1) [] [].
  Proof.
    intros Hcap. unfold wok. cbn [w_out w_hp w_next w_hs w_mem]. change (len []) with 0. change (0 / 8) with 0. change (0 mod 8) with 0.
    split; [lia|]. split; [lia|]. split; [lia|]. split; [lia|]. split.
    - intros _. eapply holds_keep; [apply (holds_store M0 pout (le32 n))|]. intros a Ha. rewrite len_le32 in Ha. rewrite put8_at. replace (a =? top) with false by (unfold top; lia). reflexivity.
    - intros _. split; [exact I|]. split.
      + intros j Hj. replace (top - j) with top by lia. rewrite put8_at, Z.eqb_refl. now rewrite byteof_out by (change (len []) with 0; lia).
      + intros x Hx. rewrite put8_at. replace (x =? top) with false by (unfold top; lia). unfold put32. apply store_out. rewrite len_le32. lia.
  Qed.

  Lemma wok_bit w B P b : wok w B P -> wok (wbit w (Z.b2z b)) (B ++ [b]) P.
  Proof.
    intros (H1 & H2 & H3 & H4 & H5 & H6). pose proof (len_nonneg B). pose proof (len_nonneg P).
    assert (HL : len (B ++ [b]) = len B + 1) by (rewrite len_app; reflexivity).
    assert (HF : Fits (B ++ [b]) P -> Fits B P) by (unfold Fits; rewrite HL; intros; lia).
    unfold wbit. rewrite H3. change 7 with (Z.ones 3). rewrite Z.land_ones by lia. change (2 ^ 3) with 8.
    set (M := put8 (w_mem w) (w_hp w) (Z.lor (w_mem w (w_hp w)) (Z.b2z b * 2 ^ (len B mod 8)))).
    assert (HM : forall x, x <> w_hp w -> M x = w_mem w x) by (intros x Hx; unfold M; rewrite put8_at; now replace (x =? w_hp w) with false by lia).
    assert (HM1 : Fits B P -> M (w_hp w) = byteof (B ++ [b]) (len B / 8)).
    { intros HFt. unfold M. rewrite put8_at, Z.eqb_refl. destruct (H6 HFt) as (_ & K & _). rewrite H2, K by lia. apply byteof_push. }
    assert (HM2 : Fits B P -> forall j, 0 <= j <= len B / 8 -> M (top - j) = byteof (B ++ [b]) j).
    { intros HFt j Hj. destruct (Z.eq_dec j (len B / 8)) as [->|]; [rewrite <- H2; now apply HM1|]. rewrite HM by lia. destruct (H6 HFt) as (_ & K & _).
      rewrite K, byteof_app_l by lia. reflexivity. }
    destruct ((len B mod 8 + 1) mod 8 =? 0) eqn:E; unfold wok; cbn [w_out w_hp w_next w_hs w_mem]; rewrite HL.
    - split; [lia|]. split; [lia|]. split; [lia|]. split; [lia|]. split.
      + intros Hc. eapply holds_keep; [apply H5; lia|]. intros a Ha. rewrite len_le32 in Ha. rewrite put8_at. replace (a =? w_hp w - 1) with false by (unfold top in *; lia). apply HM. unfold top in *; lia.
      + intros HFt. specialize (HF HFt). unfold Fits in HFt. rewrite HL in HFt. destruct (H6 HF) as (K1 & K2 & K3). split; [|split].
        * eapply holds_keep; [exact K1|]. intros a Ha. rewrite put8_at. replace (a =? w_hp w - 1) with false by (unfold top in *; lia). apply HM. unfold top in *; lia.
        * intros j Hj. rewrite put8_at. destruct (top - j =? w_hp w - 1) eqn:Ej.
          -- rewrite byteof_out by (rewrite HL; lia). reflexivity.
          -- apply HM2; [exact HF|]. lia.
        * intros x Hx. rewrite put8_at. replace (x =? w_hp w - 1) with false by (unfold top in *; lia). rewrite HM by (unfold top in *; lia). now apply K3.
    - split; [lia|]. split; [lia|]. split; [lia|]. split; [lia|]. split.
      + intros Hc. eapply holds_keep; [apply H5; lia|]. intros a Ha. rewrite len_le32 in Ha. apply HM. unfold top in *; lia.
      + intros HFt. specialize (HF HFt). unfold Fits in HFt. rewrite HL in HFt. destruct (H6 HF) as (K1 & K2 & K3). split; [|split].
        * eapply holds_keep; [exact K1|]. intros a Ha. apply HM. unfold top in *; lia.
        * intros j Hj. apply HM2; [exact HF|]. lia.
        * intros x Hx. rewrite HM by (unfold top in *; lia). now apply K3.
  Qed.

  Lemma bits_of_S v k : 0 <= k -> bits_of v (k + 1) = bits_of v k ++ [Z.testbit v k].
  Proof. intros Hk. unfold bits_of. rewrite lanes_S, map_app by lia. reflexivity. Qed.
  Lemma wok_bits w B P v c : 0 <= c -> wok w B P -> wok (write_bits w v c) (B ++ bits_of v c) P.
  Proof.
    intros Hc Hw. unfold write_bits.
    pose (I := fun k (s : wst * Z) => wok (fst s) (B ++ bits_of v k) P /\ snd s = v / 2 ^ k).
    enough (K : I c (fold_left (fun '(w, value) _ => (wbit w (Z.land value 1), value / 2)) (lanes c) (w, v))) by apply K.
    apply fold_lanes; [exact Hc| |].
    - split; cbn [fst snd]; [|now rewrite Z.div_1_r]. change (bits_of v 0) with (@nil bool). now rewrite app_nil_r.
    - intros k [w' x] Hk [Hw' Hx]. cbn [fst snd] in *. subst x. split; cbn [fst snd].
      + rewrite bits_of_S, app_assoc by lia. replace (Z.land (v / 2 ^ k) 1) with (Z.b2z (Z.testbit v k)); [now apply wok_bit|].
        change 1 with (Z.ones 1). rewrite Z.land_ones, Z.testbit_spec' by lia. reflexivity.
      + rewrite Z.div_div by lia. rewrite Z.pow_add_r by lia. reflexivity.
  Qed.
  Lemma wok_put w B P l : wok w B P -> wok (exec w (Put l)) B (P ++ l).
  Proof.
    intros (H1 & H2 & H3 & H4 & H5 & H6). pose proof (len_nonneg B). pose proof (len_nonneg P). pose proof (len_nonneg l).
    unfold wok, exec. cbn [w_out w_hp w_next w_hs w_mem]. rewrite len_app. split; [lia|]. split; [exact H2|]. split; [exact H3|]. split; [exact H4|]. split.
    - intros Hc. eapply holds_keep; [apply H5; lia|]. intros a Ha. rewrite len_le32 in Ha. apply store_out. lia.
    - intros HF. unfold Fits in HF. rewrite len_app in HF. destruct H6 as (K1 & K2 & K3); [unfold Fits; lia|]. split; [|split].
      + apply holds_app. split.
        * eapply holds_keep; [exact K1|]. intros a Ha. apply store_out. lia.
        * rewrite <- H1. apply holds_store.
      + intros j Hj. rewrite store_out by (unfold top in *; lia). apply K2. lia.
      + intros x Hx. rewrite store_out by lia. now apply K3.
  Qed.
  Definition op_ok (o : op) : Prop := match o with Bits _ c => 0 <= c | Put _ => True end.
  Lemma wok_ops ops : forall w B P, Forall op_ok ops -> wok w B P -> wok (fold_left exec ops w) (B ++ obits ops) (P ++ obytes ops).
  Proof.
    induction ops as [|o ops IH]; intros w B P Ho Hw; cbn [fold_left obits obytes flat_map]; [now rewrite !app_nil_r|].
    inversion_clear Ho as [|? ? H1 H2]. destruct o as [v c|l].
    - cbn [obit obyte]. rewrite app_assoc. apply IH; [exact H2|]. cbn [app]. apply wok_bits; [exact H1|exact Hw].
    - cbn [obit obyte app]. rewrite app_assoc. apply IH; [exact H2|]. now apply wok_put.
  Qed.

  (** The bytes of the bits, last first. *)
  Definition hdr_len (B : list bool) : Z := (len B + 7) / 8.
  Definition hdr_bytes (B : list bool) : list Z := map (fun t => byteof B (hdr_len B - 1 - t)) (lanes (hdr_len B)).
  Lemma len_lanes c : 0 <= c -> len (lanes c) = c.
  Proof. intros. unfold len, lanes. rewrite map_length, seq_length. lia. Qed.
  Lemma len_hdr_bytes B : len (hdr_bytes B) = hdr_len B.
  Proof. unfold hdr_bytes. unfold len. rewrite map_length. apply len_lanes. unfold hdr_len. pose proof (len_nonneg B). lia. Qed.
  Lemma nth_lanes (f : Z -> Z) c k : 0 <= k < c -> nth (Z.to_nat k) (map f (lanes c)) 0 = f k.
  Proof.
    intros Hk. unfold lanes. rewrite map_map. rewrite (nth_indep _ 0 (f (Z.of_nat 0))) by (rewrite map_length, seq_length; lia).
    rewrite (map_nth (fun x => f (Z.of_nat x)) (seq 0 (Z.to_nat c)) 0%nat (Z.to_nat k)). rewrite seq_nth by lia. f_equal. lia.
  Qed.

  Lemma finish_ok w B P : wok w B P -> 8 + len P + hdr_len B < 2 ^ 32 ->
    let '(hs, hp) := if w_next w =? 0 then (w_hs w - 1, w_hp w + 1) else (w_hs w, w_hp w) in
    let r := w32 (w32 (w_out w - pout) + hs) in
    let M := put32 (move (w_mem w) (w_out w) hp hs) (pout + 4) r in
    r = 8 + len P + hdr_len B /\
    (len B / 8 + 5 <= cap -> holds M pout (le32 n ++ le32 r)) /\
    (Fits B P -> holds M pout (le32 n ++ le32 r ++ P ++ hdr_bytes B) /\ forall x, x < pout \/ pout + cap <= x -> M x = M0 x).
  Proof.
    intros (H1 & H2 & H3 & H4 & H5 & H6) HL. pose proof (len_nonneg B). pose proof (len_nonneg P).
    assert (Hh : (if w_next w =? 0 then (w_hs w - 1, w_hp w + 1) else (w_hs w, w_hp w)) = (hdr_len B, top - hdr_len B + 1)).
    { rewrite H3, H4, H2. unfold hdr_len. destruct (len B mod 8 =? 0) eqn:E; f_equal; lia. }
    rewrite Hh. cbv zeta beta. set (h := hdr_len B) in *. assert (Hh0 : 0 <= h <= len B / 8 + 1 /\ len B / 8 <= h) by (unfold h, hdr_len; lia).
    rewrite H1. replace (pout + 8 + len P - pout) with (8 + len P) by lia.
    assert (Er : w32 (w32 (8 + len P) + h) = 8 + len P + h) by (unfold w32; rewrite (Z.mod_small (8 + len P)), Z.mod_small; lia).
    rewrite Er. set (r := 8 + len P + h) in *. set (M1 := move _ _ _ _). unfold put32. split; [reflexivity|]. split.
    - intros Hc. apply holds_app. rewrite len_le32. split; [|apply holds_store]. eapply holds_keep; [apply H5, Hc|]. intros a Ha. rewrite len_le32 in Ha.
      rewrite store_out by lia. unfold M1, move. now replace ((pout + 8 + len P <=? a) && (a <? pout + 8 + len P + h)) with false by lia.
    - intros HF. destruct (H6 HF) as (K1 & K2 & K3). unfold Fits in HF. split.
      + apply holds_app. rewrite len_le32. split.
        { eapply holds_keep; [apply H5; lia|]. intros a Ha. rewrite len_le32 in Ha. rewrite store_out by lia. unfold M1, move. now replace ((pout + 8 + len P <=? a) && (a <? pout + 8 + len P + h)) with false by lia. }
        apply holds_app. rewrite len_le32. split; [apply holds_store|]. apply holds_app. replace (pout + 4 + 4) with (pout + 8) by lia. split.
        * eapply holds_keep; [exact K1|]. intros a Ha. rewrite store_out by (rewrite len_le32; lia). unfold M1, move. now replace ((pout + 8 + len P <=? a) && (a <? pout + 8 + len P + h)) with false by lia.
        * apply holds_intro. intros k Hk. rewrite len_hdr_bytes in Hk. fold h in Hk. rewrite store_out by (rewrite len_le32; lia).
          unfold hdr_bytes. fold h. rewrite nth_lanes by lia. unfold M1, move. replace ((_ <=? _) && (_ <? _)) with true by lia.
          rewrite <- K2 by lia. f_equal. lia.
      + intros x Hx. rewrite store_out by (rewrite len_le32; lia). unfold M1, move.
        replace ((pout + 8 + len P <=? x) && (x <? pout + 8 + len P + h)) with false by lia. now apply K3.
  Qed.
End Writer.
