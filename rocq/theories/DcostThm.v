(** C73: the decoders take linear time on the streams of the encoders. *)
From Verif Require Import LargeSpec Base Simd SimdProof Spec PktSpec ExtModel ExtDec ExtEnc PktModel PktDec PktEnc Codec Rle8Model Rle8Proof Rle8Single
  Rle8Thm MbModel MbEnc LutModel LutProof SlModel SlProof ShModel ShProof ShEnc ExtThm SlThm ShThm CostModel CostThm DcostModel DcostSpec.

(** *** The macros *)

Lemma copy_loop_cost W C qe pc qc M : 0 < W -> 0 < qc -> 0 <= qe < 2 ^ 64 ->
  exists k, passes (copy_step W C qe) alone (pc, qc, M) = Some k /\ 0 <= k <= Z.max 0 (qe - qc) + 1.
Proof.
  intros HW Hq Hqe.
  apply (passes_bound (copy_step W C qe) alone (fun '(_, q, _) => 0 < q) (fun '(_, q, _) => Z.max 0 (qe - q) + 1) (pc, qc, M)); [|lia|lia].
  intros [[p q] N] H. exists 0. split; [reflexivity|]. split; [lia|]. unfold copy_step.
  destruct (q <? qe) eqn:E; [destruct (al_ok W p)|]; lia.
Qed.

Lemma fill_loop_cost al W v qe qc M : 0 < W -> 0 < qc -> 0 <= qe < 2 ^ 64 ->
  exists k, passes (fill_step al W v qe) alone (qc, M) = Some k /\ 0 <= k <= Z.max 0 (qe - qc) + 1.
Proof.
  intros HW Hq Hqe.
  apply (passes_bound (fill_step al W v qe) alone (fun '(q, _) => 0 < q) (fun '(q, _) => Z.max 0 (qe - q) + 1) (qc, M)); [|lia|lia].
  intros [q N] H. exists 0. split; [reflexivity|]. split; [lia|]. unfold fill_step.
  destruct (q <? qe) eqn:E; [destruct (negb al || al_ok W q)|]; lia.
Qed.

Lemma fill3_loop_cost W v0 v1 v2 qe qc M : 0 < W -> 0 < qc -> 0 <= qe < 2 ^ 64 ->
  exists k, passes (fill3_step W v0 v1 v2 qe) alone (qc, M) = Some k /\ 0 <= k <= Z.max 0 (qe - qc) + 1.
Proof.
  intros HW Hq Hqe.
  apply (passes_bound (fill3_step W v0 v1 v2 qe) alone (fun '(q, _) => 0 < q) (fun '(q, _) => Z.max 0 (qe - q) + 1) (qc, M)); [|lia|lia].
  intros [q N] H. exists 0. split; [reflexivity|]. split; [lia|]. unfold fill3_step. destruct (q <? qe) eqn:E; lia.
Qed.

Lemma w64_range x : 0 <= w64 x < 2 ^ 64.
Proof. unfold w64. apply Z.mod_pos_bound. lia. Qed.

Lemma copy_cost W C p M q off : 0 < W -> 0 < q ->
  exists k, copy_passes W C p M q off = Some k /\ 0 <= k <= Z.max 0 (w64 (q + off) - q) + 1.
Proof.
  intros HW Hq. unfold copy_passes. destruct (off <=? W); [exists 0; split; [reflexivity|lia]|].
  pose proof (Z.mod_pos_bound p W HW). pose proof (w64_range (q + off)).
  destruct (p mod W =? 0).
  - apply copy_loop_cost; assumption.
  - cbv zeta. set (pc := p - p mod W + W).
    destruct (copy_loop_cost W C (w64 (q + off)) pc (q + (pc - p)) (vcopy W C p M q)) as (k & E & Hk); try assumption; [lia|].
    exists k. split; [exact E|lia].
Qed.

Lemma set_cost W b M q cnt : 0 < W -> 0 < q ->
  exists k, set_passes W b M q cnt = Some k /\ 0 <= k <= Z.max 0 (w64 (q + cnt) - q) + 1.
Proof.
  intros HW Hq. unfold set_passes. destruct (cnt <=? W); [exists 0; split; [reflexivity|lia]|].
  pose proof (Z.mod_pos_bound q W HW). pose proof (w64_range (q + cnt)).
  destruct (q mod W =? 0).
  - apply fill_loop_cost; assumption.
  - destruct (fill_loop_cost true W (fun _ => b) (w64 (q + cnt)) (q - q mod W + W) (vstore W (fun _ => b) M q)) as (k & E & Hk); try assumption; [lia|].
    exists k. split; [exact E|lia].
Qed.

Lemma dfill_cost S d reg M q cnt : 0 < q ->
  exists k, dfill_passes S d reg M q cnt = Some k /\ 0 <= k <= Z.max 0 (w64 (q + cnt) - q) + 1.
Proof.
  intros Hq. unfold dfill_passes. pose proof (w64_range (q + cnt)). destruct ((S =? 3) || (S =? 6)).
  - destruct (if S =? 3 then vec24 (dvec d) reg else vec48 (dvec d) reg) as [[v0 v1] v2].
    apply fill3_loop_cost; try assumption. destruct d; cbn; lia.
  - apply fill_loop_cost; try assumption. destruct d; cbn; lia.
Qed.

(** Where the fills end *)
Lemma memsetW_end W b M q cnt q' M' : memsetW W b M q cnt = Some (q', M') -> q' = w64 (q + cnt).
Proof.
  unfold memsetW. destruct (cnt <=? W); [intros H; now injection H as <- _|].
  destruct (if q mod W =? 0 then _ else _) as [qc M1]. destruct (loop _ _) as [[N|]|]; intros H; [now injection H as <- _|discriminate|discriminate].
Qed.
Lemma dfill_end S d reg M q cnt q' M' : dfill S d reg M q cnt = Some (q', M') -> q' = w64 (q + cnt).
Proof.
  unfold dfill, memset_multiW. destruct ((S =? 3) || (S =? 6)).
  - destruct (if S =? 3 then vec24 (dvec d) reg else vec48 (dvec d) reg) as [[v0 v1] v2].
    destruct (loop _ _) as [N|]; intros H; [now injection H as <- _|discriminate].
  - destruct (loop _ _) as [[N|]|]; intros H; [now injection H as <- _|discriminate|discriminate].
Qed.

(** *** The extreme codecs *)

Lemma dcopyW_le d : 0 < dcopyW d <= 64.
Proof. destruct d; cbn; lia. Qed.

Lemma xdec_cost c d C p0 reg0 M0 q0 lsym bytes meaning fsym tb tl :
  cok c -> regok (xS c) reg0 lsym ->
  Ser c lsym bytes meaning fsym -> Term c tb tl ->
  holds C p0 (bytes ++ tb) ->
  0 < p0 -> 0 < q0 -> p0 + len (bytes ++ tb) + 128 < 2 ^ 64 -> q0 + len (meaning ++ tl) + 128 < 2 ^ 64 -> len (meaning ++ tl) < 2 ^ 60 ->
  exists k, passes (dec_step c d C) (ext_dec_inner c d C) (p0, q0, reg0, M0) = Some k /\ k <= 4 * len (meaning ++ tl) + 2.
Proof.
  intros Hc Hreg0 HSer HTerm Hh Hp0 Hq0 HpB HqB Hsm.
  pose proof (xSHORT_pos c Hc) as HSh. pose proof (dcopyW_le d) as HW.
  set (qe := q0 + len (meaning ++ tl)) in *.
  destruct (passes_bound (dec_step c d C) (ext_dec_inner c d C)
    (fun '(p, q, reg, M) => exists lsym bytes meaning fsym,
       regok (xS c) reg lsym /\ Ser c lsym bytes meaning fsym /\
       holds C p (bytes ++ tb) /\ 0 < p /\ p + len (bytes ++ tb) + 128 < 2 ^ 64 /\
       q0 <= q /\ q + len (meaning ++ tl) = qe)
    (fun '(_, q, _, _) => 4 * (qe - q) + 2)
    (p0, q0, reg0, M0)) as (k & E & Hk).
  - clearbody qe. clear reg0 Hreg0 lsym bytes meaning fsym HSer Hh p0 Hp0 HpB Hsm.
    intros [[[p q] reg] M] (lsym & bytes & meaning & fsym & Hreg & HSer & Hh & Hp & HpB & Hq & Hqe).
    pose proof (len_nonneg meaning). pose proof (len_nonneg tl).
    unfold dec_step, ext_dec_inner. destruct HSer as [lsym|lsym sym count lits rf bytes meaning fsym Hcnt Hlen Hrf HSer].
    + (* end marker *)
      cbn [app] in *. destruct HTerm as [|tl rf Hrf].
      * destruct (dec_count_term c C p reg (term_range c) Hc Hh) as (reg' & ->).
        rewrite len_app in HpB. pose proof (len_nonneg (term_range c)). pose proof (len_nonneg (term_count c)).
        apply holds_app in Hh. destruct Hh as [_ Hh]. unfold dec_range, term_range in *.
        rewrite len_nil in *.
        destruct (xP7 c) eqn:EP7; cbn [andb].
        -- destruct (xS c =? 16) eqn:E16; cbn [negb andb] in *.
           ++ cbn [app holds] in Hh. destruct Hh as [Hh _]. rewrite Hh. change (Z.land 0 1 =? 1) with false. cbn iota.
              change (0 / 2) with 0.
              destruct (memcpyW_wrap (dcopyW d) C (p + len (term_count c) + 1) M q) as (M4 & HM4 & Hout4); try lia.
              { apply dcopyW_pos. }
              rewrite HM4. cbn [Z.eqb].
              destruct (copy_cost (dcopyW d) C (p + len (term_count c) + 1) M q (w64 (0 - 1))) as (k & Ek & Hk); try lia.
              rewrite Ek. cbn [oadd]. exists (k + 0). split; [reflexivity|].
              replace (w64 (q + w64 (0 - 1))) with (q - 1) in Hk; [lia|].
              change (w64 (0 - 1)) with (2 ^ 64 - 1). unfold w64. replace (q + (2 ^ 64 - 1)) with ((q - 1) + 1 * 2 ^ 64) by lia.
              rewrite Z.mod_add by lia. rewrite Z.mod_small by lia. reflexivity.
           ++ rewrite (rd32_holds C _ 1 []) by (try (rewrite app_nil_r; exact Hh); lia).
              unfold le32 in Hh. cbn [app holds] in Hh. destruct Hh as [Hh _]. rewrite Hh.
              change (Z.land (1 mod 256) 1 =? 1) with true. cbn iota. change (1 / 2 =? 0) with true. cbn iota.
              exists 0. split; [reflexivity|]. lia.
        -- cbn [andb] in Hh. change (0 :: le32 0) with ([0] ++ le32 0) in Hh. apply holds_app in Hh. destruct Hh as [[Hh _] Hh2].
           rewrite Hh. cbn [Z.eqb]. change (len [0]) with 1 in Hh2.
           rewrite (rd32_holds C _ 0 []) by (try (rewrite app_nil_r; exact Hh2); lia).
           cbn [Z.eqb]. exists 0. split; [reflexivity|]. lia.
      * destruct (dec_count_term c C p reg (rf ++ tl) Hc Hh) as (reg' & ->).
        rewrite len_app in HpB. pose proof (len_nonneg (term_count c)).
        rewrite len_app in HpB. pose proof (len_nonneg rf).
        apply holds_app in Hh. destruct Hh as [_ Hh].
        rewrite (dec_range_ok c C _ (len tl + 1) rf tl Hrf Hh).
        apply holds_app in Hh. destruct Hh as [_ Hh].
        destruct (copy_lits d C (p + len (term_count c) + len rf) M q tl []) as (M4 & HM4 & Hs4 & Hout4); try lia.
        { rewrite app_nil_r. exact Hh. }
        rewrite HM4. cbn [Z.eqb].
        destruct (copy_cost (dcopyW d) C (p + len (term_count c) + len rf) M q (w64 (len tl + 1 - 1))) as (k & Ek & Hk); try lia.
        rewrite Ek. cbn [oadd]. exists (k + 0). split; [reflexivity|].
        rewrite (w64_id (len tl + 1 - 1)) in Hk by lia. rewrite w64_id in Hk by lia. lia.
    + (* packet *)
      pose proof (stored_ok c count Hc Hcnt) as [Hst Hdec].
      rewrite <- !app_assoc in Hh.
      destruct (dec_count_ok c C p reg sym lsym count _ Hc Hcnt Hlen Hreg Hh) as (reg' & -> & Hreg').
      rewrite <- !app_assoc in HpB. rewrite len_app in HpB. pose proof (len_nonneg (emit_count c sym lsym count)).
      apply holds_app in Hh. destruct Hh as [_ Hh].
      rewrite (dec_range_ok c C _ (len lits + 1) rf _ Hrf Hh).
      rewrite len_app in HpB. pose proof (len_nonneg rf).
      apply holds_app in Hh. destruct Hh as [_ Hh].
      rewrite (len_app lits (bytes ++ tb)) in HpB.
      pose proof (len_nonneg lits). pose proof (len_nonneg (bytes ++ tb)).
      assert (Hcp : 1 <= count) by (destruct Hcnt; lia).
      pose proof (len_periodic sym count ltac:(lia)) as Hlper.
      rewrite <- !app_assoc in Hqe. rewrite !len_app, Hlper in Hqe. pose proof (len_nonneg meaning).
      destruct (copy_lits d C (p + len (emit_count c sym lsym count) + len rf) M q lits (bytes ++ tb)) as (M4 & HM4 & Hs4 & Hout4); try lia.
      { exact Hh. }
      rewrite HM4. replace (stored_count c count =? 0) with false by lia.
      fold (decoded_count c (stored_count c count)). rewrite Hdec.
      destruct (dfill_spec (xS c) d reg' M4 (q + len lits) count) as (M5 & HM5 & Hin5 & Hout5); try lia.
      { apply Hc. }
      { apply Hreg'. }
      rewrite HM5.
      destruct (copy_cost (dcopyW d) C (p + len (emit_count c sym lsym count) + len rf) M q (w64 (len lits + 1 - 1))) as (k & Ek & Hk); try lia.
      destruct (dfill_cost (xS c) d reg' M4 (q + len lits) count) as (k2 & Ek2 & Hk2); try lia.
      rewrite Ek, Ek2. cbn [oadd]. exists (k + k2). split; [reflexivity|].
      rewrite (w64_id (len lits + 1 - 1)) in Hk by lia. rewrite w64_id in Hk by lia. rewrite w64_id in Hk2 by lia.
      split; [lia|]. split; [|lia].
      exists sym, bytes, meaning, fsym. split; [exact Hreg'|]. split; [exact HSer|].
      apply holds_app in Hh. split; [apply Hh|]. split; [lia|]. split; [lia|]. split; [lia|]. rewrite len_app. lia.
  - exists lsym, bytes, meaning, fsym. repeat split; try assumption; try lia; apply Hreg0.
  - subst qe. pose proof (len_nonneg (meaning ++ tl)). lia.
  - exists k. split; [exact E|]. subst qe. lia.
Qed.

(** *** The codecs with the shape of PktModel.v *)

Section Pkt.
  Context {D T A : Type} (parse : D -> mem -> Z -> T -> pres T)
    (fill : D -> T -> mem -> Z -> Z -> option (Z * mem)) (fillp : D -> T -> mem -> Z -> Z -> option Z) (W : D -> Z) (R : T -> A -> Prop).
  Hypothesis HW : forall d, 0 < W d <= 64.
  Hypothesis HF : forall d reg M q cnt q' M', 0 < q -> fill d reg M q cnt = Some (q', M') ->
    exists k, fillp d reg M q cnt = Some k /\ 0 <= k <= Z.max 0 (q' - q) + 1.

  Lemma pkt_cost d C p0 reg0 M0 q0 a bytes meaning a1 tb tl :
    R reg0 a -> Serial (Pkt parse fill R) a bytes meaning a1 -> GTerm parse R a1 tb tl ->
    holds C p0 (bytes ++ tb) ->
    0 < p0 -> 0 < q0 -> p0 + len (bytes ++ tb) + 128 < 2 ^ 64 -> q0 + len (meaning ++ tl) + 128 < 2 ^ 64 -> len (meaning ++ tl) < 2 ^ 60 ->
    exists k, passes (pkt_step (parse d) (fill d) (W d) C) (pkt_inner (parse d) (fillp d) (W d) C) (p0, q0, reg0, M0) = Some k /\
      k <= 4 * len (meaning ++ tl) + 2.
  Proof.
    intros Hreg0 HSer HTerm Hh Hp0 Hq0 HpB HqB Hsm. pose proof (HW d) as HWd.
    set (qe := q0 + len (meaning ++ tl)) in *.
    destruct (passes_bound (pkt_step (parse d) (fill d) (W d) C) (pkt_inner (parse d) (fillp d) (W d) C)
      (fun '(p, q, reg, M) => exists a bytes meaning,
         R reg a /\ Serial (Pkt parse fill R) a bytes meaning a1 /\
         holds C p (bytes ++ tb) /\ 0 < p /\ p + len (bytes ++ tb) + 128 < 2 ^ 64 /\
         q0 <= q /\ q + len (meaning ++ tl) = qe)
      (fun '(_, q, _, _) => 4 * (qe - q) + 2)
      (p0, q0, reg0, M0)) as (k & E & Hk).
    - clearbody qe. clear reg0 Hreg0 a bytes meaning HSer Hh p0 Hp0 HpB Hsm.
      intros [[[p q] reg] M] (a & bytes & meaning & Hreg & HSer & Hh & Hp & HpB & Hq & Hqe).
      pose proof (len_nonneg meaning). pose proof (len_nonneg tl).
      unfold pkt_step, pkt_inner. destruct HSer as [a|a h lits run a' bytes meaning a2 HP HSer].
      + cbn [app] in *. destruct HTerm as [tb HT|h tl HT].
        * rewrite (HT d C p reg Hreg Hh). exists 0. split; [reflexivity|]. rewrite len_nil in Hqe. lia.
        * apply holds_app in Hh. destruct Hh as [Hh1 Hh2].
          destruct (HT d C p reg Hreg Hh1) as (reg' & ->).
          rewrite len_app in HpB. pose proof (len_nonneg h).
          destruct (memcpyW_spec (W d) C (p + len h) M q (len tl)) as (M4 & HM4 & _); try lia.
          rewrite HM4. cbn [Z.eqb].
          destruct (copy_cost (W d) C (p + len h) M q (len tl)) as (k & Ek & Hk); try lia.
          rewrite w64_id in Hk by lia. rewrite Ek. cbn [oadd]. exists (k + 0). split; [reflexivity|]. lia.
      + destruct HP as [Hrun HP].
        rewrite <- !app_assoc in Hh. rewrite <- !app_assoc in HpB. rewrite !len_app in HpB.
        apply holds_app in Hh. destruct Hh as [Hh1 Hh].
        destruct (HP d C p reg Hreg Hh1) as (reg' & cnt & -> & Hcnt & Hreg' & Hfill).
        rewrite <- !app_assoc in Hqe. rewrite !len_app in Hqe.
        pose proof (len_nonneg h). pose proof (len_nonneg lits). pose proof (len_nonneg bytes).
        pose proof (len_nonneg tb). pose proof (len_nonneg meaning).
        destruct (memcpyW_spec (W d) C (p + len h) M q (len lits)) as (M4 & HM4 & _); try lia.
        rewrite HM4. replace (cnt =? 0) with false by lia.
        destruct (Hfill M4 (q + len lits)) as (M5 & HM5 & Hin5 & Hout5); try lia.
        rewrite HM5.
        destruct (copy_cost (W d) C (p + len h) M q (len lits)) as (k & Ek & Hk); try lia.
        destruct (HF d reg' M4 (q + len lits) cnt _ _ ltac:(lia) HM5) as (k2 & Ek2 & Hk2).
        rewrite w64_id in Hk by lia. rewrite Ek, Ek2. cbn [oadd]. exists (k + k2). split; [reflexivity|].
        split; [lia|]. split; [|lia].
        exists a', bytes, meaning. split; [exact Hreg'|]. split; [exact HSer|].
        apply holds_app in Hh. split; [apply Hh|]. rewrite !len_app. split; [lia|]. split; [lia|]. split; lia.
    - exists a, bytes, meaning. repeat split; try assumption; lia.
    - subst qe. pose proof (len_nonneg (meaning ++ tl)). lia.
    - exists k. split; [exact E|]. subst qe. lia.
  Qed.

  Lemma stream_cost d C p reg M q a body In n :
    StreamP (Pkt parse fill R) (GTerm parse R) 16 a body In n -> R reg a -> holds C p body -> 0 <= n <= max_in ->
    0 < p -> 0 < q -> p + len body + 128 < 2 ^ 64 -> q + n + 256 < 2 ^ 64 ->
    exists k, passes (pkt_step (parse d) (fill d) (W d) C) (pkt_inner (parse d) (fillp d) (W d) C) (p, q, reg, M) = Some k /\ k <= 4 * n + 66.
  Proof.
    intros (bytes & meaning & a1 & tb & tl & m & -> & HS & HT & Hm & Hmn & _) HR Hh Hn Hp Hq HpB HqB. unfold max_in in Hn.
    assert (Htot : len (meaning ++ tl) = m) by (rewrite Hm; apply len_slice; lia).
    destruct (pkt_cost d C p reg M q a bytes meaning a1 tb tl) as (k & E & Hk); try assumption; try lia.
    exists k. split; [exact E|lia].
  Qed.
End Pkt.

Lemma set_fill_cost W b M q cnt q' M' : 0 < W -> 0 < q -> memsetW W b M q cnt = Some (q', M') ->
  exists k, set_passes W b M q cnt = Some k /\ 0 <= k <= Z.max 0 (q' - q) + 1.
Proof. intros HW Hq H. apply memsetW_end in H. subst q'. now apply set_cost. Qed.

Lemma lvl_fill_cost S l reg M q cnt q' M' : 0 < q -> lvl_fill S l reg M q cnt = Some (q', M') ->
  exists k, lvl_fillp S l reg M q cnt = Some k /\ 0 <= k <= Z.max 0 (q' - q) + 1.
Proof.
  unfold lvl_fill, lvl_fillp. intros Hq H. destruct (S =? 1).
  - eapply set_fill_cost; try eassumption. destruct l; cbn; lia.
  - apply dfill_end in H. subst q'. now apply dfill_cost.
Qed.

(** *** Results *)

Lemma ext_linear_decode c v d : List.In c xcodecs -> LinearDecode (xcompress c v false false) rle_compress_bounds (xdec_passes c d) 4 66.
Proof.
  intros Hin In n cap HIn Hn Hcap. apply xcodecs_cok in Hin. pose proof Hin as [HS _]. pose proof (okS_pos _ HS) as HS2.
  destruct (xcompress_ok c v In n cap Hin HIn (max_large1 n Hn) Hcap) as (bytes & meaning & fsym & tb & tl & m & HC & H1 & H2 & H3 & H4 & H5 & H6).
  eexists. split; [exact HC|]. intros C pin M pout Hh Hpin Hpin2 Hpout Hpout2. unfold max_in in Hn.
  rewrite !len_app, !len_le32 in Hpin2. pose proof (len_nonneg bytes). pose proof (len_nonneg tb).
  apply holds_app in Hh. destruct Hh as [_ Hh]. rewrite len_le32 in Hh.
  apply holds_app in Hh. destruct Hh as [_ Hh]. rewrite len_le32 in Hh.
  assert (Htot : len (meaning ++ tl) = m) by (rewrite H3; apply len_slice; lia).
  destruct (xdec_cost c d C (pin + 8) (repeat 0 (Z.to_nat (rawS (xS c)))) M pout (repeat 0 (Z.to_nat (xS c))) bytes meaning fsym tb tl)
    as (k & E & Hk); try assumption; try lia.
  - now apply regok_zero.
  - replace (pin + 8) with (pin + 4 + 4) by lia. exact Hh.
  - rewrite len_app. lia.
  - exists k. split; [exact E|lia].
Qed.

Lemma m8_linear_decode pk v d : LinearDecode (m_compress pk v false false) rle_compress_bounds (r8_dec_passes pk d) 4 66.
Proof.
  intros In n cap HIn Hn Hcap. destruct (m_compress_ok pk v In n cap HIn (max_large1 n Hn) Hcap) as (body & HC & HS & Hl).
  eexists. split; [exact HC|]. intros C pin M pout Hh Hpin Hpin2 Hpout Hpout2.
  apply (StreamP_mono _ (MPkt pk) _ (MTerm pk) 0 16) in HS; [|apply M8Packet_pkt|apply M8End_term|lia].
  rewrite !len_app, !len_le32 in *. change (len [0]) with 1 in *. pose proof (len_nonneg body).
  apply holds_app in Hh. destruct Hh as [_ Hh]. rewrite len_le32 in Hh.
  apply holds_app in Hh. destruct Hh as [_ Hh]. rewrite len_le32 in Hh.
  cbn [app holds] in Hh. destruct Hh as [Hmode Hh].
  replace (pin + 4 + 4) with (pin + 8) in * by lia. unfold r8_dec_passes. rewrite Hmode. cbn [Z.eqb].
  apply (stream_cost (fun _ : d8 => m_parse pk) (m_fill pk) (m_fillp pk) d8W eq d8W_ok) with (a := 0) (body := body) (In := In); try assumption; try lia; try reflexivity.
  - intros d1 reg M1 q cnt q' M' Hq. apply set_fill_cost; [|exact Hq]. pose proof (d8W_ok d1). lia.
  - replace (pin + 9) with (pin + 8 + 1) by lia. exact Hh.
Qed.

Lemma s8_linear_decode pk d : LinearDecode (s_compress pk false false) rle_compress_bounds (r8_dec_passes pk d) 4 66.
Proof.
  intros In n cap HIn Hn Hcap. destruct (s_compress_ok pk In n cap HIn (max_large1 n Hn) Hcap) as (sym & body & HC & Hsym & HS & Hl).
  eexists. split; [exact HC|]. intros C pin M pout Hh Hpin Hpin2 Hpout Hpout2.
  apply (StreamP_mono _ (S8Pkt pk sym) _ (S8Term sym) 0 16) in HS; [|apply S8Packet_pkt|apply S8End_term|lia].
  rewrite !len_app, !len_le32 in *. change (len [1]) with 1 in *. change (len [sym]) with 1 in *. pose proof (len_nonneg body).
  apply holds_app in Hh. destruct Hh as [_ Hh]. rewrite len_le32 in Hh.
  apply holds_app in Hh. destruct Hh as [_ Hh]. rewrite len_le32 in Hh.
  cbn [app holds] in Hh. destruct Hh as (Hmode & Hs & Hh).
  replace (pin + 4 + 4) with (pin + 8) in * by lia. replace (pin + 8 + 1) with (pin + 9) in * by lia.
  unfold r8_dec_passes. rewrite Hmode. cbn [Z.eqb]. rewrite Hs.
  apply (stream_cost (fun _ : d8 => s_parse) (s_fill pk) (s_fillp pk) d8W (SR sym) d8W_ok) with (a := tt) (body := body) (In := In); try assumption; try lia; try reflexivity.
  - intros d1 reg M1 q cnt q' M' Hq. apply set_fill_cost; [|exact Hq]. pose proof (d8W_ok d1). lia.
  - replace (pin + 10) with (pin + 9 + 1) by lia. exact Hh.
Qed.

Lemma sl_linear_decode c v l : List.In c slcodecs -> LinearDecode (sl_compress c v false false) rle_compress_bounds (sl_dec_passes c l) 4 66.
Proof.
  intros Hc In n cap HIn Hn Hcap. apply slcodecs_ok in Hc.
  destruct (sl_compress_ok c v In n cap Hc HIn (max_large1 n Hn) Hcap) as (body & HC & HS & Hlen).
  eexists. split; [exact HC|]. intros C pin M pout Hh Hpin Hpin2 Hpout Hpout2.
  apply (StreamP_mono _ (SlPkt c) _ (SlTerm c) _ 16) in HS; [|intros; now apply LutPacket_pkt|intros; now apply LutEnd_term|destruct Hc as (_ & H8 & _); destruct (_ =? _); lia].
  rewrite !len_app, !len_le32 in *. pose proof (len_nonneg body).
  apply holds_app in Hh. destruct Hh as [_ Hh]. rewrite len_le32 in Hh.
  apply holds_app in Hh. destruct Hh as [_ Hh]. rewrite len_le32 in Hh.
  unfold sl_dec_passes.
  apply (stream_cost (sl_parse c) (sl_fill c) (sl_fillp c) (lvl_copyW (slS c)) (Rlut (slS c) (slSC c)) (lvl_copyW_ok (slS c)))
    with (a := lut_init (slS c) (slSC c)) (body := body) (In := In); try assumption; try lia.
  - intros l1 reg M1 q cnt q' M' Hq. now apply lvl_fill_cost.
  - destruct Hc as (HS1 & _ & HSC). pose proof (okS1_pos _ HS1). apply lut_init_ok; lia.
  - replace (pin + 8) with (pin + 4 + 4) by lia. exact Hh.
Qed.

Lemma sh_linear_decode c comp l : sh_encoder c comp -> LinearDecode (comp false false) rle_compress_bounds (sh_dec_passes c l) 4 66.
Proof.
  intros He In n cap HIn Hn Hcap. destruct (sh_encoder_ok c comp He) as (bd & -> & Hc & HB).
  destruct (HB In n HIn (max_large1 n Hn)) as (body & Hl & (sym0 & stream & Hsym & Hbody & HS) & Hb & HL). pose proof (shsize_small n (max_large1 n Hn)).
  exists (le32 n ++ le32 (8 + len body) ++ body). split.
  { unfold sh_wrap. cbn [orb]. replace (n =? 0) with false by lia. replace (cap <? rle_compress_bounds n) with false by lia. cbn [orb].
    rewrite Hl. reflexivity. }
  intros C pin M pout Hh Hpin Hpin2 Hpout Hpout2.
  rewrite !len_app, !len_le32 in *. pose proof (len_nonneg body).
  apply holds_app in Hh. destruct Hh as [_ Hh]. rewrite len_le32 in Hh.
  apply holds_app in Hh. destruct Hh as [_ Hh]. rewrite len_le32 in Hh.
  replace (pin + 4 + 4) with (pin + 8) in Hh by lia.
  apply (StreamP_mono _ (ShPkt c sym0) _ (ShTerm c sym0) _ 16) in HS;
    [|intros; now apply ShortPacket_pkt|intros; now apply ShortEnd_term|destruct Hc as (_ & H8 & _); destruct (_ =? _); lia].
  rewrite first_table_init in HS. unfold sh_dec_passes.
  assert (HF : forall (l1 : lvl) reg M1 q cnt q' M', 0 < q -> sh_fill c l1 reg M1 q cnt = Some (q', M') ->
    exists k, sh_fillp c l1 reg M1 q cnt = Some k /\ 0 <= k <= Z.max 0 (q' - q) + 1).
  { intros l1 reg M1 q cnt q' M' Hq. now apply lvl_fill_cost. }
  destruct (shOne c) eqn:Ho.
  - subst body. cbn [holds] in Hh. destruct Hh as [Hh1 Hh]. rewrite Hh1, len_cons in *.
    replace (pin + 8 + 1) with (pin + 9) in Hh by lia.
    apply (stream_cost (sh_parse c) (sh_fill c) (sh_fillp c) (lvl_copyW (shS c)) (Rsh c sym0) (lvl_copyW_ok (shS c)) HF)
      with (a := lut_init (shS c) (shSC c)) (body := stream) (In := In); try assumption; try lia.
    unfold Rsh. rewrite Ho. reflexivity.
  - subst body.
    apply (stream_cost (sh_parse c) (sh_fill c) (sh_fillp c) (lvl_copyW (shS c)) (Rsh c sym0) (lvl_copyW_ok (shS c)) HF)
      with (a := lut_init (shS c) (shSC c)) (body := stream) (In := In); try assumption; try lia.
    unfold Rsh. rewrite Ho. destruct Hc as (HS1 & _ & HSC & _). pose proof (okS1_pos _ HS1). apply lut_init_ok; lia.
Qed.
