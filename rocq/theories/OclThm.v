(** The OpenCL decompressor of rle8m. *)
From Coq Require Import Permutation.
From Verif Require Import Base Simd SimdProof Spec Spec2 ExtModel ExtEnc PktModel Rle8Model LeModel LeTable LeDec LeEnc LeSize LeThm RmThm OclModel.

(** *** The stream of rle8m_compress *)
Definition sec_len (n subs j : Z) : Z := if j =? subs - 1 then n - n / subs * (subs - 1) else n / subs.

Lemma rm_form subs In n cap out : 1 <= subs <= 2 ^ 28 -> byte_mem In -> 1 <= n <= max_in -> rm_compress subs false false In n cap = COk out ->
  exists info stc offs data idx, InfoOk info /\ (forall k, 0 <= k < 256 -> stc (tab 0 (li_syms info) k) = k) /\
    out = le32 (len out) ++ le32 n ++ le32 subs ++ offs ++ write_info info ++ data /\ len offs = 4 * (subs - 1) /\
    idx 0 = 12 + 4 * (subs - 1) + len (write_info info) /\ idx subs = len out /\ len out < 2 ^ 32 /\
    (forall j, 0 <= j < subs - 1 -> exists o1 o2, offs = o1 ++ le32 (idx (j + 1)) ++ o2 /\ len o1 = 4 * j) /\
    (forall j, 0 <= j < subs -> idx 0 <= idx j /\ idx (j + 1) <= len out /\
      exists t1 body t2, data = t1 ++ body ++ t2 /\ len t1 = idx j - idx 0 /\ len body = idx (j + 1) - idx j /\
        Ser 255 (li_rle info) stc body (slice In (n / subs * j) (sec_len n subs j))).
Proof.
  intros Hs HIn Hn. unfold rm_compress. destruct (false || (n =? 0) || false || (cap <? rm_bounds subs n) || (subs =? 0)); [discriminate|].
  set (info := le_info 255 false In n). assert (HI : InfoOk info) by apply le_info_ok. destruct (cap <? 32 + 256 + 1); [discriminate|].
  destruct (syms_inverse info HI) as (stc & Hstc). set (sub := n / subs). set (head := write_info info). set (base := 12 + 4 * (subs - 1) + len head).
  destruct (loop (rm_step info In subs sub cap) (0, base, [], [])) as [[r [[index offs] secs]]|] eqn:E1; [|discriminate].
  pose proof (rm_loop_ok info stc In n subs HI Hstc HIn Hn Hs cap _ _ E1) as HR. destruct r as [r| |]; try discriminate. clear E1.
  pose proof (base_bounds info subs HI Hs) as HB. fold head base in HB.
  pose proof (sub_bounds n subs Hn Hs (subs - 1) ltac:(lia)) as [S1 S2]. pose proof (sub_bounds n subs Hn Hs subs ltac:(lia)) as [_ S3]. fold sub in S1, S2, S3.
  assert (S4 : sub * subs = sub * (subs - 1) + sub) by ring.
  assert (Esw : w32 (sub * (subs - 1)) = sub * (subs - 1)) by (apply (sub_w32 n subs Hn Hs (subs - 1)); lia). rewrite Esw. unfold max_in in Hn. rewrite (w32_id (n - sub * (subs - 1))) by lia. set (rest := n - sub * (subs - 1)).
  destruct (le_with_info 255 info (fun k => In (sub * (subs - 1) + k)) rest (w32 (cap - index))) as [[body|]|] eqn:E2; try discriminate.
  intros H.
  assert (HO : out = le32 (w32 (index + len body)) ++ le32 n ++ le32 subs ++ offs ++ head ++ secs ++ body)
    by (symmetry; exact (f_equal (fun r => match r with COk o => o | _ => [] end) H)). clear H.
  assert (Hrest : 1 <= rest) by (apply (section_pos info In rest _ _ _ ltac:(lia) E2)).
  assert (HS : Ser 255 (li_rle info) stc body (slice In (sub * (subs - 1)) rest)) by (eapply section_ser; [exact HI|exact Hstc|exact HIn|exact Hrest|lia|exact E2]).
  assert (Hlb : len body <= 2 * rest) by (pose proof (ser_len _ _ _ _ _ HS) as K; rewrite len_slice in K by lia; exact K).
  destruct HR as (R1 & R2 & R3 & R4 & R5 & R6 & idx & R7 & R8 & R9). fold head base sub in R3, R4, R7, R9.
  pose proof (len_nonneg body). pose proof (len_nonneg secs).
  rewrite w32_id in HO by lia.
  assert (Hlen : len out = index + len body) by (rewrite HO, !len_app, !len_le32; lia).
  exists info, stc, offs, (secs ++ body), (upd idx subs (len out)). split; [exact HI|]. split; [exact Hstc|]. split; [rewrite Hlen; exact HO|]. split; [exact R2|].
  rewrite upd_other by lia. split; [exact R7|]. split; [apply upd_same|]. split; [lia|]. split.
  - intros j Hj. destruct (R9 j ltac:(lia)) as (K1 & body' & o1 & o2 & t1 & t2 & K2 & K3 & _). exists o1, o2. rewrite upd_other by lia. auto.
  - intros j Hj. unfold sec_len. fold sub rest. rewrite (upd_other idx subs (len out) j) by lia. destruct (j =? subs - 1) eqn:Ej.
    + assert (j = subs - 1) by lia. subst j. replace (subs - 1 + 1) with subs by lia. rewrite upd_same. fold head base in R7. split; [lia|]. split; [lia|].
      exists secs, body, []. rewrite app_nil_r. split; [reflexivity|]. split; [lia|]. split; [lia|]. exact HS.
    + destruct (R9 j ltac:(lia)) as (K1 & body' & o1 & o2 & t1 & t2 & K2 & K3 & K4 & K5 & K6 & K7). rewrite upd_other by lia.
      assert (HL : len secs = len t1 + len body' + len t2) by (rewrite K4, !len_app; lia). pose proof (len_nonneg t1). pose proof (len_nonneg t2).
      fold head base in K5. split; [lia|]. split; [lia|]. exists t1, body', (t2 ++ body). rewrite K4, <- !app_assoc. split; [reflexivity|]. split; [lia|]. split; [exact K6|]. exact K7.
Qed.

(** *** The work groups *)
Lemma slice_split m a n k : 0 <= k <= n -> slice m a n = slice m a k ++ slice m (a + k) (n - k).
Proof. intros H. replace n with (k + (n - k)) at 1 by lia. apply slice_app; lia. Qed.

Lemma slice_cons_inv m a b l : slice m a (1 + len l) = b :: l -> m a = b /\ slice m (a + 1) (len l) = l.
Proof.
  intros H. pose proof (len_nonneg l) as Hl. rewrite (slice_split m a (1 + len l) 1) in H by lia. rewrite slice_1 in H. replace (1 + len l - 1) with (len l) in H by lia.
  split; [exact (f_equal (hd 0) H)|exact (f_equal (@tl Z) H)].
Qed.

Definition occ (g : Z) (l : list Z) : Z := len (filter (Z.eqb g) l).
Lemma occ_cons g x l : occ g (x :: l) = (if g =? x then 1 else 0) + occ g l.
Proof. unfold occ. cbn [filter]. destruct (g =? x); [rewrite len_cons|]; lia. Qed.

Section Groups.
  Variables (hit : Z -> bool) (stc : Z -> Z) (D : mem) (offs : Z -> Z) (In : mem) (n subs : Z) (G0 : mem).
  (** [st j]: start of slice [j] of the output; group [j] has the packets of that slice. *)
  Let st (j : Z) := n / subs * j.
  Let en (j : Z) := st j + sec_len n subs j.
  Hypothesis Hn : 1 <= n < 2 ^ 32.
  Hypothesis Hs : 1 <= subs.
  Hypothesis Hsec : forall j, 0 <= j < subs -> exists body, holds D (offs j) body /\ offs (j + 1) = offs j + len body /\ Ser 255 hit stc body (slice In (st j) (sec_len n subs j)).

  Lemma st_bounds j : 0 <= j < subs -> 0 <= st j /\ st j <= en j <= n /\ forall i, 0 <= i < j -> en i <= st j.
  Proof.
    clear Hsec. intros Hj. unfold en, st, sec_len. assert (Hsub : 0 <= n / subs) by (apply Z.div_pos; lia). pose proof (Z.mul_div_le n subs ltac:(lia)) as H. set (sub := n / subs) in *. clearbody sub.
    assert (sub * j <= sub * (subs - 1)) by nia. assert (sub * (subs - 1) + sub = subs * sub) by ring. split; [nia|]. split.
    - destruct (j =? subs - 1) eqn:E; [assert (j = subs - 1) by lia; subst j; lia|]. assert (sub * j + sub <= sub * (subs - 1)) by nia. lia.
    - intros i Hi. replace (i =? subs - 1) with false by lia. nia.
  Qed.

  (** What group [j] has still to write. *)
  Definition GInv (j : Z) (k : kst) (G : mem) (m : Z) : Prop :=
    exists s o q, match k with
      | KHead p q' => q' = q /\ holds D p s /\ p + len s = offs (j + 1) /\ Ser 255 hit stc s o /\ m = 2 * len o
      | KRun p q' b count i => q' = q /\ holds D p s /\ p + len s = offs (j + 1) /\ 0 <= i <= count /\
          exists o', Ser 255 hit stc s o' /\ o = repeat b (Z.to_nat (count - i)) ++ o' /\ m = 2 * len o + 1
      end /\
      st j <= q /\ q + len o = en j /\ slice In q (len o) = o /\ slice G (st j) (q - st j) = slice In (st j) (q - st j).

  Lemma ginv_step j k G m : 0 <= j < subs -> GInv j k G m ->
    exists m', GInv j (fst (kstep hit stc D (offs (j + 1)) k G)) (snd (kstep hit stc D (offs (j + 1)) k G)) m' /\ 0 <= m' <= Z.max 0 (m - 1) /\
      forall x, x < st j \/ en j <= x -> snd (kstep hit stc D (offs (j + 1)) k G) x = G x.
  Proof.
    intros Hj (s & o & q & Hk & H1 & H2 & H3 & H4). destruct k as [p q'|p q' b count i]; cbn [kstep].
    - destruct Hk as (-> & K1 & K2 & K3 & ->). destruct (p <? offs (j + 1)) eqn:E.
      + inversion K3 as [|b s' o' Hb Hr HS Es Eo|b c s' o' Hb Hc Hr Hst HS Es Eo]; subst s o; rewrite ?len_nil, ?len_cons in *; [lia| |].
        * cbn [holds] in K1. destruct K1 as [K0 K1]. rewrite K0, Hr. cbn [fst snd]. pose proof (len_nonneg o'). exists (2 * len o').
          assert (Hi : In q = b /\ slice In (q + 1) (len o') = o').
          { exact (slice_cons_inv _ _ _ _ H3). }
          destruct Hi as [Hi Ho]. split; [|split; [lia|]].
          -- exists s', o', (q + 1). split; [split; [reflexivity|]; split; [exact K1|]; split; [lia|]; split; [exact HS|reflexivity]|]. split; [lia|]. split; [lia|]. split; [exact Ho|].
             replace (q + 1 - st j) with (q - st j + 1) by lia. rewrite !slice_snoc by lia. replace (st j + (q - st j)) with q by lia. rewrite upd_same, Hi. f_equal.
             rewrite <- H4. apply slice_ext. intros x Hx. apply upd_other. lia.
          -- intros x Hx. apply upd_other. lia.
        * cbn [holds] in K1. destruct K1 as [K0 [K0' K1]]. rewrite K0, Hr, K0'. cbn [fst snd]. pose proof (len_nonneg o'). set (r := repeat b (Z.to_nat (stc c))) in *.
          pose proof (len_nonneg (r ++ o')). exists (2 * len (r ++ o') + 1).
          assert (Hi : In q = b /\ slice In (q + 1) (len (r ++ o')) = r ++ o').
          { exact (slice_cons_inv _ _ _ _ H3). }
          destruct Hi as [Hi Ho]. split; [|split; [lia|]].
          -- exists s', (r ++ o'), (q + 1). split.
             { split; [reflexivity|]. replace (p + 2) with (p + 1 + 1) by lia. split; [exact K1|]. split; [lia|]. split; [lia|]. exists o'. split; [exact HS|]. split; [rewrite Z.sub_0_r; reflexivity|reflexivity]. }
             split; [lia|]. split; [lia|]. split; [exact Ho|].
             replace (q + 1 - st j) with (q - st j + 1) by lia. rewrite !slice_snoc by lia. replace (st j + (q - st j)) with q by lia. rewrite upd_same, Hi. f_equal.
             rewrite <- H4. apply slice_ext. intros x Hx. apply upd_other. lia.
          -- intros x Hx. apply upd_other. lia.
      + assert (len s <= 0) by lia. destruct s as [|a s]; [|rewrite len_cons in *; pose proof (len_nonneg s); lia]. inversion K3. subst o. cbn [fst snd]. exists 0. change (len []) with 0 in *.
        split; [|split; [lia|reflexivity]]. exists [], [], q. split; [split; [reflexivity|]; split; [exact I|]; split; [change (len []) with 0; lia|]; split; [constructor|reflexivity]|]. change (len []) with 0. auto.
    - destruct Hk as (-> & K1 & K2 & K3 & o' & K4 & -> & ->). pose proof (len_nonneg o'). destruct (i <? count) eqn:E; cbn [fst snd].
      + replace (Z.to_nat (count - i)) with (S (Z.to_nat (count - (i + 1)))) in * by lia. cbn [repeat app] in *. set (r := repeat b (Z.to_nat (count - (i + 1)))) in *. rewrite len_cons in *.
        pose proof (len_nonneg (r ++ o')). exists (2 * len (r ++ o') + 1).
        assert (Hi : In q = b /\ slice In (q + 1) (len (r ++ o')) = r ++ o').
        { exact (slice_cons_inv _ _ _ _ H3). }
        destruct Hi as [Hi Ho]. split; [|split; [lia|]].
        * exists s, (r ++ o'), (q + 1). split; [split; [reflexivity|]; split; [exact K1|]; split; [lia|]; split; [lia|]; exists o'; auto|].
          split; [lia|]. split; [lia|]. split; [exact Ho|].
          replace (q + 1 - st j) with (q - st j + 1) by lia. rewrite !slice_snoc by lia. replace (st j + (q - st j)) with q by lia. rewrite upd_same, Hi. f_equal.
          rewrite <- H4. apply slice_ext. intros x Hx. apply upd_other. lia.
        * intros x Hx. apply upd_other. lia.
      + replace (Z.to_nat (count - i)) with 0%nat in * by lia. cbn [repeat app] in *. exists (2 * len o'). split; [|split; [lia|reflexivity]].
        exists s, o', q. split; [auto|]. auto.
  Qed.
  Lemma ginv_mem j k G G' m : (forall x, st j <= x < en j -> G' x = G x) -> GInv j k G m -> GInv j k G' m.
  Proof.
    intros HG (s & o & q & Hk & H1 & H2 & H3 & H4). exists s, o, q. split; [exact Hk|]. split; [exact H1|]. split; [exact H2|]. split; [exact H3|].
    rewrite <- H4. apply slice_ext. intros x Hx. apply HG. pose proof (len_nonneg o). lia.
  Qed.

  Lemma kstart_ok j : 0 <= j < subs -> GInv j (kstart offs (n / subs) j) G0 (2 * sec_len n subs j).
  Proof.
    intros Hj. destruct (Hsec j Hj) as (body & B1 & B2 & B3). pose proof (st_bounds j Hj) as (S1 & S2 & S3). unfold kstart.
    replace (w32 (j * (n / subs))) with (st j) by (symmetry; rewrite w32_id; unfold st in *; lia).
    exists body, (slice In (st j) (sec_len n subs j)), (st j). assert (HL : 0 <= sec_len n subs j) by (unfold en in S2; lia). rewrite len_slice by lia. unfold en.
    split; [split; [reflexivity|]; split; [exact B1|]; split; [lia|]; split; [exact B3|reflexivity]|]. split; [lia|]. split; [lia|]. split; [reflexivity|]. rewrite Z.sub_diag, !slice_0 by lia. reflexivity.
  Qed.

  (** Any schedule of groups of the launch, from any reachable state. *)
  Lemma launch_inv sched : forall ks G (ms : Z -> Z), (forall j, 0 <= j < subs -> GInv j (ks j) G (ms j)) -> Forall (fun g => 0 <= g < subs) sched ->
    let s := fold_left (gstep hit stc D offs) sched (ks, G) in
    (forall x, (forall j, List.In j sched -> x < st j \/ en j <= x) -> snd s x = G x) /\
    forall j, 0 <= j < subs -> exists m, GInv j (fst s j) (snd s) m /\ m <= Z.max 0 (ms j - occ j sched).
  Proof.
    induction sched as [|g sched IH]; intros ks G ms HG HF s.
    - subst s. cbn [fold_left fst snd]. split; [reflexivity|]. intros j Hj. exists (ms j). split; [now apply HG|]. unfold occ. cbn. lia.
    - inversion HF as [|? ? Hg HF' Ex]; subst. subst s. cbn [fold_left]. unfold gstep at 2 4 6.
      destruct (ginv_step g (ks g) G (ms g) Hg (HG g Hg)) as (m' & I1 & I2 & I3). destruct (kstep hit stc D (offs (g + 1)) (ks g) G) as [k G1]. cbn [fst snd] in *.
      pose proof (st_bounds g Hg) as (S1 & S2 & S3).
      specialize (IH (fun x => if x =? g then k else ks x) G1 (fun x => if x =? g then m' else ms x)). cbv zeta in IH.
      destruct IH as [J1 J2]; [|exact HF'|].
      + intros j Hj. cbv beta. destruct (j =? g) eqn:E; [apply Z.eqb_eq in E; subst j; exact I1|]. apply ginv_mem with (G := G); [|now apply HG].
        intros x Hx. apply I3. pose proof (st_bounds j Hj) as (T1 & T2 & T3). destruct (Z_lt_ge_dec j g); [specialize (S3 j ltac:(lia)); lia|specialize (T3 g ltac:(lia)); lia].
      + split; [intros x Hx; rewrite J1 by (intros j Hj; apply Hx; now right); apply I3, Hx; now left|]. intros j Hj. destruct (J2 j Hj) as (m & M1 & M2). exists m. split; [exact M1|]. rewrite occ_cons.
        assert (0 <= occ j sched) by apply len_nonneg. destruct (j =? g) eqn:E; [apply Z.eqb_eq in E; subst j|]; lia.
  Qed.

  Lemma ginv_0 j k G m : 0 <= j < subs -> GInv j k G m -> m <= 0 -> (exists p q, k = KHead p q /\ offs (j + 1) <= p) /\ slice G (st j) (en j - st j) = slice In (st j) (en j - st j).
  Proof.
    intros Hj (s & o & q & Hk & H1 & H2 & H3 & H4) Hm. pose proof (len_nonneg o). destruct k as [p q'|p q' b c i].
    - destruct Hk as (-> & K1 & K2 & K3 & ->). assert (len o = 0) by lia. replace (q - st j) with (en j - st j) in H4 by lia. split; [|exact H4]. exists p, q. split; [reflexivity|].
      pose proof (ser_len _ _ _ _ _ K3). pose proof (len_nonneg s). lia.
    - destruct Hk as (-> & K1 & K2 & K3 & o' & K4 & K5 & ->). lia.
  Qed.

  Lemma launch_ok sched : Forall (fun g => 0 <= g < subs) sched ->
    let s := launch hit stc D offs (n / subs) sched G0 in
    (forall x, (forall j, List.In j sched -> x < st j \/ en j <= x) -> snd s x = G0 x) /\
    ((forall g, 0 <= g < subs -> 2 * n <= occ g sched) -> slice (snd s) 0 n = slice In 0 n /\ forall g, 0 <= g < subs -> exists p q, fst s g = KHead p q /\ offs (g + 1) <= p).
  Proof.
    intros HF s. destruct (launch_inv sched (kstart offs (n / subs)) G0 (fun j => 2 * sec_len n subs j) kstart_ok HF) as [L1 L2]. fold (launch hit stc D offs (n / subs) sched G0) in L1, L2. fold s in L1, L2. split; [exact L1|]. intros HO.
    assert (HD : forall j, 0 <= j < subs -> (exists p q, fst s j = KHead p q /\ offs (j + 1) <= p) /\ slice (snd s) (st j) (en j - st j) = slice In (st j) (en j - st j)).
    { intros j Hj. destruct (L2 j Hj) as (m & M1 & M2). apply (ginv_0 j (fst s j) (snd s) m Hj M1). specialize (HO j Hj). pose proof (st_bounds j Hj) as (S1 & S2 & _). unfold en in S2. lia. }
    split; [|intros g Hg; apply HD, Hg].
    assert (K : forall j, 0 <= j -> j <= subs -> slice (snd s) 0 (if j =? subs then n else st j) = slice In 0 (if j =? subs then n else st j)); [|specialize (K subs ltac:(lia) ltac:(lia)); rewrite Z.eqb_refl in K; exact K].
    intros j Hj. pattern j. apply natlike_ind; [| |exact Hj]; clear j Hj.
    - intros _. replace (0 =? subs) with false by lia. unfold st. rewrite Z.mul_0_r, !slice_0 by lia. reflexivity.
    - intros j Hj IH Hj2. unfold Z.succ in *. specialize (IH ltac:(lia)). replace (j =? subs) with false in IH by lia. destruct (HD j ltac:(lia)) as [_ HDj]. pose proof (st_bounds j ltac:(lia)) as (S1 & S2 & _).
      assert (Ee : (if j + 1 =? subs then n else st (j + 1)) = en j).
      { unfold en, sec_len, st. destruct (j + 1 =? subs) eqn:E; [assert (j = subs - 1) by lia; subst j; rewrite Z.eqb_refl; lia|]. replace (j =? subs - 1) with false by lia. ring. }
      rewrite Ee, (slice_split (snd s) 0 (en j) (st j)), (slice_split In 0 (en j) (st j)) by lia. rewrite IH, Z.add_0_l, HDj. reflexivity.
  Qed.
End Groups.

(** *** The host *)
Lemma ser_single rle b s o stc : (forall x, is_byte x -> rle x = (b =? x)) -> Ser 255 rle stc s o -> Ser 255 (Z.eqb b) stc s o.
Proof. intros H HS. apply ser_ext with (3 := HS); auto. Qed.

(** The offsets the host computes and the tables it reads describe the sections. *)
Lemma ocl_sections subs In n cap out C pin : 1 <= subs <= 2 ^ 28 -> byte_mem In -> 1 <= n <= max_in -> rm_compress subs false false In n cap = COk out -> holds C pin out ->
  rd32 C pin = len out /\ rd32 C (pin + 4) = n /\ ocl_subs C pin = subs /\ len out < 2 ^ 32 /\ 0 < ocl_index C pin <= len out /\
  forall offs, (forall i, 0 <= i <= subs -> offs i = sub_offsets C pin subs (ocl_index C pin) (len out) i) ->
  forall j, 0 <= j < subs -> exists body, holds (fun a => C (pin + ocl_index C pin + a)) (offs j) body /\ offs (j + 1) = offs j + len body /\
    Ser 255 (ocl_hit C pin) (snd (fst (ocl_table C pin))) body (slice In (n / subs * j) (sec_len n subs j)).
Proof.
  intros Hs HIn Hn HC Hh. destruct (rm_form subs In n cap out Hs HIn Hn HC) as (info & stc & offs & data & idx & HI & Hstc & HO & Ho & I0 & IL & HL & Hoff & Hsec).
  pose proof (len_nonneg out) as HL0. unfold max_in in Hn. rewrite HO in Hh.
  assert (E1 : rd32 C pin = len out) by (apply (rd32_holds C pin (len out) _) in Hh; [exact Hh|lia]).
  apply holds_app in Hh. destruct Hh as [_ Hh]. rewrite len_le32 in Hh.
  assert (E2 : rd32 C (pin + 4) = n) by (apply (rd32_holds C (pin + 4) n _) in Hh; [exact Hh|lia]).
  apply holds_app in Hh. destruct Hh as [_ Hh]. rewrite len_le32 in Hh. replace (pin + 4 + 4) with (pin + 8) in Hh by lia.
  assert (E3 : ocl_subs C pin = subs) by (apply (rd32_holds C (pin + 8) subs _) in Hh; [exact Hh|lia]).
  apply holds_app in Hh. destruct Hh as [_ Hh]. rewrite len_le32 in Hh. replace (pin + 8 + 4) with (pin + 12) in Hh by lia.
  apply holds_app in Hh. destruct Hh as [Hoffs Hh]. rewrite Ho in Hh.
  destruct (read_write_info info C (pin + 12 + 4 * (subs - 1)) data HI Hh) as (rle & stc' & E & Q1 & Q2).
  assert (ET : ocl_table C pin = (rle, stc', len (write_info info))) by (unfold ocl_table; rewrite E3; exact E).
  assert (EI : ocl_index C pin = idx 0) by (unfold ocl_index; rewrite E3, ET; cbn [snd]; lia).
  apply holds_app in Hh. destruct Hh as [_ Hdata]. replace (pin + 12 + 4 * (subs - 1) + len (write_info info)) with (pin + idx 0) in Hdata by lia.
  assert (Hbase : 0 < idx 0) by (pose proof (len_nonneg (write_info info)); lia).
  assert (Hle : idx 0 <= len out) by (destruct (Hsec (subs - 1) ltac:(lia)) as (H & _ & t1 & body & t2 & _ & _ & H2 & _); replace (subs - 1 + 1) with subs in H2 by lia; pose proof (len_nonneg body); lia).
  split; [exact E1|]. split; [exact E2|]. split; [exact E3|]. split; [exact HL|]. split; [lia|]. intros offs' Hoffs' j Hj.
  assert (HT : forall i, 0 <= i <= subs -> offs' i = idx i - idx 0).
  { intros i Hi. rewrite Hoffs' by exact Hi. unfold sub_offsets. rewrite EI. destruct (i =? 0) eqn:Ei0; [assert (i = 0) by lia; subst i; lia|]. destruct (i <? subs) eqn:Ei1.
    - destruct (Hoff (i - 1) ltac:(lia)) as (o1 & o2 & K1 & K2). replace (i - 1 + 1) with i in K1 by lia. destruct (Hsec i ltac:(lia)) as (K3 & K4 & t1 & body & t2 & _ & _ & K5 & _). pose proof (len_nonneg body).
      rewrite K1 in Hoffs. apply holds_app in Hoffs. destruct Hoffs as [_ HX]. rewrite K2 in HX. rewrite (rd32_holds C (pin + 12 + 4 * (i - 1)) (idx i) o2) by (try exact HX; lia). rewrite w32_id by lia. reflexivity.
    - assert (i = subs) by lia. subst i. rewrite w32_id by lia. lia. }
  destruct (Hsec j Hj) as (K1 & K2 & t1 & body & t2 & K3 & K4 & K5 & K6). exists body. rewrite !HT by lia. split; [|split; [lia|]].
  - rewrite K3 in Hdata. apply holds_app in Hdata. destruct Hdata as [_ HX]. apply holds_app in HX. destruct HX as [HX _].
    apply holds_intro. intros k Hk. replace (pin + ocl_index C pin + (idx j - idx 0 + k)) with (pin + idx 0 + len t1 + k) by lia. now apply holds_nth.
  - rewrite ET. cbn [fst snd]. assert (HS' : Ser 255 rle stc' body (slice In (n / subs * j) (sec_len n subs j))).
    { apply ser_ext with (3 := K6).
      - intros b Hb. symmetry. now apply Q1.
      - intros b Hb. destruct HI as (HP & _). assert (Hin' : List.In b (li_syms info)) by (eapply Permutation_in; [apply Permutation_sym, HP|now apply in_range256]).
        apply (In_nth _ _ 0) in Hin'. destruct Hin' as (k & Hk & Hkb). rewrite (Permutation_length HP), length_range256 in Hk.
        specialize (Q2 (Z.of_nat k) ltac:(lia)). specialize (Hstc (Z.of_nat k) ltac:(lia)). unfold tab in Q2, Hstc. rewrite Nat2Z.id, Hkb in Q2, Hstc. congruence. }
    unfold ocl_hit. rewrite ET. cbn [fst]. destruct (len (filter rle range256) =? 1) eqn:E1h; [|exact HS'].
    assert (HF : forall x, List.In x (filter rle range256) <-> List.In x range256 /\ rle x = true) by (intros x; apply filter_In).
    destruct (filter rle range256) as [|h [|h2 hs]]; [discriminate| |rewrite !len_cons in E1h; pose proof (len_nonneg hs); lia]. cbn [hd].
    apply ser_single with (rle := rle); [|exact HS']. intros x Hx. specialize (HF x). cbn [List.In] in HF. assert (Hr : List.In x range256) by now apply in_range256.
    destruct (h =? x) eqn:Eh.
    + apply Z.eqb_eq in Eh. apply HF. now left.
    + destruct (rle x) eqn:Er; [|reflexivity]. destruct HF as [_ HF]. destruct (HF (conj Hr eq_refl)) as [HX|[]]. lia.
Qed.

(** *** The statements *)
(** The work groups [0 .. subs-1] appear in the schedule, each at least [k] times. *)
Definition Fair (subs k : Z) (sched : list Z) : Prop :=
  Forall (fun g => 0 <= g < subs) sched /\ forall g, 0 <= g < subs -> k <= Z.of_nat (count_occ Z.eq_dec sched g).
Lemma occ_count g l : occ g l = Z.of_nat (count_occ Z.eq_dec l g).
Proof.
  induction l as [|x l IH]; [reflexivity|]. rewrite occ_cons. cbn [count_occ]. destruct (Z.eq_dec x g) as [E|E].
  - subst x. rewrite Z.eqb_refl, IH. lia.
  - replace (g =? x) with false by lia. rewrite IH. lia.
Qed.

(** Slice of the output that belongs to group [g]. *)
Definition in_slice (n subs g x : Z) : Prop := n / subs * g <= x < (if g =? subs - 1 then n else n / subs * (g + 1)).

Theorem ocl_any_order subs In n cap out C pin sched G : 1 <= subs <= 2 ^ 28 -> byte_mem In -> 1 <= n <= max_in -> rm_compress subs false false In n cap = COk out -> holds C pin out ->
  Forall (fun g => 0 <= g < subs) sched ->
  let G' := snd (ocl_launch C pin (sub_offsets C pin subs (ocl_index C pin) (len out)) sched G) in
  (forall x, (forall g, List.In g sched -> ~ in_slice n subs g x) -> G' x = G x) /\
  (Fair subs (2 * n) sched -> slice G' 0 n = slice In 0 n).
Proof.
  intros Hs HIn Hn HC Hh HF G'. destruct (ocl_sections subs In n cap out C pin Hs HIn Hn HC Hh) as (E1 & E2 & E3 & E4 & E5 & E6).
  specialize (E6 (sub_offsets C pin subs (ocl_index C pin) (len out)) ltac:(reflexivity)). unfold max_in in Hn. subst G'. unfold ocl_launch. rewrite E2, E3.
  destruct (launch_ok _ _ _ _ In n subs G ltac:(lia) ltac:(lia) E6 sched HF) as [L1 L2]. split.
  - intros x Hx. apply L1. intros j Hj. specialize (Hx j Hj). unfold in_slice in Hx. unfold sec_len. rewrite Forall_forall in HF. specialize (HF j Hj). destruct (j =? subs - 1) eqn:E; [assert (j = subs - 1) by lia; subst j; lia|].
    replace (n / subs * j + n / subs) with (n / subs * (j + 1)) by ring. lia.
  - intros [_ Hf]. apply L2. intros g Hg. rewrite occ_count. now apply Hf.
Qed.

(** States of the host that calls of the API lead to. *)
Inductive Reach : host -> Prop :=
| R0 : Reach host0
| Rinit h e offs a b c ok h' : Reach h -> ocl_init e offs h a b c = Some (ok, h') -> Reach h'
| Rdestroy h : Reach h -> Reach (ocl_destroy h)
| Rdecompress h e C pin inSize M pout outSize r M' h' : Reach h -> ocl_decompress e h C pin inSize M pout outSize = Some (r, M', h') -> Reach h'.
Lemma init_cap e offs h a b c ok h' : (h_init h = true -> h_cap h = Some (h_max h + 1)) -> ocl_init e offs h a b c = Some (ok, h') -> h_init h' = true -> h_cap h' = Some (h_max h' + 1).
Proof.
  intros IH. unfold ocl_init. destruct (h_init h && (a <=? h_in h) && (b <=? h_out h) && (c <=? h_max h)).
  - intros H. injection H as _ <-. exact IH.
  - cbn [ocl_destroy h_dangling h_offs]. destruct e; [destruct (h_dangling h)|destruct (h_dangling h)| | |]; intros H; try discriminate; injection H as _ <-; cbn [h_init h_cap h_max]; congruence.
Qed.
Lemma reach_cap h : Reach h -> h_init h = true -> h_cap h = Some (h_max h + 1).
Proof.
  induction 1 as [|h e offs a b c ok h' HR IH E|h HR IH|h e C pin inSize M pout outSize r M' h' HR IH E].
  - discriminate.
  - exact (init_cap e offs h a b c ok h' IH E).
  - discriminate.
  - revert E. unfold ocl_decompress. destruct ((pin =? 0) || (pout =? 0) || (inSize =? 0) || (outSize =? 0)); [intros E; injection E as _ _ <-; exact IH|].
    cbv zeta. destruct ((outSize <? rd32 C (pin + 4)) || (inSize <? rd32 C pin)); [intros E; injection E as _ _ <-; exact IH|].
    destruct (ocl_subs C pin =? 0); [intros E; injection E as _ _ <-; exact IH|]. destruct (h_cap h) as [cp|] eqn:Ec; [|discriminate]. destruct (cp <? ocl_subs C pin + 1); [discriminate|].
    set (h1 := mkHost _ _ _ _ _ _ _). assert (I1 : h_init h1 = true -> h_cap h1 = Some (h_max h1 + 1)) by (exact IH).
    destruct (ocl_init (v_init e) (v_offs e) h1 _ _ _) as [[ok h2]|] eqn:E2; [|discriminate]. pose proof (init_cap _ _ _ _ _ _ _ _ I1 E2) as I2.
    destruct ok; [destruct (v_run e)|]; intros E; injection E as _ _ <-; exact I2.
Qed.

(** Enough was allocated by the last initialisation. *)
Definition Allocated (h : host) (inSize outSize subs : Z) : Prop := h_init h = true /\ inSize <= h_in h /\ outSize <= h_out h /\ subs <= h_max h.

Theorem ocl_decompress_ok subs In n cap out e h C pin inSize M pout outSize : 1 <= subs <= 2 ^ 28 -> byte_mem In -> 1 <= n <= max_in -> rm_compress subs false false In n cap = COk out ->
  Reach h -> Allocated h (len out) n subs -> v_run e = true -> Fair subs (2 * n) (v_sched e) ->
  holds C pin out -> 0 < pin -> 0 < pout -> len out <= inSize -> n <= outSize ->
  exists M' h', ocl_decompress e h C pin inSize M pout outSize = Some (n, M', h') /\ slice M' pout n = slice In 0 n /\ (forall x, x < pout \/ pout + n <= x -> M' x = M x) /\
    Reach h' /\ h_init h' = true /\ h_in h' = h_in h /\ h_out h' = h_out h /\ h_max h' = h_max h.
Proof.
  intros Hs HIn Hn HC HR (A1 & A2 & A3 & A4) Hrun Hf Hh Hp Hq Hi Ho. destruct (ocl_sections subs In n cap out C pin Hs HIn Hn HC Hh) as (E1 & E2 & E3 & E4 & E5 & E6).
  pose proof (reach_cap h HR A1) as Hcap. pose proof (len_nonneg out). unfold max_in in Hn.
  set (offs := sub_offsets C pin subs (ocl_index C pin) (len out)) in *.
  set (h1 := mkHost (h_init h) (h_in h) (h_out h) (h_max h) (h_cap h) (fun i => if i <=? subs then offs i else h_offs h i) (h_dangling h)).
  set (G := snd (ocl_launch C pin (h_offs h1) (v_sched e) (v_gpu e))).
  assert (ED : ocl_decompress e h C pin inSize M pout outSize = Some (n, vcopy n G 0 M pout, h1)).
  { unfold ocl_decompress. rewrite E1, E2, E3. replace ((pin =? 0) || (pout =? 0) || (inSize =? 0) || (outSize =? 0)) with false by lia. replace ((outSize <? n) || (inSize <? len out)) with false by lia.
    replace (subs =? 0) with false by lia. cbv zeta. rewrite Hcap. replace (h_max h + 1 <? subs + 1) with false by lia. rewrite w64_id by lia. fold offs. rewrite <- Hcap. fold h1.
    assert (EI : ocl_init (v_init e) (v_offs e) h1 (len out - ocl_index C pin) n subs = Some (true, h1)).
    { unfold ocl_init. unfold h1 at 1 2 3 4. cbn [h_init h_in h_out h_max]. rewrite A1. replace (true && (len out - ocl_index C pin <=? h_in h) && (n <=? h_out h) && (subs <=? h_max h)) with true by lia. reflexivity. }
    rewrite EI, Hrun. reflexivity. }
  assert (EG : slice G 0 n = slice In 0 n).
  { unfold G, ocl_launch. rewrite E2, E3. specialize (E6 (h_offs h1)).
    destruct (launch_ok (ocl_hit C pin) (snd (fst (ocl_table C pin))) (fun a => C (pin + ocl_index C pin + a)) (h_offs h1) In n subs (v_gpu e) ltac:(lia) ltac:(lia)) with (sched := v_sched e) as [_ L2].
    - apply E6. intros i Hi2. cbn [h1 h_offs]. replace (i <=? subs) with true by lia. reflexivity.
    - apply Hf.
    - apply L2. intros g Hg. rewrite occ_count. now apply Hf. }
  exists (vcopy n G 0 M pout), h1. split; [exact ED|]. split; [|split].
  - rewrite <- EG. apply (nth_ext _ _ 0 0); [apply Nat2Z.inj; change (len (slice (vcopy n G 0 M pout) pout n) = len (slice G 0 n)); rewrite !len_slice by lia; reflexivity|].
    intros k Hk. assert (Hk2 : 0 <= Z.of_nat k < n).
    { assert (HX : len (slice (vcopy n G 0 M pout) pout n) = n) by (apply len_slice; lia). unfold len in HX. lia. }
    rewrite <- (Nat2Z.id k). rewrite !nth_slice by lia. unfold vcopy. replace ((pout <=? pout + Z.of_nat k) && (pout + Z.of_nat k <? pout + n)) with true by lia. f_equal. lia.
  - intros x Hx. unfold vcopy. replace ((pout <=? x) && (x <? pout + n)) with false by lia. reflexivity.
  - split; [exact (Rdecompress _ _ _ _ _ _ _ _ _ _ _ HR ED)|]. cbn. auto.
Qed.

(** The first call of a program: NULL is written to, whatever the stream. *)
Theorem ocl_first_call subs In n cap out e C pin inSize M pout outSize : 1 <= subs <= 2 ^ 28 -> byte_mem In -> 1 <= n <= max_in -> rm_compress subs false false In n cap = COk out ->
  holds C pin out -> 0 < pin -> 0 < pout -> len out <= inSize -> n <= outSize ->
  ocl_decompress e host0 C pin inSize M pout outSize = None.
Proof.
  intros Hs HIn Hn HC Hh Hp Hq Hi Ho. destruct (ocl_sections subs In n cap out C pin Hs HIn Hn HC Hh) as (E1 & E2 & E3 & E4 & E5 & _). pose proof (len_nonneg out).
  unfold ocl_decompress. rewrite E1, E2, E3. replace ((pin =? 0) || (pout =? 0) || (inSize =? 0) || (outSize =? 0)) with false by lia. replace ((outSize <? n) || (inSize <? len out)) with false by lia.
  replace (subs =? 0) with false by lia. reflexivity.
Qed.

Theorem ocl_args e h C pin inSize M pout outSize :
  pin = 0 \/ pout = 0 \/ inSize = 0 \/ outSize = 0 \/ outSize < rd32 C (pin + 4) \/ inSize < rd32 C pin ->
  ocl_decompress e h C pin inSize M pout outSize = Some (0, M, h).
Proof.
  intros H. unfold ocl_decompress. destruct ((pin =? 0) || (pout =? 0) || (inSize =? 0) || (outSize =? 0)) eqn:E; [reflexivity|].
  replace ((outSize <? rd32 C (pin + 4)) || (inSize <? rd32 C pin)) with true by lia. reflexivity.
Qed.

(** More sections than the last initialisation allowed for: pSubSectionOffsets is overrun. *)
Theorem ocl_overrun subs In n cap out e h C pin inSize M pout outSize : 1 <= subs <= 2 ^ 28 -> byte_mem In -> 1 <= n <= max_in -> rm_compress subs false false In n cap = COk out ->
  Reach h -> h_init h = true -> h_max h < subs -> holds C pin out -> 0 < pin -> 0 < pout -> len out <= inSize -> n <= outSize ->
  ocl_decompress e h C pin inSize M pout outSize = None.
Proof.
  intros Hs HIn Hn HC HR A1 A2 Hh Hp Hq Hi Ho. destruct (ocl_sections subs In n cap out C pin Hs HIn Hn HC Hh) as (E1 & E2 & E3 & E4 & E5 & _). pose proof (len_nonneg out).
  unfold ocl_decompress. rewrite E1, E2, E3, (reach_cap h HR A1). replace ((pin =? 0) || (pout =? 0) || (inSize =? 0) || (outSize =? 0)) with false by lia. replace ((outSize <? n) || (inSize <? len out)) with false by lia.
  replace (subs =? 0) with false by lia. cbv zeta. replace (h_max h + 1 <? subs + 1) with true by lia. reflexivity.
Qed.

(** The offsets are lost if the call itself has to initialise again. *)
Definition stale_in : mem := fun k => if k =? 0 then 1 else if k =? 1 then 2 else 3.
Theorem ocl_stale : exists In n out h e C pin M pout M' h', byte_mem In /\ 1 <= n <= max_in /\ rm_compress 1 false false In n 1000 = COk out /\
  Reach h /\ h_init h = true /\ 1 <= h_max h /\ v_init e = IWorks /\ v_run e = true /\ Fair 1 (2 * n) (v_sched e) /\ holds C pin out /\ 0 < pin /\ 0 < pout /\
  ocl_decompress e h C pin (len out) M pout n = Some (n, M', h') /\ slice M' pout n <> slice In 0 n.
Proof.
  set (out := match rm_compress 1 false false stale_in 3 1000 with COk out => out | _ => [] end). vm_compute in out.
  set (C := fun a => nth (Z.to_nat (a - 16)) out 0).
  set (h := mkHost true 1 1 1 (Some 2) (fun _ => 0) true).
  set (e := mkEnv IWorks true (fun _ => 0) (fun _ => 0) (repeat 0 6)).
  assert (HD : match ocl_decompress e h C 16 (len out) (fun _ => 0) 16 3 with Some (r, M', _) => (r =? 3) && (M' 16 =? 0) | None => false end = true) by (vm_compute; reflexivity).
  destruct (ocl_decompress e h C 16 (len out) (fun _ => 0) 16 3) as [[[r M'] h']|] eqn:E; [|discriminate]. apply andb_prop in HD. destruct HD as [H1 H2]. assert (r = 3) by lia. subst r.
  exists stale_in, 3, out, h, e, C, 16, (fun _ => 0), 16, M', h'.
  split; [intros k; unfold stale_in, is_byte; destruct (k =? 0); [lia|]; destruct (k =? 1); lia|]. split; [unfold max_in; lia|]. split; [vm_compute; reflexivity|].
  split; [exact (Rinit host0 IWorks (fun _ => 0) 1 1 1 true h R0 eq_refl)|]. split; [reflexivity|]. split; [cbn; lia|]. split; [reflexivity|]. split; [reflexivity|].
  split; [split; [repeat constructor; lia|]; intros g Hg; assert (g = 0) by lia; subst g; cbn; lia|].
  split; [repeat (split; [reflexivity|]); exact I|]. split; [lia|]. split; [lia|]. split; [exact E|].
  intros H. apply (f_equal (hd 0)) in H. change (slice stale_in 0 3) with [1; 2; 3] in H. change (slice M' 16 3) with [M' 16; M' 17; M' 18] in H. cbn [hd] in H. lia.
Qed.

(** A second initialisation that finds no platform frees the platform list again. *)
Theorem ocl_double_free offs a b c : exists h, ocl_init IWorks offs host0 a b c = Some (true, h) /\ Reach h /\ ocl_init INoPlatform offs h (a + 1) b c = None.
Proof.
  exists (mkHost true a b c (Some (c + 1)) offs true). split; [reflexivity|]. split; [exact (Rinit host0 IWorks offs a b c true _ R0 eq_refl)|].
  unfold ocl_init. cbn [h_init h_in h_out h_max ocl_destroy h_dangling]. replace (true && (a + 1 <=? a) && (b <=? b) && (c <=? c)) with false by lia. reflexivity.
Qed.
Theorem ocl_first_init e offs a b c : exists ok h, ocl_init e offs host0 a b c = Some (ok, h) /\ (ok = false -> h_init h = false) /\ (ok = true -> Allocated h a b c).
Proof.
  destruct e; eexists _, _; (split; [reflexivity|]); (split; [try reflexivity; discriminate|]); try discriminate. intros _. unfold Allocated. cbn. repeat split; lia.
Qed.
