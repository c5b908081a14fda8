(** The choice of the symbol of the single symbol codecs. *)
From Verif Require Import Base LargeSpec Simd SimdProof Spec ExtModel ExtDec ExtEnc PktModel PktDec PktEnc Rle8Model Rle8Single DomSpec SaveSpec.

(** ** Selection *)

Lemma best_unique P PC v : is_byte v -> (forall u, 0 <= P u < 2 ^ 32) -> (forall u, 0 <= PC u < 2 ^ 32) -> 0 < PC v -> 3 * PC v <= P v ->
  (forall u, u <> v -> P u < P v - 2 * PC v) -> snd (approx_best P PC) = v.
Proof.
  intros Hv HP HC H1 H2 H3. unfold approx_best. set (F := fun '(best, idx) k => _).
  assert (HF : forall best idx k, F (best, idx) k = (best, idx) \/
    (exists s, F (best, idx) k = (s, Z.of_nat k) /\ best < s /\ s = P (Z.of_nat k) - 2 * PC (Z.of_nat k) /\ s <= P (Z.of_nat k))).
  { intros best idx k. unfold F. cbv zeta. set (s := Z.of_nat k). specialize (HP s). specialize (HC s).
    destruct (Z.ltb_spec 0 (PC s)) as [A|A]; [|left; reflexivity]. destruct (Z.ltb_spec 2 (P s / PC s)) as [B|B]; [|left; reflexivity]. cbn [andb].
    assert (3 * PC s <= P s). { pose proof (Z.mul_div_le (P s) (PC s) ltac:(lia)). nia. }
    assert (E : w32 (P s - w32 (PC s * 2)) = P s - 2 * PC s). { unfold w32. rewrite (Z.mod_small (PC s * 2)) by lia. rewrite Z.mod_small; lia. }
    rewrite E. destruct (Z.ltb_spec best (P s - 2 * PC s)); [right|left; reflexivity]. exists (P s - 2 * PC s). repeat split; lia. }
  assert (HV : forall best idx, best < P v - 2 * PC v -> F (best, idx) (Z.to_nat v) = (P v - 2 * PC v, v)).
  { intros best idx Hb. unfold F. unfold is_byte in Hv. rewrite Z2Nat.id by lia. cbv zeta. replace (0 <? PC v) with true by lia.
    assert (3 <= P v / PC v) by (apply Z.div_le_lower_bound; lia). replace (2 <? P v / PC v) with true by lia. cbn [andb].
    specialize (HP v). specialize (HC v).
    assert (E : w32 (P v - w32 (PC v * 2)) = P v - 2 * PC v). { unfold w32. rewrite (Z.mod_small (PC v * 2)) by lia. rewrite Z.mod_small; lia. }
    rewrite E. replace (best <? P v - 2 * PC v) with true by lia. reflexivity. }
  assert (K1 : forall l best idx, best < P v - 2 * PC v -> (forall k, List.In k l -> Z.of_nat k <> v) -> fst (fold_left F l (best, idx)) < P v - 2 * PC v).
  { induction l as [|k l IH]; intros best idx Hb Hl; [exact Hb|]. cbn [fold_left].
    destruct (HF best idx k) as [->|(s & -> & _ & _ & Hs)]; apply IH; try (intros; apply Hl; now right); [exact Hb|].
    specialize (H3 (Z.of_nat k) (Hl k (or_introl eq_refl))). lia. }
  assert (K2 : forall l, (forall k, List.In k l -> Z.of_nat k <> v) -> fold_left F l (P v - 2 * PC v, v) = (P v - 2 * PC v, v)).
  { induction l as [|k l IH]; intros Hl; [reflexivity|]. cbn [fold_left].
    destruct (HF (P v - 2 * PC v) v k) as [->|(s & -> & Hb & _ & Hs)]; [apply IH; intros; apply Hl; now right|].
    specialize (H3 (Z.of_nat k) (Hl k (or_introl eq_refl))). lia. }
  assert (ES : seq 0 256 = seq 0 (Z.to_nat v) ++ Z.to_nat v :: seq (S (Z.to_nat v)) (255 - Z.to_nat v)).
  { unfold is_byte in Hv. replace 256%nat with (Z.to_nat v + S (255 - Z.to_nat v))%nat by lia. rewrite seq_app. reflexivity. }
  rewrite ES, fold_left_app. cbn [fold_left].
  destruct (fold_left F (seq 0 (Z.to_nat v)) (0, 0)) as [best idx] eqn:E0.
  assert (best < P v - 2 * PC v).
  { replace best with (fst (fold_left F (seq 0 (Z.to_nat v)) (0, 0))) by (rewrite E0; reflexivity). apply K1; [lia|]. intros k Hk. apply in_seq in Hk. lia. }
  rewrite HV by assumption. rewrite K2; [reflexivity|]. intros k Hk. apply in_seq in Hk. unfold is_byte in Hv. lia.
Qed.

(** ** Counting *)

Definition cnt (f : Z -> bool) (In : mem) (i : Z) : Z := len (filter f (slice In 0 i)).
Lemma filter_len {X} (f : X -> bool) l : 0 <= len (filter f l) <= len l.
Proof. induction l as [|x l IH]; cbn [filter]; [unfold len; cbn; lia|]. destruct (f x); rewrite ?len_cons; lia. Qed.
Lemma cnt_split f In i b : 0 <= i -> 0 <= b -> cnt f In (i + b) = cnt f In i + len (filter f (slice In i b)).
Proof. intros Hi Hb. unfold cnt. rewrite slice_app by lia. rewrite filter_app, len_app. reflexivity. Qed.
Lemma cnt_mono f In i i' : 0 <= i <= i' -> cnt f In i <= cnt f In i'.
Proof. intros H. replace i' with (i + (i' - i)) by lia. rewrite cnt_split by lia. pose proof (filter_len f (slice In i (i' - i))). lia. Qed.
Lemma cnt_bound f In i : 0 <= i -> 0 <= cnt f In i <= i.
Proof. intros H. unfold cnt. pose proof (filter_len f (slice In 0 i)). rewrite len_slice in * by lia. lia. Qed.
Lemma slice_mem In i b y : 0 <= b -> List.In y (slice In i b) -> exists x, i <= x < i + b /\ y = In x.
Proof.
  intros Hb HI. assert (K : forall m i, List.In y (slice_nat In i m) -> exists x, i <= x < i + Z.of_nat m /\ y = In x).
  { clear. induction m as [|m IH]; intros i H; cbn [slice_nat] in H; [contradiction|]. destruct H as [<-|H]; [exists i; lia|].
    destruct (IH _ H) as (x & Hx & ->). exists x. lia. }
  destruct (K _ _ HI) as (x & Hx & ->). exists x. lia.
Qed.
Lemma filter_slice (f : Z -> bool) In (r : bool) i b : 0 <= b -> (forall x, i <= x < i + b -> f (In x) = r) -> len (filter f (slice In i b)) = if r then b else 0.
Proof.
  intros Hb H. assert (HA : forall y, List.In y (slice In i b) -> f y = r).
  { intros y Hy. apply slice_mem in Hy; [|lia]. destruct Hy as (x & Hx & ->). apply H. lia. }
  assert (E : len (slice In i b) = b) by (rewrite len_slice by lia; lia). revert HA E. generalize (slice In i b). clear. intros l HA E.
  assert (K : len (filter f l) = if r then len l else 0); [|rewrite K, E; reflexivity]. clear E. induction l as [|y l IH]; [destruct r; reflexivity|].
  cbn [filter]. rewrite (HA y (or_introl eq_refl)). assert (IH' := IH (fun z Hz => HA z (or_intror Hz))). destruct r; rewrite ?len_cons; lia.
Qed.
Lemma cnt_all f In i b : 0 <= i -> 0 <= b -> (forall x, i <= x < i + b -> f (In x) = true) -> cnt f In (i + b) = cnt f In i + b.
Proof. intros Hi Hb H. rewrite cnt_split by lia. rewrite (filter_slice f In true) by assumption. reflexivity. Qed.
Lemma cnt_le f g In i : (forall x, f x = true -> g x = true) -> cnt f In i <= cnt g In i.
Proof.
  intros H. unfold cnt. induction (slice In 0 i) as [|x l IH]; cbn [filter]; [lia|]. destruct (f x) eqn:E; [rewrite (H x E), !len_cons; lia|].
  destruct (g x); rewrite ?len_cons; lia.
Qed.

Section Choice.
  Context (In : mem) (n v a k : Z).
  Hypothesis Hn : 1 <= n <= max_in.
  Hypothesis HM : MostlyRun In n v a k.

  Definition others (i : Z) : Z := cnt (fun x => negb (x =? v)) In i.
  Lemma others_n : others n <= n - k.
  Proof.
    destruct HM as ((H1 & H2 & H3) & H4). unfold others. replace n with (a + k + (n - a - k)) by lia. rewrite !cnt_split by lia.
    rewrite (filter_slice _ In false a k); [|lia|intros x Hx; rewrite H3 by lia; rewrite Z.eqb_refl; reflexivity].
    pose proof (cnt_bound (fun x => negb (x =? v)) In a H1). pose proof (filter_len (fun x => negb (x =? v)) (slice In (a + k) (n - a - k))).
    rewrite len_slice in * by lia. lia.
  Qed.

  Definition CInv (s : Z * Z * Z * (Z -> Z) * (Z -> Z)) : Prop :=
    let '(i, sym, count, prob, pcount) := s in
    0 <= i <= n /\ 0 <= count /\
    (forall u, 0 <= prob u /\ prob u + (if sym =? u then count else 0) <= cnt (Z.eqb u) In i) /\
    (forall u, 0 <= pcount u < 2 ^ 32) /\ pcount v <= others i /\
    ((i <= a) \/ (a < i /\ sym = v /\ 1 <= count /\ 15 * (Z.min i (a + k) - a) - 240 <= 16 * count) \/
     (a + k <= i /\ 15 * k - 240 <= 16 * prob v /\ 1 <= pcount v)).

  Lemma scan_le i0 : 0 <= i0 < n - 16 -> exists i, loop (scan8_step 16 In n) i0 = Some i /\ i0 <= i < n /\ (i0 <= a -> i <= a).
  Proof.
    intros Hi. destruct HM as ((H1 & H2 & H3) & H4).
    apply (loop_inv (scan8_step 16 In n) (fun i => i0 <= i < n /\ (i0 <= a -> i <= a)) (fun i => Z.max 0 (n - i)) (fun i => i0 <= i < n /\ (i0 <= a -> i <= a)));
      [|lia|unfold max_in in Hn; lia].
    intros i [K1 K2]. unfold scan8_step. destruct (i <? n - 16) eqn:E; [|auto].
    set (f := fun j => negb (In (i + j) =? In (i + j + 1))). destruct (lead_spec f (16 - 1)) as (L1 & L2 & _); [lia|].
    assert (i0 <= a -> i + lead f (16 - 1) <= a).
    { intros Ha. destruct (Z_le_gt_dec (i + lead f (16 - 1)) a) as [|G]; [assumption|]. exfalso. specialize (L2 (a - i) ltac:(lia)). unfold f in L2.
      replace (i + (a - i)) with a in L2 by lia. rewrite !H3 in L2 by lia. rewrite Z.eqb_refl in L2. discriminate. }
    destruct (Z.eqb_spec (lead f (16 - 1)) (16 - 1)) as [E2|E2]; [|lia]. rewrite E2 in *. lia.
  Qed.

  Lemma cinv_step s : CInv s -> match approx_step In n s with
    | inl s' => CInv s' /\ 0 <= Z.max 0 (n - fst (fst (fst (fst s')))) < Z.max 0 (n - fst (fst (fst (fst s))))
    | inr r => exists i sym count prob pcount, r = Some (sym, count, prob, pcount) /\ n - 16 <= i /\ CInv (i, sym, count, prob, pcount) end.
  Proof.
    destruct s as [[[[i sym] count] prob] pcount]. intros (Hi & Hc & Hp & Hpc & Hpv & HMo). destruct HM as ((H1 & H2 & H3) & H4).
    unfold approx_step. destruct (i <? n - 16) eqn:Ei.
    2:{ exists i, sym, count, prob, pcount. split; [reflexivity|]. split; [lia|]. unfold CInv. repeat (split; [assumption|]). assumption. }
    set (f := fun j => In (i + j) =? sym). destruct (lead_spec f 16) as (L1 & L2 & L3); [lia|].
    assert (Hrun : forall x, i <= x < i + lead f 16 -> In x = sym).
    { intros x Hx. specialize (L2 (x - i) ltac:(lia)). unfold f in L2. replace (i + (x - i)) with x in L2 by lia. lia. }
    assert (Hcn : forall b, 0 <= b <= lead f 16 -> cnt (Z.eqb sym) In (i + b) = cnt (Z.eqb sym) In i + b).
    { intros b Hb. apply cnt_all; [lia|lia|]. intros x Hx. rewrite Hrun by lia. apply Z.eqb_refl. }
    assert (Hmax : max_in = 2 ^ 30) by reflexivity.
    assert (Hpn : forall u, prob u + (if sym =? u then count else 0) <= n).
    { intros u. destruct (Hp u) as [_ B]. pose proof (cnt_bound (Z.eqb u) In i ltac:(lia)). lia. }
    destruct (Z.eqb_spec (lead f 16) 16) as [E16|E16].
    - (* 16 more *)
      rewrite E16 in *. assert (Ew : w32 (count + 15) = count + 15).
      { unfold w32. apply Z.mod_small. specialize (Hpn sym). rewrite Z.eqb_refl in Hpn. destruct (Hp sym). lia. }
      rewrite Ew. split; [|cbn [fst]; lia]. unfold CInv. split; [lia|]. split; [lia|]. split; [|split; [exact Hpc|split]].
      + intros u. destruct (Hp u) as [A B]. split; [exact A|]. destruct (Z.eqb_spec sym u) as [<-|D].
        * rewrite Hcn by lia. lia.
        * pose proof (cnt_mono (Z.eqb u) In i (i + 16) ltac:(lia)). lia.
      + pose proof (cnt_mono (fun x => negb (x =? v)) In i (i + 16) ltac:(lia)). unfold others in *. lia.
      + destruct HMo as [K|[(K1 & K2 & K3 & K4)|(K1 & K2 & K3)]].
        * destruct (Z_le_gt_dec (i + 16) a) as [|G]; [left; assumption|]. right. left. split; [lia|]. split; [|lia].
          rewrite <- (Hrun a) by lia. apply H3. lia.
        * right. left. split; [lia|]. split; [exact K2|]. lia.
        * right. right. split; [lia|]. auto.
    - (* the run ends or there is none *)
      assert (Hend : In (i + lead f 16) <> sym). { specialize (L3 ltac:(lia)). apply Z.eqb_neq. exact L3. }
      assert (Hnew : forall i1 prob1 pcount1, i <= i1 < n - 16 + 16 -> i1 < n ->
        (forall u, 0 <= prob1 u <= cnt (Z.eqb u) In i1) -> (forall u, 0 <= pcount1 u < 2 ^ 32) -> pcount1 v <= others (i1 + 1) ->
        (i1 <= a \/ (a + k <= i1 /\ 15 * k - 240 <= 16 * prob1 v /\ 1 <= pcount1 v)) ->
        exists i2, loop (scan8_step 16 In n) i1 = Some i2 /\ CInv (i2 + 1, In i2, 1, prob1, pcount1) /\ i < i2 + 1 <= n).
      { intros i1 prob1 pcount1 I1 I2 P1 P2 P3 P4.
        pose proof (max_large n ltac:(lia)).
        assert (HS : exists i2, loop (scan8_step 16 In n) i1 = Some i2 /\ i1 <= i2 < n /\ (i1 <= a -> i2 <= a)).
        { destruct (Z_lt_ge_dec i1 (n - 16)) as [G|G]; [apply scan_le; lia|]. destruct (scan8_ok 16 In n i1) as (i2 & A & B); try lia. exists i2. split; [exact A|]. split; [exact B|]. lia. }
        destruct HS as (i2 & HS & Hi2 & Ha2). exists i2. split; [exact HS|]. split; [|lia]. unfold CInv. split; [lia|]. split; [lia|]. split; [|split; [exact P2|split]].
        - intros u. destruct (P1 u) as [A B]. split; [exact A|]. pose proof (cnt_mono (Z.eqb u) In i1 i2 ltac:(lia)).
          destruct (Z.eqb_spec (In i2) u) as [E|E].
          + rewrite cnt_all; [lia|lia|lia|]. intros x Hx. replace x with i2 by lia. rewrite E. apply Z.eqb_refl.
          + pose proof (cnt_mono (Z.eqb u) In i2 (i2 + 1) ltac:(lia)). lia.
        - pose proof (cnt_mono (fun x => negb (x =? v)) In (i1 + 1) (i2 + 1) ltac:(lia)). unfold others in *. lia.
        - destruct P4 as [K|(K1 & K2 & K3)]; [|right; right; split; [lia|auto]]. specialize (Ha2 K).
          destruct (Z.eq_dec i2 a) as [->|D]; [|left; lia]. right. left. split; [lia|]. split; [apply H3; lia|]. lia. }
      destruct (any f 16 || (1 <? count)) eqn:Eany.
      + (* counted *)
        set (b := lead f 16) in *.
        assert (Hs : prob sym + count + b <= cnt (Z.eqb sym) In (i + b)). { destruct (Hp sym) as [_ B]. rewrite Z.eqb_refl in B. rewrite Hcn by lia. lia. }
        pose proof (cnt_bound (Z.eqb sym) In (i + b) ltac:(lia)) as Hcb. destruct (Hp sym) as [Hp0 _].
        assert (E1 : w32 (count + b) = count + b) by (unfold w32; apply Z.mod_small; lia). rewrite E1.
        assert (E2 : w32 (prob sym + (count + b)) = prob sym + (count + b)) by (unfold w32; apply Z.mod_small; lia). rewrite E2.
        destruct (Hnew (i + b) (upd prob sym (prob sym + (count + b))) (upd pcount sym (w32 (pcount sym + 1)))) as (i2 & -> & HI & Hi2).
        * lia.
        * lia.
        * intros u. unfold upd. destruct (Z.eqb_spec u sym) as [->|D]; [lia|]. destruct (Hp u) as [A B]. replace (sym =? u) with false in B by lia.
          pose proof (cnt_mono (Z.eqb u) In i (i + b) ltac:(lia)). lia.
        * intros u. unfold upd. destruct (u =? sym); [|apply Hpc]. unfold w32. apply Z.mod_pos_bound. lia.
        * pose proof (cnt_mono (fun x => negb (x =? v)) In i (i + b) ltac:(lia)) as M1. pose proof (cnt_mono (fun x => negb (x =? v)) In (i + b) (i + b + 1) ltac:(lia)) as M2.
          unfold upd. destruct (Z.eqb_spec v sym) as [E|D]; [|unfold others in *; lia].
          assert (cnt (fun x => negb (x =? v)) In (i + b + 1) = cnt (fun x => negb (x =? v)) In (i + b) + 1).
          { apply cnt_all; [lia|lia|]. intros x Hx. replace x with (i + b) by lia. rewrite E. apply negb_true_iff. lia. }
          unfold others in *. pose proof (cnt_bound (fun x => negb (x =? v)) In i ltac:(lia)). specialize (Hpc v). rewrite <- E.
          unfold w32. rewrite Z.mod_small by lia. lia.
        * destruct HMo as [K|[(K1 & K2 & K3 & K4)|(K1 & K2 & K3)]].
          -- left. destruct (Z_le_gt_dec (i + b) a) as [|G]; [assumption|]. exfalso. apply Hend. rewrite <- (Hrun a) by lia. rewrite !H3 by lia. reflexivity.
          -- right. subst sym. unfold upd. rewrite Z.eqb_refl.
             assert (a + k <= i + b). { destruct (Z_le_gt_dec (a + k) (i + b)) as [|G]; [assumption|]. exfalso. apply Hend. apply H3. lia. }
             split; [lia|]. split; [lia|]. specialize (Hpc v). pose proof (cnt_bound (fun x => negb (x =? v)) In i ltac:(lia)). unfold others in Hpv.
             unfold w32. rewrite Z.mod_small by lia. lia.
          -- right. split; [lia|]. unfold upd. destruct (Z.eqb_spec v sym) as [E|D]; [|auto]. split; [rewrite <- E in *; lia|].
             specialize (Hpc v). pose proof (cnt_bound (fun x => negb (x =? v)) In i ltac:(lia)). unfold others in Hpv. rewrite <- E.
             unfold w32. rewrite Z.mod_small by lia. lia.
        * split; [exact HI|]. cbn [fst]. lia.
      + (* dropped *)
        apply orb_false_iff in Eany. destruct Eany as [Ea Ec].
        destruct (Hnew i prob pcount) as (i2 & -> & HI & Hi2).
        * lia.
        * lia.
        * intros u. destruct (Hp u) as [A B]. destruct (sym =? u); lia.
        * exact Hpc.
        * pose proof (cnt_mono (fun x => negb (x =? v)) In i (i + 1) ltac:(lia)). unfold others in *. lia.
        * destruct HMo as [K|[(K1 & K2 & K3 & K4)|(K1 & K2 & K3)]]; [left; assumption| |right; auto]. exfalso.
          destruct (Z_lt_ge_dec i (a + k)) as [G|G]; [|lia].
          assert (f 0 = true) by (unfold f; rewrite Z.add_0_r, H3, K2 by lia; apply Z.eqb_refl).
          rewrite (any_false f 16 Ea 0) in H by lia. discriminate.
        * split; [exact HI|]. cbn [fst]. lia.
  Qed.
End Choice.

Lemma chosen In n v a k : byte_mem In -> 1 <= n <= max_in -> MostlyRun In n v a k -> v <> 0 \/ In 0 = 0 -> approx_symbol In n = Some v.
Proof.
  intros HIn Hn HM HQ. pose proof HM as ((H1 & H2 & H3) & H4). pose proof (others_n In n v a k Hn HM) as HO.
  assert (Hv : is_byte v) by (rewrite <- (H3 a ltac:(lia)); apply HIn). assert (Hmax : max_in = 2 ^ 30) by reflexivity.
  unfold approx_symbol. set (pc0 := if In 0 =? 0 then _ else _).
  destruct (loop_inv (approx_step In n) (CInv In n v a k) (fun s => Z.max 0 (n - fst (fst (fst (fst s)))))
    (fun r => exists i sym count prob pcount, r = Some (sym, count, prob, pcount) /\ n - 16 <= i /\ CInv In n v a k (i, sym, count, prob, pcount))
    (0, 255 - In 0, 0, fun _ => 0, pc0)) as (r & -> & i & sym & count & prob & pcount & -> & Hi & HC).
  - intros s Hs. exact (cinv_step In n v a k Hn HM s Hs).
  - unfold CInv. split; [lia|]. split; [lia|]. split; [|split; [|split]].
    + intros u. split; [lia|]. pose proof (cnt_bound (Z.eqb u) In 0 ltac:(lia)). destruct (_ =? u); lia.
    + intros u. unfold pc0. destruct (In 0 =? 0); [lia|]. unfold upd. destruct (u =? 0); lia.
    + pose proof (cnt_bound (fun x => negb (x =? v)) In 0 ltac:(lia)). unfold others, pc0. destruct (Z.eqb_spec (In 0) 0) as [E|E]; [lia|].
      unfold upd. replace (v =? 0) with false by lia. lia.
    + left. exact H1.
  - cbn [fst]. lia.
  - destruct HC as (C1 & C2 & C3 & C4 & C5 & C6).
    assert (HL : forall u, prob u + (if sym =? u then count else 0) <= cnt (Z.eqb u) In n).
    { intros u. destruct (C3 u) as [_ B]. pose proof (cnt_mono (Z.eqb u) In i n ltac:(lia)). lia. }
    assert (Hsy : w32 (prob sym + count) = prob sym + count).
    { specialize (HL sym). rewrite Z.eqb_refl in HL. pose proof (cnt_bound (Z.eqb sym) In n ltac:(lia)). destruct (C3 sym). unfold w32. apply Z.mod_small. lia. }
    rewrite Hsy. f_equal. pose proof (cnt_mono (fun x => negb (x =? v)) In i n ltac:(lia)) as HM1. unfold others in *.
    set (P := upd prob sym _). set (PC := upd pcount sym _).
    assert (HP : forall u, 0 <= P u <= cnt (Z.eqb u) In n).
    { intros u. unfold P, upd. destruct (C3 u) as [A _]. specialize (HL u). destruct (Z.eqb_spec u sym) as [->|D]; [rewrite Z.eqb_refl in HL; lia|].
      replace (sym =? u) with false in HL by lia. lia. }
    assert (HPb : forall u, 0 <= P u < 2 ^ 32). { intros u. specialize (HP u). pose proof (cnt_bound (Z.eqb u) In n ltac:(lia)). lia. }
    assert (HPC : forall u, 0 <= PC u < 2 ^ 32). { intros u. unfold PC, upd. destruct (u =? sym); [|apply C4]. unfold w32. apply Z.mod_pos_bound. lia. }
    assert (HPv : 15 * k - 480 <= 16 * P v /\ 1 <= PC v <= n - k + 1).
    { pose proof (C4 v) as C4v. assert (Ew : w32 (pcount v + 1) = pcount v + 1) by (unfold w32; apply Z.mod_small; lia). destruct (C3 v) as [A _].
      destruct C6 as [K|[(K1 & K2 & K3 & K4)|(K1 & K2 & K3)]]; [lia| |]; unfold P, PC, upd.
      - subst sym. rewrite Z.eqb_refl. lia.
      - destruct (Z.eqb_spec v sym) as [<-|D]; lia. }
    apply best_unique; auto; [lia|lia|]. intros u Hu. specialize (HP u).
    assert (cnt (Z.eqb u) In n <= cnt (fun x => negb (x =? v)) In n). { apply cnt_le. intros x Hx. apply negb_true_iff. lia. }
    lia.
Qed.
