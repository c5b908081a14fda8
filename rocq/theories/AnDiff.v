(** The statistics of --analyze: the table of differences. *)
From Verif Require Import Base Spec AnModel AnSpec AnTrack AnThm.

Section Diff.
  Context (z j first : Z) (P : Z -> bool) (sy : Z -> Z -> Z).
  Hypothesis Hfirst : 1 <= first.

  (** The last run before [m]. *)
  Definition LastRun (m a k : Z) : Prop := Same P true a k /\ a + k <= m /\ (forall q, a + k <= q < m -> P q = false).
  Definition NoRun (m : Z) : Prop := forall q, 0 <= q < m -> P q = false.
  Definition L (k : Z) : Z := k + first - 1.
  Definition Diffs (x : Z * Z) (dn dl : Z) : Prop :=
    let '(a, k) := x in
    (exists a' k', LastRun a a' k' /\ dn = a - (a' + k') - L k' /\ dl = L k - L k') \/ (NoRun a /\ dn = a /\ dl = L k).
  Definition Cell (x : Z * Z) (c : Z) : Prop := exists dn dl, Diffs x dn dl /\ c = diffEntry dn dl.

  Lemma last_unique m a k a' k' : LastRun m a k -> LastRun m a' k' -> a = a' /\ k = k'.
  Proof.
    intros ((A1 & A2 & A3 & A4) & A5 & A6) ((B1 & B2 & B3 & B4) & B5 & B6).
    assert (E : a + k = a' + k').
    { destruct (Z.lt_trichotomy (a + k) (a' + k')) as [D|[D|D]]; [|exact D|].
      - specialize (A6 (a' + k' - 1) ltac:(lia)). rewrite B3 in A6 by lia. discriminate.
      - specialize (B6 (a + k - 1) ltac:(lia)). rewrite A3 in B6 by lia. discriminate. }
    assert (a = a'); [|lia]. destruct (Z.lt_trichotomy a a') as [D|[D|D]]; [|exact D|].
    - destruct B4 as [B4|B4]; [lia|]. rewrite A3 in B4 by lia. discriminate.
    - destruct A4 as [A4|A4]; [lia|]. rewrite B3 in A4 by lia. discriminate.
  Qed.
  Lemma last_norun m a k : LastRun m a k -> ~ NoRun m.
  Proof. intros ((A1 & A2 & A3 & A4) & A5 & A6) K. specialize (K a ltac:(lia)). rewrite A3 in K by lia. discriminate. Qed.
  Lemma cell_unique x c c' : Cell x c -> Cell x c' -> c = c'.
  Proof.
    destruct x as [a k]. intros (n1 & l1 & D1 & ->) (n2 & l2 & D2 & ->).
    destruct D1 as [(b1 & k1 & E1 & -> & ->)|(E1 & -> & ->)], D2 as [(b2 & k2 & E2 & -> & ->)|(E2 & -> & ->)]; auto.
    - destruct (last_unique _ _ _ _ _ E1 E2) as [-> ->]. reflexivity.
    - exfalso. eapply last_norun; eauto.
    - exfalso. eapply last_norun; eauto.
  Qed.

  Record DInv (n : Z) (t : track) : Prop := mkDInv
    { i_zero : n = 0 -> k_lastDiff t = 0;
      i_len : forall m, (0 < n -> P (n - 1) = true -> Same P true m (n - m)) -> (n = 0 \/ P (n - 1) = false -> m = n) ->
              (exists a k, LastRun m a k /\ k_lastLen t = L k) \/ (NoRun m /\ k_lastLen t = 0);
      i_diff : 0 < n -> P (n - 1) = true -> forall m, Same P true m (n - m) ->
              (exists a k, LastRun m a k /\ k_lastDiff t = m - (a + k) - L k) \/ (NoRun m /\ k_lastDiff t = m);
      i_hits : forall c, exists hits, Enumerates (fun x => Closed P n true x /\ Cell x c) hits /\ k_diff t c = len hits }.

  Lemma dinv_0 : DInv 0 track0.
  Proof.
    constructor.
    - reflexivity.
    - intros m _ H. right. split; [|reflexivity]. rewrite (H (or_introl eq_refl)). intros q Hq. lia.
    - lia.
    - intros c. exists []. split; [|reflexivity]. split; [constructor|]. intros x. split; [intros []|]. intros [H _]. now apply (closed_0 P sy) in H.
  Qed.

  Lemma hits_same n t t' : (forall x, Closed P (n + 1) true x <-> Closed P n true x) -> k_diff t' = k_diff t ->
    (forall c, exists hits, Enumerates (fun x => Closed P n true x /\ Cell x c) hits /\ k_diff t c = len hits) ->
    (forall c, exists hits, Enumerates (fun x => Closed P (n + 1) true x /\ Cell x c) hits /\ k_diff t' c = len hits).
  Proof.
    intros H E HH c. destruct (HH c) as (hits & He & Hc). exists hits. rewrite E. split; [|exact Hc].
    apply (enum_same _ _ _ He). intros x. rewrite H. reflexivity.
  Qed.

  Lemma dinv_step n cr cg t : 0 <= n -> n + first < 2 ^ 32 -> Inv z first P n cr cg t -> DInv n t -> DInv (n + 1) (track_step z j first (P n) (sy n) t).
  Proof.
    intros Hn Hb [_ _ _ V0 VO _ _ _ _ _ _ _ _] [I0 I1 I2 I3].
    assert (Eq : n + 1 - 1 = n) by lia.
    destruct (Z.eq_dec n 0) as [->|Hne].
    { destruct (V0 eq_refl) as (C1 & C2 & _ & _).
      assert (HC : forall x, Closed P (0 + 1) true x <-> Closed P 0 true x) by (intros x; split; intros K; exfalso; [now apply (closed_1 P sy) in K|now apply (closed_0 P sy) in K]).
      assert (HL : k_lastLen t = 0).
      { destruct (I1 0) as [(a & k & ((K1 & K2 & _) & K3 & _) & _)|(_ & K)]; [lia|reflexivity|lia|exact K]. }
      specialize (I0 eq_refl). unfold track_step. rewrite C1. cbn [Z.eqb]. destruct (P 0) eqn:E0.
      - destruct (use_symbol _ _ _ _) as [LL R]. unfold end_gap. cbn [k_non set_symbols]. rewrite C2. cbn [Z.eqb].
        constructor; rewrite ?Eq; cbn [k_lastLen k_lastDiff k_diff set_cur set_symbols].
        + lia.
        + intros m Hm _. right. split; [|exact HL]. destruct (Hm ltac:(lia) E0) as (K1 & K2 & _). intros q Hq. lia.
        + intros _ _ m (K1 & K2 & _). right. split; [intros q Hq; lia|]. lia.
        + apply (hits_same 0 t); auto.
      - unfold end_run. rewrite C1. cbn [Z.eqb]. constructor; rewrite ?Eq; cbn [k_lastLen k_lastDiff k_diff set_non].
        + lia.
        + intros m _ Hm. right. rewrite (Hm (or_intror E0)). split; [|exact HL]. intros q Hq. replace q with 0 by lia. exact E0.
        + congruence.
        + apply (hits_same 0 t); auto. }
    destruct (VO ltac:(lia)) as (a & HS & HO). pose proof (fun x => closed_S P sy n true a x ltac:(lia) HS) as HCl.
    destruct (P n) eqn:En, (P (n - 1)) eqn:Ep; unfold track_step.
    - (* a run goes on *)
      destruct HO as [O1 O2]. destruct HS as (S1 & S2 & S3 & S4). replace (k_cur t =? 0) with false by lia.
      assert (Hm1 : forall m, Same P true m (n + 1 - m) -> Same P true m (n - m)).
      { intros m (K1 & K2 & K3 & K4). split; [lia|]. destruct (Z.eq_dec m n) as [->|D].
        - exfalso. destruct K4 as [K4|K4]; [lia|]. cbn in K4. congruence.
        - split; [lia|]. split; [intros q Hq; apply K3; lia|exact K4]. }
      constructor; rewrite ?Eq, ?En; cbn [k_lastLen k_lastDiff k_diff set_cur].
      + lia.
      + intros m Hm _. apply I1; [intros; apply Hm1; apply Hm; auto; lia|]. intros [K|K]; [lia|congruence].
      + intros _ _ m Hm. apply I2; [lia|reflexivity|]. apply Hm1. exact Hm.
      + apply (hits_same n t); [|reflexivity|exact I3]. intros x. rewrite HCl. cbn. intuition congruence.
    - (* a run begins *)
      destruct HO as [O1 O2]. destruct HS as (S1 & S2 & S3 & S4). replace (k_cur t =? 0) with true by lia.
      destruct (use_symbol _ _ _ _) as [LL R]. unfold end_gap. cbn [k_non set_symbols]. rewrite O2. replace (n - a =? 0) with false by lia.
      assert (Hm1 : forall m, Same P true m (n + 1 - m) -> m = n).
      { intros m (K1 & K2 & K3 & K4). destruct (Z.eq_dec m n) as [->|D]; [reflexivity|]. exfalso. specialize (K3 (n - 1) ltac:(lia)). congruence. }
      assert (HI : (exists a k, LastRun n a k /\ k_lastLen t = L k) \/ (NoRun n /\ k_lastLen t = 0)) by (apply I1; [congruence|reflexivity]).
      assert (HA : forall b k, LastRun n b k -> b + k = a).
      { intros b k ((B1 & B2 & B3 & B4) & B5 & B6). destruct (Z.lt_trichotomy (b + k) a) as [D|[D|D]]; [|exact D|].
        - destruct S4 as [S4|S4]; [lia|]. cbn in S4. rewrite B6 in S4 by lia. discriminate.
        - exfalso. specialize (S3 (b + k - 1) ltac:(lia)). rewrite B3 in S3 by lia. discriminate. }
      assert (HN : NoRun n -> a = 0).
      { intros K. destruct S4 as [S4|S4]; [exact S4|]. destruct (Z.eq_dec a 0) as [E|E]; [exact E|]. cbn in S4. rewrite K in S4 by lia. discriminate. }
      constructor; rewrite ?Eq, ?En; cbn [k_lastLen k_lastDiff k_diff set_cur set_symbols].
      + lia.
      + intros m Hm _. rewrite (Hm1 m) by (apply Hm; auto; lia). exact HI.
      + intros _ _ m Hm. rewrite (Hm1 m Hm). destruct HI as [(b & k & HI1 & HI2)|(HI1 & HI2)].
        * left. exists b, k. split; [exact HI1|]. rewrite HI2. specialize (HA b k HI1). lia.
        * right. split; [exact HI1|]. rewrite HI2. specialize (HN HI1). lia.
      + apply (hits_same n t); [|reflexivity|exact I3]. intros x. rewrite HCl. cbn. intuition congruence.
    - (* a run ends *)
      destruct HO as [O1 O2]. destruct HS as (S1 & S2 & S3 & S4). unfold end_run. rewrite O1. replace (n - a + first - 1 =? 0) with false by lia.
      assert (HSa : Same P true a (n - a)) by (split; [exact S1|]; split; [exact S2|]; split; [exact S3|exact S4]).
      assert (HI : (exists b k, LastRun a b k /\ k_lastLen t = L k) \/ (NoRun a /\ k_lastLen t = 0)) by (apply I1; [auto|]; intros [K|K]; [lia|congruence]).
      specialize (I2 ltac:(lia) eq_refl a HSa).
      set (dn := k_lastDiff t) in *. set (dl := n - a + first - 1 - k_lastLen t).
      assert (HD : Diffs (a, n - a) dn dl).
      { unfold Diffs. destruct HI as [(b & k & HI1 & HI2)|(HI1 & HI2)], I2 as [(b' & k' & HJ1 & HJ2)|(HJ1 & HJ2)].
        - destruct (last_unique _ _ _ _ _ HI1 HJ1) as [<- <-]. left. exists b, k. split; [exact HI1|]. split; [exact HJ2|]. unfold dl, L in *. lia.
        - exfalso. eapply last_norun; eauto.
        - exfalso. eapply last_norun; eauto.
        - right. split; [exact HI1|]. split; [exact HJ2|]. unfold dl, L. lia. }
      constructor; rewrite ?Eq, ?En; cbn [k_lastLen k_lastDiff k_diff set_non].
      + lia.
      + intros m _ Hm. rewrite (Hm (or_intror eq_refl)). left. exists a, (n - a). split; [|unfold L; lia]. split; [exact HSa|]. split; [lia|].
        intros q Hq. replace q with n by lia. exact En.
      + congruence.
      + intros c. destruct (I3 c) as (hits & He & Hc). rewrite bump_at, Hc.
        assert (Ec : clamp 0 31 (dn + 15) * 32 + clamp 0 31 (dl + 15) = diffEntry dn dl).
        { unfold clamp, diffEntry. f_equal; [f_equal|]; lia. }
        rewrite Ec. destruct (Z.eqb_spec c (diffEntry dn dl)) as [->|D].
        * exists (hits ++ [(a, n - a)]). split; [|rewrite len_app; reflexivity].
          apply (enum_add _ _ _ _ He); [intros ((_ & K & _) & _); lia|]. intros x. rewrite HCl. split.
          -- intros ([K|(_ & _ & K)] & K2); auto.
          -- intros [(K & K2)|K]; [auto|]. split; [right; cbn; auto|]. rewrite K. exists dn, dl. auto.
        * exists hits. split; [|cbn [one]; lia]. apply (enum_same _ _ _ He). intros x. rewrite HCl. split.
          -- intros ([K|(_ & _ & K)] & K2); [auto|]. exfalso. apply D. rewrite K in K2. apply (cell_unique (a, n - a)); [exact K2|]. exists dn, dl. auto.
          -- intros (K & K2). auto.
    - (* a gap goes on *)
      destruct HO as [O1 O2]. unfold end_run. rewrite O1. cbn [Z.eqb].
      constructor; rewrite ?Eq, ?En; cbn [k_lastLen k_lastDiff k_diff set_non].
      + lia.
      + intros m _ Hm. rewrite (Hm (or_intror eq_refl)). destruct (I1 n) as [(b & k & (K1 & K2 & K3) & K4)|(K1 & K2)]; [congruence|reflexivity| |].
        * left. exists b, k. split; [|exact K4]. split; [exact K1|]. split; [lia|]. intros q Hq. destruct (Z.eq_dec q n) as [->|D]; [exact En|]. apply K3. lia.
        * right. split; [|exact K2]. intros q Hq. destruct (Z.eq_dec q n) as [->|D]; [exact En|]. apply K1. lia.
      + congruence.
      + apply (hits_same n t); [|reflexivity|exact I3]. intros x. rewrite HCl. cbn. intuition congruence.
  Qed.

  Lemma diff_tracks n c : Z.of_nat n + first <= 2 ^ 32 ->
    exists hits, Enumerates (fun x => Closed P (Z.of_nat n) true x /\ Cell x c) hits /\ k_diff (tracks z j first P sy n) c = len hits.
  Proof.
    intros Hb. assert (H : DInv (Z.of_nat n) (tracks z j first P sy n)); [|apply (i_hits _ _ H)].
    revert Hb. induction n as [|n IH]; intros Hb; [apply dinv_0|]. rewrite tracks_S. replace (Z.of_nat (S n)) with (Z.of_nat n + 1) by lia.
    destruct (inv_tracks z j first P sy Hfirst n ltac:(lia)) as (cr & cg & HI). apply (dinv_step _ cr cg); [lia|lia|exact HI|]. apply IH. lia.
  Qed.
End Diff.

(** ** From numbers of places to places *)

Lemma diff_of z In j s first size (n : nat) : 1 <= s -> 1 <= first -> Z.of_nat n + first <= 2 ^ 32 ->
  (forall q, 0 <= q -> (q < Z.of_nat n <-> at_ j s q < size)) ->
  DiffOk In j s size first (track_end z (tracks z j first (reps In j s) (syms In j s) n)).
Proof.
  intros Hs Hf Hb Hn c. destruct (diff_tracks z j first (reps In j s) (syms In j s) Hf n c Hb) as (hits & He & Hc).
  exists (map (addr j s) hits). split.
  { unfold len. rewrite map_length. fold (len hits). rewrite <- Hc. unfold track_end. do 2 (destruct (negb _); [reflexivity|]). reflexivity. }
  assert (HR : forall q, RepeatsAt In j (at_ j s q) <-> reps In j s q = true) by (intros q; unfold reps; rewrite matches_iff; reflexivity).
  assert (HG : forall q, ~ RepeatsAt In j (at_ j s q) <-> reps In j s q = false) by (intros q; unfold reps; rewrite matches_not; reflexivity).
  pose proof (fun i => place_iff j s size (Z.of_nat n) i Hs Hn) as HP.
  assert (Hat : forall a b, at_ j s a + b * s = at_ j s (a + b)) by (intros; unfold at_; lia).
  assert (Hi : forall a b, at_ j s a = at_ j s b -> a = b) by (unfold at_; intros; nia).
  assert (Hlt : forall a b, at_ j s a < at_ j s b <-> a < b) by (unfold at_; intros; nia).
  assert (Hle : forall a b, at_ j s a <= at_ j s b <-> a <= b) by (unfold at_; intros; nia).
  assert (HRun : forall y, Run In j s size y <-> exists x, y = addr j s x /\ Full (reps In j s) (Z.of_nat n) true x).
  { intros y. apply (stretch_iff In j s size (Z.of_nat n) true); auto. }
  apply (enum_map (fun x => Closed (reps In j s) (Z.of_nat n) true x /\ Cell first (reps In j s) x c)); [intros x y; now apply addr_inj| |exact He].
  intros y. rewrite HRun.
  assert (HD : forall a k dn dl, 0 <= a < Z.of_nat n -> Same (reps In j s) true a k ->
    (Differences In j s size first (at_ j s a, k) dn dl <-> Diffs first (reps In j s) (a, k) dn dl)).
  { intros a k dn dl Ha Hra. unfold Differences, Diffs. split.
    - intros [(i' & k' & K1 & K2 & K3 & K4 & K5)|(K1 & K2 & K3)].
      + left. apply HRun in K1. destruct K1 as ([a' k''] & E & F1 & F2 & F3). unfold addr in E. cbn [fst snd] in E. injection E as -> ->.
        rewrite !Hat in *. apply (proj1 (Hle _ _)) in K2. exists a', k''. split; [|unfold L, at_ in *; split; [nia|lia]].
        split; [exact F1|]. split; [exact K2|]. intros q Hq. apply HG. apply K3; [|rewrite Hle, Hlt; lia].
        apply HP. exists q. destruct F1 as (? & ? & _). split; [reflexivity|lia].
      + right. split; [|unfold L, at_ in *; split; [nia|lia]]. intros q Hq. apply HG. apply K1; [|apply Hlt; lia]. apply HP. exists q. split; [reflexivity|lia].
    - intros [(a' & k' & (K1 & K2 & K3) & K4 & K5)|(K1 & K2 & K3)].
      + left. exists (at_ j s a'), k'. rewrite Hat. pose proof K1 as (J1 & J2 & J3 & J4). split; [|split; [|split; [|split]]].
        * apply HRun. exists (a', k'). split; [reflexivity|]. split; [exact K1|]. split; [lia|]. right. cbn [negb].
          apply K3. split; [lia|]. destruct (Z.eq_dec (a' + k') a) as [E|E]; [|lia]. exfalso. destruct Hra as (_ & _ & _ & [D|D]); [lia|]. cbn [negb] in D. rewrite J3 in D by lia. discriminate.
        * apply Hle. exact K2.
        * intros p Hp Hq. apply HP in Hp. destruct Hp as (q & -> & Hp). apply HG. apply K3. rewrite Hle, Hlt in Hq. lia.
        * unfold L, at_ in *. nia.
        * unfold L in *. lia.
      + right. split; [|unfold L, at_ in *; split; [nia|lia]]. intros p Hp Hq. apply HP in Hp. destruct Hp as (q & -> & Hp). apply HG. apply K1. rewrite Hlt in Hq. lia. }
  split.
  - intros (([a k] & -> & F1 & F2 & F3) & HPl & dn & dl & D & ->). exists (a, k). split; [reflexivity|]. unfold addr in *. cbn [fst snd] in *.
    rewrite Hat in HPl. apply HP in HPl. destruct HPl as (b & Eb & Hb2). apply Hi in Eb. subst b.
    pose proof F1 as (J1 & J2 & _). split; [split; [exact F1|]; split; [lia|]; destruct F3 as [F3|F3]; [lia|exact F3]|].
    exists dn, dl. split; [|reflexivity]. apply HD; [lia|exact F1|exact D].
  - intros ([a k] & -> & (F1 & F2 & F3) & dn & dl & D & ->). pose proof F1 as (J1 & J2 & _). split; [|split].
    + exists (a, k). split; [reflexivity|]. split; [exact F1|]. split; [lia|right; exact F3].
    + unfold addr. cbn [fst snd]. rewrite Hat. apply HP. exists (a + k). split; [reflexivity|lia].
    + exists dn, dl. split; [|reflexivity]. exact (proj2 (HD a k dn dl ltac:(lia) F1) D).
Qed.

Lemma free_diff z In size j : 0 <= size < 2 ^ 32 -> 1 <= j <= 16 -> DiffOk In j 1 size j (an_free (analyze z In size) j).
Proof.
  intros Hs Hj. rewrite an_free_eq by lia. apply diff_of; [lia|lia|lia|]. intros q Hq. apply places_free; lia.
Qed.
Lemma aligned_diff z In size j : 0 <= size < 2 ^ 32 -> 1 <= j <= 16 -> DiffOk In j j size 1 (an_aligned (analyze z In size) j).
Proof.
  intros Hs Hj. rewrite an_aligned_eq by lia. assert ((size - 1) / j <= size - 1 \/ size = 0) by (destruct (Z.eq_dec size 0); [now right|left; apply Z.div_le_upper_bound; nia]).
  apply diff_of; [lia|lia| |].
  { destruct (Z.eq_dec size 0) as [->|E]; [|lia]. assert ((0 - 1) / j < 0) by (apply Z.div_lt_upper_bound; lia). lia. }
  intros q Hq. apply places_aligned; lia.
Qed.
