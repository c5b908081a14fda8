(** The statistics of --analyze: how recently the symbols of runs were used. *)
From Coq Require Import Permutation Sorted.
From Verif Require Import Base Spec AnModel AnSpec AnTrack AnThm AnThm2.

(** ** Distinct symbols, the one used last first *)

Definition ldec := list_eq_dec Z.eq_dec.
Fixpoint dd (h : list (list Z)) : list (list Z) := match h with [] => [] | x :: h' => x :: remove ldec x (dd h') end.

Lemma nodup_remove {X} (dec : forall a b : X, {a = b} + {a <> b}) x l : NoDup l -> NoDup (remove dec x l).
Proof.
  induction 1 as [|y l H1 H2 IH]; cbn [remove]; [constructor|]. destruct (dec x y); [exact IH|]. constructor; [|exact IH].
  intros H. apply in_remove in H. destruct H as [H _]. contradiction.
Qed.
Lemma in_dd h x : List.In x (dd h) <-> List.In x h.
Proof.
  induction h as [|y h IH]; [reflexivity|]. cbn [dd List.In]. split; intros [H|H]; auto.
  - apply in_remove in H. destruct H as [H _]. right. apply IH. exact H.
  - destruct (ldec x y) as [E|E]; [left; auto|]. right. apply in_in_remove; [auto|]. apply IH. exact H.
Qed.
Lemma nodup_dd h : NoDup (dd h).
Proof. induction h as [|x h IH]; cbn [dd]; constructor; [apply remove_In|apply nodup_remove; exact IH]. Qed.

Lemma dd_split h1 w h2 : ~ List.In w h1 -> exists A B, dd (h1 ++ w :: h2) = A ++ w :: B /\ Enumerates (fun x => List.In x h1) A.
Proof.
  induction h1 as [|x h1 IH]; intros Hw.
  - exists [], (remove ldec w (dd h2)). split; [reflexivity|]. split; [constructor|reflexivity].
  - destruct IH as (A & B & E & [N1 N2]); [intros K; apply Hw; now right|].
    assert (x <> w) by (intros ->; apply Hw; now left).
    exists (x :: remove ldec x A), (remove ldec x B). split.
    + cbn [app dd]. rewrite E, remove_app. cbn [remove]. destruct (ldec x w); [contradiction|]. reflexivity.
    + split; [constructor; [apply remove_In|apply nodup_remove; exact N1]|]. intros y. cbn [List.In]. split; intros [K|K]; auto.
      * apply in_remove in K. destruct K as [K _]. right. apply N2. exact K.
      * destruct (ldec y x) as [->|D]; [now left|]. right. apply in_in_remove; [exact D|]. apply N2. exact K.
Qed.
Lemma first_split {X} (dec : forall a b : X, {a = b} + {a <> b}) (w : X) h : List.In w h -> exists h1 h2, h = h1 ++ w :: h2 /\ ~ List.In w h1.
Proof.
  induction h as [|x h IH]; intros H; [destruct H|]. destruct (dec x w) as [->|D].
  - exists [], h. split; [reflexivity|intros []].
  - destruct H as [H|H]; [contradiction|]. destruct (IH H) as (h1 & h2 & -> & K). exists (x :: h1), h2. split; [reflexivity|].
    intros [E|E]; [contradiction|apply K; exact E].
Qed.
Lemma split_unique {X} (w : X) A B A' B' : A ++ w :: B = A' ++ w :: B' -> ~ List.In w A -> ~ List.In w A' -> A = A'.
Proof.
  revert A'. induction A as [|x A IH]; intros [|x' A'] E N N'; auto.
  - cbn in E. injection E as -> _. exfalso. apply N'. now left.
  - cbn in E. injection E as -> _. exfalso. apply N. now left.
  - cbn in E. injection E as -> E. f_equal. apply IH; auto; intros K; [apply N|apply N']; now right.
Qed.
Lemma enum_len {X} (Q : X -> Prop) l l' : Enumerates Q l -> Enumerates Q l' -> len l = len l'.
Proof.
  intros [N1 N2] [M1 M2]. unfold len. f_equal. apply Permutation_length. apply NoDup_Permutation; auto. intros x. rewrite N2, M2. reflexivity.
Qed.
Lemma recent_iff h w r : Recent h w r <-> exists A B, dd h = A ++ w :: B /\ ~ List.In w A /\ r = len A.
Proof.
  split.
  - intros (h1 & h2 & d & -> & H2 & H3 & ->). destruct (dd_split h1 w h2 H2) as (A & B & E & HA). exists A, B. split; [exact E|].
    split; [|apply (enum_len _ _ _ H3 HA)]. intros K. apply HA in K. contradiction.
  - intros (A & B & E & HA & ->). assert (K : List.In w h) by (apply in_dd; rewrite E; apply in_or_app; right; now left).
    destruct (first_split ldec w h K) as (h1 & h2 & -> & Hw). destruct (dd_split h1 w h2 Hw) as (A' & B' & E' & HA').
    assert (HwA' : ~ List.In w A') by (intros K'; apply HA' in K'; contradiction).
    assert (A = A') by (rewrite E in E'; eapply split_unique; eauto). subst A'. exists h1, h2, A. auto.
Qed.
Lemma recent_fun h w r r' : Recent h w r -> Recent h w r' -> r = r'.
Proof.
  intros H H'. apply recent_iff in H, H'. destruct H as (A & B & E & K & ->), H' as (A' & B' & E' & K' & ->).
  rewrite E in E'. f_equal. eapply split_unique; eauto.
Qed.

(** ** The rows *)

Definition row (L : Z -> Z -> Z) (j r : Z) : list Z := slice (L r) 0 j.
Lemma slice_inj m m' a n : slice m a n = slice m' a n -> forall k, a <= k < a + n -> m k = m' k.
Proof. intros E k Hk. pose proof (nth_slice m a n (k - a) ltac:(lia)) as K. rewrite E, nth_slice in K by lia. replace (a + (k - a)) with k in K by lia. auto. Qed.
Lemma equal_row L j r sym : 0 <= j -> equal_bytes (L r) sym j = true <-> row L j r = slice sym 0 j.
Proof.
  intros Hj. rewrite equal_bytes_iff. unfold row. split.
  - intros H. apply slice_ext. intros k Hk. apply H. lia.
  - intros H k Hk. apply (slice_inj _ _ 0 j H). lia.
Qed.
Lemma find_row_spec L sym j : forall fuel r, let x := find_row L sym j r fuel in
  r <= x <= r + Z.of_nat fuel /\ (forall y, r <= y < x -> equal_bytes (L y) sym j = false) /\ (x < r + Z.of_nat fuel -> equal_bytes (L x) sym j = true).
Proof.
  induction fuel as [|k IH]; intros r; cbv zeta; cbn [find_row]; [split; [lia|]; split; [lia|lia]|].
  destruct (equal_bytes (L r) sym j) eqn:E; [split; [lia|]; split; [lia|auto]|].
  destruct (IH (r + 1)) as (H1 & H2 & H3). cbv zeta in *. split; [lia|]. split.
  - intros y Hy. destruct (Z.eq_dec y r) as [->|D]; [exact E|]. apply H2. lia.
  - intros K. apply H3. lia.
Qed.
Lemma row_set_same L r b j : 0 <= j -> row (set_row L r b j) j r = slice b 0 j.
Proof. intros Hj. unfold row. apply slice_ext. intros k Hk. unfold set_row. rewrite Z.eqb_refl. replace (0 <=? k) with true by lia. replace (k <? j) with true by lia. reflexivity. Qed.
Lemma row_set_other L r b j x : x <> r -> row (set_row L r b j) j x = row L j x.
Proof. intros H. unfold row. apply slice_ext. intros k Hk. unfold set_row. replace (x =? r) with false by lia. reflexivity. Qed.
Lemma row_shift j k : 0 <= j -> forall L x, 0 <= x -> row (shift_rows L j k) j x = if (1 <=? x) && (x <=? Z.of_nat k) then row L j (x - 1) else row L j x.
Proof.
  intros Hj. induction k as [|k IH]; intros L x Hx.
  - cbn [shift_rows]. destruct ((1 <=? x) && (x <=? Z.of_nat 0)) eqn:E; [|reflexivity]. exfalso. lia.
  - cbn [shift_rows]. rewrite IH by exact Hx. destruct (Z.eq_dec x (Z.of_nat (S k))) as [->|D].
    + replace (Z.of_nat (S k) <=? Z.of_nat k) with false by lia. rewrite andb_false_r. rewrite row_set_same by exact Hj.
      replace (1 <=? Z.of_nat (S k)) with true by lia. replace (Z.of_nat (S k) <=? Z.of_nat (S k)) with true by lia. cbn [andb].
      unfold row. f_equal. f_equal. lia.
    + replace (x <=? Z.of_nat (S k)) with (x <=? Z.of_nat k) by lia.
      destruct ((1 <=? x) && (x <=? Z.of_nat k)) eqn:E; rewrite row_set_other by lia; reflexivity.
Qed.

Section Rows.
  Context (j : Z).
  Hypothesis Hj : 0 <= j.
  Definition zero : list Z := repeat 0 (Z.to_nat j).
  Definition Rows (L : Z -> Z -> Z) (h : list (list Z)) : Prop :=
    List.In zero h /\ forall r, 0 <= r < 16 -> row L j r = nth (Z.to_nat r) (dd h) zero.

  Lemma rows_start : Rows (fun _ _ => 0) [zero].
  Proof.
    split; [now left|]. intros r Hr. cbn [dd remove].
    assert (E : row (fun _ _ => 0) j r = zero).
    { unfold row, zero, slice. generalize 0 at 2. induction (Z.to_nat j) as [|n IH]; intros a; [reflexivity|]. cbn [slice_nat repeat]. f_equal. apply IH. }
    rewrite E. destruct (Z.to_nat r) as [|[|n]]; reflexivity.
  Qed.

  Lemma remove_notin {X} (dec : forall a b : X, {a = b} + {a <> b}) x l : ~ List.In x l -> remove dec x l = l.
  Proof. apply notin_remove. Qed.

  Lemma rows_find L h sym : Rows L h -> let w := slice sym 0 j in let r := find_row L sym j 0 16 in
    0 <= r <= 16 /\ (r < 16 -> Recent h w r) /\ (forall x, x < 16 -> Recent h w x -> x = r).
  Proof.
    intros [H0 H1]. cbv zeta. set (w := slice sym 0 j). destruct (find_row_spec L sym j 16 0) as (F1 & F2 & F3). cbv zeta in *.
    set (r := find_row L sym j 0 16) in *. cbn [Z.of_nat] in *. change (Z.of_nat 16) with 16 in *.
    assert (N : forall y, 0 <= y < r -> nth (Z.to_nat y) (dd h) zero <> w).
    { intros y Hy K. specialize (F2 y Hy). rewrite <- H1 in K by lia. apply equal_row in K; [|exact Hj]. congruence. }
    split; [lia|]. split.
    - intros Hr. specialize (F3 ltac:(lia)). apply equal_row in F3; [|exact Hj]. rewrite H1 in F3 by lia. fold w in F3.
      (* if it were beyond the end, the symbol would be zero, which is in the list *)
      assert (Hlen : (Z.to_nat r < length (dd h))%nat).
      { destruct (Nat.lt_ge_cases (Z.to_nat r) (length (dd h))) as [K|K]; [exact K|exfalso]. rewrite nth_overflow in F3 by exact K.
        assert (Hz : List.In zero (dd h)) by (apply in_dd; exact H0). destruct (In_nth _ _ zero Hz) as (y & Hy & Ey).
        apply (N (Z.of_nat y)); [lia|]. rewrite Nat2Z.id, Ey. exact F3. }
      apply recent_iff. destruct (nth_split (dd h) zero Hlen) as (A & B & E & EA). exists A, B. rewrite F3 in E. split; [exact E|].
      split; [|unfold len; lia]. intros K. destruct (In_nth _ _ zero K) as (y & Hy & Ey). apply (N (Z.of_nat y)); [lia|].
      rewrite Nat2Z.id, E, app_nth1 by lia. exact Ey.
    - intros x Hx K. apply recent_iff in K. destruct K as (A & B & E & K & ->).
      assert (Ex : nth (length A) (dd h) zero = w) by (rewrite E, app_nth2, Nat.sub_diag by lia; reflexivity).
      unfold len in *. destruct (Z.lt_trichotomy (Z.of_nat (length A)) r) as [L1|[L1|L1]]; [|exact L1|].
      + exfalso. apply (N (Z.of_nat (length A))); [lia|]. rewrite Nat2Z.id. exact Ex.
      + exfalso. specialize (F3 ltac:(lia)). apply equal_row in F3; [|exact Hj]. rewrite H1 in F3 by lia. fold w in F3.
        apply K. rewrite <- F3, E, app_nth1 by lia. apply nth_In. lia.
  Qed.

  Lemma rows_use L R h sym : Rows L h -> Rows (fst (use_symbol L R sym j)) (slice sym 0 j :: h).
  Proof.
    intros HR. pose proof (rows_find L h sym HR) as HF. cbv zeta in HF. destruct HR as [H0 H1].
    set (w := slice sym 0 j) in *. unfold use_symbol. set (r := find_row L sym j 0 16) in *. destruct HF as (F1 & F2 & F3).
    cbn [fst]. split; [now right|]. intros x Hx. cbn [dd]. destruct (Z.eq_dec x 0) as [->|Hx0].
    { rewrite row_set_same by exact Hj. reflexivity. }
    rewrite row_set_other by lia. replace (Z.to_nat x) with (S (Z.to_nat (x - 1))) by lia. cbn [nth].
    assert (E : row (if r =? 0 then L else shift_rows L j (Z.to_nat (Z.min r 15))) j x = row L j (if x <=? r then x - 1 else x)).
    { destruct (Z.eqb_spec r 0) as [E|E]; [replace (x <=? r) with false by lia; reflexivity|].
      rewrite row_shift by lia. rewrite Z2Nat.id by lia. replace (1 <=? x) with true by lia. cbn [andb].
      replace (x <=? Z.min r 15) with (x <=? r) by lia. destruct (x <=? r); reflexivity. }
    rewrite E, H1 by (destruct (x <=? r); lia). clear E.
    destruct (in_dec ldec w (dd h)) as [D|D].
    - apply (proj1 (in_dd h w)) in D. destruct (first_split ldec w h D) as (h1 & h2 & Eh & Hw). destruct (dd_split h1 w h2 Hw) as (A & B & EA & HA).
      rewrite <- Eh in EA. assert (HwA : ~ List.In w A) by (intros K; apply HA in K; contradiction).
      assert (HwB : ~ List.In w B).
      { pose proof (nodup_dd h) as ND. rewrite EA in ND. apply NoDup_remove_2 in ND. intros K. apply ND. apply in_or_app. now right. }
      assert (Rr : remove ldec w (dd h) = A ++ B).
      { rewrite EA, remove_app. cbn [remove]. destruct (ldec w w); [|congruence]. rewrite !notin_remove by assumption. reflexivity. }
      rewrite Rr, EA.
      assert (RA : Recent h w (len A)) by (apply recent_iff; exists A, B; auto).
      assert (Er : len A < 16 -> len A = r) by (intros K; apply F3; assumption).
      assert (Er2 : 16 <= len A -> r = 16).
      { intros K. destruct (Z_lt_dec r 16) as [L1|L1]; [|lia]. specialize (F2 L1). pose proof (recent_fun _ _ _ _ RA F2). lia. }
      unfold len in *. destruct (Z.leb_spec x r) as [L1|L1].
      + rewrite !app_nth1 by lia. reflexivity.
      + assert (EL : r = Z.of_nat (length A)) by lia. rewrite !app_nth2 by lia.
        replace (Z.to_nat x - length A)%nat with (S (Z.to_nat (x - 1) - length A)) by lia. reflexivity.
    - rewrite notin_remove by exact D.
      assert (r = 16).
      { destruct (Z_lt_dec r 16) as [L1|L1]; [|lia]. specialize (F2 L1). apply recent_iff in F2. destruct F2 as (A & B & E & _).
        exfalso. apply D. rewrite E. apply in_or_app. right. now left. }
      replace (x <=? r) with true by lia. reflexivity.
  Qed.
End Rows.

(** ** The counters *)

Lemma recur_at L R sym j x : snd (use_symbol L R sym j) x = R x + one ((find_row L sym j 0 16 <? 16) && (x =? find_row L sym j 0 16)).
Proof. unfold use_symbol. cbn [snd]. destruct (find_row L sym j 0 16 <? 16); cbn [andb]; [rewrite bump_at; reflexivity|cbn [one]; lia]. Qed.

Lemma shift_slice In a n : slice (fun k => In (a + k)) 0 n = slice In a n.
Proof.
  assert (H : forall k b, slice_nat (fun k => In (a + k)) b k = slice_nat In (a + b) k).
  { induction k as [|k IH]; intros b; [reflexivity|]. cbn [slice_nat]. f_equal. rewrite IH. f_equal. lia. }
  unfold slice. rewrite H. f_equal. lia.
Qed.

Lemma recur_fold In j f l : 0 <= j -> NoDup (map f l) ->
  let s := fold_left (use j (fun q k => In (f q + k))) l ((fun _ _ => 0), (fun _ => 0)) in
  Rows j (fst s) (used In j (map f l)) /\
  (forall r, 0 <= r < 16 -> exists hits, Recurring In j (map f l) r hits /\ snd s r = len hits) /\
  (forall r, r < 0 \/ 16 <= r -> snd s r = 0).
Proof.
  intros Hj. induction l as [|q l IH] using rev_ind; intros ND; cbv zeta.
  - split; [apply rows_start|]. split; [|reflexivity]. intros r Hr. exists []. split; [|reflexivity].
    split; [constructor|]. intros i. split; [intros []|]. intros (b & a & E & _). destruct b; discriminate.
  - rewrite map_app in ND. destruct IH as (H1 & H2 & H3); [apply NoDup_remove_1 in ND; rewrite app_nil_r in ND; exact ND|]. cbv zeta in *. rewrite fold_left_app. cbn [fold_left].
    set (s := fold_left _ l _) in *. unfold use at 1 2 3. set (sym := fun k => In (f q + k)).
    assert (Es : slice sym 0 j = slice In (f q) j) by apply shift_slice.
    pose proof (rows_find j Hj (fst s) _ sym H1) as HF. cbv zeta in HF. rewrite Es in HF. destruct HF as (F1 & F2 & F3).
    assert (Eu : used In j (map f (l ++ [q])) = slice In (f q) j :: used In j (map f l)).
    { unfold used. rewrite !map_app, rev_app_distr. reflexivity. }
    split; [|split].
    + rewrite Eu, <- Es. apply rows_use; assumption.
    + intros r Hr. destruct (H2 r Hr) as (hits & [N1 N2] & HC). rewrite recur_at, HC.
      assert (Hq : ~ List.In (f q) (map f l)) by (apply NoDup_remove_2 in ND; rewrite app_nil_r in ND; exact ND).
      assert (Hin : forall i, (exists b a, map f (l ++ [q]) = b ++ i :: a /\ Recent (used In j b) (slice In i j) r) <->
                List.In i hits \/ (i = f q /\ Recent (used In j (map f l)) (slice In (f q) j) r)).
      { intros i. rewrite N2, map_app. split.
        - intros (b & a & E & K). destruct a as [|y a] using rev_ind.
          + right. apply app_inj_tail in E. destruct E as [<- <-]. auto.
          + clear IHa. left. exists b, a. split; [|exact K]. change (b ++ i :: a ++ [y]) with (b ++ (i :: a) ++ [y]) in E. rewrite app_assoc in E.
            apply app_inj_tail in E. apply E.
        - intros [(b & a & E & K)|(-> & K)].
          + exists b, (a ++ [f q]). split; [|exact K]. rewrite E, <- app_assoc. reflexivity.
          + exists (map f l), []. split; [reflexivity|exact K]. }
      destruct ((find_row (fst s) sym j 0 16 <? 16) && (r =? find_row (fst s) sym j 0 16)) eqn:E.
      * apply andb_prop in E. destruct E as [E1 E2]. apply Z.ltb_lt in E1. apply Z.eqb_eq in E2. specialize (F2 E1).
        exists (hits ++ [f q]). split; [|rewrite len_app; reflexivity].
        apply (enum_add (fun i => List.In i hits)); [split; [exact N1|reflexivity]| |].
        -- intros K. apply N2 in K. destruct K as (b & a & E & _). apply Hq. rewrite E. apply in_or_app. right. now left.
        -- intros i. rewrite Hin. rewrite E2. intuition.
      * exists hits. split; [|cbn [one]; lia]. split; [exact N1|]. intros i. rewrite Hin. split; [auto|]. intros [K|(_ & K)]; [exact K|exfalso].
        specialize (F3 r ltac:(lia) K). rewrite <- F3 in E. rewrite Z.eqb_refl in E. lia.
    + intros r Hr. rewrite recur_at, H3 by exact Hr.
      destruct ((find_row (fst s) sym j 0 16 <? 16) && (r =? find_row (fst s) sym j 0 16)) eqn:E; [exfalso; lia|reflexivity].
Qed.

Lemma sorted_starts P n : StronglySorted Z.lt (starts P n).
Proof.
  unfold starts. assert (H : forall a, StronglySorted Z.lt (map Z.of_nat (seq a n))).
  { induction n as [|n IH]; intros a; cbn [seq map]; constructor; [apply IH|]. apply Forall_forall. intros x Hx. apply in_map_iff in Hx.
    destruct Hx as (y & <- & Hy). apply in_seq in Hy. lia. }
  specialize (H 0%nat). induction H as [|x l H1 IH H2]; cbn [filter]; [constructor|]. destruct (P x && _); [|exact IH].
  constructor; [exact IH|]. apply Forall_forall. intros y Hy. apply filter_In in Hy. destruct Hy as [Hy _]. rewrite Forall_forall in H2. auto.
Qed.
Lemma sorted_at j s l : 1 <= s -> StronglySorted Z.lt l -> StronglySorted Z.lt (map (at_ j s) l).
Proof.
  intros Hs. induction 1 as [|x l H1 IH H2]; cbn [map]; constructor; [exact IH|]. apply Forall_forall. intros y Hy. apply in_map_iff in Hy.
  destruct Hy as (z & <- & Hz). rewrite Forall_forall in H2. specialize (H2 z Hz). unfold at_. nia.
Qed.

Lemma end_recur z t : k_recur (track_end z t) = k_recur t.
Proof. unfold track_end. destruct (negb (k_non t =? 0)); [reflexivity|]. destruct (negb (k_cur t =? 0)); reflexivity. Qed.

Lemma recur_of z In j s first size (n : nat) : 0 <= j -> 1 <= s -> 1 <= first -> (forall q, 0 <= q -> (q < Z.of_nat n <-> at_ j s q < size)) ->
  RecurOk In j s size (track_end z (tracks z j first (reps In j s) (syms In j s) n)).
Proof.
  intros Hj Hs Hf Hn. unfold RecurOk. rewrite end_recur. exists (map (at_ j s) (starts (reps In j s) n)).
  split; [apply sorted_at; [exact Hs|apply sorted_starts]|]. split; [intros i; symmetry; apply first_of_run; assumption|].
  pose proof (last_recur z j first (reps In j s) (syms In j s) n Hf) as E.
  pose proof (recur_fold In j (at_ j s) (starts (reps In j s) n) Hj) as HR. cbv zeta in HR.
  change (fun q k => In (at_ j s q + k)) with (syms In j s) in HR. rewrite <- E in HR. cbn [fst snd] in HR.
  destruct HR as (_ & H2 & H3); [|split; assumption].
  apply FinFun.Injective_map_NoDup; [intros a b; unfold at_; nia|apply nodup_starts].
Qed.

Theorem free_recur z In size j : 0 <= size -> 1 <= j <= 16 -> RecurOk In j 1 size (an_free (analyze z In size) j).
Proof. intros Hs Hj. rewrite an_free_eq by lia. apply recur_of; try lia. intros q Hq. apply places_free; lia. Qed.
Theorem aligned_recur z In size j : 0 <= size -> 1 <= j <= 16 -> RecurOk In j j size (an_aligned (analyze z In size) j).
Proof. intros Hs Hj. rewrite an_aligned_eq by lia. apply recur_of; try lia. intros q Hq. apply places_aligned; lia. Qed.
