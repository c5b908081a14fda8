(** One half of rle_data_t: the counters after any sequence of places. *)
From Coq Require Import Permutation.
From Verif Require Import Base Spec AnModel AnSpec.

Lemma total_app {X} (f : X -> Z) l1 l2 : total f (l1 ++ l2) = total f l1 + total f l2.
Proof. unfold total. induction l1 as [|x l1 IH]; cbn [fold_right app]; lia. Qed.
Lemma total_one {X} (f : X -> Z) x : total f [x] = f x.
Proof. unfold total. cbn. lia. Qed.
Lemma total_perm {X} (f : X -> Z) l1 l2 : Permutation l1 l2 -> total f l1 = total f l2.
Proof. unfold total. induction 1; cbn [fold_right]; lia. Qed.
Lemma total_map {X Y} (g : X -> Y) (f : Y -> Z) l : total f (map g l) = total (fun x => f (g x)) l.
Proof. unfold total. induction l as [|x l IH]; cbn [fold_right map]; lia. Qed.
Lemma number_total {X} (f : X -> bool) l : number f l = total (fun x => if f x then 1 else 0) l.
Proof.
  unfold number, total, len. induction l as [|x l IH]; [reflexivity|]. cbn [filter fold_right]. destruct (f x); cbn [length]; lia.
Qed.
Lemma total_ext {X} (f g : X -> Z) l : (forall x, List.In x l -> f x = g x) -> total f l = total g l.
Proof. unfold total. induction l as [|x l IH]; intros H; [reflexivity|]. cbn [fold_right]. rewrite (H x) by now left. rewrite IH; [reflexivity|]. intros y Hy. apply H. now right. Qed.

Lemma bit_index_ok z n : 1 <= n < 2 ^ 32 -> bit_index z n = 32 + Z.log2 n /\ 0 <= Z.log2 n < 32 /\ bit_undef n = false.
Proof.
  intros H. unfold bit_index, bit_undef, w32. rewrite Z.mod_small by lia. replace (n =? 0) with false by lia.
  assert (Z.log2 n < 32) by (apply Z.log2_lt_pow2; lia). pose proof (Z.log2_nonneg n). lia.
Qed.

Definition one (b : bool) : Z := if b then 1 else 0.
Lemma exact_at f n x : exact f n x = f x + one ((n <=? 64) && (x =? n - 1)).
Proof. unfold exact, bump, one. destruct (n <=? 64); cbn [andb]; [destruct (x =? n - 1); lia|lia]. Qed.
Lemma bump_at f i x : bump f i x = f x + one (x =? i).
Proof. unfold bump, one. destruct (x =? i); lia. Qed.

Lemma not_nil_snoc {X} (l : list X) x : l ++ [x] <> [].
Proof. destruct l; discriminate. Qed.
Lemma len_nil {X} (l : list X) : len l = 0 <-> l = [].
Proof. destruct l; split; intros H; try reflexivity; try discriminate H. Qed.

Section Track.
  Context (z j first : Z) (P : Z -> bool) (sy : Z -> Z -> Z).
  Hypothesis Hfirst : 1 <= first.

  Definition tracks (n : nat) : track :=
    fold_left (fun t q => track_step z j first (P (Z.of_nat q)) (sy (Z.of_nat q)) t) (seq 0 n) track0.
  Lemma tracks_S n : tracks (S n) = track_step z j first (P (Z.of_nat n)) (sy (Z.of_nat n)) (tracks n).
  Proof. unfold tracks. rewrite seq_S, fold_left_app. reflexivity. Qed.

  (** Stretches of the indices below [n] that are known to have ended. *)
  Definition Same (v : bool) (a k : Z) : Prop := 0 <= a /\ 1 <= k /\ (forall q, a <= q < a + k -> P q = v) /\ (a = 0 \/ P (a - 1) = negb v).
  Definition Closed (n : Z) (v : bool) (x : Z * Z) : Prop :=
    let '(a, k) := x in Same v a k /\ a + k < n /\ P (a + k) = negb v.

  Definition runLen (x : Z * Z) : Z := snd x + first - 1.

  Record Sums (cr cg : list (Z * Z)) (t : track) : Prop := mkSums
    { s_count : k_count t = len cr;
      s_runs : k_runs t = total runLen cr;
      s_empty : k_empty t = total snd cg;
      s_runBits : forall x, k_runBits t x = total (fun c => one (x =? bit_index z (runLen c))) cr;
      s_runExact : forall x, k_runExact t x = total (fun c => one ((runLen c <=? 64) && (x =? runLen c - 1))) cr;
      s_emptyBits : forall x, k_emptyBits t x = total (fun c => one (x =? bit_index z (snd c))) cg;
      s_emptyExact : forall x, k_emptyExact t x = total (fun c => one ((snd c <=? 64) && (x =? snd c - 1))) cg }.

  Lemma sums_same cr cg t t' : Sums cr cg t ->
    k_count t' = k_count t -> k_runs t' = k_runs t -> k_empty t' = k_empty t -> k_runBits t' = k_runBits t -> k_runExact t' = k_runExact t ->
    k_emptyBits t' = k_emptyBits t -> k_emptyExact t' = k_emptyExact t -> Sums cr cg t'.
  Proof. intros [] E1 E2 E3 E4 E5 E6 E7. constructor; rewrite ?E1, ?E2, ?E3, ?E4, ?E5, ?E6, ?E7; assumption. Qed.
  Lemma sums_run cr cg t t' a k : Sums cr cg t -> 
    k_count t' = k_count t + 1 -> k_runs t' = k_runs t + (k + first - 1) -> k_empty t' = k_empty t ->
    k_runBits t' = bump (k_runBits t) (bit_index z (k + first - 1)) -> k_runExact t' = exact (k_runExact t) (k + first - 1) ->
    k_emptyBits t' = k_emptyBits t -> k_emptyExact t' = k_emptyExact t -> Sums (cr ++ [(a, k)]) cg t'.
  Proof.
    intros [] E1 E2 E3 E4 E5 E6 E7. constructor; rewrite ?E1, ?E2, ?E3, ?E4, ?E5, ?E6, ?E7; try assumption.
    - rewrite len_app, s_count0. reflexivity.
    - rewrite total_app, total_one, s_runs0. reflexivity.
    - intros x. rewrite total_app, total_one, bump_at, s_runBits0. reflexivity.
    - intros x. rewrite total_app, total_one, exact_at, s_runExact0. reflexivity.
  Qed.
  Lemma sums_gap cr cg t t' a k : Sums cr cg t -> 
    k_count t' = k_count t -> k_runs t' = k_runs t -> k_empty t' = k_empty t + k ->
    k_runBits t' = k_runBits t -> k_runExact t' = k_runExact t ->
    k_emptyBits t' = bump (k_emptyBits t) (bit_index z k) -> k_emptyExact t' = exact (k_emptyExact t) k -> Sums cr (cg ++ [(a, k)]) t'.
  Proof.
    intros [] E1 E2 E3 E4 E5 E6 E7. constructor; rewrite ?E1, ?E2, ?E3, ?E4, ?E5, ?E6, ?E7; try assumption.
    - rewrite total_app, total_one, s_empty0. reflexivity.
    - intros x. rewrite total_app, total_one, bump_at, s_emptyBits0. reflexivity.
    - intros x. rewrite total_app, total_one, exact_at, s_emptyExact0. reflexivity.
  Qed.

  (** The cell of the table of magnitudes that is counted if no gap has been seen yet. *)
  Definition odd_cell : Z := clamp 0 15 (w32 (63 - z) - 1) * 16 + 15.

  Record Inv (n : Z) (cr cg : list (Z * Z)) (t : track) : Prop := mkInv
    { v_runs : Enumerates (Closed n true) cr;
      v_gaps : Enumerates (Closed n false) cg;
      v_sums : Sums cr cg t;
      v_zero : n = 0 -> k_cur t = 0 /\ k_non t = 0 /\ cr = [] /\ cg = [];
      v_open : 0 < n -> exists a, Same (P (n - 1)) a (n - a) /\
               if P (n - 1) then k_cur t = n - a + first - 1 /\ k_non t = 0 else k_cur t = 0 /\ k_non t = n - a;
      v_lastNon : (cg = [] -> k_lastNon t = 0) /\ (cg <> [] -> 0 < k_lastNon t < n);
      v_lead1 : 0 < n -> P 0 = false -> P (n - 1) = true -> cg <> [];
      v_lead2 : P 0 = true -> cr = [] -> cg = [];
      v_lead3 : 0 < n -> P 0 = true -> P (n - 1) = false -> cr <> [];
      v_lead4 : P 0 = true -> P (n - 1) = true -> 0 < n -> cr <> [] -> cg <> [];
      v_lead5 : P 0 = false -> cg = [] -> cr = [];
      v_undef : k_undef t = true <-> P 0 = true /\ cr <> [];
      v_bits : forall x, k_bits t x = (if P 0 && negb (len cr =? 0) then one (x =? 255) * (len cr - 1) + one (x =? odd_cell)
                                       else one (x =? 255) * len cr) }.

  Lemma same_unique v a a' n : Same v a (n - a) -> Same v a' (n - a') -> a = a'.
  Proof.
    intros (H1 & H2 & H3 & H4) (K1 & K2 & K3 & K4). assert (Hv : v <> negb v) by (destruct v; discriminate).
    destruct (Z_lt_dec a a') as [L|L]; [|destruct (Z_lt_dec a' a) as [L'|L']; [|lia]].
    - destruct K4 as [K4|K4]; [lia|]. rewrite H3 in K4 by lia. contradiction.
    - destruct H4 as [H4|H4]; [lia|]. rewrite K3 in H4 by lia. contradiction.
  Qed.

  Lemma closed_S n v a x : 0 < n -> Same (P (n - 1)) a (n - a) ->
    (Closed (n + 1) v x <-> Closed n v x \/ (v = P (n - 1) /\ P n = negb v /\ x = (a, n - a))).
  Proof.
    intros Hn HS. destruct x as [b k]. unfold Closed. split.
    - intros (H1 & H2 & H3). destruct (Z_lt_dec (b + k) n) as [L|L]; [left; auto|right].
      assert (E : b + k = n) by lia. rewrite E in H3. assert (Ek : k = n - b) by lia. subst k.
      assert (Ev : P (n - 1) = v) by (apply H1; destruct H1 as (_ & H1 & _); lia).
      rewrite Ev in HS. rewrite (same_unique v a b n HS H1). auto.
    - intros [(H1 & H2 & H3)|(-> & H2 & E)]; [split; [exact H1|split; [lia|exact H3]]|].
      injection E as -> ->. replace (a + (n - a)) with n by lia. split; [exact HS|split; [lia|exact H2]].
  Qed.
  Lemma closed_1 v x : ~ Closed 1 v x.
  Proof. destruct x as [a k]. intros ((H1 & H2 & _) & H3 & _). lia. Qed.
  Lemma closed_0 v x : ~ Closed 0 v x.
  Proof. destruct x as [a k]. intros ((H1 & H2 & _) & H3 & _). lia. Qed.

  Lemma enum_same {X} (Q Q' : X -> Prop) l : Enumerates Q l -> (forall x, Q' x <-> Q x) -> Enumerates Q' l.
  Proof. intros [H1 H2] H. split; [exact H1|]. intros x. rewrite H2. symmetry. apply H. Qed.
  Lemma enum_add {X} (Q Q' : X -> Prop) l y : Enumerates Q l -> ~ Q y -> (forall x, Q' x <-> Q x \/ x = y) -> Enumerates Q' (l ++ [y]).
  Proof.
    intros [H1 H2] Hy H. split.
    - apply (Permutation_NoDup (Permutation_cons_append l y)). constructor; [|exact H1]. rewrite H2. exact Hy.
    - intros x. rewrite in_app_iff, H2, H. cbn [List.In]. split; intros [A|A]; auto. destruct A as [A|[]]; auto.
  Qed.

  Lemma bit_cell n : 1 <= n < 2 ^ 32 -> clamp 0 15 (bit_index z n - 1) = 15.
  Proof. intros H. destruct (bit_index_ok z n H) as (-> & L & _). unfold clamp. lia. Qed.

  Lemma inv_0 : Inv 0 [] [] track0.
  Proof.
    constructor.
    - split; [constructor|]. intros x. split; [intros []|intros H; now apply closed_0 in H].
    - split; [constructor|]. intros x. split; [intros []|intros H; now apply closed_0 in H].
    - constructor; reflexivity.
    - intros _. repeat split; reflexivity.
    - lia.
    - split; [reflexivity|congruence].
    - lia.
    - reflexivity.
    - lia.
    - congruence.
    - reflexivity.
    - cbn. split; [discriminate|intros [_ H]; congruence].
    - intros x. cbn. rewrite andb_false_r. lia.
  Qed.

  Lemma inv_step n cr cg t : 0 <= n -> n + first < 2 ^ 32 -> Inv n cr cg t ->
    exists cr' cg', Inv (n + 1) cr' cg' (track_step z j first (P n) (sy n) t).
  Proof.
    intros Hn Hb [H1 H2 H3 H4 H5 H6 L1 L2 L3 L4 L5 HU HB].
    destruct (Z.eq_dec n 0) as [->|Hne].
    { destruct (H4 eq_refl) as (C1 & C2 & -> & ->). destruct H6 as [H6 _]. specialize (H6 eq_refl). exists [], [].
      assert (E : forall v, Enumerates (Closed (0 + 1) v) []) by (intros v; split; [constructor|]; intros x; split; [intros []|intros H; now apply closed_1 in H]).
      assert (U : k_undef t = false) by (destruct (k_undef t); [destruct HU as [HU _]; destruct (HU eq_refl) as [_ K]; congruence|reflexivity]).
      assert (S0 : forall v, P 0 = v -> Same v 0 (0 + 1 - 0)).
      { intros v Hv. split; [lia|]. split; [lia|]. split; [|left; reflexivity]. intros q Hq. replace q with 0 by lia. exact Hv. }
      unfold track_step. rewrite C1, Z.eqb_refl. destruct (P 0) eqn:E0.
      - destruct (use_symbol _ _ _ _) as [L R]. unfold end_gap. cbn [k_non set_symbols]. rewrite C2, Z.eqb_refl.
        constructor; change (0 + 1 - 1) with 0; rewrite ?E0.
        + apply E.
        + apply E.
        + eapply sums_same; [exact H3|..]; reflexivity.
        + lia.
        + intros _. exists 0. split; [apply S0; reflexivity|]. cbn [k_cur k_non k_lastNon k_undef k_bits set_cur set_non set_symbols]. lia.
        + cbn [k_cur k_non k_lastNon k_undef k_bits set_cur set_non set_symbols]. split; [auto|congruence].
        + congruence.
        + reflexivity.
        + congruence.
        + congruence.
        + reflexivity.
        + cbn [k_cur k_non k_lastNon k_undef k_bits set_cur set_non set_symbols]. rewrite U. split; [discriminate|intros [_ K]; congruence].
        + intros x. cbn [k_cur k_non k_lastNon k_undef k_bits set_cur set_non set_symbols]. rewrite HB, ?E0. reflexivity.
      - unfold end_run. rewrite C1, Z.eqb_refl.
        constructor; change (0 + 1 - 1) with 0; rewrite ?E0.
        + apply E.
        + apply E.
        + eapply sums_same; [exact H3|..]; reflexivity.
        + lia.
        + intros _. exists 0. split; [apply S0; reflexivity|]. cbn [k_cur k_non k_lastNon k_undef k_bits set_cur set_non set_symbols]. lia.
        + cbn [k_cur k_non k_lastNon k_undef k_bits set_cur set_non set_symbols]. split; [auto|congruence].
        + congruence.
        + reflexivity.
        + congruence.
        + congruence.
        + reflexivity.
        + cbn [k_cur k_non k_lastNon k_undef k_bits set_cur set_non set_symbols]. rewrite U. split; [discriminate|intros [_ K]; congruence].
        + intros x. cbn [k_cur k_non k_lastNon k_undef k_bits set_cur set_non set_symbols]. rewrite HB, ?E0. reflexivity. }
    destruct (H5 ltac:(lia)) as (a & HS & HO). pose proof HS as (A0 & A1 & A2 & A3). replace (n + 1 - 1) with n in * by lia.
    pose proof (fun v x => closed_S n v a x ltac:(lia) HS) as HC.
    assert (HEq : forall v, P n = P (n - 1) -> forall x, Closed (n + 1) v x <-> Closed n v x).
    { intros v E x. rewrite HC, E. split; [|auto]. intros [K|(K1 & K2 & _)]; [exact K|]. subst v. destruct (P (n - 1)); discriminate. }
    assert (HNe : P n = negb (P (n - 1)) -> forall x, Closed (n + 1) (P (n - 1)) x <-> Closed n (P (n - 1)) x \/ x = (a, n - a)).
    { intros E x. rewrite HC. tauto. }
    assert (HNo : forall v, v = negb (P (n - 1)) -> forall x, Closed (n + 1) v x <-> Closed n v x).
    { intros v Ev x. rewrite HC. split; [|auto]. intros [K|(K1 & _)]; [exact K|]. subst v. destruct (P (n - 1)); discriminate. }
    assert (HNew : forall v, ~ Closed n v (a, n - a)) by (intros v (_ & K & _); lia).
    assert (HGo : P n = P (n - 1) -> Same (P n) a (n + 1 - a)).
    { intros E. repeat split; try lia.
      - intros q Hq. destruct (Z.eq_dec q n) as [->|]; [reflexivity|]. rewrite E. apply A2. lia.
      - rewrite E. exact A3. }
    assert (HStart : P n = negb (P (n - 1)) -> Same (P n) n (n + 1 - n)).
    { intros E. repeat split; try lia.
      - intros q Hq. replace q with n by lia. reflexivity.
      - right. rewrite E. now rewrite negb_involutive. }
    destruct H6 as [H6a H6b]. unfold track_step.
    destruct (P n) eqn:En; destruct (P (n - 1)) eqn:Ep; destruct HO as [O1 O2].
    - (* a run goes on *)
      replace (k_cur t =? 0) with false by lia. exists cr, cg. constructor; replace (n + 1 - 1) with n by lia; rewrite ?En.
      + apply (enum_same _ _ _ H1). apply HEq. reflexivity.
      + apply (enum_same _ _ _ H2). apply HEq. reflexivity.
      + eapply sums_same; [exact H3|..]; reflexivity.
      + lia.
      + intros _. exists a. split; [apply HGo; reflexivity|]. cbn [k_cur k_non k_lastNon k_undef k_bits set_cur set_non set_symbols]. lia.
      + cbn [k_cur k_non k_lastNon k_undef k_bits set_cur set_non set_symbols]. split; [exact H6a|]. intros K. specialize (H6b K). lia.
      + intros. apply L1; auto; lia.
      + exact L2.
      + intros; congruence.
      + intros. apply L4; auto; lia.
      + exact L5.
      + exact HU.
      + exact HB.
    - (* a run begins *)
      replace (k_cur t =? 0) with true by lia. destruct (use_symbol _ _ _ _) as [L R]. unfold end_gap. cbn [k_non set_symbols].
      rewrite O2. replace (n - a =? 0) with false by lia. exists cr, (cg ++ [(a, n - a)]). constructor; replace (n + 1 - 1) with n by lia; rewrite ?En.
      + apply (enum_same _ _ _ H1). apply HNo. reflexivity.
      + apply (enum_add _ _ _ _ H2 (HNew false)). apply HNe. reflexivity.
      + eapply sums_gap; [exact H3|..]; cbn; reflexivity.
      + lia.
      + intros _. exists n. split; [apply HStart; reflexivity|]. cbn [k_cur k_non k_lastNon k_undef k_bits set_cur set_non set_symbols]. lia.
      + cbn [k_cur k_non k_lastNon k_undef k_bits set_cur set_non set_symbols]. split; [intros K; now apply not_nil_snoc in K|]. intros _. lia.
      + intros. apply not_nil_snoc.
      + intros K1 K2. exfalso. apply L3; auto; lia.
      + intros. congruence.
      + intros. apply not_nil_snoc.
      + intros K1 K2. now apply not_nil_snoc in K2.
      + cbn [k_cur k_non k_lastNon k_undef k_bits set_cur set_non set_symbols]. rewrite (proj2 (proj2 (bit_index_ok z (n - a) ltac:(lia)))), orb_false_r. exact HU.
      + exact HB.
    - (* a run ends *)
      unfold end_run. rewrite O1. replace (n - a + first - 1 =? 0) with false by lia.
      exists (cr ++ [(a, n - a)]), cg.
      assert (HI : 1 <= n - a + first - 1 < 2 ^ 32) by lia. destruct (bit_index_ok z _ HI) as (_ & _ & HI2). pose proof (bit_cell _ HI) as HI3.
      constructor; replace (n + 1 - 1) with n by lia; rewrite ?En.
      + apply (enum_add _ _ _ _ H1 (HNew true)). apply HNe. reflexivity.
      + apply (enum_same _ _ _ H2). apply HNo. reflexivity.
      + eapply sums_run; [exact H3|..]; cbn; reflexivity.
      + lia.
      + intros _. exists n. split; [apply HStart; reflexivity|]. cbn [k_cur k_non k_lastNon k_undef k_bits set_cur set_non set_symbols]. lia.
      + cbn [k_cur k_non k_lastNon k_undef k_bits set_cur set_non set_symbols]. split; [exact H6a|]. intros K. specialize (H6b K). lia.
      + intros. congruence.
      + intros K1 K2. now apply not_nil_snoc in K2.
      + intros. apply not_nil_snoc.
      + intros. congruence.
      + intros K1 K2. exfalso. revert K2. apply L1; auto; lia.
      + cbn [k_cur k_non k_lastNon k_undef k_bits set_cur set_non set_symbols]. rewrite HI2, orb_false_r. destruct (Z.eq_dec (len cg) 0) as [K|K].
        * rewrite len_nil in K. rewrite (H6a K). change (bit_undef 0) with true. rewrite orb_true_r. split; [|reflexivity]. intros _. split; [|apply not_nil_snoc].
          destruct (P 0) eqn:E0; [reflexivity|]. exfalso. apply L1; auto; lia.
        * assert (K' : cg <> []) by (rewrite <- len_nil; exact K). specialize (H6b K').
          rewrite (proj2 (proj2 (bit_index_ok z (k_lastNon t) ltac:(lia)))), orb_false_r. rewrite HU. split; intros [U1 U2]; (split; [exact U1|]); [apply not_nil_snoc|].
          intros ->. apply K'. auto.
      + intros x. cbn [k_cur k_non k_lastNon k_undef k_bits set_cur set_non set_symbols]. rewrite bump_at, HB, HI3. rewrite len_app. change (len [(a, n - a)]) with 1. pose proof (len_nonneg cr).
        replace (len cr + 1 =? 0) with false by lia. cbn [negb]. rewrite andb_true_r.
        destruct (Z.eq_dec (len cg) 0) as [K|K].
        * rewrite len_nil in K. rewrite (H6a K). unfold bit_index at 1. change (w32 0 =? 0) with true. cbv iota. fold odd_cell.
          destruct (P 0) eqn:E0; [|exfalso; apply L1; auto; lia].
          assert (Kc : cr = []) by (destruct cr; [reflexivity|exfalso; apply (L4 eq_refl eq_refl ltac:(lia)); [discriminate|exact K]]).
          subst cr. cbn [len length]. change (len (@nil (Z * Z))) with 0. rewrite Z.eqb_refl. cbn [andb negb]. unfold odd_cell. lia.
        * assert (K' : cg <> []) by (rewrite <- len_nil; exact K). specialize (H6b K'). rewrite bit_cell by lia. change (15 * 16 + 15) with 255.
          destruct (P 0) eqn:E0; cbn [andb]; [|lia].
          replace (len cr =? 0) with false; [cbn [negb]; lia|]. symmetry. apply Z.eqb_neq. rewrite len_nil. intros ->. apply K'. auto.
    - (* a gap goes on *)
      unfold end_run. rewrite O1, Z.eqb_refl. exists cr, cg. constructor; replace (n + 1 - 1) with n by lia; rewrite ?En.
      + apply (enum_same _ _ _ H1). apply HEq. reflexivity.
      + apply (enum_same _ _ _ H2). apply HEq. reflexivity.
      + eapply sums_same; [exact H3|..]; reflexivity.
      + lia.
      + intros _. exists a. split; [apply HGo; reflexivity|]. cbn [k_cur k_non k_lastNon k_undef k_bits set_cur set_non set_symbols]. lia.
      + cbn [k_cur k_non k_lastNon k_undef k_bits set_cur set_non set_symbols]. split; [exact H6a|]. intros K. specialize (H6b K). lia.
      + intros. congruence.
      + exact L2.
      + intros. apply L3; auto; lia.
      + intros. congruence.
      + exact L5.
      + exact HU.
      + exact HB.
  Qed.

  Lemma inv_tracks n : Z.of_nat n + first <= 2 ^ 32 -> exists cr cg, Inv (Z.of_nat n) cr cg (tracks n).
  Proof.
    induction n as [|n IH]; intros H.
    - exists [], []. apply inv_0.
    - destruct (IH ltac:(lia)) as (cr & cg & HI). rewrite tracks_S. replace (Z.of_nat (S n)) with (Z.of_nat n + 1) by lia.
      apply (inv_step _ cr cg); auto; lia.
  Qed.

  (** The end of the file. *)
  Definition Full (n : Z) (v : bool) (x : Z * Z) : Prop :=
    let '(a, k) := x in Same v a k /\ a + k <= n /\ (a + k = n \/ P (a + k) = negb v).

  Lemma full_closed n v a x : 0 < n -> Same (P (n - 1)) a (n - a) ->
    (Full n v x <-> Closed n v x \/ (v = P (n - 1) /\ x = (a, n - a))).
  Proof.
    intros Hn HS. destruct x as [b k]. unfold Full, Closed. split.
    - intros (H1 & H2 & H3). destruct (Z_lt_dec (b + k) n) as [L|L].
      + left. split; [exact H1|]. split; [exact L|]. destruct H3 as [H3|H3]; [lia|exact H3].
      + right. assert (Ek : k = n - b) by lia. subst k.
        assert (Ev : P (n - 1) = v) by (apply H1; destruct H1 as (_ & H1 & _); lia).
        rewrite Ev in HS. rewrite (same_unique v a b n HS H1). auto.
    - intros [(H1 & H2 & H3)|(-> & E)]; [split; [exact H1|split; [lia|right; exact H3]]|].
      injection E as -> ->. split; [exact HS|split; [lia|left; lia]].
  Qed.
  Lemma full_0 v x : ~ Full 0 v x.
  Proof. destruct x as [a k]. intros ((H1 & H2 & _) & H3 & _). lia. Qed.

  Lemma all_closed n : 0 < n -> P 0 = true -> ((exists x, Closed n true x) <-> exists q, 0 <= q < n /\ P q = false).
  Proof.
    intros Hn H0. split.
    - intros [[a k] ((H1 & H2 & _) & H3 & H4)]. exists (a + k). split; [lia|exact H4].
    - intros (q & Hq & Eq). revert q Hq Eq.
      assert (G : forall m, 0 <= m -> forall q, 0 <= q < n -> q <= m -> P q = false -> exists x, Closed n true x).
      { intros m Hm. pattern m. apply natlike_ind; [| |exact Hm].
        - intros q Hq1 Hq2 E. replace q with 0 in E by lia. congruence.
        - intros k Hk IH q Hq1 Hq2 E. destruct (Z_le_dec q k) as [L|L]; [apply (IH q); auto|].
          assert (q = Z.succ k) by lia. subst q.
          destruct (Exists_dec (fun i => P (Z.of_nat i) = false) (seq 0 (Z.to_nat (Z.succ k)))) as [D|D].
          + intros x. destruct (P (Z.of_nat x)); [right; discriminate|left; reflexivity].
          + apply Exists_exists in D. destruct D as (i & Hi & Ei). apply in_seq in Hi. apply (IH (Z.of_nat i)); auto; lia.
          + exists (0, Z.succ k). split; [|split; [lia|exact E]]. split; [lia|]. split; [lia|]. split; [|left; reflexivity].
            intros q Hq. destruct (P q) eqn:Eq; [reflexivity|]. exfalso. apply D. apply Exists_exists. exists (Z.to_nat q).
            rewrite Z2Nat.id by lia. split; [apply in_seq; lia|exact Eq]. }
      intros q Hq E. apply (G q ltac:(lia) q); auto; lia.
  Qed.

  Lemma end_ok n : Z.of_nat n + first <= 2 ^ 32 ->
    let t := track_end z (tracks n) in
    exists cr cg, Enumerates (Full (Z.of_nat n) true) cr /\ Enumerates (Full (Z.of_nat n) false) cg /\ Sums cr cg t /\
      (k_undef t = true <-> P 0 = true /\ exists q, 0 <= q < Z.of_nat n /\ P q = false) /\
      (k_undef t = false -> forall x, k_bits t x = one (x =? 255) * (k_count t - one ((0 <? Z.of_nat n) && P (Z.of_nat n - 1)))).
  Proof.
    intros Hn. destruct (inv_tracks n Hn) as (cr & cg & [H1 H2 H3 H4 H5 H6 L1 L2 L3 L4 L5 HU HB]). cbv zeta.
    set (t := tracks n) in *. set (m := Z.of_nat n) in *. destruct (Z.eq_dec m 0) as [E0|E0].
    { destruct (H4 E0) as (C1 & C2 & -> & ->). exists [], []. unfold track_end. rewrite C1, C2. cbn [negb Z.eqb].
      rewrite E0 in *. split; [split; [constructor|]; intros x; split; [intros []|intros F; now apply full_0 in F]|].
      split; [split; [constructor|]; intros x; split; [intros []|intros F; now apply full_0 in F]|]. split; [exact H3|].
      split; [rewrite HU; split; [intros [_ K]; congruence|intros (_ & q & Hq & _); lia]|].
      intros _ x. rewrite HB. destruct H3 as [-> _ _ _ _ _ _]. change (len (@nil (Z * Z))) with 0. rewrite andb_false_r. cbn. lia. }
    destruct (H5 ltac:(lia)) as (a & HS & HO).
    assert (HU' : k_undef t = true <-> P 0 = true /\ exists q, 0 <= q < m /\ P q = false).
    { rewrite HU. split; intros [U1 U2]; (split; [exact U1|]).
      - apply (all_closed m ltac:(lia) U1). destruct cr as [|x cr]; [congruence|]. exists x. apply H1. left. reflexivity.
      - apply (all_closed m ltac:(lia) U1) in U2. destruct U2 as (x & Hx). intros ->. apply H1 in Hx. exact Hx. }
    assert (HB' : k_undef t = false -> forall x, k_bits t x = one (x =? 255) * len cr).
    { intros U x. rewrite HB. destruct (P 0 && negb (len cr =? 0)) eqn:E; [|reflexivity]. exfalso. apply andb_prop in E. destruct E as [E1 E2].
      assert (k_undef t = true); [|congruence]. apply HU. split; [exact E1|]. intros ->. discriminate E2. }
    destruct H3 as [C1 C2 C3 C4 C5 C6 C7]. assert (H3 : Sums cr cg t) by (constructor; assumption). rewrite <- C1 in HB'.
    assert (HNew : forall v, ~ Closed m v (a, m - a)) by (intros v (_ & K & _); lia).
    destruct HS as (HS1 & HS2 & HS3 & HS4). assert (HS : Same (P (m - 1)) a (m - a)) by (split; [exact HS1|]; split; [exact HS2|]; split; [exact HS3|exact HS4]).
    unfold track_end. destruct (P (m - 1)) eqn:Ep; destruct HO as [O1 O2].
    - rewrite O2, O1. replace (m - a + first - 1 =? 0) with false by lia. cbn [negb Z.eqb].
      exists (cr ++ [(a, m - a)]), cg. split; [|split; [|split; [|split]]].
      + apply (enum_add _ _ _ _ H1 (HNew true)). intros x. rewrite (full_closed m true a x ltac:(lia)) by (rewrite Ep; exact HS). rewrite Ep. intuition.
      + apply (enum_same _ _ _ H2). intros x. rewrite (full_closed m false a x ltac:(lia)) by (rewrite Ep; exact HS). rewrite Ep. intuition congruence.
      + eapply sums_run; [exact H3|..]; reflexivity.
      + cbn [k_undef]. rewrite (proj2 (proj2 (bit_index_ok z (m - a + first - 1) ltac:(lia)))), orb_false_r. exact HU'.
      + cbn [k_undef k_bits k_count]. rewrite (proj2 (proj2 (bit_index_ok z (m - a + first - 1) ltac:(lia)))), orb_false_r.
        replace (0 <? m) with true by lia. cbn [andb one]. intros U x. rewrite (HB' U). f_equal. lia.
    - rewrite O2. replace (m - a =? 0) with false by lia. cbn [negb].
      exists cr, (cg ++ [(a, m - a)]). split; [|split; [|split; [|split]]].
      + apply (enum_same _ _ _ H1). intros x. rewrite (full_closed m true a x ltac:(lia)) by (rewrite Ep; exact HS). rewrite Ep. intuition congruence.
      + apply (enum_add _ _ _ _ H2 (HNew false)). intros x. rewrite (full_closed m false a x ltac:(lia)) by (rewrite Ep; exact HS). rewrite Ep. intuition.
      + eapply sums_gap; [exact H3|..]; reflexivity.
      + cbn [k_undef]. rewrite (proj2 (proj2 (bit_index_ok z (m - a) ltac:(lia)))), orb_false_r. exact HU'.
      + cbn [k_undef k_bits k_count]. rewrite (proj2 (proj2 (bit_index_ok z (m - a) ltac:(lia)))), orb_false_r.
        rewrite andb_false_r. cbn [one]. intros U x. rewrite (HB' U). f_equal. lia.
  Qed.

  (** Every place belongs to a run or to a gap. *)
  Definition Weight (n : Z) (t : track) : Prop :=
    k_runs t - (first - 1) * k_count t + k_empty t + (if k_cur t =? 0 then 0 else k_cur t - (first - 1)) + k_non t = n /\
    0 <= k_non t /\ ((k_cur t = 0) \/ (first <= k_cur t /\ k_non t = 0)).
  Lemma weight_step n m s t : Weight n t -> Weight (n + 1) (track_step z j first m s t).
  Proof.
    intros (H1 & H2 & H3). unfold track_step, Weight. destruct m.
    - destruct (k_cur t =? 0) eqn:E.
      + destruct (use_symbol _ _ _ _) as [L R]. unfold end_gap. cbn [k_non set_symbols].
        destruct (k_non t =? 0) eqn:E2; cbn [k_runs k_count k_empty k_cur k_non set_cur set_symbols];
          replace (first =? 0) with false by lia; lia.
      + cbn [k_runs k_count k_empty k_cur k_non set_cur set_symbols]. replace (k_cur t + 1 =? 0) with false by lia. lia.
    - unfold end_run. destruct (k_cur t =? 0) eqn:E; cbn [k_runs k_count k_empty k_cur k_non set_non]; rewrite ?E; try rewrite Z.eqb_refl; lia.
  Qed.
  Lemma weight_tracks n : Weight (Z.of_nat n) (tracks n).
  Proof.
    induction n as [|n IH]; [unfold Weight; cbn; lia|]. rewrite tracks_S. replace (Z.of_nat (S n)) with (Z.of_nat n + 1) by lia.
    apply weight_step. exact IH.
  Qed.
  Lemma weight_end n : let t := track_end z (tracks n) in k_runs t + k_empty t = Z.of_nat n + (first - 1) * k_count t.
  Proof.
    destruct (weight_tracks n) as (H1 & H2 & H3). cbv zeta. unfold track_end.
    destruct (k_non _ =? 0) eqn:E; cbn [negb]; [destruct (k_cur _ =? 0) eqn:E2; cbn [negb]|]; cbn [k_runs k_empty k_count]; try rewrite E2 in H1; try lia.
    destruct H3 as [H3|H3]; [rewrite H3 in H1; cbn [Z.eqb] in H1; lia|lia].
  Qed.

  (** If a run is always followed by [w] places that do not repeat, runs are [w] apart. *)
  Definition Spread (w : Z) (t : track) : Prop :=
    (0 < k_count t \/ k_cur t <> 0 -> w * (k_count t + (if k_cur t =? 0 then 0 else 1) - 1) <= k_empty t) /\ 0 <= k_count t.
  Lemma spread_step w n cr cg t : 0 <= n -> (forall q, 0 <= q -> P q = true -> P (q + 1) = false -> forall d, 1 <= d <= w -> P (q + d) = false) ->
    0 <= w -> Inv n cr cg t -> Spread w t -> Spread w (track_step z j first (P n) (sy n) t).
  Proof.
    intros Hn HP Hw [H1 H2 [C1 _ C3 _ _ _ _] H4 H5 H6 L1 L2 L3 L4 L5 HU HB] (S1 & S2).
    unfold track_step, Spread. destruct (P n) eqn:En.
    - destruct (Z.eqb_spec (k_cur t) 0) as [Ec|Ec].
      + destruct (use_symbol _ _ _ _) as [L R]. unfold end_gap. cbn [k_non set_symbols].
        destruct (Z.eqb_spec (k_non t) 0) as [E2|E2]; cbn [k_runs k_count k_empty k_cur k_non set_cur set_symbols];
          replace (first =? 0) with false by lia.
        * (* no gap: this is the first place *)
          destruct (Z.eq_dec n 0) as [->|Hne].
          { destruct (H4 eq_refl) as (_ & _ & -> & ->). change (len (@nil (Z * Z))) with 0 in C1. rewrite C1, C3. unfold total. cbn [fold_right]. lia. }
          destruct (H5 ltac:(lia)) as (a & (_ & HS & _) & HO). destruct (P (n - 1)); lia.
        * destruct (Z.eq_dec n 0) as [->|Hne]; [destruct (H4 eq_refl) as (_ & K & _); lia|].
          destruct (H5 ltac:(lia)) as (a & (HS1 & HS2 & HS3 & HS4) & HO). destruct (P (n - 1)) eqn:Ep; [lia|]. destruct HO as [_ O2].
          split; [intros _|lia].
          destruct (Z.eq_dec (k_count t) 0) as [K0|K0].
          { rewrite K0. assert (0 <= k_empty t); [|lia]. rewrite C3. clear - H2. destruct H2 as [_ H2]. assert (G : forall x, List.In x cg -> 1 <= snd x).
            { intros [b k] Hx. apply H2 in Hx. destruct Hx as ((_ & K & _) & _). exact K. }
            clear H2. unfold total. induction cg as [|x cg IH]; cbn [fold_right]; [lia|]. pose proof (G x (or_introl eq_refl)).
            specialize (IH (fun y Hy => G y (or_intror Hy))). lia. }
          specialize (S1 ltac:(left; lia)).
          assert (w <= k_non t); [|lia]. rewrite O2. destruct (Z_le_dec w (n - a)) as [L0|L0]; [exact L0|exfalso].
          destruct (Z.eq_dec a 0) as [->|Ha].
          { (* no run can have been counted *)
            rewrite C1 in K0. destruct cr as [|[b k] cr]; [apply K0; reflexivity|].
            assert (HC : Closed n true (b, k)) by (apply H1; left; reflexivity). destruct HC as ((Hb1 & Hb2 & Hb3 & _) & Hb4 & _).
            specialize (Hb3 b ltac:(lia)). rewrite HS3 in Hb3 by lia. discriminate. }
          destruct HS4 as [HS4|HS4]; [lia|]. cbn [negb] in HS4.
          assert (K : P (a - 1 + (n - a + 1)) = false).
          { apply HP; [lia|exact HS4| |lia]. replace (a - 1 + 1) with a by lia. apply HS3. lia. }
          replace (a - 1 + (n - a + 1)) with n in K by lia. congruence.
      + cbn [k_runs k_count k_empty k_cur k_non set_cur]. split; [|lia]. intros _.
        assert (first <= k_cur t).
        { destruct (Z.eq_dec n 0) as [->|Hne]; [destruct (H4 eq_refl) as (K & _); lia|].
          destruct (H5 ltac:(lia)) as (a & (HS1 & HS2 & _) & HO). destruct (P (n - 1)); lia. }
        replace (k_cur t + 1 =? 0) with false by lia. apply S1. right. exact Ec.
    - unfold end_run. destruct (Z.eqb_spec (k_cur t) 0) as [Ec|Ec]; cbn [k_runs k_count k_empty k_cur k_non set_non].
      + rewrite Ec in *. cbn [Z.eqb] in *. split; [|exact S2]. intros K. apply S1. exact K.
      + cbn [Z.eqb]. split; [|lia]. intros _. specialize (S1 ltac:(right; exact Ec)). lia.
  Qed.
  Lemma spread_end w n : Z.of_nat n + first <= 2 ^ 32 -> 0 <= w ->
    (forall q, 0 <= q -> P q = true -> P (q + 1) = false -> forall d, 1 <= d <= w -> P (q + d) = false) ->
    let t := track_end z (tracks n) in 0 < k_count t -> w * (k_count t - 1) <= k_empty t.
  Proof.
    intros Hn Hw HP. cbv zeta.
    assert (HS : Spread w (tracks n)).
    { revert Hn. induction n as [|n IH]; intros Hn; [split; cbn; lia|]. rewrite tracks_S.
      destruct (inv_tracks n ltac:(lia)) as (cr & cg & HI). apply (spread_step w _ cr cg); auto; try lia. apply IH. lia. }
    destruct (inv_tracks n Hn) as (cr & cg & [H1 H2 _ H4 H5 _ _ _ _ _ _ _ _]). destruct HS as [S1 S2].
    unfold track_end. destruct (Z.eqb_spec (k_non (tracks n)) 0) as [E|E]; cbn [negb].
    - destruct (Z.eqb_spec (k_cur (tracks n)) 0) as [E2|E2]; cbn [negb k_count k_empty].
      + intros K. specialize (S1 ltac:(left; lia)). lia.
      + intros K. specialize (S1 ltac:(right; lia)). lia.
    - cbn [k_count k_empty]. intros K. specialize (S1 ltac:(left; lia)).
      assert (k_cur (tracks n) = 0 /\ 0 <= k_non (tracks n)) as [E2 E3].
      { destruct (Z.eq_dec (Z.of_nat n) 0) as [E0|E0]; [destruct (H4 E0) as (K1 & K2 & _); lia|].
        destruct (H5 ltac:(lia)) as (a & (HS1 & HS2 & _) & HO). destruct (P _); lia. }
      rewrite E2 in S1. cbn [Z.eqb] in S1. lia.
  Qed.
End Track.
