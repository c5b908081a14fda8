(** Iterative mode goes through all planned tests, each exactly once, and ends. *)
From Verif Require Import Base Spec FuzzModel FuzzSpec.

(** *** One section *)

Definition inc_pair (p : Z * Z) : Z * Z :=
  let '(lt, l) := p in
  if lt =? 1 then if l * 17 / 16 >? medium_max then (2, limit_min) else (1, l * 17 / 16)
  else if lt =? 2 then if l + 1 >? limit_max then (3, 0) else (2, l + 1)
  else if l + 1 >? small_max then (1, medium_min) else (lt, l + 1).

Lemma sub_increment_pair s :
  sub_increment s = (fst (inc_pair (s_lt s, s_len s)) <? 3,
                     mkSub (s_type s) (fst (inc_pair (s_lt s, s_len s))) (snd (inc_pair (s_lt s, s_len s))) (s_sym s)).
Proof.
  unfold sub_increment, inc_pair. destruct s as [t lt l sym]. cbn [s_lt s_len s_type s_sym].
  destruct (lt =? 1) eqn:E1; [destruct (l * 17 / 16 >? medium_max); reflexivity|].
  destruct (lt =? 2) eqn:E2; [destruct (l + 1 >? limit_max); reflexivity|].
  destruct (l + 1 >? small_max); reflexivity.
Qed.

Definition kind (l : Z) : Z := if l <=? 280 then 0 else if l <=? 8192 then 1 else 2.

Definition len_at (i : Z) : Z := nth (Z.to_nat i) tested_lengths 0.

Definition check_len (i : nat) : bool :=
  let l := len_at (Z.of_nat i) in
  let l' := len_at (Z.of_nat i + 1) in
  let '(a, b) := inc_pair (kind l, l) in
  if Nat.eqb i 352 then (a =? 3) else (a =? kind l') && (b =? l').

Lemma check_all : forallb check_len (seq 0 353) = true.
Proof. vm_compute. reflexivity. Qed.

Lemma inc_at i : 0 <= i < 353 ->
  (i < 352 -> inc_pair (kind (len_at i), len_at i) = (kind (len_at (i + 1)), len_at (i + 1))) /\
  (i = 352 -> fst (inc_pair (kind (len_at i), len_at i)) = 3).
Proof.
  intros Hi. pose proof (proj1 (forallb_forall _ _) check_all (Z.to_nat i)) as H.
  assert (Hin : List.In (Z.to_nat i) (seq 0 353)) by (apply in_seq; lia).
  specialize (H Hin). unfold check_len in H. rewrite Z2Nat.id in H by lia.
  destruct (inc_pair (kind (len_at i), len_at i)) as [a b].
  destruct (Nat.eqb (Z.to_nat i) 352) eqn:E.
  - apply Nat.eqb_eq in E. split; [lia|]. intros _. cbn [fst]. lia.
  - apply Nat.eqb_neq in E. split; [|lia]. intros _. apply andb_true_iff in H. destruct H as [H1 H2].
    apply Z.eqb_eq in H1, H2. congruence.
Qed.

Lemma kind_small i : 0 <= i < 353 -> kind (len_at i) < 3.
Proof. intros _. unfold kind. destruct (_ <=? _); [lia|]. destruct (_ <=? _); lia. Qed.

Lemma lengths_len : length tested_lengths = 353%nat.
Proof. vm_compute. reflexivity. Qed.

Fixpoint nodupb (l : list Z) : bool :=
  match l with [] => true | x :: l' => negb (existsb (Z.eqb x) l') && nodupb l' end.
Lemma nodupb_ok l : nodupb l = true -> NoDup l.
Proof.
  induction l as [|x l IH]; cbn [nodupb]; intros H; constructor.
  - apply andb_true_iff in H. destruct H as [H _]. apply negb_true_iff in H. intros Hin.
    rewrite <- not_true_iff_false in H. apply H, existsb_exists. exists x. split; [exact Hin|]. apply Z.eqb_refl.
  - apply IH. apply andb_true_iff in H. tauto.
Qed.
Lemma lengths_nodup : NoDup tested_lengths.
Proof. apply nodupb_ok. vm_compute. reflexivity. Qed.

Lemma len_at_inj i j : 0 <= i < 353 -> 0 <= j < 353 -> len_at i = len_at j -> i = j.
Proof.
  intros Hi Hj H. unfold len_at in H. apply Z2Nat.inj; [lia|lia|].
  eapply (proj1 (NoDup_nth tested_lengths 0) lengths_nodup); rewrite ?lengths_len; [lia|lia|exact H].
Qed.

Lemma len_at_in l : List.In l tested_lengths -> exists i, 0 <= i < 353 /\ len_at i = l.
Proof.
  intros H. apply (In_nth _ _ 0) in H. destruct H as (k & Hk & E). rewrite lengths_len in Hk.
  exists (Z.of_nat k). split; [lia|]. unfold len_at. rewrite Nat2Z.id. exact E.
Qed.
Lemma len_at_tested i : 0 <= i < 353 -> List.In (len_at i) tested_lengths.
Proof. intros H. apply nth_In. rewrite lengths_len. lia. Qed.

Lemma check_pos : forallb (fun l => (1 <=? l) && (l <=? 65560)) tested_lengths = true.
Proof. vm_compute. reflexivity. Qed.
Lemma tested_range l : List.In l tested_lengths -> 1 <= l <= 65560.
Proof. intros H. pose proof (proj1 (forallb_forall _ _) check_pos l H) as E. cbv beta in E. lia. Qed.

(** The section of type [t] with the i-th length. *)
Definition sect (t i : Z) : sub := mkSub t (kind (len_at i)) (len_at i) 0.

Lemma sect_inc t i : 0 <= i < 352 -> sub_increment (sect t i) = (true, sect t (i + 1)).
Proof.
  intros Hi. rewrite sub_increment_pair. cbn [s_lt s_len s_type s_sym sect].
  destruct (inc_at i) as [H _]; [lia|]. rewrite H by lia. cbn [fst snd].
  pose proof (kind_small (i + 1)). replace (kind (len_at (i + 1)) <? 3) with true by lia. reflexivity.
Qed.
Lemma sect_last t : exists s, sub_increment (sect t 352) = (false, s) /\ sub_reset s = sect t 0.
Proof.
  eexists. rewrite sub_increment_pair. cbn [s_lt s_len s_type s_sym sect].
  destruct (inc_at 352) as [_ H]; [lia|]. rewrite H by lia. split; [reflexivity|]. reflexivity.
Qed.
Lemma init_sect t : sub_init t = sect t 0.
Proof. reflexivity. Qed.

(** *** All sections: the digits of a number to base 353 *)

Fixpoint sects (t0 : Z) (ds : list Z) : list sub :=
  match ds with [] => [] | d :: ds' => sect (t0 mod 2) d :: sects (t0 + 1) ds' end.

Fixpoint value (ds : list Z) (acc : Z) : Z :=
  match ds with [] => acc | d :: ds' => value ds' (acc * 353 + d) end.

Definition digits (ds : list Z) : Prop := Forall (fun d => 0 <= d < 353) ds.

Lemma value_app ds1 : forall ds2 acc, value (ds1 ++ ds2) acc = value ds2 (value ds1 acc).
Proof. induction ds1 as [|d ds1 IH]; intros ds2 acc; cbn [app value]; auto. Qed.
Lemma value_snoc ds d acc : value (ds ++ [d]) acc = value ds acc * 353 + d.
Proof. rewrite value_app. reflexivity. Qed.

Lemma length_sects ds : forall t, length (sects t ds) = length ds.
Proof. induction ds as [|d ds IH]; intros t; cbn [sects length]; auto. Qed.
Lemma sects_app ds1 : forall t ds2, sects t (ds1 ++ ds2) = sects t ds1 ++ sects (t + len ds1) ds2.
Proof.
  induction ds1 as [|d ds1 IH]; intros t ds2; cbn [sects app].
  - change (len (@nil Z)) with 0. now rewrite Z.add_0_r.
  - rewrite IH, len_cons. do 3 f_equal. lia.
Qed.

Lemma value_range ds : digits ds -> 0 <= value ds 0 < 353 ^ len ds.
Proof.
  induction ds as [|d ds IH] using rev_ind; intros H.
  - cbn. lia.
  - apply Forall_app in H. destruct H as [H1 H2]. inversion H2 as [|? ? Hd _]; subst. specialize (IH H1).
    rewrite value_snoc, len_app. change (len [d]) with 1. rewrite Z.pow_add_r by (pose proof (len_nonneg ds); lia).
    change (353 ^ 1) with 353. lia.
Qed.

Lemma value_inj ds : forall es, digits ds -> digits es -> len ds = len es -> value ds 0 = value es 0 -> ds = es.
Proof.
  induction ds as [|d ds IH] using rev_ind; intros es Hd He Hl Hv.
  - destruct es; [reflexivity|]. rewrite len_cons in Hl. change (len (@nil Z)) with 0 in Hl. pose proof (len_nonneg es). lia.
  - destruct es as [|e es _] using rev_ind.
    + rewrite len_app in Hl. change (len (@nil Z)) with 0 in Hl. change (len [d]) with 1 in Hl. pose proof (len_nonneg ds). lia.
    + apply Forall_app in Hd, He. destruct Hd as [H1 H2], He as [H3 H4]. inversion H2; subst. inversion H4; subst.
      rewrite !len_app in Hl. change (len [d]) with 1 in Hl. change (len [e]) with 1 in Hl.
      rewrite !value_snoc in Hv. assert (d = e) by lia. subst e. f_equal. apply IH; [assumption|assumption|lia|lia].
Qed.

Lemma nth_mid {A} (l1 l2 : list A) (x y : A) : nth (length l1) (l1 ++ x :: l2) y = x.
Proof. rewrite app_nth2 by lia. rewrite Nat.sub_diag. reflexivity. Qed.
Lemma upd_mid {A} (l1 l2 : list A) (x y : A) : upd (length l1) y (l1 ++ x :: l2) = l1 ++ y :: l2.
Proof. induction l1 as [|z l1 IH]; cbn [length app upd]; [reflexivity|]. now rewrite IH. Qed.

Lemma subs_inc_ok t ds : ds <> [] -> digits ds -> forall rest,
  (value ds 0 + 1 < 353 ^ len ds ->
   exists es, subs_increment (length ds - 1) (sects t ds ++ rest) = (true, sects t es ++ rest) /\
     digits es /\ len es = len ds /\ value es 0 = value ds 0 + 1) /\
  (value ds 0 + 1 = 353 ^ len ds ->
   subs_increment (length ds - 1) (sects t ds ++ rest) = (false, sects t (repeat 0 (length ds)) ++ rest)).
Proof.
  induction ds as [|d ds IH] using rev_ind; intros Hne Hd rest; [congruence|clear Hne].
  apply Forall_app in Hd. destruct Hd as [H1 H2]. inversion H2 as [|? ? Hd' _]; subst. clear H2.
  rewrite app_length. cbn [length]. replace (length ds + 1 - 1)%nat with (length (sects t ds)) by (rewrite length_sects; lia).
  rewrite sects_app. cbn [sects]. rewrite <- app_assoc. cbn [app]. set (ty := (t + len ds) mod 2).
  rewrite value_snoc, len_app. change (len [d]) with 1.
  rewrite Z.pow_add_r by (pose proof (len_nonneg ds); lia). change (353 ^ 1) with 353.
  pose proof (value_range ds H1) as HV.
  destruct (Z_lt_dec d 352) as [L|G].
  - split; [intros _|intros K; exfalso; lia]. exists (ds ++ [d + 1]).
    assert (E : subs_increment (length (sects t ds)) (sects t ds ++ sect ty d :: rest) = (true, sects t ds ++ sect ty (d + 1) :: rest)).
    { destruct (length (sects t ds)) eqn:El; cbn [subs_increment]; rewrite <- El, nth_mid, sect_inc by lia; now rewrite upd_mid. }
    rewrite E, sects_app. cbn [sects]. rewrite <- app_assoc. cbn [app]. fold ty. split; [reflexivity|]. split; [|split].
    + apply Forall_app. split; [exact H1|]. constructor; [lia|constructor].
    + rewrite len_app. reflexivity.
    + rewrite value_snoc. lia.
  - assert (Ed : d = 352) by lia. subst d. destruct (sect_last ty) as (s & Es & Er).
    assert (E : subs_increment (length (sects t ds)) (sects t ds ++ sect ty 352 :: rest) =
                match ds with
                | [] => (false, sect ty 0 :: rest)
                | _ => subs_increment (length ds - 1) (sects t ds ++ (sect ty 0 :: rest))
                end).
    { destruct (length (sects t ds)) eqn:El; cbn [subs_increment]; rewrite <- El, nth_mid, Es, Er, upd_mid.
      - destruct ds; [reflexivity|]. cbn [sects length] in El. discriminate.
      - destruct ds as [|d0 ds]; [cbn [sects length] in El; discriminate|].
        rewrite length_sects in El. cbn [length] in El |- *. replace (S (length ds) - 1)%nat with n by lia. reflexivity. }
    rewrite E. destruct ds as [|d0 ds0].
    + cbn [value] in *. change (len (@nil Z)) with 0 in *. change (353 ^ 0) with 1 in *. split; [lia|]. intros _.
      cbn [length repeat sects app]. unfold ty. change (len (@nil Z)) with 0. rewrite Z.add_0_r. reflexivity.
    + specialize (IH ltac:(congruence) H1 (sect ty 0 :: rest)). destruct IH as [IH1 IH2].
      remember (d0 :: ds0) as ds eqn:Eds. split.
      * intros K. destruct IH1 as (es & Ee & De & Le & Ve); [lia|]. exists (es ++ [0]). rewrite Ee. split; [|split; [|split]].
        -- rewrite sects_app. cbn [sects]. rewrite <- app_assoc. cbn [app]. rewrite Le. reflexivity.
        -- apply Forall_app. split; [exact De|]. constructor; [lia|constructor].
        -- rewrite len_app. change (len [0]) with 1. lia.
        -- rewrite value_snoc. lia.
      * intros K. rewrite IH2 by lia. f_equal.
        replace (repeat 0 (length ds + 1)) with (repeat 0 (length ds) ++ [0]) by (rewrite repeat_app; reflexivity).
        rewrite sects_app. cbn [sects]. rewrite <- app_assoc. cbn [app]. unfold len. rewrite repeat_length. reflexivity.
Qed.

(** *** All tests *)

(** Position of symbol size and alignment among the 31. *)
Definition major (sl : Z) (bound : bool) : Z := if sl =? 1 then 0 else 2 * sl - 3 + (if bound then 1 else 0).

Record position := mkPos { p_sl : Z; p_bound : bool; p_start : Z; p_ds : list Z }.
Definition pos_ok (c : Z) (p : position) : Prop :=
  1 <= p_sl p <= 16 /\ (p_bound p = true -> p_sl p <> 1) /\ (p_start p = 0 \/ p_start p = 1) /\ len (p_ds p) = c /\ digits (p_ds p).
Definition rank (c : Z) (p : position) : Z := (major (p_sl p) (p_bound p) * 2 + p_start p) * 353 ^ c + value (p_ds p) 0.

Definition state_of (sym : Z -> Z -> Z) (c : Z) (p : position) : fstate :=
  mkF sym (p_sl p) (p_bound p) true c (c - 1) (p_start p) (sects (p_start p) (p_ds p)).

Lemma subs_init_sects start n : forall i, subs_init_from start i n = sects (i + start) (repeat 0 n).
Proof.
  induction n as [|n IH]; intros i; cbn [subs_init_from repeat sects]; [reflexivity|]. rewrite IH, init_sect.
  do 2 f_equal. lia.
Qed.
Lemma subs_init_is start n : subs_init start n = sects start (repeat 0 (Z.to_nat n)).
Proof. unfold subs_init. rewrite subs_init_sects. reflexivity. Qed.

Lemma value_zeros n : value (repeat 0 n) 0 = 0.
Proof. induction n as [|n IH]; [reflexivity|]. cbn [repeat value]. exact IH. Qed.
Lemma digits_zeros n : digits (repeat 0 n).
Proof. apply Forall_forall. intros x Hx. apply repeat_spec in Hx. lia. Qed.
Lemma len_zeros n : 0 <= n -> len (repeat 0 (Z.to_nat n)) = n.
Proof. intros H. unfold len. rewrite repeat_length. lia. Qed.

Lemma zeros_ok c sl bound start : 1 <= c -> 1 <= sl <= 16 -> (bound = true -> sl <> 1) -> (start = 0 \/ start = 1) ->
  pos_ok c (mkPos sl bound start (repeat 0 (Z.to_nat c))).
Proof.
  intros Hc H1 H2 H3. unfold pos_ok. cbn [p_sl p_bound p_start p_ds]. repeat (split; [assumption|]).
  split; [apply len_zeros; lia|apply digits_zeros].
Qed.

Lemma len_sects t ds : len (sects t ds) = len ds.
Proof. unfold len. now rewrite length_sects. Qed.

Lemma increment_ok sym c p : 1 <= c -> pos_ok c p ->
  (rank c p + 1 < planned_count c ->
   exists p', increment (state_of sym c p) = (true, state_of sym c p') /\ pos_ok c p' /\ rank c p' = rank c p + 1) /\
  (rank c p + 1 = planned_count c -> exists f, increment (state_of sym c p) = (false, f)).
Proof.
  intros Hc (Hsl & Hb & Hst & Hl & Hd). destruct p as [sl bound start ds]. cbn [p_sl p_bound p_start p_ds] in *.
  assert (Hne : ds <> []) by (intros ->; change (len (@nil Z)) with 0 in Hl; lia).
  pose proof (value_range ds Hd) as HV. rewrite Hl in HV.
  destruct (subs_inc_ok start ds Hne Hd []) as [I1 I2]. rewrite !app_nil_r in I1, I2. rewrite Hl in I1, I2.
  set (P := 353 ^ c) in *. assert (HP : 1 <= P) by (clear - HV; lia).
  unfold increment, state_of. cbn [f_subs f_last f_sl f_bound f_start p_sl p_bound p_start p_ds].
  rewrite len_sects, Hl. replace (c =? 0) with false by lia. rewrite Z.min_id.
  replace (Z.to_nat (c - 1)) with (length ds - 1)%nat by (unfold len in Hl; lia).
  unfold rank. cbn [p_sl p_bound p_start p_ds]. fold P. unfold planned_count. fold P. unfold max_symbol_length.
  destruct (Z_lt_dec (value ds 0 + 1) P) as [L|G].
  - destruct (I1 L) as (es & -> & De & Le & Ve). rewrite app_nil_r. cbv beta iota. split.
    + intros _. exists (mkPos sl bound start es). split; [reflexivity|]. split.
      * unfold pos_ok. cbn [p_sl p_bound p_start p_ds]. repeat (split; [assumption|]). exact De.
      * unfold rank. cbn [p_sl p_bound p_start p_ds]. rewrite Ve. lia.
    + intros K. exfalso. unfold major in K. clear I1 I2. assert (Hm : (if sl =? 1 then 0 else 2 * sl - 3 + (if bound then 1 else 0)) * 2 + start <= 61).
      { destruct (sl =? 1); [lia|]. destruct bound; lia. }
      set (mm := (if sl =? 1 then 0 else 2 * sl - 3 + (if bound then 1 else 0)) * 2 + start) in *. clearbody mm P. nia.
  - assert (EV : value ds 0 + 1 = P) by lia. rewrite (I2 EV), app_nil_r. cbv beta iota.
    unfold with_subs. cbn [f_subs f_last f_sl f_bound f_start f_sym f_iter f_rel].
    unfold restarted. cbn [f_subs f_last f_sl f_bound f_start f_sym f_iter f_rel].
    rewrite len_sects. replace (len (repeat 0 (length ds))) with c by (unfold len in *; rewrite repeat_length; lia).
    assert (Eval : value ds 0 = P - 1) by lia. rewrite Eval. unfold major.
    destruct (start + 1 <? 2) eqn:Es.
    + assert (start = 0) by lia. subst start. split.
      * intros _. exists (mkPos sl bound 1 (repeat 0 (Z.to_nat c))). rewrite subs_init_is. split; [reflexivity|].
        split; [apply zeros_ok; auto|]. cbn [p_sl p_bound p_start p_ds]. rewrite value_zeros. fold P. unfold major. lia.
      * intros K. exfalso. assert (Hm : (if sl =? 1 then 0 else 2 * sl - 3 + (if bound then 1 else 0)) <= 30) by (destruct (sl =? 1); [lia|destruct bound; lia]).
        set (mm := (if sl =? 1 then 0 else 2 * sl - 3 + (if bound then 1 else 0))) in *. clearbody mm P. nia.
    + assert (start = 1) by lia. subst start. destruct bound; cbn [orb negb].
      * replace (sl =? 1) with false by (specialize (Hb eq_refl); lia).
        destruct (sl + 1 >? 16) eqn:E16.
        -- split; [intros K; exfalso; assert (sl = 16) by lia; subst sl; lia|]. intros _. eexists. reflexivity.
        -- split; [|intros K; exfalso; clearbody P; clear - K E16 HP; nia]. intros _.
           exists (mkPos (sl + 1) false 0 (repeat 0 (Z.to_nat c))). rewrite subs_init_is. split; [reflexivity|].
           split; [apply zeros_ok; [lia|lia|discriminate|auto]|]. cbn [p_sl p_bound p_start p_ds]. rewrite value_zeros. fold P. unfold major. replace (sl + 1 =? 1) with false by lia.
           lia.
      * destruct (sl =? 1) eqn:E1; cbn [negb].
        -- assert (sl = 1) by lia. subst sl. change (1 + 1 >? 16) with false. cbv iota. split; [|intros K; exfalso; lia]. intros _.
           exists (mkPos 2 false 0 (repeat 0 (Z.to_nat c))). rewrite subs_init_is. split; [reflexivity|].
           split; [apply zeros_ok; [lia|lia|discriminate|auto]|]. cbn [p_sl p_bound p_start p_ds]. rewrite value_zeros. fold P. unfold major. change (2 =? 1) with false. lia.
        -- split; [|intros K; exfalso; clearbody P; clear - K HP Hsl; nia]. intros _.
           exists (mkPos sl true 0 (repeat 0 (Z.to_nat c))). rewrite subs_init_is. split; [reflexivity|].
           split; [apply zeros_ok; [lia|lia|lia|auto]|]. cbn [p_sl p_bound p_start p_ds]. rewrite value_zeros. fold P. unfold major. rewrite E1. lia.
Qed.

Lemma rank_range c p : 1 <= c -> pos_ok c p -> 0 <= rank c p < planned_count c.
Proof.
  intros Hc (Hsl & Hb & Hst & Hl & Hd). unfold rank, planned_count. pose proof (value_range _ Hd) as HV. rewrite Hl in HV.
  set (P := 353 ^ c) in *. unfold major. assert (Hm : 0 <= (if p_sl p =? 1 then 0 else 2 * p_sl p - 3 + (if p_bound p then 1 else 0)) * 2 + p_start p <= 61).
  { destruct (p_sl p =? 1) eqn:E1; [lia|destruct (p_bound p); lia]. }
  set (mm := (if p_sl p =? 1 then 0 else 2 * p_sl p - 3 + (if p_bound p then 1 else 0)) * 2 + p_start p) in *. clearbody mm P. nia.
Qed.

Lemma rank_inj c p q : 1 <= c -> pos_ok c p -> pos_ok c q -> rank c p = rank c q -> p = q.
Proof.
  intros Hc (Hsl & Hb & Hst & Hl & Hd) (Hsl' & Hb' & Hst' & Hl' & Hd') H. unfold rank in H.
  pose proof (value_range _ Hd) as HV. pose proof (value_range _ Hd') as HV'. rewrite Hl in HV. rewrite Hl' in HV'.
  destruct p as [sl bound start ds], q as [sl' bound' start' ds']. cbn [p_sl p_bound p_start p_ds] in *.
  set (P := 353 ^ c) in *. set (x := major sl bound * 2 + start) in *. set (y := major sl' bound' * 2 + start') in *.
  assert (Hxy : x = y /\ value ds 0 = value ds' 0).
  { clearbody x y P. clear - H HV HV'. assert (x = y) by nia. subst. lia. }
  destruct Hxy as [Hxy Hv]. assert (ds = ds') by (apply value_inj; [assumption|assumption|lia|assumption]). subst ds'.
  unfold x, y, major in Hxy. assert (sl = sl' /\ bound = bound' /\ start = start').
  { clear - Hxy Hsl Hsl' Hb Hb' Hst Hst'.
    destruct bound, bound'; try specialize (Hb eq_refl); try specialize (Hb' eq_refl);
      destruct (sl =? 1) eqn:E1, (sl' =? 1) eqn:E2; repeat split; try reflexivity; lia. }
  destruct H0 as (-> & -> & ->). reflexivity.
Qed.

(** The tests of the positions. *)
Definition test_of (f : fstate) : test := mkTest (f_sl f) (f_bound f) (f_start f) (map s_len (f_subs f)).

Lemma sects_lengths ds : forall t, map s_len (sects t ds) = map len_at ds.
Proof. induction ds as [|d ds IH]; intros t; cbn [sects map]; [reflexivity|]. now rewrite IH. Qed.

Lemma planned_position c t : planned c t -> exists p, pos_ok c p /\ forall sym, test_of (state_of sym c p) = t.
Proof.
  intros (H1 & H2 & H3 & H4 & H5). destruct t as [sl b st ls]. cbn [t_symbol t_bound t_start t_lengths] in *.
  assert (Hds : exists ds, digits ds /\ map len_at ds = ls).
  { clear H4. induction H5 as [|l ls Hl _ IH]; [exists []; split; [constructor|reflexivity]|].
    destruct IH as (ds & Hd & E). destruct (len_at_in _ Hl) as (i & Hi & Ei). exists (i :: ds).
    split; [constructor; assumption|]. cbn [map]. congruence. }
  destruct Hds as (ds & Hd & E). exists (mkPos sl b st ds). split.
  - unfold pos_ok. cbn [p_sl p_bound p_start p_ds]. repeat (split; [assumption|]). split; [|exact Hd].
    rewrite <- H4, <- E. unfold len. now rewrite map_length.
  - intros sym. unfold test_of, state_of. cbn [f_sl f_bound f_start f_subs p_sl p_bound p_start p_ds].
    now rewrite sects_lengths, E.
Qed.

Lemma position_planned sym c p : pos_ok c p -> planned c (test_of (state_of sym c p)).
Proof.
  intros (H1 & H2 & H3 & H4 & H5). unfold planned, test_of, state_of.
  cbn [t_symbol t_bound t_start t_lengths f_sl f_bound f_start f_subs]. rewrite sects_lengths.
  repeat (split; [assumption|]). split; [unfold len in *; now rewrite map_length|].
  apply Forall_map. eapply Forall_impl; [|exact H5]. intros d Hd. now apply len_at_tested.
Qed.

Lemma test_of_inj sym c p q : pos_ok c p -> pos_ok c q -> test_of (state_of sym c p) = test_of (state_of sym c q) -> p = q.
Proof.
  intros (_ & _ & _ & Hl & Hd) (_ & _ & _ & Hl' & Hd') H. unfold test_of, state_of in H.
  cbn [f_sl f_bound f_start f_subs] in H. rewrite !sects_lengths in H.
  destruct p as [a b c0 ds], q as [a' b' c0' ds']. cbn [p_sl p_bound p_start p_ds] in *.
  injection H as -> -> -> H. f_equal. clear Hl Hl'. revert ds' Hd' H.
  induction Hd as [|d ds Hd0 _ IH]; intros [|d' ds'] Hd' H; cbn [map] in H; try discriminate; [reflexivity|].
  inversion Hd'; subst. injection H as E1 E2. f_equal; [now apply len_at_inj|now apply IH].
Qed.

(** The first state. *)
Lemma create_state g c : 1 <= c -> exists sym g', fuzz_create g c true = (state_of sym c (mkPos 1 false 0 (repeat 0 (Z.to_nat c))), g').
Proof.
  intros Hc. unfold fuzz_create. destruct (draw_words _ g) as [syms g']. eexists _, g'. unfold state_of.
  cbn [p_sl p_bound p_start p_ds]. rewrite subs_init_is. reflexivity.
Qed.
