(** Random mode: which tests can come up. *)
From Verif Require Import Base Spec SimdProof FuzzModel FuzzSpec FuzzEnum FuzzFill FuzzThm WrThm FuzzRandSpec.

(** *** Only possible tests *)

Lemma sub_random_possible R g s : exists s' g', sub_random R g s = (s', g') /\ s_type s' = s_type s /\ 0 <= s_sym s' < 16 /\
  in_ranges [(1, 279); (768, 8191); (65528, 65559)] (s_len s').
Proof.
  unfold sub_random, symbol_count. destruct (rand_between_range R g 0 16) as (sym & g1 & -> & Hsym); [lia|].
  destruct (rand_between_range R g1 0 256) as (d & g2 & -> & _); [lia|].
  unfold small_min, small_max, medium_min, medium_max, limit_min, limit_max.
  destruct (d <? 208); [destruct (rand_between_range R g2 1 280) as (l & g3 & -> & Hl); [lia|]|
    destruct (d <? 248); [destruct (rand_between_range R g2 768 8192) as (l & g3 & -> & Hl); [lia|]|
      destruct (rand_between_range R g2 65528 65560) as (l & g3 & -> & Hl); [lia|]]];
    eexists _, _; (split; [reflexivity|]); cbn [s_len s_sym s_type]; (split; [reflexivity|]); (split; [lia|]).
  - exists (1, 279). cbn. split; [auto|lia].
  - exists (768, 8191). cbn. split; [auto|lia].
  - exists (65528, 65559). cbn. split; [auto|lia].
Qed.

Definition rs (s : sub) : rsection := mkRS (s_type s) (s_sym s) (s_len s).

Lemma randomise_possible R start k : forall g i l, (k <= length l)%nat ->
  exists l' g', randomise R g start i k l = (l', g') /\ length l' = length l /\ alternate ((i + start) mod 2) (map rs (firstn k l')) /\
  Forall (fun s => 0 <= rs_symbol s < 16 /\ in_ranges [(1, 279); (768, 8191); (65528, 65559)] (rs_length s)) (map rs (firstn k l')).
Proof.
  induction k as [|k IH]; intros g i l Hl.
  - exists l, g. split; [destruct l; reflexivity|]. split; [reflexivity|]. split; [exact I|constructor].
  - destruct l as [|s l]; cbn [length] in Hl; [lia|]. cbn [randomise].
    destruct (sub_random_possible R g (sub_init ((i + start) mod 2))) as (s' & g1 & -> & Ht & Hs1 & Hs2).
    destruct (IH g1 (i + 1) l ltac:(lia)) as (r & g2 & -> & Hlr & Ha & Hf). exists (s' :: r), g2. split; [reflexivity|].
    split; [cbn [length]; lia|]. cbn [firstn map alternate]. split.
    + split; [exact Ht|]. replace (1 - (i + start) mod 2) with ((i + 1 + start) mod 2) by lia. exact Ha.
    + constructor; [split; assumption|exact Hf].
Qed.

Lemma advance_possible R g c f : 2 <= c -> f_iter f = false -> len (f_subs f) = c ->
  exists f' g', advance R g f = (true, f', g') /\ possible c (drawn f').
Proof.
  intros Hc Hi Hl. unfold advance. rewrite Hi.
  destruct (rand_between_range R g 0 16) as (d & g1 & -> & _); [lia|].
  assert (Hsl' : exists sl g2, (if d <? 13 then let '(i, g') := rand_between R g1 1 7 in (reasonable i, g')
      else rand_between R g1 1 (max_symbol_length + 1)) = (sl, g2) /\ 1 <= sl <= 16).
  { destruct (d <? 13).
    - destruct (rand_between_range R g1 1 7) as (i & g2 & -> & Hi'); [lia|]. eexists _, _. split; [reflexivity|]. now apply reasonable_ok.
    - unfold max_symbol_length. destruct (rand_between_range R g1 1 (16 + 1)) as (i & g2 & -> & Hi'); [lia|]. eexists _, _. split; [reflexivity|]. lia. }
  destruct Hsl' as (sl & g2 & -> & Hsl').
  destruct (rand_between_range R g2 0 2) as (b & g3 & -> & _); [lia|].
  destruct (rand_between_range R g3 0 2) as (st & g4 & -> & Hst'); [lia|].
  rewrite Hl. destruct (rand_between_range R g4 1 c) as (rel & g5 & -> & Hrel); [lia|].
  destruct (randomise_possible R st (Z.to_nat rel) g5 0 (f_subs f)) as (l & g6 & -> & Hl2 & Ha & Hf); [unfold len in Hl; lia|].
  eexists _, _. split; [reflexivity|]. unfold possible, tests_in, drawn. cbn [f_sl f_subs f_rel f_bound rt_symbol rt_bound rt_sections].
  fold rs. change (map (fun s => mkRS (s_type s) (s_sym s) (s_len s))) with (map rs).
  split; [exact Hsl'|]. split; [unfold len in *; rewrite map_length, firstn_length; lia|]. split; [|exact Hf].
  replace ((0 + st) mod 2) with st in Ha by lia. assert (st = 0 \/ st = 1) as [->| ->] by lia; auto.
Qed.

Lemma random_possible R cs pU pK pD cap : (forall k, byte_mem (R k)) -> forall g c U K D k z, 2 <= c -> byte_mem U ->
  after (fuzz_step R cs pU pK pD cap) (first_state g c false U K D) k z -> 1 <= k -> possible c (drawn (z_f z)).
Proof.
  intros HR g c U K D k z Hc HU H Hk. destruct H as [|k' z1 z2 H1 E]; [lia|].
  destruct (state_inv R cs pU pK pD cap HR g c false U K D k' z1 Hc HU H1) as [HG _].
  destruct (step_inl _ _ _ _ _ _ _ _ E) as (n & g1 & U1 & _ & _ & Ea & _).
  destruct (advance_possible R g1 c (z_f z1) Hc (gd_iter _ _ _ HG) (gd_len _ _ _ HG)) as (f' & g' & Ea' & HP).
  rewrite Ea' in Ea. injection Ea as <- _. exact HP.
Qed.

(** *** All possible tests *)

(** Numbers that will be drawn from vector [N] on. *)
Definition plan (R : oracle) (N : Z) (l : list Z) : oracle :=
  fun k => if k <? N then R k else fun i => nth (Z.to_nat i) (le32 (nth (Z.to_nat (k - N)) l 0)) 0.

Lemma plan_byte R N l : (forall k, byte_mem (R k)) -> forall k, byte_mem (plan R N l k).
Proof.
  intros HR k. unfold plan. destruct (k <? N); [apply HR|]. intros i. cbv beta.
  set (w := nth (Z.to_nat (k - N)) l 0). clearbody w. pose proof (Forall_le32 w) as H. rewrite Forall_forall in H.
  destruct (Nat.lt_ge_cases (Z.to_nat i) (length (le32 w))) as [Hi|Hi]; [apply H, nth_In, Hi|].
  rewrite nth_overflow by exact Hi. unfold is_byte. lia.
Qed.

(** The next numbers, in this order. *)
Definition Coming (R : oracle) (g : gen) (l : list Z) : Prop :=
  forall j v, nth_error l j = Some v -> 0 <= v < 2 ^ 32 /\ rd32 (R (g_count g + Z.of_nat j)) 0 = v /\ rd32 (R (g_count g + Z.of_nat j)) 4 = 0.

Lemma plan_coming R g l : Forall (fun v => 0 <= v < 2 ^ 32) l -> Coming (plan R (g_count g) l) g l.
Proof.
  intros Hl j v Hj. assert (Hv : 0 <= v < 2 ^ 32) by (rewrite Forall_forall in Hl; apply Hl; eapply nth_error_In; eassumption).
  split; [exact Hv|]. unfold plan. destruct (g_count g + Z.of_nat j <? g_count g) eqn:E; [lia|].
  replace (g_count g + Z.of_nat j - g_count g) with (Z.of_nat j) by lia. rewrite Nat2Z.id.
  rewrite (nth_error_nth _ _ 0 Hj). split; [|reflexivity].
  apply (rd32_holds _ 0 v []); [exact Hv|]. unfold le32. cbn [app holds nth]. repeat split; reflexivity.
Qed.

Lemma draw R g v l lo hi : Coming R g (v :: l) -> v < hi - lo ->
  rand_between R g lo hi = (v + lo, mkGen (g_last g) (g_count g + 1)) /\ Coming R (mkGen (g_last g) (g_count g + 1)) l.
Proof.
  intros H Hv. destruct (H 0%nat v eq_refl) as (H1 & H2 & H3). rewrite Z.add_0_r in H2, H3. split.
  - unfold rand_between, read_rand. rewrite H2, H3. rewrite Z.mul_0_r, Z.add_0_r. rewrite Z.mod_small by lia. reflexivity.
  - intros j w Hj. specialize (H (Datatypes.S j) w Hj). cbn [g_count]. replace (g_count g + 1 + Z.of_nat j) with (g_count g + Z.of_nat (Datatypes.S j)) by lia. exact H.
Qed.

(** What to draw for a section. *)
Definition section_draws (s : rsection) : list Z :=
  if rs_length s <=? 279 then [rs_symbol s; 0; rs_length s - 1]
  else if rs_length s <=? 8191 then [rs_symbol s; 208; rs_length s - 768]
  else [rs_symbol s; 248; rs_length s - 65528].

Lemma sub_draw R g s l : Coming R g (section_draws s ++ l) -> 0 <= rs_symbol s < 16 ->
  in_ranges [(1, 279); (768, 8191); (65528, 65559)] (rs_length s) ->
  exists s' g', sub_random R g (sub_init (rs_type s)) = (s', g') /\ rs s' = s /\ Coming R g' l.
Proof.
  intros H Hs (r & Hr & Hlen). destruct s as [ty sy ln]. cbn [rs_symbol rs_length rs_type] in *. unfold section_draws in H. cbn [rs_length rs_symbol] in H.
  unfold sub_random, symbol_count, small_min, small_max, medium_min, medium_max, limit_min, limit_max.
  cbn [List.In] in Hr. destruct Hr as [<-|[<-|[<-|[]]]]; cbn [fst snd] in Hlen.
  - destruct (ln <=? 279) eqn:E; [|lia]. cbn [app] in H.
    destruct (draw _ _ _ _ 0 16 H ltac:(lia)) as [-> H1]. destruct (draw _ _ _ _ 0 256 H1 ltac:(lia)) as [-> H2]. cbn [Z.ltb Z.add Z.compare].
    destruct (draw _ _ _ _ 1 280 H2 ltac:(lia)) as [-> H3]. eexists _, _. split; [reflexivity|]. split; [|exact H3].
    unfold rs. cbn [s_type s_sym s_len sub_init]. f_equal; lia.
  - destruct (ln <=? 279) eqn:E; [lia|]. destruct (ln <=? 8191) eqn:E2; [|lia]. cbn [app] in H.
    destruct (draw _ _ _ _ 0 16 H ltac:(lia)) as [-> H1]. destruct (draw _ _ _ _ 0 256 H1 ltac:(lia)) as [-> H2].
    change (208 + 0 <? 208) with false. change (208 + 0 <? 248) with true. cbv iota.
    destruct (draw _ _ _ _ 768 8192 H2 ltac:(lia)) as [-> H3]. eexists _, _. split; [reflexivity|]. split; [|exact H3].
    unfold rs. cbn [s_type s_sym s_len sub_init]. f_equal; lia.
  - destruct (ln <=? 279) eqn:E; [lia|]. destruct (ln <=? 8191) eqn:E2; [lia|]. cbn [app] in H.
    destruct (draw _ _ _ _ 0 16 H ltac:(lia)) as [-> H1]. destruct (draw _ _ _ _ 0 256 H1 ltac:(lia)) as [-> H2].
    change (248 + 0 <? 208) with false. change (248 + 0 <? 248) with false. cbv iota.
    destruct (draw _ _ _ _ 65528 65560 H2 ltac:(lia)) as [-> H3]. eexists _, _. split; [reflexivity|]. split; [|exact H3].
    unfold rs. cbn [s_type s_sym s_len sub_init]. f_equal; lia.
Qed.

Lemma randomise_draw R start : forall ss g i l, Coming R g (flat_map section_draws ss) -> (length ss <= length l)%nat ->
  alternate ((i + start) mod 2) ss ->
  Forall (fun s => 0 <= rs_symbol s < 16 /\ in_ranges [(1, 279); (768, 8191); (65528, 65559)] (rs_length s)) ss ->
  exists l' g', randomise R g start i (length ss) l = (l', g') /\ map rs (firstn (length ss) l') = ss.
Proof.
  induction ss as [|s ss IH]; intros g i l H Hl Ha Hf.
  - exists l, g. split; [destruct l; reflexivity|reflexivity].
  - destruct l as [|x l]; cbn [length] in Hl; [lia|]. cbn [length randomise]. cbn [flat_map] in H. cbn [alternate] in Ha. destruct Ha as [Ht Ha].
    inversion Hf as [|? ? [F1 F2] Hf']; subst. rewrite <- Ht in *.
    destruct (sub_draw R g s (flat_map section_draws ss) H F1 F2) as (s' & g1 & -> & E1 & H1).
    destruct (IH g1 (i + 1) l H1 ltac:(lia)) as (r & g2 & -> & E2); [|exact Hf'|].
    + replace ((i + 1 + start) mod 2) with (1 - rs_type s) by lia. exact Ha.
    + exists (s' :: r), g2. split; [reflexivity|]. cbn [firstn map]. now rewrite E1, E2.
Qed.

Definition draws (start : Z) (t : rtest) : list Z :=
  [13; rt_symbol t - 1; if rt_bound t then 1 else 0; start; len (rt_sections t) - 1] ++ flat_map section_draws (rt_sections t).

Lemma section_draws_small s : 0 <= rs_symbol s < 16 -> in_ranges [(1, 279); (768, 8191); (65528, 65559)] (rs_length s) ->
  Forall (fun v => 0 <= v < 2 ^ 32) (section_draws s).
Proof.
  intros H (r & Hr & Hlen). unfold section_draws. cbn [List.In] in Hr.
  destruct (rs_length s <=? 279) eqn:E1; [|destruct (rs_length s <=? 8191) eqn:E2]; (repeat constructor); destruct Hr as [<-|[<-|[<-|[]]]]; cbn [fst snd] in Hlen; lia.
Qed.

Lemma advance_draw R g c f t : possible c t -> c < 2 ^ 32 -> f_iter f = false -> len (f_subs f) = c ->
  exists l f' g', advance (plan R (g_count g) l) g f = (true, f', g') /\ drawn f' = t.
Proof.
  intros (Ht1 & Ht2 & Ha & Hf) Hc Hi Hl.
  assert (Hst : exists start, (start = 0 \/ start = 1) /\ alternate start (rt_sections t)) by (destruct Ha as [Ha|Ha]; eauto).
  destruct Hst as (start & Hst & Ha'). exists (draws start t).
  assert (HF : Forall (fun v => 0 <= v < 2 ^ 32) (draws start t)).
  { unfold draws. apply Forall_app. split; [repeat constructor; destruct (rt_bound t); lia|].
    clear - Hf. induction Hf as [|s ss [H1 H2] _ IH]; cbn [flat_map]; [constructor|]. apply Forall_app. split; [now apply section_draws_small|exact IH]. }
  pose proof (plan_coming R g (draws start t) HF) as H. set (R' := plan R (g_count g) (draws start t)) in *. clearbody R'. unfold draws in H. cbn [app] in H.
  unfold advance. rewrite Hi.
  destruct (draw _ _ _ _ 0 16 H ltac:(lia)) as [-> H1]. change (13 + 0 <? 13) with false. cbv iota.
  unfold max_symbol_length. destruct (draw _ _ _ _ 1 (16 + 1) H1 ltac:(lia)) as [-> H2].
  destruct (draw _ _ _ _ 0 2 H2 ltac:(destruct (rt_bound t); lia)) as [-> H3].
  destruct (draw _ _ _ _ 0 2 H3 ltac:(lia)) as [-> H4]. rewrite Hl.
  destruct (draw _ _ _ _ 1 c H4 ltac:(lia)) as [-> H5].
  replace (Z.to_nat (len (rt_sections t) - 1 + 1)) with (length (rt_sections t)) by (unfold len; lia).
  destruct (randomise_draw R' (start + 0) (rt_sections t) _ 0 (f_subs f) H5) as (l' & g' & -> & E); [unfold len in *; lia|replace ((0 + (start + 0)) mod 2) with start by lia; exact Ha'|exact Hf|].
  eexists _, _. split; [reflexivity|]. unfold drawn. cbn [f_sl f_bound f_rel f_subs].
  replace (Z.to_nat (len (rt_sections t) - 1 + 1)) with (length (rt_sections t)) by (unfold len; lia).
  change (map (fun s => mkRS (s_type s) (s_sym s) (s_len s))) with (map rs). rewrite E.
  replace (rt_symbol t - 1 + 1) with (rt_symbol t) by lia. destruct t as [a b ss]. cbn [rt_symbol rt_bound rt_sections]. destruct b; reflexivity.
Qed.

(** *** Filling the buffer reads no vector twice *)
Section Agree.
Variables (R R' : oracle) (N : Z).
Hypothesis HN : forall k, k < N -> R' k = R k.

(** Same place and generator; the same memory unless a vector from [N] on has been read. *)
Definition Same (a b : Z * gen * mem) : Prop :=
  let '(p, g, M) := a in let '(p', g', M') := b in p = p' /\ g = g' /\ (M = M' \/ N < g_count g).

Lemma fill128_same p l j g M M' : M = M' \/ N < g_count g ->
  match loop (fill128 R p l) (j, g, M), loop (fill128 R' p l) (j, g, M') with Some a, Some b => Same a b | None, None => True | _, _ => False end.
Proof.
  intros H. apply (loop_rel _ _ Same Same); [|split; [reflexivity|]; split; [reflexivity|exact H]].
  intros [[a g1] M1] [[b g2] M2] (<- & <- & HM). unfold fill128, read_rand. destruct (a <=? l - 16); [|split; [reflexivity|]; split; [reflexivity|exact HM]].
  split; [reflexivity|]. split; [reflexivity|]. cbn [g_count]. destruct (Z_lt_le_dec (g_count g1) N) as [Hk|Hk]; [|right; lia].
  rewrite HN by exact Hk. destruct HM as [->|HM]; [now left|right; lia].
Qed.

Lemma fill_section_same f s p g M M' : f_iter f = false -> M = M' \/ N < g_count g ->
  match fill_section R f s p g M, fill_section R' f s p g M' with Some a, Some b => Same a b | None, None => True | _, _ => False end.
Proof.
  intros Hi H. unfold fill_section. rewrite Hi. destruct (s_type s =? 1).
  - destruct (_ || _); [exact I|]. set (l := if f_bound f then _ else _). set (sy := map _ _).
    assert (K := loop_rel (fill_symbol p l sy) (fill_symbol p l sy) (fun a b => fst a = fst b /\ (snd a = snd b \/ N < g_count g))
      (fun a b => fst a = fst b /\ (snd a = snd b \/ N < g_count g)) (0, M) (0, M')).
    destruct (loop (fill_symbol p l sy) (0, M)) as [[j1 N1]|], (loop (fill_symbol p l sy) (0, M')) as [[j2 N2]|];
      (assert (K' : match Some tt with Some _ => True | None => False end) by exact I); try exact I.
    all: match type of K with ?A -> ?B -> ?C => assert (KA : A) end.
    1, 3, 5: intros [a1 b1] [a2 b2] [E1 E2]; cbn [fst snd] in *; subst a2; unfold fill_symbol; destruct (a1 <=? l - len sy); cbn [fst snd]; (split; [reflexivity|]); destruct E2 as [->|E2]; auto.
    all: specialize (K KA (conj eq_refl H)); cbn [fst snd] in K; try contradiction.
    destruct K as [<- K]. split; [reflexivity|]. split; [reflexivity|]. destruct K as [->|K]; [now left|now right].
  - pose proof (fill128_same p (s_len s) 0 g M M' H) as K.
    destruct (loop (fill128 R p (s_len s)) (0, g, M)) as [[[j1 g1] N1]|], (loop (fill128 R' p (s_len s)) (0, g, M')) as [[[j2 g2] N2]|]; try contradiction; [|exact I].
    destruct K as (<- & <- & K). unfold read_rand. cbn [g_count]. split; [reflexivity|]. split; [reflexivity|].
    cbn [g_count]. destruct (Z_lt_le_dec (g_count g1) N) as [Hk|Hk]; [|right; lia]. rewrite HN by exact Hk. destruct K as [->|K]; [now left|right; lia].
Qed.

Lemma fill_sections_same f : f_iter f = false -> forall l p g M M', M = M' \/ N < g_count g ->
  match fill_sections R f l p g M, fill_sections R' f l p g M' with Some a, Some b => Same a b | None, None => True | _, _ => False end.
Proof.
  intros Hi. induction l as [|s l IH]; intros p g M M' H; cbn [fill_sections]; [split; [reflexivity|]; split; [reflexivity|exact H]|].
  pose proof (fill_section_same f s p g M M' Hi H) as K.
  destruct (fill_section R f s p g M) as [[[p1 g1] M1]|], (fill_section R' f s p g M') as [[[p2 g2] M2]|]; try contradiction; [|exact I].
  destruct K as (<- & <- & K). now apply IH.
Qed.

Lemma fill_buffer_same f p g M n g' M' : f_iter f = false -> fill_buffer R f p g M = Some (n, g', M') -> g_count g' <= N ->
  fill_buffer R' f p g M = Some (n, g', M').
Proof.
  unfold fill_buffer. intros Hi H Hg. set (l := firstn _ _) in *. pose proof (fill_sections_same f Hi l p g M M (or_introl eq_refl)) as K.
  destruct (fill_sections R f l p g M) as [[[p1 g1] M1]|]; [|discriminate]. injection H as <- <- <-.
  destruct (fill_sections R' f l p g M) as [[[p2 g2] M2]|]; [|contradiction]. destruct K as (<- & <- & [->|K]); [reflexivity|lia].
Qed.
End Agree.

(** The vectors are numbered upwards. *)
Lemma fill_sections_up R f : f_iter f = false -> forall l p g M p' g' M', fill_sections R f l p g M = Some (p', g', M') -> g_count g <= g_count g'.
Proof.
  intros Hi. induction l as [|s l IH]; intros p g M p' g' M' H; cbn [fill_sections] in H; [injection H as _ <- _; lia|].
  destruct (fill_section R f s p g M) as [[[p1 g1] M1]|] eqn:E; [|discriminate]. apply IH in H. enough (g_count g <= g_count g1) by lia. clear H.
  unfold fill_section in E. rewrite Hi in E. destruct (s_type s =? 1).
  - destruct (_ || _); [discriminate|]. destruct (loop _ _) as [[j N]|]; [|discriminate]. injection E as _ <- _. lia.
  - destruct (loop (fill128 R p (s_len s)) (0, g, M)) as [[[j g2] M2]|] eqn:El; [|discriminate]. unfold read_rand in E. injection E as _ <- _. cbn [g_count].
    assert (K := loop_pres (fill128 R p (s_len s)) (fun '(_, g3, _) => g_count g <= g_count g3) (fun '(_, g3, _) => g_count g <= g_count g3)).
    specialize (K (0, g, M) (j, g2, M2)). enough (g_count g <= g_count g2) by lia. apply K; [|cbv beta iota; lia|exact El].
    intros [[a g3] M3] H3. unfold fill128, read_rand. destruct (a <=? s_len s - 16); cbn [g_count]; lia.
Qed.

Lemma random_reaches R cs pU pK pD cap : (forall k, byte_mem (R k)) -> forall g c U K D k z z', 2 <= c < 2 ^ 32 -> byte_mem U ->
  after (fuzz_step R cs pU pK pD cap) (first_state g c false U K D) k z -> fuzz_step R cs pU pK pD cap z = inl z' ->
  forall t, possible c t -> exists R', (forall j, byte_mem (R' j)) /\ (forall j, j < g_count (z_g z) -> R' j = R j) /\
  exists z2, fuzz_step R' cs pU pK pD cap z = inl z2 /\ drawn (z_f z2) = t.
Proof.
  intros HR g c U K D k z z' Hc HU Hz E t Ht.
  destruct (state_inv R cs pU pK pD cap HR g c false U K D k z (proj1 Hc) HU Hz) as [HG _].
  destruct (step_inl _ _ _ _ _ _ _ _ E) as (n & g1 & U1 & E1 & E2 & _ & _).
  destruct (advance_draw R g1 c (z_f z) t Ht ltac:(lia) (gd_iter _ _ _ HG) (gd_len _ _ _ HG)) as (l & f' & g' & Ea & Ed).
  set (R' := plan R (g_count g1) l) in *.
  assert (HA : forall j, j < g_count g1 -> R' j = R j) by (intros j Hj; unfold R', plan; destruct (j <? g_count g1) eqn:Ej; [reflexivity|lia]).
  assert (Hup : g_count (z_g z) <= g_count g1).
  { unfold fill_buffer in E1. destruct (fill_sections _ _ _ _ _ _) as [[[p1 g2] M1]|] eqn:Ef; [|discriminate]. injection E1 as _ <- _.
    apply (fill_sections_up _ _ (gd_iter _ _ _ HG)) in Ef. exact Ef. }
  exists R'. split; [now apply plan_byte|]. split; [intros j Hj; apply HA; lia|].
  exists (mkFz f' g' U1 (z_KD z')). split; [|exact Ed]. unfold fuzz_step.
  rewrite (fill_buffer_same R R' (g_count g1) HA (z_f z) pU (z_g z) (z_U z) n g1 U1 (gd_iter _ _ _ HG) E1 ltac:(lia)). rewrite E2, Ea. reflexivity.
Qed.

(** *** Not everything that is meant *)
Lemma random_all_refuted : exists t, (forall c, 1 <= c -> wanted c t) /\ forall R cs pU pK pD cap, (forall k, byte_mem (R k)) -> forall g c U K D k z, 2 <= c -> byte_mem U ->
  after (fuzz_step R cs pU pK pD cap) (first_state g c false U K D) k z -> drawn (z_f z) <> t.
Proof.
  exists (mkRT 2 false [mkRS 0 0 280]). split.
  - intros c Hc. split; [cbn; lia|]. split; [cbn; lia|]. split; [left; cbn; auto|]. constructor; [|constructor]. split; [cbn; lia|].
    exists (1, 280). cbn. split; [auto|lia].
  - intros R cs pU pK pD cap HR g c U K D k z Hc HU Hz E.
    destruct (Z_lt_le_dec k 1) as [Hk|Hk].
    + destruct Hz as [|k' z1 z2 H1 E1].
      * apply (f_equal rt_symbol) in E. unfold drawn in E. cbn [rt_symbol] in E. unfold first_state in E.
        destruct (create_is g c false) as (sym & g1 & Ec). rewrite Ec in E. cbn [z_f f_sl] in E. lia.
      * pose proof (after_nonneg _ _ _ _ H1). lia.
    + pose proof (random_possible R cs pU pK pD cap HR g c U K D k z Hc HU Hz Hk) as HP. rewrite E in HP.
      destruct HP as (_ & _ & _ & HF). inversion HF as [|? ? [_ (r & Hr & Hlen)] _]; subst. cbn in Hr, Hlen. destruct Hr as [<-|[<-|[<-|[]]]]; cbn in Hlen; lia.
Qed.
(** Nor with all sections. *)
Lemma random_sections_refuted : forall R cs pU pK pD cap, (forall k, byte_mem (R k)) -> forall g c U K D k z, 2 <= c -> byte_mem U ->
  after (fuzz_step R cs pU pK pD cap) (first_state g c false U K D) k z -> 1 <= k -> len (rt_sections (drawn (z_f z))) < c.
Proof.
  intros R cs pU pK pD cap HR g c U K D k z Hc HU Hz Hk. destruct (random_possible R cs pU pK pD cap HR g c U K D k z Hc HU Hz Hk) as (_ & H & _). lia.
Qed.
