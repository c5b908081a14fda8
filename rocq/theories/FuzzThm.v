(** Runs of the fuzzer. *)
From Verif Require Import Base Spec SameMb FuzzModel FuzzSpec FuzzEnum FuzzFill FuzzEq.

(** *** States after k rounds *)
Section After.
  Context {S R : Type} (step : S -> S + R) (s : S).

  Lemma after_nonneg k s' : after step s k s' -> 0 <= k.
  Proof. induction 1; lia. Qed.

  Lemma after_fun k a : after step s k a -> forall b, after step s k b -> a = b.
  Proof.
    induction 1 as [|k s1 s2 H IH E]; intros b Hb.
    - remember 0 as z eqn:Ez. destruct Hb as [|k' t1 t2 H' E']; [reflexivity|]. apply after_nonneg in H'. lia.
    - remember (k + 1) as k2 eqn:Ek. destruct Hb as [|k' t1 t2 H' E'].
      + apply after_nonneg in H. lia.
      + assert (k' = k) by lia. subst k'. rewrite (IH t1 H') in E. congruence.
  Qed.

  Lemma after_before k a : after step s k a -> forall j, 0 <= j <= k -> exists b, after step s j b.
  Proof.
    induction 1 as [|k s1 s2 H IH E]; intros j Hj.
    - assert (j = 0) by lia. subst. eexists. constructor.
    - destruct (Z.eq_dec j (k + 1)) as [->|Hn]; [eexists; econstructor; eassumption|]. apply IH. lia.
  Qed.

  Lemma after_mid k a : after step s k a -> forall j b, after step s j b -> j < k -> exists b', step b = inl b'.
  Proof.
    induction 1 as [|k s1 s2 H IH E]; intros j b Hb Hj.
    - apply after_nonneg in Hb. lia.
    - destruct (Z.eq_dec j k) as [->|Hn].
      + rewrite (after_fun k b Hb s1 H). eauto.
      + eapply IH; [exact Hb|lia].
  Qed.

  Lemma reach_after a b : Reach step a b -> forall k, after step s k a -> exists k', after step s k' b.
  Proof. induction 1 as [x|x y z E H IH]; intros k Hk; [eauto|]. apply (IH (k + 1)). econstructor; eassumption. Qed.

  Lemma loop_after r : loop step s = Some r -> exists k s', after step s k s' /\ step s' = inr r.
  Proof.
    intros H. apply loop_halts in H. destruct H as (s' & H & E). destruct (reach_after _ _ H 0 ltac:(constructor)) as (k & Hk). eauto.
  Qed.
End After.

(** *** All states of the fuzzer, in both modes *)

Fixpoint typed (t : Z) (l : list sub) : Prop :=
  match l with [] => True | s :: l' => s_type s = t /\ typed (1 - t) l' end.

Record Good (c : Z) (it : bool) (f : fstate) : Prop := mkGood
  { gd_sym : SymOk f; gd_sl : 1 <= f_sl f <= 16; gd_fits : Forall sub_fits (f_subs f);
    gd_len : len (f_subs f) = c; gd_rel : 1 <= f_rel f <= c; gd_iter : f_iter f = it;
    gd_start : f_start f = 0 \/ f_start f = 1;
    gd_typed : typed (f_start f) (firstn (Z.to_nat (f_rel f)) (f_subs f)) }.

Lemma sect_fits t d : 0 <= d < 353 -> sub_fits (sect t d).
Proof.
  intros H. unfold sub_fits, sect. cbn [s_len s_sym]. pose proof (tested_range _ (len_at_tested d H)). lia.
Qed.
Lemma sects_fit ds : digits ds -> forall t, Forall sub_fits (sects t ds).
Proof. induction 1 as [|d ds Hd _ IH]; intros t; cbn [sects]; constructor; [now apply sect_fits|apply IH]. Qed.
Lemma sects_typed ds : forall t, typed (t mod 2) (sects t ds).
Proof.
  induction ds as [|d ds IH]; intros t; cbn [sects typed]; [exact I|]. split; [reflexivity|].
  replace (1 - t mod 2) with ((t + 1) mod 2) by lia. apply IH.
Qed.

Lemma state_good sym c p : 1 <= c -> (forall i j, is_byte (sym i j)) -> pos_ok c p -> Good c true (state_of sym c p).
Proof.
  intros Hc Hs (H1 & H2 & H3 & H4 & H5). constructor; unfold state_of; cbn [f_sl f_subs f_rel f_iter f_start f_sym].
  - exact Hs.
  - exact H1.
  - now apply sects_fit.
  - now rewrite len_sects.
  - lia.
  - reflexivity.
  - exact H3.
  - rewrite firstn_all2 by (rewrite length_sects; unfold len in H4; lia).
    replace (p_start p) with (p_start p mod 2) at 1 by lia. apply sects_typed.
Qed.

Lemma draw_bytes n : forall g l g', draw_words n g = (l, g') -> Forall is_byte l.
Proof.
  induction n as [|n IH]; intros g l g' H; cbn [draw_words] in H; [injection H as <- _; constructor|].
  destruct (read_predictable g) as [v g1]. destruct (draw_words n g1) as [r g2] eqn:Er. replace l with (le32 v ++ r) by congruence.
  apply Forall_app. split; [apply Forall_le32|]. eapply IH. exact Er.
Qed.

Lemma create_sym g c it f g' : fuzz_create g c it = (f, g') -> SymOk f.
Proof.
  unfold fuzz_create. intros H. destruct (draw_words _ g) as [l g1] eqn:El. apply (f_equal fst) in H. cbn [fst] in H. subst f.
  unfold SymOk. cbn [f_sym]. intros i j. pose proof (draw_bytes _ _ _ _ El) as Hb. rewrite Forall_forall in Hb.
  destruct (nth_in_or_default (Z.to_nat (16 * i + j)) l 0) as [Hin| ->]; [now apply Hb|]. unfold is_byte. lia.
Qed.

Lemma create_is g c it : exists sym g', fuzz_create g c it = (mkF sym 1 false it c (c - 1) 0 (sects 0 (repeat 0 (Z.to_nat c))), g').
Proof.
  unfold fuzz_create. destruct (draw_words _ g) as [syms g']. eexists _, g'. rewrite subs_init_is. reflexivity.
Qed.

Lemma first_good sym c it : 1 <= c -> (forall i j, is_byte (sym i j)) ->
  Good c it (mkF sym 1 false it c (c - 1) 0 (sects 0 (repeat 0 (Z.to_nat c)))).
Proof.
  intros Hc Hs. constructor; cbn [f_sl f_subs f_rel f_iter f_start f_sym].
  - exact Hs.
  - lia.
  - apply sects_fit, digits_zeros.
  - rewrite len_sects. apply len_zeros. lia.
  - lia.
  - reflexivity.
  - auto.
  - rewrite firstn_all2 by (rewrite length_sects, repeat_length; lia). change 0 with (0 mod 2) at 1. apply sects_typed.
Qed.

Lemma create_good g c it f g' : 1 <= c -> fuzz_create g c it = (f, g') -> Good c it f.
Proof.
  intros Hc H. pose proof (create_sym _ _ _ _ _ H) as Hs. destruct (create_is g c it) as (sym & g1 & E).
  rewrite E in H. injection H as <- _. apply first_good; [exact Hc|exact Hs].
Qed.

(** One round of random mode. *)
Lemma rand_between_range R g lo hi : lo < hi -> exists v g', rand_between R g lo hi = (v, g') /\ lo <= v < hi.
Proof.
  intros H. unfold rand_between, read_rand. eexists _, _. split; [reflexivity|].
  pose proof (Z.mod_pos_bound (rd32 (R (g_count g)) 0 + 2 ^ 32 * rd32 (R (g_count g)) 4) (hi - lo)). lia.
Qed.

Lemma sub_random_ok R g s : exists s' g', sub_random R g s = (s', g') /\ sub_fits s' /\ s_type s' = s_type s.
Proof.
  unfold sub_random, symbol_count. destruct (rand_between_range R g 0 16) as (sym & g1 & -> & Hsym); [lia|].
  destruct (rand_between_range R g1 0 256) as (d & g2 & -> & _); [lia|].
  unfold small_min, small_max, medium_min, medium_max, limit_min, limit_max, sub_fits.
  destruct (d <? 208); [destruct (rand_between_range R g2 1 280) as (l & g3 & -> & Hl); [lia|]|
    destruct (d <? 248); [destruct (rand_between_range R g2 768 8192) as (l & g3 & -> & Hl); [lia|]|
      destruct (rand_between_range R g2 65528 65560) as (l & g3 & -> & Hl); [lia|]]];
    eexists _, _; (split; [reflexivity|]); cbn [s_len s_sym s_type]; (split; [split; lia|reflexivity]).
Qed.

Lemma randomise_ok R start k : forall g i l, Forall sub_fits l ->
  exists l' g', randomise R g start i k l = (l', g') /\ Forall sub_fits l' /\ len l' = len l /\ typed ((i + start) mod 2) (firstn k l').
Proof.
  induction k as [|k IH]; intros g i l Hl.
  - exists l, g. split; [destruct l; reflexivity|]. split; [exact Hl|]. split; [reflexivity|exact I].
  - destruct l as [|s l]; [exists [], g; split; [reflexivity|]; split; [exact Hl|]; split; [reflexivity|exact I]|].
    inversion Hl as [|? ? _ Hl']; subst. cbn [randomise].
    destruct (sub_random_ok R g (sub_init ((i + start) mod 2))) as (s' & g1 & -> & Hs' & Ht).
    destruct (IH g1 (i + 1) l Hl') as (r & g2 & -> & Hr & Hlr & Htr). exists (s' :: r), g2. split; [reflexivity|].
    split; [constructor; assumption|]. split; [rewrite !len_cons; lia|]. cbn [firstn typed]. split; [exact Ht|].
    replace (1 - (i + start) mod 2) with ((i + 1 + start) mod 2) by lia. exact Htr.
Qed.

Lemma reasonable_ok i : 1 <= i < 7 -> 1 <= reasonable i <= 16.
Proof.
  intros H. assert (i = 1 \/ i = 2 \/ i = 3 \/ i = 4 \/ i = 5 \/ i = 6) as [->|[->|[->|[->|[->| ->]]]]] by lia; vm_compute; split; discriminate.
Qed.

Lemma advance_random R g c f : 2 <= c -> Good c false f -> exists f' g', advance R g f = (true, f', g') /\ Good c false f'.
Proof.
  intros Hc [Hsym Hsl Hf Hl Hr Hi Hst Hty]. unfold advance. rewrite Hi.
  destruct (rand_between_range R g 0 16) as (d & g1 & -> & _); [lia|].
  assert (Hsl' : exists sl g2, (if d <? 13 then let '(i, g') := rand_between R g1 1 7 in (reasonable i, g')
      else rand_between R g1 1 (max_symbol_length + 1)) = (sl, g2) /\ 1 <= sl <= 16).
  { destruct (d <? 13).
    - destruct (rand_between_range R g1 1 7) as (i & g2 & -> & Hi'); [lia|]. eexists _, _. split; [reflexivity|]. now apply reasonable_ok.
    - unfold max_symbol_length. destruct (rand_between_range R g1 1 (16 + 1)) as (i & g2 & -> & Hi'); [lia|]. eexists _, _. split; [reflexivity|]. lia. }
  destruct Hsl' as (sl & g2 & -> & Hsl').
  destruct (rand_between_range R g2 0 2) as (b & g3 & -> & _); [lia|].
  destruct (rand_between_range R g3 0 2) as (st & g4 & -> & Hst'); [lia|].
  rewrite Hl. destruct (rand_between_range R g4 1 c) as (rel & g5 & -> & Hrel); [lia|].
  destruct (randomise_ok R st (Z.to_nat rel) g5 0 (f_subs f) Hf) as (l & g6 & -> & Hl1 & Hl2 & Hl3).
  eexists _, _. split; [reflexivity|]. constructor; cbn [f_sl f_subs f_rel f_iter f_start f_sym].
  - exact Hsym.
  - exact Hsl'.
  - exact Hl1.
  - lia.
  - lia.
  - reflexivity.
  - lia.
  - replace st with ((0 + st) mod 2) at 1 by lia. exact Hl3.
Qed.

(** Filling the buffer. *)
Lemma sections_laid f M l : forall t p, t = 0 \/ t = 1 -> 1 <= f_sl f -> typed t l -> Sections f M p l ->
  laid M p (f_sl f) (f_bound f) t (map s_len l) (total f l).
Proof.
  induction l as [|s l IH]; intros t p Ht Hsl Hty HS; cbn [map laid total]; [reflexivity|].
  cbn [typed Sections] in Hty, HS. destruct Hty as [Ets Hty], HS as [H1 H2].
  assert (Esz : (if (t =? 1) && f_bound f then s_len s * f_sl f else s_len s) = section_size f s) by (unfold section_size; rewrite Ets; reflexivity).
  rewrite Esz. split.
  - intros ->. exists (symbol_of f s). rewrite len_symbol_of by lia. split; [reflexivity|].
    specialize (H1 Ets). unfold Repeats in H1. rewrite len_symbol_of in H1 by lia. exact H1.
  - replace (section_size f s + total f l - section_size f s) with (total f l) by lia. apply IH; [lia|exact Hsl|exact Hty|exact H2].
Qed.

Lemma fill_ok R c it f p g M : (forall k, byte_mem (R k)) -> Good c it f -> exists n g' M',
  fill_buffer R f p g M = Some (n, g', M') /\ 1 <= n <= buffer_capacity f /\ Writes M M' p n /\
  laid M' p (f_sl f) (f_bound f) (f_start f) (map s_len (firstn (Z.to_nat (f_rel f)) (f_subs f))) n.
Proof.
  intros HR [Hsym Hsl Hf Hl Hr Hi Hst Hty]. unfold fill_buffer. set (l := firstn (Z.to_nat (f_rel f)) (f_subs f)) in *.
  assert (Hfl : Forall sub_fits l).
  { unfold l. rewrite Forall_forall in *. intros x Hx. apply Hf. rewrite <- (firstn_skipn (Z.to_nat (f_rel f))). apply in_or_app. now left. }
  destruct (fill_sections_ok R HR f l Hsym Hsl Hfl p g M) as (g' & M' & -> & HW & HS).
  exists (total f l), g', M'. split; [f_equal; f_equal; f_equal; lia|].
  pose proof (total_range f l Hsl Hfl) as Ht.
  assert (Hll : len l = f_rel f) by (unfold l, len in *; rewrite firstn_length; lia).
  split; [|split; [exact HW|apply sections_laid; [exact Hst|lia|exact Hty|exact HS]]].
  unfold buffer_capacity, limit_max, max_symbol_length. rewrite Hl. lia.
Qed.

Section Run.
Variables (R : oracle) (cs : list (cfun * decompressor)) (pU pK pD cap : Z).
Hypothesis HR : forall k, byte_mem (R k).
Let step := fuzz_step R cs pU pK pD cap.

(** What a round that goes on did. *)
Lemma step_inl z z' : step z = inl z' -> exists n g1 U1,
  fill_buffer R (z_f z) pU (z_g z) (z_U z) = Some (n, g1, U1) /\
  fuzz_codecs cs U1 pU n cap pK pD (z_KD z) = Some (Some (z_KD z')) /\
  advance R g1 (z_f z) = (true, z_f z', z_g z') /\ z_U z' = U1.
Proof.
  unfold step, fuzz_step. intros H. destruct (fill_buffer _ _ _ _ _) as [[[n g1] U1]|]; [|discriminate].
  destruct (fuzz_codecs _ _ _ _ _ _ _ _) as [[KD1|]|] eqn:Ec; [|discriminate|discriminate].
  destruct (advance R g1 (z_f z)) as [[more f2] g2] eqn:Ea. destruct more; [|discriminate]. injection H as <-.
  exists n, g1, U1. cbn [z_f z_g z_U z_KD]. auto.
Qed.
Lemma step_true z : step z = inr (Some FzTrue) -> exists n g1 U1 KD1 f2 g2,
  fill_buffer R (z_f z) pU (z_g z) (z_U z) = Some (n, g1, U1) /\
  fuzz_codecs cs U1 pU n cap pK pD (z_KD z) = Some (Some KD1) /\
  advance R g1 (z_f z) = (false, f2, g2).
Proof.
  unfold step, fuzz_step. intros H. destruct (fill_buffer _ _ _ _ _) as [[[n g1] U1]|]; [|discriminate].
  destruct (fuzz_codecs _ _ _ _ _ _ _ _) as [[KD1|]|] eqn:Ec; [|discriminate|discriminate].
  destruct (advance R g1 (z_f z)) as [[more f2] g2] eqn:Ea. destruct more; [discriminate|]. exists n, g1, U1, KD1, f2, g2. auto.
Qed.

Definition first_state (g : gen) (c : Z) (it : bool) (U K D : mem) : fuzzer :=
  let '(f, g1) := fuzz_create g c it in mkFz f g1 U (K, D).

(** Iterative mode: the k-th round does the test of rank k. *)
Lemma iter_state g c U K D k z : 1 <= c -> after step (first_state g c true U K D) k z ->
  exists sym p, (forall i j, is_byte (sym i j)) /\ z_f z = state_of sym c p /\ pos_ok c p /\ rank c p = k.
Proof.
  intros Hc H. induction H as [|k z1 z2 H IH E].
  - unfold first_state. destruct (fuzz_create g c true) as [f g1] eqn:Ef. pose proof (create_sym _ _ _ _ _ Ef) as Hs.
    destruct (create_state g c Hc) as (sym & g' & Ec). rewrite Ec in Ef. injection Ef as <- _.
    exists sym, (mkPos 1 false 0 (repeat 0 (Z.to_nat c))). split; [exact Hs|]. split; [reflexivity|].
    split; [apply zeros_ok; [lia|lia|discriminate|auto]|]. unfold rank. cbn [p_sl p_bound p_start p_ds]. rewrite value_zeros. reflexivity.
  - destruct IH as (sym & p & Hs & Ef & Hp & Hk). apply step_inl in E. destruct E as (n & g1 & U1 & _ & _ & Ea & _).
    unfold advance in Ea. rewrite Ef in Ea. cbn [f_iter state_of] in Ea. change (mkF sym (p_sl p) (p_bound p) true c (c - 1) (p_start p) (sects (p_start p) (p_ds p))) with (state_of sym c p) in Ea.
    destruct (increment_ok sym c p Hc Hp) as [I1 I2]. pose proof (rank_range c p Hc Hp) as Hrr.
    destruct (Z_lt_dec (rank c p + 1) (planned_count c)) as [L|G].
    + destruct (I1 L) as (p' & Ei & Hp' & Hr'). rewrite Ei in Ea. injection Ea as Ez _. exists sym, p'.
      split; [exact Hs|]. split; [now symmetry|]. split; [exact Hp'|lia].
    + destruct I2 as (f & Ei); [lia|]. rewrite Ei in Ea. discriminate.
Qed.

Lemma state_inv g c (it : bool) U K D k z : (if it then 1 else 2) <= c -> byte_mem U ->
  after step (first_state g c it U K D) k z -> Good c it (z_f z) /\ byte_mem (z_U z).
Proof.
  intros Hc HU H. induction H as [|k z1 z2 H IH E].
  - unfold first_state. destruct (fuzz_create g c it) as [f g1] eqn:Ef. split; [|exact HU].
    apply (create_good g c it f g1); [destruct it; lia|exact Ef].
  - destruct IH as [HG HU1]. destruct (step_inl _ _ E) as (n & g1 & U1 & Ef & _ & Ea & EU).
    destruct (fill_ok R c it (z_f z1) pU (z_g z1) (z_U z1) HR HG) as (n' & g1' & M' & Ef' & _ & [_ HW] & _).
    rewrite Ef' in Ef. injection Ef as <- <- <-. split; [|rewrite EU; auto].
    destruct it.
    + destruct (iter_state g c U K D (k + 1) z2 Hc) as (sym & p & Hs & -> & Hp & _); [econstructor; eassumption|].
      now apply state_good.
    + destruct (advance_random R g1' c (z_f z1) Hc HG) as (f' & g' & Ea' & HG'). rewrite Ea' in Ea. injection Ea as <- _. exact HG'.
Qed.

(** C48 *)
Lemma fill_inside g c (it : bool) U K D k z : (if it then 1 else 2) <= c -> byte_mem U ->
  after step (first_state g c it U K D) k z ->
  exists n g' U', fill_buffer R (z_f z) pU (z_g z) (z_U z) = Some (n, g', U') /\
    1 <= n <= c * 1048960 /\ buffer_capacity (z_f z) = c * 1048960 /\
    (forall x, x < pU \/ pU + n <= x -> U' x = z_U z x) /\
    exists lengths, 1 <= len lengths <= c /\
      laid U' pU (f_sl (z_f z)) (f_bound (z_f z)) (f_start (z_f z)) lengths n.
Proof.
  intros Hc HU H. destruct (state_inv g c it U K D k z Hc HU H) as [HG HUz].
  destruct (fill_ok R c it (z_f z) pU (z_g z) (z_U z) HR HG) as (n & g' & U' & E & Hn & [HW _] & HL).
  exists n, g', U'. split; [exact E|].
  assert (HC : buffer_capacity (z_f z) = c * 1048960) by (unfold buffer_capacity, limit_max, max_symbol_length; rewrite (gd_len _ _ _ HG); lia).
  split; [lia|]. split; [exact HC|]. split; [exact HW|].
  eexists. split; [|exact HL]. unfold len. rewrite map_length, firstn_length. pose proof (gd_rel _ _ _ HG). pose proof (gd_len _ _ _ HG) as Hl. unfold len in Hl. lia.
Qed.

(** C49 *)
Lemma iter_filled g c U K D k z : 1 <= c -> byte_mem U -> after step (first_state g c true U K D) k z ->
  0 <= k < planned_count c /\ planned c (test_of (z_f z)) /\
  exists n g' U', fill_buffer R (z_f z) pU (z_g z) (z_U z) = Some (n, g', U') /\
    laid U' pU (f_sl (z_f z)) (f_bound (z_f z)) (f_start (z_f z)) (map s_len (f_subs (z_f z))) n.
Proof.
  intros Hc HU H. destruct (iter_state g c U K D k z Hc H) as (sym & p & Hs & Ef & Hp & Hk).
  pose proof (rank_range c p Hc Hp). split; [lia|]. split; [rewrite Ef; now apply position_planned|].
  destruct (state_inv g c true U K D k z Hc HU H) as [HG HUz].
  destruct (fill_ok R c true (z_f z) pU (z_g z) (z_U z) HR HG) as (n & g' & U' & E & Hn & _ & HL).
  exists n, g', U'. split; [exact E|]. rewrite firstn_all2 in HL; [exact HL|].
  destruct Hp as (_ & _ & _ & Hl & _). rewrite Ef. cbn [f_rel f_subs state_of]. rewrite length_sects. unfold len in Hl. lia.
Qed.

Lemma ended g c U K D k z : 1 <= c -> after step (first_state g c true U K D) k z -> step z = inr (Some FzTrue) ->
  k + 1 = planned_count c.
Proof.
  intros Hc H E. destruct (iter_state g c U K D k z Hc H) as (sym & p & Hs & Ef & Hp & Hk).
  destruct (step_true _ E) as (n & g1 & U1 & KD1 & f2 & g2 & _ & _ & Ea). unfold advance in Ea. rewrite Ef in Ea. cbn [f_iter state_of] in Ea.
  change (mkF sym (p_sl p) (p_bound p) true c (c - 1) (p_start p) (sects (p_start p) (p_ds p))) with (state_of sym c p) in Ea.
  destruct (increment_ok sym c p Hc Hp) as [I1 _]. pose proof (rank_range c p Hc Hp) as Hrr.
  destruct (Z_lt_dec (rank c p + 1) (planned_count c)) as [L|G]; [|lia].
  destruct (I1 L) as (p' & Ei & _). rewrite Ei in Ea. discriminate.
Qed.

Lemma run_after g c it U K D : (let '(f, g1) := fuzz_create g c it in
    match loop step (mkFz f g1 U (K, D)) with Some r => r | None => None end) = Some FzTrue ->
  exists k z, after step (first_state g c it U K D) k z /\ step z = inr (Some FzTrue).
Proof.
  unfold first_state. destruct (fuzz_create g c it) as [f g1]. intros H.
  destruct (loop step _) as [r|] eqn:El; [|discriminate]. subst r. now apply loop_after.
Qed.

Lemma all_tests g c U K D : 1 <= c -> byte_mem U -> (let '(f, g1) := fuzz_create g c true in
    match loop step (mkFz f g1 U (K, D)) with Some r => r | None => None end) = Some FzTrue ->
  forall t, planned c t -> exists! k, exists z, after step (first_state g c true U K D) k z /\ test_of (z_f z) = t.
Proof.
  intros Hc HU Hrun t Ht. destruct (run_after g c true U K D Hrun) as (ke & ze & He & Ee). pose proof (ended g c U K D ke ze Hc He Ee) as Hke.
  destruct (planned_position c t Ht) as (p & Hp & Hpt). pose proof (rank_range c p Hc Hp) as Hr.
  destruct (after_before _ _ _ _ He (rank c p)) as (z & Hz); [lia|].
  exists (rank c p). split.
  - exists z. split; [exact Hz|]. destruct (iter_state g c U K D _ z Hc Hz) as (sym & q & _ & Ef & Hq & Hk).
    rewrite Ef. rewrite (rank_inj c q p Hc Hq Hp Hk). apply Hpt.
  - intros k' (z' & Hz' & Et). destruct (iter_state g c U K D _ z' Hc Hz') as (sym & q & _ & Ef & Hq & Hk).
    rewrite Ef in Et. rewrite <- (Hpt sym) in Et. apply test_of_inj in Et; [|exact Hq|exact Hp]. subst q. exact Hk.
Qed.

End Run.
