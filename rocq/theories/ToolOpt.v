(** What a list of options does: acceptance, settings, selection, instruction sets. *)
From Coq Require Import String Ascii.
From Verif Require Import Base Spec PlatModel ToolTable ToolArgs ToolSpec ToolSel ToolCmd.
Open Scope string_scope.
Open Scope Z_scope.

(** *** Instruction sets *)
Lemma limit_spec x st :
  match position x simd_names with
  | Some k => if match flag_of_level k with Some f => st f | None => true end
              then exists st', limit_simd simd_steps x st = Some st' /\ forall f, st' f = st f && (level_of_flag f <=? k)
              else limit_simd simd_steps x st = None
  | None => limit_simd simd_steps x st = None
  end.
Proof.
  unfold simd_names, simd_steps. cbn [position limit_simd].
  destruct (x =? "none")%string eqn:E0.
  { apply String.eqb_eq in E0. subst x. cbn. eexists. split; [reflexivity|]. intros f. destruct f; cbn; destruct (st _); reflexivity. }
  destruct (x =? "avx512f")%string eqn:E8.
  { apply String.eqb_eq in E8. subst x. cbn. destruct (st FAvx512F); [|reflexivity]. eexists. split; [reflexivity|]. intros f. destruct f; cbn; destruct (st _); reflexivity. }
  destruct (x =? "avx2")%string eqn:E7.
  { apply String.eqb_eq in E7. subst x. cbn. destruct (st FAvx2); [|reflexivity]. eexists. split; [reflexivity|]. intros f. destruct f; cbn; destruct (st _); reflexivity. }
  destruct (x =? "avx")%string eqn:E6.
  { apply String.eqb_eq in E6. subst x. cbn. destruct (st FAvx); [|reflexivity]. eexists. split; [reflexivity|]. intros f. destruct f; cbn; destruct (st _); reflexivity. }
  destruct (x =? "sse4.2")%string eqn:E5.
  { apply String.eqb_eq in E5. subst x. cbn. destruct (st FSse42); [|reflexivity]. eexists. split; [reflexivity|]. intros f. destruct f; cbn; destruct (st _); reflexivity. }
  destruct (x =? "sse4.1")%string eqn:E4.
  { apply String.eqb_eq in E4. subst x. cbn. destruct (st FSse41); [|reflexivity]. eexists. split; [reflexivity|]. intros f. destruct f; cbn; destruct (st _); reflexivity. }
  destruct (x =? "ssse3")%string eqn:E3.
  { apply String.eqb_eq in E3. subst x. cbn. destruct (st FSsse3); [|reflexivity]. eexists. split; [reflexivity|]. intros f. destruct f; cbn; destruct (st _); reflexivity. }
  destruct (x =? "sse3")%string eqn:E2.
  { apply String.eqb_eq in E2. subst x. cbn. destruct (st FSse3); [|reflexivity]. eexists. split; [reflexivity|]. intros f. destruct f; cbn; destruct (st _); reflexivity. }
  destruct (x =? "sse2")%string eqn:E1.
  { apply String.eqb_eq in E1. subst x. cbn. destruct (st FSse2); [|reflexivity]. eexists. split; [reflexivity|]. intros f. destruct f; cbn; destruct (st _); reflexivity. }
  reflexivity.
Qed.

Lemma position_range x k : position x simd_names = Some k -> 0 <= k <= 8.
Proof.
  unfold simd_names. cbn [position]. repeat (destruct (x =? _)%string; [intros H; cbn in H; injection H; lia|]). discriminate.
Qed.
Lemma level_of_own k f : flag_of_level k = Some f -> 0 <= k <= 8 -> level_of_flag f = k.
Proof.
  intros H Hk. assert (C : k = 0 \/ k = 1 \/ k = 2 \/ k = 3 \/ k = 4 \/ k = 5 \/ k = 6 \/ k = 7 \/ k = 8) by lia.
  destruct C as [->|[->|[->|[->|[->|[->|[->|[->| ->]]]]]]]]; cbn in H; try discriminate; injection H as <-; reflexivity.
Qed.

(** The flags after some options: those of the machine up to the lowest level asked for. *)
Definition limits (l : list choice) (f : flag) : Prop :=
  forall x k, List.In (OMaxSimd x) l -> position x simd_names = Some k -> level_of_flag f <= k.

Definition FlagsAfter (m : machine) (l : list choice) (st : flags) : Prop :=
  if existsb (fun o => match o with OMaxSimd _ => true | _ => false end) l
  then forall f, st f = true <-> detect m all_off f = true /\ limits l f
  else st = all_off.

(** *** The settings *)
Record Meant (l : list choice) (s : settings) : Prop := mkMeant
  { mean_test : s_test s = true <-> List.In OTest l;
    mean_sd : s_stdDev s = true <-> List.In OStdDev l;
    mean_analyze : s_analyze s = true <-> List.In OAnalyze l;
    mean_fuzz : s_fuzz s = true <-> exists b, List.In (OFuzz b) l;
    mean_iterative : s_fuzzIterative s = last_value (fun o => match o with OFuzz b => Some b | _ => None end) false l;
    mean_runs : s_runs s = last_value (fun o => match o with ORuns k => Some (Z.max 1 k) | _ => None end) 8 l;
    mean_time : s_minSeconds s = last_value (fun o => match o with OMinTime k => Some k | _ => None end) 2 l;
    mean_delays : s_noDelays s = true <-> List.In OTest l \/ List.In (ORuns 0) l }.

Definition simd_ok (m : machine) (l : list choice) (o : choice) : Prop := forall x, o = OMaxSimd x -> simd_available m l x.
Definition next_ok (m : machine) (l : list choice) (o : choice) : Prop :=
  (forall a, List.In a l -> ~ refused_pair a o) /\ simd_ok m l o.

(** *** Settings as a function of the list *)
Definition is_mode (m : mode) (o : choice) : bool :=
  match o with OMode m' => mode_eqb m' m | OLowEntropyShort => mode_eqb MLowEntropy m | _ => false end.
Definition any_mode (o : choice) : bool := match o with OMode _ | OLowEntropyShort => true | _ => false end.
Definition single_v (o : choice) : option bool := match o with OSingle b => Some b | _ => None end.
Definition short_v (o : choice) : option bool := match o with OShort b => Some b | OLowEntropyShort => Some true | _ => None end.
Definition greedy_v (o : choice) : option bool := match o with OGreedy b => Some b | _ => None end.
Definition byte_v (o : choice) : option bool := match o with OByte b => Some b | _ => None end.
Definition packed_v (o : choice) : option bool := match o with OPacked b => Some b | _ => None end.
Definition lut_v (o : choice) : option Z := match o with OLut k => Some k | _ => None end.
Definition bits_v (o : choice) : option Z := match o with OSize k => Some k | _ => None end.
Definition some {X} (f : choice -> option X) (o : choice) : bool := match f o with Some _ => true | None => false end.

Definition args_of (l : list choice) : args :=
  mkArgs (existsb any_mode l) (existsb (is_mode MExtreme) l) (existsb (is_mode MLowEntropy) l) (existsb (is_mode MSh) l)
    (existsb (is_mode MRleMmtf) l) (existsb (is_mode MMmtf) l)
    (existsb (some short_v) l) (last_value short_v false l) (existsb (some single_v) l) (last_value single_v false l)
    (existsb (some byte_v) l) (last_value byte_v false l) (existsb (some packed_v) l) (last_value packed_v false l)
    (existsb (some greedy_v) l) (last_value greedy_v false l) (existsb (some lut_v) l) (last_value lut_v 0 l)
    (existsb (some bits_v) l) (last_value bits_v 0 l).

Definition is_test (o : choice) : bool := match o with OTest => true | _ => false end.
Definition is_sd (o : choice) : bool := match o with OStdDev => true | _ => false end.
Definition is_analyze (o : choice) : bool := match o with OAnalyze => true | _ => false end.
Definition is_fuzz (o : choice) : bool := match o with OFuzz _ => true | _ => false end.
Definition no_delay (o : choice) : bool := match o with OTest => true | ORuns k => k =? 0 | _ => false end.
Definition fuzz_v (o : choice) : option bool := match o with OFuzz b => Some b | _ => None end.
Definition runs_v (o : choice) : option Z := match o with ORuns k => Some (Z.max 1 k) | _ => None end.
Definition time_v (o : choice) : option Z := match o with OMinTime k => Some k | _ => None end.

Definition settings_of (l : list choice) (st : flags) : settings :=
  mkSettings (args_of l) (last_value runs_v 8 l) (last_value time_v 2 l) (existsb is_analyze l) (existsb no_delay l) (existsb is_test l)
    (existsb is_fuzz l) (last_value fuzz_v false l) (existsb is_sd l) st.

Lemma last_value_snoc {X} (f : choice -> option X) d l o :
  last_value f d (l ++ [o]) = match f o with Some y => y | None => last_value f d l end.
Proof. unfold last_value. rewrite fold_left_app. reflexivity. Qed.
Lemma existsb_snoc (f : choice -> bool) l o : existsb f (l ++ [o]) = existsb f l || f o.
Proof. rewrite existsb_app. cbn [existsb]. now rewrite orb_false_r. Qed.

Lemma args_snoc l o :
  args_of (l ++ [o]) =
  let a := args_of l in
  match o with
  | OMode m => add_mode a m | OLowEntropyShort => set_short (add_mode a MLowEntropy) true
  | OSingle b => set_single a b | OShort b => set_short a b | OGreedy b => set_greedy a b | OByte b => set_alignment a b
  | OPacked b => set_packed a b | OSize k => set_bits a k | OLut k => set_lut a k
  | _ => a
  end.
Proof.
  unfold args_of. rewrite !existsb_snoc, !last_value_snoc. cbv zeta.
  destruct o; cbn [any_mode is_mode some short_v single_v byte_v packed_v greedy_v lut_v bits_v]; rewrite ?orb_false_r, ?orb_true_r; try reflexivity.
  all: unfold add_mode, set_mode, set_short, set_single, set_alignment, set_packed, set_greedy, set_lut, set_bits.
  all: cbn [a_hasMode a_extreme a_lowEntropy a_sh a_rleMmtf a_mmtf a_hasShort a_short a_hasSingle a_single a_hasAlignment a_byte a_hasPacked a_packed a_hasGreedy a_greedy a_hasLut a_lut a_hasBits a_bits].
  all: try reflexivity.
  cbn [mode_eqb]. rewrite ?orb_false_r, ?orb_true_r. reflexivity.
Qed.

Lemma apply_snoc m l st o s' : offered o -> apply m o (settings_of l st) = Some s' ->
  s' = settings_of (l ++ [o]) (s_flags s').
Proof.
  intros Ho H. unfold settings_of. rewrite args_snoc, !existsb_snoc, !last_value_snoc.
  destruct o; cbn [is_analyze no_delay is_test is_fuzz is_sd runs_v time_v fuzz_v]; rewrite ?orb_false_r, ?orb_true_r; cbv zeta.
  all: cbn [apply] in H; unfold once, option_map in H.
  all: try (rewrite (size_decimal k Ho) in H); try (rewrite (lut_decimal k Ho) in H).
  all: try (cbn [offered] in Ho; rewrite (atoi_decimal k Ho) in H; replace (k <? 0) with false in H by lia).
  all: try (destruct (limit_simd _ _ _); [|discriminate]).
  all: try (match type of H with (if ?b then None else _) = _ => destruct b end; [discriminate|]).
  all: injection H as <-; try reflexivity.
  unfold with_runs. destruct (k =? 0) eqn:E; cbn.
  - apply Z.eqb_eq in E. subst k. rewrite orb_true_r. reflexivity.
  - rewrite orb_false_r. replace (Z.max 1 k) with k by lia. reflexivity.
Qed.

(** *** Which options are accepted *)
Lemma existsb_false_forall (f : choice -> bool) l : existsb f l = false <-> forall a, List.In a l -> f a = false.
Proof.
  split.
  - intros H a Ha. destruct (f a) eqn:E; [|reflexivity]. assert (existsb f l = true) by (apply existsb_exists; eauto). congruence.
  - intros H. destruct (existsb f l) eqn:E; [|reflexivity]. apply existsb_exists in E. destruct E as (a & Ha & E). rewrite H in E; [discriminate|assumption].
Qed.

Lemma refused_has l o :
  (forall a, List.In a l -> ~ refused_pair a o) <->
  match o with
  | OSingle _ => a_hasSingle (args_of l) = false | OShort _ => a_hasShort (args_of l) = false
  | OGreedy _ => a_hasGreedy (args_of l) = false | OByte _ => a_hasAlignment (args_of l) = false
  | OPacked _ => a_hasPacked (args_of l) = false | OSize _ => a_hasBits (args_of l) = false
  | OLut _ => a_hasLut (args_of l) = false
  | _ => True
  end.
Proof.
  assert (G : forall (f : choice -> bool), (forall a, refused_pair a o <-> f a = true) -> ((forall a, List.In a l -> ~ refused_pair a o) <-> existsb f l = false)).
  { intros f Hf. rewrite existsb_false_forall. split; intros H a Ha; specialize (H a Ha).
    - destruct (f a) eqn:E; [|reflexivity]. exfalso. apply H, Hf, E.
    - rewrite Hf. congruence. }
  unfold refused_pair in *.
  destruct o; cbn [args_of a_hasSingle a_hasShort a_hasGreedy a_hasAlignment a_hasPacked a_hasBits a_hasLut].
  all: try (apply G; intros a; destruct a; cbn; split; intros H; try reflexivity; try discriminate; try (left; exact I);
            try (right; split; [reflexivity|eexists; reflexivity]);
            try (destruct H as [H|[H [? H']]]; [contradiction|discriminate])).
  all: split; intros H; try exact I; intros a Ha [K|[-> [? K]]]; try discriminate; destruct a; exact K.
Qed.

Lemma detected m : detect m all_off FDetected = true.
Proof. unfold detect. cbn [all_off]. unfold writes. rewrite app_assoc, fold_left_app. reflexivity. Qed.

Lemma flags_detect m l st : FlagsAfter m l st -> (forall f, detect m st f = true <-> detect m all_off f = true /\ limits l f).
Proof.
  unfold FlagsAfter. destruct (existsb _ l) eqn:E; intros H f.
  - assert (D : st FDetected = true).
    { apply H. split; [apply detected|]. intros x k _ Hp. apply position_range in Hp. cbn [level_of_flag]. lia. }
    unfold detect at 1. rewrite D. apply H.
  - subst st. split; [|tauto]. intros D. split; [exact D|]. intros x k Hx _. rewrite existsb_false_forall in E. specialize (E _ Hx). discriminate.
Qed.

Lemma flags_same m l st o : (forall x, o <> OMaxSimd x) -> FlagsAfter m l st -> FlagsAfter m (l ++ [o]) st.
Proof.
  intros Ho. unfold FlagsAfter. rewrite existsb_snoc. replace (match o with OMaxSimd _ => true | _ => false end) with false by (destruct o; try reflexivity; exfalso; eapply Ho; reflexivity).
  rewrite orb_false_r. destruct (existsb _ l); [|auto]. intros H f. rewrite H. unfold limits. split; intros [A B]; (split; [exact A|]); intros x k Hx; apply B.
  - apply in_app_iff in Hx. destruct Hx as [Hx|[Hx|[]]]; [exact Hx|]. now elim (Ho x).
  - apply in_app_iff. now left.
Qed.

Lemma flags_limit m l st x k st' : FlagsAfter m l st -> position x simd_names = Some k ->
  (forall f, st' f = detect m st f && (level_of_flag f <=? k)) -> FlagsAfter m (l ++ [OMaxSimd x]) st'.
Proof.
  intros HF Hp H. pose proof (flags_detect m l st HF) as D. unfold FlagsAfter. rewrite existsb_snoc, orb_true_r. intros f.
  rewrite H, andb_true_iff, D, Z.leb_le. unfold limits. split.
  - intros [[A B] C]. split; [exact A|]. intros y j Hy Hj. apply in_app_iff in Hy. destruct Hy as [Hy|[Hy|[]]]; [eapply B; eassumption|].
    injection Hy as <-. congruence.
  - intros [A B]. split; [split; [exact A|]|].
    + intros y j Hy. apply B. apply in_app_iff. now left.
    + apply (B x k); [|exact Hp]. apply in_app_iff. right. now left.
Qed.

(** One more option. *)
Lemma apply_step m l st o : offered o -> FlagsAfter m l st ->
  (next_ok m l o <-> exists s', apply m o (settings_of l st) = Some s') /\
  (forall s', apply m o (settings_of l st) = Some s' -> FlagsAfter m (l ++ [o]) (s_flags s')).
Proof.
  intros Ho HF. pose proof (refused_has l o) as HR. pose proof (flags_detect m l st HF) as D.
  match type of HR with _ <-> ?Q => assert (N : (forall x, o <> OMaxSimd x) -> (next_ok m l o <-> Q)) end.
  { intros K. split; [intros [N _]; apply HR; exact N|]. intros N. split; [apply HR; exact N|]. intros x Hx. now elim (K x). }
  pose proof (fun K : (forall x, o <> OMaxSimd x) => flags_same m l st o K HF) as FS.
  destruct o as [| | |it|x|k|k|md| |b|b|b|b|b|k|k].
  5:{ unfold next_ok, simd_ok, simd_available. cbn [apply]. pose proof (limit_spec x (detect m st)) as HL. cbn [settings_of s_flags].
      destruct (position x simd_names) as [k|] eqn:Ep.
      - pose proof (position_range _ _ Ep) as Hk.
        assert (Q : (match flag_of_level k with Some f => detect m st f | None => true end) = true <->
                    (forall f, flag_of_level k = Some f -> detect m all_off f = true) /\
                    (forall y j, List.In (OMaxSimd y) l -> position y simd_names = Some j -> k <= j)).
        { destruct (flag_of_level k) as [f|] eqn:Ef.
          - rewrite D. unfold limits. rewrite (level_of_own k f Ef Hk). split; intros [A B]; (split; [|exact B]).
            + intros f' Hf'. congruence.
            + now apply A.
          - split; [|reflexivity]. intros _. split; [discriminate|]. intros y j _ Hj. apply position_range in Hj.
            assert (k = 0) by (assert (C : k = 0 \/ k = 1 \/ k = 2 \/ k = 3 \/ k = 4 \/ k = 5 \/ k = 6 \/ k = 7 \/ k = 8) by lia;
              destruct C as [->|[->|[->|[->|[->|[->|[->|[->| ->]]]]]]]]; try reflexivity; discriminate). lia. }
        destruct (match flag_of_level k with Some f => detect m st f | None => true end).
        + destruct HL as (st' & E & K). rewrite E. cbn [option_map]. split.
          * split; [eauto|]. intros _. split; [now apply HR|]. intros x' Hx'. injection Hx' as <-. exists k. split; [exact Ep|]. now apply Q.
          * intros s' Hs'. injection Hs' as <-. cbn [s_flags with_flags]. exact (flags_limit m l st x k st' HF Ep K).
        + rewrite HL. cbn [option_map]. split.
          * split; [|intros [? ?]; discriminate]. intros [_ K]. destruct (K x eq_refl) as (k' & Ek' & K'). assert (k' = k) by congruence. subst k'. exfalso. apply Q in K'. discriminate.
          * discriminate.
      - rewrite HL. cbn [option_map]. split; [|discriminate]. split; [|intros [? ?]; discriminate]. intros [_ K]. destruct (K x eq_refl) as (k' & Ek' & K'). congruence. }
  all: rewrite (N ltac:(discriminate)); specialize (FS ltac:(discriminate)); clear N HR.
  all: cbn [apply]; unfold once; cbn [settings_of s_args].
  all: try (rewrite (size_decimal k Ho)); try (rewrite (lut_decimal k Ho)).
  all: try (cbn [offered] in Ho; rewrite (atoi_decimal k Ho); replace (k <? 0) with false by lia).
  all: try (match goal with |- (?b = false <-> _) /\ _ => destruct b end).
  all: split; [split; [|intros (s' & E)]; try discriminate; try reflexivity; try (intros; eexists; reflexivity); try exact I|].
  all: intros s' E; try discriminate; injection E as <-; try exact FS.
  unfold with_runs. destruct (k =? 0); exact FS.
Qed.

Lemma apply_all_app m l1 : forall l2 s, apply_all m (l1 ++ l2) s = match apply_all m l1 s with Some s' => apply_all m l2 s' | None => None end.
Proof. induction l1 as [|o l1 IH]; intros l2 s; [reflexivity|]. cbn [app apply_all]. destruct (apply m o s); [apply IH|reflexivity]. Qed.

Definition all_ok (m : machine) (l : list choice) : Prop := forall l1 o l2, l = (l1 ++ o :: l2)%list -> next_ok m l1 o.
Lemma all_ok_snoc m l o : all_ok m (l ++ [o]) <-> all_ok m l /\ next_ok m l o.
Proof.
  split.
  - intros H. split.
    + intros l1 a l2 ->. apply (H l1 a (l2 ++ [o])%list). now rewrite <- app_assoc.
    + exact (H l o [] eq_refl).
  - intros [H1 H2] l1 a l2 E. destruct l2 as [|b l2 _] using rev_ind.
    + apply app_inj_tail in E. destruct E as [<- <-]. exact H2.
    + change (a :: l2 ++ [b])%list with ((a :: l2) ++ [b])%list in E. rewrite app_assoc in E. apply app_inj_tail in E. destruct E as [E _].
      exact (H1 l1 a l2 E).
Qed.

Lemma apply_all_ok m l : Forall offered l ->
  (all_ok m l <-> exists s, apply_all m l (initial all_off) = Some s) /\
  (forall s, apply_all m l (initial all_off) = Some s -> s = settings_of l (s_flags s) /\ FlagsAfter m l (s_flags s)).
Proof.
  induction l as [|o l IH] using rev_ind; intros HO.
  - split.
    + split; [intros _; eexists; reflexivity|]. intros _ l1 a l2 E. destruct l1; discriminate.
    + intros s E. injection E as <-. split; reflexivity.
  - apply Forall_app in HO. destruct HO as [HO Ho]. inversion Ho as [|? ? Ho' _]. subst. specialize (IH HO). destruct IH as [IH1 IH2].
    rewrite all_ok_snoc, apply_all_app. destruct (apply_all m l (initial all_off)) as [s|] eqn:E.
    + destruct (IH2 s eq_refl) as [Es Hf]. destruct (apply_step m l (s_flags s) o Ho' Hf) as [A1 A2]. rewrite <- Es in A1, A2.
      cbn [apply_all]. split.
      * destruct (apply m o s) as [s'|] eqn:Ea; [split; [eauto|]; intros _; split; [apply IH1; eauto|apply A1; eauto]|].
        split; [intros [_ N]; apply A1 in N; destruct N; discriminate|intros [? ?]; discriminate].
      * intros s' Es'. destruct (apply m o s) as [s2|] eqn:Ea; [|discriminate]. injection Es' as <-. split; [|auto].
        rewrite Es in Ea. exact (apply_snoc m l (s_flags s) o s2 Ho' Ea).
    + split; [|discriminate]. split; [intros [N _]; apply IH1 in N; destruct N; discriminate|intros [? ?]; discriminate].
Qed.
