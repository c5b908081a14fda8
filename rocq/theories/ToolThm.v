(** The command line, the selection and the instruction sets: the theorems. *)
From Coq Require Import String Ascii.
From Verif Require Import Base Spec PlatModel ToolTable ToolArgs ToolSpec ToolSel ToolCmd ToolOpt.
Open Scope string_scope.
Open Scope Z_scope.

(** *** Clashes *)
Lemma no_clash l R : ~ clash R l <-> forall l1 o l2, l = (l1 ++ o :: l2)%list -> forall a, List.In a l1 -> ~ R a o.
Proof.
  split.
  - intros H l1 o l2 -> a Ha HR. apply H. apply in_split in Ha. destruct Ha as (k1 & k2 & ->).
    exists k1, a, k2, o, l2. split; [|exact HR]. now rewrite <- app_assoc.
  - intros H (l1 & a & l2 & b & l3 & -> & HR).
    refine (H (l1 ++ a :: l2)%list b l3 _ a _ HR); [rewrite <- app_assoc; reflexivity|]. apply in_app_iff. right. now left.
Qed.
Lemma all_ok_iff m l :
  all_ok m l <-> ~ clash refused_pair l /\ (forall l1 x l2, l = (l1 ++ OMaxSimd x :: l2)%list -> simd_available m l1 x).
Proof.
  rewrite no_clash. split.
  - intros H. split.
    + intros l1 o l2 E. exact (proj1 (H l1 o l2 E)).
    + intros l1 x l2 E. exact (proj2 (H l1 _ l2 E) x eq_refl).
  - intros [H1 H2] l1 o l2 E. split; [exact (H1 l1 o l2 E)|]. intros x ->. exact (H2 l1 x l2 E).
Qed.

Lemma in_two {X} (a b : X) l : List.In a l -> List.In b l ->
  a = b \/ (exists l1 l2 l3, l = (l1 ++ a :: l2 ++ b :: l3)%list) \/ (exists l1 l2 l3, l = (l1 ++ b :: l2 ++ a :: l3)%list).
Proof.
  intros Ha Hb. apply in_split in Ha. destruct Ha as (k1 & k2 & ->). apply in_app_iff in Hb. destruct Hb as [Hb|[->|Hb]]; [|now left|].
  - right. right. apply in_split in Hb. destruct Hb as (j1 & j2 & ->). exists j1, j2, k2. now rewrite <- app_assoc.
  - right. left. apply in_split in Hb. destruct Hb as (j1 & j2 & ->). exists k1, j1, j2. reflexivity.
Qed.
Lemma one_of l a b : ~ clash refused_pair l -> List.In a l -> List.In b l -> exclusive a b -> exclusive b a -> a = b.
Proof.
  intros HC Ha Hb H1 H2. destruct (in_two a b l Ha Hb) as [E|[(l1 & l2 & l3 & E)|(l1 & l2 & l3 & E)]]; [exact E| |]; exfalso; apply HC.
  - exists l1, a, l2, b, l3. split; [exact E|left; exact H1].
  - exists l1, b, l2, a, l3. split; [exact E|left; exact H2].
Qed.

Lemma last_value_in {X} (f : choice -> option X) d l : existsb (some f) l = true -> exists o, List.In o l /\ f o = Some (last_value f d l).
Proof.
  induction l as [|o l IH] using rev_ind; [discriminate|]. rewrite existsb_snoc, last_value_snoc. unfold some at 2. intros H.
  destruct (f o) as [x|] eqn:E.
  - exists o. split; [apply in_app_iff; right; now left|exact E].
  - rewrite orb_false_r in H. destruct (IH H) as (a & Ha & Ea). exists a. split; [apply in_app_iff; now left|exact Ea].
Qed.
Lemma in_some {X} (f : choice -> option X) o x l : List.In o l -> f o = Some x -> existsb (some f) l = true.
Proof. intros H E. apply existsb_exists. exists o. split; [exact H|]. unfold some. now rewrite E. Qed.

(** *** Impossible combinations *)
Lemma bits_given l k : ~ clash refused_pair l -> List.In (OSize k) l -> a_hasBits (args_of l) = true /\ a_bits (args_of l) = k.
Proof.
  intros HC H. cbn [args_of a_hasBits a_bits]. pose proof (in_some bits_v _ k _ H eq_refl) as E. split; [exact E|].
  destruct (last_value_in bits_v 0 l E) as (o & Ho & Eo). destruct o; try discriminate. cbn in Eo.
  assert (K : OSize k0 = OSize k) by (exact (one_of l _ _ HC Ho H I I)). injection K as ->. congruence.
Qed.
Lemma bits_from l : a_hasBits (args_of l) = true -> List.In (OSize (a_bits (args_of l))) l.
Proof.
  cbn [args_of a_hasBits a_bits]. intros H. destruct (last_value_in bits_v 0 l H) as (o & Ho & Eo). destruct o; try discriminate. cbn in Eo.
  injection Eo as Eo. rewrite <- Eo. exact Ho.
Qed.
Lemma single_given l b : ~ clash refused_pair l -> List.In (OSingle b) l -> a_hasSingle (args_of l) = true /\ a_single (args_of l) = b.
Proof.
  intros HC H. cbn [args_of a_hasSingle a_single]. pose proof (in_some single_v _ b _ H eq_refl) as E. split; [exact E|].
  destruct (last_value_in single_v false l E) as (o & Ho & Eo). destruct o; try discriminate. cbn in Eo.
  assert (K : OSingle b0 = OSingle b) by (exact (one_of l _ _ HC Ho H I I)). injection K as ->. congruence.
Qed.
Lemma single_from l : a_hasSingle (args_of l) = true -> List.In (OSingle (a_single (args_of l))) l.
Proof.
  cbn [args_of a_hasSingle a_single]. intros H. destruct (last_value_in single_v false l H) as (o & Ho & Eo). destruct o; try discriminate. cbn in Eo.
  injection Eo as Eo. rewrite <- Eo. exact Ho.
Qed.
Lemma mode_given l md : modes (args_of l) md = existsb (is_mode md) l.
Proof. destruct md; reflexivity. Qed.
Lemma mode_in l md : md <> MLowEntropy -> existsb (is_mode md) l = true <-> List.In (OMode md) l.
Proof.
  intros Hne. rewrite existsb_exists. split.
  - intros (o & Ho & E). destruct o; try discriminate; cbn in E; destruct md; try discriminate; try congruence; destruct m; try discriminate; exact Ho.
  - intros H. exists (OMode md). split; [exact H|]. now destruct md.
Qed.
Lemma has_mode_in l md : List.In (OMode md) l -> a_hasMode (args_of l) = true.
Proof. intros H. cbn [args_of a_hasMode]. apply existsb_exists. exists (OMode md). split; [exact H|reflexivity]. Qed.

Lemma valid_possible l : ~ clash refused_pair l -> (valid_args (args_of l) = true <-> ~ impossible l).
Proof.
  intros HC.
  pose proof (mode_in l MExtreme ltac:(discriminate)) as M1. pose proof (mode_in l MMmtf ltac:(discriminate)) as M2. pose proof (mode_in l MRleMmtf ltac:(discriminate)) as M3.
  assert (X : (a_hasMode (args_of l) && a_extreme (args_of l)) = true <-> List.In (OMode MExtreme) l).
  { rewrite andb_true_iff. split; [intros [_ H]; now apply M1|]. intros H. split; [eapply has_mode_in; exact H|now apply M1]. }
  assert (Y : (a_hasMode (args_of l) && (a_mmtf (args_of l) || a_rleMmtf (args_of l))) = true <-> List.In (OMode MMmtf) l \/ List.In (OMode MRleMmtf) l).
  { rewrite andb_true_iff, orb_true_iff. split; [intros [_ [H|H]]; [left; now apply M2|right; now apply M3]|].
    intros [H|H]; (split; [eapply has_mode_in; exact H|]); [left; now apply M2|right; now apply M3]. }
  pose proof (bits_given l) as B1. pose proof (bits_from l) as B2. pose proof (single_given l) as S1. pose proof (single_from l) as S2.
  unfold valid_args. set (a := args_of l) in *. clearbody a. unfold impossible.
  rewrite !andb_true_iff, !negb_true_iff. split.
  - intros [[V1 V2] V3] [(I1 & I2 & k & I3 & I4)|[(I1 & I3)|(I1 & k & I3 & I4)]].
    + apply X in I1. destruct (S1 true HC I2) as [H1 H2]. destruct (B1 k HC I3) as [H3 H4]. rewrite I1, H1, H2, H3, H4 in V1. cbn in V1.
      apply negb_false_iff, Z.eqb_eq in V1. contradiction.
    + apply X in I1. destruct (B1 256 HC I3) as [H3 H4]. rewrite I1, H3, H4 in V2. discriminate.
    + apply Y in I1. destruct (B1 k HC I3) as [H3 H4]. rewrite I1, H3, H4 in V3. cbn in V3.
      replace (k =? 8) with false in V3 by lia. replace (k =? 16) with false in V3 by lia. replace (k =? 256) with false in V3 by lia. replace (k =? 128) with false in V3 by lia. discriminate.
  - intros HI. split; [split|].
    + destruct ((a_hasMode a && a_extreme a) && (a_hasSingle a && a_single a) && (a_hasBits a && negb (a_bits a =? 8))) eqn:E; [|reflexivity]. exfalso. apply HI. left.
      rewrite !andb_true_iff in E. destruct E as [[E1 [E2 E3]] [E4 E5]]. rewrite <- andb_true_iff in E1. apply X in E1. specialize (S2 E2). rewrite E3 in S2.
      repeat split; [exact E1|exact S2|]. exists (a_bits a). split; [exact (B2 E4)|]. apply negb_true_iff, Z.eqb_neq in E5. exact E5.
    + destruct ((a_hasMode a && a_extreme a) && (a_hasBits a && (a_bits a =? 256))) eqn:E; [|reflexivity]. exfalso. apply HI. right. left.
      apply andb_true_iff in E. destruct E as [E1 E2]. apply andb_true_iff in E2. destruct E2 as [E2 E3]. apply X in E1. apply Z.eqb_eq in E3. specialize (B2 E2). rewrite E3 in B2. now split.
    + match goal with |- ?x = false => destruct x eqn:E; [|reflexivity] end. exfalso. apply HI. right. right.
      apply andb_true_iff in E. destruct E as [E1 E2]. rewrite !andb_true_iff, !negb_true_iff, !Z.eqb_neq in E2. destruct E2 as [[[[E2 E3] E4] E5] E6].
      apply Y in E1. split; [exact E1|]. exists (a_bits a). split; [exact (B2 E2)|]. tauto.
Qed.

(** *** Acceptance *)
Theorem accepted_iff m file l : Forall offered l ->
  ((exists s, command_line m (file :: spelled l) = Some (file, s)) <->
   ~ clash refused_pair l /\ (forall l1 x l2, l = (l1 ++ OMaxSimd x :: l2)%list -> simd_available m l1 x) /\ ~ impossible l).
Proof.
  intros HO. rewrite command_spelled. destruct (apply_all_ok m l HO) as [A1 A2]. rewrite all_ok_iff in A1.
  destruct (apply_all m l (initial all_off)) as [s|] eqn:E.
  - destruct (A2 s eq_refl) as [Es Hf]. assert (K : ~ clash refused_pair l /\ (forall l1 x l2, l = (l1 ++ OMaxSimd x :: l2)%list -> simd_available m l1 x)) by (apply A1; eauto).
    destruct K as [K1 K2]. pose proof (valid_possible l K1) as V. rewrite Es. cbn [settings_of s_args]. destruct (valid_args (args_of l)).
    + split; [intros _|eauto]. split; [exact K1|]. split; [exact K2|]. now apply V.
    + split; [intros [? ?]; discriminate|]. intros (_ & _ & K). apply V in K. discriminate.
  - split; [intros [? ?]; discriminate|]. intros (K1 & K2 & _). exfalso. destruct (proj1 A1 (conj K1 K2)). discriminate.
Qed.

Lemma command_accepted m file l f s : Forall offered l -> command_line m (file :: spelled l) = Some (f, s) ->
  f = file /\ all_ok m l /\ s = settings_of l (s_flags s) /\ FlagsAfter m l (s_flags s).
Proof.
  intros HO. rewrite command_spelled. destruct (apply_all_ok m l HO) as [A1 A2].
  destruct (apply_all m l (initial all_off)) as [s'|] eqn:E; [|discriminate]. destruct (valid_args (s_args s')); [|discriminate].
  intros H. injection H as <- <-. split; [reflexivity|]. split; [apply A1; eauto|]. now apply A2.
Qed.

Lemma existsb_in (f : choice -> bool) o l : (forall a, f a = true <-> a = o) -> (existsb f l = true <-> List.In o l).
Proof.
  intros H. rewrite existsb_exists. split.
  - intros (a & Ha & E). apply H in E. now subst.
  - intros Ho. exists o. split; [exact Ho|]. now apply H.
Qed.

Theorem accepted_settings m file l f s : Forall offered l -> command_line m (file :: spelled l) = Some (f, s) -> f = file /\ Meant l s.
Proof.
  intros HO H. destruct (command_accepted m file l f s HO H) as (Hf & _ & -> & _). split; [exact Hf|]. constructor; cbn [settings_of s_test s_stdDev s_analyze s_fuzz s_fuzzIterative s_runs s_minSeconds s_noDelays]; try reflexivity.
  - apply existsb_in. intros []; split; intros K; try discriminate; reflexivity.
  - apply existsb_in. intros []; split; intros K; try discriminate; reflexivity.
  - apply existsb_in. intros []; split; intros K; try discriminate; reflexivity.
  - rewrite existsb_exists. split.
    + intros (a & Ha & E). destruct a; try discriminate. eauto.
    + intros (b & Hb). eauto.
  - rewrite existsb_exists. split.
    + intros (a & Ha & E). destruct a; try discriminate; [now left|]. cbn in E. apply Z.eqb_eq in E. subst. now right.
    + intros [K|K]; eexists; (split; [exact K|reflexivity]).
Qed.

(** *** Refusals *)
Lemma neq_name w n : ~ List.In w option_names -> existsb (String.eqb n) option_names = true -> (w =? n)%string = false.
Proof.
  intros H Hn. apply String.eqb_neq. intros ->. apply H. apply existsb_exists in Hn. destruct Hn as (y & Hy & E). apply String.eqb_eq in E. now subst.
Qed.
Lemma unknown_option m w x s : ~ List.In w option_names -> parse_option m w x s = None.
Proof. intros H. unfold parse_option. cbv zeta. repeat (rewrite (neq_name w _ H) by reflexivity). reflexivity. Qed.
Theorem unknown_refused m file l w rest : ~ List.In w option_names -> command_line m (file :: spelled l ++ w :: rest) = None.
Proof.
  intros H. unfold command_line. rewrite parse_spelled. destruct (apply_all m l (initial all_off)); [|reflexivity].
  cbn [parse]. destruct rest; rewrite unknown_option by exact H; reflexivity.
Qed.
Theorem missing_value m file l w : List.In w value_options -> command_line m (file :: spelled l ++ [w]) = None.
Proof.
  intros H. unfold command_line. rewrite parse_spelled. destruct (apply_all m l (initial all_off)); [|reflexivity].
  unfold value_options in H. cbn [List.In] in H. repeat (destruct H as [<-|H]; [reflexivity|]). contradiction.
Qed.
Lemma atoi_negative k : 1 <= k <= 2 ^ 31 -> atoi ("-" ++ decimal k)%string = - k.
Proof.
  intros Hk. unfold atoi. assert (E : strtol ("-" ++ decimal k)%string = - k).
  { change (strtol ("-" ++ decimal k)%string) with (Z.max (- 2 ^ 63) (- digits (decimal k) 0)).
    destruct (digits_decimal 20 k "" 0) as (e & He); [split; [lia|]; change (10 ^ Z.of_nat 20) with 100000000000000000000; lia|lia|].
    unfold decimal. rewrite He. cbn [digits]. lia. }
  rewrite E. unfold to_int. rewrite <- (Z_mod_plus_full (- k) 1 (2 ^ 32)), Z.mod_small by lia.
  replace (- k + 1 * 2 ^ 32 <? 2 ^ 31) with false by lia. lia.
Qed.
Theorem negative_refused m file l w k rest : List.In w ["--runs"; "--min-time"]%string -> 1 <= k <= 2 ^ 31 ->
  command_line m (file :: spelled l ++ w :: ("-" ++ decimal k)%string :: rest) = None.
Proof.
  intros H Hk. unfold command_line. rewrite parse_spelled. destruct (apply_all m l (initial all_off)); [|reflexivity].
  destruct H as [<-|[<-|[]]]; cbn [parse]; unfold parse_option; cbn [String.eqb Ascii.eqb Bool.eqb]; rewrite (atoi_negative k Hk);
    replace (- k <? 0) with true by lia; reflexivity.
Qed.

(** *** Selection *)
Lemma tidy_args l : Tidy (args_of l).
Proof.
  intros H md. rewrite mode_given. cbn [args_of a_hasMode] in H. rewrite existsb_false_forall in *. intros a Ha. specialize (H a Ha).
  destruct a; try discriminate; reflexivity.
Qed.
Lemma asked_step l o name : (forall a, List.In a l -> ~ refused_pair a o) -> (o = OLowEntropyShort -> ~ List.In (OShort false) l) ->
  Asked (args_of (l ++ [o])) name <-> Asked (args_of l) name /\ fits name o.
Proof.
  intros HR HS. apply refused_has in HR. rewrite args_snoc. cbv zeta.
  destruct o; cbn [fits]; try tauto.
  - apply asked_mode, tidy_args.
  - specialize (HS eq_refl). rewrite <- and_assoc. change (mode_of name = Some MLowEntropy) with (fits name (OMode MLowEntropy)).
    rewrite <- (asked_mode _ _ _ (tidy_args l)). destruct (a_hasShort (args_of l)) eqn:E.
    + apply asked_short_again; [exact E|]. cbn [add_mode set_mode a_short args_of] in *. cbn [a_hasShort] in E.
      destruct (last_value_in short_v false l E) as (o & Ho & Eo). destruct (last_value short_v false l); [reflexivity|].
      destruct o; try discriminate. cbn in Eo. injection Eo as ->. contradiction.
    + apply asked_short. exact E.
  - now apply asked_single.
  - now apply asked_short.
  - now apply asked_greedy.
  - now apply asked_alignment.
  - now apply asked_packed.
  - now apply asked_bits.
  - now apply asked_lut.
Qed.

Lemma asked_all m name l : all_ok m l -> ~ clash (fun a b => a = OShort false /\ b = OLowEntropyShort) l ->
  Asked (args_of l) name <-> forall o, List.In o l -> fits name o.
Proof.
  induction l as [|o l IH] using rev_ind; intros HA HC.
  - split; [intros _ o []|]. intros _. constructor; discriminate.
  - apply all_ok_snoc in HA. destruct HA as [HA HN]. rewrite asked_step.
    + rewrite IH; [|exact HA|].
      * split.
        -- intros [H1 H2] a Ha. apply in_app_iff in Ha. destruct Ha as [Ha|[<-|[]]]; [now apply H1|exact H2].
        -- intros H. split; [intros a Ha; apply H, in_app_iff; now left|]. apply H, in_app_iff. right. now left.
      * intros (l1 & a & l2 & b & l3 & -> & K). apply HC. exists l1, a, l2, b, (l3 ++ [o])%list. split; [|exact K]. rewrite <- app_assoc. cbn. now rewrite <- app_assoc.
    + exact (proj1 HN).
    + intros -> K. apply in_split in K. destruct K as (l1 & l2 & ->). apply HC. exists l1, (OShort false), l2, OLowEntropyShort, []. split; [|split; reflexivity].
      now rewrite <- app_assoc.
Qed.

Theorem selection m file l f s : Forall offered l -> ~ clash (fun a b => a = OShort false /\ b = OLowEntropyShort) l ->
  command_line m (file :: spelled l) = Some (f, s) ->
  NoDup (selected (s_args s)) /\ forall c, List.In c (selected (s_args s)) <-> forall o, List.In o l -> fits (codec_name c) o.
Proof.
  intros HO HC H. destruct (command_accepted m file l f s HO H) as (_ & HA & -> & _). cbn [settings_of s_args]. split.
  - apply NoDup_filter, codecs_nodup.
  - intros c. rewrite selected_asked. exact (asked_all m (codec_name c) l HA HC).
Qed.

(** *** Instruction sets *)
Lemma choose_level s st i : choose s st = Some i -> level_of i <= 1 \/ exists f, st f = true /\ level_of_flag f = level_of i.
Proof.
  destruct s; cbn [choose]; intros H.
  all: repeat match type of H with context [if ?b then _ else _] => destruct b eqn:? end; try discriminate; injection H as <-.
  all: try (left; cbn; lia).
  all: right; repeat match goal with K : _ && _ = true |- _ => apply andb_true_iff in K; destruct K end.
  all: solve [ exists FAvx2; split; [assumption|reflexivity] | exists FAvx512F; split; [assumption|reflexivity] | exists FAvx; split; [assumption|reflexivity]
             | exists FSse41; split; [assumption|reflexivity] | exists FSsse3; split; [assumption|reflexivity] ].
Qed.

Theorem simd_limited m file l f s x k : Forall offered l -> command_line m (file :: spelled l) = Some (f, s) ->
  List.In (OMaxSimd x) l -> position x simd_names = Some k ->
  (forall f', s_flags s f' = true -> detect m all_off f' = true) /\
  (forall f', detect m (s_flags s) f' = s_flags s f') /\
  (forall s' i, choose s' (s_flags s) = Some i -> level_of i <= Z.max 1 k).
Proof.
  intros HO H Hx Hp. destruct (command_accepted m file l f s HO H) as (_ & HA & _ & HF).
  assert (E : existsb (fun o => match o with OMaxSimd _ => true | _ => false end) l = true) by (apply existsb_exists; exists (OMaxSimd x); now split).
  unfold FlagsAfter in HF. rewrite E in HF. split; [|split].
  - intros f' Hf'. now apply HF.
  - assert (D : s_flags s FDetected = true).
    { apply HF. split; [apply detected|]. intros y j _ Hj. apply position_range in Hj. cbn [level_of_flag]. lia. }
    intros f'. unfold detect. now rewrite D.
  - intros s' i Hi. destruct (choose_level _ _ _ Hi) as [Hl|(g & Hg & Hl)]; [lia|]. apply HF in Hg. destruct Hg as [_ Hg]. specialize (Hg x k Hx Hp). lia.
Qed.

(** Without the option, everything the machine has is used. *)
Theorem simd_unlimited m file l f s : Forall offered l -> command_line m (file :: spelled l) = Some (f, s) ->
  (forall x, ~ List.In (OMaxSimd x) l) -> s_flags s = all_off.
Proof.
  intros HO H Hn. destruct (command_accepted m file l f s HO H) as (_ & HA & _ & HF).
  unfold FlagsAfter in HF. destruct (existsb _ l) eqn:E; [|exact HF]. apply existsb_exists in E. destruct E as (o & Ho & E). destruct o; try discriminate. now elim (Hn x).
Qed.
Theorem simd_unlimited_detect m file l f s : Forall offered l -> command_line m (file :: spelled l) = Some (f, s) ->
  (forall x, ~ List.In (OMaxSimd x) l) -> forall f', detect m (s_flags s) f' = detect m all_off f'.
Proof. intros H1 H2 H3 f'. now rewrite (simd_unlimited m file l f s H1 H2 H3). Qed.

(** *** Witnesses *)
Lemma witness_file : forall m l, (match command_line m ("x" :: spelled l) with Some _ => true | None => false end) = true ->
  exists f s, command_line m ("x" :: spelled l) = Some (f, s).
Proof. intros m l. destruct (command_line m ("x" :: spelled l)) as [[f s]|]; [eauto|discriminate]. Qed.

Definition some_machine : machine := mkMachine 1 0 (2 ^ 25 + 2 ^ 26) 0 0 0 0.
Definition short_clash : list choice := [OShort false; OLowEntropyShort].
Lemma short_offered : Forall offered short_clash.
Proof. repeat constructor. Qed.
Lemma selection_refuted : exists m file l f s c o, Forall offered l /\ command_line m (file :: spelled l) = Some (f, s) /\
  List.In c (selected (s_args s)) /\ List.In o l /\ ~ fits (codec_name c) o.
Proof.
  destruct (witness_file some_machine short_clash eq_refl) as (f & s & E).
  destruct (selected (s_args s)) as [|c r] eqn:Es.
  { exfalso. revert Es. assert (H : (match command_line some_machine ("x" :: spelled short_clash) with Some (_, s) => match selected (s_args s) with [] => false | _ => true end | None => false end) = true) by (vm_compute; reflexivity).
    rewrite E in H. intros Es. rewrite Es in H. discriminate. }
  exists some_machine, "x", short_clash, f, s, c, (OShort false). split; [exact short_offered|]. split; [exact E|]. split; [rewrite Es; now left|]. split; [now left|].
  assert (H : (match command_line some_machine ("x" :: spelled short_clash) with Some (_, s) => forallb (fun c => has "Short" (codec_name c)) (selected (s_args s)) | None => false end) = true) by (vm_compute; reflexivity).
  rewrite E, Es in H. cbn [forallb] in H. apply andb_true_iff in H. destruct H as [H _]. cbn [fits]. rewrite H. discriminate.
Qed.
Lemma selection_empty : exists m file l f s, Forall offered l /\ command_line m (file :: spelled l) = Some (f, s) /\ selected (s_args s) = [].
Proof.
  destruct (witness_file some_machine [OMode MExtreme; OMode MMmtf] eq_refl) as (f & s & E). exists some_machine, "x", [OMode MExtreme; OMode MMmtf], f, s.
  split; [repeat constructor|]. split; [exact E|].
  assert (H : (match command_line some_machine ("x" :: spelled [OMode MExtreme; OMode MMmtf]) with Some (_, s) => match selected (s_args s) with [] => true | _ => false end | None => false end) = true) by (vm_compute; reflexivity).
  rewrite E in H. destruct (selected (s_args s)); [reflexivity|discriminate].
Qed.
Lemma none_refuted : exists m file l f s s' i, Forall offered l /\ command_line m (file :: spelled l) = Some (f, s) /\
  List.In (OMaxSimd "none") l /\ choose s' (s_flags s) = Some i /\ level_of i > 0.
Proof.
  destruct (witness_file some_machine [OMaxSimd "none"] eq_refl) as (f & s & E). exists some_machine, "x", [OMaxSimd "none"], f, s, RleX_dec.
  assert (H : (match command_line some_machine ("x" :: spelled [OMaxSimd "none"]) with Some (_, s) => match choose RleX_dec (s_flags s) with Some ISse2 => true | _ => false end | None => false end) = true) by (vm_compute; reflexivity).
  rewrite E in H. exists ISse2. split; [repeat constructor|]. split; [exact E|]. split; [now left|]. split; [|reflexivity].
  destruct (choose RleX_dec (s_flags s)) as [[]|]; try discriminate. reflexivity.
Qed.
Lemma exclusive_refuted : exists m file l f s, Forall offered l /\ clash exclusive_also_short l /\ command_line m (file :: spelled l) = Some (f, s).
Proof.
  destruct (witness_file some_machine short_clash eq_refl) as (f & s & E). exists some_machine, "x", short_clash, f, s. split; [exact short_offered|]. split; [|exact E].
  exists [], (OShort false), [], OLowEntropyShort, []. split; [reflexivity|]. right. left. now exists false.
Qed.
Lemma values_refuted : exists m,
  (exists f s, command_line m ["x"; "--x-size"; "12"] = Some (f, s) /\ a_bits (s_args s) = 128) /\
  (exists f s, command_line m ["x"; "--runs"; "4294967296"] = Some (f, s) /\ s_runs s = 1) /\
  (exists f s, command_line m ["x"; "--runs"; "abc"] = Some (f, s) /\ s_runs s = 1).
Proof. exists some_machine. repeat split; do 2 eexists; (split; [vm_compute; reflexivity|reflexivity]). Qed.
Lemma map_injective {X Y} (f : X -> Y) l a b : NoDup (map f l) -> List.In a l -> List.In b l -> f a = f b -> a = b.
Proof.
  induction l as [|x l IH]; [intros _ []|]. cbn [map]. intros H. inversion H as [|? ? H1 H2]; subst. intros [->|Ha] [->|Hb] E; auto.
  - exfalso. apply H1. rewrite E. now apply in_map.
  - exfalso. apply H1. rewrite <- E. now apply in_map.
Qed.
Lemma names_injective c d : codec_name c = codec_name d -> c = d.
Proof. apply (map_injective codec_name all_codecs); [exact names_nodup|apply all_codecs_complete|apply all_codecs_complete]. Qed.
