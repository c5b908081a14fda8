(** Detection of CPU features: which implementation is chosen, also under concurrency. *)
From Verif Require Import Base Spec PlatModel PlatSpec.

Lemma bit_testbit x b : 0 <= b -> bit x b = Z.testbit x b.
Proof.
  intros Hb. unfold bit. assert (H : Z.land x (2 ^ b) = if Z.testbit x b then 2 ^ b else 0).
  { apply Z.bits_inj'. intros k Hk. rewrite Z.land_spec, Z.pow2_bits_eqb by lia.
    destruct (Z.eqb_spec b k) as [->|Hn].
    - rewrite andb_true_r. destruct (Z.testbit x k); [rewrite Z.pow2_bits_eqb by lia; symmetry; apply Z.eqb_refl|symmetry; apply Z.bits_0].
    - rewrite andb_false_r. destruct (Z.testbit x b); [rewrite Z.pow2_bits_eqb by lia; symmetry; now apply Z.eqb_neq|symmetry; apply Z.bits_0]. }
  rewrite H. destruct (Z.testbit x b); [|reflexivity]. pose proof (Z.pow_pos_nonneg 2 b ltac:(lia) Hb).
  replace (2 ^ b =? 0) with false by lia. reflexivity.
Qed.

(** *** Final value of the flags *)

Ltac flag_final m :=
  unfold detect, writes, all_off; cbn [app];
  destruct (1 <=? m_leaf0 m); destruct (7 <=? m_leaf0 m);
  try (destruct (bit (m_1c m) 27 && bit (m_1c m) 28));
  cbn; reflexivity.

Lemma final_avx512 m : detect m all_off FAvx512F = (7 <=? m_leaf0 m) && bit (m_7b m) 16.
Proof. flag_final m. Qed.
Lemma final_avx2 m : detect m all_off FAvx2 = (7 <=? m_leaf0 m) && bit (m_7b m) 5.
Proof. flag_final m. Qed.
Lemma final_avx m : detect m all_off FAvx =
  (1 <=? m_leaf0 m) && (bit (m_1c m) 27 && bit (m_1c m) 28 && negb (Z.land (m_xcr0 m) 6 =? 0)).
Proof.
  unfold detect, writes, all_off; cbn [app];
  destruct (1 <=? m_leaf0 m); destruct (7 <=? m_leaf0 m);
  destruct (bit (m_1c m) 27 && bit (m_1c m) 28); cbn; reflexivity.
Qed.
Lemma final_sse41 m : detect m all_off FSse41 = (1 <=? m_leaf0 m) && bit (m_1c m) 19.
Proof. flag_final m. Qed.
Lemma final_ssse3 m : detect m all_off FSsse3 = (1 <=? m_leaf0 m) && bit (m_1c m) 9.
Proof. flag_final m. Qed.
Lemma final_sse2 m : detect m all_off FSse2 = (1 <=? m_leaf0 m) && bit (m_1d m) 26.
Proof. flag_final m. Qed.

Lemma chosen_has m s i : x86_64 m -> choose s (detect m all_off) = Some i ->
  match i with
  | IAvx => has1c m 27 /\ has1c m 28
  | IAvx2 => has7b m 5
  | IAvx512 => has7b m 16
  | _ => executes m i
  end.
Proof.
  intros (HL & _ & Hs2 & _) H.
  assert (K : forall x : isa, Some x = Some i ->
    (x = IAvx512 -> (7 <=? m_leaf0 m) && Z.testbit (m_7b m) 16 = true) ->
    (x = IAvx2 -> (7 <=? m_leaf0 m) && Z.testbit (m_7b m) 5 = true) ->
    (x = IAvx -> (1 <=? m_leaf0 m) && (Z.testbit (m_1c m) 27 && Z.testbit (m_1c m) 28 && negb (Z.land (m_xcr0 m) 6 =? 0)) = true) ->
    (x = ISse41 -> (1 <=? m_leaf0 m) && Z.testbit (m_1c m) 19 = true) ->
    (x = ISsse3 -> (1 <=? m_leaf0 m) && Z.testbit (m_1c m) 9 = true) ->
    match i with
    | IAvx => has1c m 27 /\ has1c m 28
    | IAvx2 => has7b m 5
    | IAvx512 => has7b m 16
    | _ => executes m i
    end).
  { intros x [= ->] K1 K2 K3 K4 K5. destruct i; cbn [executes].
    - exact I.
    - exact Hs2.
    - specialize (K5 eq_refl). apply andb_true_iff in K5. split; [lia|apply K5].
    - specialize (K4 eq_refl). apply andb_true_iff in K4. split; [lia|apply K4].
    - specialize (K3 eq_refl). rewrite !andb_true_iff in K3. destruct K3 as [K3 [[K6 K7] _]]. split; split; first [lia|assumption].
    - specialize (K2 eq_refl). apply andb_true_iff in K2. split; [lia|apply K2].
    - specialize (K1 eq_refl). apply andb_true_iff in K1. split; [lia|apply K1]. }
  destruct s; cbn [choose] in H;
  rewrite ?final_avx512, ?final_avx2, ?final_avx, ?final_sse41, ?final_ssse3, ?final_sse2, ?bit_testbit in H by lia;
  repeat match type of H with
  | context [if ?b then _ else _] => let E := fresh "E" in destruct b eqn:E
  end; try discriminate H;
  (apply (K _ H); intros; try discriminate; try assumption;
   repeat match goal with E : _ && _ = true |- _ => apply andb_true_iff in E; destruct E end;
   repeat match goal with |- _ && _ = true => apply andb_true_iff; split end; first [reflexivity|assumption]).
Qed.

Lemma chosen_executes m s i : x86_64 m -> os_complete m -> choose s (detect m all_off) = Some i -> executes m i.
Proof.
  intros Hx [Ho1 Ho2] H. pose proof (chosen_has m s i Hx H) as K. destruct Hx as (_ & _ & _ & H5 & H16 & _).
  destruct i; try exact K.
  - destruct K as [_ K]. split; [exact K|]. now apply Ho1.
  - split; [|exact K]. split; [now apply H5|]. apply Ho1. now apply H5.
  - specialize (Ho2 K). pose proof (H16 K) as K2. pose proof (H5 K2) as K3. specialize (Ho1 K3).
    split; [split; [exact K3|exact Ho1]|]. split; [exact K2|]. split; [exact K|exact Ho2].
Qed.

Lemma chosen_sse m s i : x86_64 m -> choose s (detect m all_off) = Some i ->
  i <> IAvx -> i <> IAvx2 -> i <> IAvx512 -> executes m i.
Proof. intros Hx H N1 N2 N3. pose proof (chosen_has m s i Hx H). destruct i; congruence || assumption. Qed.

Lemma chosen_some m s : x86_64 m -> choose s (detect m all_off) <> None.
Proof.
  intros (HL & _ & [_ H] & _). assert (K : detect m all_off FSse2 = true).
  { rewrite final_sse2, bit_testbit, H by lia. replace (1 <=? m_leaf0 m) with true by lia. reflexivity. }
  destruct s; cbn [choose]; rewrite ?K; discriminate.
Qed.

(** *** Machines on which an instruction set is used that the operating system has not enabled *)

(** A processor with AVX, AVX2 or AVX-512; the operating system enables [xcr0] only. *)
Definition avx_machine (leaf7b xcr0 : Z) : machine :=
  mkMachine 13 (2 ^ 0 + 2 ^ 9 + 2 ^ 19 + 2 ^ 20 + 2 ^ 27 + 2 ^ 28) (2 ^ 25 + 2 ^ 26) leaf7b 0 0 xcr0.

Lemma not_executed i : List.In i [IAvx; IAvx2; IAvx512] ->
  exists m s, x86_64 m /\ choose s (detect m all_off) = Some i /\ ~ executes m i.
Proof.
  assert (HX : forall b x, (b, x) = (0, 3) \/ (b, x) = (2 ^ 5, 3) \/ (b, x) = (2 ^ 5 + 2 ^ 16, 7) -> x86_64 (avx_machine b x)).
  { intros b x [[= -> ->]|[[= -> ->]|[= -> ->]]]; unfold x86_64, has1c, has1d, has7b; cbn; repeat split; intros; try lia; try discriminate; reflexivity. }
  intros [<-|[<-|[<-|[]]]].
  - exists (avx_machine 0 3), RleX_dec. split; [apply HX; auto|]. split; [reflexivity|]. intros (_ & _ & [_ H]). discriminate H.
  - exists (avx_machine (2 ^ 5) 3), RleX_dec. split; [apply HX; auto|]. split; [reflexivity|]. intros ((_ & _ & [_ H]) & _). discriminate H.
  - exists (avx_machine (2 ^ 5 + 2 ^ 16) 7), RleX_dec. split; [apply HX; auto|]. split; [reflexivity|]. intros (_ & _ & _ & [_ H] & _). discriminate H.
Qed.

(** *** Threads *)

Lemma writes_final m pre f b post : writes m = pre ++ (f, b) :: post -> b = detect m all_off f.
Proof.
  intros H. assert (Hin : List.In (f, b) (writes m)) by (rewrite H; apply in_elt).
  assert (K : forallb (fun '(g, v) => Bool.eqb v (detect m all_off g)) (writes m) = true).
  { unfold detect, writes, all_off.
    destruct (1 <=? m_leaf0 m); destruct (7 <=? m_leaf0 m);
    try destruct (bit (m_1c m) 27 && bit (m_1c m) 28); cbn; rewrite ?Bool.eqb_reflx; reflexivity. }
  rewrite forallb_forall in K. specialize (K _ Hin). cbn in K. now apply Bool.eqb_prop in K.
Qed.

(** The writes still to be done when [_CpuFeaturesDetected] is written are none. *)
Lemma detected_last m pre b post : writes m = pre ++ (FDetected, b) :: post -> post = [].
Proof.
  intros H. assert (K : exists l, writes m = l ++ [(FDetected, true)] /\ forall b, ~ List.In (FDetected, b) l).
  { unfold writes. rewrite app_assoc. eexists. split; [reflexivity|]. intros b0 Hin.
    assert (Hf : existsb (fun x => if flag_eq (fst x) FDetected then true else false)
      ((if 1 <=? m_leaf0 m then
     (if bit (m_1c m) 27 && bit (m_1c m) 28 then [(FAvx, negb (Z.land (m_xcr0 m) 6 =? 0))] else []) ++
     [(FSse, bit (m_1d m) 25); (FSse2, bit (m_1d m) 26); (FSse3, bit (m_1c m) 0); (FSsse3, bit (m_1c m) 9);
      (FSse41, bit (m_1c m) 19); (FSse42, bit (m_1c m) 20); (FFma3, bit (m_1c m) 12); (FAesNi, bit (m_1c m) 25)]
   else []) ++
  (if 7 <=? m_leaf0 m then
     [(FAvx2, bit (m_7b m) 5); (FAvx512F, bit (m_7b m) 16); (FAvx512PF, bit (m_7b m) 26); (FAvx512ER, bit (m_7b m) 27);
      (FAvx512CD, bit (m_7b m) 28); (FAvx512BW, bit (m_7b m) 30); (FAvx512DQ, bit (m_7b m) 17); (FAvx512VL, bit (m_7b m) 31);
      (FAvx512IFMA, bit (m_7b m) 21); (FAvx512VBMI, bit (m_7c m) 1); (FAvx512VNNI, bit (m_7c m) 11);
      (FAvx512VBMI2, bit (m_7c m) 6); (FAvx512POPCNTDQ, bit (m_7c m) 14); (FAvx512BITALG, bit (m_7c m) 12);
      (FAvx5124VNNIW, bit (m_7d m) 2); (FAvx5124FMAPS, bit (m_7d m) 3)]
   else [])) = true).
    { apply existsb_exists. exists (FDetected, b0). split; [exact Hin|reflexivity]. }
    destruct (1 <=? m_leaf0 m); destruct (7 <=? m_leaf0 m); try destruct (bit (m_1c m) 27 && bit (m_1c m) 28); discriminate Hf. }
  destruct K as (l & K & Hn). rewrite K in H. clear K.
  destruct post as [|x post] using rev_ind; [reflexivity|exfalso].
  rewrite app_comm_cons, app_assoc in H. apply app_inj_tail in H. destruct H as [H _].
  apply (Hn b). rewrite H. apply in_elt.
Qed.

(** A flag that is not written keeps its initial value, which is the final one. *)
Lemma detect_unwritten m f : ~ List.In f (map fst (writes m)) -> detect m all_off f = false.
Proof.
  unfold detect. cbn [all_off]. intros H.
  assert (K : forall l st, ~ List.In f (map fst l) -> fold_left (fun st '(f, b) => set_flag st f b) l st f = st f).
  { clear H. induction l as [|[g b] l IH]; intros st H; cbn [fold_left]; [reflexivity|].
    cbn [map fst] in H. rewrite IH by (intros Hc; apply H; now right). unfold set_flag.
    destruct (flag_eq f g) as [->|_]; [exfalso; apply H; now left|reflexivity]. }
  now apply K.
Qed.

(** Invariant: a thread that is running has its completed writes in the flags; a flag is off or final; if
    the flag "detected" is on or a thread is done then all flags are final. *)
Definition SysInv (m : machine) (s : system) : Prop :=
  let '(st, ts) := s in
  (forall f, st f = false \/ st f = detect m all_off f) /\
  (forall i todo, ts i = TRun todo -> exists pre, writes m = pre ++ todo /\ forall f, List.In f (map fst pre) -> st f = detect m all_off f) /\
  (st FDetected = true \/ (exists i, ts i = TDone) -> forall f, st f = detect m all_off f).

Lemma set_final m (st : flags) f b : b = detect m all_off f -> st f = detect m all_off f -> forall g, set_flag st f b g = st g.
Proof. intros -> H g. unfold set_flag. destruct (flag_eq g f) as [->|_]; congruence. Qed.

Lemma all_written m (st : flags) : (forall f, st f = false \/ st f = detect m all_off f) ->
  (forall f, List.In f (map fst (writes m)) -> st f = detect m all_off f) -> forall f, st f = detect m all_off f.
Proof.
  intros H1 H2 f. destruct (in_dec flag_eq f (map fst (writes m))) as [Hin|Hn]; [now apply H2|].
  rewrite (detect_unwritten m f Hn). destruct (H1 f) as [H|H]; [exact H|]. now rewrite detect_unwritten in H.
Qed.

Lemma sys_step_inv m s i : SysInv m s -> SysInv m (sys_step m s i).
Proof.
  destruct s as [st ts]. intros (H1 & H2 & H3). unfold sys_step.
  destruct (ts i) as [|todo|] eqn:Ei; cbn [thread_step].
  - destruct (st FDetected) eqn:ED.
    + split; [exact H1|]. split; [|intros _; apply H3; now left].
      intros j todo Hj. destruct (Nat.eqb_spec j i) as [->|_]; [discriminate|]. now apply (H2 j).
    + split; [exact H1|]. split.
      * intros j todo Hj. destruct (Nat.eqb_spec j i) as [->|_].
        -- injection Hj as <-. exists []. split; [reflexivity|]. intros f [].
        -- now apply (H2 j).
      * intros [Hd|[j Hj]]; [congruence|]. destruct (Nat.eqb j i); [discriminate|].
        apply H3. right. now exists j.
  - destruct todo as [|[f b] todo]; cbn [thread_step].
    + destruct (H2 i [] Ei) as (pre & Hw & Hp). rewrite app_nil_r in Hw. subst pre.
      split; [exact H1|]. split.
      * intros j todo Hj. destruct (Nat.eqb_spec j i) as [->|_]; [discriminate|]. now apply (H2 j).
      * intros _. now apply all_written.
    + destruct (H2 i _ Ei) as (pre & Hw & Hp). pose proof (writes_final m pre f b todo Hw) as Hb.
      assert (G1 : forall g, set_flag st f b g = false \/ set_flag st f b g = detect m all_off g).
      { intros g. unfold set_flag. destruct (flag_eq g f) as [->|_]; [now right|apply H1]. }
      assert (G2 : forall g, st g = detect m all_off g -> set_flag st f b g = detect m all_off g).
      { intros g Hg. unfold set_flag. destruct (flag_eq g f) as [->|_]; [exact Hb|exact Hg]. }
      assert (G3 : set_flag st f b f = detect m all_off f).
      { unfold set_flag. destruct (flag_eq f f); [exact Hb|congruence]. }
      split; [exact G1|]. split.
      * intros j t Hj. destruct (Nat.eqb_spec j i) as [->|_].
        -- injection Hj as <-. exists (pre ++ [(f, b)]). split; [now rewrite <- app_assoc|].
           intros g Hg. rewrite map_app, in_app_iff in Hg. destruct Hg as [Hg|[<-|[]]]; [apply G2, Hp, Hg|exact G3].
        -- destruct (H2 j t Hj) as (pre' & Hw' & Hp'). exists pre'. split; [exact Hw'|]. intros g Hg. apply G2. now apply Hp'.
      * intros Hd. destruct (flag_eq f FDetected) as [->|Hf].
        -- pose proof (detected_last m pre b todo Hw). subst todo. apply (all_written m); [exact G1|].
           intros g Hg. rewrite Hw, map_app, in_app_iff in Hg. destruct Hg as [Hg|[<-|[]]]; [apply G2, Hp, Hg|exact G3].
        -- intros g. apply G2. apply H3. destruct Hd as [Hd|[j Hj]].
           ++ left. unfold set_flag in Hd. destruct (flag_eq FDetected f); congruence.
           ++ right. destruct (Nat.eqb j i); [discriminate|]. now exists j.
  - split; [exact H1|]. split.
    + intros j todo Hj. destruct (Nat.eqb_spec j i) as [->|_]; [discriminate|]. now apply (H2 j).
    + intros _. apply H3. right. now exists i.
Qed.

Lemma fold_inv m sched : forall s, SysInv m s -> SysInv m (fold_left (sys_step m) sched s).
Proof. induction sched as [|i sched IH]; intros s H; cbn [fold_left]; [exact H|]. apply IH. now apply sys_step_inv. Qed.

Lemma run_inv m sched : SysInv m (run m sched).
Proof.
  apply fold_inv. split; [now left|]. split; [intros i todo H; discriminate H|]. intros [H|[i H]]; discriminate H.
Qed.

Lemma done_final m sched i : snd (run m sched) i = TDone -> forall f, fst (run m sched) f = detect m all_off f.
Proof.
  intros H f. pose proof (run_inv m sched) as K. destruct (run m sched) as [st ts]. cbn [fst snd] in *.
  apply K. right. now exists i.
Qed.

Lemma done_choice m sched i s : snd (run m sched) i = TDone -> choose s (fst (run m sched)) = choose s (detect m all_off).
Proof. intros H. pose proof (done_final m sched i H) as K. destruct s; cbn [choose]; rewrite ?K; reflexivity. Qed.

(** Steps a thread still needs. *)
Definition need (m : machine) (t : thread) : nat :=
  match t with TNew => 2 + length (writes m) | TRun todo => 1 + length todo | TDone => 0 end.

Lemma step_need m s i j : (need m (snd (sys_step m s i) j) <= need m (snd s j) - (if Nat.eqb j i then 1 else 0))%nat.
Proof.
  destruct s as [st ts]. unfold sys_step. destruct (thread_step m st (ts i)) as [st' t'] eqn:E. cbn [snd].
  destruct (Nat.eqb_spec j i) as [->|_]; [|lia].
  destruct (ts i) as [|[|[f b] todo]|]; cbn [thread_step] in E; [destruct (st FDetected)| | |]; injection E as <- <-; cbn [need length]; lia.
Qed.

Lemma fold_need m i sched : forall s,
  (need m (snd (fold_left (sys_step m) sched s) i) <= need m (snd s i) - count_occ Nat.eq_dec sched i)%nat.
Proof.
  induction sched as [|j sched IH]; intros s; cbn [fold_left count_occ]; [lia|].
  specialize (IH (sys_step m s j)). pose proof (step_need m s j i).
  destruct (Nat.eq_dec j i) as [->|Hn].
  - rewrite Nat.eqb_refl in *. lia.
  - destruct (Nat.eqb_spec i j); [congruence|]. lia.
Qed.

Lemma writes_short m : (length (writes m) <= 26)%nat.
Proof.
  unfold writes. destruct (1 <=? m_leaf0 m); destruct (7 <=? m_leaf0 m); try destruct (bit (m_1c m) 27 && bit (m_1c m) 28); cbn; lia.
Qed.

Lemma run_done m sched i : (28 <= count_occ Nat.eq_dec sched i)%nat -> snd (run m sched) i = TDone.
Proof.
  intros H. pose proof (fold_need m i sched (all_off, fun _ => TNew)) as K. pose proof (writes_short m). cbn [snd need] in K.
  fold (run m sched) in K. destruct (snd (run m sched) i); cbn [need] in K; [lia|lia|reflexivity].
Qed.
