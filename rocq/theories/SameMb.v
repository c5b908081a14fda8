(** The search of the multi-byte encoders finds the same runs at every CPU level: every iteration
    of a vectorised encoder is a sequence of iterations of the scalar one. *)
From Verif Require Import Base Simd Spec ExtModel ExtDec ExtEnc MbModel.

(** *** Steps *)
Section Reach.
  Context {S R : Type} (step : S -> S + R).

  Inductive Reach : S -> S -> Prop :=
  | Reach_nil s : Reach s s
  | Reach_cons s s1 s' : step s = inl s1 -> Reach s1 s' -> Reach s s'.

  Lemma reach_trans s1 s2 s3 : Reach s1 s2 -> Reach s2 s3 -> Reach s1 s3.
  Proof. induction 1; [auto|]. intros H'. econstructor; eauto. Qed.
  Lemma reach_one s s' : step s = inl s' -> Reach s s'.
  Proof. intros H. econstructor; [exact H|constructor]. Qed.
  Lemma reach_snoc s s1 s2 : Reach s s1 -> step s1 = inl s2 -> Reach s s2.
  Proof. intros H1 H2. eapply reach_trans; [exact H1|]. now apply reach_one. Qed.

  Lemma iter_reach d : forall s, match iter d step s with
    | inl s' => Reach s s'
    | inr r => exists s', Reach s s' /\ step s' = inr r
    end.
  Proof.
    induction d as [|d IH]; intros s; cbn [iter].
    - destruct (step s) eqn:E; [now apply reach_one|]. exists s. split; [constructor|exact E].
    - pose proof (IH s) as H. destruct (iter d step s) as [s1|r]; [|exact H].
      pose proof (IH s1) as H1. destruct (iter d step s1) as [s2|r]; [eapply reach_trans; eauto|].
      destruct H1 as (s' & A & B). exists s'. split; [eapply reach_trans; eauto|exact B].
  Qed.

  Lemma reach_halt s s1 r1 s2 r2 : Reach s s1 -> step s1 = inr r1 -> Reach s s2 -> step s2 = inr r2 -> r1 = r2.
  Proof.
    induction 1 as [s|s t s1 E H IH]; intros H1 H2 E2.
    - destruct H2 as [s|s t s2 E H]; congruence.
    - inversion H2 as [x|x t' s2' E' H']; subst; [congruence|]. rewrite E in E'. injection E' as <-. auto.
  Qed.

  (** A loop that ends, ends as any other way of following the steps. *)
  Lemma loop_reach s s' r r' : loop step s = Some r -> Reach s s' -> step s' = inr r' -> r = r'.
  Proof.
    unfold loop. pose proof (iter_reach 64 s) as H. destruct (iter 64 step s) as [s1|r1]; [discriminate|].
    intros [= ->] HR E. destruct H as (s2 & A & B). exact (reach_halt s s2 r s' r' A B HR E).
  Qed.

  Lemma loop_halts s r : loop step s = Some r -> exists s', Reach s s' /\ step s' = inr r.
  Proof.
    unfold loop. pose proof (iter_reach 64 s) as H. destruct (iter 64 step s) as [s1|r1]; [discriminate|].
    intros [= ->]. exact H.
  Qed.
End Reach.

(** *** Masks *)

Lemma fold_mask_complete S W f j : okS S -> S <> 16 -> 0 <= j -> j + S <= W ->
  (forall k, 0 <= k < S -> f (j + k) = true) -> fold_mask S (mask W f) j = true.
Proof.
  intros HS H16 Hj HW Hf.
  assert (K : forall k, 0 <= k < S -> mask W f (j + k) = true).
  { intros k Hk. unfold mask. rewrite Hf by exact Hk. replace (0 <=? j + k) with true by lia. replace (j + k <? W) with true by lia. reflexivity. }
  unfold okS in HS. unfold fold_mask, mand, mshr.
  repeat destruct HS as [HS|HS]; subst S; try lia; cbn [Z.eqb Pos.eqb];
    pose proof (K 0 ltac:(lia)) as K0; replace (j + 0) with j in K0 by lia;
    repeat match goal with |- _ && _ = true => apply andb_true_iff; split end;
    repeat rewrite <- Z.add_assoc; cbn [Z.add Pos.add Pos.succ]; first [exact K0 | apply K; lia].
Qed.

Lemma align_bit_eq S b : okS S -> S <> 16 -> 0 <= b < 32 -> align_bit S b = b / S * S.
Proof.
  intros HS H16 Hb.
  assert (K : forall S, forallb (fun k => align_bit S (Z.of_nat k) =? Z.of_nat k / S * S) (seq 0 32) = true -> align_bit S b = b / S * S).
  { intros S0 H. rewrite forallb_forall in H. specialize (H (Z.to_nat b)). rewrite Z2Nat.id in H by lia. apply Z.eqb_eq, H, in_seq. lia. }
  apply K. unfold okS in HS. repeat destruct HS as [HS|HS]; subst S; try lia; vm_compute; reflexivity.
Qed.

Lemma lead_is f W b : 0 <= b < W -> (forall k, 0 <= k < b -> f k = true) -> f b = false -> lead f W = b.
Proof.
  intros Hb H1 H2. destruct (lead_spec f W) as (L1 & L2 & L3); [lia|].
  destruct (Z_lt_ge_dec (lead f W) b) as [H|H].
  - rewrite H1 in L3 by lia. discriminate L3. lia.
  - destruct (Z.eq_dec (lead f W) b) as [|N]; [assumption|]. rewrite L2 in H2 by lia. discriminate.
Qed.

(** *** The simulation *)
Section Sim.
  Context {A : Type} (proc : procM A) (S : Z) (unb : bool) (In : mem) (n : Z).
  Hypothesis HS : okS S.
  Hypothesis H16 : S <> 16.
  Hypothesis Hn : n < 2 ^ 62.
  Hypothesis Hproc : forall i sym last a, proc In i 0 sym last a = None.

  Let c := mcfg S unb.
  Notation bstep := (mb_step proc S unb Base_ In n).

  Definition st (i count : Z) (sym : list Z) (last : Z) (a : A) (out : list Z) : estm A := mkM i count sym last a out false.
  Definition ng (s : estm A) : estm A := st (m_i s) (m_count s) (m_sym s) (m_last s) (m_aux s) (m_out s).

  Lemma S_small : 2 <= S <= 8.
  Proof. pose proof (okS_pos _ HS). unfold okS in HS. lia. Qed.

  Lemma bstep_go i count sym last a out i' count' : i < n -> scalar_step c In n i count sym = inl (i', count') ->
    bstep (st i count sym last a out) = inl (st i' count' sym last a out).
  Proof.
    intros Hi E. unfold mb_step, st. cbn [m_i m_goto m_count m_sym m_last phase1 e_i e_count].
    replace (i <? n) with true by lia. cbn [orb]. fold c. rewrite E. reflexivity.
  Qed.
  Lemma bstep_second i count sym last a out i' count' : i < n -> scalar_step c In n i count sym = inr (i', count') ->
    bstep (st i count sym last a out) = inl (next_runM S In n (emitM proc In (st i' count' sym last a out)) i' false).
  Proof.
    intros Hi E. unfold mb_step, st. cbn [m_i m_goto m_count m_sym m_last phase1 e_i e_count].
    replace (i <? n) with true by lia. cbn [orb]. fold c. rewrite E. unfold mb_second. cbn [scan]. reflexivity.
  Qed.

  Lemma load_periodic i sym : len sym = S -> (forall j, 0 <= j < S -> In (i + j) = symbyte sym j) -> load In S i = sym.
  Proof.
    intros Hl H. pose proof S_small. unfold load. apply (nth_ext _ _ 0 0).
    - apply Nat2Z.inj. change (len (slice In i S) = len sym). rewrite len_slice; lia.
    - intros k Hk. assert (Hk' : 0 <= Z.of_nat k < S).
      { split; [lia|]. assert (E : len (slice In i S) = S) by (apply len_slice; lia). unfold len in E. lia. }
      pose proof (nth_slice In i S (Z.of_nat k) Hk') as E. rewrite Nat2Z.id in E. rewrite E, H by lia. unfold symbyte. now rewrite Nat2Z.id.
  Qed.

  Lemma reach_blocks sym last a out : len sym = S -> forall (k : nat) i count, 0 < count -> i + Z.of_nat k * S <= n ->
    (forall j, 0 <= j < Z.of_nat k * S -> In (i + j) = symbyte sym (j mod S)) ->
    Reach bstep (st i count sym last a out) (st (i + Z.of_nat k * S) (count + Z.of_nat k * S) sym last a out).
  Proof.
    intros Hl. pose proof S_small as HS2. induction k as [|k IH]; intros i count Hc Hi H.
    - rewrite Nat2Z.inj_0, Z.mul_0_l, !Z.add_0_r. constructor.
    - rewrite Nat2Z.inj_succ in *. apply (Reach_cons _ _ (st (i + S) (count + S) sym last a out)).
      + apply bstep_go; [nia|]. unfold scalar_step. replace (count =? 0) with false by lia. cbn [negb].
        change (xS c) with S. replace (i + S <=? n) with true by nia. rewrite (load_periodic i sym Hl).
        * now rewrite (proj2 (eqb_bytes_eq sym sym) eq_refl).
        * intros j Hj. rewrite H by nia. now rewrite Z.mod_small by lia.
      + replace (i + Z.succ (Z.of_nat k) * S) with (i + S + Z.of_nat k * S) by lia.
        replace (count + Z.succ (Z.of_nat k) * S) with (count + S + Z.of_nat k * S) by lia.
        apply IH; [lia|lia|]. intros j Hj. replace (i + S + j) with (i + (j + S)) by lia. rewrite H by lia.
        replace (j + S) with (j + 1 * S) by lia. rewrite Z.mod_add by lia. reflexivity.
  Qed.

  Variable v : simd.
  Let W := simdW v.
  Lemma W_big : 16 <= W <= 32.
  Proof. subst W. destruct v; cbn; lia. Qed.

  (** First loop. *)
  Lemma phase1_sim s : v <> Base_ -> len (m_sym s) = S -> 0 <= m_count s -> 0 <= m_i s < n ->
    (m_count s = 0 -> (m_i s = 0 /\ In 0 <> symbyte (m_sym s) 0) \/ n - W - S <= m_i s) ->
    exists a, phase1 c v In n (mkE (m_i s) (m_count s) (m_sym s) (m_last s) [] [] false) = Some a /\
    match a with
    | Fall i1 c1 => Reach bstep (ng s) (st i1 c1 (m_sym s) (m_last s) (m_aux s) (m_out s)) /\ m_i s <= i1 < n /\
        0 <= c1 /\ (c1 = 0 -> n - W - S <= i1)
    | Second i2 c2 => exists i1 c1, Reach bstep (ng s) (st i1 c1 (m_sym s) (m_last s) (m_aux s) (m_out s)) /\
        scalar_step c In n i1 c1 (m_sym s) = inr (i2, c2) /\ m_i s <= i1 < n /\ i1 <= i2 < n
    end.
  Proof.
    intros Hv Hl Hc Hi Hz. pose proof S_small as HS2. pose proof W_big as HW.
    replace (phase1 c v In n (mkE (m_i s) (m_count s) (m_sym s) (m_last s) [] [] false))
      with (loop (match_step c v In n (enc_vec S v (m_sym s))) (m_i s, m_count s)) by (destruct v; [congruence|reflexivity..]).
    assert (HV : forall j, 0 <= j < W -> symbyte (enc_vec S v (m_sym s)) j = symbyte (m_sym s) (j mod S)).
    { intros j Hj. now apply enc_vec_spec. }
    destruct (Z.eq_dec (m_count s) 0) as [E0|E0].
    - (* count 0: no match is possible *)
      apply (loop_inv _ (fun x => x = (m_i s, m_count s)) (fun _ => 0)); [|reflexivity|lia].
      intros [i count] [= -> ->]. unfold match_step. fold W. change (xS c) with S. destruct (m_i s <? n - W - S) eqn:Ei.
      + destruct (Hz E0) as [[Z0 Z1]|Z0]; [|lia]. rewrite HV by lia. rewrite Z.mod_0_l, Z.add_0_r by lia. rewrite Z0.
        replace (In 0 =? symbyte (m_sym s) 0) with false by (symmetry; now apply Z.eqb_neq).
        exists (m_i s), (m_count s). split; [constructor|]. rewrite Z0, E0. split; [reflexivity|]. lia.
      + split; [constructor|]. lia.
    - apply (loop_inv _ (fun '(i, count) => Reach bstep (ng s) (st i count (m_sym s) (m_last s) (m_aux s) (m_out s)) /\ 0 < count /\ m_i s <= i < n)
        (fun '(i, count) => n - i)).
      2:{ split; [constructor|lia]. }
      2:{ lia. }
      intros [i count] (HR & Hcnt & Hir). unfold match_step. fold W. change (xS c) with S. destruct (i <? n - W - S) eqn:Ei.
      2:{ split; [exact HR|]. lia. }
      cbv zeta. set (f := fun j => In (i + j) =? symbyte (enc_vec S v (m_sym s)) j).
      change (In (i + 0) =? symbyte (enc_vec S v (m_sym s)) 0) with (f 0).
      assert (Hf : forall j, 0 <= j < W -> f j = true -> In (i + j) = symbyte (m_sym s) (j mod S)).
      { intros j Hj E. apply Z.eqb_eq in E. now rewrite E, HV by exact Hj. }
      destruct (lead_spec f W) as (L1 & L2 & L3); [lia|]. set (b := lead f W) in *.
      assert (Stop : b < W -> forall b', b' = (if unb then b else b / S * S) ->
        exists i1 c1, Reach bstep (ng s) (st i1 c1 (m_sym s) (m_last s) (m_aux s) (m_out s)) /\
          scalar_step c In n i1 c1 (m_sym s) = inr (i + b', count + b') /\ m_i s <= i1 < n /\ i1 <= i + b' < n).
      { intros Hb b' Eb'. assert (D : b = b / S * S + b mod S) by (rewrite Z.mul_comm; apply Z.div_mod; lia).
        pose proof (Z.mod_pos_bound b S ltac:(lia)) as M1. pose proof (Z.div_pos b S ltac:(lia) ltac:(lia)) as M2.
        set (q := b / S) in *. set (r := b mod S) in *. clearbody q r.
        exists (i + q * S), (count + q * S). split; [|split].
        - eapply reach_trans; [exact HR|]. replace q with (Z.of_nat (Z.to_nat q)) by lia.
          apply reach_blocks; [exact Hl|lia|rewrite Z2Nat.id by lia; nia|]. rewrite Z2Nat.id by lia. intros j Hj.
          apply Hf; [lia|]. apply L2. lia.
        - unfold scalar_step. replace (count + q * S =? 0) with false by nia. cbn [negb]. change (xS c) with S. change (xUnb c) with unb.
          replace (i + q * S + S <=? n) with true by nia.
          assert (Hr : In (i + q * S + r) =? symbyte (m_sym s) r = false).
          { replace (i + q * S + r) with (i + b) by lia. specialize (L3 Hb). unfold f in L3. rewrite HV in L3 by lia.
            replace (b mod S) with r in L3; [exact L3|]. rewrite D, Z.add_comm, Z.mod_add, Z.mod_small; lia. }
          destruct (eqb_bytes (load In S (i + q * S)) (m_sym s)) eqn:EE.
          { exfalso. apply eqb_bytes_load with (j := r) in EE; [|lia|lia]. rewrite EE, Z.eqb_refl in Hr. discriminate. }
          destruct unb.
          + rewrite (lead_is _ S r); [|lia| |exact Hr].
            * rewrite Eb'. f_equal. f_equal; lia.
            * intros j Hj. apply Z.eqb_eq. replace (i + q * S + j) with (i + (q * S + j)) by lia. rewrite Hf; [|lia|apply L2; lia].
              rewrite Z.add_comm, Z.mod_add, Z.mod_small by lia. reflexivity.
          + rewrite Eb'. reflexivity.
        - assert (P : 0 <= q * S) by (apply Z.mul_nonneg_nonneg; lia). clear - P D M1 Hb Eb' Ei Hir HW HS2 L1. destruct unb; lia. }
      destruct (f 0) eqn:F0.
      + destruct (b =? W) eqn:EW.
        * (* the whole vector matches *)
          assert (D : W - W mod S = W / S * S) by (pose proof (Z.div_mod W S ltac:(lia)); lia).
          pose proof (Z.mod_pos_bound W S ltac:(lia)) as M1. pose proof (Z.div_pos W S ltac:(lia) ltac:(lia)) as M2.
          set (r := W mod S) in *. set (q := W / S) in *. clearbody q r.
          cbv beta iota. split; [|clear - M1 HW HS2 Ei; lia]. split; [|clear - M1 HW HS2 Ei Hcnt Hir; lia]. eapply reach_trans; [exact HR|]. rewrite D.
          replace q with (Z.of_nat (Z.to_nat q)) by (clear - M2; lia).
          apply reach_blocks; [exact Hl|exact Hcnt|clear - M2 M1 D Ei HS2; rewrite Z2Nat.id by lia; lia|].
          intros j Hj. rewrite Z2Nat.id in Hj by (clear - M2; lia). apply Hf; [clear - Hj M1 D; lia|]. apply L2. clear - Hj M1 D EW; lia.
        * change (xUnb c) with unb. apply Stop; [lia|]. destruct unb; [reflexivity|]. apply align_bit_eq; try assumption. lia.
      + assert (B0 : b = 0). { destruct (Z.eq_dec b 0) as [|N]; [assumption|]. rewrite L2 in F0 by lia. discriminate. }
        destruct (Stop ltac:(lia) 0) as (i1 & c1 & X1 & X2 & X3). { rewrite B0. rewrite Z.div_0_l by lia. destruct unb; reflexivity. }
        rewrite (Z.add_0_r i), (Z.add_0_r count) in X2. rewrite (Z.add_0_r i) in X3. exists i1, c1. split; [exact X1|]. split; [exact X2|]. clear - X3. lia.
  Qed.

  (** Search. *)
  Lemma cand_step s k : (k + S <=? n) && eqb_bytes (load In S (k + S)) (load In S k) = false -> k + 1 < n ->
    bstep (next_runM S In n s k false) = inl (next_runM S In n s (k + 1) false).
  Proof.
    intros E Hk. unfold next_runM at 1. rewrite E. change (mkM (k + 1) 0 (load In S k) (m_last s) (m_aux s) (m_out s) false)
      with (st (k + 1) 0 (load In S k) (m_last s) (m_aux s) (m_out s)).
    rewrite (bstep_second _ _ _ _ _ _ (k + 1) 0) by (try reflexivity; lia). unfold emitM, st. cbn [m_i m_count m_sym m_last m_aux].
    rewrite Hproc. reflexivity.
  Qed.

  Lemma reach_cands s k0 : forall (d : nat), k0 + Z.of_nat d < n \/ d = 0%nat ->
    (forall k, k0 <= k < k0 + Z.of_nat d -> load In S (k + S) <> load In S k) ->
    Reach bstep (next_runM S In n s k0 false) (next_runM S In n s (k0 + Z.of_nat d) false).
  Proof.
    induction d as [|d IH]; intros Hd H.
    - rewrite Z.add_0_r. constructor.
    - eapply reach_snoc; [apply IH|].
      + lia.
      + intros k Hk. apply H. lia.
      + replace (k0 + Z.of_nat (Datatypes.S d)) with (k0 + Z.of_nat d + 1) by lia. apply cand_step; [|lia].
        destruct (eqb_bytes _ _) eqn:E; [|now rewrite andb_false_r]. apply eqb_bytes_eq in E. exfalso. revert E. apply H. lia.
  Qed.

  Lemma scan_sim s i : v <> Base_ -> 0 <= i < n ->
    exists i' found, scan c v In n i = Some (i', found) /\ i <= i' < n /\
      Reach bstep (next_runM S In n s i false) (ng (next_runM S In n s i' found)) /\
      (found = false -> n - W - S <= i') /\ (found = true -> i' + S * 2 < n).
  Proof.
    intros Hv Hi. pose proof S_small as HS2. pose proof W_big as HW.
    replace (scan c v In n i) with (loop (scan_step c v In n) i) by (destruct v; [congruence|reflexivity..]).
    destruct (loop_inv (scan_step c v In n) (fun i' => i <= i' < n /\ Reach bstep (next_runM S In n s i false) (next_runM S In n s i' false))
      (fun i' => n - i') (fun '(i', found) => i <= i' < n /\ Reach bstep (next_runM S In n s i false) (ng (next_runM S In n s i' found)) /\
      (found = false -> n - W - S <= i') /\ (found = true -> i' + S * 2 < n)) i) as ([i' found] & E & H).
    - intros k (Hk & HR). unfold scan_step. fold W. change (xS c) with S. destruct (k <? n - W - S) eqn:Ek.
      2:{ split; [lia|]. split; [|lia]. replace (ng (next_runM S In n s k false)) with (next_runM S In n s k false); [exact HR|].
          unfold next_runM. destruct (_ && _); reflexivity. }
      set (m := fold_mask S (mask W (fun j => In (k + j) =? In (k + S + j)))).
      destruct (lead_spec (fun j => negb (m j)) W) as (L1 & L2 & L3); [lia|]. set (b := lead (fun j => negb (m j)) W) in *.
      assert (NM : forall j, 0 <= j < b -> j + S <= W -> load In S (k + j + S) <> load In S (k + j)).
      { intros j Hj HjW E. specialize (L2 j Hj). apply negb_true_iff in L2. unfold m in L2. rewrite fold_mask_complete in L2; [discriminate|assumption..|lia|lia|].
        intros t Ht. apply Z.eqb_eq. pose proof (f_equal (fun l => symbyte l t) E) as E'. cbv beta in E'. rewrite !symbyte_load in E' by lia.
        replace (k + (j + t)) with (k + j + t) by lia. replace (k + S + (j + t)) with (k + j + S + t) by lia. congruence. }
      assert (G : forall d, 0 <= d <= b -> d + S <= W + 0 -> Reach bstep (next_runM S In n s i false) (next_runM S In n s (k + d) false)).
      { intros d Hd1 Hd2. eapply reach_trans; [exact HR|]. replace d with (Z.of_nat (Z.to_nat d)) by lia. apply reach_cands; [lia|].
        intros t Ht. replace t with (k + (t - k)) by lia. apply NM; lia. }
      destruct (b =? W) eqn:EW.
      + split; [|lia]. split; [lia|]. apply G; lia.
      + specialize (L3 ltac:(lia)). apply negb_false_iff in L3. unfold m in L3.
        pose proof (fold_mask_sound S W _ b HS H16 L3) as K. pose proof (K (S - 1) ltac:(lia)) as [KW _].
        split; [lia|]. split; [|split; [discriminate|]].
        * specialize (G b ltac:(lia) ltac:(lia)). replace (ng (next_runM S In n s (k + b) true)) with (next_runM S In n s (k + b) false); [exact G|].
          unfold next_runM. replace (k + b + S <=? n) with true by lia.
          rewrite (proj2 (eqb_bytes_eq _ _)); [reflexivity|]. symmetry. apply load_periodic; [apply len_slice; lia|].
          intros j Hj. rewrite symbyte_load by lia. destruct (K j Hj) as [_ K']. apply Z.eqb_eq in K'.
          replace (k + b + j) with (k + (b + j)) by lia. rewrite K'. f_equal. lia.
        * intros _. lia.
    - split; [lia|constructor].
    - lia.
    - exists i', found. tauto.
  Qed.

  Definition Sim (s0 s : estm A) : Prop :=
    Reach bstep s0 (ng s) /\ len (m_sym s) = S /\ 0 <= m_count s /\ 0 <= m_i s /\ (m_goto s = true -> m_i s < n) /\
    (m_count s = 0 -> (m_i s = 0 /\ In 0 <> symbyte (m_sym s) 0) \/ n - W - S <= m_i s).

  Lemma scalar_inr i1 c1 sym i2 c2 : len sym = S -> i1 < n -> scalar_step c In n i1 c1 sym = inr (i2, c2) -> i1 <= i2 < n.
  Proof.
    intros Hl Hi E. pose proof S_small as HS2. unfold scalar_step in E. change (xS c) with S in E. change (xUnb c) with unb in E.
    destruct (negb (c1 =? 0)); [|injection E; lia]. destruct (i1 + S <=? n) eqn:E1; [|injection E; lia].
    destruct (eqb_bytes (load In S i1) sym) eqn:E2; [discriminate|]. destruct unb; [|injection E; lia].
    destruct (lead_spec (fun j => In (i1 + j) =? symbyte sym j) S) as (L1 & L2 & L3); [lia|].
    set (d := lead _ S) in *. destruct (Z.eq_dec d S) as [D|D]; [|injection E; lia].
    exfalso. rewrite (load_periodic i1 sym Hl) in E2.
    - rewrite (proj2 (eqb_bytes_eq sym sym) eq_refl) in E2. discriminate.
    - intros j Hj. apply Z.eqb_eq. apply L2. lia.
  Qed.

  Lemma next_fields (s : estm A) i found : 0 <= i -> (found = true -> i + S * 2 < n) -> (found = false -> n - W - S <= i) ->
    let s' := next_runM S In n s i found in
    len (m_sym s') = S /\ 0 <= m_count s' /\ i < m_i s' /\ (m_goto s' = true -> m_i s' < n) /\ (m_count s' = 0 -> n - W - S <= m_i s').
  Proof.
    intros Hi H1 H2. pose proof S_small as HS2. pose proof W_big as HW.
    assert (L : len (load In S i) = S) by (apply len_slice; lia).
    unfold next_runM. destruct found; [|destruct (_ && _)]; cbn [m_sym m_count m_i m_goto]; (split; [exact L|]); repeat split; try discriminate; try lia.
  Qed.

  Lemma second_sim s0 s i1 c1 i2 c2 : v <> Base_ -> len (m_sym s) = S -> Reach bstep s0 (st i1 c1 (m_sym s) (m_last s) (m_aux s) (m_out s)) ->
    0 <= i1 < n -> scalar_step c In n i1 c1 (m_sym s) = inr (i2, c2) ->
    exists s', mb_second proc S unb v In n s i2 c2 = inl s' /\ Sim s0 s' /\ i2 < m_i s'.
  Proof.
    intros Hv Hl HR Hi1 E. pose proof (scalar_inr i1 c1 (m_sym s) i2 c2 Hl (proj2 Hi1) E) as Hi2. unfold mb_second.
    set (s1 := emitM proc In (st i2 c2 (m_sym s) (m_last s) (m_aux s) (m_out s))).
    assert (HR2 : Reach bstep s0 (next_runM S In n s1 i2 false)).
    { eapply reach_snoc; [exact HR|]. unfold s1. apply bstep_second; [lia|exact E]. }
    destruct (scan_sim s1 i2 Hv ltac:(lia)) as (i' & found & A1 & A2 & A3 & A4 & A5). fold c. rewrite A1.
    fold (st i2 c2 (m_sym s) (m_last s) (m_aux s) (m_out s)). fold s1.
    pose proof (next_fields s1 i' found ltac:(lia) A5 A4) as F. cbv zeta in F. destruct F as (F1 & F2 & F3 & F4 & F5).
    eexists. split; [reflexivity|]. split; [|lia]. split; [eapply reach_trans; eassumption|].
    split; [exact F1|]. split; [exact F2|]. split; [lia|]. split; [exact F4|]. intros Z0. right. now apply F5.
  Qed.

  Lemma step_sim s0 s : v <> Base_ -> Sim s0 s ->
    match mb_step proc S unb v In n s with
    | inl s' => Sim s0 s' /\ m_i s < m_i s' /\ m_i s < n
    | inr r => exists s', r = Some s' /\ Reach bstep s0 (ng s') /\ n <= m_i s'
    end.
  Proof.
    intros Hv (HR & Hl & Hc & Hi & Hg & Hz). pose proof S_small as HS2. unfold mb_step. destruct ((m_i s <? n) || m_goto s) eqn:E.
    2:{ exists s. split; [reflexivity|]. split; [exact HR|]. destruct (m_goto s); [rewrite orb_true_r in E; discriminate|lia]. }
    assert (Hin : m_i s < n). { destruct (m_goto s) eqn:G; [now apply Hg|]. rewrite orb_false_r in E. lia. }
    destruct (phase1_sim s Hv Hl Hc ltac:(lia) Hz) as (a & E1 & Ha). fold c. rewrite E1. destruct a as [i2 c2|i1 c1].
    - destruct Ha as (i1 & c1 & A1 & A2 & A3 & A4).
      destruct (second_sim s0 s i1 c1 i2 c2 Hv Hl) as (s' & B1 & B2 & B3); [eapply reach_trans; eassumption|lia|exact A2|].
      rewrite B1. split; [exact B2|]. lia.
    - destruct Ha as (A1 & A2 & A3 & A4). destruct (scalar_step c In n i1 c1 (m_sym s)) as [[i' c']|[i' c']] eqn:E2.
      + assert (K : i' = i1 + S /\ c' = c1 + S).
        { unfold scalar_step in E2. change (xS c) with S in E2. change (xUnb c) with unb in E2.
          destruct (negb (c1 =? 0)); [|discriminate]. destruct (i1 + S <=? n); [|discriminate].
          destruct (eqb_bytes _ _); [injection E2; lia|]. destruct unb; discriminate. }
        split; [|cbn [m_i]; lia]. split; [|cbn [m_sym m_count m_i m_goto]; repeat split; try lia; try discriminate; exact Hl].
        eapply reach_trans; [exact HR|]. eapply reach_snoc; [exact A1|]. unfold ng. cbn [m_sym m_count m_i m_last m_aux m_out].
        apply bstep_go; [lia|exact E2].
      + destruct (second_sim s0 s i1 c1 i' c' Hv Hl) as (s' & B1 & B2 & B3); [eapply reach_trans; eassumption|lia|exact E2|].
        rewrite B1. split; [exact B2|]. pose proof (scalar_inr i1 c1 (m_sym s) i' c' Hl (proj2 A2) E2). lia.
  Qed.
End Sim.

Definition simd_eq_dec (a b : simd) : {a = b} + {a <> b}.
Proof. decide equality. Defined.

(** The scalar loop ends. *)
Lemma base_ends {A} (proc : procM A) S unb In n s : okS S -> n < 2 ^ 62 -> 0 <= m_i s -> m_goto s = false ->
  exists s', loop (mb_step proc S unb Base_ In n) s = Some (Some s').
Proof.
  intros HS Hn Hi Hg. pose proof (okS_pos _ HS) as HS2.
  destruct (loop_inv (mb_step proc S unb Base_ In n) (fun s => 0 <= m_i s /\ m_goto s = false) (fun s => Z.max 0 (n - m_i s))
    (fun r => exists s', r = Some s') s) as (r & E & s' & ->).
  - intros t (Ht & Hgt). unfold mb_step. rewrite Hgt, orb_false_r. destruct (m_i t <? n) eqn:E; [|eauto]. cbn [phase1 e_i e_count].
    assert (Next : forall (u : estm A) i, 0 <= i -> 0 <= m_i (next_runM S In n u i false) /\ m_goto (next_runM S In n u i false) = false /\
      i < m_i (next_runM S In n u i false)).
    { intros u i Hi'. unfold next_runM. destruct (_ && _); cbn [m_i m_goto]; lia. }
    assert (D : 0 <= lead (fun j => In (m_i t + j) =? symbyte (m_sym t) j) (xS (mcfg S unb))) by (apply lead_spec; cbn; lia).
    assert (K : match scalar_step (mcfg S unb) In n (m_i t) (m_count t) (m_sym t) with
                | inl (i, _) => m_i t < i | inr (i, _) => m_i t <= i end).
    { unfold scalar_step. change (xS (mcfg S unb)) with S in *. change (xUnb (mcfg S unb)) with unb.
      repeat match goal with |- context [if ?b then _ else _] => destruct b end; lia. }
    destruct (scalar_step _ _ _ _ _ _) as [[i c]|[i c]].
    + cbn [m_i m_goto]. split; [split; [lia|reflexivity]|lia].
    + unfold mb_second. cbn [scan]. specialize (Next (emitM proc In (mkM i c (m_sym t) (m_last t) (m_aux t) (m_out t) false)) i ltac:(lia)) as (N1 & N2 & N3). split; [split; assumption|lia].
  - tauto.
  - lia.
  - eauto.
Qed.

(** The packets do not depend on the CPU level. *)
Theorem mb_same {A} (proc : procM A) tn tl S unb v In n a0 : okS S -> S <> 16 -> 1 <= n < 2 ^ 62 ->
  (forall i sym last a, proc In i 0 sym last a = None) ->
  mb_body proc tn tl S unb v In n a0 = mb_body proc tn tl S unb Base_ In n a0.
Proof.
  intros HS H16 Hn Hp. destruct (simd_eq_dec v Base_) as [->|Hv]; [reflexivity|].
  pose proof (okS_pos _ HS) as HS2. unfold mb_body. set (s0 := mkM 0 0 (not_first S In) 0 a0 [] false).
  destruct (base_ends proc S unb In n s0 HS ltac:(lia)) as (sb & Eb); [cbn; lia|reflexivity|].
  assert (L : len (not_first S In) = S) by (unfold not_first, len; rewrite map_length; apply len_slice; lia).
  destruct (loop_inv (mb_step proc S unb v In n) (Sim proc S unb In n v s0) (fun s => Z.max 0 (n - m_i s))
    (fun r => exists s', r = Some s' /\ Reach (mb_step proc S unb Base_ In n) s0 (ng s') /\ n <= m_i s') s0) as (r & E & s' & -> & HR & Hs').
  - intros s Hs. pose proof (step_sim proc S unb In n HS H16 ltac:(lia) Hp v s0 s Hv Hs) as K.
    destruct (mb_step proc S unb v In n s) as [s'|r]; [|exact K]. split; [tauto|lia].
  - split; [constructor|]. split; [exact L|]. cbn [m_count m_i m_goto m_sym s0]. repeat split; try lia; try discriminate.
    intros _. left. split; [reflexivity|]. unfold not_first, symbyte, load. change (Z.to_nat 0) with 0%nat.
    destruct (slice In 0 S) as [|x l] eqn:Es. { pose proof (len_slice In 0 S ltac:(lia)) as K. rewrite Es in K. cbn in K. lia. }
    cbn [map nth]. assert (x = In 0). { pose proof (nth_slice In 0 S 0 ltac:(lia)) as K. rewrite Es in K. cbn in K. exact K. } lia.
  - cbn. lia.
  - rewrite E, Eb. assert (R : Some sb = Some (ng s')).
    { eapply loop_reach; [exact Eb|exact HR|]. unfold mb_step, ng, st. cbn [m_i m_goto]. replace (m_i s' <? n) with false by lia. reflexivity. }
    injection R as ->. reflexivity.
Qed.
