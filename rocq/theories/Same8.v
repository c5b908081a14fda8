(** The same for the search loop of the 8 bit encoders. *)
From Verif Require Import Base Simd Spec ExtModel ExtDec ExtEnc PktModel PktEnc SameMb.

Section Sim8.
  Context {A : Type} (proc : proc8 A) (In : mem) (n W : Z).
  Hypothesis Hn : n < 2 ^ 62.
  Hypothesis HW : 16 <= W <= 32.
  Hypothesis Hproc : forall i count sym last a, count <= 1 -> proc In i count sym last a = None.

  Notation sstep := (scalar8_step false proc In n).

  Definition cand (s : est8 A) (k : Z) : est8 A := mk8 (k + 1) 1 (In k) (last8 s) (aux8 s) (out8 s).

  Lemma cand_step8 s k : In k <> In (k + 1) -> k + 1 < n -> sstep (cand s k) = inl (cand s (k + 1)).
  Proof.
    intros H Hk. unfold scalar8_step, cand. cbn [i8 count8 sym8 last8 aux8 out8]. replace (k + 1 <? n) with true by lia.
    replace (In (k + 1) =? In k) with false by (symmetry; apply Z.eqb_neq; congruence).
    unfold emit8. cbn [i8 count8 sym8 last8 aux8 out8]. rewrite Hproc by lia. reflexivity.
  Qed.

  Lemma reach_cands8 s k0 : forall d : nat, k0 + Z.of_nat d < n \/ d = 0%nat ->
    (forall k, k0 <= k < k0 + Z.of_nat d -> In k <> In (k + 1)) -> Reach sstep (cand s k0) (cand s (k0 + Z.of_nat d)).
  Proof.
    induction d as [|d IH]; intros Hd H.
    - rewrite Z.add_0_r. constructor.
    - eapply reach_snoc; [apply IH|].
      + lia.
      + intros k Hk. apply H. lia.
      + replace (k0 + Z.of_nat (Datatypes.S d)) with (k0 + Z.of_nat d + 1) by lia. apply cand_step8; [|lia]. apply H. lia.
  Qed.

  Lemma reach_same s : forall d : nat, i8 s + Z.of_nat d <= n -> (forall j, 0 <= j < Z.of_nat d -> In (i8 s + j) = sym8 s) ->
    Reach sstep s (mk8 (i8 s + Z.of_nat d) (count8 s + Z.of_nat d) (sym8 s) (last8 s) (aux8 s) (out8 s)).
  Proof.
    induction d as [|d IH]; intros Hd H.
    - rewrite !Z.add_0_r. destruct s. constructor.
    - eapply reach_snoc; [apply IH|].
      + lia.
      + intros j Hj. apply H. lia.
      + unfold scalar8_step. cbn [i8 count8 sym8 last8 aux8 out8]. replace (i8 s + Z.of_nat d <? n) with true by lia.
        rewrite (H (Z.of_nat d)) by lia. rewrite Z.eqb_refl. do 2 f_equal; lia.
  Qed.

  Lemma scan8_sim s i : 0 <= i < n -> exists i', loop (scan8_step W In n) i = Some i' /\ i <= i' < n /\ Reach sstep (cand s i) (cand s i').
  Proof.
    intros Hi.
    apply (loop_inv (scan8_step W In n) (fun i' => i <= i' < n /\ Reach sstep (cand s i) (cand s i')) (fun i' => n - i')
      (fun i' => i <= i' < n /\ Reach sstep (cand s i) (cand s i'))); [|split; [lia|constructor]|lia].
    intros k (Hk & HR). unfold scan8_step. destruct (k <? n - W) eqn:Ek; [|split; assumption].
    destruct (lead_spec (fun j => negb (In (k + j) =? In (k + j + 1))) (W - 1)) as (L1 & L2 & _); [lia|].
    set (b := lead _ (W - 1)) in *.
    assert (K : Reach sstep (cand s i) (cand s (k + b))).
    { eapply reach_trans; [exact HR|]. replace b with (Z.of_nat (Z.to_nat b)) by lia. apply reach_cands8; [lia|].
      intros t Ht. specialize (L2 (t - k) ltac:(lia)). apply negb_true_iff, Z.eqb_neq in L2. replace (k + (t - k)) with t in L2 by lia. exact L2. }
    destruct (b =? W - 1) eqn:Eb.
    - replace (W - 1) with b by lia. split; [split; [lia|exact K]|lia].
    - split; [lia|exact K].
  Qed.

  Definition Sim8 (s0 s : est8 A) : Prop :=
    Reach sstep s0 s /\ 0 <= i8 s /\ 0 <= count8 s /\ (count8 s = 0 -> i8 s = 0 /\ In 0 <> sym8 s).

  Lemma emit8_i s : i8 (emit8 proc In s) = i8 s.
  Proof. unfold emit8. destruct (proc _ _ _ _ _ _) as [[? ?]|]; reflexivity. Qed.

  Lemma step_sim8 s0 s : Sim8 s0 s ->
    match simd8_step proc W In n s with
    | inl s' => Sim8 s0 s' /\ i8 s < i8 s' /\ i8 s < n
    | inr r => exists s', r = Some s' /\ Sim8 s0 s'
    end.
  Proof.
    intros (HR & Hi & Hc & Hz). unfold simd8_step. destruct (i8 s <? n - W) eqn:Ei; [|exists s; split; [reflexivity|exact (conj HR (conj Hi (conj Hc Hz)))]].
    cbv zeta. set (f := fun j => In (i8 s + j) =? sym8 s).
    destruct (lead_spec f W) as (L1 & L2 & L3); [lia|]. set (b := lead f W) in *.
    assert (B0 : count8 s = 0 -> b = 0).
    { intros E. destruct (Hz E) as [Z1 Z2]. destruct (Z.eq_dec b 0) as [|N]; [assumption|]. specialize (L2 0 ltac:(lia)).
      unfold f in L2. rewrite Z1 in L2. apply Z.eqb_eq in L2. exfalso. apply Z2. exact L2. }
    set (m := mk8 (i8 s + b) (count8 s + b) (sym8 s) (last8 s) (aux8 s) (out8 s)).
    assert (RM : Reach sstep s0 m).
    { eapply reach_trans; [exact HR|]. unfold m. replace b with (Z.of_nat (Z.to_nat b)) by lia. apply reach_same; [lia|].
      intros j Hj. specialize (L2 j ltac:(lia)). unfold f in L2. now apply Z.eqb_eq in L2. }
    destruct (b =? W) eqn:EW.
    - replace W with b by lia. fold m. split; [|cbn [m i8]; lia]. split; [exact RM|]. cbn [m i8 count8 sym8].
      split; [lia|]. split; [lia|]. intros E. lia.
    - specialize (L3 ltac:(lia)).
      assert (S1 : (if any f W || (1 <? count8 s) then emit8 proc In m else s) = emit8 proc In m).
      { destruct (any f W) eqn:Ea; [reflexivity|]. destruct (1 <? count8 s) eqn:Ec; [reflexivity|]. cbn [orb].
        assert (E : b = 0). { destruct (Z.eq_dec b 0) as [|N]; [assumption|]. specialize (L2 0 ltac:(lia)). rewrite (any_false f W Ea 0) in L2 by lia. discriminate. }
        unfold m. rewrite E, !Z.add_0_r. unfold emit8. cbn [i8 count8 sym8 last8 aux8 out8]. rewrite Hproc by lia. now destruct s. }
      rewrite S1, emit8_i. cbn [m i8]. fold m. set (s1 := emit8 proc In m).
      assert (RC : Reach sstep s0 (cand s1 (i8 s + b))).
      { eapply reach_snoc; [exact RM|]. unfold scalar8_step. cbn [m i8 sym8]. replace (i8 s + b <? n) with true by lia.
        unfold f in L3. rewrite L3. reflexivity. }
      destruct (scan8_sim s1 (i8 s + b) ltac:(lia)) as (i' & E & Hi' & RR). rewrite E.
      split; [|cbn [i8]; lia]. split; [eapply reach_trans; eassumption|]. cbn [i8 count8]. lia.
  Qed.
End Sim8.

Lemma scalar8_ends {A} single (proc : proc8 A) In n s : n < 2 ^ 62 -> 0 <= i8 s -> exists s', loop (scalar8_step single proc In n) s = Some s'.
Proof.
  intros Hn Hs.
  destruct (loop_inv (scalar8_step single proc In n) (fun s => 0 <= i8 s) (fun s => Z.max 0 (n - i8 s)) (fun _ => True) s) as (r & E & _).
  - intros t Ht. unfold scalar8_step. destruct (i8 t <? n) eqn:E; [|exact I].
    destruct (In (i8 t) =? sym8 t); [cbn [i8]; lia|]. destruct single; cbn [i8]; lia.
  - exact Hs.
  - lia.
  - eauto.
Qed.

Lemma body8_scalar {A} (proc : proc8 A) tn tl W In n a : 1 <= n < 2 ^ 62 -> 16 <= W <= 32 ->
  (forall i count sym last a, count <= 1 -> proc In i count sym last a = None) ->
  exists sb, loop (scalar8_step false proc In n) (mk8 0 0 (255 - In 0) 0 a []) = Some sb /\
    body8 proc proc tn tl W In n (mk8 0 0 (255 - In 0) 0 a []) = Some (finish8 proc tn tl In sb).
Proof.
  intros Hn HW Hp. set (s0 := mk8 0 0 (255 - In 0) 0 a []).
  destruct (scalar8_ends false proc In n s0) as (sb & Eb); [lia|cbn; lia|].
  exists sb. split; [exact Eb|]. unfold body8.
  destruct (loop_inv (simd8_step proc W In n) (Sim8 proc In n s0) (fun s => Z.max 0 (n - i8 s))
    (fun r => exists s', r = Some s' /\ Sim8 proc In n s0 s') s0) as (r & E & s' & -> & HS).
  - intros s Hs. pose proof (step_sim8 proc In n W ltac:(lia) HW Hp s0 s Hs) as K.
    destruct (simd8_step proc W In n s) as [s'|r]; [|exact K]. split; [tauto|lia].
  - split; [constructor|]. cbn [s0 i8 count8 sym8]. lia.
  - cbn. lia.
  - rewrite E. destruct HS as (HR & Hi & _). destruct (scalar8_ends false proc In n s') as (s2 & E2); [lia|lia|]. rewrite E2.
    destruct (loop_halts _ _ _ E2) as (s3 & R3 & H3). rewrite (loop_reach _ s0 s3 sb s2 Eb (reach_trans _ _ _ _ HR R3) H3). reflexivity.
Qed.

Theorem body8_same {A} (proc : proc8 A) tn tl W1 W2 In n a : 1 <= n < 2 ^ 62 -> 16 <= W1 <= 32 -> 16 <= W2 <= 32 ->
  (forall i count sym last a, count <= 1 -> proc In i count sym last a = None) ->
  body8 proc proc tn tl W1 In n (mk8 0 0 (255 - In 0) 0 a []) = body8 proc proc tn tl W2 In n (mk8 0 0 (255 - In 0) 0 a []).
Proof.
  intros Hn HW1 HW2 Hp. destruct (body8_scalar proc tn tl W1 In n a Hn HW1 Hp) as (s1 & E1 & ->). destruct (body8_scalar proc tn tl W2 In n a Hn HW2 Hp) as (s2 & E2 & ->).
  rewrite E1 in E2. injection E2 as ->. reflexivity.
Qed.
