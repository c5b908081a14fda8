(** Encoders save what is repeated: bookkeeping shared by all search loops. *)
From Verif Require Import Base Simd Spec ExtModel ExtDec ExtEnc PktModel PktEnc MbModel MbEnc SaveSpec.

Lemma saving_nonneg k rs : 0 <= saving k rs.
Proof. induction rs as [|[a b] rs IH]; cbn [saving]; lia. Qed.
Lemma saving_app k r1 r2 : saving k (r1 ++ r2) = saving k r1 + saving k r2.
Proof. induction r1 as [|[a b] r1 IH]; cbn [app saving]; lia. Qed.

Lemma Repetitions_le S In f1 f2 n rs : f1 <= f2 -> Repetitions S In f2 n rs -> Repetitions S In f1 n rs.
Proof. destruct rs as [|[a b] rs]; cbn; [tauto|]. intros H (H1 & H2). split; [lia|exact H2]. Qed.

Lemma Repetitions_in S In n a b rs : forall from, 0 <= from -> Repetitions S In from n rs -> List.In (a, b) rs -> Repeats S In a b /\ 0 <= a <= b /\ b <= n.
Proof.
  induction rs as [|[a1 b1] rs IH]; intros from Hf HR Hin; [destruct Hin|]. cbn [Repetitions] in HR. destruct HR as (H1 & H2 & H3 & H4).
  destruct Hin as [[= <- <-]|Hin]; [split; [exact H3|lia]|]. apply (IH b1); [lia|exact H4|exact Hin].
Qed.

(** Only the long ones count. *)
Definition long (k : Z) (r : Z * Z) : bool := k <? snd r - fst r.
Lemma Repetitions_long S In k n rs : forall from, Repetitions S In from n rs -> Repetitions S In from n (filter (long k) rs).
Proof.
  induction rs as [|[a b] rs IH]; intros from; cbn [filter Repetitions]; [tauto|]. intros (H1 & H2 & H3 & H4).
  destruct (long k (a, b)).
  - cbn [Repetitions]. repeat split; try assumption; try lia. now apply IH.
  - apply IH. eapply Repetitions_le; [|exact H4]. lia.
Qed.
Lemma saving_long k rs : saving k (filter (long k) rs) = saving k rs.
Proof.
  induction rs as [|[a b] rs IH]; cbn [filter saving]; [reflexivity|]. unfold long at 1. cbn [fst snd].
  destruct (k <? b - a) eqn:E; cbn [saving]; lia.
Qed.

Section Book.
  (** [B x]: bound on the size of the packets for the first [x] bytes; [H]: largest packet header;
      [T]: runs of this size are always accepted; [w]: how late a repetition may be noticed and
      how early its run may end. *)
  Variables (B : Z -> Z) (H T w k S : Z) (In : mem) (n : Z).
  Hypothesis HB : forall x y, x <= y -> y - x <= B y - B x.
  Hypothesis Hk : H + 2 * w <= k /\ T + 2 * w <= k /\ 1 <= w /\ 0 <= H.

  Definition AllLong (rs : list (Z * Z)) : Prop := Forall (fun r => k < snd r - fst r) rs.

  (** Packets of size [o] for the bytes before [last]; the current candidate starts at [p]. *)
  Definition Booked (rs : list (Z * Z)) (last o p : Z) : Prop :=
    exists done rest, rs = done ++ rest /\ o + saving k done <= B last /\
      match rest with [] => True | (a, b) :: _ => p <= a + w end.

  Lemma Booked_init rs : 0 <= B 0 -> Repetitions S In 0 n rs -> Booked rs 0 0 0.
  Proof. intros H0 HR. exists [], rs. split; [reflexivity|]. split; [cbn; lia|]. destruct rs as [|[a b] rs]; [exact I|]. cbn in HR. lia. Qed.

  (** The pieces that end before [e]. *)
  Lemma move_rest e : forall rest from, Repetitions S In from n rest -> AllLong rest ->
    exists moved rest', rest = moved ++ rest' /\
      match moved with [] => True | (a, _) :: _ => saving k moved <= e - a - k end /\
      match rest' with [] => True | (a, b) :: _ => e <= b end.
  Proof.
    induction rest as [|[a b] rest IH]; intros from HR HL.
    - exists [], []. repeat split.
    - cbn [Repetitions] in HR. destruct HR as (R1 & R2 & R3 & R4). inversion HL as [|x y L1 L2]; subst. cbn [fst snd] in L1.
      destruct (Z_lt_ge_dec b e) as [Hb|Hb].
      + destruct (IH b R4 L2) as (moved & rest' & E & M1 & M2). exists ((a, b) :: moved), rest'. split; [cbn; now rewrite E|].
        split; [|exact M2]. cbn [saving]. destruct moved as [|[a' b'] moved]; [cbn [saving]; lia|].
        subst rest. cbn [app Repetitions] in R4. lia.
      + exists [], ((a, b) :: rest). repeat split. lia.
  Qed.

  Lemma Booked_reps rs1 rs2 from : Repetitions S In from n (rs1 ++ rs2) -> exists f, Repetitions S In f n rs2.
  Proof. revert from. induction rs1 as [|[a b] rs1 IH]; intros from HR; [exists from; exact HR|]. cbn in HR. destruct HR as (_ & _ & _ & HR). eauto. Qed.

  Lemma Repetitions_after f r1 a b r2 : Repetitions S In f n (r1 ++ (a, b) :: r2) -> f <= a.
  Proof.
    revert f. induction r1 as [|[a1 b1] r1 IH]; intros f HR; cbn in HR; [lia|]. destruct HR as (H1 & H2 & _ & HR). apply IH in HR. lia.
  Qed.

  (** A run from [p] ends at [x]; the next candidate starts at [p']. *)
  Lemma Booked_cut rs last o p x o' last' p' : Repetitions S In 0 n rs -> AllLong rs -> Booked rs last o p -> last <= p -> p <= x ->
    (o' = o /\ last' = last /\ x - p < T \/ last' = x /\ o' <= o + (p - last) + H /\ o' - o + B last <= B x) ->
    (forall a b, List.In (a, b) rs -> x <= b - w -> p <= a + w -> p' <= a + w) ->
    Booked rs last' o' p'.
  Proof.
    intros HR HL (done & rest & E & HO & Hp) Hlp Hpx Ho Hp'.
    destruct (Booked_reps done rest 0) as (f & HRr); [now rewrite <- E|].
    assert (HLr : AllLong rest) by (unfold AllLong in *; rewrite E in HL; now apply Forall_app in HL).
    assert (Hin : forall r, List.In r rest -> List.In r rs) by (intros r Hr; rewrite E; apply in_or_app; now right).
    destruct rest as [|[a b] rest].
    { exists done, []. split; [exact E|]. split; [|exact I]. destruct Ho as [(-> & -> & _)|(-> & _ & Ho)]; lia. }
    destruct (Z_le_gt_dec x (b - w)) as [Hx|Hx].
    - exists done, ((a, b) :: rest). split; [exact E|]. split; [destruct Ho as [(-> & -> & _)|(-> & _ & Ho)]; lia|].
      apply (Hp' a b); [apply Hin; now left|exact Hx|exact Hp].
    - inversion HLr as [|r1 r2 L1 L2]; subst. cbn [fst snd] in L1.
      destruct Ho as [(_ & _ & Ho)|(-> & Ho1 & Ho2)]; [lia|].
      destruct (move_rest (x + w) ((a, b) :: rest) f HRr HLr) as (moved & rest' & E' & M1 & M2).
      destruct moved as [|[a1 b1] moved].
      { cbn [app] in E'. subst rest'. lia. }
      cbn [app] in E'. injection E' as <- <- E'. subst rest.
      exists (done ++ (a, b) :: moved), rest'. split; [now rewrite <- app_assoc|]. split.
      + rewrite saving_app. pose proof (HB last p Hlp). pose proof (HB p x Hpx). lia.
      + destruct rest' as [|[a2 b2] rest']; [exact I|]. apply (Hp' a2 b2); [|lia|].
        * apply Hin. cbn [app]. right. apply in_or_app. right. now left.
        * cbn [app Repetitions] in HRr. destruct HRr as (_ & R2 & _ & R4).
          pose proof (Repetitions_after b moved a2 b2 rest' R4). lia.
  Qed.

  (** The end: the last run reaches [x], behind the input. *)
  Lemma Booked_end rs last o p x o' : Repetitions S In 0 n rs -> AllLong rs -> Booked rs last o p -> last <= p -> p <= x -> n <= x ->
    (o' = o /\ x - p < T -> o' + saving k rs <= B last) /\
    (o' <= o + (p - last) + H /\ o' - o + B last <= B x -> o' + saving k rs <= B x).
  Proof.
    intros HR HL HB0 Hlp Hpx Hnx.
    assert (Hle : forall a b, List.In (a, b) rs -> b <= n).
    { clear - HR. revert HR. generalize 0. induction rs as [|[a b] rs IH]; intros f HR a' b' Hin; [destruct Hin|]. cbn in HR. destruct HR as (_ & H1 & _ & H2).
      destruct Hin as [[= <- <-]|Hin]; [lia|eauto]. }
    split.
    - intros (-> & Ho). destruct HB0 as (done & rest & E & HO & Hp). destruct rest as [|[a b] rest].
      { rewrite app_nil_r in E. subst done. lia. }
      exfalso. assert (List.In (a, b) rs) as Hin by (rewrite E; apply in_or_app; right; now left).
      unfold AllLong in HL. rewrite Forall_forall in HL. pose proof (HL _ Hin) as L. cbn [fst snd] in L.
      specialize (Hle a b Hin). lia.
    - intros (Ho1 & Ho2).
      destruct (Booked_cut rs last o p x o' x (n + k + 1) HR HL HB0 Hlp Hpx) as (done & rest & E & HO & Hp).
      + right. split; [reflexivity|]. split; assumption.
      + intros a b Hin Hx _. unfold AllLong in HL. rewrite Forall_forall in HL. pose proof (HL _ Hin) as L. cbn [fst snd] in L.
        specialize (Hle a b Hin). lia.
      + destruct rest as [|[a b] rest]; [rewrite app_nil_r in E; subst done; lia|].
        exfalso. assert (List.In (a, b) rs) as Hin by (rewrite E; apply in_or_app; right; now left).
        unfold AllLong in HL. rewrite Forall_forall in HL. pose proof (HL _ Hin) as L. cbn [fst snd] in L.
        specialize (Hle a b Hin). lia.
  Qed.
End Book.
