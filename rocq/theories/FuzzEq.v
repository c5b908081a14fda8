(** MemoryEquals of the fuzzer: what its answer means. *)
From Verif Require Import Base Spec FuzzModel.

(** Two bytes that agree in bit 7. *)
Definition same_top (x y : Z) : Prop := Z.testbit (Z.lxor x y) 7 = false.

Section Eq.
Variables (A : mem) (a : Z) (B : mem) (b : Z) (n : Z).

Definition top_upto (o : Z) : Prop := forall k, 0 <= k < o -> same_top (A (a + k)) (B (b + k)).

(** The accumulated vector has seen exactly the top bits of the bytes below [o] in the lanes of [S]. *)
Definition Sees (c : mem) (P : Z -> Prop) : Prop :=
  forall i, 0 <= i < 32 -> (Z.testbit (c i) 7 = false <-> forall k, P k -> k mod 32 = i -> same_top (A (a + k)) (B (b + k))).

Lemma diff_sees c P o : o mod 32 = 0 -> Sees c P -> Sees (diff A a B b o c) (fun k => P k \/ o <= k < o + 32).
Proof.
  intros Ho H i Hi. unfold diff. rewrite Z.lor_spec, orb_false_iff, (H i Hi). split.
  - intros [H1 H2] k [Hk|Hk] Hm; [now apply H1|].
    unfold same_top. replace (a + k) with (a + o + i) by lia. replace (b + k) with (b + o + i) by lia. exact H2.
  - intros H1. split; [intros k Hk; apply H1; now left|].
    specialize (H1 (o + i)). unfold same_top in H1. rewrite !Z.add_assoc in H1. apply H1; [right; lia|lia].
Qed.

Lemma sees_ext c P Q : (forall k, P k <-> Q k) -> Sees c P -> Sees c Q.
Proof.
  intros HPQ H i Hi. rewrite (H i Hi). split; intros K k Hk; apply K; now apply HPQ.
Qed.

Lemma diff_sees_as c P Q o : o mod 32 = 0 -> (forall k, P k \/ o <= k < o + 32 <-> Q k) -> Sees c P -> Sees (diff A a B b o c) Q.
Proof. intros Ho HPQ H. eapply sees_ext; [exact HPQ|]. now apply diff_sees. Qed.

Lemma or_sees c d P Q : Sees c P -> Sees d Q -> Sees (vec_or c d) (fun k => P k \/ Q k).
Proof.
  intros H1 H2 i Hi. unfold vec_or. rewrite Z.lor_spec, orb_false_iff, (H1 i Hi), (H2 i Hi). split.
  - intros [K1 K2] k [Hk|Hk]; auto.
  - intros K. split; intros k Hk; apply K; tauto.
Qed.

Lemma zero_sees : Sees zero_vec (fun _ => False).
Proof. intros i _. unfold zero_vec. split; [intros _ k []|reflexivity]. Qed.

Lemma movemask_sees c P : Sees c P -> (movemask c = false <-> forall k, P k -> same_top (A (a + k)) (B (b + k))).
Proof.
  intros H. unfold movemask. split.
  - intros Hf k Hk. assert (Hi : 0 <= k mod 32 < 32) by lia.
    apply (proj1 (H _ Hi)); [|exact Hk|reflexivity].
    destruct (Z.testbit (c (k mod 32)) 7) eqn:E; [|reflexivity]. exfalso.
    rewrite <- not_true_iff_false in Hf. apply Hf, existsb_exists. exists (Z.to_nat (k mod 32)). split.
    + apply in_seq. lia.
    + rewrite Z2Nat.id by lia. exact E.
  - intros K. rewrite <- not_true_iff_false. intros Ht. apply existsb_exists in Ht. destruct Ht as (i & Hi & Ht).
    apply in_seq in Hi. assert (Hb : 0 <= Z.of_nat i < 32) by lia.
    rewrite (proj2 (H _ Hb)) in Ht; [discriminate|]. intros k Hk _. now apply K.
Qed.

(** *** The loops *)

Lemma eq4_ok (last : Z) : last < 2 ^ 62 ->
  exists o c0 c1 c2 c3,
    loop (eq4_step A a B b last) (0, (zero_vec, zero_vec, zero_vec, zero_vec)) = Some (o, (c0, c1, c2, c3)) /\
    Sees (vec_or (vec_or c0 c1) (vec_or c2 c3)) (fun k => 0 <= k < o) /\
    o mod 128 = 0 /\ last <= o /\ (0 < last -> o < last + 128) /\ 0 <= o.
Proof.
  intros Hl.
  set (I := fun s : Z * (mem * mem * mem * mem) => let '(o, (c0, c1, c2, c3)) := s in
        o mod 128 = 0 /\ 0 <= o /\ (0 < last -> o < last + 128) /\ (last <= 0 -> o = 0) /\
        Sees c0 (fun k => 0 <= k < o /\ k mod 128 < 32) /\
        Sees c1 (fun k => 0 <= k < o /\ 32 <= k mod 128 < 64) /\
        Sees c2 (fun k => 0 <= k < o /\ 64 <= k mod 128 < 96) /\
        Sees c3 (fun k => 0 <= k < o /\ 96 <= k mod 128)).
  destruct (loop_inv (eq4_step A a B b last) I (fun s => Z.max 0 (last + 128 - fst s))
              (fun r => I r /\ last <= fst r) (0, (zero_vec, zero_vec, zero_vec, zero_vec)))
    as ([o [[[c0 c1] c2] c3]] & E & HI & Ho).
  - intros [o [[[c0 c1] c2] c3]] (Hm & H0 & Hlt & Hz & S0 & S1 & S2 & S3). unfold eq4_step.
    destruct (o <? last) eqn:Eo.
    + split; [|cbn [fst]; lia]. unfold I. split; [lia|]. split; [lia|]. split; [lia|]. split; [lia|]. split; [|split; [|split]].
      * apply (fun H1 H2 => diff_sees_as _ _ _ o H1 H2 S0); [lia|intros k; cbv beta; lia].
      * apply (fun H1 H2 => diff_sees_as _ _ _ (o + 32) H1 H2 S1); [lia|intros k; cbv beta; lia].
      * apply (fun H1 H2 => diff_sees_as _ _ _ (o + 64) H1 H2 S2); [lia|intros k; cbv beta; lia].
      * apply (fun H1 H2 => diff_sees_as _ _ _ (o + 96) H1 H2 S3); [lia|intros k; cbv beta; lia].
    + split; [|cbn [fst]; lia]. unfold I. tauto.
  - unfold I. split; [reflexivity|]. split; [lia|]. split; [lia|]. split; [lia|]. split; [|split; [|split]];
      (eapply sees_ext; [|apply zero_sees]); intros k; cbv beta; lia.
  - cbn [fst]. lia.
  - exists o, c0, c1, c2, c3. destruct HI as (Hm & H0 & Hlt & Hz & S0 & S1 & S2 & S3). cbn [fst] in Ho.
    split; [exact E|]. split; [|tauto].
    eapply sees_ext; [|apply or_sees; apply or_sees; eassumption]. intros k. cbv beta. lia.
Qed.

Lemma eq1_ok (last o0 : Z) c0 : last < 2 ^ 62 -> o0 mod 32 = 0 -> 0 <= o0 -> Sees c0 (fun k => 0 <= k < o0) ->
  exists o c, loop (eq1_step A a B b last) (o0, c0) = Some (o, c) /\
    Sees c (fun k => 0 <= k < o) /\ o mod 32 = 0 /\ last <= o /\ o0 <= o /\ (o0 < last -> o < last + 32) /\ (last <= o0 -> o = o0).
Proof.
  intros Hl Hm0 H0 S0.
  set (I := fun s : Z * mem => let '(o, c) := s in
        o mod 32 = 0 /\ o0 <= o /\ (o0 < last -> o < last + 32) /\ (last <= o0 -> o = o0) /\ Sees c (fun k => 0 <= k < o)).
  destruct (loop_inv (eq1_step A a B b last) I (fun s => Z.max 0 (last + 32 - fst s))
              (fun r => I r /\ last <= fst r) (o0, c0)) as ([o c] & E & HI & Ho).
  - intros [o c] (Hm & Hge & Hlt & Hz & Sc). unfold eq1_step. destruct (o <? last) eqn:Eo.
    + split; [|cbn [fst]; lia]. unfold I. split; [lia|]. split; [lia|]. split; [lia|]. split; [lia|].
      eapply sees_ext; [|apply diff_sees; [exact Hm|exact Sc]]. intros k; cbv beta; lia.
    + split; [|cbn [fst]; lia]. unfold I. tauto.
  - unfold I. split; [exact Hm0|]. split; [lia|]. split; [lia|]. split; [lia|]. exact S0.
  - cbn [fst]. lia.
  - exists o, c. destruct HI as (Hm & Hge & Hlt & Hz & Sc). cbn [fst] in Ho. tauto.
Qed.

Lemma rd32_eq (x y : Z) : byte_mem A -> byte_mem B ->
  (rd32 A x = rd32 B y <-> forall i, 0 <= i < 4 -> A (x + i) = B (y + i)).
Proof.
  intros HA HB. unfold rd32.
  pose proof (HA x) as a0. pose proof (HA (x + 1)) as a1. pose proof (HA (x + 2)) as a2. pose proof (HA (x + 3)) as a3.
  pose proof (HB y) as b0. pose proof (HB (y + 1)) as b1. pose proof (HB (y + 2)) as b2. pose proof (HB (y + 3)) as b3.
  unfold is_byte in *. split.
  - intros H i Hi. assert (Hc : i = 0 \/ i = 1 \/ i = 2 \/ i = 3) by lia.
    destruct Hc as [->|[->|[->| ->]]]; rewrite ?Z.add_0_r; lia.
  - intros H. pose proof (H 0 ltac:(lia)) as e0. rewrite !Z.add_0_r in e0.
    rewrite e0, (H 1), (H 2), (H 3) by lia. reflexivity.
Qed.

Definition eq_range (lo hi : Z) : Prop := forall k, lo <= k < hi -> A (a + k) = B (b + k).

Lemma tail_ok (o0 : Z) : byte_mem A -> byte_mem B -> n < 2 ^ 62 -> 0 <= o0 ->
  exists r, match loop (eq64_step A a B b (Z.max 0 (n - 8))) o0 with
            | Some (Some o') => loop (eq8_step A a B b n) o'
            | Some None => Some false
            | None => None
            end = Some r /\ (r = true <-> eq_range o0 n).
Proof.
  intros HA HB Hn H0. set (last := Z.max 0 (n - 8)).
  destruct (loop_inv (eq64_step A a B b last) (fun o => o0 <= o /\ eq_range o0 o)
              (fun o => Z.max 0 (last + 8 - o))
              (fun r => match r with
                        | Some o => o0 <= o /\ eq_range o0 o
                        | None => ~ eq_range o0 n
                        end) o0) as (r & E & HQ).
  - intros o (Hge & Heq). unfold eq64_step. destruct (o <? last) eqn:Eo; [|split; assumption].
    destruct ((rd32 A (a + o) =? rd32 B (b + o)) && (rd32 A (a + o + 4) =? rd32 B (b + o + 4))) eqn:Ee.
    + apply andb_true_iff in Ee. destruct Ee as [E1 E2]. apply Z.eqb_eq in E1, E2.
      rewrite rd32_eq in E1, E2 by assumption. split; [|lia]. split; [lia|]. intros k Hk.
      destruct (Z_lt_dec k o) as [L|G]; [apply Heq; lia|].
      destruct (Z_lt_dec k (o + 4)) as [L4|G4].
      * specialize (E1 (k - o)). replace (a + o + (k - o)) with (a + k) in E1 by lia.
        replace (b + o + (k - o)) with (b + k) in E1 by lia. apply E1. lia.
      * specialize (E2 (k - o - 4)). replace (a + o + 4 + (k - o - 4)) with (a + k) in E2 by lia.
        replace (b + o + 4 + (k - o - 4)) with (b + k) in E2 by lia. apply E2. lia.
    + intros K. apply andb_false_iff in Ee. unfold last in Eo. rewrite !Z.eqb_neq in Ee. destruct Ee as [Ee|Ee]; apply Ee;
        rewrite rd32_eq by assumption; intros i Hi; rewrite <- ?Z.add_assoc; apply K; lia.
  - split; [lia|]. intros k Hk. lia.
  - unfold last. lia.
  - rewrite E. destruct r as [o|].
    + destruct HQ as [Hge Heq].
      destruct (loop_inv (eq8_step A a B b n) (fun o => o0 <= o /\ eq_range o0 o) (fun o => Z.max 0 (n + 1 - o))
                  (fun r => r = true <-> eq_range o0 n) o) as (r & Er & HR).
      * intros o' (Hge' & Heq'). unfold eq8_step. destruct (o' <? n) eqn:Eo.
        -- destruct (A (a + o') =? B (b + o')) eqn:Ee.
           ++ apply Z.eqb_eq in Ee. split; [|lia]. split; [lia|]. intros k Hk.
              destruct (Z.eq_dec k o') as [->|Hne]; [exact Ee|]. apply Heq'. lia.
           ++ apply Z.eqb_neq in Ee. split; [discriminate|]. intros K. exfalso. apply Ee, K. lia.
        -- split; [|reflexivity]. intros _ k Hk. apply Heq'. lia.
      * split; assumption.
      * lia.
      * exists r. split; assumption.
    + exists false. split; [reflexivity|]. split; [discriminate|]. intros K. contradiction.
Qed.

(** Where the vectors end: at least one and at most 32 bytes are left. *)
Definition vec_end : Z := if n <=? 32 then 0 else 32 * ((n - 1) / 32).

Lemma memory_equals_ok : byte_mem A -> byte_mem B -> 0 <= n < 2 ^ 62 ->
  exists r, memory_equals A a B b n = Some r /\
    (r = true <-> top_upto vec_end /\ eq_range vec_end n).
Proof.
  intros HA HB Hn. unfold memory_equals, vec_end. cbv zeta. destruct (n <=? 32) eqn:E32.
  - replace (Z.max 0 (n - 32) =? 0) with true by lia.
    destruct (tail_ok 0 HA HB ltac:(lia) ltac:(lia)) as (r & E & H). exists r. split; [exact E|].
    rewrite H. split; [intros K; split; [intros k Hk; lia|exact K]|tauto].
  - replace (Z.max 0 (n - 32) =? 0) with false by lia.
    assert (Hs : exists o c, (if Z.max 0 (n - 128) =? 0 then Some (0, zero_vec)
       else match loop (eq4_step A a B b (Z.max 0 (n - 128))) (0, (zero_vec, zero_vec, zero_vec, zero_vec)) with
            | Some (o, (c0, c1, c2, c3)) => Some (o, vec_or (vec_or c0 c1) (vec_or c2 c3))
            | None => None end) = Some (o, c) /\ Sees c (fun k => 0 <= k < o) /\ o mod 32 = 0 /\ 0 <= o < n).
    { destruct (Z.max 0 (n - 128) =? 0) eqn:E4.
      - exists 0, zero_vec. split; [reflexivity|]. split; [|lia]. eapply sees_ext; [|apply zero_sees]. intros k; cbv beta; lia.
      - destruct (eq4_ok (Z.max 0 (n - 128))) as (o & c0 & c1 & c2 & c3 & E & Hsee & Hm & Hge & Hlt & Ho); [lia|].
        rewrite E. eexists o, _. split; [reflexivity|]. split; [exact Hsee|]. split; [lia|]. lia. }
    destruct Hs as (o & c & -> & Hsee & Hm & Ho).
    destruct (eq1_ok (Z.max 0 (n - 32)) o c) as (o' & c' & -> & Hsee' & Hm' & Hge' & Hoo & Hlt & Hz); [lia|exact Hm|lia|exact Hsee|].
    assert (Heo : o' = 32 * ((n - 1) / 32)) by lia.
    pose proof (movemask_sees _ _ Hsee') as Hmm. destruct (movemask c').
    + exists false. split; [reflexivity|]. split; [discriminate|]. intros [K _]. exfalso.
      assert (true = false) by (apply Hmm; intros k Hk; apply K; lia). discriminate.
    + destruct (tail_ok o' HA HB ltac:(lia) ltac:(lia)) as (r & E & H). exists r. split; [exact E|].
      rewrite H, <- Heo. split; [|tauto]. intros K. split; [|exact K]. intros k Hk. now apply Hmm.
Qed.

End Eq.
