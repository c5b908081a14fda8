(** Correctness of mmtf.c. *)
From Coq Require Import Permutation.
From Verif Require Import Base Simd SimdProof MtfModel MtfSpec.

(** *** Move to front *)
Definition TabOk (t : list Z) : Prop := NoDup t /\ forall x, List.In x t <-> is_byte x.

Lemma tab_init : TabOk bytes256.
Proof.
  unfold TabOk, bytes256. split.
  - apply FinFun.Injective_map_NoDup; [intros a b H; lia|apply seq_NoDup].
  - intros x. rewrite in_map_iff. unfold is_byte. split.
    + intros (k & <- & Hk). apply in_seq in Hk. lia.
    + intros H. exists (Z.to_nat x). split; [lia|]. apply in_seq. lia.
Qed.
Global Opaque bytes256.
Lemma tab_length t : TabOk t -> length t = 256%nat.
Proof.
  intros [H1 H2]. assert (P : Permutation t bytes256).
  { apply NoDup_Permutation; [exact H1|apply tab_init|]. intros x. rewrite H2. symmetry. apply tab_init. }
  rewrite (Permutation_length P). Transparent bytes256. unfold bytes256. Opaque bytes256. now rewrite map_length, seq_length.
Qed.
Lemma tab_front t x : TabOk t -> is_byte x -> TabOk (to_front x t).
Proof.
  intros [H1 H2] Hx. unfold to_front. split.
  - constructor; [|now apply NoDup_filter]. intros H. apply filter_In in H. destruct H as [_ H]. rewrite Z.eqb_refl in H. discriminate.
  - intros y. cbn [List.In]. rewrite filter_In, H2. split.
    + intros [<-|[H _]]; [exact Hx|exact H].
    + intros H. destruct (y =? x) eqn:E; [left; lia|right]. auto.
Qed.
Lemma tab_table h : Forall is_byte h -> TabOk (mtf_table h).
Proof.
  unfold mtf_table. assert (K : forall h t, TabOk t -> Forall is_byte h -> TabOk (fold_left (fun t x => to_front x t) h t)).
  { clear h. induction h as [|x h IH]; intros t Ht Hh; [exact Ht|]. cbn [fold_left]. inversion Hh; subst. apply IH; [now apply tab_front|assumption]. }
  intros H. apply K; [exact tab_init|exact H].
Qed.

Lemma rank_split x a b : ~ List.In x a -> rank x (a ++ x :: b) = len a.
Proof.
  induction a as [|y a IH]; intros H; cbn [app rank].
  - now rewrite Z.eqb_refl.
  - replace (y =? x) with false by (cbn [List.In] in H; lia). rewrite IH by (intros H'; apply H; now right). rewrite len_cons. lia.
Qed.
Lemma in_split_first x (t : list Z) : List.In x t -> exists a b, t = a ++ x :: b /\ ~ List.In x a.
Proof.
  induction t as [|y t IH]; [intros []|]. intros H. destruct (Z.eq_dec y x) as [->|Hne].
  - exists [], t. split; [reflexivity|intros []].
  - destruct H as [H|H]; [contradiction|]. destruct (IH H) as (a & b & -> & Ha). exists (y :: a), b. split; [reflexivity|]. intros [H'|H']; [contradiction|]. now apply Ha.
Qed.
Lemma rank_in x t : TabOk t -> is_byte x -> is_byte (rank x t) /\ nth (Z.to_nat (rank x t)) t 0 = x.
Proof.
  intros Ht Hx. pose proof (tab_length t Ht) as Hl. destruct Ht as [H1 H2]. apply H2 in Hx. destruct (in_split_first x t Hx) as (a & b & -> & Ha).
  rewrite rank_split by exact Ha. rewrite app_length in Hl. cbn [length] in Hl. unfold is_byte, len. split; [lia|].
  rewrite Nat2Z.id. rewrite app_nth2 by lia. now rewrite Nat.sub_diag.
Qed.
Lemma rank_nth d t : TabOk t -> is_byte d -> rank (nth (Z.to_nat d) t 0) t = d.
Proof.
  intros Ht Hd. pose proof (tab_length t Ht) as Hl. destruct Ht as [H1 H2]. unfold is_byte in Hd.
  destruct (nth_split t 0 (n := Z.to_nat d)) as (a & b & E & Ea); [lia|]. rewrite E at 2. rewrite rank_split; [unfold len; lia|].
  rewrite E in H1. apply NoDup_remove_2 in H1. intros H. apply H1. apply in_or_app. now left.
Qed.
Lemma nth_byte d t : TabOk t -> is_byte d -> is_byte (nth (Z.to_nat d) t 0).
Proof. intros Ht Hd. pose proof (tab_length t Ht). apply (proj2 Ht). apply nth_In. unfold is_byte in Hd. lia. Qed.

(** Moving the entry [d] of a table to the front. *)
Definition mv (d : Z) (t : Z -> Z) (k : Z) : Z := if k =? 0 then t d else if k <=? d then t (k - 1) else t k.

Lemma front_mv x t k : TabOk t -> is_byte x -> is_byte k ->
  nth (Z.to_nat k) (to_front x t) 0 = mv (rank x t) (fun k => nth (Z.to_nat k) t 0) k.
Proof.
  intros Ht Hx Hk. destruct (rank_in x t Ht Hx) as [Hr Hr']. unfold mv. destruct (k =? 0) eqn:E0.
  - assert (k = 0) by lia. subst k. cbn. now rewrite Hr'.
  - destruct Ht as [H1 H2]. apply H2 in Hx. destruct (in_split_first x t Hx) as (a & b & Et & Ha).
    assert (Hf : filter (fun y => negb (y =? x)) t = a ++ b).
    { assert (K : forall l, ~ List.In x l -> filter (fun y => negb (y =? x)) l = l).
      { induction l as [|y l IH]; intros H; [reflexivity|]. cbn [filter]. replace (y =? x) with false by (cbn [List.In] in H; lia). cbn [negb]. f_equal. apply IH. intros H'. apply H. now right. }
      rewrite Et, filter_app. cbn [filter]. rewrite Z.eqb_refl. cbn [negb]. rewrite !K; [reflexivity| |exact Ha].
      rewrite Et in H1. apply NoDup_remove_2 in H1. intros H. apply H1. apply in_or_app. now right. }
    unfold to_front. rewrite Hf. unfold is_byte in *. replace (Z.to_nat k) with (S (Z.to_nat (k - 1))) at 1 by lia. cbn [nth].
    rewrite Et at 1. rewrite rank_split by exact Ha. destruct (k <=? len a) eqn:E1; unfold len in E1.
    + rewrite Et. rewrite !app_nth1 by lia. reflexivity.
    + rewrite Et. rewrite !app_nth2 by lia. replace (Z.to_nat k - length a)%nat with (S (Z.to_nat (k - 1) - length a)) by lia. reflexivity.
Qed.

(** *** Vectors *)
Lemma lanes_in W j : List.In j (lanes W) <-> 0 <= j < W.
Proof. unfold lanes. rewrite in_map_iff. split; [intros (k & <- & H); apply in_seq in H; lia|intros H; exists (Z.to_nat j); split; [lia|apply in_seq; lia]]. Qed.
Lemma nth_lanes {X} (f : Z -> X) d W j : 0 <= j < W -> nth (Z.to_nat j) (map f (lanes W)) d = f j.
Proof.
  intros H. assert (Hl : (Z.to_nat j < length (map f (lanes W)))%nat) by (unfold lanes; rewrite !map_length, seq_length; lia).
  rewrite (nth_indep _ d (f 0) Hl), map_nth. f_equal. unfold lanes. rewrite (map_nth Z.of_nat (seq 0 (Z.to_nat W)) O), seq_nth by lia. lia.
Qed.
Lemma vec_at W f j : 0 <= j < W -> vec W f j = f j.
Proof. apply nth_lanes. Qed.
Lemma mask_at W f j : 0 <= j < W -> mask W f j = f j.
Proof. apply nth_lanes. Qed.
Lemma lor_0 x : Z.lor x 0 = x.
Proof. apply Z.lor_0_r. Qed.

Section Vec.
  Variables (W : Z) (H0 : Z -> Z -> Z) (rk : Z -> Z).
  Hypothesis Hrk : forall j, 0 <= j < W -> is_byte (rk j).
  Hypothesis Hinj : forall j d e, 0 <= j < W -> is_byte d -> is_byte e -> H0 d j = H0 e j -> d = e.

  (** The loop has looked at the rows below [k]; [val] is what it collects in out. *)
  Definition VInv (val : Z -> Z) (s : Z * Z * (Z -> Z) * (Z -> Z) * (Z -> bool) * (Z -> Z) * (Z -> Z -> Z)) : Prop :=
    let '(k, index, cur, out, prev, history0, H) := s in
    1 <= k <= 256 /\ index = k - 1 /\
    forall j, 0 <= j < W ->
      cur j = H0 (k - 1) j /\ prev j = (rk j <=? k - 1) /\ out j = sel (rk j <=? k - 1) (val j) /\
      history0 j = sel (rk j <=? k - 1) (H0 (rk j) j) /\
      (forall r, 1 <= r < k -> H r j = mv (rk j) (fun d => H0 d j) r) /\ (forall r, k <= r -> H r j = H0 r j).
  Definition VDone (val : Z -> Z) (r : (Z -> Z) * (Z -> Z) * (Z -> Z -> Z)) : Prop :=
    let '(out, history0, H) := r in
    forall j, 0 <= j < W -> out j = val j /\ forall k, is_byte k -> hrow H 0 history0 k j = mv (rk j) (fun d => H0 d j) k.

  (** Both inner loops: [one] says what is put into out when [k] matches. *)
  Definition vstep (matched : Z -> Z -> bool) (put : Z -> Z -> Z) (s : Z * Z * (Z -> Z) * (Z -> Z) * (Z -> bool) * (Z -> Z) * (Z -> Z -> Z))
    : (Z * Z * (Z -> Z) * (Z -> Z) * (Z -> bool) * (Z -> Z) * (Z -> Z -> Z)) + (Z -> Z) * (Z -> Z) * (Z -> Z -> Z) :=
    let '(k, index, cur, out, prev, history0, H) := s in
    if forallb prev (lanes W) then inr (out, history0, H)
    else
      let index1 := w8 (index + 1) in
      let m := mask W (fun j => matched index1 j) in
      inl (k + 1, index1, H k, vec W (fun j => Z.lor (out j) (sel (m j) (put index1 j))), mask W (fun j => prev j || m j),
        vec W (fun j => Z.lor (history0 j) (sel (m j) (H k j))),
        hrow H k (vec W (fun j => Z.lor (sel (negb (prev j)) (cur j)) (sel (prev j) (H k j))))).

  Lemma vexit val k index cur out prev history0 H : VInv val (k, index, cur, out, prev, history0, H) -> forallb prev (lanes W) = true ->
    VDone val (out, history0, H).
  Proof.
    intros (Hk & _ & HJ) Hall. rewrite forallb_forall in Hall. intros j Hj. destruct (HJ j Hj) as (J1 & J2 & J3 & J4 & J5 & J6).
    rewrite (Hall j) in J2 by now apply lanes_in. rewrite <- J2 in J3, J4. cbn [sel] in J3, J4. split; [exact J3|].
    intros r Hr. unfold hrow. destruct (r =? 0) eqn:E; [unfold mv; now rewrite E|]. unfold is_byte in Hr.
    destruct (Z_lt_ge_dec r k) as [Hlt|Hge]; [apply J5; lia|]. rewrite J6 by lia. unfold mv. rewrite E. now replace (r <=? rk j) with false by lia.
  Qed.

  Lemma vnext val k index cur out prev history0 H (m : Z -> bool) (put : Z -> Z) :
    VInv val (k, index, cur, out, prev, history0, H) -> forallb prev (lanes W) = false ->
    (forall j, 0 <= j < W -> m j = (rk j =? k)) -> (forall j, 0 <= j < W -> rk j = k -> put j = val j) ->
    VInv val (k + 1, w8 (index + 1), H k, vec W (fun j => Z.lor (out j) (sel (m j) (put j))), mask W (fun j => prev j || m j),
        vec W (fun j => Z.lor (history0 j) (sel (m j) (H k j))),
        hrow H k (vec W (fun j => Z.lor (sel (negb (prev j)) (cur j)) (sel (prev j) (H k j))))) /\ k <= 255.
  Proof.
    intros (Hk & Hi & HJ) Hall Hm Hput.
    assert (Hk2 : k <= 255).
    { destruct (Z_le_gt_dec k 255) as [|Hgt]; [assumption|exfalso]. apply not_true_iff_false in Hall. apply Hall. apply forallb_forall. intros j Hj. apply lanes_in in Hj.
      destruct (HJ j Hj) as (_ & J2 & _). rewrite J2. specialize (Hrk j Hj). unfold is_byte in Hrk. lia. }
    split; [|exact Hk2]. split; [lia|]. split; [rewrite Hi; unfold w8; rewrite Z.mod_small by lia; lia|].
    intros j Hj. destruct (HJ j Hj) as (J1 & J2 & J3 & J4 & J5 & J6). rewrite !vec_at, mask_at by exact Hj. specialize (Hm j Hj). specialize (Hput j Hj).
    replace (k + 1 - 1) with k by lia. split; [apply J6; lia|]. split; [rewrite J2, Hm; lia|].
    split; [|split; [|split]].
    - rewrite J3, Hm. destruct (rk j =? k) eqn:E.
      + replace (rk j <=? k - 1) with false by lia. replace (rk j <=? k) with true by lia. cbn [sel]. apply Hput. lia.
      + cbn [sel]. rewrite lor_0. f_equal. lia.
    - rewrite J4, Hm. destruct (rk j =? k) eqn:E.
      + replace (rk j <=? k - 1) with false by lia. replace (rk j <=? k) with true by lia. cbn [sel]. rewrite Z.lor_0_l, J6 by lia. f_equal. lia.
      + cbn [sel]. rewrite lor_0. f_equal. lia.
    - intros r Hr. unfold hrow. destruct (r =? k) eqn:E; [|apply J5; lia]. assert (r = k) by lia. subst r. rewrite vec_at, J2, J1, J6 by (try exact Hj; lia).
      unfold mv. replace (k =? 0) with false by lia. destruct (rk j <=? k - 1) eqn:E1.
      + replace (k <=? rk j) with false by lia. reflexivity.
      + replace (k <=? rk j) with true by lia. cbn [negb sel]. now rewrite lor_0.
    - intros r Hr. unfold hrow. replace (r =? k) with false by lia. apply J6. lia.
  Qed.

  (** Vector of symbols [H0 (rk j) j]. *)
  Lemma menc_vec_ok sym : (forall j, 0 <= j < W -> sym j = H0 (rk j) j) ->
    exists out H', menc_vec W sym H0 = Some (out, H') /\ forall j, 0 <= j < W -> out j = rk j /\ forall k, is_byte k -> H' k j = mv (rk j) (fun d => H0 d j) k.
  Proof.
    intros Hsym. unfold menc_vec.
    assert (Hm : forall k j, is_byte k -> 0 <= j < W -> (sym j =? H0 k j) = (rk j =? k)).
    { intros k j Hk Hj. rewrite (Hsym j Hj). destruct (rk j =? k) eqn:E; [replace k with (rk j) by lia; apply Z.eqb_refl|].
      apply Z.eqb_neq. intros He. apply Hinj in He; [lia|exact Hj|now apply Hrk|exact Hk]. }
    destruct (loop_inv (menc_step W sym) (VInv rk) (fun '(k, _, _, _, _, _, _) => 256 - k) (VDone rk)
      (1, 0, H0 0, vec W (fun _ => 0), mask W (fun j => sym j =? H0 0 j), vec W (fun j => sel (mask W (fun j => sym j =? H0 0 j) j) (H0 0 j)), H0)) as (r & E & HD).
    - intros [[[[[[k index] cur] out] prev] history0] H] HV. unfold menc_step. destruct (forallb prev (lanes W)) eqn:Ea; [exact (vexit _ _ _ _ _ _ _ _ HV Ea)|].
      cbv zeta. destruct (vnext rk k index cur out prev history0 H (mask W (fun j => sym j =? H k j)) (fun _ => w8 (index + 1)) HV Ea) as [V1 V2].
      + destruct HV as (Hk & Hi & HJ). intros j Hj. destruct (HJ j Hj) as (_ & _ & _ & _ & _ & J6). rewrite mask_at, J6 by (try exact Hj; lia).
        destruct (Z_le_gt_dec k 255) as [|Hgt]; [apply Hm; [unfold is_byte; lia|exact Hj]|].
        exfalso. apply not_true_iff_false in Ea. apply Ea. apply forallb_forall. intros j' Hj'. apply lanes_in in Hj'.
        destruct (HJ j' Hj') as (_ & J2 & _). rewrite J2. specialize (Hrk j' Hj'). unfold is_byte in Hrk. lia.
      + destruct HV as (Hk & Hi & HJ). intros j Hj Hr. specialize (Hrk j Hj). unfold is_byte in Hrk. rewrite Hi. unfold w8. rewrite Z.mod_small by lia. lia.
      + destruct HV as (Hk & _). split; [exact V1|lia].
    - split; [lia|]. split; [lia|]. intros j Hj. rewrite !vec_at, !mask_at by exact Hj. rewrite (Hm 0 j) by (try exact Hj; unfold is_byte; lia).
      specialize (Hrk j Hj). unfold is_byte in Hrk. split; [reflexivity|]. split; [lia|]. change (1 - 1) with 0. destruct (rk j =? 0) eqn:E0.
      + replace (rk j <=? 0) with true by lia. cbn [sel]. split; [lia|]. split; [f_equal; lia|]. split; [intros; lia|reflexivity].
      + replace (rk j <=? 0) with false by lia. cbn [sel]. split; [reflexivity|]. split; [reflexivity|]. split; [intros; lia|reflexivity].
    - lia.
    - rewrite E. destruct r as [[out history0] H]. exists out, (hrow H 0 history0). split; [reflexivity|exact HD].
  Qed.

  (** Vector of indices [rk j]. *)
  Lemma mdec_vec_ok idx : (forall j, 0 <= j < W -> idx j = rk j) ->
    exists out H', mdec_vec W idx H0 = Some (out, H') /\ forall j, 0 <= j < W -> out j = H0 (rk j) j /\ forall k, is_byte k -> H' k j = mv (rk j) (fun d => H0 d j) k.
  Proof.
    intros Hidx. unfold mdec_vec. set (val := fun j => H0 (rk j) j).
    destruct (loop_inv (mdec_step W idx) (VInv val) (fun '(k, _, _, _, _, _, _) => 256 - k) (VDone val)
      (1, 0, H0 0, vec W (fun j => sel (mask W (fun j => idx j =? 0) j) (H0 0 j)), mask W (fun j => idx j =? 0), vec W (fun j => sel (mask W (fun j => idx j =? 0) j) (H0 0 j)), H0)) as (r & E & HD).
    - intros [[[[[[k index] cur] out] prev] history0] H] HV. unfold mdec_step. destruct (forallb prev (lanes W)) eqn:Ea; [exact (vexit _ _ _ _ _ _ _ _ HV Ea)|].
      cbv zeta. destruct (vnext val k index cur out prev history0 H (mask W (fun j => idx j =? w8 (index + 1))) (H k) HV Ea) as [V1 V2].
      + destruct HV as (Hk & Hi & HJ). intros j Hj. rewrite mask_at, Hidx by exact Hj. rewrite Hi. replace (k - 1 + 1) with k by lia.
        destruct (Z_le_gt_dec k 255) as [|Hgt]; [unfold w8; rewrite Z.mod_small by lia; reflexivity|].
        exfalso. apply not_true_iff_false in Ea. apply Ea. apply forallb_forall. intros j' Hj'. apply lanes_in in Hj'.
        destruct (HJ j' Hj') as (_ & J2 & _). rewrite J2. specialize (Hrk j' Hj'). unfold is_byte in Hrk. lia.
      + destruct HV as (Hk & Hi & HJ). intros j Hj Hr. destruct (HJ j Hj) as (_ & _ & _ & _ & _ & J6). unfold val. rewrite Hr. apply J6. lia.
      + destruct HV as (Hk & _). split; [exact V1|lia].
    - split; [lia|]. split; [lia|]. intros j Hj. rewrite !vec_at, !mask_at, Hidx by exact Hj.
      specialize (Hrk j Hj). unfold is_byte in Hrk. split; [reflexivity|]. change (1 - 1) with 0. unfold val. destruct (rk j =? 0) eqn:E0.
      + replace (rk j <=? 0) with true by lia. cbn [sel]. split; [reflexivity|]. split; [f_equal; lia|]. split; [f_equal; lia|]. split; [intros; lia|reflexivity].
      + replace (rk j <=? 0) with false by lia. cbn [sel]. split; [reflexivity|]. split; [reflexivity|]. split; [reflexivity|]. split; [intros; lia|reflexivity].
    - lia.
    - rewrite E. destruct r as [[out history0] H]. exists out, (hrow H 0 history0). split; [reflexivity|exact HD].
  Qed.
End Vec.

(** *** The loop over the vectors *)

(** Table of lane [j] after [c] vectors. *)
Definition tab (W : Z) (X : mem) (c j : Z) : list Z := mtf_table (map (fun m => X (j + W * Z.of_nat m)) (seq 0 (Z.to_nat c))).
Definition cod (W : Z) (X : mem) (i : Z) : Z := rank (X i) (mtf_table (lane_hist W X i)).

Lemma cod_at W X c j : 0 <= j < W -> 0 <= c -> cod W X (W * c + j) = rank (X (W * c + j)) (tab W X c j).
Proof.
  intros Hj Hc. unfold cod, tab, lane_hist. replace ((W * c + j) mod W) with j by (rewrite Z.mul_comm, Z.add_comm, Z.mod_add by lia; rewrite Z.mod_small; lia).
  replace ((W * c + j) / W) with c by (rewrite Z.mul_comm, Z.add_comm, Z.div_add by lia; rewrite Z.div_small; lia). reflexivity.
Qed.
Lemma tab_ext W X X' c j : (forall m, 0 <= m < c -> X (j + W * m) = X' (j + W * m)) -> tab W X c j = tab W X' c j.
Proof. intros H. unfold tab. f_equal. apply map_ext_in. intros m Hm. apply in_seq in Hm. apply H. lia. Qed.
Lemma tab_ok W X c j : (forall m, 0 <= m < c -> is_byte (X (j + W * m))) -> TabOk (tab W X c j).
Proof. intros H. apply tab_table. apply Forall_forall. intros x Hx. apply in_map_iff in Hx. destruct Hx as (m & <- & Hm). apply in_seq in Hm. apply H. lia. Qed.
Lemma tab_S W X c j : 0 <= c -> tab W X (c + 1) j = to_front (X (j + W * c)) (tab W X c j).
Proof.
  intros Hc. unfold tab. replace (Z.to_nat (c + 1)) with (S (Z.to_nat c)) by lia. rewrite seq_S, map_app. unfold mtf_table. rewrite fold_left_app. cbn [map fold_left].
  rewrite Nat.add_0_l, Z2Nat.id by lia. reflexivity.
Qed.
Lemma tab_0 W X j k : is_byte k -> nth (Z.to_nat k) (tab W X 0 j) 0 = k.
Proof.
  intros Hk. unfold tab, mtf_table. cbn [Z.to_nat seq map fold_left]. Transparent bytes256. unfold bytes256. Opaque bytes256.
  unfold is_byte in Hk. rewrite (map_nth Z.of_nat (seq 0 256) O), seq_nth by lia. lia.
Qed.
Lemma cod_ext W X X' i : 0 < W -> 0 <= i -> (forall k, 0 <= k <= i -> X k = X' k) -> cod W X i = cod W X' i.
Proof.
  intros HW Hi H. rewrite (Z.div_mod i W) by lia. rewrite !cod_at by (try apply Z.mod_pos_bound; try apply Z.div_pos; lia).
  pose proof (Z.mod_pos_bound i W HW). pose proof (Z.div_mod i W ltac:(lia)) as Hd. assert (0 <= i / W) by (apply Z.div_pos; lia).
  rewrite <- Hd. rewrite (H i) by lia. f_equal. apply tab_ext. intros m Hm. apply H. nia.
Qed.
Lemma cod_inj W X X' n : 0 < W -> (forall i, 0 <= i < n -> is_byte (X i)) -> (forall i, 0 <= i < n -> is_byte (X' i)) ->
  (forall i, 0 <= i < n -> cod W X i = cod W X' i) -> forall i, 0 <= i < n -> X i = X' i.
Proof.
  intros HW HX HX' H. assert (K : forall k i, (0 <= i < Z.of_nat k) -> i < n -> X i = X' i).
  { induction k as [|k IH]; [lia|]. intros i Hi Hn. destruct (Z_lt_ge_dec i (Z.of_nat k)) as [Hlt|Hge]; [apply IH; lia|].
    specialize (H i ltac:(lia)). pose proof (Z.mod_pos_bound i W HW). pose proof (Z.div_mod i W ltac:(lia)) as Hd. assert (0 <= i / W) by (apply Z.div_pos; lia).
    rewrite Hd in H. rewrite !cod_at in H by lia. rewrite <- Hd in H.
    rewrite <- (tab_ext W X X') in H by (intros m Hm; apply IH; nia).
    assert (Ht : TabOk (tab W X (i / W) (i mod W))) by (apply tab_ok; intros m Hm; apply HX; nia).
    rewrite <- (proj2 (rank_in _ _ Ht (HX i ltac:(lia)))), H. apply rank_in; [exact Ht|apply HX'; lia]. }
  intros i Hi. apply (K (S (Z.to_nat i))); lia.
Qed.

Lemma find_row_ok f r : forall k d, d <= r < d + Z.of_nat k -> (forall e, d <= e < r -> f e = false) -> f r = true -> find_row k d f = Some r.
Proof.
  induction k as [|k IH]; intros d Hd Hf Hr; [lia|]. cbn [find_row]. destruct (Z.eq_dec d r) as [->|Hne]; [now rewrite Hr|].
  rewrite Hf by lia. apply IH; [lia| |exact Hr]. intros e He. apply Hf. lia.
Qed.

Section Run.
  Variables (dec : bool) (W : Z) (M0 : mem) (pin n pout : Z).
  Hypothesis HW : 0 < W.
  Hypothesis Hfw : forward_ok pin n pout.
  Hypothesis Hbin : forall i, 0 <= i < n -> is_byte (M0 (pin + i)).

  Definition src (X : mem) (i : Z) : Z := if dec then cod W X i else X i.
  Definition dst (X : mem) (i : Z) : Z := if dec then X i else cod W X i.
  (** The first [l] bytes are done, [X] being the plain data. *)
  Definition Done (l : Z) (X M : mem) : Prop :=
    (forall i, 0 <= i < l -> is_byte (X i)) /\
    (forall i, 0 <= i < l -> M0 (pin + i) = src X i /\ M (pout + i) = dst X i) /\
    (forall x, x < pout \/ pout + l <= x -> M x = M0 x).
  (** The plain data of the bytes after the first [W * c]. *)
  Definition more (X : mem) (c : Z) : mem := fun i =>
    if i <? W * c then X i else if dec then nth (Z.to_nat (M0 (pin + i))) (tab W X c (i mod W)) 0 else M0 (pin + i).
  Definition Hist (X : mem) (c : Z) (H : Z -> Z -> Z) : Prop := forall k j, is_byte k -> 0 <= j < W -> H k j = nth (Z.to_nat k) (tab W X c j) 0.

  Lemma more_tab X c j : 0 <= j < W -> tab W (more X c) c j = tab W X c j.
  Proof. intros Hj. apply tab_ext. intros m Hm. unfold more. replace (j + W * m <? W * c) with true by nia. reflexivity. Qed.
  Lemma done_tab l X M c j : Done l X M -> W * c <= l -> 0 <= j < W -> TabOk (tab W X c j).
  Proof. intros (D1 & _) Hl Hj. apply tab_ok. intros m Hm. apply D1. nia. Qed.
  Lemma more_ok X c M j : 0 <= c -> Done (W * c) X M -> 0 <= j < W -> W * c + j < n ->
    is_byte (more X c (W * c + j)) /\ M0 (pin + (W * c + j)) = src (more X c) (W * c + j).
  Proof.
    intros Hc HD Hj Hn. pose proof (done_tab _ _ _ c j HD ltac:(lia) Hj) as Ht. pose proof (Hbin (W * c + j) ltac:(nia)) as Hb.
    unfold src. rewrite cod_at, more_tab by lia. unfold more. replace (W * c + j <? W * c) with false by lia.
    replace ((W * c + j) mod W) with j by (rewrite Z.mul_comm, Z.add_comm, Z.mod_add by lia; rewrite Z.mod_small; lia).
    destruct dec; [|auto]. split; [now apply nth_byte|]. symmetry. now apply rank_nth.
  Qed.

  (** What the functions for one vector yield. *)
  Lemma one_ok X c M H v : 0 <= c -> Done (W * c) X M -> Hist X c H -> W * c + W <= n -> (forall j, 0 <= j < W -> v j = M0 (pin + (W * c + j))) ->
    exists out H', (if dec then mdec_vec W else menc_vec W) v H = Some (out, H') /\ (forall j, 0 <= j < W -> out j = dst (more X c) (W * c + j)) /\ Hist (more X c) (c + 1) H'.
  Proof.
    intros Hc HD HH Hn Hv. set (rk := fun j => rank (more X c (W * c + j)) (tab W X c j)).
    assert (Ht : forall j, 0 <= j < W -> TabOk (tab W X c j)) by (intros j Hj; exact (done_tab _ _ _ c j HD ltac:(lia) Hj)).
    assert (Hm : forall j, 0 <= j < W -> is_byte (more X c (W * c + j)) /\ M0 (pin + (W * c + j)) = src (more X c) (W * c + j)) by (intros j Hj; apply (more_ok X c M j Hc HD Hj); lia).
    assert (R1 : forall j, 0 <= j < W -> is_byte (rk j)) by (intros j Hj; apply rank_in; [now apply Ht|now apply Hm]).
    assert (R2 : forall j, 0 <= j < W -> H (rk j) j = more X c (W * c + j)) by (intros j Hj; rewrite HH by (try exact Hj; now apply R1); apply rank_in; [now apply Ht|now apply Hm]).
    assert (R3 : forall j d e, 0 <= j < W -> is_byte d -> is_byte e -> H d j = H e j -> d = e).
    { intros j d e Hj Hd He. rewrite !HH by assumption. intros E. rewrite <- (rank_nth d (tab W X c j)) by (try assumption; now apply Ht). rewrite E. apply rank_nth; [now apply Ht|exact He]. }
    assert (HT : forall j k, 0 <= j < W -> is_byte k -> mv (rk j) (fun d => H d j) k = nth (Z.to_nat k) (tab W (more X c) (c + 1) j) 0).
    { intros j k Hj Hk. rewrite tab_S, more_tab by lia. replace (j + W * c) with (W * c + j) by lia. rewrite front_mv by (try apply Hm; auto).
      fold (rk j). specialize (R1 j Hj). unfold mv, is_byte in *. destruct (k =? 0) eqn:E0; [apply HH; [exact R1|exact Hj]|]. destruct (k <=? rk j) eqn:E; apply HH; unfold is_byte; lia. }
    unfold dst, src in *. destruct dec.
    - destruct (mdec_vec_ok W H rk R1 R3 v) as (out & H' & E & HE).
      { intros j Hj. rewrite Hv by exact Hj. destruct (Hm j Hj) as [_ ->]. rewrite cod_at, more_tab by lia. reflexivity. }
      exists out, H'. split; [exact E|]. split; [intros j Hj; destruct (HE j Hj) as [-> _]; now apply R2|].
      intros k j Hk Hj. destruct (HE j Hj) as [_ HE2]. rewrite HE2 by exact Hk. now apply HT.
    - destruct (menc_vec_ok W H rk R1 R3 v) as (out & H' & E & HE).
      { intros j Hj. rewrite Hv, R2 by exact Hj. apply Hm, Hj. }
      exists out, H'. split; [exact E|]. split; [intros j Hj; destruct (HE j Hj) as [-> _]; rewrite cod_at, more_tab by lia; reflexivity|].
      intros k j Hk Hj. destruct (HE j Hj) as [_ HE2]. rewrite HE2 by exact Hk. now apply HT.
  Qed.

  Lemma src_ext X X' i : 0 <= i -> (forall k, 0 <= k <= i -> X k = X' k) -> src X i = src X' i /\ dst X i = dst X' i.
  Proof. intros Hi H. pose proof (cod_ext W X X' i HW Hi H) as E. unfold src, dst. destruct dec; split; try exact E; apply H; lia. Qed.

  (** [t] more bytes have been written. *)
  Lemma done_more X c M M' t : 0 <= c -> Done (W * c) X M -> 0 <= t <= W -> W * c + t <= n ->
    (forall j, 0 <= j < t -> M' (pout + (W * c + j)) = dst (more X c) (W * c + j)) ->
    (forall x, x < pout + W * c \/ pout + W * c + t <= x -> M' x = M x) -> Done (W * c + t) (more X c) M'.
  Proof.
    intros Hc HD Ht Hn H1 H2. pose proof HD as (D1 & D2 & D3).
    assert (Hlow : forall k, 0 <= k < W * c -> X k = more X c k) by (intros k Hk; unfold more; replace (k <? W * c) with true by lia; reflexivity).
    split; [|split; [intros i Hi; split|]].
    - intros i Hi. destruct (Z_lt_ge_dec i (W * c)) as [Hlt|Hge]; [rewrite <- Hlow by lia; apply D1; lia|].
      replace i with (W * c + (i - W * c)) by lia. apply (more_ok X c M _ Hc HD); lia.
    - destruct (Z_lt_ge_dec i (W * c)) as [Hlt|Hge].
      + destruct (D2 i ltac:(lia)) as [-> _]. apply src_ext; [lia|]. intros k Hk. apply Hlow. lia.
      + replace i with (W * c + (i - W * c)) by lia. apply (more_ok X c M _ Hc HD); lia.
    - destruct (Z_lt_ge_dec i (W * c)) as [Hlt|Hge].
      + rewrite H2 by lia. destruct (D2 i ltac:(lia)) as [_ ->]. apply src_ext; [lia|]. intros k Hk. apply Hlow. lia.
      + specialize (H1 (i - W * c) ltac:(lia)). replace (W * c + (i - W * c)) with i in H1 by lia. exact H1.
    - intros x Hx. rewrite H2 by nia. apply D3. nia.
  Qed.

  (** The bytes not read yet are the original ones. *)
  Lemma done_read X l M i : Done l X M -> l <= i < n -> M (pin + i) = M0 (pin + i).
  Proof. intros (_ & _ & D3) Hi. apply D3. unfold forward_ok in Hfw. lia. Qed.

  Definition RInv (s : Z * Z * Z * mem * (Z -> Z -> Z)) : Prop :=
    let '(rem, p, q, M, H) := s in
    exists X c, 0 <= c /\ rem = n - W * c /\ 0 <= rem /\ p = pin + W * c /\ q = pout + W * c /\ Done (W * c) X M /\ Hist X c H.

  Lemma run_loop : 0 <= n < 2 ^ 64 ->
    exists rem p q M H, loop (mtf_step W (if dec then mdec_vec W else menc_vec W)) (n, pin, pout, M0, hist0) = Some (Some (rem, p, q, M, H)) /\
      RInv (rem, p, q, M, H) /\ rem < W.
  Proof.
    intros Hn.
    destruct (loop_inv (mtf_step W (if dec then mdec_vec W else menc_vec W)) RInv (fun '(rem, _, _, _, _) => rem)
      (fun r => match r with Some (rem, p, q, M, H) => RInv (rem, p, q, M, H) /\ rem < W | None => False end) (n, pin, pout, M0, hist0)) as (r & E & HR).
    - intros [[[[rem p] q] M] H] HI. unfold mtf_step. destruct (W <=? rem) eqn:E; [|split; [exact HI|lia]].
      destruct HI as (X & c & Hc & Hr & Hr0 & -> & -> & HD & HH).
      destruct (one_ok X c M H (vec W (fun j => M (pin + W * c + j))) Hc HD HH ltac:(lia)) as (out & H' & E1 & O1 & O2).
      { intros j Hj. rewrite vec_at by exact Hj. rewrite <- Z.add_assoc. apply (done_read X (W * c)); [exact HD|lia]. }
      rewrite E1. split; [|lia]. exists (more X c), (c + 1). replace (W * (c + 1)) with (W * c + W) by lia. split; [lia|]. split; [lia|]. split; [lia|]. split; [lia|]. split; [lia|]. split; [|exact O2].
      apply (done_more X c M); [exact Hc|exact HD|lia|lia| |].
      + intros j Hj. rewrite vstore_in by lia. rewrite <- O1 by exact Hj. f_equal. lia.
      + intros x Hx. apply vstore_out. lia.
    - exists (fun _ => 0), 0. rewrite Z.mul_0_r. split; [lia|]. split; [lia|]. split; [lia|]. split; [lia|]. split; [lia|]. split.
      + split; [intros; lia|]. split; [intros; lia|]. reflexivity.
      + intros k j Hk Hj. unfold hist0. now rewrite tab_0.
    - lia.
    - destruct r as [[[[[rem p] q] M] H]|]; [|destruct HR]. exists rem, p, q, M, H. auto.
  Qed.

  Lemma tail_ok X c M H t : 0 <= c -> Done (W * c) X M -> Hist X c H -> Z.of_nat t <= W -> W * c + Z.of_nat t <= n ->
    exists M', fold_left ((if dec then mdec_tail else menc_tail) H) (lanes (Z.of_nat t)) (pin + W * c, pout + W * c, M)
      = (pin + W * c + Z.of_nat t, pout + W * c + Z.of_nat t, M') /\
      (forall j, 0 <= j < Z.of_nat t -> M' (pout + (W * c + j)) = dst (more X c) (W * c + j)) /\
      (forall x, x < pout + W * c \/ pout + W * c + Z.of_nat t <= x -> M' x = M x).
  Proof.
    intros Hc HD HH. induction t as [|t IH]; intros Ht Hn.
    - exists M. split; [rewrite !Z.add_0_r; reflexivity|]. split; [intros; lia|reflexivity].
    - destruct IH as (M1 & E1 & A1 & A2); [lia|lia|].
      assert (HD1 : Done (W * c + Z.of_nat t) (more X c) M1) by (apply (done_more X c M); try assumption; lia).
      assert (Hl : lanes (Z.of_nat (S t)) = lanes (Z.of_nat t) ++ [Z.of_nat t]) by (unfold lanes; rewrite !Nat2Z.id, seq_S, map_app; reflexivity).
      rewrite Hl, fold_left_app, E1. cbn [fold_left]. set (j := Z.of_nat t) in *.
      assert (Hj : 0 <= j < W) by lia. destruct (more_ok X c M j Hc HD Hj ltac:(lia)) as [B1 B2].
      pose proof (done_tab _ _ _ c j HD ltac:(lia) Hj) as HT.
      assert (Hrd : M1 (pin + W * c + j) = src (more X c) (W * c + j)).
      { rewrite <- B2, <- Z.add_assoc. apply (done_read (more X c) (W * c + j)); [exact HD1|lia]. }
      pose proof (cod_at W (more X c) c j Hj Hc) as Hcod. rewrite more_tab in Hcod by exact Hj.
      destruct (rank_in _ _ HT B1) as [K1 K2].
      assert (K : forall v, v = dst (more X c) (W * c + j) ->
        exists M', (pin + W * c + j + 1, pout + W * c + j + 1, vstore 1 (fun _ => v) M1 (pout + W * c + j)) = (pin + W * c + Z.of_nat (S t), pout + W * c + Z.of_nat (S t), M') /\
        (forall j, 0 <= j < Z.of_nat (S t) -> M' (pout + (W * c + j)) = dst (more X c) (W * c + j)) /\
        (forall x, x < pout + W * c \/ pout + W * c + Z.of_nat (S t) <= x -> M' x = M x)).
      { intros v Hv. exists (vstore 1 (fun _ => v) M1 (pout + W * c + j)). split; [do 2 f_equal; lia|]. split.
        - intros i Hi. destruct (Z.eq_dec i j) as [->|Hne]; [rewrite vstore_in by lia; exact Hv|]. rewrite vstore_out by lia. apply A1. lia.
        - intros x Hx. rewrite vstore_out by lia. apply A2. lia. }
      unfold src, dst in *. destruct dec.
      + unfold mdec_tail. apply K. rewrite Hrd, Hcod, HH by assumption. exact K2.
      + unfold menc_tail. rewrite Hrd. rewrite (find_row_ok _ (rank (more X c (W * c + j)) (tab W X c j))).
        * apply K. rewrite Hcod. unfold w8. apply Z.mod_small. exact K1.
        * unfold is_byte in K1. lia.
        * intros e He. unfold is_byte in K1. apply Z.eqb_neq. rewrite HH by (try exact Hj; unfold is_byte; lia). intros E. pose proof (rank_nth e _ HT ltac:(unfold is_byte; lia)) as Hre. rewrite E in Hre. lia.
        * apply Z.eqb_eq. rewrite HH by assumption. exact K2.
  Qed.

  Lemma mtf_run_ok aligned : 0 <= n < 2 ^ 64 -> (aligned = true -> pin mod W = 0 /\ pout mod W = 0) ->
    exists M' X, mtf_run dec W aligned M0 pin n pout = XRet n M' /\ Done n X M'.
  Proof.
    intros Hn Hal. unfold mtf_run.
    replace (aligned && (W <=? n) && negb ((pin mod W =? 0) && (pout mod W =? 0))) with false.
    2: { destruct aligned; [|reflexivity]. destruct Hal as [-> ->]; [reflexivity|]. cbn. now rewrite andb_false_r. }
    destruct (run_loop Hn) as (rem & p & q & M & H & E & (X & c & Hc & Hr & Hr0 & -> & -> & HD & HH) & Hlt).
    rewrite E. destruct (tail_ok X c M H (Z.to_nat rem)) as (M' & E1 & A1 & A2); try assumption; try lia.
    rewrite Z2Nat.id in E1, A1, A2 by exact Hr0. rewrite E1. exists M', (more X c). split; [reflexivity|]. replace n with (W * c + rem) at 1 by lia.
    apply (done_more X c M); try assumption; lia.
  Qed.
End Run.
