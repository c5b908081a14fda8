(** Streams in a row. *)
From Verif Require Import Base Spec Spec2 ArchSpec.
From Coq Require Import Permutation.

(** What is needed of a piece. *)
Definition PieceOk (slack : Z) (x : piece) : Prop :=
  1 <= a_n x <= max_in /\ exists out, a_comp x (a_In x) (a_n x) (a_cap x) = COk out /\
  (forall C p, holds C p out -> rd32 C (p + a_field x) = len out /\ rd32 C (p + (4 - a_field x)) = a_n x) /\
  RestoresI true (a_dec x) slack out (a_In x) (a_n x).

Lemma total_nonneg slack xs : Forall (PieceOk slack) xs -> 0 <= total xs.
Proof. induction 1 as [|x xs [H _] _ IH]; cbn [total fold_right]; [lia|]. fold (total xs). lia. Qed.

Lemma packed_exists slack xs : Forall (PieceOk slack) xs -> exists bytes, packed xs bytes.
Proof.
  induction 1 as [|x xs (_ & out & E & _) _ [rest IH]]; [exists []; constructor|]. exists (out ++ rest). now constructor.
Qed.
Lemma packed_fun xs b : packed xs b -> forall b', packed xs b' -> b = b'.
Proof.
  induction 1 as [|x xs out rest E _ IH]; intros b' H; inversion H as [|? ? o r E' H']; subst; [reflexivity|]. rewrite E in E'. injection E' as <-. f_equal. now apply IH.
Qed.

Lemma in_order slack C outEnd : 0 <= slack -> forall xs bytes pin pout, Forall (PieceOk slack) xs -> packed xs bytes ->
  placed C bytes pin pout (total xs) outEnd -> Unpacks xs C (jobs (decoders xs) C pin pout) pout outEnd slack.
Proof.
  intros Hs. induction xs as [|x xs IH]; intros bytes pin pout HF Hp (P1 & P2 & P3 & P4 & P5 & P6) M.
  - exists M. cbn [decoders map jobs do_jobs total fold_right contents concat]. split; [reflexivity|]. split; [now rewrite slice_0 by lia|]. auto.
  - inversion HF as [|? ? (Hn & out & E & Hh & HR) HF']; subst. inversion Hp as [|? ? o rest E' Hp']; subst. rewrite E in E'. injection E' as <-.
    apply holds_app in P1. destruct P1 as [P1 P1']. destruct (Hh C pin P1) as [H1 H2]. rewrite len_app in P3.
    pose proof (total_nonneg slack xs HF') as Ht. cbn [total fold_right] in P5, P6. fold (total xs) in P5, P6.
    assert (0 <= len rest) by (unfold len; lia).
    cbn [decoders map jobs do_jobs j_dec j_in j_size j_out]. rewrite H1, H2. fold (decoders xs).
    destruct (HR C pin (len out) M pout (outEnd - pout) P1 P2 ltac:(lia) eq_refl P4 ltac:(lia) ltac:(lia)) as (M1 & -> & S1 & K1).
    destruct (a_n x =? 0) eqn:E0; [lia|]. assert (0 <= len out) by (unfold len; lia).
    destruct (IH rest (pin + len out) (pout + a_n x) HF' Hp') with (M := M1) as (M2 & -> & S2 & K2).
    { split; [exact P1'|]. repeat split; lia. }
    exists M2. split; [reflexivity|]. cbn [total fold_right contents map concat]. fold (total xs). fold (contents xs). split.
    + rewrite slice_app by lia. rewrite S2. f_equal. rewrite <- S1. apply slice_ext. intros k Hk. apply K2. lia.
    + intros y Hy. rewrite K2 by lia. apply K1. lia.
Qed.

(** *** Any order, if nothing behind the output is written *)

(** A call together with what it is to restore. *)
Record djob := mkD { d_job : job; d_In : mem; d_n : Z }.
Definition DOk (C : mem) (outEnd : Z) (d : djob) : Prop :=
  1 <= d_n d /\ forall M, exists M', j_dec (d_job d) C (j_in (d_job d)) (j_size (d_job d)) M (j_out (d_job d)) (outEnd - j_out (d_job d)) = DRet (d_n d) M' /\
    slice M' (j_out (d_job d)) (d_n d) = slice (d_In d) 0 (d_n d) /\
    forall x, x < j_out (d_job d) \/ j_out (d_job d) + d_n d <= x -> M' x = M x.
Definition apart (a b : djob) : Prop := j_out (d_job a) + d_n a <= j_out (d_job b) \/ j_out (d_job b) + d_n b <= j_out (d_job a).

Lemma apart_perm l l' : Permutation l l' -> ForallOrdPairs apart l -> ForallOrdPairs apart l'.
Proof.
  assert (Hsym : forall a b, apart a b -> apart b a) by (unfold apart; tauto).
  induction 1 as [|x l l' Hp IH|x y l|l l1 l2 Hp1 IH1 Hp2 IH2]; intros H; auto.
  - inversion H as [|? ? H1 H2]; subst. constructor; [|now apply IH]. now apply (Permutation_Forall Hp).
  - inversion H as [|? ? H1 H2]; subst. inversion H1 as [|? ? H3 H4]; subst. inversion H2 as [|? ? H5 H6]; subst.
    constructor; [constructor; auto|]. constructor; assumption.
Qed.

Lemma do_apart C outEnd : forall ds, Forall (DOk C outEnd) ds -> ForallOrdPairs apart ds -> forall M,
  exists M', do_jobs (map d_job ds) C outEnd M = Some M' /\
  Forall (fun d => slice M' (j_out (d_job d)) (d_n d) = slice (d_In d) 0 (d_n d)) ds /\
  forall x, Forall (fun d => x < j_out (d_job d) \/ j_out (d_job d) + d_n d <= x) ds -> M' x = M x.
Proof.
  induction ds as [|d ds IH]; intros HF HA M; [exists M; cbn; auto|].
  inversion HF as [|? ? [Hn Hd] HF']; subst. inversion HA as [|? ? Hap HA']; subst. destruct (Hd M) as (M1 & E & S1 & K1).
  cbn [map do_jobs]. rewrite E. destruct (d_n d =? 0) eqn:E0; [lia|]. destruct (IH HF' HA' M1) as (M2 & -> & S2 & K2).
  exists M2. split; [reflexivity|]. split.
  - constructor; [|exact S2]. rewrite <- S1. apply slice_ext. intros k Hk. apply K2. revert Hap. apply Forall_impl. unfold apart. intros d' H. lia.
  - intros x Hx. inversion Hx as [|? ? H1 H2]; subst. rewrite K2 by exact H2. now apply K1.
Qed.

Fixpoint djobs (xs : list piece) (C : mem) (p q : Z) : list djob :=
  match xs with
  | [] => []
  | x :: xs' => mkD (mkJob (a_dec x) p (rd32 C (p + a_field x)) q) (a_In x) (a_n x)
                :: djobs xs' C (p + rd32 C (p + a_field x)) (q + rd32 C (p + (4 - a_field x)))
  end.
Lemma djobs_jobs xs C : forall p q, map d_job (djobs xs C p q) = jobs (decoders xs) C p q.
Proof. induction xs as [|x xs IH]; intros p q; [reflexivity|]. cbn [djobs map decoders jobs d_job]. f_equal. apply IH. Qed.

Lemma djobs_ok C outEnd : forall xs bytes pin pout, Forall (PieceOk 0) xs -> packed xs bytes -> placed C bytes pin pout (total xs) outEnd ->
  Forall (DOk C outEnd) (djobs xs C pin pout) /\ ForallOrdPairs apart (djobs xs C pin pout) /\
  Forall (fun d => pout <= j_out (d_job d) /\ j_out (d_job d) + d_n d <= pout + total xs) (djobs xs C pin pout) /\
  forall M', Forall (fun d => slice M' (j_out (d_job d)) (d_n d) = slice (d_In d) 0 (d_n d)) (djobs xs C pin pout) -> slice M' pout (total xs) = contents xs.
Proof.
  induction xs as [|x xs IH]; intros bytes pin pout HF Hp (P1 & P2 & P3 & P4 & P5 & P6).
  - cbn [djobs]. split; [constructor|]. split; [constructor|]. split; [constructor|]. intros M' _. cbn [total fold_right contents map concat]. now rewrite slice_0 by lia.
  - inversion HF as [|? ? (Hn & out & E & Hh & HR) HF']; subst. inversion Hp as [|? ? o rest E' Hp']; subst. rewrite E in E'. injection E' as <-.
    apply holds_app in P1. destruct P1 as [P1 P1']. destruct (Hh C pin P1) as [H1 H2]. rewrite len_app in P3.
    pose proof (total_nonneg 0 xs HF') as Ht. cbn [total fold_right] in *. fold (total xs) in *.
    assert (0 <= len rest) by (unfold len; lia). assert (0 <= len out) by (unfold len; lia).
    cbn [djobs]. rewrite H1, H2.
    destruct (IH rest (pin + len out) (pout + a_n x) HF' Hp') as (I1 & I2 & I3 & I4).
    { split; [exact P1'|]. repeat split; lia. }
    split; [|split; [|split]].
    + constructor; [|exact I1]. split; [cbn [d_n]; lia|]. cbn [d_job d_n d_In j_dec j_in j_size j_out]. intros M.
      destruct (HR C pin (len out) M pout (outEnd - pout) P1 P2 ltac:(lia) eq_refl P4 ltac:(lia) ltac:(lia)) as (M1 & E1 & S1 & K1).
      exists M1. split; [exact E1|]. split; [exact S1|]. intros y Hy. apply K1. lia.
    + constructor; [|exact I2]. revert I3. apply Forall_impl. intros d Hd. unfold apart. cbn [d_job d_n j_out]. lia.
    + constructor; [cbn [d_job d_n j_out]; lia|]. revert I3. apply Forall_impl. intros d Hd. lia.
    + intros M' HM. inversion HM as [|? ? HM1 HM2]; subst. cbn [d_job d_n d_In j_out] in HM1.
      cbn [contents map concat]. fold (contents xs). rewrite slice_app by lia. rewrite HM1. f_equal. now apply I4.
Qed.

Lemma any_order C outEnd xs bytes pin pout js : Forall (PieceOk 0) xs -> packed xs bytes -> placed C bytes pin pout (total xs) outEnd ->
  Permutation (jobs (decoders xs) C pin pout) js -> Unpacks xs C js pout outEnd 0.
Proof.
  intros HF Hp HP Hperm M. rewrite <- djobs_jobs in Hperm. destruct (Permutation_map_inv _ _ (Permutation_sym Hperm)) as (ds & -> & Hd). 
  destruct (djobs_ok C outEnd xs bytes pin pout HF Hp HP) as (I1 & I2 & I3 & I4).
  destruct (do_apart C outEnd ds) with (M := M) as (M' & E & S & K); [now apply (Permutation_Forall Hd)|now apply (apart_perm _ _ Hd)|].
  exists M'. split; [exact E|]. split; [apply I4; now apply (Permutation_Forall (Permutation_sym Hd))|].
  intros x Hx. apply K. apply (Permutation_Forall Hd). revert I3. apply Forall_impl. intros d H. lia.
Qed.

(** *** Pieces from codecs *)
Lemma piece_of_rt comp need dec decs slack In n cap : RoundTrip comp need decs slack -> HeaderSizes comp -> decs dec ->
  byte_mem In -> 1 <= n <= max_in -> need n <= cap < 2 ^ 32 -> PieceOk slack (mkPiece comp dec 4 In n cap).
Proof.
  intros HR HH Hd HIn Hn Hc. split; [exact Hn|]. cbn [a_comp a_In a_n a_cap a_field a_dec].
  destruct (HR In n cap HIn Hn ltac:(lia)) as (out & E & _ & Hl & HD). exists out. split; [exact E|]. split.
  - intros C p Hh. destruct (HH In n cap out HIn Hn E) as (rest & Ho). rewrite Ho in Hh. pose proof Hh as Hh0.
    apply holds_app in Hh. destruct Hh as [_ Hh]. change (len (le32 n)) with 4 in Hh. unfold max_in in Hn. replace (p + (4 - 4)) with p by lia.
    split; [|apply (rd32_holds C p n _ ltac:(lia) Hh0)]. apply (rd32_holds C (p + 4) (len out) rest); [|exact Hh]. unfold len in *. lia.
  - intros C pin inSize M pout oc H1 H2 H3 H4 H5 H6 H7. cbn [InSize] in H4. subst inSize. apply (HD dec Hd); auto. lia.
Qed.
Lemma piece_of_rtI exact P comp need dec decs slack In n cap : RoundTripI exact P comp need decs slack -> HeaderSizesI comp -> decs dec ->
  byte_mem In -> 1 <= n <= max_in -> P In n -> need n <= cap < 2 ^ 32 -> PieceOk slack (mkPiece comp dec 0 In n cap).
Proof.
  intros HR HH Hd HIn Hn HP Hc. split; [exact Hn|]. cbn [a_comp a_In a_n a_cap a_field a_dec].
  destruct (HR In n cap HIn Hn HP Hc) as (out & E & _ & Hl & HD). exists out. split; [exact E|]. split.
  - intros C p Hh. destruct (HH In n cap out HIn Hn E) as (rest & Ho). rewrite Ho in Hh. pose proof Hh as Hh0.
    apply holds_app in Hh. destruct Hh as [_ Hh]. change (len (le32 (len out))) with 4 in Hh. unfold max_in in Hn. replace (p + 0) with p by lia. replace (p + (4 - 0)) with (p + 4) by lia.
    split; [|apply (rd32_holds C (p + 4) n rest ltac:(lia) Hh)]. apply (rd32_holds C p (len out) _ ltac:(unfold len in *; lia) Hh0).
  - intros C pin inSize M pout oc H1 H2 H3 H4 H5 H6 H7. apply (HD dec Hd); auto. cbn [InSize] in H4. subst inSize. destruct exact; cbn [InSize]; lia.
Qed.
Lemma piece_slack s s' x : s <= s' -> PieceOk s x -> PieceOk s' x.
Proof.
  intros Hs (Hn & out & E & Hh & HR). split; [exact Hn|]. exists out. split; [exact E|]. split; [exact Hh|].
  intros C pin inSize M pout oc H1 H2 H3 H4 H5 H6 H7. destruct (HR C pin inSize M pout oc H1 H2 H3 H4 H5 H6 H7) as (M' & E1 & E2 & E3).
  exists M'. split; [exact E1|]. split; [exact E2|]. intros y Hy. apply E3. lia.
Qed.
