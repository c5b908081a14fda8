(** rle8_sh: runs are not copied, except the one that ends the input. *)
From Verif Require Import LargeSpec Base Simd SimdProof Spec MtfModel MtfSpec MzModel MzPack HsModel HsStream HsEnc HsWrite HsThm SaveSpec.

(** What is to be saved in the first [p] bytes. *)
Fixpoint sv (rs : list (Z * Z)) (p : Z) : Z :=
  match rs with [] => 0 | (a, b) :: t => (if b <=? p then Z.max 0 (b - a - 14) else 0) + sv t p end.

Lemma sv_piece In n p q : p <= q -> forall rs from, Repetitions 1 In from n rs ->
  (forall a b, List.In (a, b) rs -> p < b <= q -> p <= a \/ b - a <= 14) ->
  sv rs q - sv rs p <= Z.max 0 (q - Z.max p from - 14).
Proof.
  intros Hpq. induction rs as [|[a b] t IH]; intros from HR H; cbn [sv]; [lia|].
  cbn [Repetitions] in HR. destruct HR as (H1 & H2 & _ & H4). specialize (IH b H4 (fun x y Hi => H x y (or_intror Hi))).
  pose proof (H a b (or_introl eq_refl)) as Hab. destruct (b <=? q) eqn:E1, (b <=? p) eqn:E2; lia.
Qed.
Lemma sv_none p q : p <= q -> forall rs, (forall a b, List.In (a, b) rs -> p < b <= q -> b - a <= 14) -> sv rs q <= sv rs p.
Proof.
  intros Hpq. induction rs as [|[a b] t IH]; intros H; cbn [sv]; [lia|]. specialize (IH (fun x y Hi => H x y (or_intror Hi))).
  pose proof (H a b (or_introl eq_refl)) as Hab. destruct (b <=? q) eqn:E1, (b <=? p) eqn:E2; lia.
Qed.
Lemma sv_0 In n : forall rs from, 0 <= from -> Repetitions 1 In from n rs -> sv rs 0 = 0.
Proof.
  induction rs as [|[a b] t IH]; intros from Hf HR; cbn [sv]; [reflexivity|]. cbn [Repetitions] in HR. destruct HR as (H1 & H2 & _ & H4).
  rewrite (IH b) by (auto; lia). destruct (b <=? 0) eqn:E; lia.
Qed.
Lemma sv_all In n : forall rs from, Repetitions 1 In from n rs -> sv rs n = saving 14 rs.
Proof.
  induction rs as [|[a b] t IH]; intros from HR; cbn [sv saving]; [reflexivity|]. cbn [Repetitions] in HR. destruct HR as (H1 & H2 & _ & H4).
  rewrite (IH b) by auto. replace (b <=? n) with true by lia. reflexivity.
Qed.
Lemma rep_const In n : forall rs from a b, Repetitions 1 In from n rs -> List.In (a, b) rs -> from <= a /\ a <= b <= n /\ forall x, a <= x < b -> In x = In a.
Proof.
  induction rs as [|[a0 b0] t IH]; intros from a b HR []; cbn [Repetitions] in HR; destruct HR as (H1 & H2 & H3 & H4).
  - assert (a0 = a /\ b0 = b) as [-> ->] by (split; congruence). split; [lia|]. split; [lia|].
    intros x Hx. replace x with (a + (x - a)) by lia. assert (K : 0 <= x - a) by lia. assert (K2 : x - a < b - a) by lia. revert K2. generalize (x - a) K. clear x Hx K.
    intros d Hd. pattern d. apply natlike_ind; [| |exact Hd]; [intros _; f_equal; lia|]. intros k Hk IHk Hlt. rewrite <- IHk by lia. replace (a + Z.succ k) with (a + k + 1) by lia. apply H3; lia.
  - destruct (IH b0 a b H4 H) as (G1 & G2 & G3). split; [lia|]. split; [lia|exact G3].
Qed.

Section Main.
  Variables (In : mem) (n : Z) (rs : list (Z * Z)).
  Hypothesis HIn : byte_mem In.
  Hypothesis Hn : 1 <= n <= max_in.
  Hypothesis HR : Repetitions 1 In 0 n rs.

  (** A run begins at [q]. *)
  Definition Bd (q : Z) : Prop := 0 < q -> In q <> In (q - 1).
  Definition Const (a b : Z) : Prop := forall x, a <= x < b -> In x = In a.
  Definition Runs14 (p q : Z) : Prop := forall a b, p <= a -> b <= q -> Const a b -> b - a <= 14.

  Lemma const_bd a b q : 0 <= a -> Const a b -> Bd q -> a < q -> q < b -> False.
  Proof. intros Ha HC HB H1 H2. apply HB; [lia|]. rewrite (HC q), (HC (q - 1)) by lia. reflexivity. Qed.
  Lemma runs_nil p q : q <= p -> Runs14 p q.
  Proof. intros H a b Ha Hb _. lia. Qed.
  Lemma runs_join p q r : 0 <= p -> Runs14 p q -> Bd q -> r - q <= 14 -> Runs14 p r.
  Proof.
    intros Hp H HB Hr a b Ha Hb HC. destruct (Z_le_gt_dec b q); [apply H; auto|]. destruct (Z_lt_ge_dec a q); [|lia].
    exfalso. apply (const_bd a b q); [lia|assumption|assumption|lia|lia].
  Qed.
  Lemma sv_copy p q : 0 <= p <= q -> Bd p -> Runs14 p q -> sv rs q <= sv rs p.
  Proof.
    intros Hp HB H. apply sv_none; [lia|]. intros a b Hi Hb. destruct (rep_const In n rs 0 a b HR Hi) as (H1 & H2 & H3).
    destruct (Z_lt_ge_dec a p); [|apply H; [lia|lia|exact H3]]. exfalso. apply (const_bd a b p); [lia|assumption|assumption|lia|lia].
  Qed.
  Lemma sv_run p q : 0 <= p <= q -> Bd p -> sv rs q <= sv rs p + Z.max 0 (q - p - 14).
  Proof.
    intros Hp HB. pose proof (sv_piece In n p q ltac:(lia) rs 0 HR) as K. replace (Z.max p 0) with p in K by lia. enough (sv rs q - sv rs p <= Z.max 0 (q - p - 14)) by lia. apply K.
    intros a b Hi Hb. destruct (rep_const In n rs 0 a b HR Hi) as (H1 & H2 & H3).
    destruct (Z_lt_ge_dec a p); [|lia]. exfalso. apply (const_bd a b p); [lia|assumption|assumption|lia|lia].
  Qed.

  Definition Copying (i pos c : Z) (s : est) : Prop :=
    let rle := s_rle (e_g s) in
    e_blk s = pos /\ 16 * c + 128 * sv rs pos <= 129 * pos /\ 0 <= e_copy s /\ Bd pos /\
    if e_same s then
      pos + e_copy s + e_run s = i /\ 1 <= e_run s <= 14 /\ (forall k, pos + e_copy s <= k < i -> In k = rle) /\ e_change s = 0 /\
      e_sym s = cnt rle (slice In pos (e_copy s)) + e_run s /\ Runs14 pos (pos + e_copy s) /\ Bd (pos + e_copy s)
    else
      pos + e_copy s = i /\ e_run s = 0 /\ 1 <= e_change s <= e_copy s /\ (forall k, i - e_change s <= k < i -> In k = e_last s) /\
      e_last s <> rle /\ e_sym s = cnt rle (slice In pos (e_copy s)) /\ Runs14 pos (i - e_change s) /\ Bd (i - e_change s).
  Definition Running (i pos c : Z) (s : est) : Prop :=
    e_copy s = 0 /\ e_change s = 0 /\ 0 <= e_run s /\ pos + e_run s = i /\ (forall k, pos <= k < i -> In k = s_rle (e_g s)) /\
    16 * c + 128 * sv rs pos <= 129 * pos + (if 15 <=? e_run s then 528 else 0) /\ (e_same s = false -> e_run s = 0) /\ Bd pos.
  Definition EInv (i : Z) (os : option est) : Prop :=
    exists s toks pos, os = Some s /\ 0 <= pos /\ Emits ([], syms0) toks (e_ops s, e_g s) (slice In 0 pos) /\ is_byte (s_rle (e_g s)) /\
      if e_wascopy s then Copying i pos (cost (e_ops s)) s else Running i pos (cost (e_ops s)) s.

  Lemma step_save i os : 0 <= i < n -> EInv i os -> EInv (i + 1) (sh_step In os i).
  Proof.
    intros Hi (s & toks & pos & -> & Hp & HE & Hb & HI). unfold max_in in Hn. unfold sh_step. set (rle := s_rle (e_g s)) in *.
    pose proof (HIn i) as Hbi. destruct (e_wascopy s) eqn:Ew.
    - destruct HI as (Hblk & HC & Hcp & HBp & HI). fold rle in HI. rewrite Hblk. destruct (In i =? rle) eqn:Es; [apply Z.eqb_eq in Es|].
      + destruct (e_same s) eqn:Esame; cbn [negb].
        * destruct HI as (H1 & H2 & H3 & H4 & H5 & HRu & HBd). destruct (14 <? e_run s + 1) eqn:E14.
          -- replace (w64 (e_sym s + 1 - (e_run s + 1))) with (cnt rle (slice In pos (e_copy s))) by (rewrite w64_id; pose proof (cnt_range rle (slice In pos (e_copy s))); rewrite len_slice in * by lia; lia).
             pose proof (cnt_range rle (slice In pos (e_copy s))) as Hr. rewrite len_slice in Hr by lia.
             set (k := cnt rle (slice In pos (e_copy s))) in *. rewrite (w64_id (e_copy s - k)) by lia. rewrite (w64_id ((e_copy s - k) * 2)) by lia. rewrite (w64_id (k * 7)) by lia.
             destruct (copy_ok In HIn ((e_copy s - k) * 2 <? k * 7) toks pos (e_ops s) (e_g s) (e_copy s) HE Hp ltac:(lia)) as (t' & ops' & g' & E1 & E2 & E3 & E4); [fold rle; fold k; lia|].
             rewrite E1. eexists _, t', (pos + e_copy s). split; [reflexivity|]. cbn [e_ops e_g e_wascopy]. split; [lia|]. split; [exact E2|].
             split; [rewrite E3; exact Hb|]. unfold Running. cbn [e_copy e_change e_run e_same e_g]. rewrite E3. fold rle. split; [lia|]. split; [lia|]. split; [lia|]. split; [lia|].
             split; [intros j Hj; destruct (Z.eq_dec j i) as [->|]; [exact Es|apply H3; lia]|]. split; [|split; [discriminate|exact HBd]]. replace (15 <=? e_run s + 1) with true by lia.
             pose proof (sv_copy pos (pos + e_copy s) ltac:(lia) HBp HRu). lia.
          -- eexists _, toks, pos. split; [reflexivity|]. cbn [e_ops e_g e_wascopy]. split; [lia|]. split; [exact HE|]. split; [exact Hb|].
             unfold Copying. cbn [e_copy e_change e_run e_same e_g e_blk e_sym e_last]. fold rle. split; [reflexivity|]. split; [lia|]. split; [lia|]. split; [exact HBp|]. split; [lia|]. split; [lia|].
             split; [intros j Hj; destruct (Z.eq_dec j i) as [->|]; [exact Es|apply H3; lia]|]. split; [lia|]. split; [lia|]. split; [exact HRu|exact HBd].
        * destruct HI as (H1 & H2 & H3 & H4 & H5 & H6 & HRu & HBd).
          assert (HBi : Bd i) by (intros _; rewrite Es, (H4 (i - 1)) by lia; congruence). destruct (10 <=? e_change s) eqn:E10.
          -- rewrite (w64_id (e_copy s - e_change s)) by lia.
             destruct (copy_ok In HIn false toks pos (e_ops s) (e_g s) (e_copy s - e_change s) HE Hp ltac:(lia) ltac:(discriminate)) as (t' & ops' & g' & E1 & E2 & E3 & E4).
             assert (E1' : scopy In pos (e_copy s - e_change s) (e_ops s, e_g s) = (ops', g')) by congruence. rewrite E1'.
             destruct (change_ok In HIn t' (pos + (e_copy s - e_change s)) ops' g' (e_change s) (e_last s) E2 ltac:(lia) ltac:(lia)) as (F1 & F2 & F3); [intros k Hk; apply H4; lia|].
             eexists _, _, i. split; [reflexivity|]. cbn [e_ops e_g e_wascopy s_rle]. split; [lia|].
             replace (pos + (e_copy s - e_change s) + e_change s) with i in F1 by lia. split; [exact F1|]. split; [exact F3|].
             unfold Copying. cbn [e_copy e_change e_run e_same e_g e_blk e_sym e_last s_rle]. rewrite F2. split; [lia|].
             pose proof (sv_copy pos (i - e_change s) ltac:(lia) HBp HRu). pose proof (sv_run (i - e_change s) i ltac:(lia) HBd).
             split; [lia|]. split; [lia|]. split; [exact HBi|]. split; [lia|]. split; [lia|]. split; [lia|].
             split; [intros k Hk; replace k with i by lia; reflexivity|]. split; [congruence|].
             split; [rewrite slice_1, cnt_cons; replace (In i =? e_last s) with false by lia; reflexivity|].
             replace (i + 1 - 1) with i by lia. split; [apply runs_nil; lia|exact HBi].
          -- eexists _, toks, pos. split; [reflexivity|]. cbn [e_ops e_g e_wascopy]. split; [lia|]. split; [exact HE|]. split; [exact Hb|].
             unfold Copying. cbn [e_copy e_change e_run e_same e_g e_blk e_sym e_last]. fold rle. split; [reflexivity|]. split; [lia|]. split; [lia|]. split; [exact HBp|]. split; [lia|]. split; [lia|].
             split; [intros j Hj; replace j with i by lia; exact Es|]. split; [reflexivity|]. split; [lia|]. rewrite H1. split; [|exact HBi]. apply (runs_join pos (i - e_change s)); auto; lia.
      + rewrite andb_true_r. cbn [negb].
        assert (HI2 : let copy := if e_same s then e_copy s + e_run s else e_copy s in
          (if e_same s then 0 else e_run s) = 0 /\ (if e_same s then false else e_same s) = false /\
          pos + copy = i /\ 0 <= copy /\ 0 <= e_change s <= copy /\ (forall k, i - e_change s <= k < i -> In k = e_last s) /\ (0 < e_change s -> e_last s <> rle) /\ e_sym s = cnt rle (slice In pos copy) /\
          Runs14 pos (i - e_change s) /\ (e_change s = 0 -> Bd i) /\ (0 < e_change s -> Bd (i - e_change s))).
        { cbv zeta. destruct (e_same s) eqn:Esame.
          - destruct HI as (H1 & H2 & H3 & H4 & H5 & HRu & HBd). repeat (split; [first [reflexivity|lia|intros; lia]|]).
            split; [rewrite slice_app, cnt_app by lia; rewrite (cnt_all rle In (pos + e_copy s) (e_run s)) by (try lia; intros; apply H3; lia); lia|].
            split; [apply (runs_join pos (pos + e_copy s)); auto; lia|]. split; [|intros; lia]. intros _ _. rewrite (H3 (i - 1)) by lia. lia.
          - destruct HI as (H1 & H2 & H3 & H4 & H5 & H6 & HRu & HBd). repeat (split; [first [reflexivity|lia|exact H4|auto]|]). auto. }
        cbv zeta in HI2. set (copy := if e_same s then e_copy s + e_run s else e_copy s) in *. destruct HI2 as (-> & -> & H1 & H2 & H3 & H4 & H5 & H6 & HRu & HB0 & HB1).
        assert (Hr := cnt_range rle (slice In pos copy)). rewrite len_slice in Hr by lia.
        assert (Hsn : cnt rle (slice In pos (copy + 1)) = cnt rle (slice In pos copy)).
        { rewrite slice_snoc, cnt_app by lia. rewrite H1, cnt_cons, Es. change (cnt rle []) with 0. lia. }
        destruct (In i =? e_last s) eqn:El; [apply Z.eqb_eq in El|destruct (10 <=? e_change s) eqn:E10].
        * eexists _, toks, pos. split; [reflexivity|]. cbn [e_ops e_g e_wascopy]. split; [lia|]. split; [exact HE|]. split; [exact Hb|].
          unfold Copying. cbn [e_copy e_change e_run e_same e_g e_blk e_sym e_last]. fold rle. split; [reflexivity|]. split; [lia|]. split; [lia|]. split; [exact HBp|]. split; [lia|]. split; [lia|]. split; [lia|].
          split; [intros k Hk; destruct (Z.eq_dec k i) as [->|]; [exact El|apply H4; lia]|]. split; [rewrite <- El; lia|]. split; [lia|].
          replace (i + 1 - (e_change s + 1)) with (i - e_change s) by lia. split; [exact HRu|]. destruct (Z.eq_dec (e_change s) 0) as [Z0|Z0]; [rewrite Z0, Z.sub_0_r; auto|apply HB1; lia].
        * assert (Hcnt : cnt rle (slice In pos copy) = cnt rle (slice In pos (copy - e_change s))).
          { replace copy with (copy - e_change s + e_change s) at 1 by lia. rewrite slice_app, cnt_app by lia.
            rewrite (cnt_none rle (e_last s) In (pos + (copy - e_change s)) (e_change s)); [lia|lia|apply H5; lia|intros; apply H4; lia]. }
          assert (Hr2 := cnt_range rle (slice In pos (copy - e_change s))). rewrite len_slice in Hr2 by lia.
          rewrite (w64_id (copy - e_change s)) by lia. rewrite H6, Hcnt. set (k := cnt rle (slice In pos (copy - e_change s))) in *.
          rewrite (w64_id (copy - e_change s - k)) by lia. rewrite (w64_id ((copy - e_change s - k) * 2)) by lia. rewrite (w64_id (k * 7)) by lia.
          destruct (copy_ok In HIn ((copy - e_change s - k) * 2 <? k * 7) toks pos (e_ops s) (e_g s) (copy - e_change s) HE Hp ltac:(lia)) as (t' & ops' & g' & E1 & E2 & E3 & E4); [fold rle; fold k; lia|].
          rewrite E1.
          destruct (change_ok In HIn t' (pos + (copy - e_change s)) ops' g' (e_change s) (e_last s) E2 ltac:(lia) ltac:(lia)) as (F1 & F2 & F3); [intros j Hj; apply H4; lia|].
          assert (HBi : Bd i) by (intros _; rewrite (H4 (i - 1)) by lia; lia).
          eexists _, _, i. split; [reflexivity|]. cbn [e_ops e_g e_wascopy s_rle]. split; [lia|].
          replace (pos + (copy - e_change s) + e_change s) with i in F1 by lia. split; [exact F1|]. split; [exact F3|].
          unfold Copying. cbn [e_copy e_change e_run e_same e_g e_blk e_sym e_last s_rle]. rewrite F2. split; [lia|].
          pose proof (sv_copy pos (i - e_change s) ltac:(lia) HBp HRu). pose proof (sv_run (i - e_change s) i ltac:(lia) (HB1 ltac:(lia))).
          split; [lia|]. split; [lia|]. split; [exact HBi|]. split; [lia|]. split; [lia|]. split; [lia|].
          split; [intros j Hj; replace j with i by lia; reflexivity|]. split; [lia|].
          split; [change (0 + 1) with 1; rewrite slice_1, cnt_cons; rewrite El; reflexivity|].
          replace (i + 1 - 1) with i by lia. split; [apply runs_nil; lia|exact HBi].
        * eexists _, toks, pos. split; [reflexivity|]. cbn [e_ops e_g e_wascopy]. split; [lia|]. split; [exact HE|]. split; [exact Hb|].
          unfold Copying. cbn [e_copy e_change e_run e_same e_g e_blk e_sym e_last]. fold rle. split; [reflexivity|]. split; [lia|]. split; [lia|]. split; [exact HBp|]. split; [lia|]. split; [lia|]. split; [lia|].
          split; [intros k Hk; replace k with i by lia; reflexivity|]. split; [lia|]. split; [lia|]. replace (i + 1 - 1) with i by lia.
          destruct (Z.eq_dec (e_change s) 0) as [Z0|Z0]; [rewrite Z0, Z.sub_0_r in HRu; auto|]. split; [apply (runs_join pos (i - e_change s)); auto; try lia; apply HB1; lia|].
          intros _. rewrite (H4 (i - 1)) by lia. lia.
    - destruct HI as (H1 & H2 & H3 & H4 & H5 & H6 & H7 & HBp). fold rle in H5. rewrite H1, H2. destruct (In i =? rle) eqn:Es; [apply Z.eqb_eq in Es|].
      + assert (H5' : forall k, pos <= k < i + 1 -> In k = rle) by (intros k Hk; destruct (Z.eq_dec k i) as [->|]; [exact Es|apply H5; lia]).
        destruct (e_same s) eqn:Esame; cbn [negb].
        * destruct (14 <? e_run s + 1) eqn:E14.
          -- rewrite ecopy_0, scopy_0. set (b := w64 _ <? _). replace (if b then Some (e_ops s, e_g s) else Some (e_ops s, e_g s)) with (Some (e_ops s, e_g s)) by (destruct b; reflexivity). clearbody b.
             eexists _, toks, pos. split; [reflexivity|]. cbn [e_ops e_g e_wascopy]. split; [lia|]. split; [exact HE|]. split; [exact Hb|].
             unfold Running. cbn [e_copy e_change e_run e_same e_g]. fold rle. split; [lia|]. split; [lia|]. split; [lia|]. split; [lia|]. split; [exact H5'|]. split; [|split; [discriminate|exact HBp]].
             replace (15 <=? e_run s + 1) with true by lia. destruct (15 <=? e_run s); lia.
          -- eexists _, toks, pos. split; [reflexivity|]. cbn [e_ops e_g e_wascopy]. split; [lia|]. split; [exact HE|]. split; [exact Hb|].
             unfold Running. cbn [e_copy e_change e_run e_same e_g]. fold rle. split; [lia|]. split; [lia|]. split; [lia|]. split; [lia|]. split; [exact H5'|]. split; [|split; [discriminate|exact HBp]].
             replace (15 <=? e_run s + 1) with false by lia. replace (15 <=? e_run s) with false in H6 by lia. lia.
        * specialize (H7 eq_refl). change (10 <=? 0) with false. cbv iota. eexists _, toks, pos. split; [reflexivity|]. cbn [e_ops e_g e_wascopy]. split; [lia|]. split; [exact HE|]. split; [exact Hb|].
          unfold Running. cbn [e_copy e_change e_run e_same e_g]. fold rle. split; [lia|]. split; [lia|]. split; [lia|]. split; [lia|]. split; [exact H5'|]. split; [|split; [discriminate|exact HBp]].
          change (15 <=? 1) with false. rewrite H7 in H6. change (15 <=? 0) with false in H6. cbv iota in H6 |- *. lia.
      + rewrite andb_false_r. cbv iota. change (10 <=? 0) with false. cbv iota.
        destruct (run_ops_ok (e_ops s) (e_g s) (e_run s) Hb ltac:(lia)) as (t & F1 & F2 & F3). fold rle in F1, F2, F3.
        rewrite <- (slice_const In rle pos (e_run s)) in F1 by (try lia; intros; apply H5; lia).
        pose proof (emits_app _ _ _ _ _ _ _ HE F1) as HE2. replace (slice In 0 pos ++ slice In pos (e_run s)) with (slice In 0 i) in HE2 by (rewrite <- H4, slice_app by lia; reflexivity).
        set (r := if In i =? e_last s then _ else _).
        assert (Er : exists sym, r = Some (e_ops s, e_g s, In i, 0, 1, sym, e_blk s)).
        { unfold r. destruct (In i =? e_last s) eqn:El; [apply Z.eqb_eq in El; rewrite <- El|]; eexists; reflexivity. }
        assert (HBi : Bd i).
        { destruct (Z.eq_dec (e_run s) 0) as [Z0|Z0]; [replace i with pos by lia; exact HBp|]. intros _. rewrite (H5 (i - 1)) by lia. lia. }
        destruct Er as (sym & ->). cbn [negb]. fold rle. eexists _, _, i. split; [reflexivity|]. cbn [e_ops e_g e_wascopy]. split; [lia|]. split; [exact HE2|]. split; [exact Hb|].
        unfold Copying. cbn [e_copy e_change e_run e_same e_g e_blk e_sym e_last]. fold rle. rewrite cost_app, F3. split; [reflexivity|].
        pose proof (sv_run pos i ltac:(lia) HBp).
        split; [destruct (269 <? e_run s) eqn:E1; [|destruct (14 <=? e_run s) eqn:E2]; destruct (15 <=? e_run s) eqn:E3; lia|].
        split; [lia|]. split; [exact HBi|]. split; [lia|]. split; [lia|]. split; [lia|]. split; [intros k Hk; replace k with i by lia; reflexivity|]. split; [lia|].
        split; [rewrite slice_1, cnt_cons, Es; reflexivity|]. replace (i + 1 - 1) with i by lia. split; [apply runs_nil; lia|exact HBi].
  Qed.

  (** None of the pieces is in the run that ends the input. *)
  Hypothesis HL : forall a b, List.In (a, b) rs -> a < b -> exists x, b <= x < n /\ In x <> In a.

  Theorem sh_ops_save toks0 : sh_ops In n = Some (sops syms0 toks0 ++ fin) -> 16 * cost (sops syms0 toks0) + 128 * saving 14 rs <= 129 * n + 624.
  Proof.
    intros HO. rewrite <- (sv_all In n rs 0 HR).
    unfold max_in in Hn. unfold sh_ops in HO. assert (HI : EInv n (fold_left (sh_step In) (lanes n) (Some (mkE [] syms0 0 0 0 0 0 false false 0)))).
    { apply (fold_lanes (sh_step In) EInv); [lia| |intros i a Hi Ha; apply step_save; [lia|exact Ha]].
      eexists _, [], 0. split; [reflexivity|]. cbn [e_ops e_g e_wascopy]. split; [lia|]. split; [apply emits_nil|]. split; [cbv; split; congruence|].
      unfold Running. cbn [e_copy e_change e_run e_same e_g]. change (cost []) with 0. rewrite (sv_0 In n rs 0 ltac:(lia) HR). split; [lia|]. split; [lia|]. split; [lia|]. split; [lia|]. split; [intros; lia|]. split; [cbn; lia|].
      split; [reflexivity|]. intros H. lia. }
    destruct HI as (s & toks & pos & Es & Hp & HE & Hb & HI). rewrite Es in HO.
    assert (Key : forall a, Some ((a : list op) ++ fin) = Some (sops syms0 toks0 ++ fin) -> a = sops syms0 toks0).
    { intros a H. injection H as H. now apply app_inv_tail in H. }
    destruct (e_wascopy s) eqn:Ew.
    - destruct HI as (Hblk & HC & Hcp & HBp & HI). rewrite Hblk in HO. set (copy := if e_same s then e_copy s + e_run s else e_copy s) in HO.
      assert (Hc : pos + copy = n /\ 0 <= copy) by (unfold copy; destruct (e_same s); lia).
      destruct (scopy_ok In pos copy (e_ops s) (e_g s) HIn ltac:(lia)) as (t & g' & E1 & E2 & E3 & E4 & E5). rewrite E2 in HO. cbn [fst] in HO. apply Key in HO. rewrite <- HO, cost_app.
      enough (sv rs n <= sv rs pos) by lia. destruct (e_same s).
      + destruct HI as (H1 & H2 & H3 & H4 & H5 & HRu & HBd). apply sv_copy; [lia|exact HBp|]. apply (runs_join pos (pos + e_copy s)); auto; lia.
      + destruct HI as (H1 & H2 & H3 & H4 & H5 & H6 & HRu & HBd). apply sv_none; [lia|]. intros a b Hi Hbb. destruct (rep_const In n rs 0 a b HR Hi) as (G1 & G2 & G3).
        destruct (Z_lt_ge_dec a b) as [Hab|Hab]; [|lia]. destruct (HL a b Hi Hab) as (x & Hx & Hne).
        destruct (Z_lt_ge_dec a pos); [exfalso; apply (const_bd a b pos); [lia|assumption|assumption|lia|lia]|].
        destruct (Z_le_gt_dec b (n - e_change s)); [apply HRu; [lia|lia|exact G3]|]. exfalso.
        destruct (Z_lt_ge_dec a (n - e_change s)); [apply (const_bd a b (n - e_change s)); [lia|assumption|assumption|lia|lia]|].
        apply Hne. rewrite (H4 x), (H4 a) by lia. reflexivity.
    - destruct HI as (H1 & H2 & H3 & H4 & H5 & H6 & H7 & HBp).
      destruct (run_ops_ok (e_ops s) (e_g s) (e_run s) Hb ltac:(lia)) as (t & E1 & E2 & E3). apply Key in HO. rewrite <- HO, cost_app, E3.
      pose proof (sv_run pos n ltac:(lia) HBp).
      destruct (269 <? e_run s) eqn:G1; [|destruct (14 <=? e_run s) eqn:G2]; destruct (15 <=? e_run s) eqn:G3; lia.
  Qed.
End Main.

Theorem sh_saves M pout In n cap out rs : byte_mem In -> 1 <= n <= max_in -> sh_compress M pout false false In n cap = COk out ->
  Repetitions 1 In 0 n rs -> (forall a b, List.In (a, b) rs -> a < b -> exists x, b <= x < n /\ In x <> In a) ->
  len out + saving 14 rs <= sh_need n.
Proof.
  intros HIn Hn HC HR HL. pose proof (mz_bounds_n n Hn) as Hb.
  assert (Hcap : mz_bounds n <= cap).
  { destruct (Z_lt_ge_dec cap (mz_bounds n)) as [H|H]; [|lia]. rewrite (sh_guarded M pout) in HC by tauto. discriminate. }
  destruct (sh_run_ok In n cap M pout HIn (max_large1 n Hn) ltac:(lia)) as (toks & r & M' & E1 & _ & _ & E2 & E3 & _).
  unfold sh_compress in HC. rewrite E2 in HC. replace (false || (n =? 0) || false || (cap <? mz_bounds n)) with false in HC by lia. assert (HO : out = slice M' pout r) by congruence.
  pose proof (len_nonneg (sh_body (sops syms0 toks ++ fin))). assert (HLo : len out = r) by (rewrite HO; apply len_slice; lia).
  pose proof (sh_ops_save In n rs HIn Hn HR HL toks E1) as HS. set (ops := sops syms0 toks ++ fin) in *.
  assert (Hbl : len (sh_body ops) = len (obytes ops) + hdr_len (obits ops)) by (unfold sh_body; rewrite len_app, (len_hdr_bytes 0 0); reflexivity).
  assert (HC2 : 8 * len (obytes ops) + len (obits ops) = cost (sops syms0 toks) + 39) by (change (8 * len (obytes ops) + len (obits ops)) with (cost ops); unfold ops; rewrite cost_app; f_equal; apply fin_shape).
  unfold hdr_len in Hbl. unfold sh_need. lia.
Qed.

(** An input of one symbol that is not the initial one is a copy. *)
Lemma sh_const_ops In n x : byte_mem In -> 263 <= n <= max_in -> x <> 127 -> (forall k, 0 <= k < n -> In k = x) ->
  sh_ops In n = Some ([Bits 63 7; Put (le32 (w32 (n - 7))); Put (slice In 0 n)] ++ [Bits 63 7; Put (le32 0)]).
Proof.
  intros HIn Hn Hx HK. unfold sh_ops.
  assert (HI : (fun i os => 0 < i -> exists sym, os = Some (mkE [] syms0 x i i 0 sym false true 0)) n (fold_left (sh_step In) (lanes n) (Some (mkE [] syms0 0 0 0 0 0 false false 0)))).
  { assert (G : forall m, 0 <= m -> m <= n -> exists l sym c w, fold_left (sh_step In) (lanes m) (Some (mkE [] syms0 0 0 0 0 0 false false 0)) = Some (mkE [] syms0 l m c 0 sym false w 0) /\ if m =? 0 then w = false /\ c = 0 else l = x /\ c = m /\ w = true).
    { intros m Hm. pattern m. apply natlike_ind; [| |exact Hm]; clear m Hm.
      - intros _. exists 0, 0, 0, false. split; [reflexivity|]. split; reflexivity.
      - intros m Hm IH Hle. destruct (IH ltac:(lia)) as (l & sym & c & w & E & HH). unfold Z.succ. rewrite lanes_S, fold_left_app by lia. cbn [fold_left]. rewrite E.
        unfold sh_step. cbn [e_ops e_g e_last e_copy e_change e_run e_sym e_same e_wascopy e_blk]. rewrite (HK m) by lia. change (s_rle syms0) with 127. replace (x =? 127) with false by lia. cbn [negb andb].
        replace (m + 1 =? 0) with false by lia. destruct (m =? 0) eqn:E0.
        + destruct HH as [-> ->]. apply Z.eqb_eq in E0. subst m. change (10 <=? 0) with false. cbv iota.
          destruct (x =? l) eqn:El; cbn [negb]; (eexists _, _, _, _; split; [reflexivity|]; split; [lia|split; [lia|reflexivity]]).
        + destruct HH as (-> & -> & ->). rewrite Z.eqb_refl. cbn [negb]. eexists _, _, _, _. split; [reflexivity|]. split; [reflexivity|split; [lia|reflexivity]]. }
    intros _. destruct (G n ltac:(lia) ltac:(lia)) as (l & sym & c & w & E & HH). replace (n =? 0) with false in HH by lia. destruct HH as (-> & -> & ->). exists sym. exact E. }
  cbv beta in HI. destruct (HI ltac:(lia)) as (sym & ->). cbn [e_ops e_g e_last e_copy e_change e_run e_sym e_same e_wascopy e_blk].
  unfold scopy. replace (255 + 7 <? n) with true by lia. reflexivity.
Qed.
Theorem sh_const M pout In n x cap out : byte_mem In -> 263 <= n <= max_in -> x <> 127 -> (forall k, 0 <= k < n -> In k = x) ->
  sh_compress M pout false false In n cap = COk out -> len out = n + 18.
Proof.
  intros HIn Hn Hx HK HC. assert (Hn1 : 1 <= n <= max_in) by lia. pose proof (mz_bounds_n n Hn1) as Hb.
  assert (Hcap : mz_bounds n <= cap).
  { destruct (Z_lt_ge_dec cap (mz_bounds n)) as [H|H]; [|lia]. rewrite (sh_guarded M pout) in HC by tauto. discriminate. }
  destruct (sh_run_ok In n cap M pout HIn (max_large1 n Hn1) ltac:(lia)) as (toks & r & M' & E1 & _ & _ & E2 & E3 & _).
  unfold sh_compress in HC. rewrite E2 in HC. replace (false || (n =? 0) || false || (cap <? mz_bounds n)) with false in HC by lia. assert (HO : out = slice M' pout r) by congruence.
  pose proof (len_nonneg (sh_body (sops syms0 toks ++ fin))). assert (HLo : len out = r) by (rewrite HO; apply len_slice; lia).
  rewrite (sh_const_ops In n x HIn Hn Hx HK) in E1. assert (E1' : sops syms0 toks ++ fin = [Bits 63 7; Put (le32 (w32 (n - 7))); Put (slice In 0 n)] ++ [Bits 63 7; Put (le32 0)]) by congruence.
  rewrite E1' in E3. rewrite HLo, E3. unfold sh_body. rewrite len_app, (len_hdr_bytes 0 0).
  change (obytes _) with (le32 (w32 (n - 7)) ++ slice In 0 n ++ le32 0 ++ []). rewrite !len_app, len_slice, !len_le32, len_nil by lia.
  replace (hdr_len _) with 2 by reflexivity. lia.
Qed.
Theorem sh_not_saves M pout k : k < 2 ^ 30 - 2 ^ 24 -> ~ Saves 1 k (sh_compress M pout false false) (fun n => n + n / 128 + 19).
Proof.
  intros Hk HS. assert (HIn : byte_mem (fun _ => 0)) by (intros x; unfold is_byte; lia). assert (exists n, n = 2 ^ 30) as (n & Hn2) by eauto. assert (Hn : 1 <= n <= max_in) by (unfold max_in; lia).
  destruct (sh_good M pout (fun _ => 0) n (sh_need n) HIn Hn (Z.le_refl _)) as (ops & _ & E & _). set (out := sh_stream n ops) in *. clearbody out.
  pose proof (sh_const M pout (fun _ => 0) n 0 (sh_need n) out HIn ltac:(lia) ltac:(lia) ltac:(reflexivity) E) as HL.
  specialize (HS (fun _ => 0) n (sh_need n) out [(0, n)] HIn Hn E). cbn [Repetitions saving] in HS. cbv beta in HS. rewrite HL in HS.
  assert (H : n + 18 + (Z.max 0 (n - 0 - k) + 0) <= n + n / 128 + 19).
  { apply HS. split; [lia|]. split; [lia|]. split; [|exact I]. intros x _ _. reflexivity. }
  lia.
Qed.
