(** The same for the symlut, short, greedy and 8 bit encoders. *)
From Verif Require Import Base Simd Spec ExtModel ExtEnc PktModel Rle8Model MbModel LutModel SlModel ShModel WrModel WrSpec WrThm.

(** *** The search only moves forward *)

Lemma lead_nonneg f W : 0 <= W -> 0 <= lead f W.
Proof. intros H. pose proof (lead_spec f W H). lia. Qed.

Lemma align_nonneg S b : 1 <= S -> 0 <= b -> 0 <= align_bit S b.
Proof.
  intros HS Hb. unfold align_bit. destruct ((S =? 3) || (S =? 6)).
  - pose proof (Z.mod_le b S Hb ltac:(lia)). lia.
  - apply Z.land_nonneg. left. exact Hb.
Qed.

Lemma simdW_ge v : 16 <= simdW v.
Proof. destruct v; cbn [simdW]; lia. Qed.

Lemma phase1_ge c v In n st a : 1 <= xS c -> phase1 c v In n st = Some a ->
  match a with Second i _ | Fall i _ => e_i st <= i end.
Proof.
  intros HS. pose proof (simdW_ge v) as HW.
  assert (K : forall vec, loop (match_step c v In n vec) (e_i st, e_count st) = Some a ->
    match a with Second i _ | Fall i _ => e_i st <= i end).
  { intros vec. apply (loop_pres _ (fun '(i, _) => e_i st <= i)
      (fun a => match a with Second i _ | Fall i _ => e_i st <= i end)); [|lia].
    intros [i count] H. unfold match_step. cbv zeta. destruct (i <? n - simdW v - xS c); [|exact H].
    destruct (In (i + 0) =? symbyte vec 0); [|exact H].
    pose proof (lead_nonneg (fun j => In (i + j) =? symbyte vec j) (simdW v) ltac:(lia)) as HL.
    destruct (lead _ (simdW v) =? simdW v).
    - pose proof (Z.mod_le (simdW v) (xS c) ltac:(lia) ltac:(lia)). lia.
    - destruct (xUnb c); [lia|]. pose proof (align_nonneg (xS c) _ HS HL). lia. }
  unfold phase1. destruct v; [|apply K..]. intros H. injection H as <-. lia.
Qed.

Lemma scalar_ge c In n i count sym : 1 <= xS c ->
  match scalar_step c In n i count sym with inl (i', _) => i < i' | inr (i', _) => i <= i' end.
Proof.
  intros HS. unfold scalar_step. destruct (negb (count =? 0)); [|lia]. destruct (i + xS c <=? n); [|lia].
  destruct (eqb_bytes _ sym); [lia|]. destruct (xUnb c); [|lia]. cbv zeta.
  pose proof (lead_nonneg (fun j => In (i + j) =? symbyte sym j) (xS c) ltac:(lia)). lia.
Qed.

Lemma scan_ge c v In n i0 i f : 1 <= xS c <= 16 -> scan c v In n i0 = Some (i, f) -> i0 <= i.
Proof.
  intros HS. pose proof (simdW_ge v) as HW.
  assert (K : loop (scan_step c v In n) i0 = Some (i, f) -> i0 <= i).
  { apply (loop_pres _ (fun x => i0 <= x) (fun '(x, _) => i0 <= x)); [|lia].
    intros x H. unfold scan_step. cbv zeta. destruct (x <? n - simdW v - xS c); [|exact H].
    match goal with |- context [lead ?g (simdW v)] => pose proof (lead_nonneg g (simdW v) ltac:(lia)) as HL end.
    destruct (lead _ (simdW v) =? simdW v); lia. }
  unfold scan. destruct v; [|exact K..]. intros H. injection H as <- <-. lia.
Qed.

(** *** The multi-byte loop *)

Section MbW.
  Context {A : Type}.
  Variables (proc : procM A) (p : procW A) (M0 : mem) (p0 K : Z).
  Variables (S : Z) (unb : bool) (v : simd) (In : mem) (n : Z).
  Hypothesis HS : 1 <= S <= 16.

  Definition proc_agree : Prop := forall i count sym last a,
    match proc In i count sym last a, p In i count sym last a with
    | Some (b, a1), Some (f, a2) => a1 = a2 /\ forall w out, Rel M0 p0 K w out -> Rel M0 p0 K (f w) (out ++ b)
    | None, None => True
    | _, _ => False
    end.
  Hypothesis HP : proc_agree.

  Definition lift (st : estm A) (w : wst) : estm (A * wst) :=
    mkM (m_i st) (m_count st) (m_sym st) (m_last st) (m_aux st, w) [] (m_goto st).

  (** Literals are pending at the end: [m_last < m_i], except before the first iteration. *)
  Definition RM (st : estm A) (t : estm (A * wst)) : Prop :=
    (exists w, t = lift st w /\ Rel M0 p0 K w (m_out st)) /\ (m_last st < m_i st \/ m_last st <= m_i st <= 0).

  Lemma emitMW_ok st w : Rel M0 p0 K w (m_out st) -> m_last st <= m_i st ->
    exists w', emitM (onW p) In (lift st w) = lift (emitM proc In st) w' /\ Rel M0 p0 K w' (m_out (emitM proc In st)) /\
      m_i (emitM proc In st) = m_i st /\ m_last (emitM proc In st) <= m_i st.
  Proof.
    intros H Hl. unfold emitM, onW. cbn [lift m_i m_count m_sym m_last m_aux m_out m_goto fst snd].
    pose proof (HP (m_i st) (m_count st) (m_sym st) (m_last st) (m_aux st)) as P.
    destruct (proc In _ _ _ _ _) as [[b a1]|], (p In _ _ _ _ _) as [[f a2]|]; try contradiction.
    - destruct P as [<- P]. exists (f w). split; [reflexivity|]. split; [apply P; exact H|]. cbn [m_i m_last]. lia.
    - exists w. split; [reflexivity|]. split; [exact H|]. lia.
  Qed.

  Lemma mb_secondW_ok st w i count : Rel M0 p0 K w (m_out st) -> m_last st <= i ->
    match mb_second proc S unb v In n st i count, mb_second (onW p) S unb v In n (lift st w) i count with
    | inl st', inl t' => RM st' t'
    | inr None, inr None => True
    | _, _ => False
    end.
  Proof.
    intros H Hl. unfold mb_second. cbv zeta. cbn [lift m_sym m_last m_aux m_out].
    destruct (emitMW_ok (mkM i count (m_sym st) (m_last st) (m_aux st) (m_out st) false) w H Hl) as (w' & E & H' & Ei & El).
    unfold lift in E at 1. cbn [m_i m_count m_sym m_last m_aux m_goto] in E, Ei, El. rewrite E. clear E.
    destruct (scan (mcfg S unb) v In n i) as [[i' found]|] eqn:ES; [|exact Logic.I].
    apply scan_ge in ES; [|exact HS]. set (st1 := emitM proc In _) in *. cbn [m_i] in Ei.
    unfold next_runM. cbv zeta.
    destruct found; [|destruct ((i' + S <=? n) && _)]; (split; [exists w'; split; [reflexivity|exact H']|cbn [m_i m_last]; lia]).
  Qed.

  Lemma mb_stepW_ok st t : RM st t ->
    match mb_step proc S unb v In n st, mb_step (onW p) S unb v In n t with
    | inl st', inl t' => RM st' t'
    | inr (Some st'), inr (Some t') => RM st' t' /\ n <= m_i st'
    | inr None, inr None => True
    | _, _ => False
    end.
  Proof.
    intros [(w & -> & H) HL]. unfold mb_step. cbn [lift m_i m_count m_sym m_last m_aux m_out m_goto].
    destruct ((m_i st <? n) || m_goto st) eqn:EG.
    2: { split; [|lia]. split; [exists w; split; [reflexivity|exact H]|exact HL]. }
    destruct (phase1 _ v In n _) as [[i count|i count]|] eqn:E1; [| |exact Logic.I].
    - apply phase1_ge in E1; [|cbn [xS mcfg]; lia]. cbn [e_i] in E1.
      pose proof (mb_secondW_ok st w i count H ltac:(lia)) as P.
      unfold lift in P. destruct (mb_second proc S unb v In n st i count) as [|[|]], (mb_second (onW p) S unb v In n _ i count) as [|[|]]; try contradiction; exact P.
    - apply phase1_ge in E1; [|cbn [xS mcfg]; lia]. cbn [e_i] in E1.
      pose proof (scalar_ge (mcfg S unb) In n i count (m_sym st) ltac:(cbn [xS mcfg]; lia)) as E2.
      destruct (scalar_step (mcfg S unb) In n i count (m_sym st)) as [[i' count']|[i' count']].
      + split; [exists w; split; [reflexivity|exact H]|cbn [m_i m_last]; lia].
      + pose proof (mb_secondW_ok st w i' count' H ltac:(lia)) as P.
        unfold lift in P. destruct (mb_second proc S unb v In n st i' count') as [|[|]], (mb_second (onW p) S unb v In n _ i' count') as [|[|]]; try contradiction; exact P.
  Qed.

  Variables (tn : list Z) (tl : Z -> list Z) (tnW : wst -> wst) (tlW : Z -> wst -> wst) (extra : Z).
  Hypothesis Htn : forall w out, Rel M0 p0 K w out -> Rel M0 p0 extra (tnW w) (out ++ tn).
  Hypothesis Htl : forall w out last k, 1 <= k -> Rel M0 p0 K w out ->
    Rel M0 p0 extra (putx (slice In last k) (tlW k w)) (out ++ tl k ++ slice In last k).

  Lemma finishMW_ok st t : RM st t -> 1 <= n -> n <= m_i st -> Rel M0 p0 extra (finishMW p tnW tlW In t) (finishM proc tn tl In st).
  Proof.
    intros [(w & -> & H) HL] Hn Hi. unfold finishM, finishMW. cbn [lift m_i m_count m_sym m_last m_aux fst snd].
    pose proof (HP (m_i st) (m_count st) (m_sym st) (m_last st) (m_aux st)) as P.
    destruct (proc In _ _ _ _ _) as [[b a1]|], (p In _ _ _ _ _) as [[f a2]|]; try contradiction.
    - destruct P as [_ P]. rewrite app_assoc. apply Htn. apply P. exact H.
    - apply Htl; [lia|exact H].
  Qed.
End MbW.

Lemma mb_bodyW_ok {A} (proc : procM A) p K S unb v In n tn tl tnW tlW extra a0 (w : wst) :
  1 <= S <= 16 -> 0 <= K -> 1 <= n -> proc_agree proc p (fst w) (snd w) K In ->
  (forall w' out, Rel (fst w) (snd w) K w' out -> Rel (fst w) (snd w) extra (tnW w') (out ++ tn)) ->
  (forall w' out last k, 1 <= k -> Rel (fst w) (snd w) K w' out ->
    Rel (fst w) (snd w) extra (putx (slice In last k) (tlW k w')) (out ++ tl k ++ slice In last k)) ->
  OkW (fst w) (snd w) extra (mb_body proc tn tl S unb v In n a0) (mb_bodyW p tnW tlW S unb v In n a0 w).
Proof.
  intros HS HK Hn HP Htn Htl. unfold mb_body, mb_bodyW.
  set (st0 := mkM 0 0 (not_first S In) 0 a0 [] false). set (t0 := mkM 0 0 (not_first S In) 0 (a0, w) [] false).
  assert (L := loop_rel (mb_step proc S unb v In n) (mb_step (onW p) S unb v In n) (RM (fst w) (snd w) K)
    (fun a b => match a, b with Some a, Some b => RM (fst w) (snd w) K a b /\ n <= m_i a | None, None => True | _, _ => False end) st0 t0).
  assert (L1 : match loop (mb_step proc S unb v In n) st0, loop (mb_step (onW p) S unb v In n) t0 with
    | Some a, Some b => match a, b with Some a, Some b => RM (fst w) (snd w) K a b /\ n <= m_i a | None, None => True | _, _ => False end
    | None, None => True | _, _ => False end).
  { apply L.
    - intros st s H. pose proof (mb_stepW_ok proc p (fst w) (snd w) K S unb v In n HS HP st s H) as P.
      destruct (mb_step proc S unb v In n st) as [|[|]], (mb_step (onW p) S unb v In n s) as [|[|]]; try contradiction; exact P.
    - split; [|right; cbn; lia]. exists w. split; [reflexivity|]. apply Rel_start. exact HK. }
  clear L. destruct (loop (mb_step proc S unb v In n) st0) as [[st|]|], (loop (mb_step (onW p) S unb v In n) t0) as [[s|]|]; try contradiction; try exact Logic.I.
  cbn [OkW]. destruct L1 as [L1 L2]. eapply (finishMW_ok proc p (fst w) (snd w) K); eassumption.
Qed.

(** *** The 8 bit loops: every store is as long as the advance *)

Section W8.
  Context {A : Type}.
  Variables (M0 : mem) (p0 : Z) (In : mem) (n : Z).

  Definition lift8 (s : est8 A) (w : wst) : est8 (A * wst) :=
    mk8 (i8 s) (count8 s) (sym8 s) (last8 s) (aux8 s, w) [].
  Definition R8 (s : est8 A) (t : est8 (A * wst)) : Prop := exists w, t = lift8 s w /\ Rel M0 p0 0 w (out8 s).

  Lemma R8_mk i count sym last a out w : Rel M0 p0 0 w out -> R8 (mk8 i count sym last a out) (mk8 i count sym last (a, w) []).
  Proof. intros H. exists w. split; [reflexivity|exact H]. Qed.

  Lemma emit8W_ok (p : proc8 A) s t : R8 s t -> R8 (emit8 p In s) (emit8 (onW8 p) In t).
  Proof.
    intros (w & -> & H). unfold emit8, onW8. cbn [lift8 i8 count8 sym8 last8 aux8 out8 fst snd].
    destruct (p In _ _ _ _ _) as [[b a]|].
    - apply R8_mk. apply RK_putx; [lia|exact H].
    - exists w. split; [reflexivity|exact H].
  Qed.

  Lemma simd8W_ok (p : proc8 A) W s t : R8 s t ->
    match simd8_step p W In n s, simd8_step (onW8 p) W In n t with
    | inl s', inl t' => R8 s' t'
    | inr (Some s'), inr (Some t') => R8 s' t'
    | inr None, inr None => True
    | _, _ => False
    end.
  Proof.
    intros (w & -> & H). unfold simd8_step. cbv zeta.
    change (i8 (lift8 s w)) with (i8 s). change (count8 (lift8 s w)) with (count8 s).
    change (sym8 (lift8 s w)) with (sym8 s). change (last8 (lift8 s w)) with (last8 s).
    change (aux8 (lift8 s w)) with (aux8 s, w). change (out8 (lift8 s w)) with (@nil Z).
    destruct (i8 s <? n - W); [|exists w; split; [reflexivity|exact H]].
    destruct (lead _ W =? W); [apply R8_mk; exact H|].
    destruct (any _ W || (1 <? count8 s)).
    - match goal with |- context [emit8 p In ?a] => match goal with |- context [emit8 (onW8 p) In ?b] =>
        pose proof (emit8W_ok p a b (R8_mk _ _ _ _ _ _ _ H)) as P end end.
      destruct P as (w' & E & H'). rewrite E. set (s1 := emit8 p In _) in *.
      cbn [lift8 i8]. destruct (loop (scan8_step W In n) (i8 s1)) as [i'|]; [|exact Logic.I].
      apply R8_mk. exact H'.
    - cbn [lift8 i8]. destruct (loop (scan8_step W In n) (i8 s)) as [i'|]; [|exact Logic.I].
      apply R8_mk. exact H.
  Qed.

  Lemma shsingleW_ok (p : proc8 A) s t : R8 s t ->
    match sh_single_stepP p In n s, sh_single_stepP (onW8 p) In n t with
    | inl s', inl t' => R8 s' t'
    | inr (Some s'), inr (Some t') => R8 s' t'
    | inr None, inr None => True
    | _, _ => False
    end.
  Proof.
    intros (w & -> & H). unfold sh_single_stepP. cbv zeta.
    change (i8 (lift8 s w)) with (i8 s). change (count8 (lift8 s w)) with (count8 s).
    change (sym8 (lift8 s w)) with (sym8 s). change (last8 (lift8 s w)) with (last8 s).
    change (aux8 (lift8 s w)) with (aux8 s, w). change (out8 (lift8 s w)) with (@nil Z).
    destruct (i8 s <? n - 16); [|exists w; split; [reflexivity|exact H]].
    destruct (lead _ 16 =? 16); [apply R8_mk; exact H|].
    destruct (any _ 16 || (1 <? count8 s)).
    - match goal with |- context [emit8 p In ?a] => match goal with |- context [emit8 (onW8 p) In ?b] =>
        pose proof (emit8W_ok p a b (R8_mk _ _ _ _ _ _ _ H)) as P end end.
      destruct P as (w' & E & H'). rewrite E. set (s1 := emit8 p In _) in *.
      cbn [lift8 i8]. destruct (loop (sscan_step 2 (sym8 s) In n) (i8 s1)) as [[i' f]|]; [|exact Logic.I].
      apply R8_mk. exact H'.
    - cbn [lift8 i8]. destruct (loop (sscan_step 2 (sym8 s) In n) (i8 s)) as [[i' f]|]; [|exact Logic.I].
      apply R8_mk. exact H.
  Qed.

  Lemma scalar8W_ok single (p : proc8 A) s t : R8 s t ->
    match scalar8_step single p In n s, scalar8_step single (onW8 p) In n t with
    | inl s', inl t' => R8 s' t'
    | inr s', inr t' => R8 s' t'
    | _, _ => False
    end.
  Proof.
    intros (w & -> & H). unfold scalar8_step. cbv zeta.
    change (i8 (lift8 s w)) with (i8 s). change (count8 (lift8 s w)) with (count8 s).
    change (sym8 (lift8 s w)) with (sym8 s). change (last8 (lift8 s w)) with (last8 s).
    change (aux8 (lift8 s w)) with (aux8 s, w). change (out8 (lift8 s w)) with (@nil Z).
    destruct (i8 s <? n); [|exists w; split; [reflexivity|exact H]].
    destruct (In (i8 s) =? sym8 s); [apply R8_mk; exact H|].
    destruct (emit8W_ok p s (lift8 s w) (ex_intro _ w (conj eq_refl H))) as (w' & E & H'). rewrite E.
    destruct single; apply R8_mk; exact H'.
  Qed.

  Lemma finish8W_ok (p : proc8 A) tn tl s t : R8 s t -> Rel M0 p0 0 (finish8W p tn tl In t) (finish8 p tn tl In s).
  Proof.
    intros (w & -> & H). unfold finish8, finish8W. cbn [lift8 i8 count8 sym8 last8 aux8 fst snd].
    destruct (p In _ _ _ _ _) as [[b a]|]; rewrite app_assoc; (apply RK_putx; [lia|]; apply RK_putx; [lia|]; exact H).
  Qed.
End W8.

Lemma opt_step {St Tt : Type} (f : St -> St + option St) (g : Tt -> Tt + option Tt) (R : St -> Tt -> Prop) s t :
  (forall s t, R s t -> match f s, g t with
    | inl s', inl t' => R s' t' | inr (Some s'), inr (Some t') => R s' t' | inr None, inr None => True | _, _ => False end) ->
  R s t -> match loop f s, loop g t with
    | Some (Some a), Some (Some b) => R a b
    | Some None, Some None => True
    | None, None => True
    | _, _ => False
    end.
Proof.
  intros Hstep H0.
  assert (L := loop_rel f g R (fun a b => match a, b with Some a, Some b => R a b | None, None => True | _, _ => False end) s t).
  assert (L1 : match loop f s, loop g t with Some a, Some b => match a, b with Some a, Some b => R a b | None, None => True | _, _ => False end
    | None, None => True | _, _ => False end).
  { apply L; [|exact H0]. intros s' t' H. specialize (Hstep s' t' H).
    destruct (f s') as [|[|]], (g t') as [|[|]]; try contradiction; exact Hstep. }
  destruct (loop f s) as [[|]|], (loop g t) as [[|]|]; try contradiction; exact L1.
Qed.

Lemma body8W_ok {A} (pV pS : proc8 A) tn tl W In n sym a0 (w : wst) :
  OkW (fst w) (snd w) 0 (body8 pV pS tn tl W In n (mk8 0 0 sym 0 a0 [])) (body8W pV pS tn tl W In n sym a0 w).
Proof.
  unfold body8, body8W.
  pose proof (opt_step (simd8_step pV W In n) (simd8_step (onW8 pV) W In n) (R8 (fst w) (snd w)) (mk8 0 0 sym 0 a0 []) (mk8 0 0 sym 0 (a0, w) [])
    (simd8W_ok (fst w) (snd w) In n pV W) (R8_mk _ _ _ _ _ _ _ _ _ (Rel_start w 0 (Z.le_refl 0)))) as L.
  destruct (loop (simd8_step pV W In n) _) as [[s1|]|], (loop (simd8_step (onW8 pV) W In n) _) as [[t1|]|]; try contradiction; try exact Logic.I.
  pose proof (loop_rel (scalar8_step false pS In n) (scalar8_step false (onW8 pS) In n) (R8 (fst w) (snd w)) (R8 (fst w) (snd w)) s1 t1
    (scalar8W_ok (fst w) (snd w) In n false pS) L) as L2.
  destruct (loop (scalar8_step false pS In n) s1) as [s2|], (loop (scalar8_step false (onW8 pS) In n) t1) as [t2|]; try contradiction; [|exact Logic.I].
  apply (finish8W_ok _ _ In n). exact L2.
Qed.

(** *** rleX_Xsl.h *)

Lemma sl_agree c In M0 p0 : proc_agree (sl_proc c) (sl_procW c) M0 p0 (pad (slS c)) In.
Proof.
  intros i count sym last a. pose proof (pad_range (slS c)) as HP. unfold sl_procW, sl_proc. cbv zeta.
  destruct (_ || _); [|exact Logic.I]. split; [reflexivity|]. intros w out H.
  rewrite app_assoc. apply RK_putx; [lia|]. unfold sl_head, sl_headW. cbv zeta. rewrite !app_assoc.
  apply RK_putx; [lia|]. apply RK_putx; [lia|].
  destruct (lut_index sym a =? slSC c).
  - apply RK_sym; [lia|]. apply RK_putx; [lia|exact H].
  - rewrite app_nil_r. apply RK_putx; [lia|exact H].
Qed.

Lemma slcodecs_S c : List.In c slcodecs -> 1 <= slS c <= 16.
Proof.
  intros H. assert (K : forallb (fun c => (1 <=? slS c) && (slS c <=? 16)) slcodecs = true) by reflexivity.
  rewrite forallb_forall in K. specialize (K c H). lia.
Qed.

Theorem sl_writes c v : List.In c slcodecs -> Writes (sl_write c v) (sl_compress c v) 0.
Proof.
  intros Hc. apply slcodecs_S in Hc.
  apply (w_wrap_writes [] 8 [] _ (sl_body c v)).
  - reflexivity.
  - left. split; reflexivity.
  - intros. reflexivity.
  - intros In n w Hn. unfold sl_body, sl_bodyW. cbv zeta. pose proof (pad_range (slS c)) as HP. destruct (slS c =? 1); [apply body8W_ok|].
    apply (mb_bodyW_ok _ _ (pad (slS c))); try lia.
    + apply sl_agree.
    + intros w' out H. eapply RK_close; [exact H|]. unfold sl_term_none. rewrite !len_app, !len_le16. lia.
    + intros w' out last k Hk H. rewrite app_assoc. apply RK_putx; [lia|]. eapply RK_close; [exact H|].
      unfold sl_term_lits. rewrite !len_app, !len_le16, len_le32. lia.
Qed.

(** *** rleX_Xsl_short.h *)

Lemma sh_agree c In M0 p0 : proc_agree (sh_proc c) (sh_procW c) M0 p0 (pad (shS c)) In.
Proof.
  intros i count sym last a. pose proof (pad_range (shS c)) as HP. unfold sh_procW, sh_proc. cbv zeta.
  destruct ((shLONG c <=? count) || _); [|exact Logic.I]. split; [reflexivity|]. intros w out H.
  rewrite app_assoc. apply RK_putx; [lia|]. unfold sh_head, sh_headW. cbv zeta.
  match goal with |- Rel _ _ _ _ (out ++ (?h ++ ?b)) => rewrite (app_assoc out h b); generalize h; intros hd end.
  destruct ((_ =? shSC c) && negb (shOne c)).
  - apply RK_sym; [lia|]. apply RK_putx; [lia|exact H].
  - rewrite app_nil_r. apply RK_putx; [lia|exact H].
Qed.

(** Only 48 bit codecs without a table write more than they return: one byte. *)
Definition sh_extra (c : shcfg) : Z := if sh_nosym c then Z.max 0 (pad (shS c) - 1) else 0.

Lemma sh_extra_nonneg c : 0 <= sh_extra c.
Proof. unfold sh_extra. destruct (sh_nosym c); lia. Qed.

Lemma sh_tn_ok c M0 p0 w out : Rel M0 p0 (pad (shS c)) w out -> Rel M0 p0 (sh_extra c) (putx (sh_term_none c) w) (out ++ sh_term_none c).
Proof.
  intros H. pose proof (pad_range (shS c)) as HP. apply (Rel_le _ _ 0); [|apply sh_extra_nonneg].
  eapply RK_close; [exact H|]. unfold sh_term_none, sh_term2. rewrite !len_app, !len_le16, !len_cons, len_nil.
  pose proof (len_nonneg (if sh_nosym c then [0] else [])). lia.
Qed.

Lemma sh_tl_ok c M0 p0 In w out last k : sh_nosym c = false \/ 1 <= k -> Rel M0 p0 (pad (shS c)) w out ->
  Rel M0 p0 (sh_extra c) (putx (slice In last k) (sh_term_litsW c k w)) (out ++ sh_term_lits c k ++ slice In last k).
Proof.
  intros Hk H. pose proof (pad_range (shS c)) as HP. rewrite app_assoc. unfold sh_term_litsW, sh_term_lits. cbv zeta.
  set (h := sh_term2 c ++ [0] ++ le16 0 ++ le32 (k + 2)).
  replace (sh_term2 c ++ [0] ++ le16 0 ++ le32 (k + 2) ++ (if sh_nosym c then repeat 0 (Z.to_nat (shS c)) else []))
    with (h ++ (if sh_nosym c then repeat 0 (Z.to_nat (shS c)) else [])) by (unfold h; rewrite <- !app_assoc; reflexivity).
  assert (H1 : Rel M0 p0 0 (putx h w) (out ++ h)).
  { eapply RK_close; [exact H|]. unfold h, sh_term2. rewrite !len_app, len_le16, len_le32, !len_cons, len_nil. lia. }
  rewrite app_assoc. unfold sh_extra. destruct (sh_nosym c); [destruct Hk as [|Hk]; [discriminate|]|].
  - eapply Rel_le.
    + apply Rel_putx. apply Rel_put_sym. exact H1.
    + rewrite len_slice by lia. pose proof (len_nonneg (repeat 0 (Z.to_nat (shS c)))). lia.
  - rewrite app_nil_r. apply RK_putx; [lia|exact H1].
Qed.

Lemma shcodecs_S c : List.In c shcodecs -> 1 <= shS c <= 16 /\ (sh_nosym c = true -> shS c <> 6 -> sh_extra c = 0) /\
  (shOne c = true \/ shS c = 1 -> sh_extra c = 0) /\ (sh_nosym c = false -> sh_extra c = 0).
Proof.
  intros H. assert (K : forallb (fun c => (1 <=? shS c) && (shS c <=? 16) && ((shS c =? 6) || (sh_extra c =? 0)) && (negb (shOne c) || (sh_extra c =? 0))) shcodecs = true) by reflexivity.
  rewrite forallb_forall in K. specialize (K c H). split; [lia|]. split; [lia|]. split; [destruct (shOne c); lia|].
  intros E. unfold sh_extra. rewrite E. reflexivity.
Qed.

Lemma sh_singleP proc In n s : sh_single_step proc In n s = sh_single_stepP proc In n s.
Proof. reflexivity. Qed.

Lemma sh_singleW_ok c In n (w : wst) : OkW (fst w) (snd w) 0 (sh_body_single c In n) (sh_body_singleW c In n w).
Proof.
  unfold sh_body_single, sh_body_singleW. cbv zeta. destruct (approx_symbol In n) as [sym|]; [|exact Logic.I].
  set (proc := fun In i count sym last a => sh_proc c In i count [sym] last a).
  pose proof (opt_step (sh_single_step proc In n) (sh_single_stepP (onW8 proc) In n)
    (R8 (fst (putx [sym] w)) (snd (putx [sym] w))) (mk8 0 0 sym 0 [] []) (mk8 0 0 sym 0 ([], putx [sym] w) [])
    (shsingleW_ok (fst (putx [sym] w)) (snd (putx [sym] w)) In n proc) (R8_mk _ _ _ _ _ _ _ _ _ (Rel_start (putx [sym] w) 0 (Z.le_refl 0)))) as L.
  destruct (loop (sh_single_step proc In n) _) as [[s1|]|], (loop (sh_single_stepP (onW8 proc) In n) _) as [[t1|]|]; try contradiction; try exact Logic.I.
  pose proof (loop_rel (scalar8_step true proc In n) (scalar8_step true (onW8 proc) In n) _ _ s1 t1
    (scalar8W_ok (fst (putx [sym] w)) (snd (putx [sym] w)) In n true proc) L) as L2.
  destruct (loop (scalar8_step true proc In n) s1) as [s2|], (loop (scalar8_step true (onW8 proc) In n) t1) as [t2|]; try contradiction; [|exact Logic.I].
  cbn [OkW]. pose proof (finish8W_ok _ _ In n proc (sh_term_none c) (sh_term_lits c) s2 t2 L2) as F.
  set (body := finish8 proc _ _ In s2) in *. clear - F. destruct F as (F1 & F2 & F3).
  cbn [fst snd putx put] in *. change (len [sym]) with 1 in *. split; [rewrite len_cons; lia|]. split; [lia|].
  intros x Hx. rewrite F3 by lia. change (sym :: body) with ([sym] ++ body). rewrite <- store_app. reflexivity.
Qed.

Theorem sh_writes c v : List.In c shcodecs -> Writes (sh_write c v) (sh_compress c v) (sh_extra c).
Proof.
  intros Hc. apply shcodecs_S in Hc. destruct Hc as (Hc & _ & HE & _).
  apply (w_wrap_writes [] 8 [] _ (sh_body c v)).
  - reflexivity.
  - left. split; reflexivity.
  - intros. reflexivity.
  - intros In n w Hn. unfold sh_body, sh_bodyW. cbv zeta. pose proof (pad_range (shS c)) as HP.
    destruct (shOne c) eqn:E1; [rewrite HE by (left; reflexivity); apply sh_singleW_ok|].
    destruct (shS c =? 1) eqn:E2; [rewrite HE by lia; apply body8W_ok|].
    apply (mb_bodyW_ok _ _ (pad (shS c))); try lia.
    + apply sh_agree.
    + apply sh_tn_ok.
    + intros w' out last k Hk. apply sh_tl_ok. right. exact Hk.
Qed.

(** Greedy. *)

Section GreedyW.
  Variables (c : shcfg) (M0 : mem) (p0 : Z) (In : mem) (n : Z).
  Notation K := (pad (shS c)).
  Notation lut := (list (list Z)).

  Definition RG (st : estm lut) (t : estm (lut * wst)) : Prop := exists w, t = lift st w /\ Rel M0 p0 K w (m_out st).

  Lemma RG_mk i count sym last a out w g : Rel M0 p0 K w out -> RG (mkM i count sym last a out g) (mkM i count sym last (a, w) [] g).
  Proof. intros H. exists w. split; [reflexivity|exact H]. Qed.

  Lemma emitG_ok st t : RG st t -> RG (emitM (sh_proc c) In st) (emitM (onW (sh_procW c)) In t).
  Proof.
    intros (w & -> & H). unfold emitM, onW. cbn [lift m_i m_count m_sym m_last m_aux m_out m_goto fst snd].
    pose proof (sh_agree c In M0 p0 (m_i st) (m_count st) (m_sym st) (m_last st) (m_aux st)) as P.
    destruct (sh_proc c In _ _ _ _ _) as [[b a1]|], (sh_procW c In _ _ _ _ _) as [[f a2]|]; try contradiction.
    - destruct P as [<- P]. apply RG_mk. apply P. exact H.
    - exists w. split; [reflexivity|exact H].
  Qed.

  Lemma greedy_secondW_ok st t : RG st t -> RG (greedy_second c In n st) (greedy_secondW c In n t).
  Proof.
    intros H. apply emitG_ok in H. unfold greedy_second, greedy_secondW. cbv zeta.
    set (st1 := emitM (sh_proc c) In st) in *. destruct H as (w & -> & H).
    cbn [lift m_i m_count m_sym m_last m_aux m_out m_goto fst snd].
    destruct ((m_i st1 + shS c <=? n) && _); [apply RG_mk; exact H|].
    destruct (m_i st1 + shS c <=? n); [|apply RG_mk; exact H].
    destruct (best_match _ _ _ _ _) as [best cnt]. destruct (2 <=? cnt); apply RG_mk; exact H.
  Qed.

  Lemma greedy_stepW_ok st t : RG st t ->
    match greedy_step c In n st, greedy_stepW c In n t with
    | inl s', inl t' => RG s' t'
    | inr s', inr t' => RG s' t'
    | _, _ => False
    end.
  Proof.
    intros (w & -> & H). assert (HR : RG st (lift st w)) by (exists w; split; [reflexivity|exact H]).
    unfold greedy_step, greedy_stepW. cbv zeta.
    change (m_goto (lift st w)) with (m_goto st). change (m_i (lift st w)) with (m_i st).
    change (m_count (lift st w)) with (m_count st). change (m_sym (lift st w)) with (m_sym st).
    change (m_last (lift st w)) with (m_last st). change (m_aux (lift st w)) with (m_aux st, w).
    change (m_out (lift st w)) with (@nil Z).
    destruct (m_goto st); [apply greedy_secondW_ok; exact HR|].
    destruct (m_i st <? n); [|exact HR].
    destruct (negb (m_count st =? 0) && _); [|apply greedy_secondW_ok; exact HR].
    destruct (eqb_bytes _ _); [apply RG_mk; exact H|]. apply greedy_secondW_ok. apply RG_mk. exact H.
  Qed.
End GreedyW.

Lemma greedy_codecs_ok c : List.In c greedy_codecs -> sh_nosym c = false.
Proof.
  intros H. assert (K : forallb (fun c => negb (sh_nosym c)) greedy_codecs = true) by reflexivity.
  rewrite forallb_forall in K. specialize (K c H). destruct (sh_nosym c); [discriminate|reflexivity].
Qed.

Theorem greedy_writes c : List.In c greedy_codecs -> Writes (greedy_write c) (greedy_compress c) 0.
Proof.
  intros Hc. apply greedy_codecs_ok in Hc.
  assert (HE : sh_extra c = 0) by (unfold sh_extra; rewrite Hc; reflexivity).
  apply (w_wrap_writes [] 8 [] _ (greedy_body c)).
  - reflexivity.
  - left. split; reflexivity.
  - intros. reflexivity.
  - intros In n w Hn. unfold greedy_body, greedy_bodyW. pose proof (pad_range (shS c)) as HP.
    set (st0 := mkM 0 0 (not_first (shS c) In) 0 (lut_init (shS c) (shSC c)) [] false).
    set (t0 := mkM 0 0 (not_first (shS c) In) 0 (lut_init (shS c) (shSC c), w) [] false).
    pose proof (loop_rel (greedy_step c In n) (greedy_stepW c In n) _ _ st0 t0 (greedy_stepW_ok c (fst w) (snd w) In n)
      (RG_mk _ _ _ _ _ _ _ _ _ _ _ (Rel_start w (pad (shS c)) ltac:(lia)))) as L.
    destruct (loop (greedy_step c In n) st0) as [st|], (loop (greedy_stepW c In n) t0) as [t|]; try contradiction; [|exact Logic.I].
    cbn [OkW]. destruct L as (w' & -> & H). unfold finishM, finishMW. cbn [lift m_i m_count m_sym m_last m_aux fst snd].
    pose proof (sh_agree c In (fst w) (snd w) (m_i st) (m_count st) (m_sym st) (m_last st) (m_aux st)) as P.
    destruct (sh_proc c In _ _ _ _ _) as [[b a1]|], (sh_procW c In _ _ _ _ _) as [[f a2]|]; try contradiction.
    + destruct P as [_ P]. rewrite app_assoc, <- HE. apply sh_tn_ok. apply P. exact H.
    + rewrite <- HE. apply sh_tl_ok; [left; exact Hc|exact H].
Qed.

(** *** rle8_extreme_cpu.h *)

Theorem m_writes undef pk avx2 : Writes (m_write undef pk avx2) (m_compress pk avx2) 0.
Proof.
  apply (w_wrap_writes (le32 undef ++ [0]) 9 [0] _ (fun In n =>
    body8 (m_procV pk) (m_procS pk) (m_term_none pk) (m_term_lits pk) (if avx2 then 32 else 16) In n (mk8 0 0 (255 - In 0) 0 0 []))).
  - reflexivity.
  - right. exists undef. reflexivity.
  - intros. reflexivity.
  - intros In n w Hn. apply body8W_ok.
Qed.

Section SingleW.
  Variables (pk : bool) (sym : Z) (In : mem) (n : Z) (M0 : mem) (p0 : Z).

  Definition stripS (s : sst) : sst := mkS (ss_i s) (ss_count s) (ss_last s) [] (ss_w s) (ss_first s).
  Definition RS (s : sst) (t : sst * wst) : Prop := fst t = stripS s /\ Rel M0 p0 0 (snd t) (ss_out s).

  Lemma s_decideW_ok s t : RS s t ->
    match s_decide pk sym In n s, s_decideW pk sym In n t with Some s', Some t' => RS s' t' | None, None => True | _, _ => False end.
  Proof.
    destruct t as [t w]. intros [E H]. cbn [fst snd] in E, H. subst t. unfold s_decide, s_decideW. cbv zeta.
    cbn [stripS ss_i ss_count ss_last ss_w ss_first].
    destruct (sSHORT pk <=? ss_count s); [|split; [reflexivity|exact H]].
    destruct (ss_i s - ss_last s - ss_count s + 1 <=? 255); [split; [reflexivity|apply RK_putx; [lia|exact H]]|].
    destruct (s_accept_long pk (ss_count s)); [split; [reflexivity|apply RK_putx; [lia|exact H]]|].
    destruct ((ss_w s + 1 =? 1) || _); [split; [reflexivity|exact H]|].
    destruct (2 <? ss_w s + 1); [|split; [reflexivity|exact H]].
    destruct (loop (recount_step In n sym) (ss_first s, 0)) as [[i' count']|]; [|exact Logic.I].
    split; [reflexivity|apply RK_putx; [lia|exact H]].
  Qed.

  Lemma single_stepW_ok s t : RS s t ->
    match single_step pk sym In n s, single_stepW pk sym In n t with
    | inl s', inl t' => RS s' t'
    | inr (Some s'), inr (Some t') => RS s' t'
    | inr None, inr None => True
    | _, _ => False
    end.
  Proof.
    destruct t as [t w]. intros [E H]. cbn [fst snd] in E, H. subst t. unfold single_step, single_stepW. cbv zeta.
    cbn [stripS ss_i ss_count ss_last ss_w ss_first].
    destruct (ss_i s <? n - 16); [|split; [reflexivity|exact H]].
    destruct (lead _ 16 =? 16); [split; [reflexivity|exact H]|].
    set (b := lead _ 16).
    assert (P : match (if any (fun j => In (ss_i s + j) =? sym) 16 || (1 <? ss_count s)
        then s_decide pk sym In n (mkS (ss_i s + b) (ss_count s + b) (ss_last s) (ss_out s) (ss_w s) (ss_first s)) else Some s),
       (if any (fun j => In (ss_i s + j) =? sym) 16 || (1 <? ss_count s)
        then s_decideW pk sym In n (mkS (ss_i s + b) (ss_count s + b) (ss_last s) [] (ss_w s) (ss_first s), w) else Some (stripS s, w))
      with Some s', Some t' => RS s' t' | None, None => True | _, _ => False end).
    { destruct (any _ 16 || (1 <? ss_count s)).
      - apply s_decideW_ok. split; [reflexivity|exact H].
      - split; [reflexivity|exact H]. }
    change (mkS (ss_i s) (ss_count s) (ss_last s) [] (ss_w s) (ss_first s)) with (stripS s).
    destruct (if any _ 16 || (1 <? ss_count s) then s_decide pk sym In n _ else Some s) as [s1|],
      (if any _ 16 || (1 <? ss_count s) then s_decideW pk sym In n _ else Some (stripS s, w)) as [[t1 w1]|]; try contradiction; [|exact Logic.I].
    destruct P as [E1 H1]. cbn [fst snd] in E1, H1. subst t1. cbn [stripS ss_i ss_count ss_last ss_w ss_first].
    destruct (loop (sscan_step (sSHORT pk) sym In n) (ss_i s1)) as [[i' found]|]; [|exact Logic.I].
    split; [reflexivity|exact H1].
  Qed.
End SingleW.

Definition s_lbody (pk : bool) (In : mem) (n : Z) : option (list Z) :=
  match approx_symbol In n with
  | Some sym =>
      match loop (single_step pk sym In n) (mkS 0 0 0 [] 0 0) with
      | Some (Some s1) =>
          match loop (scalar8_step true (s_procS pk) In n) (mk8 (ss_i s1) (ss_count s1) sym (ss_last s1) tt (ss_out s1)) with
          | Some s2 => Some (sym :: finish8 (s_procS pk) s_term_none s_term_lits In s2)
          | None => None
          end
      | _ => None
      end
  | None => None
  end.

Theorem s_writes undef pk : Writes (s_write undef pk) (s_compress pk) 0.
Proof.
  apply (w_wrap_writes (le32 undef ++ [1]) 9 [1] _ (s_lbody pk)).
  - reflexivity.
  - right. exists undef. reflexivity.
  - intros. unfold s_compress, s_lbody. destruct (_ || _); [reflexivity|].
    destruct (approx_symbol In n) as [sym|]; [|reflexivity].
    destruct (loop (single_step pk sym In n) _) as [[s1|]|]; try reflexivity.
    destruct (loop (scalar8_step true (s_procS pk) In n) _) as [s2|]; [|reflexivity].
    cbv zeta. rewrite len_cons. do 2 f_equal. f_equal. f_equal. lia.
  - intros In n w Hn. unfold s_lbody, s_bodyW. destruct (approx_symbol In n) as [sym|]; [|exact Logic.I].
    set (w0 := putx [sym] w).
    pose proof (opt_step (single_step pk sym In n) (single_stepW pk sym In n) (RS (fst w0) (snd w0)) (mkS 0 0 0 [] 0 0) (mkS 0 0 0 [] 0 0, w0)
      (single_stepW_ok pk sym In n (fst w0) (snd w0)) (conj eq_refl (Rel_start w0 0 (Z.le_refl 0)))) as L.
    destruct (loop (single_step pk sym In n) _) as [[s1|]|], (loop (single_stepW pk sym In n) _) as [[[t1 w1]|]|]; try contradiction; try exact Logic.I.
    destruct L as [E1 H1]. cbn [fst snd] in E1, H1. subst t1. cbn [stripS ss_i ss_count ss_last].
    pose proof (loop_rel (scalar8_step true (s_procS pk) In n) (scalar8_step true (onW8 (s_procS pk)) In n) _ _
      (mk8 (ss_i s1) (ss_count s1) sym (ss_last s1) tt (ss_out s1)) (mk8 (ss_i s1) (ss_count s1) sym (ss_last s1) (tt, w1) [])
      (scalar8W_ok (fst w0) (snd w0) In n true (s_procS pk)) (R8_mk _ _ _ _ _ _ _ _ _ H1)) as L2.
    destruct (loop (scalar8_step true (s_procS pk) In n) _) as [s2|], (loop (scalar8_step true (onW8 (s_procS pk)) In n) _) as [t2|]; try contradiction; [|exact Logic.I].
    cbn [OkW]. pose proof (finish8W_ok _ _ In n (s_procS pk) s_term_none s_term_lits s2 t2 L2) as F.
    set (body := finish8 _ _ _ In s2) in *. clear - F. destruct F as (F1 & F2 & F3).
    unfold w0 in *. cbn [fst snd putx put] in *. change (len [sym]) with 1 in *. split; [rewrite len_cons; lia|]. split; [lia|].
    intros x Hx. rewrite F3 by lia. change (sym :: body) with ([sym] ++ body). rewrite <- store_app. reflexivity.
Qed.
