(** The encoders of [WrModel] write what the list models emit, and nothing else. *)
From Verif Require Import Base Simd Spec ExtModel PktModel Rle8Model MbModel LutModel SlModel ShModel WrModel WrSpec.

(** *** Stores *)

Lemma store_app M p a b x : store (store M p a) (p + len a) b x = store M p (a ++ b) x.
Proof.
  pose proof (len_nonneg a) as Ha. pose proof (len_nonneg b) as Hb. unfold store. rewrite len_app.
  destruct ((p + len a <=? x) && (x <? p + len a + len b)) eqn:E1.
  - replace ((p <=? x) && (x <? p + (len a + len b))) with true by lia.
    rewrite app_nth2 by (unfold len in *; lia). f_equal. unfold len in *. lia.
  - destruct ((p <=? x) && (x <? p + len a)) eqn:E2.
    + replace ((p <=? x) && (x <? p + (len a + len b))) with true by lia.
      rewrite app_nth1 by (unfold len in *; lia). reflexivity.
    + replace ((p <=? x) && (x <? p + (len a + len b))) with false by lia. reflexivity.
Qed.

Lemma store_cong M M' p b x : M x = M' x -> store M p b x = store M' p b x.
Proof. intros H. unfold store. rewrite H. reflexivity. Qed.

Lemma slice_store_self M p l : slice (store M p l) p (len l) = l.
Proof.
  apply (nth_ext _ _ 0 0).
  - unfold slice. rewrite length_slice_nat. unfold len. lia.
  - intros j Hj. unfold slice in *. rewrite length_slice_nat in Hj.
    rewrite nth_slice_nat by exact Hj. rewrite store_in by (unfold len in *; lia). f_equal. lia.
Qed.

(** Memory and position after the bytes [out], where [k] bytes behind may have been overwritten. *)
Definition Rel (M0 : mem) (p0 k : Z) (w : wst) (out : list Z) : Prop :=
  snd w = p0 + len out /\ 0 <= k /\ forall x, x < snd w \/ snd w + k <= x -> fst w x = store M0 p0 out x.

Lemma Rel_le M0 p0 k k' w out : Rel M0 p0 k w out -> k <= k' -> Rel M0 p0 k' w out.
Proof. intros (H1 & H2 & H3) H. split; [exact H1|]. split; [lia|]. intros x Hx. apply H3. lia. Qed.

Lemma Rel_put M0 p0 k w out b z : Rel M0 p0 k w out ->
  Rel M0 p0 (Z.max (k - len b) (len z)) (put (b ++ z) (len b) w) (out ++ b).
Proof.
  intros (H1 & H2 & H3). pose proof (len_nonneg b) as Hb. pose proof (len_nonneg z) as Hz.
  unfold put. split; [|split]; cbn [fst snd].
  - rewrite len_app. lia.
  - lia.
  - intros x Hx. rewrite <- (store_app M0 p0). rewrite <- H1. unfold store at 1 2. rewrite len_app.
    destruct ((snd w <=? x) && (x <? snd w + len b)) eqn:E1.
    + replace ((snd w <=? x) && (x <? snd w + (len b + len z))) with true by lia.
      apply app_nth1. unfold len in *. lia.
    + replace ((snd w <=? x) && (x <? snd w + (len b + len z))) with false by lia. apply H3. lia.
Qed.

Lemma Rel_putx M0 p0 k w out b : Rel M0 p0 k w out -> Rel M0 p0 (Z.max (k - len b) 0) (putx b w) (out ++ b).
Proof.
  intros H. pose proof (Rel_put _ _ _ _ _ b [] H) as K. rewrite app_nil_r in K. exact K.
Qed.

Definition pad (S : Z) : Z := Z.max 0 (rawS S - S).

Lemma Rel_put_sym M0 p0 k w out S sym : Rel M0 p0 k w out ->
  Rel M0 p0 (Z.max (k - len sym) (pad S)) (put_sym S sym w) (out ++ sym).
Proof.
  intros H. pose proof (Rel_put _ _ _ _ _ sym (repeat 0 (Z.to_nat (rawS S - S))) H) as K.
  unfold put_sym. eapply Rel_le; [exact K|]. unfold pad, len at 2. rewrite repeat_length. lia.
Qed.

(** *** Two loops in step *)

Lemma loop_rel {S1 S2 R1 R2} (f : S1 -> S1 + R1) (g : S2 -> S2 + R2) (R : S1 -> S2 -> Prop) (Q : R1 -> R2 -> Prop) s t :
  (forall s t, R s t -> match f s, g t with inl s', inl t' => R s' t' | inr a, inr b => Q a b | _, _ => False end) ->
  R s t -> match loop f s, loop g t with Some a, Some b => Q a b | None, None => True | _, _ => False end.
Proof.
  intros Hstep H0. unfold loop. revert s t H0.
  assert (K : forall d s t, R s t -> match iter d f s, iter d g t with inl s', inl t' => R s' t' | inr a, inr b => Q a b | _, _ => False end).
  { induction d as [|d IH]; intros s t H; cbn [iter]; [now apply Hstep|].
    specialize (IH s t H) as IH1. destruct (iter d f s) as [s'|a], (iter d g t) as [t'|b]; try contradiction; [|exact IH1].
    now apply IH. }
  intros s t H. specialize (K 64%nat s t H). destruct (iter 64 f s), (iter 64 g t); try contradiction; [exact Logic.I|exact K].
Qed.

(** *** The whole function *)

Definition OkW (M0 : mem) (p0 : Z) (extra : Z) (o : option (list Z)) (r : option wst) : Prop :=
  match o, r with
  | Some out, Some w => Rel M0 p0 extra w out
  | None, None => True
  | _, _ => False
  end.

Lemma wrap_final M p n hdr mid start k w body :
  start = 8 + len mid -> (hdr = [] /\ mid = [] \/ exists u, hdr = le32 u ++ mid) ->
  Rel (store M p (le32 n ++ hdr)) (p + start) k w body ->
  let out := le32 n ++ le32 (start + len body) ++ mid ++ body in
  snd w - p = len out /\
  forall x, x < p + len out \/ p + len out + k <= x ->
    store (fst w) (p + 4) (le32 (snd w - p)) x = store M p out x.
Proof.
  intros Hs Hh (H1 & H2 & H3). cbv zeta. pose proof (len_nonneg mid) as Hm. pose proof (len_nonneg body) as Hb.
  assert (HL : len (le32 n ++ le32 (start + len body) ++ mid ++ body) = start + len body).
  { rewrite !len_app, !len_le32. lia. }
  rewrite HL. split; [lia|]. intros x Hx.
  replace (snd w - p) with (start + len body) by lia.
  assert (E : forall x, store M p (le32 n ++ le32 (start + len body) ++ mid ++ body) x =
    store (store (store (store M p (le32 n)) (p + 4) (le32 (start + len body))) (p + 8) mid) (p + start) body x).
  { intros y. rewrite !app_assoc. rewrite <- store_app.
    replace (p + len ((le32 n ++ le32 (start + len body)) ++ mid)) with (p + start) by (rewrite !len_app, !len_le32; lia).
    apply store_cong. rewrite <- store_app.
    replace (p + len (le32 n ++ le32 (start + len body))) with (p + 8) by (rewrite !len_app, !len_le32; lia).
    apply store_cong. rewrite <- store_app. reflexivity. }
  rewrite E. clear E.
  destruct ((p + 4 <=? x) && (x <? p + 8)) eqn:E4.
  - rewrite store_in by (rewrite len_le32; lia). rewrite store_out by lia. rewrite store_out by lia.
    rewrite store_in by (rewrite len_le32; lia). reflexivity.
  - rewrite store_out by (rewrite len_le32; lia). rewrite H3 by lia.
    destruct ((p + start <=? x) && (x <? p + start + len body)) eqn:E5.
    + rewrite !store_in by lia. reflexivity.
    + rewrite !(store_out _ (p + start)) by lia.
      destruct Hh as [[-> ->]|[u ->]].
      * rewrite app_nil_r. rewrite (store_out _ (p + 8)) by (rewrite len_nil; lia).
        rewrite (store_out _ (p + 4)) by (rewrite len_le32; lia). reflexivity.
      * rewrite app_assoc. rewrite <- store_app. rewrite len_app, !len_le32. change (4 + 4) with 8.
        destruct ((p + 8 <=? x) && (x <? p + 8 + len mid)) eqn:E6.
        -- rewrite !store_in by lia. reflexivity.
        -- rewrite !(store_out _ (p + 8)) by lia. rewrite <- store_app. rewrite len_le32.
           rewrite !(store_out _ (p + 4)) by (rewrite len_le32; lia). reflexivity.
Qed.

Lemma w_wrap_writes hdr start mid body lbody extra comp :
  start = 8 + len mid -> (hdr = [] /\ mid = [] \/ exists u, hdr = le32 u ++ mid) ->
  (forall inNull outNull In n outSize, comp inNull outNull In n outSize =
     if inNull || (n =? 0) || outNull || (outSize <? rle_compress_bounds n) then CRefused
     else match lbody In n with Some b => COk (le32 n ++ le32 (start + len b) ++ mid ++ b) | None => CDiverge end) ->
  (forall In n (w : wst), 1 <= n -> OkW (fst w) (snd w) extra (lbody In n) (body In n w)) ->
  Writes (w_wrap hdr start body) comp extra.
Proof.
  intros Hs Hh Hc Hb inNull In n M p outSize Hn. rewrite Hc. unfold w_wrap.
  destruct (inNull || (n =? 0) || (p =? 0) || (outSize <? rle_compress_bounds n)) eqn:E; [reflexivity|].
  specialize (Hb In n (store M p (le32 n ++ hdr), p + start) ltac:(lia)). cbn [fst snd] in Hb. unfold OkW in Hb.
  destruct (lbody In n) as [b|], (body In n (store M p (le32 n ++ hdr), p + start)) as [[M1 q]|]; try contradiction; [|reflexivity].
  destruct (wrap_final M p n hdr mid start extra (M1, q) b Hs Hh Hb) as [H1 H2]. cbn [fst snd] in H1, H2.
  set (out := le32 n ++ le32 (start + len b) ++ mid ++ b) in *. destruct Hb as (_ & Hx & _). pose proof (len_nonneg out) as Ho.
  eexists. split; [rewrite H1 at 1; reflexivity|]. split.
  - rewrite (slice_ext _ (store M p out)).
    + clear. apply slice_store_self.
    + intros x Hk. apply H2. lia.
  - intros x Hk. rewrite H2 by lia. apply store_out. lia.
Qed.

(** *** Extreme codecs *)

Lemma pad_range S : 0 <= pad S <= 2.
Proof. unfold pad, rawS. destruct (S =? 3) eqn:E1; [lia|]. destruct (S =? 6) eqn:E2; lia. Qed.

Section Gen.
  Variables (M0 : mem) (p0 K : Z).
  Hypothesis HK : 0 <= K.

  Lemma RK_putx w out b : Rel M0 p0 K w out -> Rel M0 p0 K (putx b w) (out ++ b).
  Proof. intros H. pose proof (len_nonneg b). eapply Rel_le; [apply Rel_putx; exact H|lia]. Qed.

  Lemma RK_sym S w out sym : pad S <= K -> Rel M0 p0 K w out -> Rel M0 p0 K (put_sym S sym w) (out ++ sym).
  Proof. intros HS H. pose proof (len_nonneg sym). eapply Rel_le; [apply Rel_put_sym; exact H|lia]. Qed.

  Lemma RK_close k w out b : Rel M0 p0 k w out -> k <= len b -> Rel M0 p0 0 (putx b w) (out ++ b).
  Proof. intros H Hl. eapply Rel_le; [apply Rel_putx; exact H|lia]. Qed.
End Gen.

Definition strip (st : est) : est := mkE (e_i st) (e_count st) (e_sym st) (e_last st) (e_lsym st) [] (e_goto st).

Section ExtW.
  Variables (c : xcfg) (v : simd) (In : mem) (n : Z) (M0 : mem) (p0 : Z).
  Notation K := (pad (xS c)).

  Lemma emit_countW_ok w out sym lsym count : Rel M0 p0 K w out ->
    Rel M0 p0 K (emit_countW c sym lsym count w) (out ++ emit_count c sym lsym count).
  Proof.
    intros H. pose proof (pad_range (xS c)) as HP. unfold emit_countW, emit_count. cbv zeta.
    destruct (xPack c).
    - rewrite app_assoc. destruct (eqb_bytes sym lsym).
      + rewrite app_nil_r. apply RK_putx; [lia|exact H].
      + apply RK_sym; [lia|]. apply RK_putx; [lia|exact H].
    - rewrite app_assoc. apply RK_putx; [lia|]. apply RK_sym; [lia|exact H].
  Qed.

  Lemma packetW_ok st : match packet c In st, packetW c In (strip st) with
    | Some b, Some f => forall w out, Rel M0 p0 K w out -> Rel M0 p0 K (f w) (out ++ b)
    | None, None => True
    | _, _ => False
    end.
  Proof.
    pose proof (pad_range (xS c)) as HP. unfold packet, packetW. cbv zeta. cbn [strip e_i e_count e_sym e_last e_lsym].
    destruct (accept_short c _ (e_count st) (e_sym st) (e_lsym st)); [|destruct (xLONG c <=? e_count st); [|exact Logic.I]];
      (intros w out H; rewrite !app_assoc; apply RK_putx; [lia|]; apply RK_putx; [lia|]; apply emit_countW_ok; exact H).
  Qed.

  Definition RX (st : est) (s : est * wst) : Prop := fst s = strip st /\ Rel M0 p0 K (snd s) (e_out st).

  Lemma emitW_ok st s : RX st s -> RX (emit c In st) (emitW c In s).
  Proof.
    destruct s as [st' w]. intros [E H]. cbn [fst snd] in E, H. subst st'. unfold emit, emitW.
    pose proof (packetW_ok st) as P. destruct (packet c In st) as [b|], (packetW c In (strip st)) as [f|]; try contradiction.
    - split; [reflexivity|]. cbn [snd e_out]. apply P. exact H.
    - split; [reflexivity|exact H].
  Qed.

  Lemma enc_secondW_ok st s i count : RX st s ->
    match enc_second c v In n st i count, enc_secondW c v In n s i count with
    | inl st', inl s' => RX st' s'
    | inr None, inr None => True
    | _, _ => False
    end.
  Proof.
    destruct s as [st' w]. intros [E H]. cbn [fst snd] in E, H. subst st'. unfold enc_second, enc_secondW. cbv zeta.
    cbn [strip e_sym e_last e_lsym].
    pose proof (emitW_ok (mkE i count (e_sym st) (e_last st) (e_lsym st) (e_out st) false)
      (mkE i count (e_sym st) (e_last st) (e_lsym st) [] false, w) (conj eq_refl H)) as P.
    destruct (emitW c In _) as [st1 w1]. set (st2 := emit c In _) in *. destruct P as [E1 H1]. cbn [fst snd] in E1, H1. subst st1.
    destruct (if xS c =? 16 then loop (scan_step128 In n) i else scan c v In n i) as [[i' found]|]; [|exact Logic.I].
    unfold next_run. destruct found; [split; [reflexivity|exact H1]|]. cbv zeta.
    destruct ((i' + xS c <=? n) && _); (split; [reflexivity|exact H1]).
  Qed.

  Lemma enc_stepW_ok st s : RX st s ->
    match enc_step c v In n st, enc_stepW c v In n s with
    | inl st', inl s' => RX st' s'
    | inr (Some st'), inr (Some s') => RX st' s'
    | inr None, inr None => True
    | _, _ => False
    end.
  Proof.
    destruct s as [st' w]. intros [E H]. cbn [fst snd] in E, H. subst st'. unfold enc_step, enc_stepW.
    cbn [strip e_i e_count e_sym e_last e_lsym e_goto].
    destruct ((e_i st <? n) || e_goto st); [|split; [reflexivity|exact H]].
    replace (phase1 c v In n (strip st)) with (phase1 c v In n st) by (destruct v; reflexivity).
    destruct (if xS c =? 16 then loop (match_step128 c In n (e_sym st)) (e_i st, e_count st) else phase1 c v In n st) as [[i count|i count]|].
    - pose proof (enc_secondW_ok st (strip st, w) i count (conj eq_refl H)) as P.
      destruct (enc_second c v In n st i count) as [|[|]], (enc_secondW c v In n (strip st, w) i count) as [|[|]]; try contradiction; exact P.
    - destruct (scalar_step c In n i count (e_sym st)) as [[i' count']|[i' count']].
      + split; [reflexivity|exact H].
      + pose proof (enc_secondW_ok st (strip st, w) i' count' (conj eq_refl H)) as P.
        destruct (enc_second c v In n st i' count') as [|[|]], (enc_secondW c v In n (strip st, w) i' count') as [|[|]]; try contradiction; exact P.
    - exact Logic.I.
  Qed.

  Lemma term_countW_ok w out : Rel M0 p0 K w out -> Rel M0 p0 0 (term_countW c w) (out ++ term_count c).
  Proof.
    intros H. pose proof (pad_range (xS c)) as HP. unfold term_countW, term_count. destruct (xPack c).
    - eapply RK_close; [exact H|]. rewrite len_cons, len_le32. lia.
    - rewrite app_assoc. apply (RK_close _ _ (pad (xS c))); [apply RK_sym; [lia|exact H]|]. rewrite len_cons, len_le32. lia.
  Qed.

  Lemma finishW_ok st s : RX st s -> Rel M0 p0 0 (finishW c In s) (finish c In st).
  Proof.
    destruct s as [st' w]. intros [E H]. cbn [fst snd] in E, H. subst st'. unfold finish, finishW.
    pose proof (packetW_ok st) as P. destruct (packet c In st) as [b|], (packetW c In (strip st)) as [f|]; try contradiction.
    - rewrite !app_assoc. apply RK_putx; [lia|]. apply term_countW_ok. apply P. exact H.
    - cbv zeta. cbn [strip e_i e_last]. rewrite !app_assoc. apply RK_putx; [lia|]. apply RK_putx; [lia|]. apply term_countW_ok. exact H.
  Qed.
End ExtW.

Definition x_lbody (c : xcfg) (v : simd) (In : mem) (n : Z) : option (list Z) :=
  match loop (enc_step c v In n) (mkE 0 0 (init_sym c In) 0 (repeat 0 (Z.to_nat (xS c))) [] false) with
  | Some (Some st') => Some (finish c In st')
  | _ => None
  end.

Lemma Rel_start (w : wst) : forall k, 0 <= k -> Rel (fst w) (snd w) k w [].
Proof.
  intros k Hk. split; [rewrite len_nil; lia|]. split; [exact Hk|]. intros x _. unfold store. rewrite len_nil.
  replace ((snd w <=? x) && (x <? snd w + 0)) with false by lia. reflexivity.
Qed.

Theorem x_writes c v : Writes (x_write c v) (xcompress c v) 0.
Proof.
  apply (w_wrap_writes (le32 0) 8 [] _ (x_lbody c v)).
  - reflexivity.
  - right. exists 0. reflexivity.
  - intros. unfold xcompress, x_lbody. cbv zeta. destruct (_ || _); [reflexivity|].
    destruct (loop _ _) as [[st|]|]; reflexivity.
  - intros In n w Hn. unfold x_lbody, x_bodyW.
    set (st0 := mkE 0 0 (init_sym c In) 0 (repeat 0 (Z.to_nat (xS c))) [] false).
    assert (L := loop_rel (enc_step c v In n) (enc_stepW c v In n) (RX c (fst w) (snd w))
      (fun a b => match a, b with Some a, Some b => RX c (fst w) (snd w) a b | None, None => True | _, _ => False end) st0 (st0, w)).
    assert (L1 : match loop (enc_step c v In n) st0, loop (enc_stepW c v In n) (st0, w) with
      | Some a, Some b => match a, b with Some a, Some b => RX c (fst w) (snd w) a b | None, None => True | _, _ => False end
      | None, None => True | _, _ => False end).
    { apply L.
      - intros st s H. pose proof (enc_stepW_ok c v In n (fst w) (snd w) st s H) as P.
        destruct (enc_step c v In n st) as [|[|]], (enc_stepW c v In n s) as [|[|]]; try contradiction; exact P.
      - split; [reflexivity|]. cbn [snd st0 e_out]. apply Rel_start. pose proof (pad_range (xS c)). lia. }
    destruct (loop (enc_step c v In n) st0) as [[st|]|], (loop (enc_stepW c v In n) (st0, w)) as [[s|]|]; try contradiction; try exact Logic.I.
    cbn [OkW]. eapply finishW_ok. exact L1.
Qed.
