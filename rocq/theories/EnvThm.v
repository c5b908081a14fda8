(** Two inputs that agree on the bytes an encoder may look at give the same stream. *)
From Verif Require Import Base Simd Spec Spec2 ExtModel ExtDec ExtEnc PktModel Rle8Model MbModel LutModel SlModel ShModel WrThm EnvSpec.

Lemma loop_same {S R} (f g : S -> S + R) (I : S -> Prop) (Q : R -> Prop) s :
  (forall s, I s -> f s = g s /\ match f s with inl s' => I s' | inr r => Q r end) -> I s ->
  loop f s = loop g s /\ match loop f s with Some r => Q r | None => True end.
Proof.
  intros H H0.
  assert (K : match loop f s, loop g s with Some a, Some b => a = b /\ Q a | None, None => True | _, _ => False end).
  { apply (loop_rel f g (fun s t => s = t /\ I s) (fun a b => a = b /\ Q a)); [|now split].
    intros u t [<- Hu]. destruct (H u Hu) as [E K]. rewrite <- E. destruct (f u); now split. }
  destruct (loop f s), (loop g s); try contradiction; [|now split]. destruct K as [-> K]. now split.
Qed.

Lemma loop_same_opt {S R} (f g : S -> S + option R) (I : S -> Prop) (Q : R -> Prop) s :
  (forall s, I s -> f s = g s /\ match f s with inl s' => I s' | inr (Some r) => Q r | inr None => True end) -> I s ->
  loop f s = loop g s /\ match loop f s with Some (Some r) => Q r | _ => True end.
Proof.
  intros H H0. destruct (loop_same f g I (fun r => match r with Some r => Q r | None => True end) s) as [E1 E2]; [|exact H0|].
  - intros u Hu. destruct (H u Hu) as [E1 E2]. split; [exact E1|]. destruct (f u) as [|[r|]]; exact E2.
  - split; [exact E1|]. destruct (loop f s) as [[r|]|]; exact E2.
Qed.

Lemma lead_ext f g W : (forall j, 0 <= j < W -> f j = g j) -> lead f W = lead g W.
Proof.
  intros H. unfold lead. assert (K : forall m j, 0 <= j -> j + Z.of_nat m <= W -> lead_nat f m j = lead_nat g m j).
  { induction m as [|m IH]; intros j Hj Hm; cbn [lead_nat]; [reflexivity|]. rewrite H by lia. destruct (g j); [apply IH; lia|reflexivity]. }
  destruct (Z_le_gt_dec 0 W); [apply K; lia|]. replace (Z.to_nat W) with 0%nat by lia. reflexivity.
Qed.
Lemma any_ext f g W : (forall j, 0 <= j < W -> f j = g j) -> any f W = any g W.
Proof.
  intros H. unfold any.
  assert (K : forall l, (forall k, List.In k l -> (k < Z.to_nat W)%nat) -> existsb (fun k => f (Z.of_nat k)) l = existsb (fun k => g (Z.of_nat k)) l).
  { induction l as [|k l IH]; intros Hl; cbn [existsb]; [reflexivity|]. rewrite H by (specialize (Hl k (or_introl eq_refl)); lia).
    rewrite IH; [reflexivity|]. intros; apply Hl; now right. }
  apply K. intros k Hk. apply in_seq in Hk. lia.
Qed.
Lemma popcnt_ext f g W : (forall j, 0 <= j < W -> f j = g j) -> popcnt f W = popcnt g W.
Proof.
  intros H. unfold popcnt. f_equal.
  assert (K : forall l, (forall k, List.In k l -> (k < Z.to_nat W)%nat) -> filter (fun k => f (Z.of_nat k)) l = filter (fun k => g (Z.of_nat k)) l).
  { induction l as [|k l IH]; intros Hl; cbn [filter]; [reflexivity|]. rewrite H by (specialize (Hl k (or_introl eq_refl)); lia).
    rewrite IH; [reflexivity|]. intros; apply Hl; now right. }
  apply K. intros k Hk. apply in_seq in Hk. lia.
Qed.
Lemma highest_ext f g m : (forall j, 0 <= j < Z.of_nat m -> f j = g j) -> highest_nat f m = highest_nat g m.
Proof. induction m as [|m IH]; intros H; cbn [highest_nat]; [reflexivity|]. rewrite H by lia. destruct (g (Z.of_nat m)); [reflexivity|]. apply IH. intros; apply H; lia. Qed.
Lemma highest_lt f m : highest_nat f m < Z.max 1 (Z.of_nat m).
Proof. induction m as [|m IH]; cbn [highest_nat]; [lia|]. destruct (f (Z.of_nat m)); lia. Qed.
Lemma highest_ge f m : -1 <= highest_nat f m.
Proof. induction m as [|m IH]; cbn [highest_nat]; [lia|]. destruct (f (Z.of_nat m)); lia. Qed.

Section Agree.
  Variables (A B : mem) (n K : Z).
  Hypothesis Hn : 0 <= n.
  Hypothesis HK : 0 <= K.
  Hypothesis AB : forall x, 0 <= x < n + K -> A x = B x.

  Lemma slice_same p k : 0 <= p -> p + k <= n + K -> slice A p k = slice B p k.
  Proof. intros Hp Hk. apply slice_ext. intros x Hx. apply AB. lia. Qed.

  (** *** 8 bit *)
  Definition R8 {X} (s : est8 X) : Prop := 0 <= i8 s <= n /\ 0 <= count8 s /\ 0 <= last8 s.
  Definition Proc8 {X} (proc : proc8 X) : Prop := forall i count sym last a, 0 <= i <= n -> 0 <= count -> 0 <= last ->
    proc A i count sym last a = proc B i count sym last a.

  Lemma emit8_same {X} (proc : proc8 X) s : Proc8 proc -> R8 s -> emit8 proc A s = emit8 proc B s /\ R8 (emit8 proc A s) /\ i8 (emit8 proc A s) = i8 s.
  Proof.
    intros Hp (H1 & H2 & H3). unfold emit8. rewrite (Hp _ _ _ _ _ H1 H2 H3). split; [reflexivity|].
    destruct (proc B _ _ _ _ _) as [[bytes a]|]; unfold R8; cbn [i8 count8 last8]; repeat split; lia.
  Qed.
  Lemma scan8_same W i : 2 <= W -> 0 <= i < n -> loop (scan8_step W A n) i = loop (scan8_step W B n) i /\
    match loop (scan8_step W A n) i with Some r => 0 <= r < n | None => True end.
  Proof.
    intros HW Hi. apply (loop_same _ _ (fun i => 0 <= i < n)); [|exact Hi]. clear i Hi. intros i Hi. unfold scan8_step.
    destruct (i <? n - W) eqn:E; [|split; [reflexivity|lia]].
    rewrite (lead_ext _ (fun j => negb (B (i + j) =? B (i + j + 1)))) by (intros j Hj; rewrite !AB by lia; reflexivity).
    split; [reflexivity|]. cbv zeta.
    pose proof (lead_spec (fun j => negb (B (i + j) =? B (i + j + 1))) (W - 1) ltac:(lia)) as (HL & _).
    destruct (_ =? W - 1) eqn:E2; lia.
  Qed.
  Lemma simd8_same {X} (proc : proc8 X) W s : 2 <= W -> Proc8 proc -> R8 s -> loop (simd8_step proc W A n) s = loop (simd8_step proc W B n) s /\
    match loop (simd8_step proc W A n) s with Some (Some r) => R8 r | _ => True end.
  Proof.
    intros HW Hp Hs. apply (loop_same_opt _ _ R8); [|exact Hs]. clear s Hs. intros s Hs. unfold simd8_step.
    destruct (i8 s <? n - W) eqn:E; [|split; [reflexivity|exact Hs]]. cbv zeta.
    pose proof Hs as (H1 & H2 & H3).
    rewrite (lead_ext (fun j => A (i8 s + j) =? sym8 s) (fun j => B (i8 s + j) =? sym8 s) W) by (intros j Hj; rewrite AB by lia; reflexivity).
    rewrite (any_ext (fun j => A (i8 s + j) =? sym8 s) (fun j => B (i8 s + j) =? sym8 s) W) by (intros j Hj; rewrite AB by lia; reflexivity).
    pose proof (lead_spec (fun j => B (i8 s + j) =? sym8 s) W ltac:(lia)) as (HL & _). set (b := lead (fun j => B (i8 s + j) =? sym8 s) W) in *.
    destruct (b =? W) eqn:Eb. { split; [reflexivity|]. unfold R8; cbn [i8 count8 last8]. lia. }
    assert (G : forall s1 s2, s1 = s2 -> R8 s1 -> i8 s1 < n ->
      let f (M : mem) s1 := match loop (scan8_step W M n) (i8 s1) with Some i' => inl (mk8 (i' + 1) 1 (M i') (last8 s1) (aux8 s1) (out8 s1)) | None => @inr (est8 X) (option (est8 X)) None end in
      f A s1 = f B s2 /\ match f A s1 with inl s' => R8 s' | inr (Some r) => R8 r | inr None => True end).
    { intros s1 s2 <- (F1 & F2 & F3) F4 f. unfold f. destruct (scan8_same W (i8 s1) HW ltac:(lia)) as [G1 G2]. rewrite <- G1.
      destruct (loop (scan8_step W A n) (i8 s1)) as [i'|]; [|split; [reflexivity|exact Logic.I]]. rewrite <- AB by lia.
      split; [reflexivity|]. unfold R8; cbn [i8 count8 last8]. lia. }
    destruct (any _ W || _).
    - destruct (emit8_same proc (mk8 (i8 s + b) (count8 s + b) (sym8 s) (last8 s) (aux8 s) (out8 s)) Hp) as (E1 & E2 & E3).
      { unfold R8; cbn [i8 count8 last8]. lia. }
      apply (G _ _ E1 E2). rewrite E3. cbn [i8]. lia.
    - apply (G s s eq_refl Hs). lia.
  Qed.
  Lemma scalar8_same {X} single (proc : proc8 X) s : Proc8 proc -> R8 s -> loop (scalar8_step single proc A n) s = loop (scalar8_step single proc B n) s /\
    match loop (scalar8_step single proc A n) s with Some r => R8 r | None => True end.
  Proof.
    intros Hp Hs. apply (loop_same _ _ R8); [|exact Hs]. clear s Hs. intros s Hs. unfold scalar8_step.
    pose proof Hs as (H1 & H2 & H3).
    destruct (i8 s <? n) eqn:E; [|split; [reflexivity|exact Hs]]. cbv zeta. rewrite <- AB by lia.
    destruct (A (i8 s) =? sym8 s). { split; [reflexivity|]. unfold R8; cbn [i8 count8 last8]. lia. }
    destruct (emit8_same proc s Hp Hs) as (E1 & (F1 & F2 & F3) & E3). rewrite <- E1.
    destruct single; (split; [reflexivity|]); unfold R8; cbn [i8 count8 last8]; lia.
  Qed.
  Lemma finish8_same {X} (proc : proc8 X) tn tl s : Proc8 proc -> R8 s -> finish8 proc tn tl A s = finish8 proc tn tl B s.
  Proof.
    intros Hp (H1 & H2 & H3). unfold finish8. rewrite (Hp _ _ _ _ _ H1 H2 H3).
    destruct (proc B _ _ _ _ _) as [[bytes a]|]; [reflexivity|]. rewrite slice_same by lia. reflexivity.
  Qed.
  Lemma body8_same {X} (pV pS : proc8 X) tn tl W s : 2 <= W -> Proc8 pV -> Proc8 pS -> R8 s -> body8 pV pS tn tl W A n s = body8 pV pS tn tl W B n s.
  Proof.
    intros HW HV HS Hs. unfold body8. destruct (simd8_same pV W s HW HV Hs) as [E1 E2]. rewrite <- E1.
    destruct (loop (simd8_step pV W A n) s) as [[s1|]|]; try reflexivity.
    destruct (scalar8_same false pS s1 HS E2) as [F1 F2]. rewrite <- F1. destruct (loop (scalar8_step false pS A n) s1) as [s2|]; [|reflexivity].
    now rewrite finish8_same.
  Qed.

  (** *** Packet decisions *)
  Lemma packet_slice i count last : 0 <= i <= n -> 0 <= count -> 0 <= last -> slice A last (i - count - last) = slice B last (i - count - last).
  Proof. intros. apply slice_same; lia. Qed.
  Lemma m_procV_same pk : Proc8 (m_procV pk).
  Proof. intros i count sym last a H1 H2 H3. unfold m_procV, m_packet. rewrite packet_slice by assumption. reflexivity. Qed.
  Lemma m_procS_same pk : Proc8 (m_procS pk).
  Proof. intros i count sym last a H1 H2 H3. unfold m_procS, m_packet. rewrite packet_slice by assumption. reflexivity. Qed.
  Lemma s_procS_same pk : Proc8 (s_procS pk).
  Proof. intros i count sym last a H1 H2 H3. unfold s_procS, s_packet_short, s_packet_long. rewrite packet_slice by assumption. reflexivity. Qed.
  Lemma sl_proc8_same c : Proc8 (fun In i count sym last a => sl_proc c In i count [sym] last a).
  Proof. intros i count sym last a H1 H2 H3. unfold sl_proc. rewrite packet_slice by assumption. reflexivity. Qed.
  Lemma sh_proc8_same c : Proc8 (fun In i count sym last a => sh_proc c In i count [sym] last a).
  Proof. intros i count sym last a H1 H2 H3. unfold sh_proc. rewrite packet_slice by assumption. reflexivity. Qed.

  (** *** Single symbol *)
  Lemma approx_same : 0 < n + K -> approx_symbol A n = approx_symbol B n.
  Proof.
    intros H0. unfold approx_symbol. rewrite (AB 0) by lia.
    set (s0 := (0, 255 - B 0, 0, fun _ => 0, if B 0 =? 0 then fun _ => 0 else upd (fun _ => 0) 0 (2 ^ 32 - 1))).
    destruct (loop_same_opt (approx_step A n) (approx_step B n) (fun s => let '(i, _, _, _, _) := s in 0 <= i <= n) (fun _ => True) s0) as [E _].
    - intros [[[[i sym] count] prob] pcount] Hi. unfold approx_step. destruct (i <? n - 16) eqn:E; [|split; [reflexivity|exact Logic.I]]. cbv zeta.
      rewrite (lead_ext (fun j => A (i + j) =? sym) (fun j => B (i + j) =? sym) 16) by (intros j Hj; rewrite AB by lia; reflexivity).
      rewrite (any_ext (fun j => A (i + j) =? sym) (fun j => B (i + j) =? sym) 16) by (intros j Hj; rewrite AB by lia; reflexivity).
      pose proof (lead_spec (fun j => B (i + j) =? sym) 16 ltac:(lia)) as (HL & _). set (b := lead (fun j => B (i + j) =? sym) 16) in *.
      destruct (b =? 16) eqn:Eb; [split; [reflexivity|lia]|].
      assert (G : forall i1 (p1 p2 : Z -> Z), 0 <= i1 < n ->
        let f (M : mem) := match loop (scan8_step 16 M n) i1 with Some i2 => @inl _ (option (Z * Z * (Z -> Z) * (Z -> Z))) (i2 + 1, M i2, 1, p1, p2) | None => inr None end in
        f A = f B /\ match f A with inl s' => let '(i, _, _, _, _) := s' in 0 <= i <= n | inr (Some _) => True | inr None => True end).
      { intros i1 p1 p2 Hi1 f. unfold f. destruct (scan8_same 16 i1 ltac:(lia) Hi1) as [G1 G2]. rewrite <- G1.
        destruct (loop (scan8_step 16 A n) i1) as [i'|]; [|split; [reflexivity|exact Logic.I]]. rewrite <- AB by lia. split; [reflexivity|lia]. }
      destruct (any _ 16 || _); apply G; lia.
    - unfold s0. lia.
    - rewrite E. reflexivity.
  Qed.
  Lemma sscan_same lim sym i : 0 <= i < n -> loop (sscan_step lim sym A n) i = loop (sscan_step lim sym B n) i /\
    match loop (sscan_step lim sym A n) i with Some (i', _) => 0 <= i' < n | None => True end.
  Proof.
    intros Hi. destruct (loop_same (sscan_step lim sym A n) (sscan_step lim sym B n) (fun i => 0 <= i < n) (fun r => let '(i', _) := r in 0 <= i' < n) i) as [E1 E2]; [|exact Hi|].
    - clear i Hi. intros i Hi. unfold sscan_step. destruct (i <? n - 16) eqn:E; [|split; [reflexivity|lia]]. cbv zeta.
      rewrite (any_ext (fun j => A (i + j) =? sym) (fun j => B (i + j) =? sym) 16) by (intros j Hj; rewrite AB by lia; reflexivity).
      rewrite (popcnt_ext (fun j => A (i + j) =? sym) (fun j => B (i + j) =? sym) 16) by (intros j Hj; rewrite AB by lia; reflexivity).
      rewrite (lead_ext (fun j => negb (A (i + j) =? sym)) (fun j => negb (B (i + j) =? sym)) 16) by (intros j Hj; rewrite AB by lia; reflexivity).
      rewrite (AB (i + 15)) by lia. split; [reflexivity|].
      pose proof (lead_spec (fun j => negb (B (i + j) =? sym)) 16 ltac:(lia)) as (HL & _). destruct (_ || _); lia.
    - split; [exact E1|]. destruct (loop (sscan_step lim sym A n) i) as [[i' ?]|]; exact E2.
  Qed.
  Lemma recount_same sym i0 : 0 <= i0 < n -> loop (recount_step A n sym) (i0, 0) = loop (recount_step B n sym) (i0, 0) /\
    match loop (recount_step A n sym) (i0, 0) with Some (i', count') => i0 <= i' < n /\ count' = i' - i0 | None => True end.
  Proof.
    intros Hi. destruct (loop_same (recount_step A n sym) (recount_step B n sym) (fun s => let '(i', count') := s in i0 <= i' < n /\ count' = i' - i0)
      (fun s => let '(i', count') := s in i0 <= i' < n /\ count' = i' - i0) (i0, 0)) as [E1 E2].
    - intros [i count] H. unfold recount_step. destruct (i <? n - 16) eqn:E; [|split; [reflexivity|exact H]]. rewrite <- AB by lia.
      destruct (A i =? sym); (split; [reflexivity|]); lia.
    - lia.
    - split; [exact E1|]. destruct (loop (recount_step A n sym) (i0, 0)) as [[i' ?]|]; exact E2.
  Qed.
  Definition RS (s : sst) : Prop := 0 <= ss_i s <= n /\ 0 <= ss_count s <= ss_i s /\ 0 <= ss_last s /\ 0 <= ss_first s < n.
  Lemma s_decide_same pk sym s : RS s -> ss_i s < n -> s_decide pk sym A n s = s_decide pk sym B n s /\
    match s_decide pk sym A n s with Some r => RS r /\ ss_i r < n | None => True end.
  Proof.
    intros (H1 & H2 & H3 & H4) H6. unfold s_decide, s_packet_short, s_packet_long. cbv zeta. rewrite (packet_slice (ss_i s) (ss_count s) (ss_last s)) by lia.
    destruct (sSHORT pk <=? ss_count s); [|split; [reflexivity|split; [repeat split; lia|lia]]].
    destruct (_ <=? 255). { split; [reflexivity|]. unfold RS; cbn [ss_i ss_count ss_last ss_first]. lia. }
    destruct (s_accept_long _ _). { split; [reflexivity|]. unfold RS; cbn [ss_i ss_count ss_last ss_first]. lia. }
    destruct (_ || _). { split; [reflexivity|]. unfold RS; cbn [ss_i ss_count ss_last ss_first]. lia. }
    destruct (2 <? _). 2:{ split; [reflexivity|]. unfold RS; cbn [ss_i ss_count ss_last ss_first]. lia. }
    destruct (recount_same sym (ss_first s) H4) as [E1 E2]. rewrite <- E1.
    destruct (loop (recount_step A n sym) (ss_first s, 0)) as [[i' count']|]; [|split; [reflexivity|exact Logic.I]].
    unfold s_packet_wasted. rewrite (packet_slice i' count' (ss_last s)) by lia. split; [reflexivity|]. unfold RS; cbn [ss_i ss_count ss_last ss_first]. lia.
  Qed.
  Lemma single_same pk sym s : RS s -> loop (single_step pk sym A n) s = loop (single_step pk sym B n) s /\
    match loop (single_step pk sym A n) s with Some (Some r) => RS r | _ => True end.
  Proof.
    intros Hs. apply (loop_same_opt _ _ RS); [|exact Hs]. clear s Hs. intros s Hs. unfold single_step.
    destruct (ss_i s <? n - 16) eqn:E; [|split; [reflexivity|exact Hs]]. cbv zeta.
    pose proof Hs as (H1 & H2 & H3 & H4).
    rewrite (lead_ext (fun j => A (ss_i s + j) =? sym) (fun j => B (ss_i s + j) =? sym) 16) by (intros j Hj; rewrite AB by lia; reflexivity).
    rewrite (any_ext (fun j => A (ss_i s + j) =? sym) (fun j => B (ss_i s + j) =? sym) 16) by (intros j Hj; rewrite AB by lia; reflexivity).
    pose proof (lead_spec (fun j => B (ss_i s + j) =? sym) 16 ltac:(lia)) as (HL & _). set (b := lead (fun j => B (ss_i s + j) =? sym) 16) in *.
    destruct (b =? 16) eqn:Eb. { split; [reflexivity|]. unfold RS; cbn [ss_i ss_count ss_last ss_first]. lia. }
    assert (G : forall s1, RS s1 -> ss_i s1 < n ->
      let f (M : mem) := match loop (sscan_step (sSHORT pk) sym M n) (ss_i s1) with
        | Some (i', found) => @inl _ (option sst) (mkS (i' + 1) (if found then 1 else 0) (ss_last s1) (ss_out s1) (ss_w s1) (ss_first s1)) | None => inr None end in
      f A = f B /\ match f A with inl s' => RS s' | inr (Some r) => RS r | inr None => True end).
    { intros s1 (F1 & F2 & F3 & F4) F5 f. unfold f. destruct (sscan_same (sSHORT pk) sym (ss_i s1) ltac:(lia)) as [G1 G2]. rewrite <- G1.
      destruct (loop (sscan_step (sSHORT pk) sym A n) (ss_i s1)) as [[i' found]|]; [|split; [reflexivity|exact Logic.I]].
      split; [reflexivity|]. unfold RS; cbn [ss_i ss_count ss_last ss_first]. destruct found; lia. }
    destruct (any _ 16 || _).
    - destruct (s_decide_same pk sym (mkS (ss_i s + b) (ss_count s + b) (ss_last s) (ss_out s) (ss_w s) (ss_first s))) as [E1 E2].
      { unfold RS; cbn [ss_i ss_count ss_last ss_first]. lia. } { cbn [ss_i]. lia. }
      rewrite <- E1. destruct (s_decide pk sym A n _) as [s1|]; [|split; [reflexivity|exact Logic.I]]. apply G; apply E2.
    - apply (G s Hs). lia.
  Qed.
  Lemma sh_single_same c s : let proc : proc8 (list (list Z)) := fun In i count sym last a => sh_proc c In i count [sym] last a in
    R8 s -> loop (sh_single_step proc A n) s = loop (sh_single_step proc B n) s /\
    match loop (sh_single_step proc A n) s with Some (Some r) => R8 r | _ => True end.
  Proof.
    intros proc Hs. assert (Hp : Proc8 proc) by apply sh_proc8_same. apply (loop_same_opt _ _ R8); [|exact Hs]. clear s Hs. intros s Hs. unfold sh_single_step.
    destruct (i8 s <? n - 16) eqn:E; [|split; [reflexivity|exact Hs]]. cbv zeta.
    pose proof Hs as (H1 & H2 & H3).
    rewrite (lead_ext (fun j => A (i8 s + j) =? sym8 s) (fun j => B (i8 s + j) =? sym8 s) 16) by (intros j Hj; rewrite AB by lia; reflexivity).
    rewrite (any_ext (fun j => A (i8 s + j) =? sym8 s) (fun j => B (i8 s + j) =? sym8 s) 16) by (intros j Hj; rewrite AB by lia; reflexivity).
    pose proof (lead_spec (fun j => B (i8 s + j) =? sym8 s) 16 ltac:(lia)) as (HL & _). set (b := lead (fun j => B (i8 s + j) =? sym8 s) 16) in *.
    destruct (b =? 16) eqn:Eb. { split; [reflexivity|]. unfold R8; cbn [i8 count8 last8]. lia. }
    assert (G : forall s1 s2 : est8 (list (list Z)), s1 = s2 -> R8 s1 -> i8 s1 < n ->
      let f (M : mem) (s1 : est8 (list (list Z))) := match loop (sscan_step 2 (sym8 s) M n) (i8 s1) with
        | Some (i', found) => @inl _ (option (est8 (list (list Z)))) (mk8 (i' + 1) (if found then 1 else 0) (sym8 s1) (last8 s1) (aux8 s1) (out8 s1)) | None => inr None end in
      f A s1 = f B s2 /\ match f A s1 with inl s' => R8 s' | inr (Some r) => R8 r | inr None => True end).
    { intros s1 s2 <- (F1 & F2 & F3) F5 f. unfold f. destruct (sscan_same 2 (sym8 s) (i8 s1) ltac:(lia)) as [G1 G2]. rewrite <- G1.
      destruct (loop (sscan_step 2 (sym8 s) A n) (i8 s1)) as [[i' found]|]; [|split; [reflexivity|exact Logic.I]].
      split; [reflexivity|]. unfold R8; cbn [i8 count8 last8]. destruct found; lia. }
    destruct (any _ 16 || _).
    - destruct (emit8_same proc (mk8 (i8 s + b) (count8 s + b) (sym8 s) (last8 s) (aux8 s) (out8 s)) Hp) as (E1 & E2 & E3).
      { unfold R8; cbn [i8 count8 last8]. lia. }
      apply (G _ _ E1 E2). rewrite E3. cbn [i8]. lia.
    - apply (G s s eq_refl Hs). lia.
  Qed.

  (** *** Multi-byte *)
  Lemma load_same S i : 0 <= i -> i + S <= n + K -> load A S i = load B S i.
  Proof. intros. apply slice_same; lia. Qed.

  Section X.
  Variable c : xcfg.
  Hypothesis HS : xS c = K.
  Hypothesis Hok : okS K.

  Definition R1 (i0 count0 : Z) (r : after1) : Prop := match r with Second i count | Fall i count => i0 <= i <= n /\ count0 <= count end.
  Lemma phase1_same v (st : est) : K <> 16 -> 0 <= e_i st <= n -> phase1 c v A n st = phase1 c v B n st /\
    match phase1 c v A n st with Some r => R1 (e_i st) (e_count st) r | None => True end.
  Proof.
    intros H16 Hi. unfold phase1. destruct v eqn:Ev; [split; [reflexivity|unfold R1; lia]| | |].
    all: rewrite <- Ev; set (vec := enc_vec (xS c) v (e_sym st));
      apply (loop_same _ _ (fun s => let '(i, count) := s in e_i st <= i <= n /\ e_count st <= count)); [|lia];
      intros [i count] [G1 G2]; unfold match_step; cbv zeta;
      assert (HW : 16 <= simdW v <= 32) by (rewrite Ev; cbn; lia);
      (destruct (i <? n - simdW v - xS c) eqn:E; [|split; [reflexivity|unfold R1; lia]]);
      rewrite HS in *;
      rewrite (lead_ext (fun j => A (i + j) =? symbyte vec j) (fun j => B (i + j) =? symbyte vec j) (simdW v)) by (intros j Hj; rewrite AB by lia; reflexivity);
      rewrite (AB (i + 0)) by lia;
      pose proof (lead_spec (fun j => B (i + j) =? symbyte vec j) (simdW v) ltac:(lia)) as (HL & _);
      set (b := lead (fun j => B (i + j) =? symbyte vec j) (simdW v)) in *;
      (destruct (B (i + 0) =? symbyte vec 0); [|split; [reflexivity|unfold R1; lia]]);
      (destruct (b =? simdW v) eqn:Eb;
        [split; [reflexivity|]; pose proof (Z.mod_pos_bound (simdW v) K ltac:(unfold okS in Hok; lia));
         pose proof (Z.mod_le (simdW v) K ltac:(lia) ltac:(unfold okS in Hok; lia)); lia|]);
      (split; [reflexivity|]); pose proof (align_bit_ok K b Hok H16 ltac:(lia)) as (HA & _); unfold R1; destruct (xUnb c); lia.
  Qed.
  Lemma scalar_same i count sym : 0 <= i <= n -> 0 <= count -> scalar_step c A n i count sym = scalar_step c B n i count sym /\
    match scalar_step c A n i count sym with inl (i', count') | inr (i', count') => i <= i' <= n /\ count <= count' end.
  Proof.
    intros Hi Hc. unfold scalar_step. rewrite HS. assert (1 <= K) by (unfold okS in Hok; lia).
    destruct (negb _); [|split; [reflexivity|lia]].
    destruct (i + K <=? n) eqn:E; [|split; [reflexivity|lia]]. rewrite load_same by lia.
    destruct (eqb_bytes _ _); [split; [reflexivity|lia]|]. destruct (xUnb c); [|split; [reflexivity|lia]].
    rewrite (lead_ext (fun j => A (i + j) =? symbyte sym j) (fun j => B (i + j) =? symbyte sym j) K) by (intros j Hj; rewrite AB by lia; reflexivity).
    split; [reflexivity|]. pose proof (lead_spec (fun j => B (i + j) =? symbyte sym j) K ltac:(lia)) as (HL & _). cbv zeta. lia.
  Qed.
  Definition RF (i0 : Z) (r : Z * bool) : Prop := let '(i, found) := r in i0 <= i <= n /\ (found = true -> i + 2 * K <= n).
  Lemma mask_fold_ext f g W : (forall j, 0 <= j < W -> f j = g j) -> forall j, fold_mask K (mask W f) j = fold_mask K (mask W g) j.
  Proof.
    intros H. assert (E : forall j, mask W f j = mask W g j).
    { intros j. unfold mask. destruct ((0 <=? j) && (j <? W)) eqn:E; [|reflexivity]. cbn [andb]. apply H. lia. }
    intros j. unfold fold_mask, mand, mshr. destruct (K =? 2), (K =? 4), (K =? 8), (K =? 3); rewrite !E; reflexivity.
  Qed.
  Lemma scan_same v i : K <> 16 -> 0 <= i <= n -> scan c v A n i = scan c v B n i /\
    match scan c v A n i with Some r => RF i r | None => True end.
  Proof.
    intros H16 Hi. assert (HK1 : 2 <= K <= 16) by (unfold okS in Hok; lia).
    unfold scan. destruct v eqn:Ev; [split; [reflexivity|unfold RF; split; [lia|discriminate]]| | |].
    all: rewrite <- Ev; assert (HW : 16 <= simdW v <= 32) by (rewrite Ev; cbn; lia);
      apply (loop_same _ _ (fun i1 => i <= i1 <= n)); [|lia];
      intros i1 H1; unfold scan_step; cbv zeta; rewrite HS in *;
      (destruct (i1 <? n - simdW v - K) eqn:E; [|split; [reflexivity|unfold RF; split; [lia|discriminate]]]);
      set (gA := mask (simdW v) (fun j => A (i1 + j) =? A (i1 + K + j)));
      set (gB := mask (simdW v) (fun j => B (i1 + j) =? B (i1 + K + j)));
      rewrite (lead_ext (fun j => negb (fold_mask K gA j)) (fun j => negb (fold_mask K gB j)) (simdW v)) by
        (intros j Hj; f_equal; apply mask_fold_ext; intros k Hk; rewrite !AB by lia; reflexivity);
      pose proof (lead_spec (fun j => negb (fold_mask K gB j)) (simdW v) ltac:(lia)) as (HL & _ & HE);
      set (b := lead (fun j => negb (fold_mask K gB j)) (simdW v)) in *;
      (destruct (b =? simdW v) eqn:Eb; [split; [reflexivity|lia]|]); (split; [reflexivity|]);
      assert (HF : fold_mask K gB b = true) by (specialize (HE ltac:(lia)); destruct (fold_mask K gB b); [reflexivity|discriminate]);
      pose proof (fold_mask_sound K _ _ b Hok H16 HF (K - 1) ltac:(lia)) as [HB _]; unfold RF; lia.
  Qed.
  Lemma match128_same sym i count : K = 16 -> 0 <= i <= n -> loop (match_step128 c A n sym) (i, count) = loop (match_step128 c B n sym) (i, count) /\
    match loop (match_step128 c A n sym) (i, count) with Some r => R1 i count r | None => True end.
  Proof.
    intros H16 Hi. apply (loop_same _ _ (fun s => let '(i', count') := s in i <= i' <= n /\ count <= count')); [|lia].
    intros [i1 c1] [G1 G2]. unfold match_step128. destruct (i1 <? n - 16) eqn:E; [|split; [reflexivity|unfold R1; lia]]. cbv zeta.
    rewrite (lead_ext (fun j => A (i1 + j) =? symbyte sym j) (fun j => B (i1 + j) =? symbyte sym j) 16) by (intros j Hj; rewrite AB by lia; reflexivity).
    pose proof (lead_spec (fun j => B (i1 + j) =? symbyte sym j) 16 ltac:(lia)) as (HL & _).
    set (b := lead (fun j => B (i1 + j) =? symbyte sym j) 16) in *. split; [reflexivity|].
    destruct (b =? 16); [lia|]. destruct (xUnb c); unfold R1; lia.
  Qed.
  Lemma scan128_same i : K = 16 -> 0 <= i <= n -> loop (scan_step128 A n) i = loop (scan_step128 B n) i /\
    match loop (scan_step128 A n) i with Some r => RF i r | None => True end.
  Proof.
    intros H16 Hi. apply (loop_same _ _ (fun i1 => i <= i1 <= n)); [|lia].
    intros i1 H1. unfold scan_step128. destruct (i1 <? n - 32) eqn:E; [|split; [reflexivity|unfold RF; split; [lia|discriminate]]]. cbv zeta.
    rewrite (lead_ext (fun j => A (i1 + j) =? A (i1 + 16 + j)) (fun j => B (i1 + j) =? B (i1 + 16 + j)) 16) by (intros j Hj; rewrite !AB by lia; reflexivity).
    rewrite (highest_ext (fun j => negb (A (i1 + j) =? A (i1 + 16 + j))) (fun j => negb (B (i1 + j) =? B (i1 + 16 + j))) 16) by (intros j Hj; rewrite !AB by lia; reflexivity).
    rewrite !(AB (i1 + 15)), (AB (i1 + 16 + 15)) by lia. split; [reflexivity|].
    destruct (_ =? 16); [unfold RF; lia|]. destruct (negb _); [lia|].
    pose proof (highest_lt (fun j => negb (B (i1 + j) =? B (i1 + 16 + j))) 16). pose proof (highest_ge (fun j => negb (B (i1 + j) =? B (i1 + 16 + j))) 16). lia.
  Qed.

  Definition RE (s : est) : Prop := 0 <= e_i s <= n + K /\ (e_goto s = true -> e_i s <= n) /\ 0 <= e_count s /\ 0 <= e_last s.
  Lemma packetX_same s : RE s -> packet c A s = packet c B s.
  Proof. intros (H1 & H2 & H3 & H4). unfold packet. rewrite slice_same by lia. reflexivity. Qed.
  Lemma enc_second_same v s i count : RE s -> 0 <= i <= n -> 0 <= count -> enc_second c v A n s i count = enc_second c v B n s i count /\
    match enc_second c v A n s i count with inl s' => RE s' | inr (Some r) => RE r | inr None => True end.
  Proof.
    intros (H1 & H2 & H3 & H4) Hi Hc. unfold enc_second. cbv zeta.
    set (st0 := mkE i count (e_sym s) (e_last s) (e_lsym s) (e_out s) false).
    assert (R0 : RE st0) by (unfold RE, st0; cbn [e_i e_goto e_count e_last]; repeat split; lia || discriminate).
    assert (Ee : emit c A st0 = emit c B st0) by (unfold emit; now rewrite packetX_same). rewrite <- Ee.
    assert (R0' : RE (emit c A st0)).
    { unfold emit. destruct (packet c A st0); [|exact R0]. destruct R0 as (Q1 & Q2 & Q3 & Q4). unfold RE; cbn [e_i e_goto e_count e_last]. repeat split; lia || exact Q2. }
    assert (Es : (if xS c =? 16 then loop (scan_step128 A n) i else scan c v A n i) = (if xS c =? 16 then loop (scan_step128 B n) i else scan c v B n i) /\
       match (if xS c =? 16 then loop (scan_step128 A n) i else scan c v A n i) with Some r => RF i r | None => True end).
    { rewrite HS. destruct (K =? 16) eqn:E; [apply scan128_same; lia|apply scan_same; lia]. }
    destruct Es as [Es1 Es2]. rewrite <- Es1. clear Es1. set (rA := if xS c =? 16 then loop (scan_step128 A n) i else scan c v A n i) in *. clearbody rA. destruct rA as [[i' found]|]; [|split; [reflexivity|exact Logic.I]].
    destruct Es2 as [F1 F2]. destruct R0' as (Q1 & Q2 & Q3 & Q4). unfold next_run. cbv zeta. rewrite HS.
    assert (1 <= K) by (unfold okS in Hok; lia).
    rewrite load_same by lia. destruct found. { split; [reflexivity|]. unfold RE; cbn [e_i e_goto e_count e_last]. lia. }
    destruct (i' + K <=? n) eqn:E; cbn [andb]; [rewrite load_same by lia; destruct (eqb_bytes _ _)|]; (split; [reflexivity|]); unfold RE; cbn [e_i e_goto e_count e_last];
      repeat split; try lia; discriminate.
  Qed.
  Lemma enc_same v s : RE s -> loop (enc_step c v A n) s = loop (enc_step c v B n) s /\
    match loop (enc_step c v A n) s with Some (Some r) => RE r | _ => True end.
  Proof.
    intros Hs. apply (loop_same_opt _ _ RE); [|exact Hs]. clear s Hs. intros s Hs. unfold enc_step.
    pose proof Hs as (H1 & H2 & H3 & H4).
    destruct (_ || _) eqn:E; [|split; [reflexivity|exact Hs]].
    assert (Hi : 0 <= e_i s <= n) by (destruct (e_goto s) eqn:Eg; [specialize (H2 eq_refl); lia|]; rewrite orb_false_r in E; lia).
    assert (Ep : (if xS c =? 16 then loop (match_step128 c A n (e_sym s)) (e_i s, e_count s) else phase1 c v A n s) =
                 (if xS c =? 16 then loop (match_step128 c B n (e_sym s)) (e_i s, e_count s) else phase1 c v B n s) /\
       match (if xS c =? 16 then loop (match_step128 c A n (e_sym s)) (e_i s, e_count s) else phase1 c v A n s) with Some r => R1 (e_i s) (e_count s) r | None => True end).
    { rewrite HS. destruct (K =? 16) eqn:E16; [apply match128_same; lia|apply phase1_same; lia]. }
    destruct Ep as [Ep1 Ep2]. rewrite <- Ep1. clear Ep1. set (rA := if xS c =? 16 then loop (match_step128 c A n (e_sym s)) (e_i s, e_count s) else phase1 c v A n s) in *. clearbody rA. destruct rA as [[i count|i count]|]; [| |split; [reflexivity|exact Logic.I]].
    - destruct Ep2. apply enc_second_same; [exact Hs|lia|lia].
    - destruct Ep2 as [G1 G2]. destruct (scalar_same i count (e_sym s) ltac:(lia) ltac:(lia)) as [F1 F2]. rewrite <- F1.
      destruct (scalar_step c A n i count (e_sym s)) as [[i' count']|[i' count']].
      + split; [reflexivity|]. unfold RE; cbn [e_i e_goto e_count e_last]. repeat split; try lia; discriminate.
      + apply enc_second_same; [exact Hs|lia|lia].
  Qed.
  End X.

  Section M.
  Context {X : Type} (proc : procM X) (unb : bool).
  Hypothesis Hok : okS K.
  Hypothesis H16 : K <> 16.
  Definition ProcM : Prop := forall i count sym last a, 0 <= i <= n + K -> 0 <= count -> 0 <= last -> proc A i count sym last a = proc B i count sym last a.
  Hypothesis Hp : ProcM.
  Definition RM (s : estm X) : Prop := 0 <= m_i s <= n + K /\ (m_goto s = true -> m_i s <= n) /\ 0 <= MbModel.m_count s /\ 0 <= m_last s.
  Lemma emitM_same s : RM s -> emitM proc A s = emitM proc B s /\ RM (emitM proc A s) /\ m_i (emitM proc A s) = m_i s /\ MbModel.m_count (emitM proc A s) = MbModel.m_count s.
  Proof.
    intros (H1 & H2 & H3 & H4). unfold emitM. rewrite (Hp _ _ _ _ _ H1 H3 H4). split; [reflexivity|].
    destruct (proc B _ _ _ _ _) as [[bytes a]|]; unfold RM; cbn [m_i m_goto MbModel.m_count m_last]; repeat split; lia || assumption.
  Qed.
  Lemma mb_second_same v s i count : RM s -> 0 <= i <= n -> 0 <= count -> mb_second proc K unb v A n s i count = mb_second proc K unb v B n s i count /\
    match mb_second proc K unb v A n s i count with inl s' => RM s' | inr (Some r) => RM r | inr None => True end.
  Proof.
    intros (H1 & H2 & H3 & H4) Hi Hc. unfold mb_second. cbv zeta.
    destruct (emitM_same (mkM i count (m_sym s) (m_last s) (m_aux s) (m_out s) false)) as (E1 & (Q1 & Q2 & Q3 & Q4) & _).
    { unfold RM; cbn [m_i m_goto MbModel.m_count m_last]. repeat split; lia || discriminate. }
    rewrite <- E1. set (st := emitM proc A _) in *. clearbody st.
    destruct (scan_same (mcfg K unb) eq_refl Hok v i H16 Hi) as [F1 F2]. rewrite <- F1.
    destruct (scan (mcfg K unb) v A n i) as [[i' found]|]; [|split; [reflexivity|exact Logic.I]]. destruct F2 as [F2 F3].
    unfold next_runM. cbv zeta. assert (1 <= K) by (unfold okS in Hok; lia).
    rewrite load_same by lia. destruct found. { split; [reflexivity|]. unfold RM; cbn [m_i m_goto MbModel.m_count m_last]. lia. }
    destruct (i' + K <=? n) eqn:E; cbn [andb]; [rewrite load_same by lia; destruct (eqb_bytes _ _)|]; (split; [reflexivity|]); unfold RM; cbn [m_i m_goto MbModel.m_count m_last];
      repeat split; try lia; discriminate.
  Qed.
  Lemma mb_same v s : RM s -> loop (mb_step proc K unb v A n) s = loop (mb_step proc K unb v B n) s /\
    match loop (mb_step proc K unb v A n) s with Some (Some r) => RM r | _ => True end.
  Proof.
    intros Hs. apply (loop_same_opt _ _ RM); [|exact Hs]. clear s Hs. intros s Hs. unfold mb_step.
    pose proof Hs as (H1 & H2 & H3 & H4).
    destruct (_ || _) eqn:E; [|split; [reflexivity|exact Hs]].
    assert (Hi : 0 <= m_i s <= n) by (destruct (m_goto s) eqn:Eg; [specialize (H2 eq_refl); lia|]; rewrite orb_false_r in E; lia).
    set (e := mkE (m_i s) (MbModel.m_count s) (m_sym s) (m_last s) [] [] false).
    destruct (phase1_same (mcfg K unb) eq_refl Hok v e H16 Hi) as [Ep1 Ep2]. rewrite <- Ep1.
    destruct (phase1 (mcfg K unb) v A n e) as [[i count|i count]|]; [| |split; [reflexivity|exact Logic.I]].
    - destruct Ep2 as [G1 G2]. cbn [e e_i e_count] in G1, G2. apply mb_second_same; [exact Hs|lia|lia].
    - destruct Ep2 as [G1 G2]. cbn [e e_i e_count] in G1, G2.
      destruct (scalar_same (mcfg K unb) eq_refl Hok i count (m_sym s) ltac:(lia) ltac:(lia)) as [F1 F2]. rewrite <- F1.
      destruct (scalar_step (mcfg K unb) A n i count (m_sym s)) as [[i' count']|[i' count']].
      + split; [reflexivity|]. unfold RM; cbn [m_i m_goto MbModel.m_count m_last]. repeat split; try lia; discriminate.
      + apply mb_second_same; [exact Hs|lia|lia].
  Qed.
  Lemma finishM_same tn tl s : RM s -> finishM proc tn tl A s = finishM proc tn tl B s.
  Proof.
    intros (H1 & H2 & H3 & H4). unfold finishM. rewrite (Hp _ _ _ _ _ H1 H3 H4).
    destruct (proc B _ _ _ _ _) as [[bytes a]|]; [reflexivity|]. rewrite slice_same by lia. reflexivity.
  Qed.
  Lemma not_first_same : not_first K A = not_first K B.
  Proof. unfold not_first. assert (1 <= K) by (unfold okS in Hok; lia). rewrite load_same by lia. reflexivity. Qed.
  Lemma mb_body_same tn tl v a0 : mb_body proc tn tl K unb v A n a0 = mb_body proc tn tl K unb v B n a0.
  Proof.
    unfold mb_body. rewrite <- not_first_same. destruct (mb_same v (mkM 0 0 (not_first K A) 0 a0 [] false)) as [E1 E2].
    { unfold RM; cbn [m_i m_goto MbModel.m_count m_last]. repeat split; try lia; discriminate. }
    rewrite <- E1. destruct (loop (mb_step proc K unb v A n) _) as [[st|]|]; try reflexivity. now rewrite finishM_same.
  Qed.
  End M.
  Lemma sl_procM_same c : ProcM (sl_proc c).
  Proof. intros i count sym last a H1 H2 H3. unfold sl_proc. rewrite slice_same by lia. reflexivity. Qed.
  Lemma sh_procM_same c : ProcM (sh_proc c).
  Proof. intros i count sym last a H1 H2 H3. unfold sh_proc. rewrite slice_same by lia. reflexivity. Qed.

  (** *** Greedy *)
  Lemma common_nonneg a : forall b, 0 <= common a b.
  Proof. induction a as [|x a IH]; intros [|y b]; cbn [common]; try lia. destruct (x =? y); [specialize (IH b)|]; lia. Qed.
  Lemma common_le a : forall b, common a b <= len b.
  Proof. unfold len. induction a as [|x a IH]; intros [|y b]; cbn [common length]; try lia. destruct (x =? y); [specialize (IH b)|]; lia. Qed.
  Lemma best_match_le S next : 0 <= S -> forall lut best cnt, 0 <= cnt <= S -> len next = S -> 0 <= snd (best_match S next lut best cnt) <= S.
  Proof.
    intros HS. induction lut as [|x r IH]; intros best cnt Hc Hl; cbn [best_match snd]; [lia|].
    destruct (eqb_bytes x next); [cbn [snd]; lia|]. destruct (_ && _); apply IH; try assumption.
    pose proof (common_nonneg next x). assert (common next x <= len next).
    { clear. unfold len. revert x. induction next as [|y a IH]; intros [|z b]; cbn [common length]; try lia. destruct (y =? z); [specialize (IH b)|]; lia. }
    lia.
  Qed.
  Section G.
  Variable c : shcfg.
  Hypothesis HS : shS c = K.
  Hypothesis HK1 : 1 <= K.
  Lemma greedy_second_same s : RM s -> m_i s <= n -> greedy_second c A n s = greedy_second c B n s /\ RM (greedy_second c A n s).
  Proof.
    intros Hs Hi. unfold greedy_second. cbv zeta. destruct (emitM_same (sh_proc c) (sh_procM_same c) s Hs) as (E1 & (Q1 & Q2 & Q3 & Q4) & E2 & _).
    rewrite <- E1. set (st := emitM (sh_proc c) A s) in *. rewrite HS. rewrite (load_same K (m_i st)) by lia.
    destruct (m_i st + K <=? n) eqn:E; cbn [andb].
    - rewrite load_same by lia. destruct (eqb_bytes _ _).
      + split; [reflexivity|]. unfold RM; cbn [m_i m_goto MbModel.m_count m_last]. repeat split; try lia; discriminate.
      + pose proof (best_match_le K (load B K (m_i st)) ltac:(lia) (m_aux st) [] 0 ltac:(lia)) as HB.
        assert (HL : len (load B K (m_i st)) = K) by (unfold load; rewrite len_slice by lia; lia). specialize (HB HL).
        destruct (best_match _ _ _ _ _) as [best cnt]. cbn [snd] in HB. destruct (2 <=? cnt); (split; [reflexivity|]); unfold RM; cbn [m_i m_goto MbModel.m_count m_last];
          repeat split; try lia; discriminate.
    - split; [reflexivity|]. unfold RM; cbn [m_i m_goto MbModel.m_count m_last]. repeat split; try lia; discriminate.
  Qed.
  Lemma greedy_same s : RM s -> loop (greedy_step c A n) s = loop (greedy_step c B n) s /\
    match loop (greedy_step c A n) s with Some r => RM r | None => True end.
  Proof.
    intros Hs. apply (loop_same _ _ RM); [|exact Hs]. clear s Hs. intros s Hs. unfold greedy_step. cbv zeta.
    pose proof Hs as (H1 & H2 & H3 & H4).
    destruct (m_goto s) eqn:Eg. { destruct (greedy_second_same s Hs (H2 eq_refl)) as [E1 E2]. rewrite <- E1. now split. }
    destruct (m_i s <? n) eqn:E; [|split; [reflexivity|exact Hs]]. rewrite HS.
    destruct (negb _); cbn [andb]; [destruct (m_i s + K <=? n) eqn:E2|].
    2,3: destruct (greedy_second_same s Hs ltac:(lia)) as [F1 F2]; rewrite <- F1; now split.
    rewrite load_same by lia. destruct (eqb_bytes _ _).
    { split; [reflexivity|]. unfold RM; cbn [m_i m_goto MbModel.m_count m_last]. repeat split; try lia; discriminate. }
    pose proof (common_nonneg (m_sym s) (load B K (m_i s))). pose proof (common_le (m_sym s) (load B K (m_i s))) as HL.
    assert (HL2 : len (load B K (m_i s)) = K) by (unfold load; rewrite len_slice by lia; lia). rewrite HL2 in HL.
    set (s' := mkM (m_i s + _) _ (m_sym s) (m_last s) (m_aux s) (m_out s) false).
    assert (Hs' : RM s') by (unfold RM, s'; cbn [m_i m_goto MbModel.m_count m_last]; repeat split; lia || discriminate).
    destruct (greedy_second_same s' Hs') as [F1 F2]; [unfold s'; cbn [m_i]; lia|]. rewrite <- F1. now split.
  Qed.
  End G.
End Agree.

Lemma x_upto c v : List.In c xcodecs -> InputUpTo (xS c) (xcompress c v false false).
Proof.
  intros Hc A B n cap Hn AB. pose proof (xcodecs_cok c Hc) as Hok. assert (HS : okS (xS c)) by apply Hok.
  assert (HK : 1 <= xS c) by (unfold okS in HS; lia).
  unfold xcompress. destruct (_ || _); [reflexivity|].
  assert (E0 : init_sym c A = init_sym c B).
  { unfold init_sym. destruct (xS c =? 16) eqn:E; unfold load; (rewrite (slice_ext A B); [reflexivity|]); intros x Hx; apply AB; lia. }
  rewrite <- E0. cbv zeta. set (s0 := mkE 0 0 (init_sym c A) 0 (repeat 0 (Z.to_nat (xS c))) [] false).
  destruct (enc_same A B n (xS c) Hn ltac:(lia) AB c eq_refl HS v s0) as [E1 E2].
  { unfold RE, s0; cbn [e_i e_goto e_count e_last]. repeat split; try lia; discriminate. }
  rewrite <- E1. destruct (loop (enc_step c v A n) s0) as [[st|]|]; try reflexivity.
  assert (Ef : finish c A st = finish c B st).
  { unfold finish. rewrite (packetX_same A B n (xS c) ltac:(lia) AB c st E2). destruct (packet c B st); [reflexivity|]. destruct E2 as (Q1 & Q2 & Q3 & Q4). cbv zeta. rewrite (slice_ext A B); [reflexivity|]. intros x Hx. apply AB. lia. }
  rewrite Ef. reflexivity.
Qed.

Lemma sh_wrap_upto k body : (forall A B n, 0 < n -> (forall x, 0 <= x < n + k -> A x = B x) -> body A n = body B n) -> InputUpTo k (sh_wrap body false false).
Proof.
  intros H A B n cap Hn AB. unfold sh_wrap. destruct (n =? 0) eqn:E; [reflexivity|]. cbn [orb]. destruct (_ <? _); [reflexivity|].
  rewrite (H A B n) by (lia || exact AB). reflexivity.
Qed.
(** Bytes behind the input that are looked at. *)
Definition behind (S : Z) : Z := if S =? 1 then 0 else S.
Lemma sl_upto c v : List.In c slcodecs -> InputUpTo (behind (slS c)) (sl_compress c v false false).
Proof.
  intros Hc. change (sl_compress c v) with (sh_wrap (sl_body c v)). apply sh_wrap_upto. intros A B n Hn AB. unfold sl_body. cbv zeta. unfold behind in AB.
  destruct (slS c =? 1) eqn:E.
  - rewrite (AB 0) by lia. apply (body8_same A B n 0); try (destruct v; lia); try exact AB; try apply (sl_proc8_same A B n 0 ltac:(lia) AB).
    unfold R8; cbn [i8 count8 last8]. lia.
  - assert (Hok : okS (slS c) /\ slS c <> 16).
    { unfold okS. cbn in Hc. repeat (destruct Hc as [<-|Hc]; [cbn in E |- *; lia|]). contradiction. }
    destruct Hok as [Hok H16]. apply (mb_body_same A B n (slS c)); try assumption; try (unfold okS in Hok; lia). now apply sl_procM_same.
Qed.
Lemma sh_upto c v : List.In c shcodecs -> InputUpTo (behind (shS c)) (sh_compress c v false false).
Proof.
  intros Hc. unfold sh_compress. apply sh_wrap_upto. intros A B n Hn AB. unfold sh_body. cbv zeta. unfold behind in AB.
  assert (Hone : shOne c = true -> shS c = 1).
  { cbn in Hc. repeat (destruct Hc as [<-|Hc]; [cbn; lia || discriminate|]). contradiction. }
  destruct (shOne c) eqn:Eo.
  - specialize (Hone eq_refl). rewrite Hone in AB. cbn [Z.eqb Pos.eqb] in AB. unfold sh_body_single. cbv zeta.
    rewrite (approx_same A B n 0) by (lia || exact AB). destruct (approx_symbol B n) as [sym|]; [|reflexivity].
    assert (R0 : R8 n (@mk8 (list (list Z)) 0 0 sym 0 [] [])) by (unfold R8; cbn [i8 count8 last8]; lia).
    destruct (sh_single_same A B n 0 ltac:(lia) AB c _ R0) as [E1 E2]. rewrite <- E1.
    destruct (loop (sh_single_step _ A n) _) as [[s1|]|]; try reflexivity.
    destruct (scalar8_same A B n 0 ltac:(lia) AB true _ s1 (sh_proc8_same A B n 0 ltac:(lia) AB c) E2) as [F1 F2]. rewrite <- F1.
    destruct (loop (scalar8_step true _ A n) s1) as [s2|]; [|reflexivity].
    rewrite (finish8_same A B n 0 ltac:(lia) AB _ _ _ s2 (sh_proc8_same A B n 0 ltac:(lia) AB c) F2). reflexivity.
  - destruct (shS c =? 1) eqn:E.
    + rewrite (AB 0) by lia. apply (body8_same A B n 0); try (destruct v; lia); try exact AB; try apply (sh_proc8_same A B n 0 ltac:(lia) AB).
      unfold R8; cbn [i8 count8 last8]. lia.
    + assert (Hok : okS (shS c) /\ shS c <> 16).
      { unfold okS. cbn in Hc. repeat (destruct Hc as [<-|Hc]; [cbn in E |- *; lia|]). contradiction. }
      destruct Hok as [Hok H16]. apply (mb_body_same A B n (shS c)); try assumption; try (unfold okS in Hok; lia). now apply sh_procM_same.
Qed.
Lemma greedy_upto c : List.In c greedy_codecs -> InputUpTo (shS c) (greedy_compress c false false).
Proof.
  intros Hc. assert (HK : 1 <= shS c /\ shS c <> 16 /\ okS (shS c)).
  { unfold okS. cbn in Hc. repeat (destruct Hc as [<-|Hc]; [cbn; lia|]). contradiction. }
  destruct HK as (HK & H16 & Hok).
  unfold greedy_compress. apply sh_wrap_upto. intros A B n Hn AB. unfold greedy_body.
  rewrite <- (not_first_same A B n (shS c)) by (lia || exact AB || exact Hok).
  set (s0 := mkM 0 0 (not_first (shS c) A) 0 _ [] false).
  assert (R0 : RM n (shS c) s0) by (unfold RM, s0; cbn [m_i m_goto MbModel.m_count m_last]; repeat split; lia || discriminate).
  destruct (greedy_same A B n (shS c) ltac:(lia) AB c eq_refl HK s0 R0) as [E1 E2]. rewrite <- E1.
  destruct (loop (greedy_step c A n) s0) as [st|]; [|reflexivity].
  rewrite (finishM_same A B n (shS c)) by (assumption || lia || now apply sh_procM_same). reflexivity.
Qed.
Lemma m_input_only pk avx2 : InputOnly (m_compress pk avx2 false false).
Proof.
  intros A B n cap Hn AB. unfold m_compress. destruct (n =? 0) eqn:E; [reflexivity|]. cbn [orb]. destruct (_ <? _); [reflexivity|].
  assert (AB0 : forall x, 0 <= x < n + 0 -> A x = B x) by (intros; apply AB; lia).
  rewrite (AB 0) by lia. rewrite (body8_same A B n 0 ltac:(lia) AB0); [reflexivity|destruct avx2; lia| | |].
  - apply (m_procV_same A B n 0 ltac:(lia) AB0).
  - apply (m_procS_same A B n 0 ltac:(lia) AB0).
  - unfold R8; cbn [i8 count8 last8]. lia.
Qed.
Lemma s_input_only pk : InputOnly (s_compress pk false false).
Proof.
  intros A B n cap Hn AB. unfold s_compress. destruct (n =? 0) eqn:E; [reflexivity|]. cbn [orb]. destruct (_ <? _); [reflexivity|].
  assert (AB0 : forall x, 0 <= x < n + 0 -> A x = B x) by (intros; apply AB; lia).
  rewrite (approx_same A B n 0) by (lia || exact AB0). destruct (approx_symbol B n) as [sym|]; [|reflexivity].
  assert (R0 : RS n (mkS 0 0 0 [] 0 0)) by (unfold RS; cbn [ss_i ss_count ss_last ss_first]; lia).
  destruct (single_same A B n 0 ltac:(lia) AB0 pk sym _ R0) as [E1 E2]. rewrite <- E1.
  destruct (loop (single_step pk sym A n) _) as [[s1|]|]; try reflexivity.
  assert (R1 : R8 n (mk8 (ss_i s1) (ss_count s1) sym (ss_last s1) tt (ss_out s1))) by (destruct E2 as (? & ? & ? & ?); unfold R8; cbn [i8 count8 last8]; lia).
  destruct (scalar8_same A B n 0 ltac:(lia) AB0 true _ _ (s_procS_same A B n 0 ltac:(lia) AB0 pk) R1) as [F1 F2]. rewrite <- F1.
  destruct (loop (scalar8_step true _ A n) _) as [s2|]; [|reflexivity].
  rewrite (finish8_same A B n 0 ltac:(lia) AB0 _ _ _ s2 (s_procS_same A B n 0 ltac:(lia) AB0 pk) F2). reflexivity.
Qed.

(** *** Refutations: one symbol, followed by itself or by something that differs in the last byte *)
Definition seven : mem := fun _ => 7.
Definition seven_then (n : Z) : mem := fun x => if x <? n then 7 else 0.
Definition differs (comp : compressor) (S : Z) : bool :=
  match comp seven S 512, comp (seven_then (2 * S - 1)) S 512 with COk a, COk b => negb (eqb_bytes a b) | _, _ => false end.
Lemma eqb_bytes_refl a : eqb_bytes a a = true.
Proof. induction a as [|x a IH]; cbn [eqb_bytes]; [reflexivity|]. rewrite IH, Z.eqb_refl. reflexivity. Qed.
Lemma differs_not comp S k : 0 <= S -> differs comp S = true -> InputUpTo k comp -> S <= k.
Proof.
  intros Hn H K. destruct (Z_le_gt_dec S k) as [|G]; [assumption|exfalso]. unfold differs in H. rewrite (K seven (seven_then (2 * S - 1)) S 512 Hn) in H.
  - destruct (comp (seven_then (2 * S - 1)) S 512); try discriminate. rewrite eqb_bytes_refl in H. discriminate.
  - intros x Hx. unfold seven, seven_then. replace (x <? 2 * S - 1) with true by lia. reflexivity.
Qed.
Lemma upto_more comp k k' : InputUpTo k comp -> k <= k' -> InputUpTo k' comp.
Proof. intros H Hk A B n cap Hn AB. apply H; [exact Hn|]. intros x Hx. apply AB. lia. Qed.
Definition simds : list simd := [Base_; Sse2; Ssse3; Avx2].
Lemma simds_all v : List.In v simds.
Proof. destruct v; cbn; tauto. Qed.
Lemma x_upto_iff c v k : List.In c xcodecs -> (InputUpTo k (xcompress c v false false) <-> xS c <= k).
Proof.
  intros Hc. split; [|apply upto_more, x_upto, Hc]. apply differs_not.
  - pose proof (xcodecs_cok c Hc) as H. assert (HS : okS (xS c)) by apply H. unfold okS in HS. lia.
  - assert (K : forallb (fun c => forallb (fun v => differs (xcompress c v false false) (xS c)) simds) xcodecs = true) by (vm_compute; reflexivity).
    rewrite forallb_forall in K. specialize (K c Hc). cbv beta in K. rewrite forallb_forall in K. exact (K v (simds_all v)).
Qed.
Lemma sl_upto_iff c v k : List.In c slcodecs -> 0 <= k -> (InputUpTo k (sl_compress c v false false) <-> behind (slS c) <= k).
Proof.
  intros Hc Hk. split; [|apply upto_more, sl_upto, Hc]. unfold behind. destruct (slS c =? 1) eqn:E; [lia|].
  assert (K : forallb (fun c => (slS c =? 1) || (0 <=? slS c) && forallb (fun v => differs (sl_compress c v false false) (slS c)) simds) slcodecs = true) by (vm_compute; reflexivity).
  rewrite forallb_forall in K. specialize (K c Hc). cbv beta in K. rewrite E in K. cbn [orb] in K. apply andb_true_iff in K. destruct K as [K1 K2].
  rewrite forallb_forall in K2. apply differs_not; [lia|]. exact (K2 v (simds_all v)).
Qed.
Lemma sh_upto_iff c v k : List.In c shcodecs -> 0 <= k -> (InputUpTo k (sh_compress c v false false) <-> behind (shS c) <= k).
Proof.
  intros Hc Hk. split; [|apply upto_more, sh_upto, Hc]. unfold behind. destruct (shS c =? 1) eqn:E; [lia|].
  assert (K : forallb (fun c => (shS c =? 1) || (0 <=? shS c) && forallb (fun v => differs (sh_compress c v false false) (shS c)) simds) shcodecs = true) by (vm_compute; reflexivity).
  rewrite forallb_forall in K. specialize (K c Hc). cbv beta in K. rewrite E in K. cbn [orb] in K. apply andb_true_iff in K. destruct K as [K1 K2].
  rewrite forallb_forall in K2. apply differs_not; [lia|]. exact (K2 v (simds_all v)).
Qed.
Lemma greedy_upto_iff c k : List.In c greedy_codecs -> (InputUpTo k (greedy_compress c false false) <-> shS c <= k).
Proof.
  intros Hc. split; [|apply upto_more, greedy_upto, Hc].
  assert (K : forallb (fun c => (0 <=? shS c) && differs (greedy_compress c false false) (shS c)) greedy_codecs = true) by (vm_compute; reflexivity).
  rewrite forallb_forall in K. specialize (K c Hc). cbv beta in K. apply andb_true_iff in K. destruct K as [K1 K2].
  apply differs_not; [lia|exact K2].
Qed.
Lemma upto_0 comp : InputUpTo 0 comp <-> InputOnly comp.
Proof.
  split; intros H A B n cap Hn AB; apply H; try exact Hn; intros x Hx; apply AB; lia.
Qed.
Lemma x_not_only c v : List.In c xcodecs -> ~ InputOnly (xcompress c v false false).
Proof. intros Hc H. apply upto_0 in H. apply (x_upto_iff c v 0 Hc) in H. pose proof (xcodecs_cok c Hc) as Q. assert (HS : okS (xS c)) by apply Q. unfold okS in HS. lia. Qed.
Lemma sl_only_iff c v : List.In c slcodecs -> (InputOnly (sl_compress c v false false) <-> slS c = 1).
Proof.
  intros Hc. rewrite <- upto_0, (sl_upto_iff c v 0 Hc) by lia. unfold behind. destruct (slS c =? 1) eqn:E; [lia|].
  assert (1 <= slS c) by (cbn in Hc; repeat (destruct Hc as [<-|Hc]; [cbn; lia|]); contradiction). lia.
Qed.
Lemma sh_only_iff c v : List.In c shcodecs -> (InputOnly (sh_compress c v false false) <-> shS c = 1).
Proof.
  intros Hc. rewrite <- upto_0, (sh_upto_iff c v 0 Hc) by lia. unfold behind. destruct (shS c =? 1) eqn:E; [lia|].
  assert (1 <= shS c) by (cbn in Hc; repeat (destruct Hc as [<-|Hc]; [cbn; lia|]); contradiction). lia.
Qed.
Lemma greedy_not_only c : List.In c greedy_codecs -> ~ InputOnly (greedy_compress c false false).
Proof.
  intros Hc H. apply upto_0 in H. apply (greedy_upto_iff c 0 Hc) in H.
  assert (1 <= shS c) by (cbn in Hc; repeat (destruct Hc as [<-|Hc]; [cbn; lia|]); contradiction). lia.
Qed.
