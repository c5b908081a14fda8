(** The decoders read at most one vector behind a well formed stream. *)
From Verif Require Import Base Simd SimdProof Spec PktSpec ExtModel ExtDec PktModel PktDec LutModel WrThm ReadSpec.

Definition agree (C1 C2 : mem) (a b : Z) : Prop := forall x, a <= x < b -> C1 x = C2 x.
Definition same (M1 M2 : mem) : Prop := forall x, M1 x = M2 x.

Lemma agree_sub C1 C2 a b a' b' : agree C1 C2 a b -> a <= a' -> b' <= b -> agree C1 C2 a' b'.
Proof. intros H Ha Hb x Hx. apply H. lia. Qed.
Lemma agree_holds C1 C2 p l : holds C1 p l -> agree C1 C2 p (p + len l) -> holds C2 p l.
Proof. intros H HA. eapply holds_ext; [|exact H]. intros k Hk. symmetry. now apply HA. Qed.
Lemma rd16_local C1 C2 p : agree C1 C2 p (p + 2) -> rd16 C2 p = rd16 C1 p.
Proof. intros H. unfold rd16. rewrite !H by lia. reflexivity. Qed.
Lemma rd32_local C1 C2 p : agree C1 C2 p (p + 4) -> rd32 C2 p = rd32 C1 p.
Proof. intros H. unfold rd32. rewrite !H by lia. reflexivity. Qed.
Lemma slice_local C1 C2 p n : agree C1 C2 p (p + n) -> slice C2 p n = slice C1 p n.
Proof. intros H. apply slice_ext. intros k Hk. symmetry. now apply H. Qed.

(** *** Copies *)

Lemma vcopy_local W C1 C2 p M1 M2 q : agree C1 C2 p (p + W) -> same M1 M2 -> same (vcopy W C1 p M1 q) (vcopy W C2 p M2 q).
Proof. intros H HM x. unfold vcopy. destruct ((q <=? x) && (x <? q + W)) eqn:E; [apply H; lia|apply HM]. Qed.
Lemma vstore_same W v M1 M2 q : same M1 M2 -> same (vstore W v M1 q) (vstore W v M2 q).
Proof. intros HM x. unfold vstore. destruct (_ && _); [reflexivity|apply HM]. Qed.

Definition same3 (r1 r2 : option (Z * Z * mem)) : Prop :=
  match r1, r2 with Some (p1, q1, M1), Some (p2, q2, M2) => p1 = p2 /\ q1 = q2 /\ same M1 M2 | None, None => True | _, _ => False end.
Definition same2 (r1 r2 : option (Z * mem)) : Prop :=
  match r1, r2 with Some (q1, M1), Some (q2, M2) => q1 = q2 /\ same M1 M2 | None, None => True | _, _ => False end.

Definition osame (r1 r2 : option mem) : Prop := match r1, r2 with Some N1, Some N2 => same N1 N2 | None, None => True | _, _ => False end.

Lemma copy_loop_local W C1 C2 pc qc M1 M2 qend : 0 < W -> agree C1 C2 pc (pc + (qend - qc) + W) -> same M1 M2 ->
  match loop (copy_step W C1 qend) (pc, qc, M1), loop (copy_step W C2 qend) (pc, qc, M2) with
  | Some N1, Some N2 => osame N1 N2 | None, None => True | _, _ => False end.
Proof.
  intros HW HA HM.
  apply (loop_rel (copy_step W C1 qend) (copy_step W C2 qend)
    (fun s t => let '(p1, q1, N1) := s in let '(p2, q2, N2) := t in p1 = p2 /\ q1 = q2 /\ pc <= p1 /\ p1 - q1 = pc - qc /\ same N1 N2) osame).
  - intros [[p1 q1] N1] [[p2 q2] N2] (<- & <- & Hp & Hd & HN). unfold copy_step. destruct (q1 <? qend) eqn:E; [|exact HN]. destruct (al_ok W p1); [|exact Logic.I].
    repeat split; try lia. apply vcopy_local; [|exact HN]. eapply agree_sub; [exact HA|lia|lia].
  - repeat split; try lia. exact HM.
Qed.

Lemma memcpyW_local W C1 C2 p M1 M2 q off :
  0 < W <= 64 -> 0 <= off -> 0 < p -> 0 < q -> p + off < 2 ^ 64 -> q + off < 2 ^ 64 -> agree C1 C2 p (p + off + W) -> same M1 M2 ->
  same3 (memcpyW W C1 p M1 q off) (memcpyW W C2 p M2 q off).
Proof.
  intros HW Hoff Hp Hq Hp2 Hq2 HA HM. unfold memcpyW. rewrite !w64_id by lia. destruct (off <=? W) eqn:E.
  { repeat split. apply vcopy_local; [|exact HM]. eapply agree_sub; [exact HA|lia|lia]. }
  assert (Hm : 0 <= p mod W < W) by (apply Z.mod_pos_bound; lia).
  destruct (p mod W =? 0) eqn:E0.
  - pose proof (copy_loop_local W C1 C2 p q M1 M2 (q + off) ltac:(lia)) as K.
    specialize (K ltac:(eapply agree_sub; [exact HA|lia|lia]) HM).
    destruct (loop (copy_step W C1 (q + off)) (p, q, M1)) as [[?|]|], (loop (copy_step W C2 (q + off)) (p, q, M2)) as [[?|]|]; cbn in *; auto; contradiction.
  - set (pc := p - p mod W + W) in *.
    assert (HM' : same (vcopy W C1 p M1 q) (vcopy W C2 p M2 q)).
    { apply vcopy_local; [|exact HM]. eapply agree_sub; [exact HA|lia|lia]. }
    pose proof (copy_loop_local W C1 C2 pc (q + (pc - p)) _ _ (q + off) ltac:(lia) ltac:(eapply agree_sub; [exact HA|lia|lia]) HM') as K.
    destruct (loop (copy_step W C1 (q + off)) (pc, q + (pc - p), vcopy W C1 p M1 q)) as [[?|]|],
      (loop (copy_step W C2 (q + off)) (pc, q + (pc - p), vcopy W C2 p M2 q)) as [[?|]|]; cbn in *; auto; contradiction.
Qed.

(** A copy of 2^64 - 1 bytes: at most one vector. *)
Lemma memcpyW_wrap_local W C1 C2 p M1 M2 q :
  0 < W <= 64 -> 0 < p < 2 ^ 64 -> 0 < q -> q + 64 < 2 ^ 64 -> agree C1 C2 p (p + W) -> same M1 M2 ->
  same3 (memcpyW W C1 p M1 q (w64 (0 - 1))) (memcpyW W C2 p M2 q (w64 (0 - 1))).
Proof.
  intros HW Hp Hq Hq2 HA HM. unfold memcpyW. change (w64 (0 - 1)) with (2 ^ 64 - 1).
  replace (w64 (q + (2 ^ 64 - 1))) with (q - 1).
  2:{ unfold w64. replace (q + (2 ^ 64 - 1)) with ((q - 1) + 1 * 2 ^ 64) by lia.
      rewrite Z.mod_add by lia. rewrite Z.mod_small by lia. reflexivity. }
  replace (2 ^ 64 - 1 <=? W) with false by lia.
  assert (Hm : 0 <= p mod W < W) by (apply Z.mod_pos_bound; lia).
  assert (K : forall pc qc N1 N2, q <= qc -> same N1 N2 ->
    match loop (copy_step W C1 (q - 1)) (pc, qc, N1), loop (copy_step W C2 (q - 1)) (pc, qc, N2) with
    | Some X1, Some X2 => osame X1 X2 | None, None => True | _, _ => False end).
  { intros pc qc N1 N2 Hqc HN.
    apply (loop_rel (copy_step W C1 (q - 1)) (copy_step W C2 (q - 1))
      (fun s t => let '(p1, q1, X1) := s in let '(p2, q2, X2) := t in q1 = q2 /\ q <= q1 /\ same X1 X2) osame); [|now repeat split].
    intros [[p1 q1] X1] [[p2 q2] X2] (<- & Hx & HX). unfold copy_step. replace (q1 <? q - 1) with false by lia. exact HX. }
  destruct (p mod W =? 0) eqn:E0.
  - specialize (K p q M1 M2 ltac:(lia) HM).
    destruct (loop (copy_step W C1 (q - 1)) (p, q, M1)) as [[?|]|], (loop (copy_step W C2 (q - 1)) (p, q, M2)) as [[?|]|]; cbn in *; auto; contradiction.
  - set (pc := p - p mod W + W) in *. specialize (K pc (q + (pc - p)) _ _ ltac:(lia) (vcopy_local W C1 C2 p M1 M2 q HA HM)).
    destruct (loop (copy_step W C1 (q - 1)) (pc, q + (pc - p), vcopy W C1 p M1 q)) as [[?|]|],
      (loop (copy_step W C2 (q - 1)) (pc, q + (pc - p), vcopy W C2 p M2 q)) as [[?|]|]; cbn in *; auto; contradiction.
Qed.

(** *** Fills *)

Lemma fill_loop_same al W v qend qc M1 M2 : same M1 M2 ->
  match loop (fill_step al W v qend) (qc, M1), loop (fill_step al W v qend) (qc, M2) with
  | Some N1, Some N2 => osame N1 N2 | None, None => True | _, _ => False end.
Proof.
  intros HM. apply (loop_rel (fill_step al W v qend) (fill_step al W v qend)
    (fun s t => fst s = fst t /\ same (snd s) (snd t)) osame); [|now split].
  intros [q1 N1] [q2 N2] [E HN]. cbn in E, HN. subst q2. unfold fill_step. destruct (q1 <? qend); [|exact HN]. destruct (negb al || al_ok W q1); [|exact Logic.I].
  split; [reflexivity|]. now apply vstore_same.
Qed.

Lemma memsetW_same W b M1 M2 q cnt : same M1 M2 -> same2 (memsetW W b M1 q cnt) (memsetW W b M2 q cnt).
Proof.
  intros HM. unfold memsetW. set (q' := w64 (q + cnt)). destruct (cnt <=? W); [split; [reflexivity|now apply vstore_same]|].
  destruct (q mod W =? 0).
  - pose proof (fill_loop_same true W (fun _ => b) q' q M1 M2 HM) as K.
    destruct (loop (fill_step true W (fun _ => b) q') (q, M1)) as [[?|]|], (loop (fill_step true W (fun _ => b) q') (q, M2)) as [[?|]|]; cbn in *; auto; contradiction.
  - set (qc := q - q mod W + W). pose proof (fill_loop_same true W (fun _ => b) q' qc _ _ (vstore_same W (fun _ => b) M1 M2 q HM)) as K.
    destruct (loop (fill_step true W (fun _ => b) q') (qc, vstore W (fun _ => b) M1 q)) as [[?|]|],
      (loop (fill_step true W (fun _ => b) q') (qc, vstore W (fun _ => b) M2 q)) as [[?|]|]; cbn in *; auto; contradiction.
Qed.

Lemma dfill_same S d reg M1 M2 q cnt : same M1 M2 -> same2 (dfill S d reg M1 q cnt) (dfill S d reg M2 q cnt).
Proof.
  intros HM. unfold dfill, memset_multiW. set (q' := w64 (q + cnt)). destruct ((S =? 3) || (S =? 6)).
  - destruct (if S =? 3 then vec24 (dvec d) reg else vec48 (dvec d) reg) as [[v0 v1] v2].
    assert (K : match loop (fill3_step (simdW (dvec d)) v0 v1 v2 q') (q, M1), loop (fill3_step (simdW (dvec d)) v0 v1 v2 q') (q, M2) with
      | Some N1, Some N2 => same N1 N2 | None, None => True | _, _ => False end).
    { apply (loop_rel _ _ (fun s t => fst s = fst t /\ same (snd s) (snd t)) same); [|now split].
      intros [q1 N1] [q2 N2] [E HN]. cbn in E, HN. subst q2. unfold fill3_step. destruct (q1 <? q'); [|exact HN].
      split; [reflexivity|]. cbn [snd]. now repeat apply vstore_same. }
    destruct (loop (fill3_step (simdW (dvec d)) v0 v1 v2 q') (q, M1)), (loop (fill3_step (simdW (dvec d)) v0 v1 v2 q') (q, M2)); cbn; auto.
  - set (v := fun j => symbyte reg (j mod S)). pose proof (fill_loop_same false (dfillW d) v q' q M1 M2 HM) as K.
    destruct (loop (fill_step false (dfillW d) v q') (q, M1)) as [[?|]|], (loop (fill_step false (dfillW d) v q') (q, M2)) as [[?|]|]; cbn in *; auto; contradiction.
Qed.

Lemma lvl_fill_same S l reg M1 M2 q cnt : same M1 M2 -> same2 (lvl_fill S l reg M1 q cnt) (lvl_fill S l reg M2 q cnt).
Proof. intros HM. unfold lvl_fill. destruct (S =? 1); [now apply memsetW_same|now apply dfill_same]. Qed.

(** *** Packet decoders *)

Definition sameres (r1 r2 : option (option mem)) : Prop :=
  match r1, r2 with Some (Some M1), Some (Some M2) => same M1 M2 | Some None, Some None | None, None => True | _, _ => False end.

Section Pkt.
  Context {D T A : Type} (parse : D -> mem -> Z -> T -> pres T)
    (fill : D -> T -> mem -> Z -> Z -> option (Z * mem)) (W : D -> Z) (R : T -> A -> Prop).
  Hypothesis HW : forall d, 16 <= W d <= 64.
  Hypothesis HP : forall d C1 C2 p reg p1 reg1 off cnt,
    parse d C1 p reg = PGo p1 reg1 off cnt -> agree C1 C2 p (p1 + 2) -> parse d C2 p reg = PGo p1 reg1 off cnt.
  Hypothesis HF : forall d reg M1 M2 q cnt, same M1 M2 -> same2 (fill d reg M1 q cnt) (fill d reg M2 q cnt).

  Lemma pkt_loop_local d C1 C2 p0 reg0 M1 M2 q0 a bytes meaning a1 tb tl :
    R reg0 a -> Serial (Pkt parse fill R) a bytes meaning a1 -> GTerm parse R a1 tb tl ->
    holds C1 p0 (bytes ++ tb) -> agree C1 C2 p0 (p0 + len (bytes ++ tb) + W d) ->
    0 < p0 -> 0 < q0 -> p0 + len (bytes ++ tb) + 128 < 2 ^ 64 -> q0 + len (meaning ++ tl) + 128 < 2 ^ 64 -> same M1 M2 ->
    sameres (loop (pkt_step (parse d) (fill d) (W d) C1) (p0, q0, reg0, M1)) (loop (pkt_step (parse d) (fill d) (W d) C2) (p0, q0, reg0, M2)).
  Proof.
    intros Hreg0 HSer HTerm Hh HA Hp0 Hq0 HpB HqB HM. specialize (HW d).
    set (pe := p0 + len (bytes ++ tb)) in *. set (qe := q0 + len (meaning ++ tl)) in *.
    assert (K : match loop (pkt_step (parse d) (fill d) (W d) C1) (p0, q0, reg0, M1), loop (pkt_step (parse d) (fill d) (W d) C2) (p0, q0, reg0, M2) with
      | Some a, Some b => match a, b with Some M1, Some M2 => same M1 M2 | None, None => True | _, _ => False end
      | None, None => True | _, _ => False end).
    2:{ destruct (loop (pkt_step (parse d) (fill d) (W d) C1) (p0, q0, reg0, M1)) as [[?|]|],
          (loop (pkt_step (parse d) (fill d) (W d) C2) (p0, q0, reg0, M2)) as [[?|]|]; cbn; auto. }
    apply (loop_rel _ _ (fun s t => let '(p, q, reg, N1) := s in let '(p', q', reg', N2) := t in
      p = p' /\ q = q' /\ reg = reg' /\ same N1 N2 /\ p0 <= p /\ q0 <= q /\
      exists a bytes meaning, R reg a /\ Serial (Pkt parse fill R) a bytes meaning a1 /\ holds C1 p (bytes ++ tb) /\
        p + len (bytes ++ tb) = pe /\ q + len (meaning ++ tl) = qe)
      (fun a b => match a, b with Some M1, Some M2 => same M1 M2 | None, None => True | _, _ => False end)).
    2:{ repeat (split; [first [reflexivity|assumption|lia]|]). exists a, bytes, meaning. now repeat split. }
    clear a reg0 Hreg0 HSer Hh HM M1 M2. clearbody pe qe. clear bytes meaning.
    intros [[[p q] reg] N1] [[[p' q'] reg'] N2] (<- & <- & <- & HM & Hp & Hq & a & bytes & meaning & Hreg & HSer & Hh & Epe & Eqe).
    unfold pkt_step. destruct HSer as [a|a h lits run a' bytes meaning a2 HPk HSer].
    - cbn [app] in *.
      assert (Hh2 : holds C2 p tb) by (apply (agree_holds C1); [exact Hh|]; eapply agree_sub; [exact HA|lia|lia]).
      destruct HTerm as [tb HT|h tl HT].
      + rewrite (HT d C1 p reg Hreg Hh), (HT d C2 p reg Hreg Hh2). exact HM.
      + apply holds_app in Hh. destruct Hh as [Hh _]. apply holds_app in Hh2. destruct Hh2 as [Hh2 _].
        destruct (HT d C1 p reg Hreg Hh) as (r1 & ->). destruct (HT d C2 p reg Hreg Hh2) as (r2 & ->).
        rewrite len_app in Epe. pose proof (len_nonneg h). pose proof (len_nonneg tl).
        pose proof (memcpyW_local (W d) C1 C2 (p + len h) N1 N2 q (len tl)) as K.
        specialize (K ltac:(lia) ltac:(lia) ltac:(lia) ltac:(lia) ltac:(lia) ltac:(lia) ltac:(eapply agree_sub; [exact HA|lia|lia]) HM).
        unfold same3 in K. destruct (memcpyW (W d) C1 (p + len h) N1 q (len tl)) as [[[? ?] ?]|],
          (memcpyW (W d) C2 (p + len h) N2 q (len tl)) as [[[? ?] ?]|]; try contradiction; [|exact Logic.I].
        cbn [Z.eqb]. apply K.
    - destruct HPk as [Hrun HPk]. rewrite <- !app_assoc in Hh, Epe, Eqe. rewrite !len_app in Epe, Eqe.
      apply holds_app in Hh. destruct Hh as [Hh1 Hh].
      destruct (HPk d C1 p reg Hreg Hh1) as (reg1 & cnt & E1 & Hcnt & Hreg1 & Hfill).
      pose proof (len_nonneg h). pose proof (len_nonneg lits). pose proof (len_nonneg bytes). pose proof (len_nonneg tb).
      pose proof (len_nonneg meaning). pose proof (len_nonneg tl).
      rewrite (HP d C1 C2 p reg _ _ _ _ E1) by (eapply agree_sub; [exact HA|lia|lia]). rewrite E1.
      pose proof (memcpyW_local (W d) C1 C2 (p + len h) N1 N2 q (len lits)) as K.
      specialize (K ltac:(lia) ltac:(lia) ltac:(lia) ltac:(lia) ltac:(lia) ltac:(lia) ltac:(eapply agree_sub; [exact HA|lia|lia]) HM).
      destruct (memcpyW_spec (W d) C1 (p + len h) N1 q (len lits)) as (M4 & HM4 & _); try lia.
      unfold same3 in K. rewrite HM4 in K |- *.
      destruct (memcpyW (W d) C2 (p + len h) N2 q (len lits)) as [[[p4 q4] M4']|]; [|contradiction].
      destruct K as (<- & <- & K). replace (cnt =? 0) with false by lia.
      destruct (Hfill M4 (q + len lits)) as (M5 & HM5 & _); try lia.
      pose proof (HF d reg1 M4 M4' (q + len lits) cnt K) as K2. unfold same2 in K2. rewrite HM5 in K2 |- *.
      destruct (fill d reg1 M4' (q + len lits) cnt) as [[q5 M5']|]; [|contradiction]. destruct K2 as (<- & K2).
      repeat (split; [first [reflexivity|assumption|lia]|]). exists a', bytes, meaning.
      apply holds_app in Hh. split; [exact Hreg1|]. split; [exact HSer|]. split; [apply Hh|]. rewrite !len_app. lia.
  Qed.
End Pkt.
