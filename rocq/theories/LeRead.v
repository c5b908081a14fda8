(** What the low entropy decoders read, for any bytes. *)
From Verif Require Import Base Simd Spec Spec2 ExtModel ExtEnc Rle8Model LeModel LeTable LeDec LeHos WrThm EnvThm ReadSpec ReadThm.

Lemma map_same {X} (f g : Z -> X) l : (forall i, List.In i l -> f i = g i) -> map f l = map g l.
Proof. apply map_ext_in. Qed.

Lemma range256_in i : List.In i range256 -> 0 <= i < 256.
Proof. intros H. apply in_range256 in H. exact H. Qed.

Lemma read_info_local C1 C2 p k rle stc : byte_mem C1 -> read_info C1 p = (rle, stc, k) -> agree C1 C2 p (p + k) -> read_info C2 p = (rle, stc, k).
Proof.
  intros HB E HA. pose proof (HB (p + 32)) as Hw. unfold is_byte in Hw. unfold read_info in *. set (w := le_written (C1 (p + 32))) in *.
  assert (Hk : 1 <= w <= 255) by (unfold w, le_written; destruct (C1 (p + 32) =? 0) eqn:E0; lia).
  assert (K : k = 33 + w) by congruence. subst k. rewrite <- E.
  rewrite <- (HA (p + 32)) by lia. fold w.
  rewrite (slice_local C1 C2 (p + 33) w) by (eapply agree_sub; [exact HA|lia|lia]).
  replace (map (read_rle C2 p) range256) with (map (read_rle C1 p) range256); [reflexivity|].
  apply map_same. intros i Hi. apply range256_in in Hi. unfold read_rle. assert (0 <= i / 8 < 32) by lia. rewrite (HA (p + i / 8)) by lia. reflexivity.
Qed.

Definition FillSame (fill : Z -> mem -> Z -> Z -> option mem) : Prop := forall b M1 M2 q cnt, same M1 M2 ->
  match fill b M1 q cnt, fill b M2 q cnt with Some N1, Some N2 => same N1 N2 | None, None => True | _, _ => False end.
Lemma le_fillV_same W : FillSame (le_fillV W).
Proof.
  intros b M1 M2 q cnt H. unfold le_fillV. destruct (cnt =? 0); [exact H|]. pose proof (memsetW_same W b M1 M2 q cnt H) as K. unfold same2 in K.
  destruct (memsetW W b M1 q cnt) as [[? ?]|], (memsetW W b M2 q cnt) as [[? ?]|]; try contradiction; auto. apply K.
Qed.
Lemma les_fillV_same m W : FillSame (les_fillV m W).
Proof.
  intros b M1 M2 q cnt H. unfold les_fillV. destruct (m && (W =? 16) && (cnt =? 0)); [exact H|]. destruct (W =? 16); now repeat apply vstore_same.
Qed.

Definition st3 (p0 : Z) (s t : Z * Z * mem) : Prop := let '(p, q, M1) := s in let '(p', q', M2) := t in p = p' /\ q = q' /\ p0 <= p /\ same M1 M2.
Definition st3o (p0 : Z) (s t : option (Z * Z * mem)) : Prop := match s, t with Some s, Some t => st3 p0 s t | None, None => True | _, _ => False end.

Lemma le_simd_local W hit fill stc C1 C2 p0 pEnd p q M1 M2 : 0 < W <= 64 -> FillSame fill -> agree C1 C2 p0 pEnd -> p0 <= p -> same M1 M2 ->
  match loop (le_simd_step W hit fill stc C1 (pEnd - 256)) (p, q, M1), loop (le_simd_step W hit fill stc C2 (pEnd - 256)) (p, q, M2) with
  | Some a, Some b => st3o p0 a b | None, None => True | _, _ => False end.
Proof.
  intros HW HF HA Hp HM. apply (loop_rel _ _ (st3 p0) (st3o p0)); [|now repeat split].
  intros [[p1 q1] N1] [[p2 q2] N2] (<- & <- & Hp1 & HN). unfold le_simd_step. destruct (p1 <? pEnd - 256) eqn:E; [|now repeat split].
  rewrite <- (lead_ext (fun j => negb (hit (C1 (p1 + j)))) (fun j => negb (hit (C2 (p1 + j)))) W) by (intros j Hj; rewrite HA by lia; reflexivity).
  set (idx := lead (fun j => negb (hit (C1 (p1 + j)))) W).
  assert (Hi : 0 <= idx <= W) by (apply lead_spec; lia).
  assert (HV : same (vcopy W C1 p1 N1 q1) (vcopy W C2 p1 N2 q1)) by (apply vcopy_local; [eapply agree_sub; [exact HA|lia|lia]|exact HN]).
  destruct (idx =? W); [repeat split; [lia|exact HV]|].
  rewrite <- !HA by lia. specialize (HF (C1 (p1 + idx)) _ _ (q1 + idx + 1) (stc (C1 (p1 + idx + 1))) HV).
  destruct (fill (C1 (p1 + idx)) (vcopy W C1 p1 N1 q1) (q1 + idx + 1) (stc (C1 (p1 + idx + 1)))),
    (fill (C1 (p1 + idx)) (vcopy W C2 p1 N2 q1) (q1 + idx + 1) (stc (C1 (p1 + idx + 1)))); try contradiction; [|exact Logic.I].
  repeat split; [lia|exact HF].
Qed.

Definition sfs (s t : Z * Z * mem) : Prop := let '(x, y, X1) := s in let '(x', y', X2) := t in x = x' /\ y = y' /\ same X1 X2.
Definition osfs (r r' : option (Z * Z * mem)) : Prop := match r, r' with Some s, Some t => sfs s t | None, None => True | _, _ => False end.
Lemma fillS_step_same b s t : sfs s t -> match fillS_step b s, fillS_step b t with inl s', inl t' => sfs s' t' | inr r, inr r' => osfs r r' | _, _ => False end.
Proof.
  destruct s as [[x y] X1], t as [[x' y'] X2]. intros (<- & <- & HX). unfold fillS_step. destruct (15 <? y); [destruct (al_ok 16 x); [|exact Logic.I]|]; (split; [reflexivity|]); (split; [reflexivity|]); [|exact HX].
  now apply vstore_same.
Qed.
Lemma le_fillS_same b M1 M2 q cnt : same M1 M2 -> same2 (le_fillS b M1 q cnt) (le_fillS b M2 q cnt).
Proof.
  intros HM. unfold le_fillS. destruct (cnt <? 16); [split; [reflexivity|now apply vstore_same]|].
  pose proof (fun q1 rem N1 N2 HN => loop_rel (fillS_step b) (fillS_step b) sfs osfs (q1, rem, N1) (q1, rem, N2) (fillS_step_same b) (conj eq_refl (conj eq_refl HN))) as K.
  destruct (q mod 16 =? 0).
  - specialize (K q cnt M1 M2 HM). destruct (loop (fillS_step b) (q, cnt, M1)) as [[[[? ?] ?]|]|], (loop (fillS_step b) (q, cnt, M2)) as [[[[? ?] ?]|]|]; try contradiction; [|exact Logic.I|exact Logic.I].
    destruct K as (<- & <- & K). destruct (_ =? 0); (split; [reflexivity|]); [exact K|now apply vstore_same].
  - set (q1 := q - q mod 16 + 16). specialize (K q1 (cnt - (q1 - q)) _ _ (vstore_same 16 (fun _ => b) M1 M2 q HM)).
    destruct (loop (fillS_step b) (q1, cnt - (q1 - q), vstore 16 (fun _ => b) M1 q)) as [[[[? ?] ?]|]|],
      (loop (fillS_step b) (q1, cnt - (q1 - q), vstore 16 (fun _ => b) M2 q)) as [[[[? ?] ?]|]|]; try contradiction; [|exact Logic.I|exact Logic.I].
    destruct K as (<- & <- & K). destruct (_ =? 0); (split; [reflexivity|]); [exact K|now apply vstore_same].
Qed.

Lemma le_tail_local rle stc C1 C2 p0 pEnd p q M1 M2 : agree C1 C2 p0 (pEnd + 1) -> p0 <= p -> same M1 M2 ->
  match loop (le_tail_step rle stc C1 pEnd) (p, q, M1), loop (le_tail_step rle stc C2 pEnd) (p, q, M2) with
  | Some a, Some b => st3o p0 a b | None, None => True | _, _ => False end.
Proof.
  intros HA Hp HM. apply (loop_rel _ _ (st3 p0) (st3o p0)); [|now repeat split].
  intros [[p1 q1] N1] [[p2 q2] N2] (<- & <- & Hp1 & HN). unfold le_tail_step. destruct (p1 <? pEnd) eqn:E; [|now repeat split].
  rewrite <- !HA by lia. pose proof (vstore_same 1 (fun _ => C1 p1) N1 N2 q1 HN) as HV. destruct (rle (C1 p1)); [|repeat split; [lia|exact HV]].
  pose proof (le_fillS_same (C1 p1) _ _ (q1 + 1) (stc (C1 (p1 + 1))) HV) as K. unfold same2 in K.
  destruct (le_fillS (C1 p1) (vstore 1 (fun _ => C1 p1) N1 q1) (q1 + 1) (stc (C1 (p1 + 1)))) as [[? ?]|],
    (le_fillS (C1 p1) (vstore 1 (fun _ => C1 p1) N2 q1) (q1 + 1) (stc (C1 (p1 + 1)))) as [[? ?]|]; try contradiction; [|exact Logic.I].
  destruct K as [<- K]. repeat split; [lia|exact K].
Qed.

Lemma le_decode_local L c rle stc C1 C2 p pEnd M q expOut :
  (w8 (len (filter rle range256)) = 0 -> agree C1 C2 p (p + expOut)) ->
  (w8 (len (filter rle range256)) <> 0 -> agree C1 C2 p (pEnd + 1)) ->
  SameEffect (le_decode L c rle stc C1 p pEnd M q expOut) (le_decode L c rle stc C2 p pEnd M q expOut).
Proof.
  intros H0 H1. unfold le_decode. destruct (w8 (len (filter rle range256)) =? 0) eqn:E.
  { split; [reflexivity|]. apply vcopy_local; [apply H0; lia|now intros x]. }
  specialize (H1 ltac:(lia)). clear H0. set (multi := negb (w8 (len (filter rle range256)) =? 1)).
  set (W := if (if multi then cpu_avx c else cpu_avx2 c) then 32 else 16). set (hit := if multi then rle else Z.eqb (hd 0 (filter rle range256))).
  set (fill := if L =? 255 then le_fillV W else les_fillV multi W).
  assert (HF : FillSame fill) by (unfold fill; destruct (L =? 255); [apply le_fillV_same|apply les_fillV_same]).
  assert (HW : 0 < W <= 64) by (unfold W; destruct (if multi then cpu_avx c else cpu_avx2 c); lia).
  pose proof (le_simd_local W hit fill stc C1 C2 p pEnd p q M M HW HF) as K. specialize (K ltac:(eapply agree_sub; [exact H1|lia|lia]) ltac:(lia) ltac:(now intros x)).
  destruct (loop (le_simd_step W hit fill stc C1 (pEnd - 256)) (p, q, M)) as [[[[p1 q1] N1]|]|],
    (loop (le_simd_step W hit fill stc C2 (pEnd - 256)) (p, q, M)) as [[[[p2 q2] N2]|]|]; try contradiction; try exact Logic.I.
  destruct K as (<- & <- & Hp & HN). pose proof (le_tail_local rle stc C1 C2 p pEnd p1 q1 N1 N2 H1 Hp HN) as K.
  destruct (loop (le_tail_step rle stc C1 pEnd) (p1, q1, N1)) as [[[[? ?] ?]|]|], (loop (le_tail_step rle stc C2 pEnd) (p1, q1, N2)) as [[[[? ?] ?]|]|]; try contradiction; try exact Logic.I.
  split; [reflexivity|]. apply K.
Qed.

Lemma same_refl d : SameEffect d d.
Proof. destruct d; cbn; auto. Qed.

(** The two sizes announced by the stream bound what is read. *)
Lemma le_announced L c C1 C2 pin inSize M pout outSize rle stc k : byte_mem C1 -> read_info C1 (pin + 8) = (rle, stc, k) ->
  agree C1 C2 pin (pin + 8 + k) ->
  (w8 (len (filter rle range256)) = 0 -> rd32 C1 (pin + 4) <= outSize -> agree C1 C2 pin (pin + 8 + k + rd32 C1 (pin + 4))) ->
  (w8 (len (filter rle range256)) <> 0 -> rd32 C1 pin <= inSize -> agree C1 C2 pin (pin + rd32 C1 pin + 1)) ->
  SameEffect (le_decompress L c C1 pin inSize M pout outSize) (le_decompress L c C2 pin inSize M pout outSize).
Proof.
  intros HB ER HA H0 H1. unfold le_decompress. destruct ((pin =? 0) || (pout =? 0) || (inSize =? 0) || (outSize =? 0)) eqn:E0; [apply same_refl|].
  assert (Hk : 34 <= k) by (pose proof (read_info_byte C1 (pin + 8) HB) as K; rewrite ER in K; apply K).
  rewrite (rd32_local C1 C2 pin) by (eapply agree_sub; [exact HA|lia|lia]).
  rewrite (rd32_local C1 C2 (pin + 4)) by (eapply agree_sub; [exact HA|lia|lia]).
  destruct ((outSize <? rd32 C1 (pin + 4)) || (inSize <? rd32 C1 pin)) eqn:E1; [apply same_refl|]. apply orb_false_iff in E1.
  rewrite (read_info_local C1 C2 (pin + 8) k rle stc HB ER) by (eapply agree_sub; [exact HA|lia|lia]). rewrite ER.
  apply le_decode_local; intros Hr.
  - eapply agree_sub; [apply H0; [exact Hr|lia]|lia|lia].
  - eapply agree_sub; [apply H1; [exact Hr|lia]|lia|lia].
Qed.

Lemma le_any_reads L c : AnyStreamUpTo (fun i o => Z.max (i + 1) (296 + Z.max 0 o)) (le_decompress L c).
Proof.
  intros C1 C2 pin inSize M pout outSize HB HA. destruct (read_info C1 (pin + 8)) as [[rle stc] k] eqn:ER.
  assert (Hk : 34 <= k <= 288).
  { pose proof (HB (pin + 8 + 32)) as Hw. unfold is_byte in Hw. unfold read_info in ER. 
    assert (1 <= le_written (C1 (pin + 8 + 32)) <= 255) by (unfold le_written; destruct (C1 (pin + 8 + 32) =? 0) eqn:E; lia).
    assert (k = 33 + le_written (C1 (pin + 8 + 32))) by congruence. lia. }
  apply (le_announced L c C1 C2 pin inSize M pout outSize rle stc k HB ER); intros; intros x Hx; apply HA; lia.
Qed.
