(** The encoders with one symbol and inputs that mostly are one run. *)
From Verif Require Import Base Simd Spec ExtModel PktModel PktSpec Fmt8Spec Rle8Model Rle8Proof Rle8Single LutModel SlModel ShModel ShProof ShEnc SaveSpec SaveOne DomSpec DomThm.

Lemma sh_one_symbol c v In n cap out sym : shOne c = true -> sh_compress c v false false In n cap = COk out -> approx_symbol In n = Some sym -> nth 8 out 0 = sym.
Proof.
  intros Ho HC HA. unfold sh_compress, sh_wrap in HC. destruct (_ || _); [discriminate|].
  unfold sh_body in HC. rewrite Ho in HC. unfold sh_body_single in HC. cbv zeta in HC. rewrite HA in HC.
  destruct (loop _ _) as [[s1|]|]; try discriminate. destruct (loop _ _) as [s2|]; [|discriminate]. 
  match type of HC with COk (_ ++ le32 (8 + len (sym :: ?b)) ++ _) = _ => assert (EO : out = le32 n ++ le32 (8 + len (sym :: b)) ++ sym :: b) by congruence end.
  rewrite EO. reflexivity.
Qed.

Lemma s_symbol pk In n cap out sym : s_compress pk false false In n cap = COk out -> approx_symbol In n = Some sym -> nth 9 out 0 = sym.
Proof.
  intros HC HA. unfold s_compress in HC. destruct (_ || _); [discriminate|]. rewrite HA in HC.
  destruct (loop _ _) as [[s1|]|]; try discriminate. destruct (loop _ _) as [s2|]; [|discriminate]. cbv zeta in HC.
  match type of HC with COk (_ ++ _ ++ _ ++ _ ++ ?b) = _ => assert (EO : out = le32 n ++ le32 (10 + len b) ++ [1] ++ [sym] ++ b) by congruence end.
  rewrite EO. reflexivity.
Qed.

Lemma run_repetition In n v a k : LongRun In n v a k -> 0 <= k -> Repetitions 1 In 0 n [(a, a + k)].
Proof. intros (H1 & H2 & H3) Hk. cbn. split; [lia|]. split; [lia|]. split; [|exact Logic.I]. intros x Hx Hx2. rewrite !H3 by lia. reflexivity. Qed.

Definition not_zero (In : mem) (v : Z) : Prop := v <> 0 \/ In 0 = 0.

Lemma takes pos comp size : (forall In n cap out sym, 1 <= n <= max_in -> comp In n cap = COk out -> approx_symbol In n = Some sym -> nth (Z.to_nat pos) out 0 = sym) ->
  SavesSymbol pos 17 comp size -> TakesRun not_zero pos comp size.
Proof.
  intros HN HS In n cap out v a k HIn Hn HC HM HQ. pose proof (chosen In n v a k HIn Hn HM HQ) as HA. pose proof (HN _ _ _ _ _ Hn HC HA) as Hv. split; [exact Hv|].
  destruct HM as [HL Hk]. pose proof HL as (L1 & L2 & L3).
  pose proof (HS In n cap out [(a, a + k)] HIn Hn HC (run_repetition In n v a k HL ltac:(lia))) as H. cbn [saving] in H.
  assert (H' : forall a0 b x, List.In (a0, b) [(a, a + k)] -> a0 <= x < b -> In x = nth (Z.to_nat pos) out 0).
  { intros a0 b x [E|[]] Hx. assert (a0 = a /\ b = a + k) as [-> ->] by (split; congruence). rewrite Hv. apply L3. lia. }
  specialize (H H'). lia.
Qed.

Theorem s_takes pk : TakesRun not_zero 9 (s_compress pk false false) (fun n => n + 22 + (if pk then 4 * (n / 257) else 0)).
Proof. apply takes; [|exact (s_saves pk)]. intros In n cap out sym _ HC HA. exact (s_symbol pk In n cap out sym HC HA). Qed.
Theorem sh_takes c v : List.In c shcodecs -> shOne c = true -> TakesRun not_zero 8 (sh_compress c v false false) (fun n => n + n / 65537 + 36).
Proof. intros Hc Ho. apply takes; [|exact (sh_saves_one c v Hc Ho)]. intros In n cap out sym _ HC HA. exact (sh_one_symbol c v In n cap out sym Ho HC HA). Qed.
