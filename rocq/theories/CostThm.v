(** C72: the encoders take linear time. *)
From Verif Require Import Base LargeSpec Simd Spec ExtModel PktModel MbModel Rle8Model LutModel SlModel ShModel LeModel WrThm.
From Verif Require Import ExtDec ExtEnc PktEnc Rle8Single MbEnc SlProof ShProof ShEnc CostModel CostSpec.

(** *** Counting *)

Lemma passes_bound {S R} (step : S -> S + R) inner (I : S -> Prop) (P : S -> Z) s0 :
  (forall s, I s -> exists c, inner s = Some c /\ 0 <= c /\
     match step s with inl s' => I s' /\ 0 <= P s' /\ 1 + c + P s' <= P s | inr _ => 1 + c <= P s end) ->
  I s0 -> 0 <= P s0 < 2 ^ 64 -> exists k, passes step inner s0 = Some k /\ 0 <= k <= P s0.
Proof.
  intros H H0 HP. unfold passes.
  destruct (loop_inv (cstep step inner) (fun '(s, k) => I s /\ 0 <= k /\ 0 <= P s /\ k + P s <= P s0) (fun '(s, _) => P s)
    (fun r => exists k, r = Some k /\ 0 <= k <= P s0) (s0, 0)) as (r & E & k & -> & Hk).
  - intros [s k] (Hs & Hk & HPs & Hle). unfold cstep. cbn [fst snd]. destruct (H s Hs) as (c & -> & Hc & Hm).
    destruct (step s) as [s'|r]; [destruct Hm as (M1 & M2 & M3); repeat split; try assumption; lia|].
    exists (k + 1 + c). split; [reflexivity|lia].
  - repeat split; try assumption; lia.
  - lia.
  - rewrite E. exists k. now split.
Qed.

(** A loop without inner loops that moves on in every pass. *)
Lemma inner_ok {S R} (step : S -> S + R) (pos : S -> Z) (rpos : R -> Z) B s0 :
  (forall s, pos s <= B -> match step s with inl s' => pos s + 1 <= pos s' <= B | inr r => pos s <= rpos r <= B end) ->
  pos s0 <= B -> B - pos s0 < 2 ^ 63 ->
  exists r k, loop step s0 = Some r /\ passes step alone s0 = Some k /\ pos s0 <= rpos r <= B /\ 0 <= k <= rpos r - pos s0 + 1.
Proof.
  intros H H0 HB.
  destruct (loop_inv step (fun s => pos s0 <= pos s <= B) (fun s => B - pos s) (fun r => pos s0 <= rpos r <= B) s0) as (r & E & Hr).
  - intros s Hs. specialize (H s ltac:(lia)). destruct (step s); lia.
  - lia.
  - lia.
  - assert (K : match loop step s0, loop (cstep step alone) (s0, 0) with
      | Some r, Some r' => exists k, r' = Some k /\ 0 <= k <= rpos r - pos s0 + 1 | None, None => True | _, _ => False end).
    { apply (loop_rel step (cstep step alone) (fun s '(t, k) => s = t /\ pos s <= B /\ 0 <= k <= pos s - pos s0)
        (fun r r' => exists k, r' = Some k /\ 0 <= k <= rpos r - pos s0 + 1)); [|split; [reflexivity|lia]].
      intros s [t k] (<- & Hp & Hk). unfold cstep, alone. cbn [fst snd]. specialize (H s Hp). destruct (step s) as [s2|r1]; [split; [reflexivity|lia]|].
      exists (k + 1 + 0). split; [reflexivity|lia]. }
    rewrite E in K. unfold passes. destruct (loop (cstep step alone) (s0, 0)) as [r'|]; [|contradiction].
    destruct K as (k & -> & Hk). exists r, k. split; [exact E|]. split; [reflexivity|]. lia.
Qed.

Lemma linear_ge count a b a' b' : LinearPasses count a b -> a <= a' -> b <= b' -> LinearPasses count a' b'.
Proof. intros H Ha Hb In n HB Hn. destruct (H In n HB Hn) as (k & E & Hk). exists k. split; [exact E|]. nia. Qed.

(** *** Symbols of several bytes *)

Definition apos (a : after1) : Z := match a with Second i _ => i | Fall i _ => i end.

Lemma lead_le f W : 0 <= W -> 0 <= lead f W <= W.
Proof. intros H. now destruct (lead_spec f W H). Qed.

Section Mb.
  Variables (c : xcfg) (v : simd) (In : mem) (n : Z).
  Hypothesis HS : okS (xS c).
  Hypothesis Hn : 1 <= n <= max_in.

  Lemma match_ok i count sym : xS c <> 16 -> v <> Base_ -> 0 <= i <= n ->
    exists a k, loop (match_step c v In n (enc_vec (xS c) v sym)) (i, count) = Some a /\
      passes (match_step c v In n (enc_vec (xS c) v sym)) alone (i, count) = Some k /\ i <= apos a <= n /\ 0 <= k <= apos a - i + 1.
  Proof.
    intros H16 _ Hi. destruct (inner_ok (match_step c v In n (enc_vec (xS c) v sym)) fst apos n (i, count)) as (a & k & E1 & E2 & E3 & E4).
    - intros [j cnt] Hj. cbn [fst] in *. unfold match_step. destruct (j <? n - simdW v - xS c) eqn:E; [|cbn [apos]; lia].
      pose proof (okS_pos _ HS) as HS2. destruct (_ =? symbyte _ 0); [|cbn [apos]; lia].
      set (f := fun k => _). pose proof (lead_le f (simdW v) ltac:(destruct (simdW_cases v); lia)) as HL.
      destruct (lead f (simdW v) =? simdW v) eqn:EL.
      + pose proof (Z.mod_pos_bound (simdW v) (xS c) ltac:(lia)). cbn [fst].
        assert (xS c < simdW v) by (destruct (simdW_cases v) as [Hw|Hw]; rewrite Hw; unfold okS in HS; lia). lia.
      + destruct (xUnb c); cbn [apos]; [lia|]. destruct (align_bit_ok (xS c) (lead f (simdW v)) HS H16) as (A1 & A2); [destruct (simdW_cases v); lia|]. lia.
    - exact (proj2 Hi).
    - cbn [fst]. unfold max_in in Hn. lia.
    - exists a, k. cbn [fst] in *. repeat split; try assumption; lia.
  Qed.

  Lemma match128_ok i count sym : 0 <= i <= n ->
    exists a k, loop (match_step128 c In n sym) (i, count) = Some a /\
      passes (match_step128 c In n sym) alone (i, count) = Some k /\ i <= apos a <= n /\ 0 <= k <= apos a - i + 1.
  Proof.
    intros Hi. destruct (inner_ok (match_step128 c In n sym) fst apos n (i, count)) as (a & k & E1 & E2 & E3 & E4).
    - intros [j cnt] Hj. cbn [fst] in *. unfold match_step128. destruct (j <? n - 16) eqn:E; [|cbn [apos]; lia].
      set (f := fun k => _). pose proof (lead_le f 16 ltac:(lia)) as HL. destruct (lead f 16 =? 16) eqn:EL; [cbn [fst]; lia|].
      destruct (xUnb c); cbn [apos]; lia.
    - exact (proj2 Hi).
    - cbn [fst]. unfold max_in in Hn. lia.
    - exists a, k. cbn [fst] in *. repeat split; try assumption; lia.
  Qed.

  (** The search: [scan] of the model, its passes. *)
  Lemma scans_ok i : 0 <= i <= n ->
    exists i' found k, (if xS c =? 16 then loop (scan_step128 In n) i else scan c v In n i) = Some (i', found) /\
      scan_passes c v In n i = Some k /\ i <= i' <= n /\ (found = true -> i' + xS c * 2 < n) /\ 0 <= k <= i' - i + 1.
  Proof.
    intros Hi. unfold scan_passes. pose proof (max_large n ltac:(lia)). pose proof (okS_pos _ HS) as HS2. destruct (xS c =? 16) eqn:E16.
    - apply Z.eqb_eq in E16. destruct (scan128_ok In n i Hi ltac:(lia)) as (i' & found & E & Hi' & Hf).
      destruct (inner_ok (scan_step128 In n) (fun j => j) fst n i) as (a & k & E1 & E2 & E3 & E4).
      + intros j Hj. unfold scan_step128. destruct (j <? n - 32) eqn:Ej; [|cbn [fst]; lia].
        set (f := fun k : Z => In (j + k) =? In (j + 16 + k)). destruct (lead_spec f 16) as (H1 & H2 & H3); [lia|].
        destruct (lead f 16 =? 16) eqn:EL; [cbn [fst]; lia|].
        change (In (j + 15) =? In (j + 16 + 15)) with (f 15). change (fun k : Z => negb (In (j + k) =? In (j + 16 + k))) with (fun k : Z => negb (f k)).
        destruct (f 15) eqn:E15; cbn [negb]; [|lia]. specialize (H3 ltac:(lia)).
        assert (lead f 16 <> 15) by (intros K; rewrite K in H3; congruence).
        pose proof (highest_nat_spec (fun k => negb (f k)) 16 (Z.to_nat (lead f 16))) as HH.
        rewrite Z2Nat.id in HH by lia. cbv beta in HH. rewrite H3 in HH. specialize (HH ltac:(lia) eq_refl). change (Z.of_nat 16) with 16 in HH. lia.
      + lia.
      + unfold max_in in Hn. lia.
      + rewrite E in E1. injection E1 as <-. cbn [fst] in *. exists i', found, k. repeat split; try assumption; try lia.
    - assert (H16 : xS c <> 16) by lia.
      assert (Hcok : cok (mkX (xS c) (xUnb c) false false)) by (split; [exact HS|discriminate]).
      destruct (scan_ok (mkX (xS c) (xUnb c) false false) v In n i Hcok H16 Hi ltac:(lia)) as (i' & found & E & Hi' & Hf).
      assert (E' : scan c v In n i = Some (i', found)) by exact E. clear E. cbn [xS] in Hf.
      destruct v eqn:Ev.
      { exists i', found, 0. injection E' as <- <-. repeat split; try reflexivity; try lia; discriminate. }
      all: rewrite <- Ev in *; destruct (inner_ok (scan_step c v In n) (fun j => j) fst n i) as (a & k & E1 & E2 & E3 & E4);
        [intros j Hj; unfold scan_step; destruct (j <? n - simdW v - xS c) eqn:Ej; [|cbn [fst]; lia];
         set (m := fold_mask _ _); pose proof (lead_le (fun k => negb (m k)) (simdW v) ltac:(destruct (simdW_cases v); lia)) as HL;
         assert (xS c < simdW v) by (destruct (simdW_cases v) as [Hw|Hw]; rewrite Hw; unfold okS in HS; lia);
         destruct (lead (fun k => negb (m k)) (simdW v) =? simdW v) eqn:EL; cbn [fst]; lia
        |lia|unfold max_in in Hn; lia|].
      all: assert (E1' : scan c v In n i = Some a) by (rewrite Ev in *; exact E1); rewrite E' in E1'; injection E1' as <-; cbn [fst] in *;
        exists i', found, k; repeat split; try assumption; try lia; intros F; destruct (Hf F); lia.
  Qed.

  Lemma pass_inner_ok go i count sym : go = true -> 0 <= i <= n ->
    exists a k, (if xS c =? 16 then loop (match_step128 c In n sym) (i, count)
                 else phase1 c v In n (mkE i count sym 0 [] [] false)) = Some a /\
      i <= apos a <= n /\
      match a with
      | Fall i1 count1 =>
          match scalar_step c In n i1 count1 sym with
          | inl (i2, _) => i < i2 <= n /\ pass_inner c v In n go i count sym = Some k /\ 0 <= k <= i2 - i + 1
          | inr (i2, _) => i <= i2 <= n /\ exists i' found,
              (if xS c =? 16 then loop (scan_step128 In n) i2 else scan c v In n i2) = Some (i', found) /\
              i <= i' <= n /\ (found = true -> i' + xS c * 2 < n) /\
              pass_inner c v In n go i count sym = Some k /\ 0 <= k <= i' - i + 2
          end
      | Second i2 _ => exists i' found,
          (if xS c =? 16 then loop (scan_step128 In n) i2 else scan c v In n i2) = Some (i', found) /\
          i <= i' <= n /\ (found = true -> i' + xS c * 2 < n) /\
          pass_inner c v In n go i count sym = Some k /\ 0 <= k <= i' - i + 2
      end.
  Proof.
    intros -> Hi. pose proof (okS_pos _ HS) as HS2. unfold pass_inner.
    assert (K : exists a k, (if xS c =? 16 then loop (match_step128 c In n sym) (i, count)
                 else phase1 c v In n (mkE i count sym 0 [] [] false)) = Some a /\
                 match_passes c v In n i count sym = Some k /\ i <= apos a <= n /\ 0 <= k <= apos a - i + 1).
    { unfold match_passes. destruct (xS c =? 16) eqn:E16; [exact (match128_ok i count sym Hi)|].
      destruct v eqn:Ev; [exists (Fall i count), 0; cbn [phase1 apos e_i e_count]; repeat split; lia| | |];
        rewrite <- Ev; destruct (match_ok i count sym ltac:(lia) ltac:(congruence) Hi) as (a & k & K1 & K2 & K3 & K4);
        exists a, k; unfold phase1; rewrite Ev in *; cbn [e_i e_count e_sym]; repeat split; (assumption || lia). }
    destruct K as (a & k & K1 & K2 & K3 & K4). rewrite K1, K2. destruct a as [i1 count1|i1 count1]; cbn [apos] in K3, K4.
    - destruct (scans_ok i1 ltac:(lia)) as (i' & found & k' & S1 & S2 & S3 & S4 & S5). exists (Second i1 count1), (k + k').
      split; [reflexivity|]. split; [cbn [apos]; lia|]. exists i', found. split; [exact S1|]. split; [lia|]. split; [exact S4|].
      split; [rewrite S2; reflexivity|lia].
    - destruct (scalar_step c In n i1 count1 sym) as [[i2 count2]|[i2 count2]] eqn:ES.
      + exists (Fall i1 count1), k. split; [reflexivity|]. split; [cbn [apos]; lia|]. rewrite ES.
        assert (i1 < i2 <= n).
        { unfold scalar_step in ES. destruct (negb (count1 =? 0)); [|discriminate]. destruct (i1 + xS c <=? n) eqn:EL; [|discriminate].
          destruct (eqb_bytes _ _); [injection ES as <- <-; lia|]. destruct (xUnb c); discriminate. }
        split; [lia|]. split; [cbn [oadd]; f_equal; lia|lia].
      + assert (i1 <= i2 <= n).
        { unfold scalar_step in ES. destruct (negb (count1 =? 0)); [|injection ES as <- <-; lia].
          destruct (i1 + xS c <=? n) eqn:EL; [|injection ES as <- <-; lia].
          destruct (eqb_bytes _ _); [discriminate|]. destruct (xUnb c); [|injection ES as <- <-; lia].
          pose proof (lead_le (fun j => In (i1 + j) =? symbyte sym j) (xS c) ltac:(lia)). injection ES as <- <-. lia. }
        destruct (scans_ok i2 ltac:(lia)) as (i' & found & k' & S1 & S2 & S3 & S4 & S5). exists (Fall i1 count1), (k + k').
        split; [reflexivity|]. split; [cbn [apos]; lia|]. rewrite ES. split; [lia|]. exists i', found. split; [exact S1|]. split; [lia|].
        split; [exact S4|]. split; [rewrite S2; reflexivity|lia].
  Qed.
End Mb.

Lemma okS_16 S : okS S -> 2 <= S <= 16.
Proof. unfold okS. lia. Qed.

Lemma ext_linear c v : cok c -> LinearPasses (ext_passes c v) 3 54.
Proof.
  intros [HS _] In n HIn Hn. pose proof (okS_16 _ HS) as HS2. unfold ext_passes.
  match goal with |- context [passes ?st ?inner ?s0] => destruct (passes_bound st inner
    (fun s => 0 <= e_i s <= n + 16 /\ (e_goto s = true -> e_i s <= n)) (fun s => 3 * (n + 18 - e_i s)) s0) as (k & E & Hk) end.
  - intros s [Hi Hg]. unfold enc_step. destruct ((e_i s <? n) || e_goto s) eqn:EG.
    2:{ exists 0. unfold pass_inner. repeat split; lia. }
    assert (Hi2 : 0 <= e_i s <= n) by (destruct (e_goto s); [specialize (Hg eq_refl); lia|rewrite orb_false_r in EG; lia]).
    destruct (pass_inner_ok c v In n HS Hn true (e_i s) (e_count s) (e_sym s) eq_refl Hi2) as (a & k & K1 & K2 & K3).
    assert (K1' : (if xS c =? 16 then loop (match_step128 c In n (e_sym s)) (e_i s, e_count s) else phase1 c v In n s) = Some a)
      by (rewrite <- K1; unfold phase1; cbn [e_i e_count e_sym]; reflexivity). rewrite K1'.
    assert (KS : forall i2 cnt i' found, (if xS c =? 16 then loop (scan_step128 In n) i2 else scan c v In n i2) = Some (i', found) ->
      e_i s <= i' <= n -> (found = true -> i' + xS c * 2 < n) -> 0 <= k <= i' - e_i s + 2 ->
      match enc_second c v In n s i2 cnt with
      | inl s' => (0 <= e_i s' <= n + 16 /\ (e_goto s' = true -> e_i s' <= n)) /\ 0 <= 3 * (n + 18 - e_i s') /\
                  1 + k + 3 * (n + 18 - e_i s') <= 3 * (n + 18 - e_i s)
      | inr _ => 1 + k <= 3 * (n + 18 - e_i s)
      end).
    { intros i2 cnt i' found E1 H1 H2 H3. unfold enc_second. rewrite E1. unfold next_run.
      destruct found; [specialize (H2 eq_refl); cbn [e_i e_goto]; lia|].
      destruct (i' + xS c <=? n) eqn:EL; cbn [andb]; [|cbn [e_i e_goto]; split; [split; [lia|discriminate]|lia]].
      destruct (eqb_bytes _ _); cbn [e_i e_goto]; (split; [split; [lia|discriminate]|lia]). }
    destruct a as [i1 count1|i1 count1].
    + destruct K3 as (i' & found & A1 & A2 & A3 & A4 & A5). exists k. split; [exact A4|]. split; [lia|]. exact (KS _ _ _ _ A1 A2 A3 A5).
    + destruct (scalar_step c In n i1 count1 (e_sym s)) as [[i2 count2]|[i2 count2]].
      * destruct K3 as (A1 & A2 & A3). exists k. split; [exact A2|]. split; [lia|]. cbn [e_i e_goto]. split; [split; [lia|discriminate]|lia].
      * destruct K3 as (B & i' & found & A1 & A2 & A3 & A4 & A5). exists k. split; [exact A4|]. split; [lia|]. exact (KS _ _ _ _ A1 A2 A3 A5).
  - cbn [e_i e_goto]. split; [lia|discriminate].
  - cbn [e_i]. unfold max_in in Hn. lia.
  - exists k. split; [exact E|]. cbn [e_i] in Hk. lia.
Qed.

Lemma mb_linear {A} (proc : procM A) S unb v a0 : okS S -> S <> 16 -> LinearPasses (fun In n => mb_passes proc S unb v In n a0) 3 54.
Proof.
  intros HS H16 In n HIn Hn. pose proof (okS_16 _ HS) as HS2. unfold mb_passes. set (c := mcfg S unb). assert (HSc : okS (xS c)) by exact HS.
  assert (Hc16 : (xS c =? 16) = false) by (cbn; lia).
  match goal with |- context [passes ?st ?inner ?s0] => destruct (passes_bound st inner
    (fun s => 0 <= m_i s <= n + 16 /\ (m_goto s = true -> m_i s <= n)) (fun s => 3 * (n + 18 - m_i s)) s0) as (k & E & Hk) end.
  - intros s [Hi Hg]. unfold mb_step. destruct ((m_i s <? n) || m_goto s) eqn:EG.
    2:{ exists 0. unfold pass_inner. repeat split; lia. }
    assert (Hi2 : 0 <= m_i s <= n) by (destruct (m_goto s); [specialize (Hg eq_refl); lia|rewrite orb_false_r in EG; lia]).
    destruct (pass_inner_ok c v In n HSc Hn true (m_i s) (MbModel.m_count s) (m_sym s) eq_refl Hi2) as (a & k & K1 & K2 & K3).
    rewrite Hc16 in *.
    assert (K1' : phase1 c v In n (mkE (m_i s) (MbModel.m_count s) (m_sym s) (m_last s) [] [] false) = Some a)
      by (rewrite <- K1; unfold phase1; cbn [e_i e_count e_sym]; reflexivity). fold c. rewrite K1'.
    assert (KS : forall i2 cnt i' found, scan c v In n i2 = Some (i', found) ->
      m_i s <= i' <= n -> (found = true -> i' + xS c * 2 < n) -> 0 <= k <= i' - m_i s + 2 ->
      match mb_second proc S unb v In n s i2 cnt with
      | inl s' => (0 <= m_i s' <= n + 16 /\ (m_goto s' = true -> m_i s' <= n)) /\ 0 <= 3 * (n + 18 - m_i s') /\
                  1 + k + 3 * (n + 18 - m_i s') <= 3 * (n + 18 - m_i s)
      | inr _ => 1 + k <= 3 * (n + 18 - m_i s)
      end).
    { intros i2 cnt i' found E1 H1 H2 H3. unfold mb_second. fold c. rewrite E1. unfold next_runM. change (xS c) with S in *.
      destruct found; [specialize (H2 eq_refl); cbn [m_i m_goto]; lia|].
      destruct (i' + S <=? n) eqn:EL; cbn [andb]; [|cbn [m_i m_goto]; split; [split; [lia|discriminate]|lia]].
      destruct (eqb_bytes _ _); cbn [m_i m_goto]; (split; [split; [lia|discriminate]|lia]). }
    destruct a as [i1 count1|i1 count1].
    + destruct K3 as (i' & found & A1 & A2 & A3 & A4 & A5). exists k. split; [exact A4|]. split; [lia|]. exact (KS _ _ _ _ A1 A2 A3 A5).
    + destruct (scalar_step c In n i1 count1 (m_sym s)) as [[i2 count2]|[i2 count2]].
      * destruct K3 as (A1 & A2 & A3). exists k. split; [exact A2|]. split; [lia|]. cbn [m_i m_goto]. split; [split; [lia|discriminate]|lia].
      * destruct K3 as (B & i' & found & A1 & A2 & A3 & A4 & A5). exists k. split; [exact A4|]. split; [lia|]. exact (KS _ _ _ _ A1 A2 A3 A5).
  - cbn [m_i m_goto]. split; [lia|discriminate].
  - cbn [m_i]. unfold max_in in Hn. lia.
  - exists k. split; [exact E|]. cbn [m_i] in Hk. lia.
Qed.

(** *** 8 bit symbols *)

Lemma emit8_i {A} (proc : proc8 A) In s : i8 (emit8 proc In s) = i8 s /\ sym8 (emit8 proc In s) = sym8 s.
Proof. unfold emit8. destruct (proc _ _ _ _ _ _) as [[b a]|]; now split. Qed.

Lemma scan8_passes W In n i : 2 <= W -> 0 <= i < n -> n <= max_in ->
  exists i' k, loop (scan8_step W In n) i = Some i' /\ passes (scan8_step W In n) alone i = Some k /\ i <= i' < n /\ 0 <= k <= i' - i + 1.
Proof.
  intros HW Hi Hn. destruct (inner_ok (scan8_step W In n) (fun j => j) (fun j => j) (n - 1) i) as (r & k & E1 & E2 & E3 & E4).
  - intros j Hj. unfold scan8_step. destruct (j <? n - W) eqn:E; [|lia].
    pose proof (lead_le (fun j0 => negb (In (j + j0) =? In (j + j0 + 1))) (W - 1) ltac:(lia)). destruct (_ =? W - 1) eqn:EL; lia.
  - lia.
  - unfold max_in in Hn. lia.
  - exists r, k. repeat split; (assumption || lia).
Qed.

Lemma sscan_passes lim sym In n i : 0 <= i < n -> n <= max_in ->
  exists i' found k, loop (sscan_step lim sym In n) i = Some (i', found) /\ passes (sscan_step lim sym In n) alone i = Some k /\
    i <= i' < n /\ 0 <= k <= i' - i + 1.
Proof.
  intros Hi Hn. destruct (inner_ok (sscan_step lim sym In n) (fun j => j) fst (n - 1) i) as ([i' found] & k & E1 & E2 & E3 & E4).
  - intros j Hj. unfold sscan_step. destruct (j <? n - 16) eqn:E; [|cbn [fst]; lia].
    cbv zeta. set (f := fun j0 => In (j + j0) =? sym).
    change (lead (fun j0 => negb (In (j + j0) =? sym)) 16) with (lead (fun j0 => negb (f j0)) 16).
    match goal with |- context [if ?x then _ else _] => destruct x eqn:EA end; [lia|].
    pose proof (lead_le (fun j0 => negb (f j0)) 16 ltac:(lia)). cbn [fst].
    apply orb_false_iff in EA. destruct EA as [EA _]. rewrite negb_false_iff in EA. apply any_true in EA. destruct EA as (x & Hx & Fx).
    destruct (lead_spec (fun j0 => negb (f j0)) 16 ltac:(lia)) as (L1 & L2 & L3).
    assert (lead (fun j0 => negb (f j0)) 16 <= x).
    { destruct (Z_lt_ge_dec x (lead (fun j0 => negb (f j0)) 16)) as [G|G]; [|lia]. specialize (L2 x ltac:(lia)). cbv beta in L2. rewrite Fx in L2. discriminate. }
    lia.
  - lia.
  - unfold max_in in Hn. lia.
  - exists i', found, k. cbn [fst] in *. repeat split; (assumption || lia).
Qed.

Lemma scalar8_passes {A} single (proc : proc8 A) In n s : 0 <= i8 s <= n -> n <= max_in ->
  exists k, passes (scalar8_step single proc In n) alone s = Some k /\ 0 <= k <= n - i8 s + 1.
Proof.
  intros Hi Hn. destruct (passes_bound (scalar8_step single proc In n) alone (fun s => 0 <= i8 s <= n) (fun s => n - i8 s + 1) s) as (k & E & Hk).
  - intros t Ht. exists 0. split; [reflexivity|]. split; [lia|]. unfold scalar8_step. destruct (i8 t <? n) eqn:E; [|lia].
    destruct (In (i8 t) =? sym8 t); [cbn [i8]; lia|]. destruct single; cbn [i8]; lia.
  - exact Hi.
  - unfold max_in in Hn. lia.
  - exists k. now split.
Qed.

Lemma body8_linear {A} (procV procS : proc8 A) W In n s0 : 2 <= W -> i8 s0 = 0 -> 1 <= n <= max_in ->
  exists k, body8_passes procV procS W In n s0 = Some k /\ k <= 3 * n + 2.
Proof.
  intros HW H0 Hn. unfold body8_passes.
  assert (HStep : forall s, 0 <= i8 s <= n -> exists c, simd8_inner procV W In n s = Some c /\ 0 <= c /\
    match simd8_step procV W In n s with
    | inl s' => 0 <= i8 s' <= n /\ i8 s < i8 s' /\ 1 + c <= 2 * (i8 s' - i8 s)
    | inr r => c = 0 /\ r = Some s
    end).
  { intros s Hs. unfold simd8_inner, simd8_step. destruct (i8 s <? n - W) eqn:E; [|exists 0; repeat split; lia].
    set (f := fun j : Z => In (i8 s + j) =? sym8 s). pose proof (lead_le f W ltac:(lia)) as HL.
    destruct (lead f W =? W) eqn:EL; [exists 0; cbn [i8]; repeat split; lia|].
    set (s1 := if any f W || (1 <? count8 s) then _ else s).
    assert (Hs1 : i8 s1 = if any f W || (1 <? count8 s) then i8 s + lead f W else i8 s).
    { unfold s1. destruct (any f W || (1 <? count8 s)); [exact (proj1 (emit8_i procV In _))|reflexivity]. }
    destruct (scan8_passes W In n (i8 s1)) as (i' & k & S1 & S2 & S3 & S4); [lia| |lia|].
    { rewrite Hs1. destruct (any f W || (1 <? count8 s)); lia. }
    rewrite S1. exists k. rewrite <- Hs1. split; [exact S2|]. split; [lia|]. cbn [i8].
    assert (i8 s <= i8 s1) by (rewrite Hs1; destruct (any f W || (1 <? count8 s)); lia). lia. }
  destruct (loop_inv (simd8_step procV W In n) (fun s => 0 <= i8 s <= n) (fun s => n - i8 s) (fun r => exists s, r = Some s /\ 0 <= i8 s <= n) s0)
    as (r & E & s1 & -> & H1).
  - intros s Hs. destruct (HStep s Hs) as (c & _ & _ & K). destruct (simd8_step procV W In n s) as [s'|r]; [lia|]. exists s. split; [apply K|exact Hs].
  - lia.
  - unfold max_in in Hn. lia.
  - rewrite E. destruct (scalar8_passes false procS In n s1 H1 (proj2 Hn)) as (k2 & -> & Hk2).
    destruct (passes_bound (simd8_step procV W In n) (simd8_inner procV W In n) (fun s => 0 <= i8 s <= n) (fun s => 2 * (n - i8 s) + 1) s0) as (k1 & -> & Hk1).
    + intros s Hs. destruct (HStep s Hs) as (c & C1 & C2 & C3). exists c. split; [exact C1|]. split; [exact C2|].
      destruct (simd8_step procV W In n s) as [s'|r']; [|lia]. split; [lia|]. lia.
    + lia.
    + unfold max_in in Hn. lia.
    + cbn [oadd]. eexists. split; [reflexivity|]. lia.
Qed.

(** *** The choice of the symbol, the single symbol encoders *)

Lemma approx_linear In n : 1 <= n <= max_in -> exists k, approx_passes In n = Some k /\ 0 <= k <= 2 * n + 257.
Proof.
  intros Hn. unfold approx_passes.
  match goal with |- context [passes ?st ?inner ?s0] => destruct (passes_bound st inner
    (fun '(i, _, _, _, _) => 0 <= i <= n) (fun '(i, _, _, _, _) => 2 * (n - i) + 1) s0) as (k & E & Hk) end.
  - intros [[[[i sym] count] prob] pcount] Hi. unfold approx_inner, approx_step. destruct (i <? n - 16) eqn:E; [|exists 0; repeat split; lia].
    cbv zeta. set (f := fun j : Z => In (i + j) =? sym). pose proof (lead_le f 16 ltac:(lia)) as HL.
    destruct (lead f 16 =? 16) eqn:EL; [exists 0; repeat split; lia|].
    destruct (any f 16 || (1 <? count)).
    + destruct (scan8_passes 16 In n (i + lead f 16)) as (i' & k & -> & -> & S3 & S4); try lia. exists k. repeat split; lia.
    + destruct (scan8_passes 16 In n i) as (i' & k & -> & -> & S3 & S4); try lia. exists k. repeat split; lia.
  - lia.
  - unfold max_in in Hn. lia.
  - rewrite E. cbn [oadd]. exists (256 + k). split; [reflexivity|lia].
Qed.

Lemma recount_passes In n sym first : 0 <= first <= n -> n <= max_in ->
  exists i' c' k, loop (recount_step In n sym) (first, 0) = Some (i', c') /\ passes (recount_step In n sym) alone (first, 0) = Some k /\
    first <= i' /\ (i' = first \/ i' <= n - 16) /\ 0 <= k <= i' - first + 1.
Proof.
  intros Hf Hn. destruct (inner_ok (recount_step In n sym) fst fst (Z.max first (n - 16)) (first, 0)) as ([i' c'] & k & E1 & E2 & E3 & E4).
  - intros [i c0] Hi. cbn [fst] in *. unfold recount_step. destruct (i <? n - 16) eqn:E; [|cbn [fst]; lia]. destruct (In i =? sym); cbn [fst]; lia.
  - cbn [fst]. lia.
  - cbn [fst]. unfold max_in in Hn. lia.
  - exists i', c', k. cbn [fst] in *. repeat split; (assumption || lia).
Qed.

Section Single.
  Variables (pk : bool) (sym : Z) (In : mem) (n : Z).
  Hypothesis Hn : 1 <= n <= max_in.

  (** A chance is only called wasted if more than 254 literals lie before it. *)
  Record J (s : sst) : Prop := {
    j_count : 0 <= ss_count s;
    j_last : 0 <= ss_last s <= ss_i s - ss_count s;
    j_i : ss_i s <= n;
    j_w : 0 <= ss_w s /\ (1 <= ss_w s -> 255 <= ss_first s - ss_last s /\ ss_first s <= ss_i s - ss_count s) }.

  Lemma decide_cost s : J s -> ss_i s < n ->
    exists s1 k, s_decide pk sym In n s = Some s1 /\
      (if s_rolls pk s then passes (recount_step In n sym) alone (ss_first s, 0) else Some 0) = Some k /\ 0 <= k /\
      0 <= ss_last s1 <= ss_i s1 /\ ss_i s1 < n /\ 0 <= ss_w s1 /\
      (1 <= ss_w s1 -> 255 <= ss_first s1 - ss_last s1 /\ ss_first s1 <= ss_i s1) /\
      ((k = 0 /\ ss_i s1 = ss_i s /\ ss_last s <= ss_last s1) \/
       (k <= ss_i s1 - ss_first s + 1 /\ ss_first s <= ss_i s1 /\ ss_i s <= ss_first s + 255 /\ ss_last s + 255 <= ss_first s /\ ss_last s1 = ss_i s1)).
  Proof.
    intros [H1 H2 H3 [H4 H5]] Hi. unfold s_decide, s_rolls. cbv zeta.
    destruct (sSHORT pk <=? ss_count s) eqn:E1; cbn [andb].
    2:{ exists s, 0. split; [reflexivity|]. split; [reflexivity|]. split; [lia|]. split; [lia|]. split; [lia|]. split; [lia|]. split; [intros K; specialize (H5 K); lia|left; lia]. }
    destruct (ss_i s - ss_last s - ss_count s + 1 <=? 255) eqn:E2; cbn [negb andb].
    { eexists. exists 0. split; [reflexivity|]. cbn [ss_i ss_last ss_w ss_first]. split; [reflexivity|]. repeat split; try lia. }
    destruct (s_accept_long pk (ss_count s)) eqn:E3; cbn [negb andb].
    { eexists. exists 0. split; [reflexivity|]. cbn [ss_i ss_last ss_w ss_first]. split; [reflexivity|]. repeat split; try lia. }
    destruct ((ss_w s + 1 =? 1) || (255 <? w64 (ss_i s - ss_first s))) eqn:E4; cbn [negb andb].
    { eexists. exists 0. split; [reflexivity|]. cbn [ss_i ss_last ss_w ss_first]. split; [reflexivity|]. repeat split; try lia. }
    apply orb_false_iff in E4. destruct E4 as [E4 E5]. specialize (H5 ltac:(lia)).
    rewrite w64_id in E5 by (unfold max_in in *; lia).
    destruct (2 <? ss_w s + 1) eqn:E6.
    - destruct (recount_passes In n sym (ss_first s)) as (i' & c' & k & -> & -> & R3 & R4 & R5); try lia.
      eexists. exists k. split; [reflexivity|]. cbn [ss_i ss_last ss_w ss_first]. split; [reflexivity|]. repeat split; try lia.
    - eexists. exists 0. split; [reflexivity|]. cbn [ss_i ss_last ss_w ss_first]. split; [reflexivity|]. repeat split; try lia.
  Qed.

  Definition sP (s : sst) : Z := 3 * ((n + 1 - ss_i s) + (n - ss_last s)).

  Lemma single_step_cost s : J s -> exists c, single_inner pk sym In n s = Some c /\ 0 <= c /\
    match single_step pk sym In n s with inl s' => J s' /\ 0 <= sP s' /\ 1 + c + sP s' <= sP s | inr r => c = 0 /\ r = Some s /\ 1 <= sP s end.
  Proof.
    intros HJ. pose proof HJ as [H1 H2 H3 [H4 H5]]. unfold single_inner, single_step, sP.
    destruct (ss_i s <? n - 16) eqn:E; [|exists 0; repeat split; lia].
    cbv zeta. set (f := fun j : Z => In (ss_i s + j) =? sym). pose proof (lead_le f 16 ltac:(lia)) as HL.
    destruct (lead f 16 =? 16) eqn:EL.
    { exists 0. split; [reflexivity|]. split; [lia|]. cbn [ss_i ss_last]. split; [|lia]. constructor; cbn [ss_i ss_last ss_count ss_w ss_first]; try lia. }
    set (s0 := mkS (ss_i s + lead f 16) (ss_count s + lead f 16) (ss_last s) (ss_out s) (ss_w s) (ss_first s)).
    assert (HK : exists s1 k, (if any f 16 || (1 <? ss_count s) then s_decide pk sym In n s0 else Some s) = Some s1 /\
      (if (any f 16 || (1 <? ss_count s)) && s_rolls pk s0 then passes (recount_step In n sym) alone (ss_first s, 0) else Some 0) = Some k /\ 0 <= k /\
      0 <= ss_last s1 <= ss_i s1 /\ ss_i s1 < n /\ 0 <= ss_w s1 /\
      (1 <= ss_w s1 -> 255 <= ss_first s1 - ss_last s1 /\ ss_first s1 <= ss_i s1) /\
      ((k = 0 /\ ss_i s <= ss_i s1 /\ ss_last s <= ss_last s1) \/
       (k <= ss_i s1 - ss_first s + 1 /\ ss_first s <= ss_i s1 /\ ss_i s <= ss_first s + 255 /\ ss_last s + 255 <= ss_first s /\ ss_last s1 = ss_i s1))).
    { destruct (any f 16 || (1 <? ss_count s)); cbn [andb].
      - assert (HJ0 : J s0) by (constructor; cbn [s0 ss_i ss_last ss_count ss_w ss_first]; try lia).
        destruct (decide_cost s0 HJ0) as (s1 & k & K1 & K2 & K3 & K4 & K5 & K6 & K7 & K8); [cbn [s0 ss_i]; lia|].
        exists s1, k. split; [exact K1|]. split; [exact K2|]. cbn [s0 ss_i ss_last ss_first] in K8. repeat (split; [assumption|]). lia.
      - exists s, 0. repeat split; try lia; intros K; specialize (H5 K); lia. }
    destruct HK as (s1 & k & -> & -> & K3 & K4 & K5 & K6 & K7 & K8).
    destruct (sscan_passes (sSHORT pk) sym In n (ss_i s1)) as (i' & found & k2 & S1 & S2 & S3 & S4); try lia.
    rewrite S1, S2. cbn [oadd]. exists (k + k2). split; [reflexivity|]. split; [lia|]. cbn [ss_i ss_last]. split; [|lia].
    constructor; cbn [ss_i ss_last ss_count ss_w ss_first]; destruct found; try lia; split; try lia; intros K; specialize (K7 K); lia.
  Qed.

  Lemma single_cost : exists s1 k, loop (single_step pk sym In n) (mkS 0 0 0 [] 0 0) = Some (Some s1) /\ 0 <= ss_i s1 <= n /\
    passes (single_step pk sym In n) (single_inner pk sym In n) (mkS 0 0 0 [] 0 0) = Some k /\ 0 <= k <= 6 * n + 3.
  Proof.
    assert (HJ0 : J (mkS 0 0 0 [] 0 0)) by (constructor; cbn [ss_i ss_last ss_count ss_w ss_first]; lia).
    destruct (loop_inv (single_step pk sym In n) J sP (fun r => exists s, r = Some s /\ J s) (mkS 0 0 0 [] 0 0)) as (r & E & s1 & -> & J1).
    - intros s HJ. destruct (single_step_cost s HJ) as (c & _ & C2 & C3). destruct (single_step pk sym In n s) as [s'|r]; [split; [apply C3|lia]|].
      exists s. split; [apply C3|exact HJ].
    - exact HJ0.
    - unfold sP, max_in in *. cbn [ss_i ss_last]. lia.
    - destruct (passes_bound (single_step pk sym In n) (single_inner pk sym In n) J sP (mkS 0 0 0 [] 0 0)) as (k & Ek & Hk).
      + intros s HJ. destruct (single_step_cost s HJ) as (c & C1 & C2 & C3). exists c. split; [exact C1|]. split; [exact C2|].
        destruct (single_step pk sym In n s) as [s'|r]; [exact C3|]. lia.
      + exact HJ0.
      + unfold sP, max_in in *. cbn [ss_i ss_last]. lia.
      + exists s1, k. split; [exact E|]. split; [destruct J1; lia|]. split; [exact Ek|]. unfold sP in Hk. cbn [ss_i ss_last] in Hk. lia.
  Qed.
End Single.

Lemma single_linear pk : LinearPasses (single_passes pk) 9 261.
Proof.
  intros In n HIn Hn. unfold single_passes. destruct (approx_symbol_ok In n (max_large1 n Hn)) as (sym & -> & _).
  destruct (single_cost pk sym In n Hn) as (s1 & k & -> & Hi & -> & Hk). destruct (approx_linear In n Hn) as (k1 & -> & Hk1).
  destruct (scalar8_passes true (s_procS pk) In n (mk8 (ss_i s1) (ss_count s1) sym (ss_last s1) tt (ss_out s1)) Hi (proj2 Hn)) as (k2 & -> & Hk2).
  cbn [oadd i8] in *. eexists. split; [reflexivity|]. lia.
Qed.

Lemma sh_single_linear c : LinearPasses (sh_single_passes c) 5 260.
Proof.
  intros In n HIn Hn. unfold sh_single_passes. destruct (approx_symbol_ok In n (max_large1 n Hn)) as (sym & -> & _).
  set (proc := fun In i count sym last a => sh_proc c In i count [sym] last a).
  assert (HStep : forall s, 0 <= i8 s <= n -> exists c0, sh_single_inner In n s = Some c0 /\ 0 <= c0 /\
    match sh_single_step proc In n s with
    | inl s' => 0 <= i8 s' <= n /\ i8 s < i8 s' /\ 1 + c0 <= 2 * (i8 s' - i8 s)
    | inr r => c0 = 0 /\ r = Some s
    end).
  { intros s Hs. unfold sh_single_inner, sh_single_step. destruct (i8 s <? n - 16) eqn:E; [|exists 0; repeat split; lia].
    cbv zeta. set (f := fun j : Z => In (i8 s + j) =? sym8 s). pose proof (lead_le f 16 ltac:(lia)) as HL.
    destruct (lead f 16 =? 16) eqn:EL; [exists 0; cbn [i8]; repeat split; lia|].
    set (s1 := if any f 16 || (1 <? count8 s) then _ else s).
    assert (Hs1 : i8 s1 = if any f 16 || (1 <? count8 s) then i8 s + lead f 16 else i8 s).
    { unfold s1. destruct (any f 16 || (1 <? count8 s)); [exact (proj1 (emit8_i proc In _))|reflexivity]. }
    destruct (sscan_passes 2 (sym8 s) In n (i8 s1)) as (i' & found & k & S1 & S2 & S3 & S4); [|lia|].
    { rewrite Hs1. destruct (any f 16 || (1 <? count8 s)); lia. }
    rewrite S1. exists k. rewrite <- Hs1. split; [exact S2|]. split; [lia|]. cbn [i8].
    assert (i8 s <= i8 s1) by (rewrite Hs1; destruct (any f 16 || (1 <? count8 s)); lia). lia. }
  destruct (loop_inv (sh_single_step proc In n) (fun s => 0 <= i8 s <= n) (fun s => n - i8 s) (fun r => exists s, r = Some s /\ 0 <= i8 s <= n) (mk8 0 0 sym 0 [] []))
    as (r & E & s1 & -> & H1).
  - intros s Hs. destruct (HStep s Hs) as (c0 & _ & _ & K). destruct (sh_single_step proc In n s) as [s'|r]; [lia|]. exists s. split; [apply K|exact Hs].
  - cbn [i8]. lia.
  - cbn [i8]. unfold max_in in Hn. lia.
  - rewrite E. destruct (scalar8_passes true proc In n s1 H1 (proj2 Hn)) as (k2 & -> & Hk2). destruct (approx_linear In n Hn) as (k0 & -> & Hk0).
    destruct (passes_bound (sh_single_step proc In n) (sh_single_inner In n) (fun s => 0 <= i8 s <= n) (fun s => 2 * (n - i8 s) + 1) (mk8 0 0 sym 0 [] [])) as (k1 & -> & Hk1).
    + intros s Hs. destruct (HStep s Hs) as (c0 & C1 & C2 & C3). exists c0. split; [exact C1|]. split; [exact C2|].
      destruct (sh_single_step proc In n s) as [s'|r']; [|lia]. split; [lia|]. lia.
    + cbn [i8]. lia.
    + cbn [i8]. unfold max_in in Hn. lia.
    + cbn [oadd i8] in *. eexists. split; [reflexivity|]. lia.
Qed.

(** *** The public compressors *)

Lemma multi_linear pk avx2 : LinearPasses (multi_passes pk avx2) 3 2.
Proof. intros In n HIn Hn. unfold multi_passes. apply body8_linear; [destruct avx2; lia|reflexivity|exact Hn]. Qed.

Lemma sl_linear c v : List.In c slcodecs -> LinearPasses (sl_passes c v) 3 54.
Proof.
  intros Hc In n HIn Hn. destruct (slcodecs_ok c Hc) as (HS & H8 & _). unfold sl_passes. destruct (slS c =? 1) eqn:E1.
  - cbv zeta. destruct (body8_linear (fun In i count sym last a => sl_proc c In i count [sym] last a) (fun In i count sym last a => sl_proc c In i count [sym] last a)
      (match v with Avx2 => 32 | _ => 16 end) In n (mk8 0 0 (255 - In 0) 0 (lut_init (slS c) (slSC c)) [])) as (k & E & Hk); [destruct v; lia|reflexivity|exact Hn|].
    exists k. split; [exact E|lia].
  - apply mb_linear; [destruct HS as [HS|HS]; [lia|exact HS]|lia|exact HIn|exact Hn].
Qed.

Lemma sh_linear c v : List.In c shcodecs -> LinearPasses (sh_passes c v) 5 260.
Proof.
  intros Hc In n HIn Hn. destruct (shcodecs_ok c Hc) as (HS & H8 & _ & HO). unfold sh_passes.
  destruct (shOne c) eqn:EO; [now apply sh_single_linear|]. destruct (shS c =? 1) eqn:E1.
  - cbv zeta. destruct (body8_linear (fun In i count sym last a => sh_proc c In i count [sym] last a) (fun In i count sym last a => sh_proc c In i count [sym] last a)
      (match v with Avx2 => 32 | _ => 16 end) In n (mk8 0 0 (255 - In 0) 0 (lut_init (shS c) (shSC c)) [])) as (k & E & Hk); [destruct v; lia|reflexivity|exact Hn|].
    exists k. split; [exact E|lia].
  - destruct (mb_linear (sh_proc c) (shS c) (shUnb c) v (lut_init (shS c) (shSC c)) ltac:(destruct HS as [HS|HS]; [lia|exact HS]) ltac:(lia) In n HIn Hn) as (k & E & Hk).
    exists k. split; [exact E|lia].
Qed.

Lemma le_linear L info : 1 <= L <= 255 -> LinearPasses (le_passes L info) 2 1.
Proof.
  intros HL In n HIn Hn. unfold le_passes.
  destruct (passes_bound (le_step L info In n) (le_inner L info In n) (fun '(i, _) => 0 <= i <= n) (fun '(i, _) => 2 * (n - i) + 1) (0, [])) as (k & E & Hk).
  - intros [i out] Hi. unfold le_inner, le_step. destruct (i <? n) eqn:E; cbn [andb]; [|exists 0; repeat split; lia].
    destruct (li_rle info (In i)); [|exists 0; repeat split; lia].
    set (r := (if i <? n - 256 then L else w8 (Z.min (n - i - 1) L)) - 1).
    assert (Hr : r <= n - i - 1) by (unfold r, w8; destruct (i <? n - 256) eqn:E2; [lia|rewrite Z.mod_small by lia; lia]).
    assert (HLd : 0 <= lead (fun j => In (1 + j + i) =? In i) r <= Z.max 0 r).
    { destruct (Z_lt_ge_dec r 0) as [G|G]; [|pose proof (lead_le (fun j => In (1 + j + i) =? In i) r ltac:(lia)); lia].
      unfold lead. replace (Z.to_nat r) with 0%nat by lia. cbn [lead_nat]. lia. }
    eexists. split; [reflexivity|]. split; [lia|]. cbn zeta. fold r. split; [lia|]. lia.
  - lia.
  - unfold max_in in Hn. lia.
  - exists k. split; [exact E|lia].
Qed.

Lemma greedy_linear c : List.In c greedy_codecs -> LinearPasses (greedy_passes c) 8 8.
Proof.
  intros Hc In n HIn Hn. destruct (greedy_codecs_ok c Hc) as (H1 & H2 & H3 & H4 & H5). pose proof (HSpos c H1 H2) as HS2. cbv zeta in HS2.
  assert (HSC : 1 <= shSC c <= 7) by (destruct H1 as (_ & _ & K & _); lia).
  unfold greedy_passes.
  match goal with |- context [passes ?st ?inner ?s0] => destruct (passes_bound st inner
    (GTop c In n) (fun s => (1 + shSC c) * (Z.max 0 (n - m_i s) + 1)) s0) as (k & E & Hk) end.
  - intros s Hs. exists (shSC c). split; [reflexivity|]. split; [lia|]. pose proof (greedy_step_ok c In n H1 H2 H3 H4 H5 HIn (max_large1 n Hn) s Hs) as K.
    destruct (greedy_step c In n s) as [s'|s']; [split; [apply K|]; nia|]. nia.
  - destruct (not_first_ok (shS c) shB In H2 HIn) as (Hnl & Hnb & _).
    split; [|cbn [m_goto MbModel.m_count]; split; [intros _; apply Z.mod_0_l; lia|discriminate]].
    constructor; cbn [m_i MbModel.m_count m_sym m_last m_aux m_out]; try lia.
    + constructor; try lia; try constructor. apply shB0.
    + apply lut_init_sym. lia.
    + split; assumption.
    + intros j Hj. lia.
  - cbn [m_i]. unfold max_in in Hn. nia.
  - exists k. split; [exact E|]. cbn [m_i] in Hk. nia.
Qed.
