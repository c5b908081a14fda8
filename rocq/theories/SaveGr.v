(** The greedy encoders save what is repeated. *)
From Verif Require Import LargeSpec Base Simd Spec ExtModel ExtDec ExtEnc PktModel MbModel MbEnc LutModel LutProof SlModel SlProof ShModel ShProof ShEnc ShThm
  SameThm SaveSpec SaveThm SaveMb SaveFam.

Section SaveGr.
  Variables (c : shcfg) (In : mem) (n : Z).
  Hypotheses (Hc : shok c) (HSk : okS (shS c)) (HU : shUnb c = true) (Ho : shOne c = false) (HSC0 : shSC c <> 0)
    (HIn : byte_mem In) (Hn : 1 <= n <= max_in).
  Let HnL : n <= large_in := max_large n (proj2 Hn).
  Notation S := (shS c).
  Notation k := (5 * shS c + 12).
  Variable rs : list (Z * Z).
  Hypothesis HR : Repetitions S In 0 n rs.
  Hypothesis HL : AllLong k rs.
  Notation Bkd := (Booked shB (2 * shS c) (5 * shS c + 12) rs).
  Notation est := (estm (list (list Z))).

  Definition Young (s : est) : Prop :=
    (m_goto s = true -> m_count s < S) /\
    (m_count s < S -> forall a b, List.In (a, b) rs -> m_i s - m_count s <= b - 2 * S -> m_i s - m_count s <= a).
  Definition SInvG (s : est) : Prop := GTop c In n s /\ Young s /\ Bkd (m_last s) (len (m_out s)) (m_i s - m_count s).

  Lemma HS2 : 2 <= S <= 8.
  Proof. exact (HSpos c Hc HSk). Qed.

  Lemma RepG a b : List.In (a, b) rs -> Repeats S In a b /\ 0 <= a <= b /\ b <= n.
  Proof. apply (Repetitions_in S In n a b rs 0); [lia|exact HR]. Qed.

  Lemma emit_bookG st : GInv c In n st ->
    let st' := emitM (sh_proc c) In st in
    (len (m_out st') = len (m_out st) /\ m_last st' = m_last st /\ m_i st - (m_i st - m_count st) < S + 12 \/
     m_last st' = m_i st /\ len (m_out st') <= len (m_out st) + (m_i st - m_count st - m_last st) + (S + 11) /\ len (m_out st') - len (m_out st) + shB (m_last st) <= shB (m_i st)).
  Proof.
    intros [[O1 O2 O3 O4] G2 G3 G4 [G5 G6] G7 G8]. pose proof HS2 as HS2. cbv zeta. unfold emitM.
    destruct (sh_proc c In (m_i st) (m_count st) (m_sym st) (m_last st) (m_aux st)) as [[bytes a']|] eqn:E; cbn [m_out m_last].
    - right. rewrite len_app. pose proof (sh_head_le c In _ _ _ _ _ _ _ G3 G4 G5 ltac:(lia) E).
      destruct (sh_proc_ok c 0 In _ _ _ _ _ _ _ Hc HIn ltac:(congruence) (conj O1 G4) ltac:(lia) G5 G6 ltac:(congruence) E) as (_ & _ & Hcost). repeat split; lia.
    - left. repeat split; try lia. destruct (Z_lt_ge_dec (m_i st - (m_i st - m_count st)) (S + 12)) as [|G]; [assumption|].
      exfalso. revert E. apply sh_long; lia.
  Qed.

  Lemma emitM_i st : m_i (emitM (sh_proc c) In st) = m_i st.
  Proof. unfold emitM. destruct (sh_proc _ _ _ _ _ _ _) as [[bytes a']|]; reflexivity. Qed.

  Lemma second_bookG st : GInv c In n st -> m_i st <= n -> Bkd (m_last st) (len (m_out st)) (m_i st - m_count st) ->
    (forall a b, List.In (a, b) rs -> m_i st <= b - 2 * S -> m_i st <= a + 2 * S) ->
    let st' := greedy_second c In n st in
    Young st' /\ Bkd (m_last st') (len (m_out st')) (m_i st' - m_count st').
  Proof.
    intros HG Hi HBk HX. cbv zeta. pose proof HS2 as HS2. pose proof (emit_bookG st HG) as HEm. cbv zeta in HEm.
    unfold greedy_second. cbv zeta. rewrite emitM_i. set (st1 := emitM (sh_proc c) In st) in *. set (x := m_i st) in *.
    assert (HCut : forall p', (forall a b, List.In (a, b) rs -> x <= b - 2 * S -> p' <= a + 2 * S) -> Bkd (m_last st1) (len (m_out st1)) p').
    { intros p' Hp'. destruct HG as [[O1 O2 O3 O4] G2 G3 G4 [G5 G6] G7 G8].
      apply (Booked_cut shB (S + 11) (S + 12) (2 * S) k S In n shB_mono) with (last := m_last st) (o := len (m_out st)) (p := x - m_count st) (x := x);
        [lia|exact HR|exact HL|exact HBk|exact G4|lia|exact HEm|]. intros a b Hab Hb _. now apply (Hp' a b). }
    assert (HNo : (x + S <=? n) && eqb_bytes (load In S (x + S)) (load In S x) = false -> forall a b, List.In (a, b) rs -> x <= b - 2 * S -> x < a).
    { intros E a b Hab Hb. destruct (RepG a b Hab) as (HRep & Ha & Hbn). destruct (Z_lt_ge_dec x a) as [|G]; [assumption|]. exfalso.
      replace (x + S <=? n) with true in E by lia. cbn [andb] in E.
      assert (EQ : load In S (x + S) = load In S x).
      { apply load_periodic_eq; [lia|]. intros j Hj. replace (x + S + j) with (x + j + S) by lia. apply HRep; lia. }
      rewrite EQ, (proj2 (eqb_bytes_eq _ _) eq_refl) in E. discriminate. }
    destruct ((x + S <=? n) && eqb_bytes (load In S (x + S)) (load In S x)) eqn:E.
    - split; [split; [discriminate|intros K; cbn in K; lia]|]. cbn [m_last m_out m_i m_count]. apply HCut. intros a b Hab Hb. specialize (HX a b Hab Hb). lia.
    - specialize (HNo eq_refl).
      assert (Hone : Young (mkM (x + 1) 0 (load In S x) (m_last st1) (m_aux st1) (m_out st1) false) /\ Bkd (m_last st1) (len (m_out st1)) (x + 1 - 0)).
      { split; [split; [discriminate|intros _ a b Hab Hb; cbn [m_i m_count] in *; specialize (HNo a b Hab ltac:(lia)); lia]|].
        apply HCut. intros a b Hab Hb. specialize (HNo a b Hab Hb). lia. }
      destruct (x + S <=? n); [|exact Hone].
      destruct (best_match S (load In S x) (m_aux st1) [] 0) as [best cnt]. destruct (2 <=? cnt); [|exact Hone].
      split; [split; [cbn [m_goto m_count]; lia|intros _ a b Hab Hb; cbn [m_i m_count] in *; specialize (HNo a b Hab ltac:(lia)); lia]|].
      cbn [m_last m_out m_i m_count]. apply HCut. intros a b Hab Hb. specialize (HNo a b Hab Hb). lia.
  Qed.

  Lemma step_bookG s : SInvG s ->
    match greedy_step c In n s with
    | inl s' => SInvG s' /\ 0 <= Z.max 0 (n - m_i s') < Z.max 0 (n - m_i s)
    | inr s' => SInvG s' /\ n <= m_i s'
    end.
  Proof.
    intros HS. pose proof HS as (HT & HY & HBk). pose proof (greedy_step_ok c In n Hc HSk HU Ho HSC0 HIn (max_large1 n Hn) s HT) as HK. pose proof HS2 as HS2.
    pose proof HT as (HG & Hm & Hg). pose proof HG as [G1 G2 G3 G4 [G5 G6] G7 G8]. unfold greedy_step in *. cbv zeta in *.
    destruct (m_goto s) eqn:Eg.
    - destruct HK as [HK1 HK2]. split; [|exact HK2]. split; [exact HK1|]. specialize (Hg eq_refl). apply second_bookG; try assumption; [lia|].
      intros a b Hab Hb. destruct HY as [HY1 HY2]. specialize (HY1 Eg). specialize (HY2 HY1 a b Hab ltac:(lia)). lia.
    - specialize (Hm eq_refl). destruct (m_i s <? n) eqn:Ei.
      2:{ split; [exact HS|]. apply HK. }
      destruct (negb (m_count s =? 0) && (m_i s + S <=? n)) eqn:E.
      + apply andb_true_iff in E. destruct E as [E0 E]. apply negb_true_iff in E0. apply Z.eqb_neq in E0.
        assert (HcS : S <= m_count s). { destruct (Z_lt_ge_dec (m_count s) S) as [G|G]; [|lia]. rewrite Z.mod_small in Hm; lia. }
        destruct (eqb_bytes (load In S (m_i s)) (m_sym s)) eqn:Eq.
        * destruct HK as [HK1 HK2]. split; [|exact HK2]. split; [exact HK1|]. split; [split; [discriminate|intros K; cbn [m_count] in K; lia]|].
          cbn [m_last m_out m_i m_count]. replace (m_i s + S - (m_count s + S)) with (m_i s - m_count s) by lia. exact HBk.
        * destruct HK as [HK1 HK2]. split; [|exact HK2]. split; [exact HK1|].
          destruct (common_ok (m_sym s) (load In S (m_i s))) as [C1 C2].
          assert (Hlen : len (load In S (m_i s)) = S) by (unfold load; apply len_slice; lia).
          set (m := common (m_sym s) (load In S (m_i s))) in *.
          apply second_bookG.
          { constructor; cbn [m_i m_count m_sym m_last m_aux m_out]; try assumption; try lia; [split; assumption|].
            apply run_ext; try assumption; try lia. intros j Hj. rewrite Z.mod_small by lia. rewrite C2 by lia. now rewrite symbyte_load by lia. }
          { cbn [m_i]. lia. }
          { cbn [m_last m_out m_i m_count]. replace (m_i s + m - (m_count s + m)) with (m_i s - m_count s) by lia. exact HBk. }
          { cbn [m_i]. intros a b Hab Hb. destruct (RepG a b Hab) as (HRep & Ha & Hbn).
            destruct (Z_lt_ge_dec (m_i s) (a + S)) as [|G]; [lia|]. exfalso.
            assert (EQ : load In S (m_i s) = m_sym s).
            { apply load_is; [exact G5|]. intros j Hj.
              replace (m_i s + j) with (m_i s + j - S + S) by lia. rewrite HRep by lia.
              replace (m_i s + j - S) with (m_i s - m_count s + (m_count s - S + j)) by lia. rewrite G8 by lia. f_equal.
              rewrite mod_add0; [apply Z.mod_small; lia|lia|]. rewrite Zminus_mod, Hm, Z_mod_same_full. reflexivity. }
            rewrite EQ, (proj2 (eqb_bytes_eq _ _) eq_refl) in Eq. discriminate. }
      + destruct HK as [HK1 HK2]. split; [|exact HK2]. split; [exact HK1|]. apply second_bookG; try assumption; [lia|].
        intros a b Hab Hb. destruct (RepG a b Hab) as (HRep & Ha & Hbn). apply andb_false_iff in E. destruct E as [E|E]; [|lia].
        apply negb_false_iff in E. apply Z.eqb_eq in E. destruct HY as [_ HY]. specialize (HY ltac:(lia) a b Hab ltac:(lia)). lia.
  Qed.

  Lemma finish_bookG s : SInvG s -> n <= m_i s -> 8 + len (finishM (sh_proc c) (sh_term_none c) (sh_term_lits c) In s) + saving k rs <= shsize n.
  Proof.
    intros ((HG & _) & _ & HBk) Hi. pose proof HS2 as HS2. pose proof HG as [[O1 O2 O3 O4] G2 G3 G4 [G5 G6] G7 G8].
    set (body := finishM _ _ _ _ _).
    assert (E : len body + saving k rs <= shB (m_i s) + len (sh_term_none c) \/
      exists last, 0 <= last <= m_i s /\ len body + saving k rs <= shB last + (m_i s - last) + len (sh_term_lits c (m_i s - last))).
    { unfold body, finishM. destruct (sh_proc c In (m_i s) (m_count s) (m_sym s) (m_last s) (m_aux s)) as [[bytes a']|] eqn:E.
      - left. destruct (Booked_end shB (S + 11) (S + 12) (2 * S) k S In n shB_mono ltac:(lia) rs (m_last s) (len (m_out s)) (m_i s - m_count s) (m_i s) (len (m_out s ++ bytes)) HR HL HBk ltac:(lia) ltac:(lia) Hi) as [_ HK].
        rewrite app_assoc, len_app. pose proof (sh_head_le c In _ _ _ _ _ _ _ G3 G4 G5 ltac:(lia) E) as E2.
        destruct (sh_proc_ok c 0 In _ _ _ _ _ _ _ Hc HIn ltac:(congruence) (conj O1 G4) ltac:(lia) G5 G6 ltac:(congruence) E) as (_ & _ & E3).
        rewrite (len_app (m_out s) bytes) in *. assert (len (m_out s) + len bytes + saving k rs <= shB (m_i s)) by (apply HK; split; lia). lia.
      - right. exists (m_last s). split; [lia|].
        destruct (Booked_end shB (S + 11) (S + 12) (2 * S) k S In n shB_mono ltac:(lia) rs (m_last s) (len (m_out s)) (m_i s - m_count s) (m_i s) (len (m_out s)) HR HL HBk ltac:(lia) ltac:(lia) Hi) as [HK _].
        rewrite !len_app, len_slice by lia.
        assert (m_i s - (m_i s - m_count s) < S + 12).
        { destruct (Z_lt_ge_dec (m_i s - (m_i s - m_count s)) (S + 12)) as [|G]; [assumption|]. exfalso. revert E. apply sh_long; lia. }
        assert (len (m_out s) + saving k rs <= shB (m_last s)) by (apply HK; split; lia). lia. }
    pose proof (shsize_end c body n (m_i s) (saving k rs) Hc ltac:(lia) E). lia.
  Qed.
End SaveGr.

Theorem greedy_saves c : List.In c greedy_codecs -> Saves (shS c) (5 * shS c + 12) (greedy_compress c false false) shsize.
Proof.
  intros Hc In n cap out rs HIn Hn HC HR. apply greedy_codecs_ok in Hc. destruct Hc as (Hc & HSk & HU & Ho & HSC). pose proof (HSpos c Hc HSk) as HS2. cbv zeta in HS2.
  unfold greedy_compress, sh_wrap in HC. apply guard_ok in HC; [|discriminate]. destruct HC as [_ HC].
  destruct (greedy_body c In n) as [body|] eqn:E; [|discriminate]. assert (EO : out = le32 n ++ le32 (8 + len body) ++ body) by congruence.
  subst out. rewrite header_len. clear HC. unfold greedy_body in E.
  rewrite <- (saving_long (5 * shS c + 12) rs). apply (Repetitions_long (shS c) In (5 * shS c + 12)) in HR. pose proof (AllLong_filter (5 * shS c + 12) rs) as HL.
  set (rs' := filter (long (5 * shS c + 12)) rs) in *. destruct (not_first_ok (shS c) shB In HSk HIn) as (Hnl & Hnb & _).
  destruct (loop_inv (greedy_step c In n) (SInvG c In n rs') (fun st => Z.max 0 (n - m_i st)) (fun st => SInvG c In n rs' st /\ n <= m_i st)
    (mkM 0 0 (not_first (shS c) In) 0 (lut_init (shS c) (shSC c)) [] false)) as (st & HLp & HE & Hi).
  - intros s Hs. now apply step_bookG.
  - split; [|split].
    + split; [|cbn [m_goto m_count]; split; [intros _; apply Z.mod_0_l; lia|discriminate]].
      constructor; cbn [m_i m_count m_sym m_last m_aux m_out]; try lia.
      * constructor; try lia; try constructor. apply shB0.
      * apply lut_init_sym. lia.
      * split; assumption.
      * intros j Hj. lia.
    + split; [discriminate|]. intros _ a b Hab _. cbn [m_i m_count]. destruct (Repetitions_in (shS c) In n a b rs' 0 ltac:(lia) HR Hab) as (_ & Ha & _). lia.
    + cbn [m_last m_out m_i m_count]. apply (Booked_init shB (shS c + 11) (shS c + 12) (2 * shS c) (5 * shS c + 12) (shS c) In n); try assumption; [apply shB_mono|lia|apply shB0].
  - cbn [m_i]. unfold max_in in Hn. lia.
  - rewrite HLp in E. injection E as <-. now apply (finish_bookG c In n Hc HSk HU Ho HIn Hn rs' HR HL).
Qed.
