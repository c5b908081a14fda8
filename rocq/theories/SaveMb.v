(** The multi-byte encoders save what is repeated. *)
From Verif Require Import Base LargeSpec Simd Spec ExtModel ExtDec ExtEnc PktModel MbModel MbEnc SameMb SaveSpec SaveThm.

Lemma load_periodic_eq In S i1 i2 : 0 <= S -> (forall j, 0 <= j < S -> In (i1 + j) = In (i2 + j)) -> load In S i1 = load In S i2.
Proof.
  intros HS H. unfold load. apply (nth_ext _ _ 0 0).
  - apply Nat2Z.inj. change (len (slice In i1 S) = len (slice In i2 S)). rewrite !len_slice; lia.
  - intros m Hm. assert (Z.of_nat m < S) by (pose proof (len_slice In i1 S HS) as K; unfold len in K; lia).
    pose proof (nth_slice In i1 S (Z.of_nat m) ltac:(lia)) as K1. pose proof (nth_slice In i2 S (Z.of_nat m) ltac:(lia)) as K2.
    rewrite Nat2Z.id in K1, K2. rewrite K1, K2. apply H. lia.
Qed.

Lemma load_is In S i sym : len sym = S -> (forall j, 0 <= j < S -> In (i + j) = symbyte sym j) -> load In S i = sym.
Proof.
  intros Hl H. pose proof (len_nonneg sym). unfold load. apply (nth_ext _ _ 0 0).
  - apply Nat2Z.inj. change (len (slice In i S) = len sym). rewrite len_slice; lia.
  - intros m Hm. assert (Z.of_nat m < S) by (pose proof (len_slice In i S ltac:(lia)) as K; unfold len in K; lia).
    pose proof (nth_slice In i S (Z.of_nat m) ltac:(lia)) as K1. rewrite Nat2Z.id in K1. rewrite K1, H by lia. unfold symbyte. now rewrite Nat2Z.id.
Qed.

Section SaveMb.
  Context {A : Type} (P : A -> list Z -> list Z -> list Z -> A -> Prop) (proc : procM A) (S : Z) (unb : bool) (B : Z -> Z) (H T k : Z) (In : mem) (n : Z).
  Hypothesis HS : okS S.
  Hypothesis HS8 : S <= 8.
  Hypothesis HIn : byte_mem In.
  Hypothesis Hn : 1 <= n <= max_in.
  Hypothesis HP : procM_ok P S unb B proc In.
  Hypothesis HH : forall i count sym last a bytes a', 0 <= count -> last <= i - count -> len sym = S ->
    proc In i count sym last a = Some (bytes, a') -> len bytes <= i - count - last + H.
  Hypothesis HT : forall i count sym last a, T <= count -> proc In i count sym last a <> None.
  Hypothesis HB : forall x y, x <= y -> y - x <= B y - B x.
  Hypothesis Hk : H + 4 * S <= k /\ T + 4 * S <= k /\ 0 <= H.
  Variable a0 : A.

  Variable rs : list (Z * Z).
  Hypothesis HR : Repetitions S In 0 n rs.
  Hypothesis HL : AllLong k rs.

  Notation Bkd := (Booked B (2 * S) k rs).
  Definition SInv (s : estm A) : Prop := EInvM P S unb B Base_ In n a0 s /\ m_goto s = false /\ Bkd (m_last s) (len (m_out s)) (m_i s - m_count s).

  Lemma Rep_in a b : List.In (a, b) rs -> Repeats S In a b /\ 0 <= a <= b /\ b <= n.
  Proof. apply (Repetitions_in S In n a b rs 0); [lia|exact HR]. Qed.

  (** The numbers of a packet decision. *)
  Lemma emit_book st : 0 <= m_last st -> RInvM S unb In n (m_i st) (m_count st) (m_sym st) (m_last st) ->
    let st' := emitM proc In st in
    (len (m_out st') = len (m_out st) /\ m_last st' = m_last st /\ m_i st - (m_i st - m_count st) < T \/
     m_last st' = m_i st /\ len (m_out st') <= len (m_out st) + (m_i st - m_count st - m_last st) + H /\ len (m_out st') - len (m_out st) + B (m_last st) <= B (m_i st)).
  Proof.
    intros Hl [[R1 R2 R3 R4 R5 R6 R7] RM]. cbn [xS xUnb mcfg] in *. cbv zeta. unfold emitM.
    destruct (proc In (m_i st) (m_count st) (m_sym st) (m_last st) (m_aux st)) as [[bytes a']|] eqn:E; cbn [m_out m_last].
    - right. rewrite len_app. pose proof (HH _ _ _ _ _ _ _ R1 R2 R3 E). pose proof (max_large n ltac:(lia)).
      destruct (HP _ _ _ _ _ _ _ R1 RM R7 (conj Hl R2) ltac:(lia) R3 R4 R6 E) as (_ & _ & Hc). repeat split; lia.
    - left. repeat split; try lia. destruct (Z_lt_ge_dec (m_i st - (m_i st - m_count st)) T) as [|G]; [assumption|].
      exfalso. apply (HT (m_i st) (m_count st) (m_sym st) (m_last st) (m_aux st)); [lia|exact E].
  Qed.

  Lemma second_book s i2 c2 : Bkd (m_last s) (len (m_out s)) (m_i s - m_count s) -> 0 <= m_last s -> i2 - c2 = m_i s - m_count s ->
    RInvM S unb In n i2 c2 (m_sym s) (m_last s) -> 0 <= i2 <= n ->
    (forall a b, List.In (a, b) rs -> i2 <= b - 2 * S -> i2 - c2 <= a + 2 * S -> i2 <= a + 2 * S) ->
    let s' := next_runM S In n (emitM proc In (mkM i2 c2 (m_sym s) (m_last s) (m_aux s) (m_out s) false)) i2 false in
    Bkd (m_last s') (len (m_out s')) (m_i s' - m_count s').
  Proof.
    intros HBk Hl Hd HRi Hi Hend. cbv zeta. pose proof (okS_pos _ HS) as HS2. rewrite <- Hd in HBk.
    pose proof (emit_book (mkM i2 c2 (m_sym s) (m_last s) (m_aux s) (m_out s) false) Hl HRi) as HE. cbv zeta in HE. cbn [m_i m_count m_last m_out] in HE.
    set (st1 := emitM _ _ _) in *. destruct HRi as [[R1 R2 R3 R4 R5 R6 R7] RM].
    assert (HK : forall p', (forall a b, List.In (a, b) rs -> i2 <= b - 2 * S -> i2 - c2 <= a + 2 * S -> p' <= a + 2 * S) -> Bkd (m_last st1) (len (m_out st1)) p').
    { intros p' Hp'. apply (Booked_cut B H T (2 * S) k S In n HB) with (last := m_last s) (o := len (m_out s)) (p := i2 - c2) (x := i2); [lia|exact HR|exact HL|exact HBk|exact R2|lia|exact HE|exact Hp']. }
    unfold next_runM. destruct ((i2 + S <=? n) && eqb_bytes (load In S (i2 + S)) (load In S i2)) eqn:E; cbn [m_last m_out m_i m_count]; apply HK; intros a b Hin Hb Hp.
    - specialize (Hend a b Hin Hb Hp). lia.
    - destruct (Rep_in a b Hin) as (HRep & Ha & Hbn).
      destruct (Z_lt_ge_dec i2 a) as [G|G]; [lia|]. exfalso.
      replace (i2 + S <=? n) with true in E by lia. cbn [andb] in E.
      assert (EQ : load In S (i2 + S) = load In S i2).
      { apply load_periodic_eq; [lia|]. intros j Hj. replace (i2 + S + j) with (i2 + j + S) by lia. apply HRep; lia. }
      rewrite EQ, (proj2 (eqb_bytes_eq _ _) eq_refl) in E. discriminate.
  Qed.

  Lemma step_book s : SInv s ->
    match mb_step proc S unb Base_ In n s with
    | inl s' => SInv s' /\ 0 <= Z.max 0 (n - m_i s') < Z.max 0 (n - m_i s)
    | inr r => exists s', r = Some s' /\ SInv s' /\ n <= m_i s'
    end.
  Proof.
    intros (HE & Hg & HBk). pose proof (mb_step_ok P (fun _ _ _ => True) S unb B proc Base_ In n a0 s HP HS HS8 HIn (max_large1 n Hn) HE) as HK. pose proof (okS_pos _ HS) as HS2.
    pose proof HE as (HO & [HRi HM] & Hm & Hi0 & _ & _). unfold mb_step in *. rewrite Hg, orb_false_r in *.
    destruct (m_i s <? n) eqn:Ei.
    2:{ exists s. split; [reflexivity|]. split; [split; [exact HE|split; assumption]|]. lia. }
    cbn [phase1 e_i e_count] in *. pose proof HRi as [R1 R2 R3 R4 R5 R6 R7]. cbn [xS xUnb mcfg] in *.
    destruct (scalar_step (mcfg S unb) In n (m_i s) (m_count s) (m_sym s)) as [[i' c']|[i2 c2]] eqn:ES.
    - destruct HK as [HK1 HK2]. split; [|exact HK2]. split; [exact HK1|]. split; [reflexivity|]. cbn [m_last m_out m_i m_count] in *.
      unfold scalar_step in ES. cbn [xS xUnb mcfg] in ES.
      destruct (negb (m_count s =? 0)); [|discriminate]. destruct (m_i s + S <=? n); [|discriminate].
      destruct (eqb_bytes (load In S (m_i s)) (m_sym s)); [|destruct unb; discriminate]. injection ES as <- <-.
      replace (m_i s + S - (m_count s + S)) with (m_i s - m_count s) by lia. exact HBk.
    - unfold mb_second in *. cbn [scan] in *. destruct HK as [HK1 HK2]. split; [|exact HK2]. split; [exact HK1|].
      split; [unfold next_runM; destruct (_ && _); reflexivity|].
      assert (HX : i2 - c2 = m_i s - m_count s /\ RInvM S unb In n i2 c2 (m_sym s) (m_last s) /\ m_i s <= i2 <= n /\
        (forall a b, List.In (a, b) rs -> i2 <= b - 2 * S -> i2 - c2 <= a + 2 * S -> i2 <= a + 2 * S)).
      { unfold scalar_step in ES. cbn [xS xUnb mcfg] in ES.
        destruct (m_count s =? 0) eqn:E0; cbn [negb] in ES.
        { injection ES as <- <-. split; [reflexivity|]. split; [split; assumption|]. split; [lia|]. intros. lia. }
        destruct (m_i s + S <=? n) eqn:E1.
        2:{ injection ES as <- <-. split; [reflexivity|]. split; [split; assumption|]. split; [lia|].
            intros a b Hin Hb _. destruct (Rep_in a b Hin). lia. }
        destruct (eqb_bytes (load In S (m_i s)) (m_sym s)) eqn:E2; [discriminate|].
        assert (HC : forall a b, List.In (a, b) rs -> m_i s <= b - 2 * S -> m_i s < a + S).
        { intros a b Hin Hb. destruct (Rep_in a b Hin) as (HRep & Ha & Hbn). destruct (Z_lt_ge_dec (m_i s) (a + S)) as [|G]; [assumption|]. exfalso.
          assert (EQ : load In S (m_i s) = m_sym s).
          { apply load_is; [exact R3|]. intros j Hj.
            replace (m_i s + j) with (m_i s + j - S + S) by lia. rewrite HRep by lia.
            replace (m_i s + j - S) with (m_i s - m_count s + (m_count s - S + j)) by lia. rewrite R6 by lia. f_equal.
            rewrite mod_add0; [apply Z.mod_small; lia|lia|]. rewrite Zminus_mod, Hm, Z_mod_same_full. reflexivity. }
          rewrite EQ, (proj2 (eqb_bytes_eq _ _) eq_refl) in E2. discriminate. }
        destruct unb eqn:EU.
        - destruct (lead_spec (fun j => In (m_i s + j) =? symbyte (m_sym s) j) S) as (L1 & L2 & _); [lia|].
          set (d := lead _ S) in *. injection ES as <- <-. split; [lia|]. split.
          { constructor; [|lia]. constructor; cbn [xS xUnb mcfg]; try lia; try assumption.
            - apply run_ext; try assumption; try lia. intros j Hj. specialize (L2 j Hj). cbv beta in L2. apply Z.eqb_eq in L2.
              rewrite L2. f_equal. rewrite Z.mod_small by lia. reflexivity. }
          split; [lia|]. intros a b Hin Hb _. specialize (HC a b Hin ltac:(lia)). lia.
        - injection ES as <- <-. split; [reflexivity|]. split; [split; assumption|]. split; [lia|].
          intros a b Hin Hb _. specialize (HC a b Hin ltac:(lia)). lia. }
      destruct HX as (X1 & X2 & X3 & X4). apply second_book; try assumption; [|lia]. apply HO.
  Qed.

  Lemma finish_book tn tls s : SInv s -> n <= m_i s ->
    exists m, n <= m <= n + S /\
    (len (finishM proc tn tls In s) + saving k rs <= B m + len tn \/
     exists last, 0 <= last <= m /\ len (finishM proc tn tls In s) + saving k rs <= B last + (m - last) + len (tls (m - last))).
  Proof.
    intros (HE & Hg & HBk) Hi. pose proof (okS_pos _ HS) as HS2. pose proof HE as (HO & HRi & Hm & Hi0 & _ & _).
    assert (Hl0 : 0 <= m_last s) by apply HO. pose proof HRi as [[R1 R2 R3 R4 R5 R6 R7] RM]. cbn [xS xUnb mcfg] in *.
    exists (m_i s). split; [lia|]. unfold finishM.
    destruct (proc In (m_i s) (m_count s) (m_sym s) (m_last s) (m_aux s)) as [[bytes a']|] eqn:E.
    - left. destruct (Booked_end B H T (2 * S) k S In n HB ltac:(lia) rs (m_last s) (len (m_out s)) (m_i s - m_count s) (m_i s) (len (m_out s ++ bytes)) HR HL HBk ltac:(lia) ltac:(lia) Hi) as [_ HK].
      rewrite app_assoc, len_app. pose proof (HH _ _ _ _ _ _ _ R1 R2 R3 E) as E2.
      pose proof (max_large n ltac:(lia)). destruct (HP _ _ _ _ _ _ _ R1 RM R7 (conj Hl0 R2) ltac:(lia) R3 R4 R6 E) as (_ & _ & E3).
      rewrite (len_app (m_out s) bytes) in *. assert (len (m_out s) + len bytes + saving k rs <= B (m_i s)) by (apply HK; split; lia). lia.
    - right. exists (m_last s). split; [lia|].
      destruct (Booked_end B H T (2 * S) k S In n HB ltac:(lia) rs (m_last s) (len (m_out s)) (m_i s - m_count s) (m_i s) (len (m_out s)) HR HL HBk ltac:(lia) ltac:(lia) Hi) as [HK _].
      rewrite !len_app, len_slice by lia.
      assert (m_i s - (m_i s - m_count s) < T).
      { destruct (Z_lt_ge_dec (m_i s - (m_i s - m_count s)) T) as [|G]; [assumption|]. exfalso.
        apply (HT (m_i s) (m_count s) (m_sym s) (m_last s) (m_aux s)); [lia|exact E]. }
      assert (len (m_out s) + saving k rs <= B (m_last s)) by (apply HK; split; lia). lia.
  Qed.

  Lemma body_book tn tls body : 0 <= B 0 -> mb_body proc tn tls S unb Base_ In n a0 = Some body ->
    exists m, n <= m <= n + S /\
    (len body + saving k rs <= B m + len tn \/
     exists last, 0 <= last <= m /\ len body + saving k rs <= B last + (m - last) + len (tls (m - last))).
  Proof.
    intros HB0. unfold mb_body. pose proof (okS_pos _ HS) as HS2.
    destruct (not_first_ok S B In HS HIn) as (Hnl & Hnb & Hn0).
    destruct (loop_inv (mb_step proc S unb Base_ In n) SInv (fun st => Z.max 0 (n - m_i st))
      (fun r => exists st', r = Some st' /\ SInv st' /\ n <= m_i st')
      (mkM 0 0 (not_first S In) 0 a0 [] false)) as (r & HLp & st & -> & HE & Hi).
    - exact step_book.
    - split; [|split; [reflexivity|]].
      + unfold EInvM. cbn [m_last m_aux m_out m_i m_count m_sym m_goto]. split.
        { constructor; try lia; try constructor. exact HB0. }
        split.
        { constructor; [|lia]. constructor; cbn [xS mcfg]; try lia; try assumption; [intros j Hj; lia|intros _; apply Z.mod_0_l; lia]. }
        split; [reflexivity|]. split; [lia|]. split; [discriminate|]. intros _ Hv. congruence.
      + cbn [m_last m_out m_i m_count]. apply (Booked_init B H T (2 * S) k S In n); try assumption. lia.
    - cbn [m_i]. unfold max_in in Hn. lia.
    - rewrite HLp. intros [= <-]. now apply finish_book.
  Qed.
End SaveMb.

Lemma AllLong_filter k rs : AllLong k (filter (long k) rs).
Proof. apply Forall_forall. intros [a b] Hin. apply filter_In in Hin. destruct Hin as [_ Hin]. unfold long in Hin. cbn [fst snd] in *. lia. Qed.

Lemma mb_saves {A} P (proc : procM A) S unb B H T k In n v a0 tn tls body rs :
  okS S -> S <= 8 -> byte_mem In -> 1 <= n <= max_in -> procM_ok P S unb B proc In ->
  (forall i count sym last a bytes a', 0 <= count -> last <= i - count -> len sym = S ->
    proc In i count sym last a = Some (bytes, a') -> len bytes <= i - count - last + H) ->
  (forall i count sym last a, T <= count -> proc In i count sym last a <> None) ->
  (forall i sym last a, proc In i 0 sym last a = None) ->
  (forall x y, x <= y -> y - x <= B y - B x) -> 0 <= B 0 ->
  H + 4 * S <= k /\ T + 4 * S <= k /\ 0 <= H ->
  Repetitions S In 0 n rs -> mb_body proc tn tls S unb v In n a0 = Some body ->
  exists m, n <= m <= n + S /\
    (len body + saving k rs <= B m + len tn \/
     exists last, 0 <= last <= m /\ len body + saving k rs <= B last + (m - last) + len (tls (m - last))).
Proof.
  intros HS HS8 HIn Hn HP HH HT H0 HB HB0 Hk HR HC. rewrite <- (saving_long k rs).
  rewrite (mb_same proc) in HC; [|exact HS|lia|unfold max_in in Hn; lia|exact H0].
  eapply body_book; try eassumption; [now apply Repetitions_long|apply AllLong_filter].
Qed.
