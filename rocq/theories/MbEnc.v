(** Correctness of the multi-byte encoder loop of [MbModel], for any packet decision whose
    packets are understood by the decoder. *)
From Verif Require Import Base Simd SimdProof Spec LargeSpec ExtModel ExtDec ExtEnc PktModel PktSpec PktDec MbModel.

Lemma run_slice_p S In i count sym : len sym = S -> 0 <= count ->
  run S In i count sym -> slice In (i - count) count = periodic sym count.
Proof. intros Hl. subst S. exact (run_slice (mcfg (len sym) true) In i count sym eq_refl). Qed.

(** *** More about the search phases of [ExtEnc] *)

Lemma loop_now {St Re} (f : St -> St + Re) s r : f s = inr r -> loop f s = Some r.
Proof.
  intros H. destruct (loop_inv f (fun x => x = s) (fun _ => 0) (fun x => x = r) s) as (r' & HL & ->); try lia; try reflexivity.
  - intros x ->. rewrite H. reflexivity.
  - exact HL.
Qed.

(** A run is only ever extended at its end. *)
Lemma phase1_diff c v In n st a : phase1 c v In n st = Some a ->
  match a with Second i count | Fall i count => i - count = e_i st - e_count st end.
Proof.
  assert (K : forall vec, loop (match_step c v In n vec) (e_i st, e_count st) = Some a ->
    match a with Second i count | Fall i count => i - count = e_i st - e_count st end).
  { intros vec. apply (loop_pres _ (fun '(i, count) => i - count = e_i st - e_count st)
      (fun a => match a with Second i count | Fall i count => i - count = e_i st - e_count st end)); [|reflexivity].
    intros [i count] H. unfold match_step. destruct (i <? n - simdW v - xS c); [|exact H].
    destruct (In (i + 0) =? symbyte vec 0); [|exact H].
    destruct (lead _ (simdW v) =? simdW v); [|destruct (xUnb c)]; lia. }
  unfold phase1. destruct v; [|apply K..]. intros H. injection H as <-. reflexivity.
Qed.

(** Without a run, the match loop does nothing. *)
Lemma phase1_zero c v In n st :
  cok c -> xS c <> 16 -> len (e_sym st) = xS c ->
  (v <> Base_ -> n - simdW v - xS c <= e_i st \/ In (e_i st) <> symbyte (e_sym st) 0) ->
  phase1 c v In n st = Some (Fall (e_i st) (e_count st)) \/ phase1 c v In n st = Some (Second (e_i st) (e_count st)).
Proof.
  intros [HS _] H16 Hl H. pose proof (okS_pos _ HS) as HS2.
  assert (K : v <> Base_ -> loop (match_step c v In n (enc_vec (xS c) v (e_sym st))) (e_i st, e_count st) = Some (Fall (e_i st) (e_count st)) \/
    loop (match_step c v In n (enc_vec (xS c) v (e_sym st))) (e_i st, e_count st) = Some (Second (e_i st) (e_count st))).
  { intros Hv. destruct (e_i st <? n - simdW v - xS c) eqn:E.
    - right. apply loop_now. unfold match_step. rewrite E. rewrite Z.add_0_r.
      rewrite enc_vec_spec; try assumption; [|destruct (simdW_cases v); lia]. rewrite Z.mod_0_l by lia.
      destruct (H Hv) as [|H1]; [lia|]. apply Z.eqb_neq in H1. rewrite H1. reflexivity.
    - left. apply loop_now. unfold match_step. rewrite E. reflexivity. }
  unfold phase1. destruct v; [left; reflexivity|apply K; discriminate..].
Qed.

Lemma scan_stop c v In n i0 i : v <> Base_ -> scan c v In n i0 = Some (i, false) -> n - simdW v - xS c <= i.
Proof.
  intros Hv H. assert (K : loop (scan_step c v In n) i0 = Some (i, false)) by (destruct v; [congruence|exact H..]).
  refine (loop_pres _ (fun _ => True) (fun '(i, f) => f = false -> n - simdW v - xS c <= i) i0 (i, false) _ Logic.I K eq_refl).
  intros s _. unfold scan_step. destruct (s <? n - simdW v - xS c) eqn:E; [|lia].
  destruct (lead _ (simdW v) =? simdW v); [exact Logic.I|discriminate].
Qed.

Section EncM.
  Context {A : Type} (P : A -> list Z -> list Z -> list Z -> A -> Prop) (Tm : A -> list Z -> list Z -> Prop).
  Variables (S : Z) (unb : bool).
  (** [B x]: bound on the size of the packets for the first [x] bytes. *)
  Variable B : Z -> Z.

  (** What a packet decision has to guarantee.  Runs found by this loop are at least two symbols
      long. *)
  Definition procM_ok (proc : procM A) (In : mem) : Prop :=
    forall i count sym last a bytes a',
      0 <= count -> (count = 0 \/ 2 * S <= count) -> (unb = false -> count mod S = 0) ->
      0 <= last <= i - count -> i <= large_in + 8 -> len sym = S -> Forall is_byte sym -> run S In i count sym ->
      proc In i count sym last a = Some (bytes, a') ->
      (exists h, bytes = h ++ slice In last (i - count - last) /\
        P a h (slice In last (i - count - last)) (periodic sym count) a') /\
      Forall is_byte bytes /\ len bytes + B last <= B i.

  Record OInvM (In : mem) (a0 : A) (last : Z) (a : A) (out : list Z) : Prop := {
    om_last : 0 <= last;
    om_ser : Serial P a0 out (slice In 0 last) a;
    om_cost : len out <= B last;
    om_bytes : Forall is_byte out }.

  Record RInvM (In : mem) (n i count : Z) (sym : list Z) (last : Z) : Prop := {
    rm_r : RInv (mcfg S unb) In n i count sym last;
    rm_min : count = 0 \/ 2 * S <= count }.

  Lemma packetM_ok proc In n a0 last a out i count sym bytes a' :
    procM_ok proc In -> n <= large_in -> S <= 8 -> OInvM In a0 last a out -> RInvM In n i count sym last ->
    proc In i count sym last a = Some (bytes, a') ->
    OInvM In a0 i a' (out ++ bytes).
  Proof.
    intros HP Hn HS [O1 O2 O3 O4] [[R1 R2 R3 R4 R5 R6 R7] RM] HE. cbn [xS xUnb mcfg] in *.
    destruct (HP _ _ _ _ _ _ _ R1 RM R7 (conj O1 R2) ltac:(lia) R3 R4 R6 HE) as ((h & -> & HPkt) & Hb & Hc).
    constructor.
    - lia.
    - replace (slice In 0 i) with (slice In 0 last ++ slice In last (i - count - last) ++ periodic sym count).
      + eapply Serial_snoc; eassumption.
      + rewrite <- (run_slice_p S In i) by assumption.
        assert (K : slice In 0 (last + ((i - count - last) + count)) =
          slice In 0 last ++ slice In last (i - count - last) ++ slice In (i - count) count).
        { rewrite slice_app by lia. rewrite Z.add_0_l. rewrite slice_app by lia. f_equal. f_equal. f_equal. lia. }
        rewrite <- K. f_equal. lia.
    - rewrite len_app. lia.
    - apply Forall_app. split; assumption.
  Qed.

  Lemma emitM_ok proc In n a0 st :
    procM_ok proc In -> n <= large_in -> S <= 8 ->
    OInvM In a0 (m_last st) (m_aux st) (m_out st) -> RInvM In n (m_i st) (m_count st) (m_sym st) (m_last st) ->
    let st' := emitM proc In st in
    OInvM In a0 (m_last st') (m_aux st') (m_out st') /\ m_last st' <= m_i st.
  Proof.
    intros HP Hn HS HO HR. cbv zeta. unfold emitM.
    destruct (proc In (m_i st) (m_count st) (m_sym st) (m_last st) (m_aux st)) as [[bytes a']|] eqn:E; cbn [m_last m_aux m_out].
    - split; [|lia]. eapply packetM_ok; eassumption.
    - split; [exact HO|]. destruct HR as [[]]. lia.
  Qed.

  Definition EInvM (v : simd) (In : mem) (n : Z) (a0 : A) (st : estm A) : Prop :=
    OInvM In a0 (m_last st) (m_aux st) (m_out st) /\
    RInvM In n (m_i st) (m_count st) (m_sym st) (m_last st) /\
    m_count st mod S = 0 /\ 0 <= m_i st /\ (m_goto st = true -> m_i st < n) /\
    (m_count st = 0 -> v <> Base_ -> n - simdW v - S <= m_i st \/ In (m_i st) <> symbyte (m_sym st) 0).

  Lemma next_runM_ok v In n a0 st i found :
    okS S -> byte_mem In ->
    OInvM In a0 (m_last st) (m_aux st) (m_out st) -> m_last st <= i -> 0 <= i <= n ->
    (found = true -> i + S * 2 < n /\ forall k, 0 <= k < S -> In (i + k) = In (i + S + k)) ->
    (found = false -> v <> Base_ -> n - simdW v - S <= i) ->
    EInvM v In n a0 (next_runM S In n st i found) /\ i < m_i (next_runM S In n st i found).
  Proof.
    intros HS HIn HO Hl Hi Hf Hnf. pose proof (okS_pos _ HS) as HS2.
    assert (Hrun : (forall k, 0 <= k < S -> In (i + k) = In (i + S + k)) -> run S In (i + S * 2) (S * 2) (load In S i)).
    { intros H k Hk. rewrite symbyte_load by (apply Z.mod_pos_bound; lia).
      replace (i + S * 2 - S * 2 + k) with (i + k) by lia.
      destruct (Z_lt_ge_dec k S) as [Hs|Hs].
      - now rewrite Z.mod_small by lia.
      - assert (k mod S = k - S) as -> by (symmetry; apply Z.mod_unique with 1; lia).
        rewrite (H (k - S)) by lia. f_equal. lia. }
    assert (Hlen : len (load In S i) = S) by (unfold load; apply len_slice; lia).
    assert (Hb : Forall is_byte (load In S i)) by (apply Forall_slice; exact HIn).
    assert (Hmod2 : (S * 2) mod S = 0) by (rewrite Z.mul_comm; apply Z_mod_mult).
    assert (Htwo : forall g, (g = true -> i + S * 2 < n) -> i + S * 2 <= n + S -> run S In (i + S * 2) (S * 2) (load In S i) ->
      EInvM v In n a0 (mkM (i + S * 2) (S * 2) (load In S i) (m_last st) (m_aux st) (m_out st) g)).
    { intros g Hg1 Hg2 Hg3. unfold EInvM. cbn [m_last m_aux m_out m_i m_count m_sym m_goto].
      split; [exact HO|]. split; [|split; [exact Hmod2|split; [lia|split; [exact Hg1|lia]]]].
      constructor; [|lia]. constructor; cbn [xS xUnb mcfg]; try lia; try assumption; intros _; exact Hmod2. }
    unfold next_runM. destruct found.
    - destruct (Hf eq_refl) as [Hf1 Hf2]. split; [apply Htwo; [auto|lia|auto]|cbn [m_i]; lia].
    - destruct ((i + S <=? n) && eqb_bytes (load In S (i + S)) (load In S i)) eqn:E.
      + apply andb_true_iff in E. destruct E as [E1 E2].
        assert (Hrun2 : run S In (i + S * 2) (S * 2) (load In S i)).
        { apply Hrun. intros k Hk. pose proof (eqb_bytes_load In S (i + S) (load In S i) ltac:(lia) E2 k Hk) as K.
          rewrite K. now rewrite symbyte_load by lia. }
        split; [apply Htwo; [discriminate|lia|exact Hrun2]|cbn [m_i]; lia].
      + split; [|cbn [m_i]; lia]. unfold EInvM. cbn [m_last m_aux m_out m_i m_count m_sym m_goto]. split; [exact HO|]. split.
        { constructor; [|lia]. constructor; cbn [xS xUnb mcfg]; try lia; try assumption; [intros k Hk; lia|intros _; apply Z.mod_0_l; lia]. }
        split; [reflexivity|]. split; [lia|]. split; [discriminate|]. intros _ Hv. left. specialize (Hnf eq_refl Hv). lia.
  Qed.

  Lemma mb_second_ok proc v In n a0 st i count :
    procM_ok proc In -> okS S -> S <= 8 -> byte_mem In -> 1 <= n <= large_in ->
    OInvM In a0 (m_last st) (m_aux st) (m_out st) -> 0 <= m_i st < n -> (count = 0 \/ 2 * S <= count) ->
    grown (mcfg S unb) In n (m_i st) i count (m_sym st) (m_last st) ->
    match mb_second proc S unb v In n st i count with
    | inl st' => EInvM v In n a0 st' /\ 0 <= Z.max 0 (n - m_i st') < Z.max 0 (n - m_i st)
    | inr r => exists st', r = Some st' /\ EInvM v In n a0 st' /\ n <= m_i st'
    end.
  Proof.
    intros HP HS HS8 HIn Hn HO Hin Hmin [Hi HRi]. unfold mb_second. cbv zeta.
    set (st1 := mkM i count (m_sym st) (m_last st) (m_aux st) (m_out st) false).
    destruct (emitM_ok proc In n a0 st1 HP ltac:(lia) HS8 HO (Build_RInvM _ _ _ _ _ _ HRi Hmin)) as [HO1 HL1].
    change (m_i st1) with i in HL1.
    destruct (scan_ok (mcfg S unb) v In n i) as (i' & found & HSc & Hi' & Hfound); cbn [xS mcfg] in *; try lia.
    { split; [exact HS|discriminate]. }
    rewrite HSc.
    destruct (next_runM_ok v In n a0 (emitM proc In st1) i' found HS HIn HO1) as [HE HI]; try assumption; try lia.
    { intros -> Hv. exact (scan_stop _ _ _ _ _ _ Hv HSc). }
    split; [exact HE|]. lia.
  Qed.

  Lemma mb_step_ok proc v In n a0 st :
    procM_ok proc In -> okS S -> S <= 8 -> byte_mem In -> 1 <= n <= large_in -> EInvM v In n a0 st ->
    match mb_step proc S unb v In n st with
    | inl st' => EInvM v In n a0 st' /\ 0 <= Z.max 0 (n - m_i st') < Z.max 0 (n - m_i st)
    | inr r => exists st', r = Some st' /\ EInvM v In n a0 st' /\ n <= m_i st'
    end.
  Proof.
    intros HP HS HS8 HIn Hn HE. pose proof HE as (HO & [HR HM] & Hm & Hi0 & Hg & Hz). unfold mb_step.
    destruct ((m_i st <? n) || m_goto st) eqn:E.
    2:{ exists st. split; [reflexivity|]. split; [exact HE|]. lia. }
    assert (Hin : m_i st < n). { destruct (m_goto st); [auto|lia]. }
    pose proof (okS_pos _ HS) as HS2.
    assert (Hc : cok (mcfg S unb)) by (split; [exact HS|discriminate]).
    set (st0 := mkE (m_i st) (m_count st) (m_sym st) (m_last st) [] [] false).
    destruct (phase1_ok (mcfg S unb) v In n st0 Hc) as (a & Hph & Ha);
      unfold st0 in *; cbn [e_i e_count e_sym e_last xS mcfg] in *; try assumption; try lia.
    rewrite Hph.
    assert (Hmin : match a with Second i count | Fall i count => count = 0 \/ 2 * S <= count end).
    { destruct (Z.eq_dec (m_count st) 0) as [E0|E0].
      - destruct (phase1_zero (mcfg S unb) v In n st0 Hc) as [K|K]; unfold st0 in *; cbn [e_i e_count e_sym xS mcfg] in *.
        + lia.
        + apply HR.
        + intros Hv. now apply Hz.
        + rewrite K in Hph. injection Hph as <-. left. exact E0.
        + rewrite K in Hph. injection Hph as <-. left. exact E0.
      - pose proof (phase1_diff _ _ _ _ _ _ Hph) as HD. cbn [e_i e_count] in HD.
        destruct a as [i count|i count]; [destruct Ha as [Hi _]|destruct Ha as [[Hi _] _]]; lia. }
    destruct a as [i count|i count].
    - apply mb_second_ok; try assumption; lia.
    - destruct Ha as [[Hi HRi] Hmi]. unfold scalar_step. cbn [xS xUnb mcfg].
      destruct (count =? 0) eqn:Ec0; cbn [negb]; [apply mb_second_ok; try assumption; try lia; split; assumption|].
      destruct (i + S <=? n) eqn:E3; [|apply mb_second_ok; try assumption; try lia; split; assumption].
      pose proof HRi as [R1 R2 R3 R4 R5 R6 R7]. cbn [xS xUnb mcfg] in *.
      destruct (eqb_bytes (load In S i) (m_sym st)) eqn:Eq.
      + assert (Hgrow : run S In (i + S) (count + S) (m_sym st)).
        { apply run_ext; try assumption; try lia. intros j Hj. rewrite Z.mod_small by lia.
          eapply eqb_bytes_load; try exact Eq; lia. }
        assert (Hmi2 : (count + S) mod S = 0).
        { rewrite mod_add0 by (try assumption; lia). apply Z_mod_same_full. }
        split; [|cbn [m_i]; lia]. unfold EInvM. cbn [m_last m_aux m_out m_i m_count m_sym m_goto].
        split; [exact HO|]. split; [|split; [exact Hmi2|split; [lia|split; [discriminate|lia]]]].
        constructor; [|lia]. constructor; cbn [xS xUnb mcfg]; try lia; try assumption; intros _; exact Hmi2.
      + destruct unb eqn:EU; [|apply mb_second_ok; try assumption; try lia; split; try assumption; rewrite EU; assumption].
        destruct (lead_spec (fun j => In (i + j) =? symbyte (m_sym st) j) S) as (H1 & H2 & _); [lia|].
        apply mb_second_ok; try assumption; try lia. split; [lia|]. rewrite EU. constructor; cbn [xS xUnb mcfg]; try assumption; try lia; try discriminate.
        apply run_ext; try assumption; try lia. intros j Hj. specialize (H2 j Hj). cbv beta in H2. apply Z.eqb_eq in H2.
        rewrite H2. f_equal. rewrite Z.mod_small by lia. reflexivity.
  Qed.

  Lemma not_first_ok In : okS S -> byte_mem In ->
    len (not_first S In) = S /\ Forall is_byte (not_first S In) /\ In 0 <> symbyte (not_first S In) 0.
  Proof.
    intros HS HIn. pose proof (okS_pos _ HS). unfold not_first, load. split; [|split].
    - unfold len. rewrite map_length. pose proof (len_slice In 0 S ltac:(lia)) as K. exact K.
    - apply Forall_map. eapply Forall_impl; [|apply Forall_slice; exact HIn]. intros a Ha. unfold is_byte in *. lia.
    - unfold slice. replace (Z.to_nat S) with (Datatypes.S (Z.to_nat (S - 1))) by lia. unfold symbyte. cbn [slice_nat map Z.to_nat nth]. lia.
  Qed.

  Lemma finishM_ok proc tn tls v In n a0 st :
    procM_ok proc In -> okS S -> S <= 8 -> byte_mem In -> 1 <= n <= large_in -> EInvM v In n a0 st -> n <= m_i st ->
    (forall a, Tm a tn []) -> Forall is_byte tn ->
    (forall a lits, len lits <= large_in + 8 -> exists tb, tb = tls (len lits) ++ lits /\ Tm a tb lits) ->
    (forall k, Forall is_byte (tls k)) ->
    StreamP P Tm S a0 (finishM proc tn tls In st) In n /\
    exists m, n <= m <= n + S /\
    (len (finishM proc tn tls In st) <= B m + len tn \/
     exists last, 0 <= last <= m /\ len (finishM proc tn tls In st) <= B last + (m - last) + len (tls (m - last))).
  Proof.
    intros HP HS HS8 HIn Hn (HO & HR & _) Hi Htn Htnb Htl Htlb. pose proof (okS_pos _ HS) as HS2. unfold finishM.
    pose proof HR as [[R1 R2 R3 R4 R5 R6 R7] _]. cbn [xS mcfg] in *.
    pose proof HO as [O1 O2 O3 O4].
    destruct (proc In (m_i st) (m_count st) (m_sym st) (m_last st) (m_aux st)) as [[bytes a']|] eqn:E.
    - pose proof (packetM_ok _ _ _ _ _ _ _ _ _ _ _ _ HP (proj2 Hn) HS8 HO HR E) as [P1 P2 P3 P4].
      rewrite app_assoc. split.
      + exists (m_out st ++ bytes), (slice In 0 (m_i st)), a', tn, [], (m_i st). split; [reflexivity|]. split; [exact P2|].
        split; [apply Htn|]. split; [apply app_nil_r|]. split; [lia|]. apply Forall_app. split; assumption.
      + exists (m_i st). split; [lia|]. left. rewrite !len_app in *. lia.
    - assert (Hls : len (slice In (m_last st) (m_i st - m_last st)) = m_i st - m_last st) by (apply len_slice; lia). split.
      + exists (m_out st), (slice In 0 (m_last st)), (m_aux st), (tls (m_i st - m_last st) ++ slice In (m_last st) (m_i st - m_last st)),
          (slice In (m_last st) (m_i st - m_last st)), (m_i st).
        split; [reflexivity|]. split; [exact O2|]. split.
        { destruct (Htl (m_aux st) (slice In (m_last st) (m_i st - m_last st))) as (tb & Htb & HT); [lia|].
          rewrite Hls in Htb. rewrite <- Htb. exact HT. }
        split.
        { replace (m_i st) with (m_last st + (m_i st - m_last st)) at 2 by lia. rewrite slice_app by lia. now rewrite Z.add_0_l. }
        split; [lia|]. apply Forall_app. split; [exact O4|]. apply Forall_app. split; [apply Htlb|]. apply Forall_slice. exact HIn.
      + exists (m_i st). split; [lia|]. right. exists (m_last st). split; [lia|]. rewrite !len_app, Hls. lia.
  Qed.

  Lemma mb_body_ok proc tn tls v In n a0 :
    procM_ok proc In -> okS S -> S <= 8 -> byte_mem In -> 1 <= n <= large_in -> 0 <= B 0 ->
    (forall a, Tm a tn []) -> Forall is_byte tn ->
    (forall a lits, len lits <= large_in + 8 -> exists tb, tb = tls (len lits) ++ lits /\ Tm a tb lits) ->
    (forall k, Forall is_byte (tls k)) ->
    exists body, mb_body proc tn tls S unb v In n a0 = Some body /\
      StreamP P Tm S a0 body In n /\
      exists m, n <= m <= n + S /\
      (len body <= B m + len tn \/ exists last, 0 <= last <= m /\ len body <= B last + (m - last) + len (tls (m - last))).
  Proof.
    intros HP HS HS8 HIn Hn HB0 H1 H2 H3 H4. pose proof (okS_pos _ HS) as HS2. unfold mb_body.
    destruct (not_first_ok In HS HIn) as (Hnl & Hnb & Hn0).
    destruct (loop_inv (mb_step proc S unb v In n) (EInvM v In n a0) (fun st => Z.max 0 (n - m_i st))
      (fun r => exists st', r = Some st' /\ EInvM v In n a0 st' /\ n <= m_i st')
      (mkM 0 0 (not_first S In) 0 a0 [] false)) as (r & HL & st & -> & HE & Hi).
    - intros s Hs. now apply mb_step_ok.
    - unfold EInvM. cbn [m_last m_aux m_out m_i m_count m_sym m_goto]. split.
      { constructor; try lia; try constructor. exact HB0. }
      split.
      { constructor; [|lia]. constructor; cbn [xS mcfg]; try lia; try assumption; [intros k Hk; lia|intros _; apply Z.mod_0_l; lia]. }
      split; [reflexivity|]. split; [lia|]. split; [discriminate|]. intros _ _. right. exact Hn0.
    - cbn [m_i]. unfold large_in in Hn. lia.
    - rewrite HL. eexists. split; [reflexivity|]. eapply finishM_ok; eassumption.
  Qed.
End EncM.
