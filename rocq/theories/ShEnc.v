(** Correctness of the encoders of the short codecs. *)
From Verif Require Import Base Simd SimdProof Spec LargeSpec PktSpec LutSpec ExtModel ExtDec ExtEnc PktModel PktDec PktEnc Rle8Model Rle8Proof Rle8Single
  MbModel MbEnc LutModel LutProof ShModel ShProof.

(** What follows the size fields: for the single symbol codec the symbol, then the packets. *)
Definition ShStream (c : shcfg) (body : list Z) (In : mem) (n : Z) : Prop :=
  exists sym0 stream, is_byte sym0 /\ body = (if shOne c then sym0 :: stream else stream) /\
    StreamP (ShortPacket (shw c) sym0) (ShortEnd (shw c) sym0) (if shS c =? 1 then 0 else shS c) (first_table (shS c) (shSC c)) stream In n.

Lemma shW_init c : shok c -> shW c (lut_init (shS c) (shSC c)).
Proof. intros (_ & _ & HSC & _) _. unfold lut_init, lut_bytes, len. rewrite map_length, firstn_length. cbn [length]. lia. Qed.

Lemma ShStream_guarded c sym0 stream In n : shok c -> is_byte sym0 ->
  StreamP (ShG c sym0) (ShE c sym0) (if shS c =? 1 then 0 else shS c) (lut_init (shS c) (shSC c)) stream In n ->
  ShStream c (if shOne c then sym0 :: stream else stream) In n.
Proof.
  intros Hc Hs HS. exists sym0, stream. split; [exact Hs|]. split; [reflexivity|]. rewrite first_table_init.
  eapply StreamP_guarded; [now apply shW_init|exact HS].
Qed.

Definition shsize (n : Z) : Z := n + n / 65537 + 36.

Lemma shB0 : 0 <= shB 0.
Proof. unfold shB. cbn. lia. Qed.

Lemma shsize_ok c (body : list Z) n m : shok c -> n <= m <= n + 8 ->
  (len body <= shB m + len (sh_term_none c) \/ exists last, 0 <= last <= m /\ len body <= shB last + (m - last) + len (sh_term_lits c (m - last))) ->
  9 + len body <= shsize n.
Proof.
  intros Hc Hm HL. pose proof Hc as (_ & H8 & _). unfold shsize, shB in *.
  assert (K : (n + 8) / 65537 <= n / 65537 + 1) by lia.
  destruct HL as [HL|(last & Hlast & HL)].
  - destruct (len_sh_terms c 0 Hc) as [K1 _]. assert (m / 65537 <= (n + 8) / 65537) by (apply Z.div_le_mono; lia). lia.
  - destruct (len_sh_terms c (m - last) Hc) as [_ K2]. assert (last / 65537 <= (n + 8) / 65537) by (apply Z.div_le_mono; lia). lia.
Qed.

(** ** Single symbol codec *)

Section Restrict.
  Context {A : Type} (proc : proc8 A) (sym0 : Z).
  Definition procR : proc8 A := fun In i count sym last a => if sym =? sym0 then proc In i count sym last a else None.

  Lemma emit_restrict In s : sym8 s = sym0 -> emit8 procR In s = emit8 proc In s.
  Proof. intros H. unfold emit8, procR. rewrite H, Z.eqb_refl. reflexivity. Qed.
  Lemma emit_sym In s : sym8 (emit8 proc In s) = sym8 s.
  Proof. unfold emit8. destruct (proc _ _ _ _ _ _) as [[? ?]|]; reflexivity. Qed.

  Lemma scalar_restr In n s : sym8 s = sym0 -> loop (scalar8_step true procR In n) s = loop (scalar8_step true proc In n) s.
  Proof.
    intros H. unfold loop.
    destruct (iter_ext_inv (scalar8_step true procR In n) (scalar8_step true proc In n) (fun s => sym8 s = sym0)) with (d := 64%nat) (s := s) as [-> _].
    - intros s1 H1. unfold scalar8_step. rewrite emit_restrict by exact H1. reflexivity.
    - intros s1 s2 H1 H2. unfold scalar8_step in H2. destruct (i8 s1 <? n); [|discriminate].
      destruct (In (i8 s1) =? sym8 s1); injection H2 as <-; exact H1.
    - exact H.
    - reflexivity.
  Qed.
  Lemma finish_restr tn tls In s : sym8 s = sym0 -> finish8 procR tn tls In s = finish8 proc tn tls In s.
  Proof. intros H. unfold finish8, procR. rewrite H, Z.eqb_refl. reflexivity. Qed.
End Restrict.

Lemma single_restr (proc : proc8 (list (list Z))) sym0 In n s : sym8 s = sym0 ->
  loop (sh_single_step (procR proc sym0) In n) s = loop (sh_single_step proc In n) s.
Proof.
  intros H. unfold loop.
  destruct (iter_ext_inv (sh_single_step (procR proc sym0) In n) (sh_single_step proc In n) (fun s => sym8 s = sym0)) with (d := 64%nat) (s := s) as [-> _].
  - intros s1 H1. unfold sh_single_step. cbv zeta. rewrite emit_restrict by exact H1. reflexivity.
  - intros s1 s2 H1 H2. unfold sh_single_step in H2. cbv zeta in H2. destruct (i8 s1 <? n - 16); [|discriminate].
    destruct (lead _ 16 =? 16); [injection H2 as <-; exact H1|].
    destruct (loop _ _) as [[i' f]|]; [|discriminate]. injection H2 as <-. cbn [sym8].
    destruct (_ || _); [rewrite emit_sym; exact H1|exact H1].
  - exact H.
  - reflexivity.
Qed.

Section Single.
  Context (P : list (list Z) -> list Z -> list Z -> list Z -> list (list Z) -> Prop) (B : Z -> Z).
  Notation Inv8 := (Inv8 P B).

  Lemma single_ok proc In n a0 s0 :
    proc8_ok P B proc In -> byte_mem In -> 1 <= n <= large_in -> Inv8 In n a0 s0 -> 0 <= i8 s0 ->
    exists s1, loop (sh_single_step proc In n) s0 = Some (Some s1) /\ Inv8 In n a0 s1 /\ 0 <= i8 s1 /\ sym8 s1 = sym8 s0.
  Proof.
    intros HP HIn Hn HI0 Hi0.
    destruct (loop_inv (sh_single_step proc In n) (fun s => Inv8 In n a0 s /\ 0 <= i8 s /\ sym8 s = sym8 s0) (fun s => Z.max 0 (n - i8 s))
      (fun r => exists s1, r = Some s1 /\ Inv8 In n a0 s1 /\ 0 <= i8 s1 /\ sym8 s1 = sym8 s0) s0) as (r & HL & s1 & -> & H1 & H2 & H3).
    - intros s (HI & Hi & Hsy). unfold sh_single_step. cbv zeta. destruct (i8 s <? n - 16) eqn:E; [|exists s; split; [reflexivity|split; [|split]; assumption]].
      set (f := fun j : Z => In (i8 s + j) =? sym8 s).
      destruct (lead_spec f 16) as (L1 & L2 & L3); [lia|].
      assert (Hgrow : Inv8 In n a0 (mk8 (i8 s + lead f 16) (count8 s + lead f 16) (sym8 s) (last8 s) (aux8 s) (out8 s))).
      { destruct HI as [HO [R1 R2 R3 R4 R5]]. split; [exact HO|]. constructor; cbn [i8 count8 sym8 last8 aux8 out8]; try lia; try assumption.
        intros k Hk. destruct (Z_lt_ge_dec k (i8 s)) as [Hk2|Hk2]; [apply R5; lia|].
        specialize (L2 (k - i8 s) ltac:(lia)). unfold f in L2. apply Z.eqb_eq in L2. rewrite <- L2. f_equal. lia. }
      destruct (lead f 16 =? 16) eqn:EL.
      + apply Z.eqb_eq in EL. rewrite EL in Hgrow. split; [split; [exact Hgrow|cbn [i8 sym8]; split; [lia|exact Hsy]]|cbn [i8]; lia].
      + set (s1 := if any f 16 || (1 <? count8 s) then _ else s).
        assert (Hs1 : OInv8 P B In a0 (last8 s1) (aux8 s1) (out8 s1) /\ last8 s1 <= i8 s1 /\ i8 s <= i8 s1 <= i8 s + 16 /\ sym8 s1 = sym8 s).
        { unfold s1. destruct (any f 16 || (1 <? count8 s)).
          - pose proof (emit8_ok P (fun _ _ _ => True) B proc In n a0 _ HP (proj2 Hn) Hgrow) as K. cbv zeta in K. cbn [i8 last8 sym8] in K.
            destruct K as (K1 & K2 & K3 & K4). split; [exact K1|]. rewrite K3. split; [lia|]. split; [lia|exact K4].
          - destruct HI as [HO [R1 R2 R3 R4 R5]]. split; [exact HO|]. split; [lia|]. split; [lia|reflexivity]. }
        destruct Hs1 as (HO1 & Hl1 & Hi1 & Hsy1).
        destruct (sscan_ok 2 (sym8 s) In n (i8 s1)) as (i' & found & HSc & Hi' & Hf & _); try lia.
        rewrite HSc. cbn [i8 sym8].
        split; [|lia]. split; [|split; [lia|congruence]]. split; [exact HO1|].
        destruct HI as [_ [_ _ R3 _ _]]. rewrite Hsy1.
        constructor; cbn; try (destruct found; lia); [exact R3|]. intros k Hk. destruct found; [|lia]. rewrite <- (Hf eq_refl). f_equal. lia.
    - split; [assumption|]. split; [assumption|reflexivity].
    - unfold large_in in Hn. lia.
    - exists s1. split; [exact HL|]. split; [|split]; assumption.
  Qed.
End Single.

Lemma sh_proc8_ok c In (proc : proc8 (list (list Z))) sym0 : shok c -> shS c = 1 -> byte_mem In ->
  (forall In i count sym last a bytes a', proc In i count sym last a = Some (bytes, a') ->
     sh_proc c In i count [sym] last a = Some (bytes, a') /\ (shOne c = true -> sym = sym0)) ->
  proc8_ok (ShG c sym0) shB proc In.
Proof.
  intros Hc E1 HIn HP i count sym last a bytes a' Hcnt Hl Hi Hb Hrun H. rewrite <- periodic_1 by assumption.
  apply HP in H. destruct H as [H Ho].
  eapply sh_proc_ok; try exact H; try assumption; try lia.
  - rewrite E1. reflexivity.
  - constructor; [exact Hb|constructor].
  - intros K. now rewrite Ho.
Qed.

Lemma sh_single_ok c In n : shok c -> shOne c = true -> byte_mem In -> 1 <= n <= large_in ->
  exists body, sh_body_single c In n = Some body /\ ShStream c body In n /\ Forall is_byte body /\ 8 + len body <= shsize n.
Proof.
  intros Hc Ho HIn Hn. pose proof Hc as (_ & _ & _ & H1). destruct (H1 Ho) as [E1 E0]. unfold sh_body_single. cbv zeta.
  set (proc := fun In i count sym last a => sh_proc c In i count [sym] last a).
  destruct (approx_symbol_ok In n Hn) as (sym & -> & Hsym).
  assert (HP : proc8_ok (ShG c sym) shB (procR proc sym) In).
  { apply sh_proc8_ok; try assumption. unfold procR, proc. intros In0 i count sym1 last a bytes a' H.
    destruct (sym1 =? sym) eqn:E; [|discriminate]. split; [exact H|]. intros _. lia. }
  assert (HI0 : Inv8 (ShG c sym) shB In n [] (mk8 0 0 sym 0 [] [])).
  { split; constructor; cbn; try lia; try assumption; try constructor. intros k Hk. lia. }
  destruct (single_ok (ShG c sym) shB _ In n [] _ HP HIn Hn HI0 ltac:(cbn; lia)) as (s1 & HL1 & HI1 & Hi1 & Hs1).
  rewrite single_restr in HL1 by reflexivity. rewrite HL1.
  destruct (scalar8_ok (ShG c sym) (ShE c sym) shB true _ In n [] _ HP HIn Hn HI1 Hi1) as (s2 & HL2 & HI2 & Hi2).
  assert (Hs2 : sym8 s2 = sym).
  { eapply (loop_pres (scalar8_step true (procR proc sym) In n) (fun s => sym8 s = sym) (fun s => sym8 s = sym)); [| |exact HL2].
    - intros s Hs. unfold scalar8_step. destruct (i8 s <? n); [|exact Hs]. destruct (In (i8 s) =? sym8 s); exact Hs.
    - exact Hs1. }
  rewrite scalar_restr in HL2 by exact Hs1. rewrite HL2.
  rewrite <- (finish_restr proc sym) by exact Hs2.
  destruct (finish8_ok (ShG c sym) (ShE c sym) shB (procR proc sym) (sh_term_none c) (sh_term_lits c) In n [] s2) as (HS & Hlen); try assumption.
  - intros a. now apply sh_term_none_ok.
  - now apply sh_term_bytes.
  - intros a lits Hls. apply sh_term_lits_ok; [assumption|lia].
  - now apply sh_term_bytes.
  - eexists. split; [reflexivity|]. split; [|split].
    + pose proof (ShStream_guarded c sym (finish8 (procR proc sym) (sh_term_none c) (sh_term_lits c) In s2) In n Hc Hsym) as K. rewrite Ho in K. apply K.
      rewrite E1, E0. exact HS.
    + constructor; [exact Hsym|]. eapply StreamP_bytes. exact HS.
    + rewrite len_cons. pose proof (shsize_ok c _ n n Hc ltac:(lia) Hlen). lia.
Qed.

Lemma sh_body_ok c v In n : shok c -> byte_mem In -> 1 <= n <= large_in ->
  exists body, sh_body c v In n = Some body /\ ShStream c body In n /\ Forall is_byte body /\ 8 + len body <= shsize n.
Proof.
  intros Hc HIn Hn. pose proof Hc as (HS & H8 & HSC & _). pose proof (okS1_pos _ HS) as HS2.
  unfold sh_body. cbv zeta. destruct (shOne c) eqn:Ho; [now apply sh_single_ok|].
  assert (HSB : forall body, StreamP (ShG c 0) (ShE c 0) (if shS c =? 1 then 0 else shS c) (lut_init (shS c) (shSC c)) body In n ->
    ShStream c body In n /\ Forall is_byte body).
  { intros body HSt. split; [|eapply StreamP_bytes; exact HSt].
    pose proof (ShStream_guarded c 0 body In n Hc ltac:(unfold is_byte; lia) HSt) as K. now rewrite Ho in K. }
  destruct (shS c =? 1) eqn:E1.
  - apply Z.eqb_eq in E1.
    set (proc := fun In i count sym last a => sh_proc c In i count [sym] last a).
    assert (HP : proc8_ok (ShG c 0) shB proc In).
    { apply sh_proc8_ok; try assumption. intros. split; [assumption|congruence]. }
    destruct (body8_ok (ShG c 0) (ShE c 0) shB proc proc (sh_term_none c) (sh_term_lits c)
      (match v with Avx2 => 32 | _ => 16 end) In n (lut_init (shS c) (shSC c)) (255 - In 0)) as (body & HB & HSt & HL); try assumption.
    + destruct v; lia.
    + specialize (HIn 0). unfold is_byte in *. lia.
    + apply shB0.
    + intros a. now apply sh_term_none_ok.
    + now apply sh_term_bytes.
    + intros a lits Hlits. apply sh_term_lits_ok; [assumption|lia].
    + now apply sh_term_bytes.
    + exists body. split; [exact HB|]. destruct (HSB body HSt) as [K1 K2]. split; [exact K1|]. split; [exact K2|].
      pose proof (shsize_ok c _ n n Hc ltac:(lia) HL). lia.
  - assert (HSk : okS (shS c)) by (destruct HS; [lia|assumption]).
    assert (HP : procM_ok (ShG c 0) (shS c) (shUnb c) shB (sh_proc c) In).
    { intros i count sym last a bytes a' Hcnt Hmin Hmod Hl Hi Hs Hb Hrun H. eapply sh_proc_ok; try exact H; try assumption; try tauto. congruence. }
    destruct (mb_body_ok (ShG c 0) (ShE c 0) (shS c) (shUnb c) shB (sh_proc c) (sh_term_none c) (sh_term_lits c)
      v In n (lut_init (shS c) (shSC c))) as (body & HB & HSt & m & Hm & HL); try assumption.
    + apply shB0.
    + intros a. now apply sh_term_none_ok.
    + now apply sh_term_bytes.
    + intros a lits Hlits. now apply sh_term_lits_ok.
    + now apply sh_term_bytes.
    + exists body. split; [exact HB|]. destruct (HSB body HSt) as [K1 K2]. split; [exact K1|]. split; [exact K2|].
      pose proof (shsize_ok c _ n m Hc ltac:(lia) HL). lia.
Qed.

(** ** Greedy encoder *)

Definition symok (S : Z) (x : list Z) : Prop := len x = S /\ Forall is_byte x.

Lemma common_ok a : forall b, 0 <= common a b <= len b /\ forall j, 0 <= j < common a b -> symbyte a j = symbyte b j.
Proof.
  induction a as [|x a IH]; intros b.
  - cbn [common]. pose proof (len_nonneg b). split; [lia|intros; lia].
  - destruct b as [|y b]; cbn [common]; [split; [unfold len; cbn; lia|intros; lia]|].
    pose proof (len_nonneg b). rewrite len_cons. destruct (x =? y) eqn:E; [|split; [lia|intros; lia]].
    destruct (IH b) as [H1 H2]. split; [lia|]. intros j Hj. unfold symbyte in *. destruct (Z.eq_dec j 0) as [->|].
    + cbn. lia.
    + replace (Z.to_nat j) with (Datatypes.S (Z.to_nat (j - 1))) by lia. cbn [nth]. apply H2. lia.
Qed.

Lemma common_le_l a b : common a b <= len a.
Proof.
  revert b. induction a as [|x a IH]; intros b; [cbn; unfold len; cbn; lia|]. pose proof (len_nonneg a). rewrite len_cons.
  destruct b as [|y b]; cbn [common]; [lia|]. destruct (x =? y); [specialize (IH b)|]; lia.
Qed.

Lemma best_match_ok S next : 0 < S -> len next = S -> forall lut best cnt,
  Forall (symok S) lut -> 0 <= cnt <= S -> (2 <= cnt -> symok S best /\ forall j, 0 <= j < cnt -> symbyte next j = symbyte best j) ->
  let '(b, k) := best_match S next lut best cnt in
  0 <= k <= S /\ (2 <= k -> symok S b /\ forall j, 0 <= j < k -> symbyte next j = symbyte b j).
Proof.
  intros HS Hn. induction lut as [|x lut IH]; intros best cnt HL Hk Hb; cbn [best_match]; [split; assumption|].
  inversion HL as [|? ? Hx HL']; subst. destruct (eqb_bytes x next) eqn:E.
  - apply eqb_bytes_eq in E. subst x. split; [lia|]. intros _. split; [exact Hx|reflexivity].
  - destruct (_ && _); [|apply IH; assumption]. destruct (common_ok next x) as [C1 C2]. pose proof (common_le_l next x).
    apply IH; [assumption|lia|]. intros _. split; [exact Hx|exact C2].
Qed.

Lemma lut_front_ok S SC sym k lut : symok S sym -> Forall (symok S) lut -> Forall (symok S) (lut_front SC sym k lut).
Proof.
  intros Hs HL. unfold lut_front. constructor; [exact Hs|].
  assert (K : forall (P : list Z -> Prop) m l, Forall P l -> Forall P (firstn m l)).
  { clear. intros P m l H. rewrite Forall_forall in *. intros x Hx. apply H. rewrite <- (firstn_skipn m l). apply in_or_app. now left. }
  assert (K2 : forall (P : list Z -> Prop) m l, Forall P l -> Forall P (skipn m l)).
  { clear. intros P m l H. rewrite Forall_forall in *. intros x Hx. apply H. rewrite <- (firstn_skipn m l). apply in_or_app. now right. }
  apply K. apply Forall_app. split; [now apply K|now apply K2].
Qed.

Lemma lut_init_sym S SC : 0 < S -> Forall (symok S) (lut_init S SC).
Proof.
  intros HS. unfold lut_init. apply Forall_map. unfold lut_bytes.
  assert (K : forall b, List.In b (firstn (Z.to_nat SC) [0; 127; 255; 1; 126; 128; 254]) -> is_byte b).
  { intros b Hb. assert (Hb2 : List.In b [0; 127; 255; 1; 126; 128; 254]).
    { rewrite <- (firstn_skipn (Z.to_nat SC) [0; 127; 255; 1; 126; 128; 254]). apply in_or_app. now left. }
    cbn in Hb2. unfold is_byte. lia. }
  apply Forall_forall. intros b Hb. split; [now rewrite len_repeat by lia|]. apply Forall_forall. intros x Hx.
  apply repeat_spec in Hx. subst x. now apply K.
Qed.

Section Greedy.
  Variables (c : shcfg) (In : mem) (n : Z).
  Hypotheses (Hc : shok c) (HSk : okS (shS c)) (HU : shUnb c = true) (Ho : shOne c = false) (HSC0 : shSC c <> 0)
    (HIn : byte_mem In) (Hn : 1 <= n <= large_in).
  Let S := shS c.
  Let a0 := lut_init (shS c) (shSC c).
  Notation OInv := (OInvM (ShG c 0) shB).

  Record GInv (st : estm (list (list Z))) : Prop := {
    g_out : OInv In a0 (m_last st) (m_aux st) (m_out st);
    g_lut : Forall (symok S) (m_aux st);
    g_count : 0 <= m_count st;
    g_last : m_last st <= m_i st - m_count st;
    g_sym : symok S (m_sym st);
    g_i : 0 <= m_i st <= n + S;
    g_run : run S In (m_i st) (m_count st) (m_sym st) }.

  (** At the top of the loop. *)
  Definition GTop (st : estm (list (list Z))) : Prop :=
    GInv st /\ (m_goto st = false -> m_count st mod S = 0) /\ (m_goto st = true -> m_i st < n).

  Lemma HSpos : 2 <= S <= 8.
  Proof. unfold S. pose proof (okS_pos _ HSk). destruct Hc as (_ & H8 & _). lia. Qed.

  Lemma greedy_emit st bytes a' : GInv st ->
    sh_proc c In (m_i st) (m_count st) (m_sym st) (m_last st) (m_aux st) = Some (bytes, a') ->
    OInv In a0 (m_i st) a' (m_out st ++ bytes) /\ Forall (symok S) a'.
  Proof.
    intros [[O1 O2 O3 O4] G2 G3 G4 [G5 G6] G7 G8] HE. pose proof HSpos as HS2.
    destruct (sh_proc_ok c 0 In _ _ _ _ _ _ _ Hc HIn ltac:(congruence) (conj O1 G4) ltac:(lia) G5 G6 ltac:(congruence) HE) as ((h & Hh & HP) & Hb & Hcost).
    split.
    - constructor.
      + lia.
      + replace (slice In 0 (m_i st)) with (slice In 0 (m_last st) ++ slice In (m_last st) (m_i st - m_count st - m_last st) ++ periodic (m_sym st) (m_count st)).
        * rewrite Hh. eapply Serial_snoc; eassumption.
        * rewrite <- (run_slice_p S In (m_i st)) by assumption.
          assert (K : slice In 0 (m_last st + ((m_i st - m_count st - m_last st) + m_count st)) =
            slice In 0 (m_last st) ++ slice In (m_last st) (m_i st - m_count st - m_last st) ++ slice In (m_i st - m_count st) (m_count st)).
          { rewrite slice_app by lia. rewrite Z.add_0_l. rewrite slice_app by lia. f_equal. f_equal. f_equal. lia. }
          rewrite <- K. f_equal. lia.
      + rewrite len_app. lia.
      + apply Forall_app. split; assumption.
    - unfold sh_proc in HE. cbv zeta in HE. destruct (_ || _); [|discriminate]. apply some_pair in HE. destruct HE as [_ <-].
      replace (shSC c =? 0) with false by lia. apply lut_front_ok; [split; assumption|exact G2].
  Qed.

  Lemma greedy_second_ok st : GInv st -> m_i st <= n ->
    GTop (greedy_second c In n st) /\ m_i st < m_i (greedy_second c In n st).
  Proof.
    intros HG Hi. pose proof HSpos as HS2. pose proof HG as [G1 G2 G3 G4 [G5 G6] G7 G8].
    assert (HE : OInv In a0 (m_last (emitM (sh_proc c) In st)) (m_aux (emitM (sh_proc c) In st)) (m_out (emitM (sh_proc c) In st)) /\
      Forall (symok S) (m_aux (emitM (sh_proc c) In st)) /\ m_last (emitM (sh_proc c) In st) <= m_i st /\ m_i (emitM (sh_proc c) In st) = m_i st).
    { unfold emitM. destruct (sh_proc c In (m_i st) (m_count st) (m_sym st) (m_last st) (m_aux st)) as [[bytes a']|] eqn:E; cbn [m_last m_aux m_out m_i].
      - destruct (greedy_emit st bytes a' HG E) as [K1 K2]. split; [exact K1|]. split; [exact K2|]. lia.
      - split; [exact G1|]. split; [exact G2|]. lia. }
    destruct HE as (HE1 & HE2 & HE3 & HE4). unfold greedy_second. cbv zeta. fold S. set (st1 := emitM (sh_proc c) In st) in *.
    rewrite HE4. set (i := m_i st) in *.
    assert (Hlen : len (load In S i) = S) by (unfold load; apply len_slice; lia).
    assert (Hb : Forall is_byte (load In S i)) by (apply Forall_slice; exact HIn).
    assert (Hmk : forall di cnt sym g, symok S sym -> 0 <= cnt <= di -> 0 < di -> i + di <= n + S -> (g = false -> cnt mod S = 0) -> (g = true -> i + di < n) ->
      run S In (i + di) cnt sym ->
      GTop (mkM (i + di) cnt sym (m_last st1) (m_aux st1) (m_out st1) g) /\ i < m_i (mkM (i + di) cnt sym (m_last st1) (m_aux st1) (m_out st1) g)).
    { intros di cnt sym g Hsy Hcnt Hdi Hle Hmod Hg Hr. split; [|cbn [m_i]; lia]. split; [|split; assumption].
      constructor; cbn [m_i m_count m_sym m_last m_aux m_out]; try assumption; lia. }
    assert (Hone : GTop (mkM (i + 1) 0 (load In S i) (m_last st1) (m_aux st1) (m_out st1) false) /\
      i < m_i (mkM (i + 1) 0 (load In S i) (m_last st1) (m_aux st1) (m_out st1) false)).
    { apply Hmk; try lia; [split; assumption| |intros k Hk; lia]. intros _. apply Z.mod_0_l. lia. }
    destruct ((i + S <=? n) && eqb_bytes (load In S (i + S)) (load In S i)) eqn:E.
    - apply andb_true_iff in E. destruct E as [E1 E2]. apply Hmk; try lia; [split; assumption| |].
      + intros _. rewrite Z.mul_comm. apply Z_mod_mult.
      + intros k Hk. replace (i + S * 2 - S * 2 + k) with (i + k) by lia.
        rewrite symbyte_load by (apply Z.mod_pos_bound; lia).
        destruct (Z_lt_ge_dec k S) as [Hs|Hs]; [now rewrite Z.mod_small by lia|].
        assert (k mod S = k - S) as -> by (symmetry; apply Z.mod_unique with 1; lia).
        pose proof (eqb_bytes_load In S (i + S) (load In S i) ltac:(lia) E2 (k - S) ltac:(lia)) as K.
        rewrite symbyte_load in K by lia. rewrite <- K. f_equal. lia.
    - destruct (i + S <=? n) eqn:E1; [|exact Hone].
      pose proof (best_match_ok S (load In S i) ltac:(lia) Hlen (m_aux st1) [] 0 HE2 ltac:(lia) ltac:(lia)) as HB.
      destruct (best_match S (load In S i) (m_aux st1) [] 0) as [best cnt]. destruct HB as [HB1 HB2].
      destruct (2 <=? cnt) eqn:E2; [|exact Hone]. destruct (HB2 ltac:(lia)) as [HB3 HB4].
      apply Hmk; try lia; [exact HB3| |].
      + intros Hg. assert (Hcs : cnt = S).
        { apply andb_false_iff in Hg. destruct Hg as [Hg|Hg]; [|lia]. apply negb_false_iff in Hg. lia. }
        rewrite Hcs. apply Z_mod_same_full.
      + intros k Hk. replace (i + cnt - cnt + k) with (i + k) by lia. rewrite Z.mod_small by lia. rewrite <- HB4 by lia.
        now rewrite symbyte_load by lia.
  Qed.

  Lemma greedy_step_ok st : GTop st ->
    match greedy_step c In n st with
    | inl st' => GTop st' /\ 0 <= Z.max 0 (n - m_i st') < Z.max 0 (n - m_i st)
    | inr st' => GTop st' /\ n <= m_i st'
    end.
  Proof.
    intros (HG & Hm & Hg). pose proof HSpos as HS2. pose proof HG as [G1 G2 G3 G4 [G5 G6] G7 G8].
    unfold greedy_step. cbv zeta. fold S. destruct (m_goto st) eqn:Eg.
    - specialize (Hg eq_refl). destruct (greedy_second_ok st HG ltac:(lia)) as [K1 K2]. split; [exact K1|lia].
    - specialize (Hm eq_refl). destruct (m_i st <? n) eqn:Ei.
      2:{ split; [|lia]. split; [exact HG|]. split; [intros _; exact Hm|congruence]. }
      destruct (negb (m_count st =? 0) && (m_i st + S <=? n)) eqn:E.
      + apply andb_true_iff in E. destruct E as [_ E]. destruct (eqb_bytes (load In S (m_i st)) (m_sym st)) eqn:Eq.
        * split; [|cbn [m_i]; lia]. split; [|cbn [m_goto m_count]; split; [intros _|discriminate]].
          { constructor; cbn [m_i m_count m_sym m_last m_aux m_out]; try assumption; try lia; [split; assumption|].
            apply run_ext; try assumption; try lia. intros j Hj. rewrite Z.mod_small by lia. eapply eqb_bytes_load; try exact Eq; lia. }
          rewrite mod_add0 by (try assumption; lia). apply Z_mod_same_full.
        * destruct (common_ok (m_sym st) (load In S (m_i st))) as [C1 C2].
          assert (Hlen : len (load In S (m_i st)) = S) by (unfold load; apply len_slice; lia).
          set (m := common (m_sym st) (load In S (m_i st))) in *.
          destruct (greedy_second_ok (mkM (m_i st + m) (m_count st + m) (m_sym st) (m_last st) (m_aux st) (m_out st) false)) as [K1 K2].
          { constructor; cbn [m_i m_count m_sym m_last m_aux m_out]; try assumption; try lia; [split; assumption|].
            apply run_ext; try assumption; try lia. intros j Hj. rewrite Z.mod_small by lia. rewrite C2 by lia. now rewrite symbyte_load by lia. }
          { cbn [m_i]. lia. }
          split; [exact K1|]. cbn [m_i] in K2. lia.
      + destruct (greedy_second_ok st HG ltac:(lia)) as [K1 K2]. split; [exact K1|lia].
  Qed.

  Lemma greedy_body_ok :
    exists body, greedy_body c In n = Some body /\ ShStream c body In n /\ Forall is_byte body /\ 8 + len body <= shsize n.
  Proof.
    pose proof HSpos as HS2. unfold greedy_body. destruct (not_first_ok S shB In HSk HIn) as (Hnl & Hnb & _).
    destruct (loop_inv (greedy_step c In n) GTop (fun st => Z.max 0 (n - m_i st)) (fun st => GTop st /\ n <= m_i st)
      (mkM 0 0 (not_first (shS c) In) 0 (lut_init (shS c) (shSC c)) [] false)) as (st & HL & (HG & _) & Hi).
    - intros s Hs. now apply greedy_step_ok.
    - split; [|cbn [m_goto m_count]; split; [intros _; apply Z.mod_0_l; lia|discriminate]].
      constructor; cbn [m_i m_count m_sym m_last m_aux m_out]; try lia.
      + constructor; try lia; try constructor. apply shB0.
      + apply lut_init_sym. fold S. lia.
      + split; assumption.
      + intros k Hk. lia.
    - cbn [m_i]. unfold large_in in Hn. lia.
    - rewrite HL. clear HL. eexists. split; [reflexivity|].
      assert (HQ : StreamP (ShG c 0) (ShE c 0) S a0 (finishM (sh_proc c) (sh_term_none c) (sh_term_lits c) In st) In n /\
        (len (finishM (sh_proc c) (sh_term_none c) (sh_term_lits c) In st) <= shB (m_i st) + len (sh_term_none c) \/
         exists last, 0 <= last <= m_i st /\ len (finishM (sh_proc c) (sh_term_none c) (sh_term_lits c) In st) <= shB last + (m_i st - last) + len (sh_term_lits c (m_i st - last)))).
      { unfold finishM. pose proof HG as [[O1 O2 O3 O4] G2 G3 G4 [G5 G6] G7 G8]. destruct (sh_term_bytes c Hc) as [T1 T2].
        destruct (sh_proc c In (m_i st) (m_count st) (m_sym st) (m_last st) (m_aux st)) as [[bytes a']|] eqn:E.
        - destruct (greedy_emit st bytes a' HG E) as [[P1 P2 P3 P4] _]. rewrite app_assoc. split.
          + exists (m_out st ++ bytes), (slice In 0 (m_i st)), a', (sh_term_none c), [], (m_i st). split; [reflexivity|]. split; [exact P2|].
            split; [now apply sh_term_none_ok|]. split; [apply app_nil_r|]. split; [lia|]. apply Forall_app. split; assumption.
          + left. rewrite !len_app in *. lia.
        - assert (Hls : len (slice In (m_last st) (m_i st - m_last st)) = m_i st - m_last st) by (apply len_slice; lia). split.
          + exists (m_out st), (slice In 0 (m_last st)), (m_aux st), (sh_term_lits c (m_i st - m_last st) ++ slice In (m_last st) (m_i st - m_last st)),
              (slice In (m_last st) (m_i st - m_last st)), (m_i st).
            split; [reflexivity|]. split; [exact O2|]. split.
            { destruct (sh_term_lits_ok c 0 (m_aux st) (slice In (m_last st) (m_i st - m_last st)) Hc) as (tb & Htb & HT); [lia|].
              rewrite Hls in Htb. rewrite <- Htb. exact HT. }
            split.
            { replace (m_i st) with (m_last st + (m_i st - m_last st)) at 2 by lia. rewrite slice_app by lia. now rewrite Z.add_0_l. }
            split; [lia|]. apply Forall_app. split; [exact O4|]. apply Forall_app. split; [apply T2|]. apply Forall_slice. exact HIn.
          + right. exists (m_last st). split; [lia|]. rewrite !len_app, Hls. lia. }
      destruct HQ as [HQ1 HQ2]. split; [|split].
      + pose proof (ShStream_guarded c 0 (finishM (sh_proc c) (sh_term_none c) (sh_term_lits c) In st) In n Hc ltac:(unfold is_byte; lia)) as K.
        rewrite Ho in K. apply K. replace (shS c =? 1) with false by (unfold S in HS2; lia). exact HQ1.
      + eapply StreamP_bytes. exact HQ1.
      + destruct HG as [_ _ _ _ _ G7 _]. pose proof (shsize_ok c _ n (m_i st) Hc ltac:(lia) HQ2). lia.
  Qed.
End Greedy.
