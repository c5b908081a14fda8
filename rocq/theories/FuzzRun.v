(** What a run of the fuzzer tells about the codecs. *)
From Verif Require Import Base Spec SameMb FuzzModel FuzzSpec FuzzEnum FuzzFill FuzzEq FuzzThm.

(** What MemoryEquals can see: the highest bits in the part compared with vectors, everything behind. *)
Definition looks_same (A : mem) (a : Z) (B : mem) (b n : Z) : Prop :=
  (forall k, 0 <= k < vec_end n -> Z.testbit (A (a + k)) 7 = Z.testbit (B (b + k)) 7) /\
  same_range A a B b (vec_end n) n.

Lemma looks_same_iff A a B b n : looks_same A a B b n <-> top_upto A a B b (vec_end n) /\ eq_range A a B b (vec_end n) n.
Proof.
  unfold looks_same, top_upto, same_top, same_range, eq_range. split; intros [H1 H2]; (split; [|exact H2]); intros k Hk; specialize (H1 k Hk).
  - rewrite Z.lxor_spec, H1. apply xorb_nilpotent.
  - rewrite Z.lxor_spec in H1. now destruct (Z.testbit (A (a + k)) 7), (Z.testbit (B (b + k)) 7).
Qed.

Lemma vec_end_range n : 0 <= n -> 0 <= vec_end n <= n.
Proof. intros H. unfold vec_end. destruct (n <=? 32) eqn:E; lia. Qed.

Lemma same_looks A a B b n : 0 <= n -> same_range A a B b 0 n -> looks_same A a B b n.
Proof.
  intros Hn H. pose proof (vec_end_range n Hn). split; intros k Hk; [|apply H; lia]. rewrite (H k) by lia. reflexivity.
Qed.

Lemma equals_true A a B b n : byte_mem A -> byte_mem B -> 0 <= n < 2 ^ 62 ->
  (looks_same A a B b n -> memory_equals A a B b n = Some true) /\ (memory_equals A a B b n = Some true -> looks_same A a B b n).
Proof.
  intros HA HB Hn. destruct (memory_equals_ok A a B b n HA HB Hn) as (r & E & Hr). rewrite E, looks_same_iff. split; intros H.
  - f_equal. now apply Hr.
  - apply Hr. congruence.
Qed.

(** Compressor and decompressor write bytes. *)
Definition writes_bytes (c : cfun * decompressor) : Prop :=
  (forall I n K pK cap r K1, byte_mem I -> byte_mem K -> fst c I n K pK cap = DRet r K1 -> byte_mem K1) /\
  (forall K pK n D pD cap r D2, byte_mem K -> byte_mem D -> snd c K pK n D pD cap = DRet r D2 -> byte_mem D2).

Lemma scramble_bytes M p i e : byte_mem M -> byte_mem (scramble M p i e).
Proof. intros H x. unfold scramble. specialize (H x). destruct ((p + i <=? x) && (x <? p + e)); [|exact H]. unfold is_byte in *. lia. Qed.

(** The test of one codec, l.612-745: its compressor is called on [n] bytes at [pU], the bytes behind the
    compressed data are inverted, the output buffer is cleared, and its decompressor is called, with result [D2]. *)
Definition tested (c : cfun * decompressor) (U : mem) (pU n cap : Z) (pK pD : Z) (K D : mem) (D2 : mem) : Prop :=
  exists size K1, fst c (fun k => U (pU + k)) n K pK cap = DRet size K1 /\ size <> 0 /\
    snd c (fun x => if (pK + size <=? x) && (x <? pK + Z.min cap (n + 64)) then 255 - K1 x else K1 x) pK size
      (store D pD (repeat 0 (Z.to_nat n))) pD n = DRet n D2.

Lemma codec_passed c U pU n cap pK pD K D KD' : writes_bytes c -> byte_mem U -> byte_mem K -> byte_mem D -> 0 <= n < 2 ^ 62 ->
  fuzz_codec c U pU n cap pK pD (K, D) = Some (Some KD') ->
  (byte_mem (fst KD') /\ byte_mem (snd KD')) /\ tested c U pU n cap pK pD K D (snd KD') /\ looks_same U pU (snd KD') pD n.
Proof.
  intros [Hc1 Hc2] HU HK HD Hn H. unfold fuzz_codec in H. destruct (fst c _ n K pK cap) as [size K1|] eqn:E1; [|discriminate].
  destruct (size =? 0) eqn:Es; [discriminate|].
  destruct (snd c _ pK size _ pD n) as [r D2|] eqn:E2; [|discriminate].
  destruct (r =? n) eqn:Er; cbn [negb] in H; [|discriminate]. assert (r = n) by lia. subst r.
  assert (HK2 : byte_mem (scramble K1 pK size (Z.min cap (n + 64)))).
  { apply scramble_bytes. eapply Hc1; [| |exact E1]; [intros x; apply HU|exact HK]. }
  assert (HD2 : byte_mem D2).
  { eapply Hc2; [| |exact E2]; [exact HK2|]. apply store_byte; [exact HD|]. apply Forall_forall. intros x Hx. apply repeat_spec in Hx. subst x. unfold is_byte. lia. }
  destruct (memory_equals U pU D2 pD n) as [[|]|] eqn:E3; [|discriminate|discriminate]. injection H as <-. cbn [fst snd].
  split; [split; assumption|]. split; [|now apply (proj2 (equals_true U pU D2 pD n HU HD2 Hn))].
  exists size, K1. split; [exact E1|]. split; [lia|]. exact E2.
Qed.

Lemma codecs_passed cs U pU n cap pK pD : byte_mem U -> 0 <= n < 2 ^ 62 -> Forall writes_bytes cs -> forall K D KD', byte_mem K -> byte_mem D ->
  fuzz_codecs cs U pU n cap pK pD (K, D) = Some (Some KD') ->
  (byte_mem (fst KD') /\ byte_mem (snd KD')) /\
  forall pre c post, cs = pre ++ c :: post -> exists K1 D1 D2,
    fuzz_codecs pre U pU n cap pK pD (K, D) = Some (Some (K1, D1)) /\
    tested c U pU n cap pK pD K1 D1 D2 /\ looks_same U pU D2 pD n.
Proof.
  intros HU Hn Hcs. induction Hcs as [|c cs Hc _ IH]; intros K D KD' HK HD H; cbn [fuzz_codecs] in H.
  - injection H as <-. split; [split; assumption|]. intros pre c post E. destruct pre; discriminate.
  - destruct (fuzz_codec c U pU n cap pK pD (K, D)) as [[[K1 D1]|]|] eqn:E1; [|discriminate|discriminate].
    destruct (codec_passed c U pU n cap pK pD K D (K1, D1) Hc HU HK HD Hn E1) as ([HK1 HD1] & Ht & Hl). cbn [fst snd] in *.
    destruct (IH K1 D1 KD' HK1 HD1 H) as [HD' Hall]. split; [exact HD'|].
    intros pre x post E. destruct pre as [|y pre]; cbn [app] in E.
    + injection E as <- _. exists K, D, D1. split; [reflexivity|]. split; assumption.
    + injection E as <- E. destruct (Hall pre x post E) as (K2 & D2 & D3 & E2 & H2). exists K2, D2, D3.
      split; [|exact H2]. cbn [fuzz_codecs]. rewrite E1. exact E2.
Qed.

Section Run.
Variables (R : oracle) (cs : list (cfun * decompressor)) (pU pK pD cap : Z).
Hypothesis HR : forall k, byte_mem (R k).
Hypothesis Hcs : Forall writes_bytes cs.

Lemma state_bytes g c (it : bool) U K D k z : (if it then 1 else 2) <= c <= 2 ^ 40 -> byte_mem U -> byte_mem K -> byte_mem D ->
  after (fuzz_step R cs pU pK pD cap) (first_state g c it U K D) k z -> byte_mem (fst (z_KD z)) /\ byte_mem (snd (z_KD z)).
Proof.
  intros Hc HU HK HD H. induction H as [|k z1 z2 H IH E].
  - unfold first_state. destruct (fuzz_create g c it) as [f g1]. split; assumption.
  - destruct (step_inl _ _ _ _ _ _ _ _ E) as (n & g1 & U1 & Ef & Ec & _ & _).
    destruct (state_inv R cs pU pK pD cap HR g c it U K D k z1 ltac:(lia) HU H) as [HG HUz].
    destruct (fill_ok R c it (z_f z1) pU (z_g z1) (z_U z1) HR HG) as (n' & g1' & M' & Ef' & Hn & [_ HW] & _).
    rewrite Ef' in Ef. injection Ef as <- <- <-.
    assert (Hb : buffer_capacity (z_f z1) = c * 1048960) by (unfold buffer_capacity, limit_max, max_symbol_length; rewrite (gd_len _ _ _ HG); lia).
    destruct (z_KD z1) as [K1 D1] eqn:EKD. destruct IH as [IH1 IH2]. eapply codecs_passed; [| |exact Hcs| | |exact Ec]; [now apply HW|lia|exact IH1|exact IH2].
Qed.

(** A round that did not end in a trap. *)
Lemma round_passed g c (it : bool) U K D k z : (if it then 1 else 2) <= c <= 2 ^ 40 -> byte_mem U -> byte_mem K -> byte_mem D ->
  after (fuzz_step R cs pU pK pD cap) (first_state g c it U K D) k z ->
  (exists z', fuzz_step R cs pU pK pD cap z = inl z') \/ fuzz_step R cs pU pK pD cap z = inr (Some FzTrue) ->
  exists n g' U', fill_buffer R (z_f z) pU (z_g z) (z_U z) = Some (n, g', U') /\
    forall pre x post, cs = pre ++ x :: post -> exists K1 D1 D2,
      fuzz_codecs pre U' pU n cap pK pD (z_KD z) = Some (Some (K1, D1)) /\
      tested x U' pU n cap pK pD K1 D1 D2 /\ looks_same U' pU D2 pD n.
Proof.
  intros Hc HU HK HD H Hs. destruct (state_bytes g c it U K D k z Hc HU HK HD H) as [HKz HDz].
  destruct (state_inv R cs pU pK pD cap HR g c it U K D k z ltac:(lia) HU H) as [HG HUz].
  destruct (fill_ok R c it (z_f z) pU (z_g z) (z_U z) HR HG) as (n & g1 & U1 & Ef & Hn & [_ HW] & _).
  assert (Hb : buffer_capacity (z_f z) = c * 1048960) by (unfold buffer_capacity, limit_max, max_symbol_length; rewrite (gd_len _ _ _ HG); lia).
  assert (HE : exists KD1, fuzz_codecs cs U1 pU n cap pK pD (z_KD z) = Some (Some KD1)).
  { destruct Hs as [(z' & E)|E].
    - destruct (step_inl _ _ _ _ _ _ _ _ E) as (n' & g' & U' & Ef' & Ec & _). rewrite Ef in Ef'. injection Ef' as <- <- <-. eauto.
    - destruct (step_true _ _ _ _ _ _ _ E) as (n' & g' & U' & KD1 & f2 & g2 & Ef' & Ec & _). rewrite Ef in Ef'. injection Ef' as <- <- <-. eauto. }
  destruct HE as (KD1 & Ec). exists n, g1, U1. split; [exact Ef|]. destruct (z_KD z) as [K1 D1].
  eapply codecs_passed; [| |exact Hcs| | |exact Ec]; [now apply HW|lia|exact HKz|exact HDz].
Qed.

Lemma run_passed g c U K D : 1 <= c <= 2 ^ 40 -> byte_mem U -> byte_mem K -> byte_mem D -> (let '(f, g1) := fuzz_create g c true in
    match loop (fuzz_step R cs pU pK pD cap) (mkFz f g1 U (K, D)) with Some r => r | None => None end) = Some FzTrue ->
  forall t, planned c t -> exists k z n g' U', after (fuzz_step R cs pU pK pD cap) (first_state g c true U K D) k z /\ test_of (z_f z) = t /\
    fill_buffer R (z_f z) pU (z_g z) (z_U z) = Some (n, g', U') /\
    laid U' pU (t_symbol t) (t_bound t) (t_start t) (t_lengths t) n /\
    forall pre x post, cs = pre ++ x :: post -> exists K1 D1 D2,
      fuzz_codecs pre U' pU n cap pK pD (z_KD z) = Some (Some (K1, D1)) /\
      tested x U' pU n cap pK pD K1 D1 D2 /\ looks_same U' pU D2 pD n.
Proof.
  intros Hc HU HK HD Hrun t Ht. destruct (all_tests R cs pU pK pD cap HR g c U K D ltac:(lia) HU Hrun t Ht) as (k & (z & Hz & Et) & _).
  destruct (run_after R cs pU pK pD cap g c true U K D Hrun) as (ke & ze & He & Ee).
  pose proof (ended R cs pU pK pD cap HR g c U K D ke ze ltac:(lia) He Ee) as Hke.
  destruct (iter_filled R cs pU pK pD cap HR g c U K D k z ltac:(lia) HU Hz) as (Hk & _ & n & g' & U' & Ef & HL).
  destruct (round_passed g c true U K D k z Hc HU HK HD Hz) as (n' & g1 & U1 & Ef' & HP).
  { destruct (Z.eq_dec k ke) as [->|Hne].
    - right. rewrite (after_fun _ _ _ _ Hz _ He). exact Ee.
    - left. eapply after_mid; [exact He|exact Hz|lia]. }
  rewrite Ef in Ef'. injection Ef' as <- <- <-. exists k, z, n, g', U'. split; [exact Hz|]. split; [exact Et|]. split; [exact Ef|].
  split; [|exact HP]. rewrite <- Et. cbn [t_symbol t_bound t_start t_lengths test_of]. exact HL.
Qed.

End Run.

(** A loop with a count of its rounds. *)
Lemma loop_count {S R} (step : S -> S + R) (I : Z -> S -> Prop) (N : Z) (Q : R -> Prop) s :
  (forall k s, I k s -> 0 <= k < N /\ match step s with inl s' => I (k + 1) s' | inr r => Q r end) -> I 0 s -> N <= 2 ^ 64 ->
  exists r, loop step s = Some r /\ Q r.
Proof.
  intros Hs H0 HN.
  assert (H : forall d k s, I k s -> match iter d step s with inl s' => I (k + 2 ^ Z.of_nat d) s' | inr r => Q r end).
  { induction d as [|d IH]; intros k t Ht; cbn [iter].
    - destruct (Hs k t Ht) as [_ H]. change (2 ^ Z.of_nat 0) with 1. exact H.
    - pose proof (IH k t Ht) as H1. destruct (iter d step t) as [t1|r1]; [|exact H1].
      pose proof (IH _ t1 H1) as H2. destruct (iter d step t1) as [t2|r2]; [|exact H2].
      replace (k + 2 ^ Z.of_nat (Datatypes.S d)) with (k + 2 ^ Z.of_nat d + 2 ^ Z.of_nat d); [exact H2|].
      rewrite Nat2Z.inj_succ, Z.pow_succ_r by lia. lia. }
  specialize (H 64%nat 0 s H0). unfold loop. destruct (iter 64 step s) as [t|r]; [|eauto].
  destruct (Hs _ _ H) as [H1 _]. change (2 ^ Z.of_nat 64) with (2 ^ 64) in H1. lia.
Qed.

(** *** No false alarms *)

(** A codec that cannot be told from a correct one by MemoryEquals, for inputs up to [limit] bytes. *)
Definition passes (same : mem -> Z -> mem -> Z -> Z -> Prop) (limit cap : Z) (c : cfun * decompressor) : Prop :=
  forall U pU n K pK, byte_mem U -> byte_mem K -> 1 <= n <= limit ->
  exists size K1, fst c (fun k => U (pU + k)) n K pK cap = DRet size K1 /\ size <> 0 /\ byte_mem K1 /\
    forall K2 D pD, byte_mem K2 -> (forall x, pK <= x < pK + size -> K2 x = K1 x) -> byte_mem D ->
      exists D2, snd c K2 pK size D pD n = DRet n D2 /\ byte_mem D2 /\ same U pU D2 pD n.

Lemma codecs_no_alarm limit cap cs U pU n pK pD : limit < 2 ^ 62 -> Forall (passes looks_same limit cap) cs -> byte_mem U -> 1 <= n <= limit ->
  forall K D, byte_mem K -> byte_mem D ->
  exists K' D', fuzz_codecs cs U pU n cap pK pD (K, D) = Some (Some (K', D')) /\ byte_mem K' /\ byte_mem D'.
Proof.
  intros Hl Hcs HU Hn. induction Hcs as [|c cs Hc _ IH]; intros K D HK HD; cbn [fuzz_codecs]; [eauto|].
  destruct (Hc U pU n K pK HU HK Hn) as (size & K1 & E1 & Hs & HK1 & Hdec).
  assert (HD1 : byte_mem (store D pD (repeat 0 (Z.to_nat n)))).
  { apply store_byte; [exact HD|]. apply Forall_forall. intros x Hx. apply repeat_spec in Hx. subst x. unfold is_byte. lia. }
  destruct (Hdec (scramble K1 pK size (Z.min cap (n + 64))) (store D pD (repeat 0 (Z.to_nat n))) pD) as (D2 & E2 & HD2 & HL).
  { now apply scramble_bytes. }
  { intros x Hx. unfold scramble. replace (pK + size <=? x) with false by lia. reflexivity. }
  { exact HD1. }
  destruct (IH (scramble K1 pK size (Z.min cap (n + 64))) D2) as (K' & D' & E & HK' & HD'); [now apply scramble_bytes|exact HD2|].
  exists K', D'. split; [|auto]. unfold fuzz_codec. rewrite E1. replace (size =? 0) with false by lia. rewrite E2, Z.eqb_refl. cbn [negb].
  rewrite (proj1 (equals_true U pU D2 pD n HU HD2 ltac:(lia)) HL). exact E.
Qed.

Section NoAlarm.
Variables (R : oracle) (cs : list (cfun * decompressor)) (pU pK pD c : Z).
Hypothesis HR : forall k, byte_mem (R k).
Hypothesis Hc : 1 <= c <= 6.
Let cap := fuzz_buffer_size (c * 1048960).
Hypothesis Hcs : Forall (passes looks_same (c * 1048960) cap) cs.

Lemma count_small : planned_count c < 2 ^ 64.
Proof.
  unfold planned_count. assert (353 ^ c <= 353 ^ 6) by (apply Z.pow_le_mono_r; lia).
  assert (353 ^ 6 = 1934854145598529) by reflexivity. lia.
Qed.

Lemma no_alarm g U K D : byte_mem U -> byte_mem K -> byte_mem D -> fuzz R cs g c true U pU K pK D pD = Some FzTrue.
Proof.
  intros HU HK HD. unfold fuzz. destruct (create_is g c true) as (sym & g1 & E). rewrite E.
  assert (Hsym : forall i j, is_byte (sym i j)).
  { intros i j. exact (create_sym _ _ _ _ _ E i j). }
  change (mkF sym 1 false true c (c - 1) 0 (sects 0 (repeat 0 (Z.to_nat c)))) with (state_of sym c (mkPos 1 false 0 (repeat 0 (Z.to_nat c)))).
  assert (Hp0 : pos_ok c (mkPos 1 false 0 (repeat 0 (Z.to_nat c)))) by (apply zeros_ok; [lia|lia|discriminate|auto]).
  assert (Ecap : fuzz_buffer_size (buffer_capacity (state_of sym c (mkPos 1 false 0 (repeat 0 (Z.to_nat c))))) = cap).
  { unfold cap. f_equal. unfold buffer_capacity, state_of, limit_max, max_symbol_length. cbn [f_subs p_ds p_start]. rewrite len_sects, len_zeros by lia. lia. }
  rewrite Ecap. clear E Ecap. pose proof count_small as Hcount.
  set (z0 := mkFz _ g1 U (K, D)).
  destruct (loop_count (fuzz_step R cs pU pK pD cap)
    (fun k z => (exists p, z_f z = state_of sym c p /\ pos_ok c p /\ rank c p = k) /\ byte_mem (z_U z) /\ byte_mem (fst (z_KD z)) /\ byte_mem (snd (z_KD z)))
    (planned_count c) (fun r => r = Some FzTrue) z0) as (r & -> & ->); [| |lia|reflexivity].
  - intros k z ((p & Ef & Hp & Hk) & HUz & HKz & HDz).
    pose proof (rank_range c p ltac:(lia) Hp) as Hr. split; [lia|].
    pose proof (state_good sym c p ltac:(lia) Hsym Hp) as HG. rewrite <- Ef in HG.
    destruct (fill_ok R c true (z_f z) pU (z_g z) (z_U z) HR HG) as (n & g2 & U1 & Ef1 & Hn & [_ HW] & _).
    assert (Hb : buffer_capacity (z_f z) = c * 1048960) by (unfold buffer_capacity, limit_max, max_symbol_length; rewrite (gd_len _ _ _ HG); lia).
    destruct (z_KD z) as [K1 D1] eqn:EKD. cbn [fst snd] in *.
    destruct (codecs_no_alarm (c * 1048960) cap cs U1 pU n pK pD) with (K := K1) (D := D1) as (K2 & D2 & Ec & HK2 & HD2);
      [lia|exact Hcs|now apply HW|lia|exact HKz|exact HDz|].
    unfold fuzz_step. rewrite Ef1, EKD, Ec. unfold advance. rewrite (gd_iter _ _ _ HG).
    destruct (increment_ok sym c p ltac:(lia) Hp) as [I1 I2]. rewrite Ef.
    destruct (Z_lt_dec (rank c p + 1) (planned_count c)) as [L|G].
    + destruct (I1 L) as (p' & Ei & Hp' & Hr'). rewrite Ei. cbn [z_f z_U z_KD fst snd]. split; [|auto].
      exists p'. split; [reflexivity|]. split; [exact Hp'|lia].
    + destruct I2 as (f & Ei); [lia|]. rewrite Ei. reflexivity.
  - unfold z0. cbn [z_f z_U z_KD fst snd]. split; [|auto]. eexists. split; [reflexivity|]. split; [exact Hp0|].
    unfold rank. cbn [p_sl p_bound p_start p_ds]. rewrite value_zeros. reflexivity.
Qed.

End NoAlarm.

(** *** A codec that is wrong, and that the fuzzer does not notice *)

Definition flip_low (M : mem) (p : Z) : mem := fun x => if x =? p then Z.lxor (M x) 1 else M x.
Definition bad_codec : cfun * decompressor :=
  ((fun I n K pK _ => DRet n (store K pK (slice I 0 n))),
   (fun K pK k D pD n => DRet n (let D1 := store D pD (slice K pK k) in if 32 <? n then flip_low D1 pD else D1))).

Lemma flip_byte b : is_byte b -> is_byte (Z.lxor b 1) /\ Z.testbit (Z.lxor b 1) 7 = Z.testbit b 7 /\ Z.lxor b 1 <> b.
Proof.
  intros Hb. unfold is_byte in Hb.
  assert (H : forallb (fun i => let b := Z.of_nat i in (0 <=? Z.lxor b 1) && (Z.lxor b 1 <? 256) && eqb (Z.testbit (Z.lxor b 1) 7) (Z.testbit b 7) && negb (Z.lxor b 1 =? b)) (seq 0 256) = true) by (vm_compute; reflexivity).
  rewrite forallb_forall in H. specialize (H (Z.to_nat b)). rewrite Z2Nat.id in H by lia. specialize (H ltac:(apply in_seq; lia)). cbv beta zeta in H.
  apply andb_true_iff in H. destruct H as [H H3]. apply andb_true_iff in H. destruct H as [H H2]. apply andb_true_iff in H. destruct H as [H H1].
  apply eqb_prop in H2. unfold is_byte. split; [lia|]. split; [exact H2|]. lia.
Qed.

Lemma flip_bytes M p : byte_mem M -> byte_mem (flip_low M p).
Proof. intros H x. unfold flip_low. destruct (x =? p); [now apply flip_byte|apply H]. Qed.

Lemma bad_writes_bytes : writes_bytes bad_codec.
Proof.
  split; cbn [fst snd bad_codec].
  - intros I n K pK cap r K1 HI HK H. injection H as _ <-. apply store_byte; [exact HK|]. now apply Forall_slice.
  - intros K pK k D pD n r D2 HK HD H. injection H as _ <-.
    assert (byte_mem (store D pD (slice K pK k))) by (apply store_byte; [exact HD|now apply Forall_slice]).
    destruct (32 <? n); [now apply flip_bytes|assumption].
Qed.

(** What it does. *)
Lemma bad_result U pU n K pK K2 D pD : byte_mem U -> 0 <= n -> (forall x, pK <= x < pK + n -> K2 x = store K pK (slice (fun k => U (pU + k)) 0 n) x) ->
  exists D2, snd bad_codec K2 pK n D pD n = DRet n D2 /\
    forall k, 0 <= k < n -> D2 (pD + k) = if (32 <? n) && (k =? 0) then Z.lxor (U (pU + k)) 1 else U (pU + k).
Proof.
  intros HU Hn HK2. eexists. split; [reflexivity|]. intros k Hk. cbv zeta.
  assert (E : store D pD (slice K2 pK n) (pD + k) = U (pU + k)).
  { rewrite store_in by (rewrite len_slice by lia; lia). rewrite nth_slice by lia. rewrite HK2 by lia.
    rewrite store_in by (rewrite len_slice by lia; lia). rewrite nth_slice by lia. f_equal. lia. }
  destruct (32 <? n); cbn [andb]; [|exact E]. unfold flip_low. replace (pD + k =? pD) with (k =? 0) by lia.
  destruct (k =? 0); now rewrite E.
Qed.

Lemma bad_passes limit cap : passes looks_same limit cap bad_codec.
Proof.
  intros U pU n K pK HU HK Hn. eexists n, _. split; [reflexivity|]. split; [lia|].
  split; [apply store_byte; [exact HK|apply Forall_slice; intros x; apply HU]|].
  intros K2 D pD HK2 E HD. destruct (bad_result U pU n K pK K2 D pD HU ltac:(lia) E) as (D2 & E2 & HD2).
  exists D2. split; [exact E2|]. split; [exact (proj2 bad_writes_bytes _ _ _ _ _ _ _ _ HK2 HD E2)|].
  assert (Hv : 32 < n -> 32 <= vec_end n) by (intros L; unfold vec_end; replace (n <=? 32) with false by lia; lia).
  pose proof (vec_end_range n ltac:(lia)) as Hr. split; intros k Hk; rewrite HD2 by lia.
  - destruct ((32 <? n) && (k =? 0)); [|reflexivity]. symmetry. apply flip_byte. apply HU.
  - destruct (32 <? n) eqn:En; cbn [andb]; [|reflexivity]. replace (k =? 0) with false by lia. reflexivity.
Qed.

(** The size of a test is at least that of each of its sections. *)
Lemma laid_size M w b ls : 1 <= w -> Forall (fun l => 1 <= l) ls -> forall p t n, laid M p w b t ls n ->
  0 <= n /\ forall l, List.In l ls -> l <= n.
Proof.
  intros Hw H. induction H as [|l ls Hl _ IH]; intros p t n HL; cbn [laid] in HL; [split; [lia|intros l []]|].
  destruct HL as [_ HL]. apply IH in HL. destruct HL as [H1 H2].
  assert (Hs : l <= (if (t =? 1) && b then l * w else l)) by (destruct ((t =? 1) && b); [clear - Hw Hl; nia|lia]).
  split; [lia|]. intros x [<-|Hx]; [lia|]. specialize (H2 x Hx). lia.
Qed.

Definition fuzz_cap (c : Z) : Z := c * 1048960 + 297.

Lemma fuzz_unfold R cs g c it U pU K pK D pD : 1 <= c ->
  fuzz R cs g c it U pU K pK D pD =
  (let '(f, g1) := fuzz_create g c it in
   match loop (fuzz_step R cs pU pK pD (fuzz_cap c)) (mkFz f g1 U (K, D)) with Some r => r | None => None end).
Proof.
  intros Hc. unfold fuzz. destruct (create_is g c it) as (sym & g1 & E). rewrite E.
  replace (fuzz_buffer_size _) with (fuzz_cap c); [reflexivity|].
  unfold fuzz_buffer_size, fuzz_cap, buffer_capacity, limit_max, max_symbol_length. cbn [f_subs]. rewrite len_sects, len_zeros by lia. lia.
Qed.

Lemma fuzz_refuted R g U pU K pK D pD : (forall k, byte_mem (R k)) -> byte_mem U -> byte_mem K -> byte_mem D ->
  fuzz R [bad_codec] g 6 true U pU K pK D pD = Some FzTrue /\
  forall t, planned 6 t -> (exists l, List.In l (t_lengths t) /\ 32 < l) ->
    exists k z n g' U' D2,
      after (fuzz_step R [bad_codec] pU pK pD (fuzz_cap 6)) (first_state g 6 true U K D) k z /\ test_of (z_f z) = t /\
      fill_buffer R (z_f z) pU (z_g z) (z_U z) = Some (n, g', U') /\
      tested bad_codec U' pU n (fuzz_cap 6) pK pD (fst (z_KD z)) (snd (z_KD z)) D2 /\ 1 <= n /\ D2 pD <> U' pU.
Proof.
  intros HR HU HK HD.
  assert (Hrun : fuzz R [bad_codec] g 6 true U pU K pK D pD = Some FzTrue).
  { apply no_alarm; try assumption; [lia|]. constructor; [|constructor]. apply bad_passes. }
  split; [exact Hrun|]. rewrite fuzz_unfold in Hrun by lia. intros t Ht (l & Hl & Hl32).
  destruct (run_passed R [bad_codec] pU pK pD (fuzz_cap 6) HR (Forall_cons _ bad_writes_bytes (Forall_nil _)) g 6 U K D ltac:(lia) HU HK HD Hrun t Ht)
    as (k & z & n & g' & U' & Hz & Et & Ef & HL & HP).
  destruct (HP [] bad_codec [] eq_refl) as (K1 & D1 & D2 & Ec & Htest & _). cbn [fuzz_codecs] in Ec.
  assert (EKD : z_KD z = (K1, D1)) by congruence. exists k, z, n, g', U', D2. rewrite EKD. cbn [fst snd].
  split; [exact Hz|]. split; [exact Et|]. split; [exact Ef|]. split; [exact Htest|].
  destruct (state_inv R [bad_codec] pU pK pD (fuzz_cap 6) HR g 6 true U K D k z ltac:(lia) HU Hz) as [HG HUz].
  destruct (fill_ok R 6 true (z_f z) pU (z_g z) (z_U z) HR HG) as (n' & g1' & M' & Ef' & Hn & [_ HW] & _).
  rewrite Ef' in Ef. injection Ef as -> -> ->. specialize (HW HUz). split; [lia|].
  destruct Ht as (Hw & _ & _ & _ & Hls).
  destruct (laid_size U' (t_symbol t) (t_bound t) (t_lengths t) ltac:(lia)
    ltac:(eapply Forall_impl; [|exact Hls]; intros x Hx; apply tested_range in Hx; lia) pU (t_start t) n HL) as [_ Hsz].
  specialize (Hsz l Hl). destruct Htest as (size & K2 & E1 & Hs & E2). cbn [fst bad_codec] in E1. injection E1 as Esz EK2. subst size.
  destruct (bad_result U' pU n K1 pK (fun x => if (pK + n <=? x) && (x <? pK + Z.min (fuzz_cap 6) (n + 64)) then 255 - K2 x else K2 x)
    (store D1 pD (repeat 0 (Z.to_nat n))) pD HW ltac:(lia)) as (D3 & E3 & HD3).
  { intros x Hx. replace (pK + n <=? x) with false by lia. cbn [andb]. rewrite <- EK2. reflexivity. }
  rewrite E3 in E2. injection E2 as <-. specialize (HD3 0 ltac:(lia)). rewrite !Z.add_0_r in HD3. rewrite HD3.
  replace (32 <? n) with true by lia. change (0 =? 0) with true. cbn [andb]. apply flip_byte. apply HW.
Qed.

Lemma fuzz_passed R cs g c U pU K pK D pD : (forall k, byte_mem (R k)) -> Forall writes_bytes cs -> 1 <= c <= 2 ^ 40 ->
  byte_mem U -> byte_mem K -> byte_mem D -> fuzz R cs g c true U pU K pK D pD = Some FzTrue ->
  forall t, planned c t -> exists k z n g' U',
    after (fuzz_step R cs pU pK pD (fuzz_cap c)) (first_state g c true U K D) k z /\ test_of (z_f z) = t /\
    fill_buffer R (z_f z) pU (z_g z) (z_U z) = Some (n, g', U') /\
    laid U' pU (t_symbol t) (t_bound t) (t_start t) (t_lengths t) n /\
    forall pre x post, cs = pre ++ x :: post -> exists K1 D1 D2,
      fuzz_codecs pre U' pU n (fuzz_cap c) pK pD (z_KD z) = Some (Some (K1, D1)) /\
      tested x U' pU n (fuzz_cap c) pK pD K1 D1 D2 /\ looks_same U' pU D2 pD n.
Proof.
  intros HR Hcs Hc HU HK HD Hrun. rewrite fuzz_unfold in Hrun by lia. now apply run_passed.
Qed.

Lemma fuzz_all_tests R cs g c U pU K pK D pD : (forall k, byte_mem (R k)) -> 1 <= c -> byte_mem U ->
  fuzz R cs g c true U pU K pK D pD = Some FzTrue -> forall t, planned c t ->
  exists! k, exists z, after (fuzz_step R cs pU pK pD (fuzz_cap c)) (first_state g c true U K D) k z /\ test_of (z_f z) = t.
Proof. intros HR Hc HU Hrun. rewrite fuzz_unfold in Hrun by lia. now apply all_tests. Qed.

Lemma passes_weaken (P Q : mem -> Z -> mem -> Z -> Z -> Prop) limit cap c : (forall A a B b n, 1 <= n -> P A a B b n -> Q A a B b n) -> passes P limit cap c -> passes Q limit cap c.
Proof.
  intros HPQ H U pU n K pK HU HK Hn. destruct (H U pU n K pK HU HK Hn) as (size & K1 & E1 & Hs & HK1 & Hd).
  exists size, K1. split; [exact E1|]. split; [exact Hs|]. split; [exact HK1|]. intros K2 D pD HK2 E HD.
  destruct (Hd K2 D pD HK2 E HD) as (D2 & E2 & HD2 & HP). exists D2. split; [exact E2|]. split; [exact HD2|]. apply HPQ; [lia|exact HP].
Qed.

Lemma fuzz_no_alarm R cs pU pK pD c : (forall k, byte_mem (R k)) -> 1 <= c <= 6 ->
  Forall (passes (fun A a B b n => same_range A a B b 0 n) (c * 1048960) (fuzz_cap c)) cs ->
  forall g U K D, byte_mem U -> byte_mem K -> byte_mem D -> fuzz R cs g c true U pU K pK D pD = Some FzTrue.
Proof.
  intros HR Hc Hcs g U K D HU HK HD. apply no_alarm; try assumption.
  eapply Forall_impl; [|exact Hcs]. intros x Hx. eapply passes_weaken; [|exact Hx]. intros A a B b n Hn. apply same_looks. lia.
Qed.

Lemma random_goes_on R cs pU pK pD cap : (forall k, byte_mem (R k)) -> forall g c U K D k z, 2 <= c -> byte_mem U ->
  after (fuzz_step R cs pU pK pD cap) (first_state g c false U K D) k z -> fuzz_step R cs pU pK pD cap z <> inr (Some FzTrue).
Proof.
  intros HR g c U K D k z Hc HU Hz E. destruct (state_inv R cs pU pK pD cap HR g c false U K D k z Hc HU Hz) as [HG _].
  destruct (step_true _ _ _ _ _ _ _ E) as (n & g1 & U1 & KD1 & f2 & g2 & _ & _ & Ea).
  destruct (advance_random R g1 c (z_f z) Hc HG) as (f' & g' & Ea' & _). rewrite Ea' in Ea. discriminate.
Qed.

Lemma equals_refuted : exists A B, byte_mem A /\ byte_mem B /\ memory_equals A 0 B 0 33 = Some true /\ A 0 <> B 0.
Proof.
  exists (fun _ => 0), (fun x => if x =? 0 then 1 else 0). split; [intros x; unfold is_byte; lia|].
  split; [intros x; unfold is_byte; destruct (x =? 0); lia|]. split; [vm_compute; reflexivity|discriminate].
Qed.

Definition copy_codec : cfun * decompressor :=
  ((fun I n K pK _ => DRet n (store K pK (slice I 0 n))), (fun K pK k D pD n => DRet n (store D pD (slice K pK k)))).
Lemma copy_passes limit cap : passes (fun A a B b n => same_range A a B b 0 n) limit cap copy_codec.
Proof.
  intros U pU n K pK HU HK Hn. eexists n, _. split; [reflexivity|]. split; [lia|].
  split; [apply store_byte; [exact HK|apply Forall_slice; intros x; apply HU]|].
  intros K2 D pD HK2 E HD. eexists. split; [reflexivity|]. split; [apply store_byte; [exact HD|now apply Forall_slice]|].
  intros k Hk. rewrite store_in by (rewrite len_slice by lia; lia). rewrite nth_slice by lia. rewrite E by lia.
  rewrite store_in by (rewrite len_slice by lia; lia). rewrite nth_slice by lia. f_equal. lia.
Qed.
