(** The move-to-front transformations: theorems. *)
From Verif Require Import Base Simd SimdProof MtfModel MtfSpec MtfProof BitMtf.

(** Decoding computes the inverse relation. *)
Definition Inv (P : mem -> Z -> mem -> Prop) (X : mem) (n : Z) (Y : mem) : Prop := P Y n X.

(** What determines the plain data, the coded data. *)
Definition Functional (P : mem -> Z -> mem -> Prop) : Prop :=
  forall n X X' Y Y', (forall i, 0 <= i < n -> X i = X' i) -> P X n Y -> P X' n Y' ->
    (forall i, 0 <= i < n -> is_byte (X i)) -> (forall i, 0 <= i < n -> is_byte (X' i)) ->
    (forall i, 0 <= i < n -> is_byte (Y i)) -> (forall i, 0 <= i < n -> is_byte (Y' i)) ->
    forall i, 0 <= i < n -> Y i = Y' i.

Lemma fwd_trivial p n : forward_ok p n p.
Proof. left. lia. Qed.

Lemma undone f g P : Computes f P -> Computes g (Inv P) -> Functional (Inv P) -> UndoneBy f g.
Proof.
  intros Hf Hg HP M pin n pmid sizeMid M1 HA E1 N pin' pout outSize HN HA'.
  destruct (Hf _ _ _ _ _ HA) as (M1' & E1' & P1 & B1 & _). rewrite E1 in E1'. assert (M1' = M1) by congruence. subst M1'. clear E1'.
  destruct (Hg _ _ _ _ _ HA') as (M2 & E2 & P2 & B2 & S2). exists M2. split; [exact E2|]. split; [|exact S2].
  intros i Hi. refine (HP n (at_ N pin') (at_ M1 pmid) (at_ M2 pout) (at_ M pin) _ P2 P1 _ _ _ _ i Hi); unfold at_.
  - intros k Hk. now apply HN.
  - apply HA'.
  - exact B1.
  - exact B2.
  - apply HA.
Qed.
Lemma same f g P : Computes f P -> Computes g P -> Functional P -> Same f g.
Proof.
  intros Hf Hg HP M pin n pout outSize HA. destruct (Hf _ _ _ _ _ HA) as (M1 & E1 & P1 & B1 & S1). destruct (Hg _ _ _ _ _ HA) as (M2 & E2 & P2 & B2 & S2).
  exists M1, M2. split; [exact E1|]. split; [exact E2|]. intros x. destruct (Z_lt_ge_dec x pout) as [H|H]; [rewrite S1, S2 by lia; reflexivity|].
  destruct (Z_lt_ge_dec x (pout + n)) as [H'|H']; [|rewrite S1, S2 by lia; reflexivity]. replace x with (pout + (x - pout)) by lia.
  refine (HP n (at_ M pin) (at_ M pin) (at_ M1 pout) (at_ M2 pout) _ P1 P2 _ _ B1 B2 _ _); try apply HA; try lia.
Qed.
Lemma in_place f g P : Computes f P -> UndoneBy f g -> InPlace f g.
Proof.
  intros Hf Hu M p n size HA. destruct (Hf _ _ _ _ _ HA) as (M1 & E1 & P1 & B1 & S1).
  assert (HA1 : XArgs M1 p n p size) by (destruct HA as (A1 & A2 & A3 & A4 & A5 & A6 & A7); repeat (split; [assumption|]); exact B1).
  destruct (Hu M p n p size M1 HA E1 M1 p p size ltac:(reflexivity) HA1) as (M2 & E2 & R2 & S2). exists M1, M2. split; [exact E1|]. split; [exact E2|].
  intros x. destruct (Z_lt_ge_dec x p) as [H|H]; [rewrite S2, S1 by lia; reflexivity|].
  destruct (Z_lt_ge_dec x (p + n)) as [H'|H']; [|rewrite S2, S1 by lia; reflexivity]. replace x with (p + (x - p)) by lia. apply R2. lia.
Qed.

(** *** mmtf *)
Lemma lane_fun W : 0 < W -> Functional (LaneMtf W).
Proof.
  intros HW n X X' Y Y' HX H1 H2 _ _ _ _ i Hi. rewrite (H1 i Hi), (H2 i Hi). apply (cod_ext W X X' i HW); [lia|]. intros k Hk. apply HX. lia.
Qed.
Lemma lane_inj W : 0 < W -> Functional (Inv (LaneMtf W)).
Proof.
  intros HW n X X' Y Y' HX H1 H2 _ _ B3 B4 i Hi. apply (cod_inj W Y Y' n HW B3 B4); [|exact Hi]. intros k Hk. unfold cod. rewrite <- (H1 k Hk), <- (H2 k Hk). now apply HX.
Qed.

Lemma mtf_comp dec W (al : Z -> Z -> bool) : 0 < W -> (forall pin pout, al pin pout = true -> pin mod W = 0 /\ pout mod W = 0) ->
  Computes (fun M pin n pout outSize => mtf_run dec W (al pin pout) M pin n pout) (if dec then Inv (LaneMtf W) else LaneMtf W).
Proof.
  intros HW Hal M pin n pout outSize (A1 & A2 & A3 & A4 & A5 & A6 & A7).
  destruct (mtf_run_ok dec W M pin n pout HW A6 A7 (al pin pout) ltac:(lia) (Hal pin pout)) as (M' & X & E & D1 & D2 & D3).
  exists M'. split; [exact E|]. split; [|split; [|exact D3]].
  - unfold src, dst in D2. destruct dec.
    + intros i Hi. unfold at_. destruct (D2 i Hi) as [-> _]. unfold at_. change (cod W X i = cod W (at_ M' pout) i). apply cod_ext; [exact HW|lia|].
      intros k Hk. unfold at_. symmetry. apply D2. lia.
    + intros i Hi. unfold at_. destruct (D2 i Hi) as [_ ->]. change (cod W X i = cod W (at_ M pin) i). apply cod_ext; [exact HW|lia|].
      intros k Hk. unfold at_. symmetry. apply D2. lia.
  - intros i Hi. destruct (D2 i Hi) as [_ ->]. unfold dst. destruct dec; [now apply D1|].
    pose proof (Z.mod_pos_bound i W HW). pose proof (Z.div_mod i W ltac:(lia)) as Hd. assert (0 <= i / W) by (apply Z.div_pos; lia).
    rewrite Hd, cod_at by lia. apply rank_in; [apply tab_ok; intros m Hm; apply D1; nia|]. rewrite <- Hd. now apply D1.
Qed.

Lemma comp_guard f g P : (forall M pin n pout outSize, n <= outSize -> f M pin n pout outSize = g M pin n pout outSize) -> Computes g P -> Computes f P.
Proof. intros H Hg M pin n pout outSize HA. rewrite H by apply HA. now apply Hg. Qed.

Lemma mod32_16 x : x mod 32 = 0 -> x mod 16 = 0.
Proof. intros H. rewrite (Z.div_mod x 32) by lia. rewrite H. replace (32 * (x / 32) + 0) with (2 * (x / 32) * 16) by lia. apply Z.mod_mul. lia. Qed.

Lemma mmtf128_comp dec c : m_sse2 c = true -> Computes (mmtf128 dec c) (if dec then Inv (LaneMtf 16) else LaneMtf 16).
Proof.
  intros Hc. eapply comp_guard; [|apply (mtf_comp dec 16 (fun pin pout => (pin mod 16 =? 0) && (pout mod 32 =? 0) && m_sse41 c)); [lia|]].
  - intros M pin n pout outSize H. unfold mmtf128. replace (outSize <? n) with false by lia. rewrite Hc. reflexivity.
  - intros pin pout H. apply andb_prop in H as [H _]. apply andb_prop in H as [H1 H2]. split; [lia|]. apply mod32_16. lia.
Qed.
Lemma mmtf256_comp dec c : m_sse2 c = true -> Computes (mmtf256 dec c) (if dec then Inv (LaneMtf 32) else LaneMtf 32).
Proof.
  intros Hc. eapply comp_guard; [|apply (mtf_comp dec 32 (fun pin pout => m_avx2 c && ((pin mod 32 =? 0) && (pout mod 32 =? 0)))); [lia|]].
  - intros M pin n pout outSize H. unfold mmtf256. replace (outSize <? n) with false by lia. rewrite Hc. cbn [negb]. destruct (m_avx2 c); reflexivity.
  - intros pin pout H. apply andb_prop in H as [_ H]. apply andb_prop in H as [H1 H2]. lia.
Qed.

(** mmtf128 and mmtf256, encoding or decoding. *)
Definition mmtf (wide dec : bool) (c : mcpu) : xform := if wide then mmtf256 dec c else mmtf128 dec c.
Definition mmtf_lanes (wide : bool) : Z := if wide then 32 else 16.

Lemma mmtf_enc_spec wide c : m_sse2 c = true -> Computes (mmtf wide false c) (LaneMtf (mmtf_lanes wide)).
Proof. intros Hc. destruct wide; [exact (mmtf256_comp false c Hc)|exact (mmtf128_comp false c Hc)]. Qed.
Lemma mmtf_dec_spec wide c : m_sse2 c = true -> Computes (mmtf wide true c) (Inv (LaneMtf (mmtf_lanes wide))).
Proof. intros Hc. destruct wide; [exact (mmtf256_comp true c Hc)|exact (mmtf128_comp true c Hc)]. Qed.
Lemma lanes_pos wide : 0 < mmtf_lanes wide.
Proof. destruct wide; cbn; lia. Qed.

Lemma mmtf_round_trip wide c c' : m_sse2 c = true -> m_sse2 c' = true -> UndoneBy (mmtf wide false c) (mmtf wide true c').
Proof. intros H H'. exact (undone _ _ _ (mmtf_enc_spec wide c H) (mmtf_dec_spec wide c' H') (lane_inj _ (lanes_pos wide))). Qed.
Lemma mmtf_converse wide c c' : m_sse2 c = true -> m_sse2 c' = true -> UndoneBy (mmtf wide true c) (mmtf wide false c').
Proof. intros H H'. exact (undone _ _ _ (mmtf_dec_spec wide c H) (mmtf_enc_spec wide c' H') (lane_fun _ (lanes_pos wide))). Qed.
Lemma mmtf_same wide dec c c' : m_sse2 c = true -> m_sse2 c' = true -> Same (mmtf wide dec c) (mmtf wide dec c').
Proof.
  intros H H'. destruct dec.
  - exact (same _ _ _ (mmtf_dec_spec wide c H) (mmtf_dec_spec wide c' H') (lane_inj _ (lanes_pos wide))).
  - exact (same _ _ _ (mmtf_enc_spec wide c H) (mmtf_enc_spec wide c' H') (lane_fun _ (lanes_pos wide))).
Qed.
Lemma mmtf_in_place wide c : m_sse2 c = true -> InPlace (mmtf wide false c) (mmtf wide true c).
Proof. intros H. exact (in_place _ _ _ (mmtf_enc_spec wide c H) (mmtf_round_trip wide c c H H)). Qed.
Lemma mmtf_small wide dec c : SmallRefused (mmtf wide dec c).
Proof. intros M pin n pout outSize H. unfold mmtf. destruct wide; [unfold mmtf256|unfold mmtf128]; replace (outSize <? n) with true by lia; reflexivity. Qed.

(** *** bitmmtf *)
Lemma xor_fun D : 0 < D -> Functional (XorDiff D).
Proof. intros HD n X X' Y Y' HX H1 H2 _ _ _ _ i Hi. rewrite (H1 i Hi), (H2 i Hi), HX by exact Hi. destruct (i <? D) eqn:E; [reflexivity|]. rewrite HX by lia. reflexivity. Qed.
Lemma xor_inj D : 0 < D -> Functional (Inv (XorDiff D)).
Proof.
  intros HD n X X' Y Y' HX H1 H2 _ _ _ _. assert (K : forall k i, (0 <= i < Z.of_nat k) -> i < n -> Y i = Y' i).
  { induction k as [|k IH]; [lia|]. intros i Hi Hn. destruct (Z_lt_ge_dec i (Z.of_nat k)) as [Hlt|Hge]; [apply IH; lia|].
    pose proof (HX i ltac:(lia)) as E. rewrite (H1 i ltac:(lia)), (H2 i ltac:(lia)) in E.
    assert (E' : (if i <? D then 0 else Y (i - D)) = (if i <? D then 0 else Y' (i - D))) by (destruct (i <? D) eqn:Ed; [reflexivity|apply IH; lia]).
    rewrite E' in E. set (w := if i <? D then 0 else Y' (i - D)) in E. apply (f_equal (fun v => Z.lxor v w)) in E. rewrite !Z.lxor_assoc, Z.lxor_nilpotent, !Z.lxor_0_r in E. exact E. }
  intros i Hi. apply (K (S (Z.to_nat i))); lia.
Qed.
Lemma xor16_fun : Functional XorDiff16.
Proof.
  intros n X X' Y Y' HX [H1 H1'] [H2 H2'] B1 B2 B3 B4 i Hi. pose proof (Z.mod_pos_bound n 2 ltac:(lia)). destruct (Z_lt_ge_dec i (n - n mod 2)) as [Hlt|Hge].
  - refine (xor_fun 2 ltac:(lia) (n - n mod 2) X X' Y Y' _ H1 H2 _ _ _ _ i ltac:(lia)); intros k Hk; auto with zarith.
  - replace i with (n - 1) by lia. rewrite H1', H2' by lia. apply HX. lia.
Qed.
Lemma xor16_inj : Functional (Inv XorDiff16).
Proof.
  intros n X X' Y Y' HX [H1 H1'] [H2 H2'] B1 B2 B3 B4 i Hi. pose proof (Z.mod_pos_bound n 2 ltac:(lia)). destruct (Z_lt_ge_dec i (n - n mod 2)) as [Hlt|Hge].
  - refine (xor_inj 2 ltac:(lia) (n - n mod 2) X X' Y Y' _ H1 H2 _ _ _ _ i ltac:(lia)); intros k Hk; auto with zarith.
  - replace i with (n - 1) by lia. rewrite <- H1', <- H2' by lia. apply HX. lia.
Qed.

Definition bitmmtf (wide dec : bool) : xform :=
  if wide then (if dec then bitmmtf16_decode else bitmmtf16_encode) else (if dec then bitmmtf8_decode else bitmmtf8_encode).
Definition bitmmtf_rel (wide : bool) : mem -> Z -> mem -> Prop := if wide then XorDiff16 else XorDiff 1.

Lemma bitmmtf_enc_spec wide : Computes (bitmmtf wide false) (bitmmtf_rel wide).
Proof.
  intros M pin n pout outSize (A1 & A2 & A3 & A4 & A5 & A6 & A7). destruct wide.
  - destruct (bit16_ok M pin n pout A6 A7 ltac:(lia) false (benc_vec mask16) (fun _ => 0) e16 outSize) as (M' & E & D1 & D2 & D3 & D4); try lia.
    + intros a b st p q. apply benc16.
    + intros j Hj. now rewrite Z.land_0_r.
    + exists M'. split; [exact E|]. split; [split; [exact D1|exact D2]|]. split; [exact D3|exact D4].
  - destruct (bit8_ok M pin n pout A6 A7 ltac:(lia) false (benc_vec mask8) (fun _ => 0) e8 outSize) as (M' & E & D1 & D2 & D3); try lia.
    + intros a st p. apply benc8.
    + intros j Hj. now rewrite Z.land_0_r.
    + exists M'. split; [exact E|]. split; [exact D1|]. split; [exact D2|exact D3].
Qed.
Lemma bitmmtf_dec_spec wide : Computes (bitmmtf wide true) (Inv (bitmmtf_rel wide)).
Proof.
  intros M pin n pout outSize (A1 & A2 & A3 & A4 & A5 & A6 & A7). destruct wide.
  - destruct (bit16_ok M pin n pout A6 A7 ltac:(lia) true (bdec_vec mask16) (fun _ => false) d16 outSize) as (M' & E & D1 & D2 & D3 & D4); try lia.
    + intros a b st p q. apply bdec16.
    + intros j Hj. now rewrite Z.testbit_0_l.
    + exists M'. split; [exact E|]. split; [split; [exact D1|intros H; symmetry; exact (D2 H)]|]. split; [exact D3|exact D4].
  - destruct (bit8_ok M pin n pout A6 A7 ltac:(lia) true (bdec_vec mask8) (fun _ => false) d8 outSize) as (M' & E & D1 & D2 & D3); try lia.
    + intros a st p. apply bdec8.
    + intros j Hj. now rewrite Z.testbit_0_l.
    + exists M'. split; [exact E|]. split; [exact D1|]. split; [exact D2|exact D3].
Qed.
Lemma bit_rel_fun wide : Functional (bitmmtf_rel wide).
Proof. destruct wide; [exact xor16_fun|apply xor_fun; lia]. Qed.
Lemma bit_rel_inj wide : Functional (Inv (bitmmtf_rel wide)).
Proof. destruct wide; [exact xor16_inj|apply xor_inj; lia]. Qed.
Lemma bitmmtf_round_trip wide : UndoneBy (bitmmtf wide false) (bitmmtf wide true).
Proof. exact (undone _ _ _ (bitmmtf_enc_spec wide) (bitmmtf_dec_spec wide) (bit_rel_inj wide)). Qed.
Lemma bitmmtf_converse wide : UndoneBy (bitmmtf wide true) (bitmmtf wide false).
Proof. exact (undone _ _ _ (bitmmtf_dec_spec wide) (bitmmtf_enc_spec wide) (bit_rel_fun wide)). Qed.
Lemma bitmmtf_in_place wide : InPlace (bitmmtf wide false) (bitmmtf wide true).
Proof. exact (in_place _ _ _ (bitmmtf_enc_spec wide) (bitmmtf_round_trip wide)). Qed.
Lemma bitmmtf_small wide dec : SmallRefused (bitmmtf wide dec).
Proof.
  intros M pin n pout outSize H. destruct wide, dec; unfold bitmmtf, bitmmtf16_decode, bitmmtf16_encode, bitmmtf8_decode, bitmmtf8_encode, bit16_run, bit8_run;
    replace (outSize <? n) with true by lia; now rewrite orb_true_r.
Qed.
Lemma bitmmtf_null wide dec : NullRefused (bitmmtf wide dec).
Proof.
  intros M pin n pout outSize H. destruct wide, dec; unfold bitmmtf, bitmmtf16_decode, bitmmtf16_encode, bitmmtf8_decode, bitmmtf8_encode, bit16_run, bit8_run;
    replace ((pin =? 0) || (pout =? 0)) with true by lia; reflexivity.
Qed.
