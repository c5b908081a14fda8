(** rle8_sh: the stream as a list of blocks, and what the decoder makes of it. *)
From Verif Require Import Base Simd SimdProof Spec MtfModel MtfSpec MzModel MzPack HsModel.

(** *** Bits and bytes written by a list of operations *)
Definition bits_of (v count : Z) : list bool := map (Z.testbit v) (lanes count).
Definition obit (o : op) : list bool := match o with Bits v c => bits_of v c | Put _ => [] end.
Definition obyte (o : op) : list Z := match o with Bits _ _ => [] | Put l => l end.
Definition obits (l : list op) : list bool := flat_map obit l.
Definition obytes (l : list op) : list Z := flat_map obyte l.
Lemma obits_app a b : obits (a ++ b) = obits a ++ obits b.
Proof. apply flat_map_app. Qed.
Lemma obytes_app a b : obytes (a ++ b) = obytes a ++ obytes b.
Proof. apply flat_map_app. Qed.

(** *** Blocks *)
Inductive tok := KSym (s : Z) | KRunS (c : Z) | KCopyS (l : list Z) | KCopyL (l : list Z) | KRunL (c s : Z) | KEnc (l : list Z).

Definition symop (enc : bool) (g : syms) (s : Z) : list op := fst (sh_symbol enc ([], g) s).
Definition snx (g : syms) (s : Z) : syms := snd (sh_symbol false ([], g) s).
Lemma sh_symbol_eq enc ops g s : sh_symbol enc (ops, g) s = (ops ++ symop enc g s, snx g s).
Proof.
  unfold symop, snx, sh_symbol. destruct (s =? s_rle g); [reflexivity|]. destruct (s =? s_sec g); [reflexivity|].
  destruct (s =? s_thr g); reflexivity.
Qed.
Fixpoint eops (enc : bool) (g : syms) (l : list Z) : list op :=
  match l with [] => [] | s :: l => symop enc g s ++ eops enc (snx g s) l end.
Fixpoint enx (g : syms) (l : list Z) : syms := match l with [] => g | s :: l => enx (snx g s) l end.

Definition tops (g : syms) (t : tok) : list op :=
  match t with
  | KSym s => symop false g s
  | KRunS c => [Bits 15 5; Put [c - 14]]
  | KCopyS l => [Bits 31 7; Put [len l - 7]; Put l]
  | KCopyL l => [Bits 63 7; Put (le32 (len l - 7)); Put l]
  | KRunL c s => change_ops c s
  | KEnc l => Bits 127 7 :: Put [len l - 161] :: eops true g l
  end.
Definition tout (g : syms) (t : tok) : list Z :=
  match t with
  | KSym s => [s] | KRunS c => repeat (s_rle g) (Z.to_nat c) | KCopyS l | KCopyL l | KEnc l => l
  | KRunL c s => repeat s (Z.to_nat c)
  end.
Definition tnx (g : syms) (t : tok) : syms :=
  match t with
  | KSym s => snx g s | KRunS _ | KCopyS _ | KCopyL _ => g
  | KRunL _ s => mkS s (s_occ g) (s_sec g) (s_thr g) | KEnc l => enx g l
  end.
Definition tok_ok (t : tok) : Prop :=
  match t with
  | KSym s => is_byte s
  | KRunS c => 14 <= c <= 269
  | KCopyS l => 7 <= len l <= 262 /\ Forall is_byte l
  | KCopyL l => 262 < len l < 2 ^ 32 /\ Forall is_byte l
  | KRunL c s => 10 <= c < 2 ^ 32 /\ is_byte s
  | KEnc l => 161 < len l <= 416 /\ Forall is_byte l
  end.

Fixpoint sops (g : syms) (l : list tok) : list op := match l with [] => [] | t :: l => tops g t ++ sops (tnx g t) l end.
Fixpoint sout (g : syms) (l : list tok) : list Z := match l with [] => [] | t :: l => tout g t ++ sout (tnx g t) l end.
Fixpoint snxs (g : syms) (l : list tok) : syms := match l with [] => g | t :: l => snxs (tnx g t) l end.
Lemma sops_app a : forall g b, sops g (a ++ b) = sops g a ++ sops (snxs g a) b.
Proof. induction a as [|t a IH]; intros g b; cbn; [reflexivity|]. now rewrite IH, app_assoc. Qed.
Lemma sout_app a : forall g b, sout g (a ++ b) = sout g a ++ sout (snxs g a) b.
Proof. induction a as [|t a IH]; intros g b; cbn; [reflexivity|]. now rewrite IH, app_assoc. Qed.
Lemma snxs_app a : forall g b, snxs g (a ++ b) = snxs (snxs g a) b.
Proof. induction a as [|t a IH]; intros g b; cbn; [reflexivity|]. now rewrite IH. Qed.
Lemma len_repeat (x : Z) c : 0 <= c -> len (repeat x (Z.to_nat c)) = c.
Proof. intros. unfold len. rewrite repeat_length. lia. Qed.
Lemma tout_pos g t : tok_ok t -> 1 <= len (tout g t).
Proof.
  destruct t; cbn [tok_ok tout]; intros H; rewrite ?len_repeat by lia; try lia. cbn. lia.
Qed.
Lemma toks_le g l : Forall tok_ok l -> len l <= len (sout g l).
Proof.
  intros H. revert g. induction H as [|t l Ht H IH]; intros g; cbn [sout]; [reflexivity|].
  rewrite len_cons, len_app. specialize (IH (tnx g t)). pose proof (tout_pos g t Ht). lia.
Qed.

(** *** The bit source *)
Fixpoint Bt (bt : Z -> bool) (pos : Z) (l : list bool) : Prop :=
  match l with [] => True | b :: l => bt pos = b /\ Bt bt (pos + 1) l end.
Lemma Bt_app bt l1 : forall pos l2, Bt bt pos (l1 ++ l2) <-> Bt bt pos l1 /\ Bt bt (pos + len l1) l2.
Proof.
  induction l1 as [|b l1 IH]; intros pos l2; cbn [app Bt].
  - rewrite len_nil, Z.add_0_r. tauto.
  - rewrite IH, len_cons. replace (pos + 1 + len l1) with (pos + (1 + len l1)) by lia. tauto.
Qed.
Lemma Bt_intro bt l : forall pos, (forall k, 0 <= k < len l -> bt (pos + k) = nth (Z.to_nat k) l false) -> Bt bt pos l.
Proof.
  induction l as [|b l IH]; intros pos H; cbn [Bt]; [exact I|]. rewrite len_cons in H. pose proof (len_nonneg l). split.
  - specialize (H 0 ltac:(lia)). now rewrite Z.add_0_r in H.
  - apply IH. intros k Hk. specialize (H (k + 1) ltac:(lia)). replace (pos + 1 + k) with (pos + (k + 1)) by lia.
    rewrite H. replace (Z.to_nat (k + 1)) with (S (Z.to_nat k)) by lia. reflexivity.
Qed.

Lemma testbit_small v b k : 0 <= v < 2 ^ b -> 0 <= b <= k -> Z.testbit v k = false.
Proof.
  intros H Hk. destruct (Z.eq_dec v 0) as [->|]; [apply Z.bits_0|]. apply Z.bits_above_log2; [lia|].
  apply Z.log2_lt_pow2; [lia|]. pose proof (Z.pow_le_mono_r 2 b k). lia.
Qed.

Section Dec.
  Variables (C : mem) (lo top : Z).
  Hypothesis HB : forall x, lo <= x <= top -> is_byte (C x).
  Definition bt (i : Z) : bool := Z.testbit (C (top - i / 8)) (i mod 8).

  Definition Sync (pos : Z) (h : rst) : Prop :=
    8 <= r_rem h <= 16 /\ (pos + r_rem h) mod 8 = 0 /\ r_hp h = top - (pos + r_rem h) / 8 /\ 0 <= r_value h < 2 ^ r_rem h /\
    forall k, 0 <= k < r_rem h -> Z.testbit (r_value h) k = bt (pos + k).

  Lemma sync0 : lo <= top -> Sync 0 (mkR (C top) 8 (top - 1)).
  Proof.
    intros Hl. pose proof (HB top ltac:(lia)) as Ht. unfold is_byte in Ht. unfold Sync. cbn [r_rem r_hp r_value].
    split; [lia|]. split; [reflexivity|]. split; [reflexivity|]. split; [exact Ht|].
    intros k Hk. unfold bt. rewrite !Z.add_0_l. replace (top - k / 8) with top by lia. f_equal. lia.
  Qed.

  Lemma consume_sync pos h b : 0 <= pos -> pos + 16 <= 8 * (top - lo + 1) -> 1 <= b <= 7 -> Sync pos h -> Sync (pos + b) (consume C h b).
  Proof.
    intros Hp0 Hp Hb (Hr & Hm & Hh & Hv & Hbt). unfold consume. destruct h as [v rem hp]. cbn [r_rem r_hp r_value] in *.
    assert (Hdiv : 0 <= v / 2 ^ b < 2 ^ (rem - b)).
    { pose proof (Z.pow_pos_nonneg 2 b ltac:(lia) ltac:(lia)). split; [apply Z.div_pos; lia|].
      apply Z.div_lt_upper_bound; [lia|]. rewrite <- Z.pow_add_r by lia. replace (b + (rem - b)) with rem by lia. lia. }
    assert (Htb : forall k, 0 <= k -> Z.testbit (v / 2 ^ b) k = Z.testbit v (k + b)).
    { intros k Hk. rewrite <- Z.shiftr_div_pow2 by lia. rewrite Z.shiftr_spec by lia. reflexivity. }
    destruct (rem - b <=? 8) eqn:E.
    - assert (Hc : is_byte (C hp)) by (apply HB; lia). unfold is_byte in Hc.
      assert (Hlor : forall k, 0 <= k -> Z.testbit (Z.lor (v / 2 ^ b) (C hp * 2 ^ (rem - b))) k = if k <? rem - b then bt (pos + b + k) else Z.testbit (C hp) (k - (rem - b))).
      { intros k Hk. rewrite Z.lor_spec, Htb, Z.mul_pow2_bits by lia. destruct (k <? rem - b) eqn:Ek.
        - rewrite (Z.testbit_neg_r _ (k - (rem - b))) by lia. rewrite orb_false_r, Hbt by lia. f_equal. lia.
        - rewrite (testbit_small v rem (k + b)) by lia. reflexivity. }
      assert (Hlt : 0 <= Z.lor (v / 2 ^ b) (C hp * 2 ^ (rem - b)) < 2 ^ (rem - b + 8)).
      { pose proof (Z.pow_pos_nonneg 2 (rem - b) ltac:(lia) ltac:(lia)).
        assert (E0 : 0 <= Z.lor (v / 2 ^ b) (C hp * 2 ^ (rem - b))) by (apply Z.lor_nonneg; split; [lia|apply Z.mul_nonneg_nonneg; lia]).
        split; [exact E0|]. destruct (Z.eq_dec (Z.lor (v / 2 ^ b) (C hp * 2 ^ (rem - b))) 0) as [->|Hne]; [apply Z.pow_pos_nonneg; lia|].
        apply Z.log2_lt_pow2; [lia|]. destruct (Z_lt_ge_dec (Z.log2 (Z.lor (v / 2 ^ b) (C hp * 2 ^ (rem - b)))) (rem - b + 8)) as [|Hge]; [assumption|].
        exfalso. pose proof (Z.bit_log2 (Z.lor (v / 2 ^ b) (C hp * 2 ^ (rem - b))) ltac:(lia)) as Hbit. rewrite Hlor in Hbit by lia.
        replace (_ <? rem - b) with false in Hbit by lia. rewrite (testbit_small _ 8) in Hbit by lia. discriminate. }
      rewrite Z.mod_small by (split; [lia|]; eapply Z.lt_le_trans; [apply Hlt|]; apply (Z.pow_le_mono_r 2 (rem - b + 8) 16); lia).
      unfold Sync. cbn [r_rem r_hp r_value]. split; [lia|]. split; [lia|]. split; [lia|]. split; [exact Hlt|].
      intros k Hk. rewrite Hlor by lia. destruct (k <? rem - b) eqn:Ek; [reflexivity|]. unfold bt. rewrite Hh.
      replace ((pos + b + k) mod 8) with (k - (rem - b)) by lia. f_equal. f_equal. lia.
    - unfold Sync. cbn [r_rem r_hp r_value]. split; [lia|]. split; [rewrite <- Hm; f_equal; lia|]. split; [rewrite Hh; f_equal; f_equal; lia|].
      split; [exact Hdiv|]. intros k Hk. rewrite Htb, Hbt by lia. f_equal. lia.
  Qed.

  Lemma bit_testbit h k : 0 <= k -> bit h k = Z.testbit (r_value h) k.
  Proof.
    intros Hk. unfold bit. destruct (Z.testbit (r_value h) k) eqn:E.
    - destruct (Z.land (r_value h) (2 ^ k) =? 0) eqn:E0; [|reflexivity]. exfalso. apply Z.eqb_eq in E0.
      assert (E1 := Z.land_spec (r_value h) (2 ^ k) k). rewrite E0, E, Z.bits_0, Z.pow2_bits_true in E1 by lia. discriminate.
    - replace (Z.land (r_value h) (2 ^ k)) with 0; [reflexivity|]. apply Z.bits_inj'. intros j Hj.
      rewrite Z.bits_0, Z.land_spec, Z.pow2_bits_eqb by lia. destruct (k =? j) eqn:Ej; [|now rewrite andb_false_r].
      apply Z.eqb_eq in Ej. subst j. now rewrite E.
  Qed.
  Lemma bit_sync pos h k : Sync pos h -> 0 <= k <= 7 -> bit h k = bt (pos + k).
  Proof. intros (Hr & _ & _ & _ & Hbt) Hk. rewrite bit_testbit by lia. apply Hbt. lia. Qed.
  Lemma two_bits v : Z.land (v / 2 ^ 5) 3 = Z.b2z (Z.testbit v 5) + 2 * Z.b2z (Z.testbit v 6).
  Proof.
    change 3 with (Z.ones 2). rewrite Z.land_ones by lia. rewrite !Z.testbit_spec' by lia.
    change (2 ^ 6) with (2 ^ 5 * 2). change (2 ^ 2) with 4. rewrite <- Z.div_div by lia. lia.
  Qed.

  Lemma dsym_ok enc p q M g h pos sym :
    is_byte sym -> 0 <= pos -> pos + 16 <= 8 * (top - lo + 1) -> Sync pos h ->
    Bt bt pos (obits (symop enc g sym)) -> holds C p (obytes (symop enc g sym)) ->
    exists h', dsymbol enc C (mkD p q M g h) = Some (mkD (p + len (obytes (symop enc g sym))) (q + 1) (put8 M q sym) (snx g sym) h') /\
      Sync (pos + len (obits (symop enc g sym))) h'.
  Proof.
    intros Hs Hp0 Hp HS HBt HP. unfold symop, snx, sh_symbol in *. unfold dsymbol. cbn [d_h d_g d_in d_out d_mem].
    rewrite !(bit_sync pos h) by (assumption || lia). rewrite Z.add_0_r.
    destruct (sym =? s_rle g) eqn:E1; [apply Z.eqb_eq in E1|].
    { cbn in HBt, HP. destruct HBt as (B0 & _). rewrite B0. cbn [negb]. eexists. split; [|apply (consume_sync pos h 1); auto; lia].
      cbn. rewrite Z.add_0_r. now subst sym. }
    destruct (sym =? s_sec g) eqn:E2; [apply Z.eqb_eq in E2|].
    { cbn in HBt, HP. destruct HBt as (B0 & B1 & B2 & _). rewrite B0. cbn [negb]. rewrite B1. cbn [negb].
      replace (pos + 2) with (pos + 1 + 1) by lia. rewrite B2. cbn [negb]. eexists. split; [|apply (consume_sync pos h 3); auto; lia].
      cbn. rewrite Z.add_0_r. now subst sym. }
    destruct (sym =? s_thr g) eqn:E3; [apply Z.eqb_eq in E3|].
    { cbn in HBt, HP. destruct enc; cbn in HBt, HP.
      - destruct HBt as (B0 & B1 & B2 & _). rewrite B0. cbn [negb]. rewrite B1. cbn [negb].
        replace (pos + 2) with (pos + 1 + 1) by lia. rewrite B2. cbn [negb]. eexists. split; [|apply (consume_sync pos h 3); auto; lia].
        cbn. rewrite Z.add_0_r. now subst sym.
      - destruct HBt as (B0 & B1 & B2 & B3 & _). rewrite B0. cbn [negb]. rewrite B1. cbn [negb].
        replace (pos + 2) with (pos + 1 + 1) by lia. rewrite B2. replace (pos + 3) with (pos + 1 + 1 + 1) by lia. rewrite B3. cbn [negb].
        eexists. split; [|apply (consume_sync pos h 4); auto; lia].
        cbn. rewrite Z.add_0_r. now subst sym. }
    cbn in HBt, HP. destruct HBt as (B0 & B1 & _). destruct HP as [HP _]. rewrite B0. cbn [negb]. rewrite B1. cbn [negb]. rewrite HP.
    eexists. split; [|apply (consume_sync pos h 2); auto; lia]. reflexivity.
  Qed.

  (** [M'] is [M] with [l] written to [q]. *)
  Definition Wrote (M M' : mem) (q : Z) (l : list Z) : Prop :=
    holds M' q l /\ forall x, x < q \/ q + len l <= x -> M' x = M x.
  Lemma wrote_nil M q : Wrote M M q [].
  Proof. split; [exact I|reflexivity]. Qed.
  Lemma wrote_app M1 M2 M3 q a b : Wrote M1 M2 q a -> Wrote M2 M3 (q + len a) b -> Wrote M1 M3 q (a ++ b).
  Proof.
    intros [H1 F1] [H2 F2]. split.
    - apply holds_app. split; [|exact H2]. apply holds_keep with (1 := H1). intros x Hx. apply F2. lia.
    - intros x Hx. rewrite len_app in Hx. pose proof (len_nonneg a). pose proof (len_nonneg b). rewrite F2, F1 by lia. reflexivity.
  Qed.
  Lemma wrote_store M q l : Wrote M (store M q l) q l.
  Proof. split; [apply holds_store|]. intros x Hx. now apply store_out. Qed.
  Lemma wrote_put8 M q v : Wrote M (put8 M q v) q [v].
  Proof. split; [split; [|exact I]|]; [rewrite put8_at, Z.eqb_refl; reflexivity|]. intros x Hx. cbn in Hx. rewrite put8_at. now replace (x =? q) with false by lia. Qed.
  Lemma nth_repeat_in (v : Z) n k : (k < n)%nat -> nth k (repeat v n) 0 = v.
  Proof. revert k. induction n as [|n IH]; intros [|k] H; cbn; try lia. apply IH. lia. Qed.
  Lemma wrote_fill M q v c : 0 <= c -> Wrote M (fill M q v c) q (repeat v (Z.to_nat c)).
  Proof.
    intros Hc. split.
    - apply holds_intro. intros k Hk. rewrite len_repeat in Hk by lia. unfold fill. replace ((q <=? q + k) && (q + k <? q + c)) with true by lia.
      rewrite nth_repeat_in by lia. reflexivity.
    - intros x Hx. rewrite len_repeat in Hx by lia. unfold fill. now replace ((q <=? x) && (x <? q + c)) with false by lia.
  Qed.

  Lemma dsyms_ok l : forall p q M g h pos k,
    Forall is_byte l -> 0 <= pos -> pos + len (obits (eops true g l)) + 16 <= 8 * (top - lo + 1) -> Sync pos h ->
    Bt bt pos (obits (eops true g l)) -> holds C p (obytes (eops true g l)) ->
    exists M' h', fold_left (fun os (_ : Z) => match os with Some s => dsymbol true C s | None => None end) (map Z.of_nat (seq k (length l)))
        (Some (mkD p q M g h)) = Some (mkD (p + len (obytes (eops true g l))) (q + len l) M' (enx g l) h') /\
      Sync (pos + len (obits (eops true g l))) h' /\ Wrote M M' q l.
  Proof.
    induction l as [|s l IH]; intros p q M g h pos k Hl Hp0 Hp HS HBt HP; cbn [eops enx length seq map fold_left].
    - cbn. exists M, h. rewrite !Z.add_0_r. split; [reflexivity|]. split; [exact HS|]. apply wrote_nil.
    - cbn [eops] in Hp, HBt, HP. rewrite obits_app in Hp, HBt. rewrite obytes_app in HP. rewrite len_app in Hp. apply Bt_app in HBt. apply holds_app in HP. inversion_clear Hl as [|? ? Hs Hl'].
      pose proof (len_nonneg (obits (symop true g s))). pose proof (len_nonneg (obits (eops true (snx g s) l))).
      destruct (dsym_ok true p q M g h pos s Hs Hp0 ltac:(lia) HS (proj1 HBt) (proj1 HP)) as (h1 & E1 & S1). rewrite E1.
      destruct (IH (p + len (obytes (symop true g s))) (q + 1) (put8 M q s) (snx g s) h1 (pos + len (obits (symop true g s))) (S k) Hl' ltac:(lia) ltac:(lia) S1 (proj2 HBt) (proj2 HP)) as (M' & h2 & E2 & S2 & W2).
      exists M', h2. split; [|split].
      + rewrite E2. rewrite len_cons, obytes_app, len_app. f_equal. f_equal; lia.
      + rewrite obits_app, len_app. replace (pos + (len (obits (symop true g s)) + len (obits (eops true (snx g s) l)))) with (pos + len (obits (symop true g s)) + len (obits (eops true (snx g s) l))) by lia. exact S2.
      + apply (wrote_app M (put8 M q s) M' q [s] l); [apply wrote_put8|exact W2].
  Qed.

  Lemma dsym_none p q M g h pos : Sync pos h -> Bt bt pos [true; true; true; true] -> dsymbol false C (mkD p q M g h) = None.
  Proof.
    intros HS (B0 & B1 & B2 & B3 & _). unfold dsymbol. cbn [d_h]. rewrite !(bit_sync pos h) by (assumption || lia). rewrite Z.add_0_r, B0, B1.
    replace (pos + 2) with (pos + 1 + 1) by lia. rewrite B2. replace (pos + 3) with (pos + 1 + 1 + 1) by lia. rewrite B3. reflexivity.
  Qed.

  (** The seven bits of a block other than a short run select [v]. *)
  Lemma dstep_long p q M g h pos v b5 b6 : Sync pos h -> Bt bt pos [true; true; true; true; true; b5; b6] -> v = Z.b2z b5 + 2 * Z.b2z b6 ->
    dsymbol false C (mkD p q M g h) = None /\ bit h 4 = true /\ Z.land (r_value h / 2 ^ 5) 3 = v.
  Proof.
    intros HS HBt ->. split; [|split].
    - apply (dsym_none p q M g h pos HS). cbn in *. tauto.
    - rewrite (bit_sync pos h) by (assumption || lia). cbn in HBt. replace (pos + 4) with (pos + 1 + 1 + 1 + 1) by lia. tauto.
    - rewrite two_bits. destruct HS as (Hr & _ & _ & _ & Hbt). rewrite !Hbt by lia. cbn in HBt.
      replace (pos + 5) with (pos + 1 + 1 + 1 + 1 + 1) by lia. replace (pos + 6) with (pos + 1 + 1 + 1 + 1 + 1 + 1) by lia.
      destruct HBt as (_ & _ & _ & _ & _ & -> & -> & _). reflexivity.
  Qed.

  Lemma dtok_ok t p q M g h pos :
    tok_ok t -> 0 <= pos -> pos + len (obits (tops g t)) + 16 <= 8 * (top - lo + 1) -> Sync pos h ->
    Bt bt pos (obits (tops g t)) -> holds C p (obytes (tops g t)) ->
    exists M' h', sh_dstep C (mkD p q M g h) = inl (mkD (p + len (obytes (tops g t))) (q + len (tout g t)) M' (tnx g t) h') /\
      Sync (pos + len (obits (tops g t))) h' /\ Wrote M M' q (tout g t).
  Proof.
    intros Ht Hp0 Hp HS HBt HP. pose proof (len_nonneg (obits (tops g t))). unfold sh_dstep.
    destruct t as [s|c|l|l|c s|l]; cbn [tok_ok tops tout tnx] in *.
    - destruct (dsym_ok false p q M g h pos s Ht Hp0 ltac:(lia) HS HBt HP) as (h' & E & S'). rewrite E.
      exists (put8 M q s), h'. split; [reflexivity|]. split; [exact S'|apply wrote_put8].
    - change (obits [Bits 15 5; Put [c - 14]]) with [true; true; true; true; false] in *. cbn in HBt, HP. rewrite (dsym_none p q M g h pos HS) by (cbn; tauto). cbn [d_h d_g d_in d_out d_mem].
      rewrite (bit_sync pos h) by (assumption || lia). replace (pos + 4) with (pos + 1 + 1 + 1 + 1) by lia.
      destruct HBt as (_ & _ & _ & _ & B4 & _). rewrite B4. cbn [negb]. destruct HP as [HP _]. rewrite HP. replace (c - 14 + 14) with c by lia.
      eexists _, _. split; [rewrite len_repeat by lia; reflexivity|]. split; [apply (consume_sync pos h 5); auto; lia|]. apply wrote_fill. lia.
    - change (obits [Bits 31 7; Put [len l - 7]; Put l]) with [true; true; true; true; true; false; false] in *. destruct (dstep_long p q M g h pos 0 false false HS HBt eq_refl) as (E1 & E2 & E3). rewrite E1. cbn [d_h d_g d_in d_out d_mem].
      rewrite E2, E3. cbn [negb]. cbv beta zeta. change (0 =? 0) with true. cbv iota.
      cbn in HP. rewrite app_nil_r in HP. destruct HP as [HP1 HP2]. rewrite HP1. replace (len l - 7 + 7) with (len l) by lia.
      rewrite (slice_of_holds C (p + 1) l) by exact HP2.
      eexists _, _. split; [f_equal; f_equal; cbn; rewrite app_nil_r; change (Z.pos (Pos.of_succ_nat (length l))) with (Z.of_nat (S (length l))); unfold len; lia|].
      split; [apply (consume_sync pos h 7); auto; lia|apply wrote_store].
    - change (obits [Bits 63 7; Put (le32 (len l - 7)); Put l]) with [true; true; true; true; true; true; false] in *. destruct (dstep_long p q M g h pos 1 true false HS HBt eq_refl) as (E1 & E2 & E3). rewrite E1. cbn [d_h d_g d_in d_out d_mem].
      rewrite E2, E3. cbn [negb]. cbv beta zeta. change (1 =? 0) with false. change (1 =? 1) with true. cbv iota.
      change (obytes [Bits 63 7; Put (le32 (len l - 7)); Put l]) with (le32 (len l - 7) ++ l ++ []) in *. rewrite app_nil_r in *.
      rewrite (rd32_holds C p (len l - 7) l) by (try exact HP; lia). replace (len l - 7 =? 0) with false by lia. replace (len l - 7 + 7) with (len l) by lia.
      apply holds_app in HP. rewrite (slice_of_holds C (p + 4) l) by apply HP.
      eexists _, _. split; [f_equal; f_equal; rewrite len_app, len_le32; lia|].
      split; [apply (consume_sync pos h 7); auto; lia|apply wrote_store].
    - change (obits (change_ops c s)) with [true; true; true; true; true; false; true] in *. destruct (dstep_long p q M g h pos 2 false true HS HBt eq_refl) as (E1 & E2 & E3). rewrite E1. cbn [d_h d_g d_in d_out d_mem].
      rewrite E2, E3. cbn [negb]. cbv beta zeta. change (2 =? 0) with false. change (2 =? 1) with false. change (2 =? 2) with true. cbv iota.
      unfold change_ops in *. change (obytes [Bits 95 7; Put (le32 (w32 (c - 14))); Put [s]]) with (le32 (w32 (c - 14)) ++ [s]) in *.
      rewrite (rd32_holds C p (w32 (c - 14)) [s]) by (try exact HP; unfold w32; apply Z.mod_pos_bound; lia).
      replace (w32 (w32 (c - 14) + 14)) with c by (unfold w32; rewrite Zplus_mod_idemp_l; replace (c - 14 + 14) with c by lia; rewrite Z.mod_small; lia).
      apply holds_app in HP. destruct HP as [_ [HP _]]. rewrite len_le32 in HP. rewrite HP.
      eexists _, _. split; [rewrite len_repeat by lia; reflexivity|].
      split; [apply (consume_sync pos h 7); auto; lia|apply wrote_fill; lia].
    - change (obits (Bits 127 7 :: Put [len l - 161] :: eops true g l)) with ([true; true; true; true; true; true; true] ++ obits (eops true g l)) in *.
      change (obytes (Bits 127 7 :: Put [len l - 161] :: eops true g l)) with ([len l - 161] ++ obytes (eops true g l)) in *.
      rewrite len_app in Hp. apply Bt_app in HBt. apply holds_app in HP. change (len [true; true; true; true; true; true; true]) with 7 in *. change (len [len l - 161]) with 1 in *.
      destruct (dstep_long p q M g h pos 3 true true HS (proj1 HBt) eq_refl) as (E1 & E2 & E3). rewrite E1. cbn [d_h d_g d_in d_out d_mem].
      rewrite E2, E3. cbn [negb]. cbv beta zeta. change (3 =? 0) with false. change (3 =? 1) with false. change (3 =? 2) with false. cbv iota.
      destruct HP as [[HP1 _] HP2]. rewrite HP1. replace (len l - 161 + 161) with (len l) by lia. pose proof (len_nonneg (obits (eops true g l))).
      pose proof (consume_sync pos h 7 Hp0 ltac:(lia) ltac:(lia) HS) as S1.
      destruct (dsyms_ok l (p + 1) q M g (consume C h 7) (pos + 7) 0%nat (proj2 Ht) ltac:(lia) ltac:(lia) S1 (proj2 HBt) HP2) as (M' & h' & E4 & S4 & W4).
      unfold lanes. unfold len at 1. rewrite Nat2Z.id. rewrite E4. exists M', h'. split; [f_equal; f_equal; rewrite len_app; change (len [len l - 161]) with 1; lia|].
      split; [rewrite len_app; change (len [true; true; true; true; true; true; true]) with 7; replace (pos + (7 + len (obits (eops true g l)))) with (pos + 7 + len (obits (eops true g l))) by lia; exact S4|exact W4].
  Qed.

  Definition fin : list op := [Bits 63 7; Put (le32 0)].
  Lemma dfin p q M g h pos : Sync pos h -> Bt bt pos (obits fin) -> holds C p (obytes fin) -> sh_dstep C (mkD p q M g h) = inr M.
  Proof.
    intros HS HBt HP. change (obits fin) with [true; true; true; true; true; true; false] in HBt. unfold sh_dstep.
    destruct (dstep_long p q M g h pos 1 true false HS HBt eq_refl) as (E1 & E2 & E3). rewrite E1. cbn [d_h d_g d_in d_out d_mem].
    rewrite E2, E3. cbn [negb]. cbv beta zeta. change (1 =? 0) with false. change (1 =? 1) with true. cbv iota.
    change (obytes fin) with (le32 0 ++ []) in HP. rewrite (rd32_holds C p 0 []) by (try exact HP; lia). reflexivity.
  Qed.

  Lemma dloop_ok toks p q M g h :
    Forall tok_ok toks -> len (sout g toks) < 2 ^ 60 -> len (obits (sops g toks ++ fin)) + 16 <= 8 * (top - lo + 1) -> Sync 0 h ->
    Bt bt 0 (obits (sops g toks ++ fin)) -> holds C p (obytes (sops g toks ++ fin)) ->
    exists M', loop (sh_dstep C) (mkD p q M g h) = Some M' /\ Wrote M M' q (sout g toks).
  Proof.
    intros Hok Hlen Hp HS HBt HP.
    pose (Inv := fun (s : dst) => exists pos rest M1 done, s = mkD (d_in s) (q + len done) M1 (d_g s) (d_h s) /\ Forall tok_ok rest /\
      0 <= pos /\ pos + len (obits (sops (d_g s) rest ++ fin)) + 16 <= 8 * (top - lo + 1) /\ Sync pos (d_h s) /\
      Bt bt pos (obits (sops (d_g s) rest ++ fin)) /\ holds C (d_in s) (obytes (sops (d_g s) rest ++ fin)) /\
      Wrote M M1 q done /\ sout g toks = done ++ sout (d_g s) rest).
    destruct (loop_inv (sh_dstep C) Inv (fun s => 2 ^ 62 - (d_out s - q)) (fun M' => Wrote M M' q (sout g toks)) (mkD p q M g h)) as (M' & E & HW).
    - intros s (pos & rest & M1 & done & Es & Hr & Hp0 & Hp' & HS' & HB' & HP' & HW & Hout). destruct s as [pin po Mo gg hh]. cbn [d_in d_g d_h d_out] in *.
      injection Es as -> ->. destruct rest as [|t rest].
      + cbn [sops app] in HB', HP'. rewrite (dfin pin (q + len done) M1 gg hh pos HS' HB' HP'). cbn [sout] in Hout. rewrite app_nil_r in Hout. now rewrite Hout.
      + cbn [sops] in Hp', HB', HP'. rewrite <- app_assoc in Hp', HB', HP'. rewrite obits_app in Hp', HB'. rewrite obytes_app in HP'. rewrite len_app in Hp'. apply Bt_app in HB'. apply holds_app in HP'.
        inversion_clear Hr as [|? ? Ht Hr']. pose proof (len_nonneg (obits (tops gg t))). pose proof (len_nonneg (obits (sops (tnx gg t) rest ++ fin))).
        destruct (dtok_ok t pin (q + len done) M1 gg hh pos Ht Hp0 ltac:(lia) HS' (proj1 HB') (proj1 HP')) as (M2 & h2 & E2 & S2 & W2). rewrite E2.
        pose proof (tout_pos gg t Ht). pose proof (len_nonneg done). cbn [sout] in Hout. split.
        * exists (pos + len (obits (tops gg t))), rest, M2, (done ++ tout gg t). cbn [d_in d_g d_h d_out]. rewrite len_app.
          split; [f_equal; lia|]. split; [exact Hr'|]. split; [lia|]. split; [lia|]. split; [exact S2|]. split; [apply HB'|]. split; [apply HP'|].
          split; [apply wrote_app with M1; assumption|]. now rewrite Hout, app_assoc.
        * cbn [d_out]. rewrite Hout, !len_app in Hlen. pose proof (len_nonneg (sout (tnx gg t) rest)). lia.
    - exists 0, toks, M, []. cbn [d_in d_g d_h d_out]. rewrite len_nil, Z.add_0_r. repeat (split; [first [reflexivity|assumption|lia]|]). split; [apply wrote_nil|reflexivity].
    - cbn [d_out]. lia.
    - exists M'. split; assumption.
  Qed.
End Dec.
