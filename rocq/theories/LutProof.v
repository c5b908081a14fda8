(** Properties of [LutModel]. *)
From Verif Require Import Base Simd SimdProof Spec PktSpec LutSpec ExtModel ExtDec ExtEnc PktModel PktEnc Rle8Proof LutModel.

(** *** Table *)

Lemma lut_index_range sym lut : 0 <= lut_index sym lut <= len lut.
Proof.
  induction lut as [|x r IH]; cbn [lut_index].
  - unfold len. cbn. lia.
  - rewrite len_cons. destruct (eqb_bytes x sym); lia.
Qed.

Lemma lut_index_found sym lut : lut_index sym lut < len lut -> nth (Z.to_nat (lut_index sym lut)) lut [] = sym.
Proof.
  induction lut as [|x r IH]; cbn [lut_index].
  - unfold len. cbn. lia.
  - rewrite len_cons. destruct (eqb_bytes x sym) eqn:E.
    + intros _. cbn. now apply eqb_bytes_eq in E.
    + intros H. pose proof (lut_index_range sym r). rewrite Z2Nat.inj_add by lia. cbn. apply IH. lia.
Qed.

Lemma Forall2_firstn {X Y} (P : X -> Y -> Prop) k a b : Forall2 P a b -> Forall2 P (firstn k a) (firstn k b).
Proof. intros H. revert k. induction H; intros [|k]; cbn [firstn]; constructor; auto. Qed.
Lemma Forall2_skipn {X Y} (P : X -> Y -> Prop) k a b : Forall2 P a b -> Forall2 P (skipn k a) (skipn k b).
Proof. intros H. revert k. induction H; intros [|k]; cbn [skipn]; auto. Qed.
Lemma Forall2_nth {X Y} (P : X -> Y -> Prop) a b x y k : Forall2 P a b -> (k < length b)%nat -> P (nth k a x) (nth k b y).
Proof. intros H. revert k. induction H as [|u v a b Huv H IH]; intros k Hk; [cbn in Hk; lia|]. destruct k as [|k]; cbn in *; [exact Huv|]. apply IH. lia. Qed.

Lemma lut_front_rel {X Y} (P : X -> Y -> Prop) SC x y k a b :
  P x y -> Forall2 P a b -> Forall2 P (lut_front SC x k a) (lut_front SC y k b).
Proof.
  intros H1 H2. unfold lut_front. constructor; [exact H1|]. apply Forall2_firstn. apply Forall2_app; [now apply Forall2_firstn|now apply Forall2_skipn].
Qed.

Lemma len_lut_front {X} SC (x : X) k l : 1 <= SC -> 0 <= k -> len l = SC -> len (lut_front SC x k l) = SC.
Proof.
  unfold len, lut_front. intros H1 H2 H3. cbn [length]. rewrite firstn_length, app_length, firstn_length, skipn_length. lia.
Qed.

Lemma lut_front_hd {X} SC (x d : X) k l : hd d (lut_front SC x k l) = x.
Proof. reflexivity. Qed.

Lemma Forall_lut_front {X} (P : X -> Prop) SC x k l : P x -> Forall P l -> Forall P (lut_front SC x k l).
Proof.
  intros Hx Hl. unfold lut_front. constructor; [exact Hx|].
  assert (K : Forall P (firstn (Z.to_nat k) l ++ skipn (Z.to_nat (k + 1)) l)).
  { apply Forall_app. split; [rewrite <- (firstn_skipn (Z.to_nat k) l) in Hl; apply Forall_app in Hl; apply Hl|].
    rewrite <- (firstn_skipn (Z.to_nat (k + 1)) l) in Hl. apply Forall_app in Hl. apply Hl. }
  rewrite <- (firstn_skipn (Z.to_nat (SC - 1)) (firstn (Z.to_nat k) l ++ skipn (Z.to_nat (k + 1)) l)) in K.
  apply Forall_app in K. apply K.
Qed.

(** Decoder registers agree with the table of the encoder (no table: nothing to agree on). *)
Definition Rlut (S SC : Z) (regs lut : list (list Z)) : Prop :=
  SC = 0 \/ (len lut = SC /\ Forall2 (regok S) regs lut /\ Forall (fun x => len x = S) lut).

Lemma dec_sym_ok S SC C p regs lut sym k rest :
  0 < S -> S <= rawS S -> 0 <= SC -> Rlut S SC regs lut -> len sym = S ->
  (SC = 0 -> k = 0) -> (SC <> 0 -> 0 <= k <= SC /\ (k < SC -> nth (Z.to_nat k) lut [] = sym)) ->
  holds C p ((if k =? SC then sym else []) ++ rest) ->
  exists regs', dec_sym S SC C p k regs = (p + len (if k =? SC then sym else []), regs') /\
    regok S (hd [] regs') sym /\ forall lut', (SC <> 0 -> lut' = lut_front SC sym k lut) -> Rlut S SC regs' lut'.
Proof.
  intros HS Hraw HSC HR Hl Hk0 Hk1 Hh. unfold dec_sym. destruct (k =? SC) eqn:E.
  - assert (Hreg : regok S (load C (rawS S) p) sym) by (eapply holds_slice_load; eassumption).
    eexists. rewrite Hl. split; [reflexivity|]. split; [exact Hreg|].
    intros lut' Hlut'. destruct HR as [HR|(HR1 & HR2 & HR3)]; [now left|].
    destruct (Z.eq_dec SC 0) as [E0|E0]; [now left|]. right. rewrite Hlut' by assumption.
    split; [apply len_lut_front; lia|]. split; [now apply lut_front_rel|now apply Forall_lut_front].
  - destruct (Z.eq_dec SC 0) as [E0|E0]; [specialize (Hk0 E0); lia|].
    destruct (Hk1 E0) as [Hr Hn]. specialize (Hn ltac:(lia)). destruct HR as [HR|(HR1 & HR2 & HR3)]; [lia|].
    assert (Hreg : regok S (nth (Z.to_nat k) regs []) sym).
    { pose proof (Forall2_nth (regok S) regs lut [] [] (Z.to_nat k) HR2) as K.
      rewrite Hn in K. apply K. unfold len in *. lia. }
    eexists. rewrite len_nil, Z.add_0_r. split; [reflexivity|]. split; [exact Hreg|].
    intros lut' Hlut'. right. rewrite Hlut' by assumption. split; [apply len_lut_front; lia|]. split; [now apply lut_front_rel|now apply Forall_lut_front].
Qed.

Lemma lut_init_ok S SC : 0 < S <= rawS S -> SC = 0 \/ SC = 1 \/ SC = 3 \/ SC = 7 -> Rlut S SC (reg_init S SC) (lut_init S SC).
Proof.
  intros HS HSC. unfold Rlut. destruct (Z.eq_dec SC 0) as [|H0]; [now left|]. right. split; [|split].
  - unfold lut_init, lut_bytes, len. rewrite map_length, firstn_length. cbn [length]. lia.
  - unfold reg_init, lut_init. induction (lut_bytes SC) as [|b r IH]; cbn [map]; constructor; [|exact IH]. split.
    + rewrite len_app. unfold len. rewrite !repeat_length. lia.
    + intros j Hj. unfold symbyte. rewrite app_nth1 by (rewrite repeat_length; lia). reflexivity.
  - unfold lut_init. induction (lut_bytes SC) as [|b r IH]; cbn [map]; constructor; [|exact IH]. rewrite len_repeat; lia.
Qed.

(** *** Numbers *)

Lemma tiny_range max v : 1 <= max -> 0 <= v -> 0 <= tiny max v <= max.
Proof. intros H1 H2. unfold tiny. destruct (v <=? max) eqn:E; [lia|]. destruct (v <=? 65535); lia. Qed.

Lemma read_ext_ok C p max v rest :
  2 <= v < 2 ^ 32 -> holds C p (ext max v ++ rest) -> read_ext C p (tiny max v) = (p + len (ext max v), v).
Proof.
  intros Hv H. unfold read_ext, tiny, ext in *. destruct (v <=? max) eqn:E.
  - replace (v =? 0) with false by lia. replace (v =? 1) with false by lia. rewrite len_nil. f_equal. lia.
  - destruct (v <=? 65535) eqn:E2.
    + cbn [Z.eqb]. rewrite (rd16_holds C p v rest) by (try exact H; lia). rewrite len_le16. reflexivity.
    + cbn [Z.eqb]. rewrite (rd32_holds C p v rest) by (try exact H; lia). rewrite len_le32. reflexivity.
Qed.

Lemma len_ext max v : len (ext max v) = if v <=? max then 0 else if v <=? 65535 then 2 else 4.
Proof. unfold ext. destruct (v <=? max); [reflexivity|]. destruct (v <=? 65535); reflexivity. Qed.

Lemma bytes_ext max v : Forall is_byte (ext max v).
Proof. unfold ext. destruct (v <=? max); [constructor|]. destruct (v <=? 65535); [apply Forall_le16|apply Forall_le32]. Qed.

(** *** Grammar *)

Lemma Number_read max v f e C p rest : Number max v f e -> holds C p (e ++ rest) -> read_ext C p f = (p + len e, v).
Proof.
  intros [Hv|Hv|Hv] H; unfold read_ext.
  - replace (v =? 0) with false by lia. replace (v =? 1) with false by lia. rewrite len_nil. f_equal. lia.
  - cbn [Z.eqb]. rewrite (rd16_holds C p v rest) by (try exact H; lia). rewrite len_le16. reflexivity.
  - cbn [Z.eqb]. rewrite (rd32_holds C p v rest) by (try exact H; lia). rewrite len_le32. reflexivity.
Qed.
Lemma Number_field max v f e : Number max v f e -> 1 <= max -> 0 <= f <= max.
Proof. intros [Hv|Hv|Hv] H; lia. Qed.
Lemma Number_value max v f e : Number max v f e -> max < 2 ^ 32 -> 0 <= v < 2 ^ 32.
Proof. intros [Hv|Hv|Hv] H; lia. Qed.
Lemma Number_tiny max v : 2 <= v < 2 ^ 32 -> Number max v (tiny max v) (ext max v).
Proof.
  intros Hv. unfold tiny, ext. destruct (v <=? max) eqn:E; [constructor; lia|]. destruct (v <=? 65535) eqn:E2; constructor; lia.
Qed.

Lemma first_table_init S SC : first_table S SC = lut_init S SC.
Proof. reflexivity. Qed.

Lemma removelast_firstn' {X} (l : list X) : removelast l = firstn (length l - 1) l.
Proof.
  destruct l as [|x l]; [reflexivity|]. rewrite removelast_firstn_len. f_equal. cbn [length]. lia.
Qed.

Lemma Recall_front S SC table k sym sb table' : 1 <= SC -> Recall S SC table k sym sb table' -> len table = SC ->
  0 <= k <= SC /\ (k < SC -> nth (Z.to_nat k) table [] = sym /\ sb = []) /\ (k = SC -> sb = sym /\ len sym = S) /\ table' = lut_front SC sym k table.
Proof.
  intros HSC H Hl. destruct H as [before sym after Ht|sym Hs Hb].
  - pose proof (len_nonneg before) as H0. rewrite Ht in Hl. rewrite len_app, len_cons in Hl. pose proof (len_nonneg after) as H1.
    split; [lia|]. split; [|split; [lia|]].
    + intros _. split; [|reflexivity]. rewrite Ht. unfold len. rewrite Nat2Z.id, app_nth2 by lia. replace (_ - _)%nat with 0%nat by lia. reflexivity.
    + unfold lut_front. f_equal. rewrite Ht. unfold len. rewrite Nat2Z.id.
      replace (Z.to_nat (Z.of_nat (length before) + 1)) with (length before + 1)%nat by lia.
      rewrite (firstn_app (length before) before), firstn_all, Nat.sub_diag. cbn [firstn]. rewrite app_nil_r.
      rewrite skipn_app, (skipn_all2 before) by lia. replace (length before + 1 - length before)%nat with 1%nat by lia. cbn [skipn app].
      symmetry. apply firstn_all2. rewrite app_length. unfold len in *. lia.
  - split; [lia|]. split; [lia|]. split; [auto|]. unfold lut_front. f_equal. unfold len in Hl.
    rewrite (firstn_all2 table) by lia. rewrite (skipn_all2 table) by lia. rewrite app_nil_r, removelast_firstn'. f_equal. lia.
Qed.

Lemma Recall_symlen S SC table k sym sb table' : Recall S SC table k sym sb table' -> Forall (fun x => len x = S) table ->
  len sym = S /\ Forall (fun x => len x = S) table'.
Proof.
  intros H HF. destruct H as [before sym after Ht|sym Hs Hb].
  - rewrite Ht in HF. apply Forall_app in HF. destruct HF as [H1 H2]. apply Forall_cons_iff in H2. destruct H2 as [H2 H3].
    split; [exact H2|]. constructor; [exact H2|]. apply Forall_app. split; assumption.
  - split; [exact Hs|]. constructor; [exact Hs|]. rewrite removelast_firstn'. rewrite <- (firstn_skipn (length table - 1) table) in HF.
    apply Forall_app in HF. apply HF.
Qed.

Lemma Recall_index S SC table sym : 1 <= SC -> len table = SC -> len sym = S -> Forall is_byte sym ->
  let k := lut_index sym table in
  Recall S SC table k sym (if k =? SC then sym else []) (lut_front SC sym k table).
Proof.
  intros HSC Hl Hs Hb k. pose proof (lut_index_range sym table) as Hr. fold k in Hr. rewrite Hl in Hr.
  assert (HF : k < SC -> nth (Z.to_nat k) table [] = sym) by (intros H; apply lut_index_found; lia).
  destruct (k =? SC) eqn:E.
  - apply Z.eqb_eq in E. rewrite E.
    pose proof (Recall_front S SC table SC sym sym (sym :: removelast table) HSC (Recall_new S SC table sym Hs Hb) Hl) as (_ & _ & _ & <-).
    now constructor.
  - specialize (HF ltac:(lia)).
    assert (Ht : table = firstn (Z.to_nat k) table ++ sym :: skipn (Datatypes.S (Z.to_nat k)) table).
    { rewrite <- HF. symmetry. rewrite <- (firstn_skipn (Z.to_nat k) table) at 4. f_equal.
      assert (K : forall (l : list (list Z)) j, (j < length l)%nat -> nth j l [] :: skipn (Datatypes.S j) l = skipn j l).
      { clear. induction l as [|x l IH]; intros j Hj; [cbn in Hj; lia|]. destruct j; [reflexivity|]. cbn [nth skipn]. apply IH. cbn in Hj. lia. }
      apply K. unfold len in *. lia. }
    pose proof (Recall_known S SC table _ sym _ Ht) as HR.
    pose proof (Recall_front S SC table _ sym [] _ HSC HR Hl) as (_ & _ & _ & H4). rewrite H4 in HR.
    assert (Hk : len (firstn (Z.to_nat k) table) = k) by (unfold len in *; rewrite firstn_length; lia).
    rewrite Hk in HR. exact HR.
Qed.

(** *** Levels *)

Definition okS1 (S : Z) : Prop := S = 1 \/ okS S.

Lemma okS1_pos S : okS1 S -> 1 <= S <= rawS S.
Proof. intros [->|H]; [cbn; lia|]. pose proof (rawS_nonneg S H). apply okS_pos in H. lia. Qed.

Lemma lvl_copyW_ok S l : 0 < lvl_copyW S l <= 64.
Proof. destruct l; cbn; try lia. destruct (S =? 1); lia. Qed.

Lemma lvl_fill_ok S l reg sym M q cnt :
  okS1 S -> regok S reg sym -> len sym = S -> 0 <= cnt -> 0 < q -> q + cnt + 128 < 2 ^ 64 ->
  exists M', lvl_fill S l reg M q cnt = Some (q + cnt, M') /\
    slice M' q cnt = periodic sym cnt /\ (forall x, x < q \/ q + cnt + 96 <= x -> M' x = M x).
Proof.
  intros HS [Hr1 Hr2] Hl Hc Hq Hb. unfold lvl_fill. destruct (S =? 1) eqn:E.
  - destruct (memset_repeat (lvl_copyW 1 l) M q cnt (symbyte reg 0)) as (M' & H1 & H2 & H3); try lia; [apply lvl_copyW_ok|].
    exists M'. split; [exact H1|]. split; [|exact H3]. rewrite H2.
    rewrite <- (run8_slice (fun _ => symbyte reg 0) cnt cnt (symbyte reg 0) Hc) by (intros k Hk; reflexivity).
    unfold periodic. apply slice_map_shift. intros k Hk. rewrite Hl. replace S with 1 by lia. rewrite Z.mod_1_r. apply Hr2. lia.
  - assert (HS2 : okS S) by (destruct HS; [lia|assumption]).
    destruct (dfill_spec S (lvl_dsimd S l) reg M q cnt HS2 Hr1) as (M' & H1 & H2 & H3); try lia.
    exists M'. split; [exact H1|]. split; [|exact H3]. unfold periodic. apply slice_map_shift. intros k Hk.
    rewrite H2 by lia. rewrite Hl. replace (q + k - q) with k by lia. cbn [Z.add]. apply Hr2. apply okS_pos in HS2. apply Z.mod_pos_bound. lia.
Qed.

Lemma some_pair {X Y} (a b : X) (c d : Y) : Some (a, c) = Some (b, d) -> a = b /\ c = d.
Proof. intros H. injection H as -> ->. split; reflexivity. Qed.
