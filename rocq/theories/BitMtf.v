(** Correctness of bit_mmtf.c. *)
From Verif Require Import Base Simd SimdProof MtfModel MtfSpec MtfProof.

(** *** Bits *)
Lemma land_pow2 j a : 0 <= j -> Z.land (2 ^ j) a = sel (Z.testbit a j) (2 ^ j).
Proof.
  intros Hj. apply Z.bits_inj'. intros k Hk. rewrite Z.land_spec, Z.pow2_bits_eqb by exact Hj. destruct (j =? k) eqn:E.
  - assert (j = k) by lia. subst k. cbn [andb]. destruct (Z.testbit a j); cbn [sel]; [now rewrite Z.pow2_bits_true|now rewrite Z.bits_0].
  - cbn [andb]. symmetry. destruct (Z.testbit a j); cbn [sel]; [apply Z.pow2_bits_false; lia|apply Z.bits_0].
Qed.
Lemma bit_same j a b : 0 <= j -> (Z.land (2 ^ j) a =? Z.land (2 ^ j) b) = negb (xorb (Z.testbit a j) (Z.testbit b j)).
Proof.
  intros Hj. rewrite !land_pow2 by exact Hj. assert (0 < 2 ^ j) by (apply Z.pow_pos_nonneg; lia).
  destruct (Z.testbit a j), (Z.testbit b j); cbn [sel xorb negb]; lia.
Qed.
Lemma bit_set j a : 0 <= j -> (2 ^ j =? Z.land (2 ^ j) a) = Z.testbit a j.
Proof.
  intros Hj. rewrite land_pow2 by exact Hj. assert (0 < 2 ^ j) by (apply Z.pow_pos_nonneg; lia). destruct (Z.testbit a j); cbn [sel]; lia.
Qed.

(** The byte with the bits [f]. *)
Definition mm8 (f : Z -> bool) : Z :=
  sel (f 0) 1 + (sel (f 1) 2 + (sel (f 2) 4 + (sel (f 3) 8 + (sel (f 4) 16 + (sel (f 5) 32 + (sel (f 6) 64 + sel (f 7) 128)))))).
Lemma mm8_ext f g : (forall j, 0 <= j < 8 -> f j = g j) -> mm8 f = mm8 g.
Proof. intros H. unfold mm8. rewrite !H by lia. reflexivity. Qed.
Lemma sel_le b v : 0 <= v -> 0 <= sel b v <= v.
Proof. destruct b; cbn; lia. Qed.
Lemma mm8_byte f : is_byte (mm8 f).
Proof.
  unfold mm8, is_byte. pose proof (sel_le (f 0) 1). pose proof (sel_le (f 1) 2). pose proof (sel_le (f 2) 4). pose proof (sel_le (f 3) 8).
  pose proof (sel_le (f 4) 16). pose proof (sel_le (f 5) 32). pose proof (sel_le (f 6) 64). pose proof (sel_le (f 7) 128). lia.
Qed.
Lemma mm8_neg f : 255 - mm8 f = mm8 (fun j => negb (f j)).
Proof.
  unfold mm8. assert (K : forall b v, sel (negb b) v = v - sel b v) by (intros [] v; cbn; lia). rewrite !K. lia.
Qed.
Lemma mm8_bits x : is_byte x -> mm8 (Z.testbit x) = x.
Proof.
  intros Hx. assert (H : forallb (fun k => mm8 (Z.testbit (Z.of_nat k)) =? Z.of_nat k) (seq 0 256) = true) by (vm_compute; reflexivity).
  rewrite forallb_forall in H. unfold is_byte in Hx. specialize (H (Z.to_nat x) ltac:(apply in_seq; lia)). rewrite Z2Nat.id in H by lia. lia.
Qed.
Lemma movemask_split f : movemask f = mm8 f + 256 * mm8 (fun j => f (j + 8)).
Proof.
  unfold movemask, mm8. change (lanes 16) with [0;1;2;3;4;5;6;7;8;9;10;11;12;13;14;15]. cbn [fold_right].
  change (0 + 8) with 8. change (1 + 8) with 9. change (2 + 8) with 10. change (3 + 8) with 11. change (4 + 8) with 12. change (5 + 8) with 13. change (6 + 8) with 14. change (7 + 8) with 15.
  assert (K : forall b v, sel b (256 * v) = 256 * sel b v) by (intros [] v; cbn; lia).
  change (2 ^ 8) with (256 * 1). change (2 ^ 9) with (256 * 2). change (2 ^ 10) with (256 * 4). change (2 ^ 11) with (256 * 8).
  change (2 ^ 12) with (256 * 16). change (2 ^ 13) with (256 * 32). change (2 ^ 14) with (256 * 64). change (2 ^ 15) with (256 * 128).
  rewrite !K. change (2 ^ 0) with 1. change (2 ^ 1) with 2. change (2 ^ 2) with 4. change (2 ^ 3) with 8. change (2 ^ 4) with 16. change (2 ^ 5) with 32. change (2 ^ 6) with 64. change (2 ^ 7) with 128. lia.
Qed.
Lemma lxor_byte a b : is_byte a -> is_byte b -> is_byte (Z.lxor a b).
Proof.
  intros Ha Hb. rewrite <- (mm8_bits a Ha), <- (mm8_bits b Hb).
  unfold is_byte in *. assert (0 <= Z.lxor a b) by (apply Z.lxor_nonneg; lia). rewrite !mm8_bits by assumption. split; [assumption|].
  destruct (Z.eq_dec (Z.lxor a b) 0) as [->|Hne]; [lia|]. apply Z.log2_lt_cancel. change (Z.log2 256) with 8.
  pose proof (Z.log2_lxor a b ltac:(lia) ltac:(lia)). assert (K : forall x, 0 <= x < 256 -> Z.log2 x < 8).
  { intros x Hx. destruct (Z.eq_dec x 0) as [->|]; [reflexivity|]. apply Z.log2_lt_pow2; [lia|]. change (2 ^ 8) with 256. lia. }
  pose proof (K a Ha). pose proof (K b Hb). lia.
Qed.
Lemma mm8_xor (f : Z -> bool) a b : is_byte a -> is_byte b -> (forall j, 0 <= j < 8 -> f j = xorb (Z.testbit a j) (Z.testbit b j)) -> mm8 f = Z.lxor a b.
Proof.
  intros Ha Hb H. rewrite <- (mm8_bits (Z.lxor a b)) by now apply lxor_byte. apply mm8_ext. intros j Hj. rewrite H, Z.lxor_spec by exact Hj. reflexivity.
Qed.

(** The low 16 bits of the two masks. *)
Lemma enc_mask f : (2 ^ 32 - 1 - movemask f) mod 2 ^ 16 = mm8 (fun j => negb (f j)) + 256 * mm8 (fun j => negb (f (j + 8))).
Proof.
  rewrite movemask_split, <- !mm8_neg. pose proof (mm8_byte f). pose proof (mm8_byte (fun j => f (j + 8))). unfold is_byte in *.
  set (x := mm8 f) in *. set (y := mm8 (fun j => f (j + 8))) in *. clearbody x y.
  replace (2 ^ 32 - 1 - (x + 256 * y)) with ((255 - x + 256 * (255 - y)) + 65535 * 2 ^ 16) by (change (2 ^ 32) with (65536 * 65536); change (2 ^ 16) with 65536; lia).
  rewrite Z.mod_add by lia. change (2 ^ 16) with 65536. apply Z.mod_small. lia.
Qed.
Lemma dec_mask f : movemask f mod 2 ^ 16 = mm8 f + 256 * mm8 (fun j => f (j + 8)).
Proof.
  rewrite movemask_split. pose proof (mm8_byte f). pose proof (mm8_byte (fun j => f (j + 8))). unfold is_byte in *. change (2 ^ 16) with 65536. apply Z.mod_small. lia.
Qed.
Lemma w8_of16 x : w8 x = w8 (x mod 2 ^ 16).
Proof. unfold w8. change (2 ^ 16) with (256 * 256). change (2 ^ 8) with 256. rewrite Z.rem_mul_r by lia. rewrite Z.mul_comm, Z.mod_add, Z.mod_mod by lia. reflexivity. Qed.

(** The states after the byte(s) [p] ([p], [q]). *)
Definition e8 (st : Z -> Z) (p : Z) : Prop := forall j, 0 <= j < 8 -> st j = Z.land (2 ^ j) p.
Definition d8 (st : Z -> bool) (p : Z) : Prop := forall j, 0 <= j < 8 -> st j = Z.testbit p j.
Definition e16 (st : Z -> Z) (p q : Z) : Prop := forall j, 0 <= j < 8 -> st j = Z.land (2 ^ j) p /\ st (j + 8) = Z.land (2 ^ j) q.
Definition d16 (st : Z -> bool) (p q : Z) : Prop := forall j, 0 <= j < 8 -> st j = Z.testbit p j /\ st (j + 8) = Z.testbit q j.

Lemma benc8 a st p : is_byte a -> is_byte p -> e8 st p ->
  exists bm st', benc_vec mask8 (set1 a) st = (bm, st') /\ w8 bm = Z.lxor a p /\ e8 st' a.
Proof.
  intros Ha Hp He. unfold benc_vec. eexists _, _. split; [reflexivity|]. split.
  - rewrite w8_of16, enc_mask. unfold w8. change (2 ^ 8) with 256. rewrite (Z.mul_comm 256), Z.mod_add by lia.
    rewrite Z.mod_small by apply mm8_byte. apply mm8_xor; try assumption. intros j Hj. rewrite vec_at by lia. unfold mask8, set1. replace (j <? 8) with true by lia.
    rewrite He, bit_same, negb_involutive by lia. reflexivity.
  - intros j Hj. rewrite vec_at by lia. unfold mask8, set1. now replace (j <? 8) with true by lia.
Qed.
Lemma bdec8 a st p : is_byte a -> is_byte p -> d8 st p ->
  exists bm st', bdec_vec mask8 (set1 a) st = (bm, st') /\ w8 bm = Z.lxor a p /\ d8 st' (Z.lxor a p).
Proof.
  intros Ha Hp Hd. unfold bdec_vec. eexists _, _. split; [reflexivity|].
  assert (K : forall j, 0 <= j < 8 -> mask 16 (fun j => xorb (mask8 j =? Z.land (mask8 j) (set1 a j)) (st j)) j = xorb (Z.testbit a j) (Z.testbit p j)).
  { intros j Hj. rewrite mask_at by lia. unfold mask8, set1. replace (j <? 8) with true by lia. rewrite bit_set, Hd by lia. reflexivity. }
  split.
  - rewrite w8_of16, dec_mask. unfold w8. change (2 ^ 8) with 256. rewrite (Z.mul_comm 256), Z.mod_add by lia.
    rewrite Z.mod_small by apply mm8_byte. now apply mm8_xor.
  - intros j Hj. rewrite K, Z.lxor_spec by exact Hj. reflexivity.
Qed.
Lemma le16_two x y : is_byte x -> is_byte y -> le16 (x + 256 * y) = [x; y].
Proof.
  intros Hx Hy. unfold is_byte, le16 in *. f_equal; [|f_equal].
  - rewrite Z.mul_comm, Z.mod_add by lia. apply Z.mod_small. lia.
  - rewrite Z.mul_comm, Z.div_add by lia. rewrite (Z.div_small x) by lia. apply Z.mod_small. lia.
Qed.
Lemma mask16_lo j : 0 <= j < 8 -> mask16 j = 2 ^ j /\ mask16 (j + 8) = 2 ^ j.
Proof.
  intros Hj. unfold mask16. split; [now rewrite Z.mod_small|]. replace (j + 8) with (j + 1 * 8) by lia. rewrite Z.mod_add by lia. now rewrite Z.mod_small.
Qed.
Lemma benc16 a b st p q : is_byte a -> is_byte b -> is_byte p -> is_byte q -> e16 st p q ->
  exists bm st', benc_vec mask16 (set2 a b) st = (bm, st') /\ le16 (bm mod 2 ^ 16) = [Z.lxor a p; Z.lxor b q] /\ e16 st' a b.
Proof.
  intros Ha Hb Hp Hq He. unfold benc_vec. eexists _, _. split; [reflexivity|]. split.
  - rewrite enc_mask, le16_two by apply mm8_byte. f_equal; [|f_equal].
    + apply mm8_xor; try assumption. intros j Hj. rewrite vec_at by lia. unfold set2. replace (j <? 8) with true by lia.
      destruct (mask16_lo j Hj) as [-> _]. destruct (He j Hj) as [-> _]. rewrite bit_same, negb_involutive by lia. reflexivity.
    + apply mm8_xor; try assumption. intros j Hj. rewrite vec_at by lia. unfold set2. replace (j + 8 <? 8) with false by lia.
      destruct (mask16_lo j Hj) as [_ ->]. destruct (He j Hj) as [_ ->]. rewrite bit_same, negb_involutive by lia. reflexivity.
  - intros j Hj. rewrite !vec_at by lia. unfold set2. replace (j + 8 <? 8) with false by lia. replace (j <? 8) with true by lia.
    destruct (mask16_lo j Hj) as [-> ->]. auto.
Qed.
Lemma bdec16 a b st p q : is_byte a -> is_byte b -> is_byte p -> is_byte q -> d16 st p q ->
  exists bm st', bdec_vec mask16 (set2 a b) st = (bm, st') /\ le16 (bm mod 2 ^ 16) = [Z.lxor a p; Z.lxor b q] /\ d16 st' (Z.lxor a p) (Z.lxor b q).
Proof.
  intros Ha Hb Hp Hq Hd. unfold bdec_vec. eexists _, _. split; [reflexivity|].
  assert (K : forall j, 0 <= j < 8 -> mask 16 (fun j => xorb (mask16 j =? Z.land (mask16 j) (set2 a b j)) (st j)) j = xorb (Z.testbit a j) (Z.testbit p j) /\
    mask 16 (fun j => xorb (mask16 j =? Z.land (mask16 j) (set2 a b j)) (st j)) (j + 8) = xorb (Z.testbit b j) (Z.testbit q j)).
  { intros j Hj. rewrite !mask_at by lia. unfold set2. replace (j <? 8) with true by lia. replace (j + 8 <? 8) with false by lia.
    destruct (mask16_lo j Hj) as [-> ->]. destruct (Hd j Hj) as [-> ->]. rewrite !bit_set by lia. auto. }
  split.
  - rewrite dec_mask, le16_two by apply mm8_byte. f_equal; [|f_equal]; (apply mm8_xor; try assumption); intros j Hj; now apply K.
  - intros j Hj. rewrite !Z.lxor_spec. now apply K.
Qed.

(** *** The loops *)
(** [dec]: the roles of plain and coded data. *)
Definition XDone (dec : bool) (D : Z) (M0 : mem) (pin pout l : Z) (M : mem) : Prop :=
  (if dec then XorDiff D (at_ M pout) l (at_ M0 pin) else XorDiff D (at_ M0 pin) l (at_ M pout)) /\
  (forall i, 0 <= i < l -> is_byte (M (pout + i))) /\
  (forall x, x < pout \/ pout + l <= x -> M x = M0 x).
Definition before (dec : bool) (D : Z) (M0 : mem) (pin pout : Z) (M : mem) (i : Z) : Z :=
  if i <? D then 0 else if dec then M (pout + (i - D)) else M0 (pin + (i - D)).

Lemma xstep dec D M0 pin pout l M v : 0 < D -> 0 <= l -> is_byte v ->
  XDone dec D M0 pin pout l M -> v = Z.lxor (M0 (pin + l)) (before dec D M0 pin pout M l) ->
  XDone dec D M0 pin pout (l + 1) (vstore 1 (fun _ => v) M (pout + l)).
Proof.
  intros HD Hl Hb (H1 & H2 & H3) Hv. unfold XDone. split; [|split].
  - unfold before, XorDiff, at_ in *. destruct dec; intros i Hi.
    + destruct (Z.eq_dec i l) as [->|Hne].
      * rewrite (vstore_in 1 _ M (pout + l) (pout + l)) by lia. destruct (l <? D) eqn:E.
        -- rewrite Hv, !Z.lxor_0_r. reflexivity.
        -- rewrite vstore_out by lia. rewrite Hv, Z.lxor_assoc, Z.lxor_nilpotent, Z.lxor_0_r. reflexivity.
      * rewrite H1 by lia. rewrite vstore_out by lia. f_equal. destruct (i <? D) eqn:E; [reflexivity|]. rewrite vstore_out by lia. reflexivity.
    + destruct (Z.eq_dec i l) as [->|Hne]; [rewrite vstore_in by lia; exact Hv|]. rewrite vstore_out by lia. apply H1. lia.
  - intros i Hi. destruct (Z.eq_dec i l) as [->|Hne]; [rewrite vstore_in by lia; exact Hb|]. rewrite vstore_out by lia. apply H2. lia.
  - intros x Hx. rewrite vstore_out by lia. apply H3. lia.
Qed.

Section Loops.
  Variables (M0 : mem) (pin n pout : Z).
  Hypothesis Hfw : forward_ok pin n pout.
  Hypothesis Hbin : forall i, 0 <= i < n -> is_byte (M0 (pin + i)).
  Hypothesis Hn : 0 <= n < 2 ^ 64.

  Lemma before_byte dec D l M : 0 < D -> 0 <= l <= n -> XDone dec D M0 pin pout l M -> forall i, 0 <= i < l + D -> is_byte (before dec D M0 pin pout M i).
  Proof. intros HD Hl (_ & H2 & _) i Hi. unfold before. destruct (i <? D) eqn:E; [unfold is_byte; lia|]. destruct dec; [apply H2; lia|apply Hbin; lia]. Qed.

  Lemma bit8_ok {S} (dec : bool) (one : (Z -> Z) -> S -> Z * S) (s0 : S) (R : S -> Z -> Prop) outSize :
    (forall a st p, is_byte a -> is_byte p -> R st p -> exists bm st', one (set1 a) st = (bm, st') /\ w8 bm = Z.lxor a p /\ R st' (if dec then Z.lxor a p else a)) ->
    R s0 0 -> pin <> 0 -> pout <> 0 -> n <= outSize ->
    exists M', bit8_run one s0 M0 pin n pout outSize = XRet n M' /\ XDone dec 1 M0 pin pout n M'.
  Proof.
    intros Hone HR0 Hp Hq Ho. unfold bit8_run. replace ((pin =? 0) || (pout =? 0) || (outSize <? n)) with false by lia.
    destruct (loop_inv (b8_step one pin n pout)
      (fun '(i, st, M) => 0 <= i <= n /\ XDone dec 1 M0 pin pout i M /\ R st (before dec 1 M0 pin pout M i))
      (fun '(i, _, _) => n - i) (XDone dec 1 M0 pin pout n) (0, s0, M0)) as (M' & E & HD).
    - intros [[i st] M] (Hi & HD & HR). unfold b8_step. destruct (i <? n) eqn:E; [|replace n with i by lia; exact HD].
      assert (Hrd : M (pin + i) = M0 (pin + i)) by (apply HD; unfold forward_ok in Hfw; lia).
      assert (Hpb : is_byte (before dec 1 M0 pin pout M i)) by (apply (before_byte dec 1 i M); try assumption; lia).
      destruct (Hone (M (pin + i)) st _ ltac:(rewrite Hrd; apply Hbin; lia) Hpb HR) as (bm & st' & E1 & E2 & E3). rewrite E1. split; [|lia]. split; [lia|].
      rewrite E2. rewrite Hrd in *. split.
      + apply xstep; try assumption; try lia. apply lxor_byte; [apply Hbin; lia|exact Hpb].
      + unfold before at 1. replace (i + 1 <? 1) with false by lia. replace (i + 1 - 1) with i by lia. destruct dec; [rewrite vstore_in by lia; exact E3|exact E3].
    - split; [lia|]. split; [|exact HR0]. unfold XDone, XorDiff. split; [destruct dec; intros; lia|]. split; [intros; lia|reflexivity].
    - lia.
    - rewrite E. exists M'. auto.
  Qed.

  Definition X16Done (dec : bool) (M' : mem) : Prop :=
    let m := n - n mod 2 in
    (if dec then XorDiff 2 (at_ M' pout) m (at_ M0 pin) else XorDiff 2 (at_ M0 pin) m (at_ M' pout)) /\
    (n mod 2 = 1 -> M' (pout + (n - 1)) = M0 (pin + (n - 1))) /\
    (forall i, 0 <= i < n -> is_byte (M' (pout + i))) /\
    (forall x, x < pout \/ pout + n <= x -> M' x = M0 x).

  Lemma bit16_ok {S} (dec : bool) (one : (Z -> Z) -> S -> Z * S) (s0 : S) (R : S -> Z -> Z -> Prop) outSize :
    (forall a b st p q, is_byte a -> is_byte b -> is_byte p -> is_byte q -> R st p q ->
       exists bm st', one (set2 a b) st = (bm, st') /\ le16 (bm mod 2 ^ 16) = [Z.lxor a p; Z.lxor b q] /\
         R st' (if dec then Z.lxor a p else a) (if dec then Z.lxor b q else b)) ->
    R s0 0 0 -> pin <> 0 -> pout <> 0 -> n <= outSize ->
    exists M', bit16_run one s0 M0 pin n pout outSize = XRet n M' /\ X16Done dec M'.
  Proof.
    intros Hone HR0 Hp Hq Ho. unfold bit16_run. replace ((pin =? 0) || (pout =? 0) || (outSize <? n)) with false by lia.
    pose proof (Z.mod_pos_bound n 2 ltac:(lia)) as Hm2. pose proof (Z.div_mod n 2 ltac:(lia)) as Hdm. set (m := n - n mod 2) in *.
    destruct (loop_inv (b16_step one pin m pout)
      (fun '(i, st, M) => (0 <= i <= m /\ exists h, i = 2 * h) /\ XDone dec 2 M0 pin pout i M /\ R st (before dec 2 M0 pin pout M i) (before dec 2 M0 pin pout M (i + 1)))
      (fun '(i, _, _) => n - i) (XDone dec 2 M0 pin pout m) (0, s0, M0)) as (M' & E & HD).
    - intros [[i st] M] ((Hi & h & Hh) & HD & HR). unfold b16_step. destruct (i <? m) eqn:E; [|replace m with i by lia; exact HD].
      assert (Hi2 : i + 2 <= m) by (unfold m in *; lia).
      assert (Hrd : M (pin + i) = M0 (pin + i)) by (apply HD; unfold forward_ok in Hfw; lia).
      assert (Hrd1 : M (pin + i + 1) = M0 (pin + (i + 1))) by (rewrite Z.add_assoc; apply HD; unfold forward_ok in Hfw; lia).
      assert (Hpb : forall k, 0 <= k < i + 2 -> is_byte (before dec 2 M0 pin pout M k)) by (intros k Hk; apply (before_byte dec 2 i M); try assumption; lia).
      destruct (Hone (M (pin + i)) (M (pin + i + 1)) st _ _ ltac:(rewrite Hrd; apply Hbin; lia) ltac:(rewrite Hrd1; apply Hbin; lia) (Hpb i ltac:(lia)) (Hpb (i + 1) ltac:(lia)) HR) as (bm & st' & E1 & E2 & E3).
      rewrite E1. split; [|lia]. split; [split; [lia|exists (h + 1); lia]|]. rewrite Hrd, Hrd1 in *. rewrite E2.
      set (a := Z.lxor (M0 (pin + i)) (before dec 2 M0 pin pout M i)) in *. set (b := Z.lxor (M0 (pin + (i + 1))) (before dec 2 M0 pin pout M (i + 1))) in *.
      assert (Hst : forall x, vstore 2 (fun j => nth (Z.to_nat j) [a; b] 0) M (pout + i) x = vstore 1 (fun _ => b) (vstore 1 (fun _ => a) M (pout + i)) (pout + (i + 1)) x).
      { intros x. destruct (Z.eq_dec x (pout + i)) as [->|Hx1].
        - rewrite (vstore_out 1 _ _ (pout + (i + 1))) by lia. rewrite !vstore_in by lia. now rewrite Z.sub_diag.
        - destruct (Z.eq_dec x (pout + (i + 1))) as [->|Hx2].
          + rewrite !vstore_in by lia. replace (pout + (i + 1) - (pout + i)) with 1 by lia. reflexivity.
          + rewrite !vstore_out by lia. reflexivity. }
      assert (HX : XDone dec 2 M0 pin pout (i + 1 + 1) (vstore 1 (fun _ => b) (vstore 1 (fun _ => a) M (pout + i)) (pout + (i + 1)))).
      { apply xstep; try lia.
        - apply lxor_byte; [apply Hbin; lia|apply Hpb; lia].
        - apply xstep; try assumption; try lia. apply lxor_byte; [apply Hbin; lia|apply Hpb; lia].
        - unfold b. f_equal. unfold before. destruct (i + 1 <? 2) eqn:E4; [reflexivity|]. destruct dec; [|reflexivity]. rewrite vstore_out by lia. reflexivity. }
      replace (i + 2) with (i + 1 + 1) by lia. split.
      + unfold XDone, XorDiff, at_ in *. destruct HX as (X1 & X2 & X3). split; [|split].
        * destruct dec; intros k Hk; rewrite !Hst; apply X1; exact Hk.
        * intros k Hk. rewrite Hst. now apply X2.
        * intros x Hx. rewrite Hst. now apply X3.
      + unfold before at 1 2. replace (i + 1 + 1 <? 2) with false by lia. replace (i + 1 + 1 + 1 <? 2) with false by lia.
        replace (i + 1 + 1 - 2) with i by lia. replace (i + 1 + 1 + 1 - 2) with (i + 1) by lia. destruct dec; [|exact E3].
        rewrite !Hst. rewrite (vstore_out 1 _ _ (pout + (i + 1)) (pout + i)) by lia. rewrite !vstore_in by lia. exact E3.
    - split; [split; [lia|exists 0; lia]|]. split; [|exact HR0]. unfold XDone, XorDiff. split; [destruct dec; intros; lia|]. split; [intros; lia|reflexivity].
    - lia.
    - rewrite E. eexists. split; [reflexivity|]. destruct HD as (D1 & D2 & D3). destruct (n mod 2 =? 1) eqn:Em.
      + assert (Hm : m = n - 1) by lia. assert (Hrd : M' (pin + n - 1) = M0 (pin + (n - 1))).
        { replace (pin + n - 1) with (pin + (n - 1)) by lia. apply D3. unfold forward_ok in Hfw. lia. }
        rewrite Hrd. split; [|split; [|split]].
        * fold m. unfold XorDiff, at_ in *. destruct dec; intros i Hi; rewrite !vstore_out by lia; apply D1; exact Hi.
        * intros _. rewrite vstore_in by lia. reflexivity.
        * intros i Hi. destruct (Z.eq_dec i (n - 1)) as [->|Hne]; [rewrite vstore_in by lia; apply Hbin; lia|]. rewrite vstore_out by lia. apply D2. lia.
        * intros x Hx. rewrite vstore_out by lia. apply D3. lia.
      + assert (Hm : m = n) by lia. split; [|split; [|split]]; fold m; rewrite ?Hm in *; try assumption. intros; lia.
  Qed.
End Loops.
