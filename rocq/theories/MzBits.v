(** The packed layouts of rle8_mmtf.c and the vector operations that produce and read them. *)
From Verif Require Import Base Simd SimdProof Spec MtfModel MtfSpec MtfProof BitMtf MzModel.

(** *** Layouts: [E] are the values, [x] the position of the first one. *)
Definition ll (L : Z) (f : Z -> Z) : list Z := map f (lanes L).
Definition raw1 (E : mem) (x : Z) : list Z := ll 16 (fun j => E (x + j)).
Definition g2 (E : mem) (x : Z) : list Z := ll 16 (fun j => E (x + j) + 4 * E (x + 16 + j) + 16 * E (x + 32 + j) + 64 * E (x + 48 + j)).
Definition t2 (E : mem) (x : Z) : list Z := ll 4 (fun j => E (x + j) + 4 * E (x + 4 + j) + 16 * E (x + 8 + j) + 64 * E (x + 12 + j)).
(** bit [b] of 8 values *)
Definition plane (E : mem) (b x : Z) : Z := mm8 (fun j => Z.testbit (E (x + j)) b).
Definition g3half (E : mem) (x : Z) : list Z := ll 16 (fun j => E (x + j) + 8 * E (x + 16 + j) + 64 * (E (x + 32 + j) mod 4)).
Definition g3 (E : mem) (x : Z) : list Z :=
  g3half E x ++ g3half E (x + 48) ++ [plane E 2 (x + 32); plane E 2 (x + 40); plane E 2 (x + 80); plane E 2 (x + 88)].
Definition t3 (E : mem) (x : Z) : list Z := [plane E 0 x; plane E 0 (x + 8); plane E 1 x; plane E 1 (x + 8); plane E 2 x; plane E 2 (x + 8)].
Definition g4 (E : mem) (x : Z) : list Z := ll 16 (fun j => 16 * E (x + j) + E (x + 16 + j)).
Definition t4 (E : mem) (x : Z) : list Z := ll 8 (fun j => E (x + j) + 16 * E (x + 8 + j)).

Lemma len_ll L f : 0 <= L -> len (ll L f) = L.
Proof. intros HL. unfold ll, len, lanes. rewrite !map_length, seq_length. lia. Qed.
Lemma nth_ll L f k : 0 <= k < L -> nth (Z.to_nat k) (ll L f) 0 = f k.
Proof. apply nth_lanes. Qed.
Lemma holds_ll M q L f : 0 <= L -> (holds M q (ll L f) <-> forall k, 0 <= k < L -> M (q + k) = f k).
Proof.
  intros HL. split.
  - intros H k Hk. rewrite (holds_nth _ _ _ k H) by (rewrite len_ll; lia). now apply nth_ll.
  - intros H. apply holds_intro. intros k Hk. rewrite len_ll in Hk by lia. rewrite nth_ll by lia. now apply H.
Qed.

(** *** Arithmetic *)
Lemma small_bits a s k : 0 <= s -> 0 <= a < 2 ^ s -> s <= k -> Z.testbit a k = false.
Proof.
  intros Hs Ha Hk. destruct (Z.eq_dec a 0) as [->|Hne]; [apply Z.bits_0|]. apply Z.bits_above_log2; [lia|]. assert (Z.log2 a < s) by (apply Z.log2_lt_pow2; lia). lia.
Qed.
Lemma cat_lor s a x : 0 <= s -> 0 <= a < 2 ^ s -> a + 2 ^ s * x = Z.lor a (Z.shiftl x s).
Proof.
  intros Hs Ha. assert (L : Z.land a (Z.shiftl x s) = 0).
  { apply Z.bits_inj'. intros k Hk. rewrite Z.land_spec, Z.bits_0. destruct (Z_lt_ge_dec k s).
    - rewrite Z.shiftl_spec_low by lia. apply andb_false_r.
    - rewrite (small_bits a s k) by lia. reflexivity. }
  rewrite <- Z.lxor_lor by exact L. rewrite <- Z.add_nocarry_lxor by exact L. rewrite Z.shiftl_mul_pow2 by lia. lia.
Qed.
Lemma lor_bound s a b : 0 <= s -> 0 <= a < 2 ^ s -> 0 <= b < 2 ^ s -> 0 <= Z.lor a b < 2 ^ s.
Proof.
  intros Hs Ha Hb. assert (0 <= Z.lor a b) by (apply Z.lor_nonneg; lia). split; [lia|].
  destruct (Z.eq_dec (Z.lor a b) 0) as [->|Hne]; [apply Z.pow_pos_nonneg; lia|]. apply Z.log2_lt_pow2; [lia|].
  rewrite Z.log2_lor by lia. assert (K : forall v, 0 <= v < 2 ^ s -> 0 < s -> Z.log2 v < s).
  { intros v Hv H1. destruct (Z.eq_dec v 0) as [->|]; [exact H1|]. apply Z.log2_lt_pow2; lia. }
  destruct (Z.eq_dec s 0) as [->|]; [exfalso; apply Hne; change (2 ^ 0) with 1 in *; replace a with 0 by lia; replace b with 0 by lia; reflexivity|].
  apply Z.max_lub_lt; apply K; lia.
Qed.
Lemma lor_cat s a b x y : 0 <= s -> 0 <= a < 2 ^ s -> 0 <= b < 2 ^ s -> Z.lor (a + 2 ^ s * x) (b + 2 ^ s * y) = Z.lor a b + 2 ^ s * Z.lor x y.
Proof.
  intros Hs Ha Hb. rewrite !cat_lor by (try assumption; now apply lor_bound). rewrite Z.shiftl_lor. rewrite <- !Z.lor_assoc. f_equal. rewrite !Z.lor_assoc. f_equal. apply Z.lor_comm.
Qed.

(** Finite checks. *)
Lemma below_check N (f : Z -> bool) : forallb f (lanes N) = true -> forall x, 0 <= x < N -> f x = true.
Proof. intros H x Hx. rewrite forallb_forall in H. apply H. now apply lanes_in. Qed.
Lemma lor4 a b c d : 0 <= a < 4 -> 0 <= b < 4 -> 0 <= c < 4 -> 0 <= d < 4 -> Z.lor (Z.lor (d * 64) (c * 16)) (Z.lor (b * 4) a) = a + 4 * b + 16 * c + 64 * d.
Proof.
  intros Ha Hb Hc Hd.
  assert (H : forallb (fun a => forallb (fun b => forallb (fun c => forallb (fun d => Z.lor (Z.lor (d * 64) (c * 16)) (Z.lor (b * 4) a) =? a + 4 * b + 16 * c + 64 * d) (lanes 4)) (lanes 4)) (lanes 4)) (lanes 4) = true) by (vm_compute; reflexivity).
  pose proof (below_check 4 _ (below_check 4 _ (below_check 4 _ (below_check 4 _ H a Ha) b Hb) c Hc) d Hd) as K. cbn beta in K. now apply Z.eqb_eq.
Qed.
Lemma lor4' a b c d : 0 <= a < 4 -> 0 <= b < 4 -> 0 <= c < 4 -> 0 <= d < 4 -> Z.lor (Z.lor (Z.lor a (b * 4)) (c * 16)) (d * 64) = a + 4 * b + 16 * c + 64 * d.
Proof.
  intros Ha Hb Hc Hd.
  assert (H : forallb (fun a => forallb (fun b => forallb (fun c => forallb (fun d => Z.lor (Z.lor (Z.lor a (b * 4)) (c * 16)) (d * 64) =? a + 4 * b + 16 * c + 64 * d) (lanes 4)) (lanes 4)) (lanes 4)) (lanes 4) = true) by (vm_compute; reflexivity).
  pose proof (below_check 4 _ (below_check 4 _ (below_check 4 _ (below_check 4 _ H a Ha) b Hb) c Hc) d Hd) as K. cbn beta in K. now apply Z.eqb_eq.
Qed.
Lemma lor3 a b c : 0 <= a < 8 -> 0 <= b < 8 -> 0 <= c < 8 -> Z.lor (Z.lor a (b * 8)) (Z.land c 3 * 64) = a + 8 * b + 64 * (c mod 4).
Proof.
  intros Ha Hb Hc.
  assert (H : forallb (fun a => forallb (fun b => forallb (fun c => Z.lor (Z.lor a (b * 8)) (Z.land c 3 * 64) =? a + 8 * b + 64 * (c mod 4)) (lanes 8)) (lanes 8)) (lanes 8) = true) by (vm_compute; reflexivity).
  pose proof (below_check 8 _ (below_check 8 _ (below_check 8 _ H a Ha) b Hb) c Hc) as K. cbn beta in K. now apply Z.eqb_eq.
Qed.
Lemma lor2 a b : 0 <= a < 16 -> 0 <= b < 16 -> Z.lor (a * 16) b = 16 * a + b.
Proof.
  intros Ha Hb. assert (H : forallb (fun a => forallb (fun b => Z.lor (a * 16) b =? 16 * a + b) (lanes 16)) (lanes 16) = true) by (vm_compute; reflexivity).
  pose proof (below_check 16 _ (below_check 16 _ H a Ha) b Hb) as K. cbn beta in K. now apply Z.eqb_eq.
Qed.
Lemma bits3 e : 0 <= e < 8 -> Z.lor (e mod 4) ((if Z.testbit e 2 then 1 else 0) * 4) = e /\
  Z.lor (Z.lor ((if Z.testbit e 1 then 1 else 0) * 2) ((if Z.testbit e 2 then 1 else 0) * 4)) (if Z.testbit e 0 then 1 else 0) = e.
Proof.
  intros He. assert (H : forallb (fun e => (Z.lor (e mod 4) ((if Z.testbit e 2 then 1 else 0) * 4) =? e) &&
    (Z.lor (Z.lor ((if Z.testbit e 1 then 1 else 0) * 2) ((if Z.testbit e 2 then 1 else 0) * 4)) (if Z.testbit e 0 then 1 else 0) =? e)) (lanes 8) = true) by (vm_compute; reflexivity).
  pose proof (below_check 8 _ H e He) as K. cbn beta in K. apply andb_prop in K as [K1 K2]. split; now apply Z.eqb_eq.
Qed.
Lemma mm8_testbit f j : 0 <= j < 8 -> Z.testbit (mm8 f) j = f j.
Proof.
  intros Hj. assert (Hc : j = 0 \/ j = 1 \/ j = 2 \/ j = 3 \/ j = 4 \/ j = 5 \/ j = 6 \/ j = 7) by lia. unfold mm8.
  assert (K : forall b0 b1 b2 b3 b4 b5 b6 b7 : bool, let v := sel b0 1 + (sel b1 2 + (sel b2 4 + (sel b3 8 + (sel b4 16 + (sel b5 32 + (sel b6 64 + sel b7 128)))))) in
    Z.testbit v 0 = b0 /\ Z.testbit v 1 = b1 /\ Z.testbit v 2 = b2 /\ Z.testbit v 3 = b3 /\ Z.testbit v 4 = b4 /\ Z.testbit v 5 = b5 /\ Z.testbit v 6 = b6 /\ Z.testbit v 7 = b7).
  { intros [] [] [] [] [] [] [] []; vm_compute; repeat split. }
  destruct (K (f 0) (f 1) (f 2) (f 3) (f 4) (f 5) (f 6) (f 7)) as (K0 & K1 & K2 & K3 & K4 & K5 & K6 & K7).
  repeat (destruct Hc as [-> | Hc]; [assumption|]). subst j. assumption.
Qed.

(** *** Shifts of 16 bit lanes *)
Lemma lane_case j : 0 <= j < 16 -> (j mod 2 = 0 /\ 0 <= j < 15) \/ (j mod 2 = 1 /\ 1 <= j < 16).
Proof. intros. lia. Qed.
Lemma sll_small k v j : 0 <= k -> (forall i, 0 <= i < 16 -> 0 <= v i /\ v i * 2 ^ k < 256) -> 0 <= j < 16 -> sll16 k v j = v j * 2 ^ k.
Proof.
  intros Hk Hv Hj. unfold sll16, lane16. assert (0 < 2 ^ k) by (apply Z.pow_pos_nonneg; lia). destruct (lane_case j Hj) as [[E He]|[E He]]; rewrite E.
  - rewrite Z.sub_0_r. pose proof (Hv j ltac:(lia)) as [A1 A2]. pose proof (Hv (j + 1) ltac:(lia)) as [B1 B2]. rewrite Z.pow_0_r, Z.div_1_r.
    rewrite Z.mul_add_distr_r. rewrite <- Z.mul_assoc. assert (0 <= v j * 2 ^ k) by nia. assert (0 <= v (j + 1) * 2 ^ k) by nia. set (a := v j * 2 ^ k) in *. set (b := v (j + 1) * 2 ^ k) in *.
    clearbody a b. clear - A2 B2 H0 H1. lia.
  - replace (j - 1 + 1) with j by lia. pose proof (Hv (j - 1) ltac:(lia)) as [A1 A2]. pose proof (Hv j ltac:(lia)) as [B1 B2]. rewrite Z.pow_1_r.
    rewrite Z.mul_add_distr_r. rewrite <- Z.mul_assoc. assert (0 <= v (j - 1) * 2 ^ k) by nia. assert (0 <= v j * 2 ^ k) by nia. set (a := v (j - 1) * 2 ^ k) in *. set (b := v j * 2 ^ k) in *.
    clearbody a b. clear - A2 B2 H0 H1. lia.
Qed.
(** The top bit after a shift by 7 - b is bit b. *)
Lemma sll_top b v j : 0 <= b < 3 -> (forall i, 0 <= i < 16 -> 0 <= v i < 8) -> 0 <= j < 16 -> (128 <=? sll16 (7 - b) v j) = Z.testbit (v j) b.
Proof.
  intros Hb Hv Hj. unfold sll16, lane16.
  assert (K : forall lo hi, 0 <= lo < 8 -> 0 <= hi < 8 -> (128 <=? ((lo + 256 * hi) * 2 ^ (7 - b)) mod 65536 / 256 ^ 0 mod 256) = Z.testbit lo b /\
      (128 <=? ((lo + 256 * hi) * 2 ^ (7 - b)) mod 65536 / 256 ^ 1 mod 256) = Z.testbit hi b).
  { intros lo hi Hlo Hhi.
    assert (H : forallb (fun b => forallb (fun lo => forallb (fun hi => Bool.eqb (128 <=? ((lo + 256 * hi) * 2 ^ (7 - b)) mod 65536 / 256 ^ 0 mod 256) (Z.testbit lo b) &&
      Bool.eqb (128 <=? ((lo + 256 * hi) * 2 ^ (7 - b)) mod 65536 / 256 ^ 1 mod 256) (Z.testbit hi b)) (lanes 8)) (lanes 8)) (lanes 3) = true) by (vm_compute; reflexivity).
    pose proof (below_check 8 _ (below_check 8 _ (below_check 3 _ H b Hb) lo Hlo) hi Hhi) as K. cbn beta in K. apply andb_prop in K as [K1 K2]. split; now apply Bool.eqb_prop. }
  destruct (lane_case j Hj) as [[E He]|[E He]]; rewrite E.
  - rewrite Z.sub_0_r. apply K; apply Hv; lia.
  - replace (j - 1 + 1) with j by lia. apply K; apply Hv; lia.
Qed.
Lemma srl_field k w v j : List.In (k, w) [(2, 2); (4, 2); (6, 2); (3, 3); (4, 4)] -> (forall i, 0 <= i < 16 -> is_byte (v i)) -> 0 <= j < 16 ->
  Z.land (srl16 k v j) (2 ^ w - 1) = (v j / 2 ^ k) mod 2 ^ w.
Proof.
  intros Hkw Hv Hj. unfold srl16, lane16.
  assert (K : forall lo hi, is_byte lo -> is_byte hi -> Z.land ((lo + 256 * hi) / 2 ^ k / 256 ^ 0 mod 256) (2 ^ w - 1) = (lo / 2 ^ k) mod 2 ^ w /\
     Z.land ((lo + 256 * hi) / 2 ^ k / 256 ^ 1 mod 256) (2 ^ w - 1) = (hi / 2 ^ k) mod 2 ^ w).
  { intros lo hi Hlo Hhi. unfold is_byte in *. clear Hv Hj. replace (2 ^ w - 1) with (Z.ones w) by (rewrite Z.ones_equiv; lia).
    cbn [List.In] in Hkw. assert (Hw : 0 <= w) by (repeat (destruct Hkw as [Hkw|Hkw]; [injection Hkw as <- <-; lia|]); destruct Hkw).
    rewrite !Z.land_ones by exact Hw. clear Hw.
    repeat (destruct Hkw as [Hkw|Hkw]; [injection Hkw as <- <-|]); try destruct Hkw;
      change (256 ^ 0) with 1; change (256 ^ 1) with 256; change (2 ^ 2) with 4; change (2 ^ 3) with 8; change (2 ^ 4) with 16; change (2 ^ 6) with 64; split; lia. }
  destruct (lane_case j Hj) as [[E He]|[E He]]; rewrite E.
  - rewrite Z.sub_0_r. apply K; apply Hv; lia.
  - replace (j - 1 + 1) with j by lia. apply K; apply Hv; lia.
Qed.
Lemma land_low w v : 0 <= w -> Z.land v (2 ^ w - 1) = v mod 2 ^ w.
Proof. intros Hw. rewrite <- Z.land_ones by exact Hw. f_equal. rewrite Z.ones_equiv. lia. Qed.

Lemma movemask8_ok b v : 0 <= b < 3 -> (forall i, 0 <= i < 16 -> 0 <= v i < 8) ->
  movemask8 (sll16 (7 - b) v) = mm8 (fun j => Z.testbit (v j) b) + 256 * mm8 (fun j => Z.testbit (v (8 + j)) b).
Proof.
  intros Hb Hv. unfold movemask8. rewrite movemask_split. f_equal; [|f_equal]; apply mm8_ext; intros j Hj; rewrite sll_top by (try assumption; lia); [reflexivity|].
  now replace (j + 8) with (8 + j) by lia.
Qed.

(** *** Little endian *)
Lemma rd32_ll M q f : (forall k, 0 <= k < 4 -> M (q + k) = f k) -> rd32 M q = f 0 + 2 ^ 8 * (f 1 + 2 ^ 8 * (f 2 + 2 ^ 8 * f 3)).
Proof. intros H. unfold rd32. rewrite <- (H 0), <- (H 1), <- (H 2), <- (H 3) by lia. rewrite Z.add_0_r. change (2 ^ 8) with 256. lia. Qed.
Lemma le32_four a b c d : is_byte a -> is_byte b -> is_byte c -> is_byte d -> le32 (a + 2 ^ 8 * (b + 2 ^ 8 * (c + 2 ^ 8 * d))) = [a; b; c; d].
Proof. unfold is_byte, le32. intros. change (2 ^ 8) with 256. f_equal; [lia|]. f_equal; [lia|]. f_equal; [lia|]. f_equal. lia. Qed.

(** *** What is read from the layouts *)
Definition Reads (unpack : mem -> Z -> list (Z -> Z)) (lay : mem -> Z -> list Z) (g w : Z) : Prop :=
  forall C p E x, holds C p (lay E x) -> (forall i, x <= i < x + 16 * g -> 0 <= E i < 2 ^ w) ->
    len (unpack C p) = g /\
    forall m j, 0 <= m < g -> 0 <= j < 16 -> nth (Z.to_nat m) (unpack C p) (fun _ => 0) j = E (x + 16 * m + j).

Lemma load_at M p j : 0 <= j < 16 -> load M p j = M (p + j).
Proof. intros Hj. unfold load. now rewrite vec_at. Qed.

Lemma reads_raw : Reads unraw raw1 1 8.
Proof.
  intros C p E x H HE. split; [reflexivity|]. intros m j Hm Hj. replace m with 0 by lia. cbn [unraw Z.to_nat nth]. rewrite load_at by exact Hj.
  unfold raw1 in H. rewrite holds_ll in H by lia. rewrite H by exact Hj. f_equal. lia.
Qed.

Ltac pick := match goal with |- nth (Z.to_nat ?z) _ _ _ = _ => let k := eval vm_compute in (Z.to_nat z) in change (Z.to_nat z) with k end; cbn [nth].
Ltac four m := assert (m = 0 \/ m = 1 \/ m = 2 \/ m = 3) as [-> | [-> | [-> | ->]]] by lia.

Lemma reads_2 : Reads un2 g2 4 2.
Proof.
  intros C p E x H HE. split; [reflexivity|]. unfold g2 in H. rewrite holds_ll in H by lia. change (2 ^ 2) with 4 in HE.
  assert (HL : forall i, 0 <= i < 16 -> load C p i = E (x + i) + 4 * E (x + 16 + i) + 16 * E (x + 32 + i) + 64 * E (x + 48 + i)) by (intros i Hi; rewrite load_at by exact Hi; now apply H).
  assert (HB : forall i, 0 <= i < 16 -> is_byte (load C p i)).
  { intros i Hi. rewrite HL by exact Hi. pose proof (HE (x + i)). pose proof (HE (x + 16 + i)). pose proof (HE (x + 32 + i)). pose proof (HE (x + 48 + i)). unfold is_byte. lia. }
  intros m j Hm Hj. pose proof (HE (x + j) ltac:(lia)). pose proof (HE (x + 16 + j) ltac:(lia)). pose proof (HE (x + 32 + j) ltac:(lia)). pose proof (HE (x + 48 + j) ltac:(lia)).
  unfold un2. cbn [map]. four m; pick; rewrite vec_at by exact Hj; unfold vand; change 3 with (2 ^ 2 - 1).
  - rewrite land_low, HL by (try exact Hj; lia). rewrite Z.mul_0_r, Z.add_0_r. change (2 ^ 2) with 4. lia.
  - rewrite srl_field, HL by (try assumption; cbn; tauto). change (16 * 1) with 16. change (2 ^ 2) with 4. lia.
  - rewrite srl_field, HL by (try assumption; cbn; tauto). change (16 * 2) with 32. change (2 ^ 2) with 4. change (2 ^ 4) with 16. lia.
  - rewrite srl_field, HL by (try assumption; cbn; tauto). change (16 * (2 ^ 2 - 1)) with 48. change (2 ^ 2) with 4. change (2 ^ 6) with 64. lia.
Qed.

Lemma case4 k : 0 <= k < 4 -> k = 0 \/ k = 1 \/ k = 2 \/ k = 3.
Proof. lia. Qed.
Lemma case8 k : 0 <= k < 8 -> k = 0 \/ k = 1 \/ k = 2 \/ k = 3 \/ k = 4 \/ k = 5 \/ k = 6 \/ k = 7.
Proof. lia. Qed.
(** Byte [k] of a little endian number shifted right by less than a byte, its low bits. *)
Lemma byte_field P m c rest : 0 < P -> 0 < m -> (P * m | 256) -> is_byte c -> ((c + 256 * rest) / P mod 256) mod m = (c / P) mod m.
Proof.
  intros HP Hm [d Hd] Hc. rewrite <- (Znumtheory.Zmod_div_mod m 256) by (try lia; exists (d * P); lia).
  replace (c + 256 * rest) with (c + (d * m * rest) * P) by (rewrite Hd; ring). rewrite Z.div_add by lia. replace (d * m * rest) with (d * rest * m) by ring. apply Z_mod_plus_full.
Qed.
Lemma byte_nth P k c0 rest : 0 < P -> 0 <= k -> is_byte c0 -> (c0 + 256 * rest) / P / 256 ^ (k + 1) = rest / P / 256 ^ k.
Proof.
  intros HP Hk Hc. assert (0 < 256 ^ k) by (apply Z.pow_pos_nonneg; lia). rewrite Z.pow_add_r by lia. change (256 ^ 1) with 256.
  rewrite !Z.div_div by nia. replace (P * (256 ^ k * 256)) with (256 * (P * 256 ^ k)) by ring. rewrite <- (Z.div_div _ 256) by nia.
  f_equal. unfold is_byte in Hc. lia.
Qed.

Fixpoint lenum (l : list Z) : Z := match l with [] => 0 | c :: r => c + 256 * lenum r end.
Lemma lenum_field P m l k : 0 < P -> 0 < m -> (P * m | 256) -> Forall is_byte l -> 0 <= k < len l ->
  ((lenum l / P / 256 ^ k) mod 256) mod m = (nth (Z.to_nat k) l 0 / P) mod m.
Proof.
  intros HP Hm Hd. revert k. induction l as [|c l IH]; intros k Hl Hk; [change (len (@nil Z)) with 0 in Hk; lia|]. rewrite len_cons in Hk. inversion Hl; subst. cbn [lenum].
  destruct (Z.eq_dec k 0) as [->|Hne].
  - change (256 ^ 0) with 1. rewrite Z.div_1_r. cbn [nth Z.to_nat]. now apply byte_field.
  - replace k with (k - 1 + 1) by lia. rewrite byte_nth by (try assumption; lia). replace (Z.to_nat (k - 1 + 1)) with (S (Z.to_nat (k - 1))) by lia. cbn [nth]. apply IH; [assumption|lia].
Qed.
Lemma lenum_bound l : Forall is_byte l -> 0 <= lenum l < 256 ^ len l.
Proof.
  induction 1 as [|c l Hc Hl IH]; [cbn; lia|]. rewrite len_cons. cbn [lenum]. pose proof (len_nonneg l). rewrite Z.pow_add_r by lia. change (256 ^ 1) with 256. unfold is_byte in Hc. lia.
Qed.
Lemma lenum_app a b : lenum (a ++ b) = lenum a + 256 ^ len a * lenum b.
Proof.
  induction a as [|c a IH]; [change (len (@nil Z)) with 0; cbn [app lenum]; lia|]. cbn [app lenum]. rewrite IH, len_cons. pose proof (len_nonneg a). rewrite Z.pow_add_r by lia. change (256 ^ 1) with 256. ring.
Qed.
Lemma rd32_lenum M q l : len l = 4 -> holds M q l -> rd32 M q = lenum l.
Proof.
  intros Hl H. unfold rd32. pose proof (holds_nth _ _ _ 0 H ltac:(lia)) as H0. rewrite Z.add_0_r in H0.
  rewrite H0, (holds_nth _ _ _ 1 H), (holds_nth _ _ _ 2 H), (holds_nth _ _ _ 3 H) by lia.
  destruct l as [|a [|b [|c [|d [|]]]]]; unfold len in Hl; cbn [length] in Hl; try lia. change (Z.to_nat 0) with 0%nat. change (Z.to_nat 2) with 2%nat. change (Z.to_nat 3) with 3%nat. change (Z.to_nat 1) with 1%nat. cbn [lenum nth]. lia.
Qed.
Lemma rd64_lenum M q l : len l = 8 -> holds M q l -> rd64 M q = lenum l.
Proof.
  intros Hl H. pose proof (firstn_skipn 4 l) as E. unfold rd64. assert (L4 : len (firstn 4 l) = 4) by (unfold len in *; rewrite firstn_length; lia).
  rewrite <- E in H. apply holds_app in H as [H1 H2]. rewrite L4 in H2. rewrite (rd32_lenum M q _ L4 H1). rewrite (rd32_lenum M (q + 4) (skipn 4 l)) by (try assumption; unfold len in *; rewrite skipn_length; lia).
  rewrite <- E at 3. rewrite lenum_app, L4. reflexivity.
Qed.
Lemma Forall_ll (Q : Z -> Prop) L f : (forall k, 0 <= k < L -> Q (f k)) -> Forall Q (ll L f).
Proof. intros H. unfold ll. rewrite Forall_map, Forall_forall. intros k Hk. apply H. now apply lanes_in. Qed.

Lemma reads_2t : Reads un2_tail t2 1 2.
Proof.
  intros C p E x H HE. split; [reflexivity|]. change (2 ^ 2) with 4 in HE.
  intros m j Hm Hj. replace m with 0 by lia. unfold un2_tail. pick. rewrite vec_at by exact Hj. rewrite Z.mul_0_r, Z.add_0_r.
  assert (K : forall k, 0 <= k < 4 -> (0 <= E (x + k) < 4 /\ 0 <= E (x + 4 + k) < 4) /\ (0 <= E (x + 8 + k) < 4 /\ 0 <= E (x + 12 + k) < 4)) by (intros k Hk; repeat split; apply HE; lia).
  rewrite (rd32_lenum C p (t2 E x)) by (try exact H; unfold t2; apply len_ll; lia).
  assert (HF : Forall is_byte (t2 E x)) by (apply Forall_ll; intros k Hk; pose proof (K k Hk); unfold is_byte; lia).
  change 3 with (2 ^ 2 - 1). rewrite land_low by lia. change (2 ^ 2) with 4.
  assert (Hk : 0 <= j mod 4 < 4) by lia.
  rewrite lenum_field; [| apply Z.pow_pos_nonneg; lia | lia | | exact HF | unfold t2; rewrite len_ll; lia].
  - unfold t2. rewrite nth_ll by exact Hk. pose proof (K _ Hk) as KK. assert (Hi : 0 <= j / 4 < 4) by lia.
    assert (Hd : x + j = x + 4 * (j / 4) + j mod 4) by lia. rewrite Hd. clear Hd. set (i := j / 4) in *. set (k := j mod 4) in *. clearbody i k. clear - KK Hi.
    destruct (case4 i Hi) as [-> | [-> | [-> | ->]]].
    + change (2 * 0) with 0. change (2 ^ 0) with 1. change (4 * 0) with 0. rewrite Z.add_0_r. lia.
    + change (2 * 1) with 2. change (2 ^ 2) with 4. change (4 * 1) with 4. lia.
    + change (2 * 2) with 4. change (2 ^ 4) with 16. change (4 * 2) with 8. lia.
    + change (2 * 3) with 6. change (2 ^ 6) with 64. change (4 * 3) with 12. lia.
  - assert (Hi : 0 <= j / 4 < 4) by lia. destruct (case4 _ Hi) as [-> | [-> | [-> | ->]]]; [exists 64|exists 16|exists 4|exists 1]; reflexivity.
Qed.

Lemma reads_4 : Reads un4 g4 2 4.
Proof.
  intros C p E x H HE. split; [reflexivity|]. unfold g4 in H. rewrite holds_ll in H by lia. change (2 ^ 4) with 16 in HE.
  assert (HL : forall i, 0 <= i < 16 -> load C p i = 16 * E (x + i) + E (x + 16 + i)) by (intros i Hi; rewrite load_at by exact Hi; now apply H).
  assert (HB : forall i, 0 <= i < 16 -> is_byte (load C p i)).
  { intros i Hi. rewrite HL by exact Hi. pose proof (HE (x + i)). pose proof (HE (x + 16 + i)). unfold is_byte. lia. }
  intros m j Hm Hj. pose proof (HE (x + j) ltac:(lia)). pose proof (HE (x + 16 + j) ltac:(lia)).
  unfold un4. cbn [map]. assert (m = 0 \/ m = 1) as [-> | ->] by lia; pick; rewrite vec_at by exact Hj; unfold vand; change 15 with (2 ^ 4 - 1).
  - rewrite srl_field, HL by (try assumption; cbn; tauto). rewrite Z.mul_0_r, Z.add_0_r. change (2 ^ 4) with 16. lia.
  - rewrite land_low, HL by (try exact Hj; lia). change (16 * 1) with 16. change (2 ^ 4) with 16. lia.
Qed.

Lemma reads_4t : Reads un4_tail t4 1 4.
Proof.
  intros C p E x H HE. split; [reflexivity|]. change (2 ^ 4) with 16 in HE.
  intros m j Hm Hj. replace m with 0 by lia. unfold un4_tail. pick. rewrite vec_at by exact Hj. rewrite Z.mul_0_r, Z.add_0_r.
  assert (K : forall k, 0 <= k < 8 -> (0 <= E (x + k) < 16 /\ 0 <= E (x + 8 + k) < 16)) by (intros k Hk; repeat split; apply HE; lia).
  rewrite (rd64_lenum C p (t4 E x)) by (try exact H; unfold t4; apply len_ll; lia).
  assert (HF : Forall is_byte (t4 E x)) by (apply Forall_ll; intros k Hk; pose proof (K k Hk); unfold is_byte; lia).
  change 15 with (2 ^ 4 - 1). rewrite land_low by lia. change (2 ^ 4) with 16.
  assert (Hk : 0 <= j mod 8 < 8) by lia.
  assert (Hi : j / 8 = 0 \/ j / 8 = 1) by lia.
  rewrite lenum_field; [| apply Z.pow_pos_nonneg; lia | lia | | exact HF | unfold t4; rewrite len_ll; lia].
  - unfold t4. rewrite nth_ll by exact Hk. pose proof (K _ Hk) as KK.
    assert (Hd : x + j = x + 8 * (j / 8) + j mod 8) by lia. rewrite Hd. clear Hd. set (i := j / 8) in *. set (k := j mod 8) in *. clearbody i k. clear - KK Hi.
    destruct Hi as [-> | ->].
    + change (4 * 0) with 0. change (2 ^ 0) with 1. change (8 * 0) with 0. rewrite Z.add_0_r. lia.
    + change (4 * 1) with 4. change (2 ^ 4) with 16. change (8 * 1) with 8. lia.
  - destruct Hi as [-> | ->]; [exists 16|exists 1]; reflexivity.
Qed.

(** *** Masks *)
Lemma bitsel_ok v j : 0 <= j -> bitsel v j = if Z.testbit (v j) (j mod 8) then 1 else 0.
Proof.
  intros Hj. unfold bitsel. rewrite Z.land_comm. rewrite land_pow2 by lia. assert (0 < 2 ^ (j mod 8)) by (apply Z.pow_pos_nonneg; lia). destruct (Z.testbit _ _); cbn [sel]; lia.
Qed.
Lemma case16 j : 0 <= j < 16 -> j = 0 \/ j = 1 \/ j = 2 \/ j = 3 \/ j = 4 \/ j = 5 \/ j = 6 \/ j = 7 \/ j = 8 \/ j = 9 \/ j = 10 \/ j = 11 \/ j = 12 \/ j = 13 \/ j = 14 \/ j = 15.
Proof. lia. Qed.
Ltac sixteen H := repeat (destruct H as [-> | H]); try subst.
Lemma unpack3_lo (v : Z -> Z) j : 0 <= j < 16 -> let a := unpacklo v v in let a := unpacklo a a in unpacklo a a j = v (j / 8) /\ unpackhi a a j = v (2 + j / 8).
Proof.
  intros Hj. pose proof (case16 j Hj) as Hc. clear Hj. cbn zeta. unfold unpacklo, unpackhi. repeat (destruct Hc as [-> | Hc]; [split; reflexivity|]). subst j. split; reflexivity.
Qed.
Lemma lenum_byte l k : Forall is_byte l -> 0 <= k < len l -> (lenum l / 256 ^ k) mod 256 = nth (Z.to_nat k) l 0.
Proof.
  intros Hl Hk. pose proof (lenum_field 1 256 l k ltac:(lia) ltac:(lia) ltac:(exists 1; reflexivity) Hl Hk) as K. rewrite !Z.div_1_r in K. rewrite Z.mod_mod in K by lia. rewrite K.
  apply Z.mod_small. rewrite Forall_forall in Hl. apply Hl. apply nth_In. unfold len in Hk. lia.
Qed.
Lemma rd16_lenum M q l : len l = 2 -> holds M q l -> rd16 M q = lenum l.
Proof.
  intros Hl H. unfold rd16. pose proof (holds_nth _ _ _ 0 H ltac:(lia)) as H0. rewrite Z.add_0_r in H0.
  rewrite H0, (holds_nth _ _ _ 1 H) by lia.
  destruct l as [|a [|b [|]]]; unfold len in Hl; cbn [length] in Hl; try lia. change (Z.to_nat 0) with 0%nat. change (Z.to_nat 1) with 1%nat. cbn [lenum nth]. lia.
Qed.

(** Four bytes, each with the bits of 8 lanes. *)
Lemma spread32 (f0 f1 f2 f3 : Z -> bool) M q j : holds M q [mm8 f0; mm8 f1; mm8 f2; mm8 f3] -> 0 <= j < 16 ->
  let v := set1_32 (rd32 M q) in let v := unpacklo v v in let v := unpacklo v v in
  bitsel (unpacklo v v) j = (if (if j <? 8 then f0 j else f1 (j - 8)) then 1 else 0) /\
  bitsel (unpackhi v v) j = (if (if j <? 8 then f2 j else f3 (j - 8)) then 1 else 0).
Proof.
  intros H Hj. cbn zeta. rewrite !bitsel_ok by lia. destruct (unpack3_lo (set1_32 (rd32 M q)) j Hj) as [A B]. cbn zeta in A, B. rewrite A, B. clear A B.
  rewrite (rd32_lenum M q [mm8 f0; mm8 f1; mm8 f2; mm8 f3] eq_refl H). assert (HF : Forall is_byte [mm8 f0; mm8 f1; mm8 f2; mm8 f3]) by (repeat (apply Forall_cons; [apply mm8_byte|]); apply Forall_nil).
  unfold set1_32. rewrite !lenum_byte by (try exact HF; change (len [mm8 f0; mm8 f1; mm8 f2; mm8 f3]) with 4; lia).
  assert (Hm : 0 <= j mod 8 < 8) by lia. destruct (j <? 8) eqn:E.
  - assert (j / 8 = 0) as -> by lia. change (0 mod 4) with 0. change ((2 + 0) mod 4) with 2. change (Z.to_nat 0) with 0%nat. change (Z.to_nat 2) with 2%nat. cbn [nth]. rewrite !mm8_testbit by exact Hm.
    assert (j mod 8 = j) as -> by lia. now split.
  - assert (j / 8 = 1) as -> by lia. change (1 mod 4) with 1. change ((2 + 1) mod 4) with 3. change (Z.to_nat 1) with 1%nat. change (Z.to_nat 3) with 3%nat. cbn [nth]. rewrite !mm8_testbit by exact Hm.
    assert (j mod 8 = j - 8) as -> by lia. now split.
Qed.
Lemma spread16 (f0 f1 : Z -> bool) M q j : holds M q [mm8 f0; mm8 f1] -> 0 <= j < 16 ->
  let v := set1_16 (rd16 M q) in let v := unpacklo v v in let v := unpacklo v v in
  bitsel (unpacklo v v) j = (if (if j <? 8 then f0 j else f1 (j - 8)) then 1 else 0).
Proof.
  intros H Hj. cbn zeta. rewrite !bitsel_ok by lia. destruct (unpack3_lo (set1_16 (rd16 M q)) j Hj) as [A B]. cbn zeta in A, B. rewrite A. clear A B.
  rewrite (rd16_lenum M q [mm8 f0; mm8 f1] eq_refl H). assert (HF : Forall is_byte [mm8 f0; mm8 f1]) by (repeat (apply Forall_cons; [apply mm8_byte|]); apply Forall_nil).
  unfold set1_16. rewrite !lenum_byte by (try exact HF; change (len [mm8 f0; mm8 f1]) with 2; lia).
  assert (Hm : 0 <= j mod 8 < 8) by lia. destruct (j <? 8) eqn:E.
  - assert (j / 8 = 0) as -> by lia. change (0 mod 2) with 0. change (Z.to_nat 0) with 0%nat. cbn [nth]. rewrite !mm8_testbit by exact Hm.
    assert (j mod 8 = j) as -> by lia. reflexivity.
  - assert (j / 8 = 1) as -> by lia. change (1 mod 2) with 1. change (Z.to_nat 1) with 1%nat. cbn [nth]. rewrite !mm8_testbit by exact Hm.
    assert (j mod 8 = j - 8) as -> by lia. reflexivity.
Qed.
Lemma plane_pair E b x j : (if j <? 8 then (fun k => Z.testbit (E (x + k)) b) j else (fun k => Z.testbit (E (x + 8 + k)) b) (j - 8)) = Z.testbit (E (x + j)) b.
Proof. cbn beta. destruct (j <? 8); [reflexivity|]. now replace (x + 8 + (j - 8)) with (x + j) by lia. Qed.

Lemma reads_3t : Reads un3_tail t3 1 3.
Proof.
  intros C p E x H HE. split; [reflexivity|]. change (2 ^ 3) with 8 in HE.
  intros m j Hm Hj. replace m with 0 by lia. unfold un3_tail. pick. rewrite vec_at by exact Hj. rewrite Z.mul_0_r, Z.add_0_r.
  unfold t3 in H. change [plane E 0 x; plane E 0 (x + 8); plane E 1 x; plane E 1 (x + 8); plane E 2 x; plane E 2 (x + 8)]
    with ([plane E 0 x; plane E 0 (x + 8)] ++ [plane E 1 x; plane E 1 (x + 8)] ++ [plane E 2 x; plane E 2 (x + 8)]) in H.
  apply holds_app in H as [H0 H]. change (len [plane E 0 x; plane E 0 (x + 8)]) with 2 in H. apply holds_app in H as [H1 H2]. change (len [plane E 1 x; plane E 1 (x + 8)]) with 2 in H2.
  replace (p + 2 + 2) with (p + 4) in H2 by lia. unfold plane in H0, H1, H2. unfold vor.
  assert (S : forall b q, holds C q [mm8 (fun j => Z.testbit (E (x + j)) b); mm8 (fun j => Z.testbit (E (x + 8 + j)) b)] -> forall i, 0 <= i < 16 ->
    (let v := set1_16 (rd16 C q) in let v := unpacklo v v in let v := unpacklo v v in bitsel (unpacklo v v) i) = if Z.testbit (E (x + i)) b then 1 else 0).
  { intros b q Hq i Hi. pose proof (spread16 _ _ C q i Hq Hi) as K. cbn beta in K. pose proof (plane_pair E b x i) as PP. cbn beta in PP. rewrite PP in K. exact K. }
  cbn zeta in S |- *.
  rewrite (sll_small 1) by (try exact Hj; try lia; intros i Hi; rewrite (S _ _ H1 i Hi); destruct (Z.testbit _ _); change (2 ^ 1) with 2; lia).
  rewrite (sll_small 2) by (try exact Hj; try lia; intros i Hi; rewrite (S _ _ H2 i Hi); destruct (Z.testbit _ _); change (2 ^ 2) with 4; lia).
  rewrite (S _ _ H0 j Hj), (S _ _ H1 j Hj), (S _ _ H2 j Hj). change (2 ^ 1) with 2. change (2 ^ 2) with 4. apply bits3. apply HE. lia.
Qed.

Lemma reads_3half C p E x j : holds C p (g3half E x) -> (forall i, x <= i < x + 48 -> 0 <= E i < 8) -> 0 <= j < 16 ->
  Z.land (load C p j) 7 = E (x + j) /\ Z.land (srl16 3 (load C p) j) 7 = E (x + 16 + j) /\ Z.land (srl16 6 (load C p) j) 3 = E (x + 32 + j) mod 4.
Proof.
  intros H HE Hj. unfold g3half in H. rewrite holds_ll in H by lia.
  assert (HL : forall i, 0 <= i < 16 -> load C p i = E (x + i) + 8 * E (x + 16 + i) + 64 * (E (x + 32 + i) mod 4)) by (intros i Hi; rewrite load_at by exact Hi; now apply H).
  assert (HB : forall i, 0 <= i < 16 -> is_byte (load C p i)).
  { intros i Hi. rewrite HL by exact Hi. pose proof (HE (x + i)). pose proof (HE (x + 16 + i)). unfold is_byte. lia. }
  pose proof (HE (x + j) ltac:(lia)). pose proof (HE (x + 16 + j) ltac:(lia)). pose proof (HE (x + 32 + j) ltac:(lia)).
  assert (E7 : 7 = 2 ^ 3 - 1) by reflexivity. assert (E3 : 3 = 2 ^ 2 - 1) by reflexivity.
  repeat split.
  - rewrite E7, land_low, HL by (try exact Hj; lia). change (2 ^ 3) with 8. lia.
  - rewrite E7, srl_field, HL by (try assumption; cbn; tauto). change (2 ^ 3) with 8. lia.
  - rewrite E3, srl_field, HL by (try assumption; cbn; tauto). change (2 ^ 2) with 4. change (2 ^ 6) with 64. lia.
Qed.
Lemma reads_3 : Reads un3 g3 6 3.
Proof.
  intros C p E x H HE. split; [reflexivity|]. change (2 ^ 3) with 8 in HE. change (16 * 6) with 96 in HE.
  unfold g3 in H. apply holds_app in H as [HA H]. assert (L : forall y, len (g3half E y) = 16) by (intros; apply len_ll; lia). rewrite L in H. apply holds_app in H as [HB HM]. rewrite L in HM. clear L.
  replace (p + 16 + 16) with (p + 32) in HM by lia.
  intros m j Hm Hj. unfold un3. cbn [map].
  destruct (reads_3half C p E x j HA ltac:(intros; apply HE; lia) Hj) as (A0 & A1 & A2).
  destruct (reads_3half C (p + 16) E (x + 48) j HB ltac:(intros; apply HE; lia) Hj) as (B0 & B1 & B2).
  unfold plane in HM. pose proof (fun i Hi => spread32 _ _ _ _ C (p + 32) i HM Hi) as S. cbn zeta in S.
  set (u := set1_32 (rd32 C (p + 32))) in *. set (v := unpacklo (unpacklo u u) (unpacklo u u)) in *.
  assert (S0 : forall i, 0 <= i < 16 -> bitsel (unpacklo v v) i = if Z.testbit (E (x + 32 + i)) 2 then 1 else 0).
  { intros i Hi. destruct (S i Hi) as [K _]. cbn beta in K. replace (x + 40) with (x + 32 + 8) in K by lia. pose proof (plane_pair E 2 (x + 32) i) as PP. cbn beta in PP. rewrite PP in K. exact K. }
  assert (S1 : forall i, 0 <= i < 16 -> bitsel (unpackhi v v) i = if Z.testbit (E (x + 80 + i)) 2 then 1 else 0).
  { intros i Hi. destruct (S i Hi) as [_ K]. cbn beta in K. replace (x + 88) with (x + 80 + 8) in K by lia. pose proof (plane_pair E 2 (x + 80) i) as PP. cbn beta in PP. rewrite PP in K. exact K. }
  clear S. clearbody v.
  assert (m = 0 \/ m = 1 \/ m = 2 \/ m = 3 \/ m = 4 \/ m = 5) as [-> | [-> | [-> | [-> | [-> | ->]]]]] by lia; pick; rewrite vec_at by exact Hj; unfold vor, vand.
  - rewrite A0. f_equal. lia.
  - rewrite A1. f_equal. 
  - rewrite A2. rewrite sll_small by (try exact Hj; try lia; intros i Hi; rewrite (S0 i Hi); destruct (Z.testbit _ _); change (2 ^ 2) with 4; lia).
    rewrite S0 by exact Hj. change (2 ^ 2) with 4. change (16 * 2) with 32. apply bits3. apply HE. lia.
  - rewrite B0. f_equal. 
  - rewrite B1. f_equal. lia.
  - rewrite B2. rewrite sll_small by (try exact Hj; try lia; intros i Hi; rewrite (S1 i Hi); destruct (Z.testbit _ _); change (2 ^ 2) with 4; lia).
    rewrite S1 by exact Hj. change (2 ^ 2) with 4. replace (x + 48 + 32 + j) with (x + 80 + j) by lia. change (16 * 5) with 80. apply bits3. apply HE. lia.
Qed.
