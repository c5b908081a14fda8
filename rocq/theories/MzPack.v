(** What the packing loops of rle8_mmtf.c write. *)
From Verif Require Import Base Simd SimdProof Spec MtfModel MtfSpec MtfProof BitMtf MzModel MzBits.

(** [K] pieces, [d] values each. *)
Definition rep (K d : Z) (f : Z -> list Z) (x : Z) : list Z := flat_map (fun i => f (x + d * i)) (lanes K).

Lemma lanes_S K : 0 <= K -> lanes (K + 1) = lanes K ++ [K].
Proof. intros HK. unfold lanes. replace (Z.to_nat (K + 1)) with (S (Z.to_nat K)) by lia. rewrite seq_S, map_app. cbn [map]. rewrite Nat.add_0_l, Z2Nat.id by lia. reflexivity. Qed.
Lemma rep_0 d f x : rep 0 d f x = [].
Proof. reflexivity. Qed.
Lemma rep_S K d f x : 0 <= K -> rep (K + 1) d f x = rep K d f x ++ f (x + d * K).
Proof. intros HK. unfold rep. rewrite lanes_S, flat_map_app by exact HK. cbn [flat_map]. now rewrite app_nil_r. Qed.
Lemma rep_1 d f x : rep 1 d f x = f x.
Proof. unfold rep. change (lanes 1) with [0]. cbn [flat_map]. rewrite app_nil_r. f_equal. lia. Qed.
Lemma len_rep K d f x b : 0 <= K -> (forall y, len (f y) = b) -> len (rep K d f x) = b * K.
Proof.
  intros HK Hf. rewrite <- (Z2Nat.id K) by exact HK. induction (Z.to_nat K) as [|k IH]; [rewrite rep_0; change (len (@nil Z)) with 0; lia|].
  rewrite Nat2Z.inj_succ, <- Z.add_1_r, rep_S, len_app, IH, Hf by lia. lia.
Qed.
Lemma rep_piece M q K d f x b k : (forall y, len (f y) = b) -> holds M q (rep K d f x) -> 0 <= k < K -> holds M (q + b * k) (f (x + d * k)).
Proof.
  intros Hf. assert (HK : forall n, holds M q (rep (Z.of_nat n) d f x) -> forall k, 0 <= k < Z.of_nat n -> holds M (q + b * k) (f (x + d * k))).
  { induction n as [|n IH]; [lia|]. rewrite Nat2Z.inj_succ, <- Z.add_1_r, rep_S by lia. intros H j Hj. apply holds_app in H as [H1 H2]. rewrite (len_rep _ _ _ _ b) in H2 by (try assumption; lia).
    destruct (Z.eq_dec j (Z.of_nat n)) as [->|]; [exact H2|]. apply IH; [exact H1|lia]. }
  intros H Hk. apply (HK (Z.to_nat K)); rewrite Z2Nat.id by lia; assumption.
Qed.

(** What one iteration does to the memory. *)
Definition Upd (upd : mem -> Z -> Z -> mem) (lay : mem -> Z -> list Z) (g adv w : Z) : Prop :=
  (forall E x, len (lay E x) = adv) /\
  forall M p q E x, (forall j, 0 <= j < 16 * g -> M (p + j) = E (x + j)) -> (forall i, x <= i < x + 16 * g -> 0 <= E i < 2 ^ w) ->
    holds (upd M p q) q (lay E x) /\ forall a, a < q \/ q + adv <= a -> upd M p q a = M a.

Lemma holds_vstore M q f : forall v, (forall k, 0 <= k < 16 -> v k = f k) -> holds (vstore 16 v M q) q (ll 16 f).
Proof. intros v H. apply holds_ll; [lia|]. intros k Hk. rewrite vstore_in by lia. replace (q + k - q) with k by lia. now apply H. Qed.
Lemma holds_store M q l : holds (store M q l) q l.
Proof. apply holds_intro. intros k Hk. rewrite store_in by lia. f_equal. lia. Qed.
Lemma holds_keep M M' q l : holds M q l -> (forall a, q <= a < q + len l -> M' a = M a) -> holds M' q l.
Proof. intros H E. now apply (holds_ext M M'). Qed.

Definition upd2 M p q := vstore 16 (vec 16 (vor (vor (sll16 6 (load M (p + 48))) (sll16 4 (load M (p + 32)))) (vor (sll16 2 (load M (p + 16))) (load M p)))) M q.
Lemma upd2_ok : Upd upd2 g2 4 16 2.
Proof.
  split; [intros; apply len_ll; lia|]. intros M p q E x HM HE. change (2 ^ 2) with 4 in HE. split; [|intros a Ha; apply vstore_out; lia].
  assert (L : forall o i, 0 <= o <= 48 -> 0 <= i < 16 -> load M (p + o) i = E (x + o + i)) by (intros o i Ho Hi; rewrite load_at, <- Z.add_assoc, HM by lia; f_equal; lia).
  assert (L0 : forall i, 0 <= i < 16 -> load M p i = E (x + i)) by (intros i Hi; rewrite load_at, HM by lia; reflexivity).
  apply holds_vstore. intros k Hk. rewrite vec_at by exact Hk. unfold vor.
  rewrite !sll_small by (try exact Hk; try lia; intros i Hi; rewrite L by lia; match goal with |- _ /\ E ?y * _ < _ => pose proof (HE y ltac:(lia)) end; lia).
  rewrite !L, L0 by lia. apply lor4; apply HE; lia.
Qed.

(** Words *)
Lemma lor_lenum l1 : forall l2, length l1 = length l2 -> Forall is_byte l1 -> Forall is_byte l2 ->
  Z.lor (lenum l1) (lenum l2) = lenum (map (fun '(a, b) => Z.lor a b) (combine l1 l2)).
Proof.
  induction l1 as [|a l1 IH]; intros [|b l2] Hl H1 H2; try discriminate; [reflexivity|]. inversion H1; inversion H2; subst. cbn [lenum combine map].
  change 256 with (2 ^ 8). rewrite lor_cat by (try assumption; lia). rewrite IH by (try assumption; injection Hl; auto). reflexivity.
Qed.
Lemma lenum_scale c l : lenum l * c = lenum (map (fun a => a * c) l).
Proof. induction l as [|a l IH]; [reflexivity|]. cbn [lenum map]. rewrite <- IH. ring. Qed.
Lemma le32_lenum l : len l = 4 -> Forall is_byte l -> le32 (lenum l) = l.
Proof.
  intros Hl HF. destruct l as [|a [|b [|c [|d [|]]]]]; unfold len in Hl; cbn [length] in Hl; try lia. inversion HF as [|? ? Ha HF1]; inversion HF1 as [|? ? Hb HF2]; inversion HF2 as [|? ? Hc HF3]; inversion HF3 as [|? ? Hd _]; subst.
  cbn [lenum]. unfold le32, is_byte in *. f_equal; [lia|]. f_equal; [lia|]. f_equal; [lia|]. f_equal. lia.
Qed.
Lemma le16_lenum l : len l = 2 -> Forall is_byte l -> le16 (lenum l) = l.
Proof.
  intros Hl HF. destruct l as [|a [|b [|]]]; unfold len in Hl; cbn [length] in Hl; try lia. inversion HF as [|? ? Ha HF1]; inversion HF1 as [|? ? Hb _]; subst.
  cbn [lenum]. unfold le16, is_byte in *. f_equal; [lia|]. f_equal. lia.
Qed.
Lemma map_ll L f g : map g (ll L f) = ll L (fun k => g (f k)).
Proof. unfold ll. now rewrite map_map. Qed.
Lemma combine_ll L f g : combine (ll L f) (ll L g) = map (fun k => (f k, g k)) (lanes L).
Proof. unfold ll. induction (lanes L) as [|a l IH]; [reflexivity|]. cbn [map combine]. now rewrite IH. Qed.
Lemma ll_ext L f g : (forall k, 0 <= k < L -> f k = g k) -> ll L f = ll L g.
Proof. intros H. unfold ll. apply map_ext_in. intros k Hk. apply H. now apply lanes_in. Qed.
Lemma lor_ll L f g : (forall k, 0 <= k < L -> is_byte (f k) /\ is_byte (g k)) -> Z.lor (lenum (ll L f)) (lenum (ll L g)) = lenum (ll L (fun k => Z.lor (f k) (g k))).
Proof.
  intros H. rewrite lor_lenum; [|unfold ll; rewrite !map_length; reflexivity|apply Forall_ll; intros; now apply H|apply Forall_ll; intros; now apply H].
  f_equal. rewrite combine_ll, map_map. reflexivity.
Qed.

Definition upd2t M p q := put32 M q (Z.lor (Z.lor (Z.lor (rd32 M p) (w32 (rd32 M (p + 4) * 2 ^ 2))) (w32 (rd32 M (p + 8) * 2 ^ 4))) (w32 (rd32 M (p + 12) * 2 ^ 6))).
Lemma upd2t_ok : Upd upd2t t2 1 4 2.
Proof.
  split; [intros; apply len_ll; lia|]. intros M p q E x HM HE. change (2 ^ 2) with 4 in HE. change (16 * 1) with 16 in HM, HE.
  assert (R : forall o, 0 <= o <= 12 -> rd32 M (p + o) = lenum (ll 4 (fun k => E (x + o + k)))).
  { intros o Ho. apply rd32_lenum; [apply len_ll; lia|]. apply holds_ll; [lia|]. intros k Hk. rewrite <- Z.add_assoc, HM by lia. f_equal. lia. }
  assert (R0 : rd32 M p = lenum (ll 4 (fun k => E (x + k)))).
  { apply rd32_lenum; [apply len_ll; lia|]. apply holds_ll; [lia|]. intros k Hk. rewrite HM by lia. reflexivity. }
  assert (W : forall o s, 0 <= o <= 12 -> 0 < s <= 64 -> w32 (lenum (ll 4 (fun k => E (x + o + k))) * s) = lenum (ll 4 (fun k => E (x + o + k) * s))).
  { intros o s Ho Hs. rewrite lenum_scale, map_ll. unfold w32. apply Z.mod_small. pose proof (lenum_bound (ll 4 (fun k => E (x + o + k) * s))) as B. rewrite len_ll in B by lia. apply B.
    apply Forall_ll. intros k Hk. pose proof (HE (x + o + k) ltac:(lia)). unfold is_byte. nia. }
  assert (K : forall o k, 0 <= o <= 12 -> 0 <= k < 4 -> 0 <= E (x + o + k) < 4) by (intros; apply HE; lia).
  assert (K0 : forall k, 0 <= k < 4 -> 0 <= E (x + k) < 4) by (intros; apply HE; lia).
  assert (EQ : upd2t M p q = store M q (t2 E x)).
  { unfold upd2t, put32. f_equal. rewrite R0, !R by lia. change (2 ^ 2) with 4. change (2 ^ 4) with 16. change (2 ^ 6) with 64. rewrite !W by lia.
    assert (B4 : forall k, 0 <= k < 4 -> is_byte (E (x + k)) /\ is_byte (E (x + 4 + k) * 4)) by (intros k Hk; pose proof (K0 k Hk); pose proof (K 4 k ltac:(lia) Hk); unfold is_byte; lia).
    rewrite (lor_ll 4 _ _ B4).
    assert (B8 : forall k, 0 <= k < 4 -> is_byte (Z.lor (E (x + k)) (E (x + 4 + k) * 4)) /\ is_byte (E (x + 8 + k) * 16)).
    { intros k Hk. split; [apply (lor_bound 8); try apply B4; try exact Hk; lia|]. pose proof (K 8 k ltac:(lia) Hk). unfold is_byte. lia. }
    rewrite (lor_ll 4 _ _ B8).
    assert (B12 : forall k, 0 <= k < 4 -> is_byte (Z.lor (Z.lor (E (x + k)) (E (x + 4 + k) * 4)) (E (x + 8 + k) * 16)) /\ is_byte (E (x + 12 + k) * 64)).
    { intros k Hk. split; [apply (lor_bound 8); try apply B8; try exact Hk; lia|]. pose proof (K 12 k ltac:(lia) Hk). unfold is_byte. lia. }
    rewrite (lor_ll 4 _ _ B12).
    rewrite (ll_ext 4 _ (fun k => E (x + k) + 4 * E (x + 4 + k) + 16 * E (x + 8 + k) + 64 * E (x + 12 + k))) by (intros k Hk; apply lor4'; try apply K0; try apply K; lia).
    apply le32_lenum; [apply len_ll; lia|]. apply Forall_ll. intros k Hk. pose proof (K0 k Hk). pose proof (K 4 k ltac:(lia) Hk). pose proof (K 8 k ltac:(lia) Hk). pose proof (K 12 k ltac:(lia) Hk). unfold is_byte. lia. }
  rewrite EQ. split; [apply holds_store|]. intros a Ha. apply store_out. unfold t2. rewrite len_ll; lia.
Qed.

Definition upd4 M p q := vstore 16 (vec 16 (vor (sll16 4 (load M p)) (load M (p + 16)))) M q.
Lemma upd4_ok : Upd upd4 g4 2 16 4.
Proof.
  split; [intros; apply len_ll; lia|]. intros M p q E x HM HE. change (2 ^ 4) with 16 in HE. split; [|intros a Ha; apply vstore_out; lia].
  assert (L : forall i, 0 <= i < 16 -> load M (p + 16) i = E (x + 16 + i)) by (intros i Hi; rewrite load_at, <- Z.add_assoc, HM by lia; f_equal; lia).
  assert (L0 : forall i, 0 <= i < 16 -> load M p i = E (x + i)) by (intros i Hi; rewrite load_at, HM by lia; reflexivity).
  apply holds_vstore. intros k Hk. rewrite vec_at by exact Hk. unfold vor.
  rewrite !sll_small by (try exact Hk; try lia; intros i Hi; rewrite L0 by lia; pose proof (HE (x + i) ltac:(lia)); change (2 ^ 4) with 16; lia).
  rewrite L, L0 by lia. apply lor2; apply HE; lia.
Qed.

Lemma le64_lenum l : len l = 8 -> Forall is_byte l -> le32 (lenum l mod 2 ^ 32) ++ le32 (lenum l / 2 ^ 32) = l.
Proof.
  intros Hl HF. assert (L4 : len (firstn 4 l) = 4) by (unfold len in *; rewrite firstn_length; lia). assert (L5 : len (skipn 4 l) = 4) by (unfold len in *; rewrite skipn_length; lia).
  rewrite <- (firstn_skipn 4 l) in HF. apply Forall_app in HF as [F1 F2].
  assert (E : lenum l = lenum (firstn 4 l) + 2 ^ 32 * lenum (skipn 4 l)) by (rewrite <- (firstn_skipn 4 l) at 1; rewrite lenum_app, L4; reflexivity).
  pose proof (lenum_bound _ F1) as B1. rewrite L4 in B1. change (256 ^ 4) with (2 ^ 32) in B1.
  rewrite E. replace (_ mod 2 ^ 32) with (lenum (firstn 4 l)) by (rewrite (Z.mul_comm (2 ^ 32)), Z_mod_plus_full, Z.mod_small by exact B1; reflexivity).
  replace (_ / 2 ^ 32) with (lenum (skipn 4 l)) by (rewrite (Z.mul_comm (2 ^ 32)), Z.div_add by lia; rewrite Z.div_small by exact B1; reflexivity).
  rewrite !le32_lenum by assumption. apply firstn_skipn.
Qed.
Definition upd4t M p q := put64 M q (Z.lor (rd64 M p) (w64 (rd64 M (p + 8) * 2 ^ 4))).
Lemma upd4t_ok : Upd upd4t t4 1 8 4.
Proof.
  split; [intros; apply len_ll; lia|]. intros M p q E x HM HE. change (2 ^ 4) with 16 in HE. change (16 * 1) with 16 in HM, HE.
  assert (R : rd64 M (p + 8) = lenum (ll 8 (fun k => E (x + 8 + k)))).
  { apply rd64_lenum; [apply len_ll; lia|]. apply holds_ll; [lia|]. intros k Hk. rewrite <- Z.add_assoc, HM by lia. f_equal. lia. }
  assert (R0 : rd64 M p = lenum (ll 8 (fun k => E (x + k)))).
  { apply rd64_lenum; [apply len_ll; lia|]. apply holds_ll; [lia|]. intros k Hk. rewrite HM by lia. reflexivity. }
  assert (K : forall k, 0 <= k < 8 -> 0 <= E (x + k) < 16 /\ 0 <= E (x + 8 + k) < 16) by (intros; split; apply HE; lia).
  assert (W : w64 (lenum (ll 8 (fun k => E (x + 8 + k))) * 16) = lenum (ll 8 (fun k => E (x + 8 + k) * 16))).
  { rewrite lenum_scale, map_ll. unfold w64. apply Z.mod_small. pose proof (lenum_bound (ll 8 (fun k => E (x + 8 + k) * 16))) as B. rewrite len_ll in B by lia. apply B.
    apply Forall_ll. intros k Hk. pose proof (K k Hk). unfold is_byte. lia. }
  assert (EQ : upd4t M p q = store M q (t4 E x)).
  { unfold upd4t, put64. f_equal. rewrite R0, R. change (2 ^ 4) with 16. rewrite W.
    assert (B4 : forall k, 0 <= k < 8 -> is_byte (E (x + k)) /\ is_byte (E (x + 8 + k) * 16)) by (intros k Hk; pose proof (K k Hk); unfold is_byte; lia).
    rewrite (lor_ll 8 _ _ B4).
    rewrite (ll_ext 8 _ (fun k => E (x + k) + 16 * E (x + 8 + k))) by (intros k Hk; rewrite Z.lor_comm, lor2 by (apply K; exact Hk); lia).
    apply le64_lenum; [apply len_ll; lia|]. apply Forall_ll. intros k Hk. pose proof (K k Hk). unfold is_byte. lia. }
  rewrite EQ. split; [apply holds_store|]. intros a Ha. apply store_out. unfold t4. rewrite len_ll; lia.
Qed.

Lemma w32_shift a b : 0 <= a < 65536 -> 0 <= b < 65536 -> Z.lor a (w32 (b * 2 ^ 16)) = a + 65536 * b.
Proof.
  intros Ha Hb. unfold w32. rewrite Z.mod_small by lia. replace (b * 2 ^ 16) with (0 + 2 ^ 16 * b) by lia. replace a with (a + 2 ^ 16 * 0) at 1 by lia. rewrite lor_cat by lia. rewrite Z.lor_0_r, Z.lor_0_l. reflexivity.
Qed.
Definition upd3 M p q :=
  let cA := vec 16 (vor (vor (load M p) (sll16 3 (load M (p + 16)))) (sll16 6 (vand (load M (p + 32)) 3))) in
  let M1 := vstore 16 cA M q in
  let cB := vec 16 (vor (vor (load M (p + 48)) (sll16 3 (load M (p + 64)))) (sll16 6 (vand (load M (p + 80)) 3))) in
  let M2 := vstore 16 cB M1 (q + 16) in
  put32 M2 (q + 32) (Z.lor (movemask8 (sll16 5 (load M (p + 32)))) (w32 (movemask8 (sll16 5 (load M (p + 80))) * 2 ^ 16))).
Lemma half3 M p E x j : (forall j, 0 <= j < 48 -> M (p + j) = E (x + j)) -> (forall i, x <= i < x + 48 -> 0 <= E i < 8) -> 0 <= j < 16 ->
  vec 16 (vor (vor (load M p) (sll16 3 (load M (p + 16)))) (sll16 6 (vand (load M (p + 32)) 3))) j = E (x + j) + 8 * E (x + 16 + j) + 64 * (E (x + 32 + j) mod 4).
Proof.
  intros HM HE Hj.
  assert (L : forall o i, 0 <= o <= 32 -> 0 <= i < 16 -> load M (p + o) i = E (x + o + i)) by (intros o i Ho Hi; rewrite load_at, <- Z.add_assoc, HM by lia; f_equal; lia).
  assert (L0 : forall i, 0 <= i < 16 -> load M p i = E (x + i)) by (intros i Hi; rewrite load_at, HM by lia; reflexivity).
  rewrite vec_at by exact Hj. unfold vor.
  rewrite (sll_small 3) by (try exact Hj; try lia; intros i Hi; rewrite L by lia; pose proof (HE (x + 16 + i) ltac:(lia)); change (2 ^ 3) with 8; lia).
  rewrite (sll_small 6).
  - unfold vand. rewrite !L, L0 by lia. apply lor3; apply HE; lia.
  - lia.
  - intros i Hi. unfold vand. change 3 with (2 ^ 2 - 1). rewrite land_low by lia. change (2 ^ 2) with 4. change (2 ^ 6) with 64. lia.
  - exact Hj.
Qed.
Lemma len_g3half E x : len (g3half E x) = 16.
Proof. apply len_ll. lia. Qed.
Lemma mask3 M p E x b : 0 <= b < 3 -> (forall j, 0 <= j < 16 -> M (p + j) = E (x + j)) -> (forall i, x <= i < x + 16 -> 0 <= E i < 8) ->
  movemask8 (sll16 (7 - b) (load M p)) = plane E b x + 256 * plane E b (x + 8).
Proof.
  intros Hb HM HE. rewrite movemask8_ok; [|exact Hb|intros i Hi; rewrite load_at, HM by exact Hi; apply HE; lia]. unfold plane. f_equal; [|f_equal]; apply mm8_ext; intros j Hj; rewrite load_at, HM by lia; do 2 f_equal; lia.
Qed.
Lemma plane_byte E b x : is_byte (plane E b x).
Proof. apply mm8_byte. Qed.
Lemma upd3_ok : Upd upd3 g3 6 36 3.
Proof.
  split; [intros; unfold g3; rewrite !len_app, !len_g3half; reflexivity|]. intros M p q E x HM HE. change (2 ^ 3) with 8 in HE. change (16 * 6) with 96 in HM, HE.
  pose proof (plane_byte E 2 (x + 32)) as P0. pose proof (plane_byte E 2 (x + 40)) as P1. pose proof (plane_byte E 2 (x + 80)) as P2. pose proof (plane_byte E 2 (x + 88)) as P3.
  unfold upd3. cbn zeta.
  assert (EQ : le32 (Z.lor (movemask8 (sll16 5 (load M (p + 32)))) (w32 (movemask8 (sll16 5 (load M (p + 80))) * 2 ^ 16))) = [plane E 2 (x + 32); plane E 2 (x + 40); plane E 2 (x + 80); plane E 2 (x + 88)]).
  { change 5 with (7 - 2). rewrite (mask3 M (p + 32) E (x + 32) 2), (mask3 M (p + 80) E (x + 80) 2) by (try lia; intros; try (rewrite <- Z.add_assoc, HM by lia; f_equal; lia); apply HE; lia).
    replace (x + 32 + 8) with (x + 40) by lia. replace (x + 80 + 8) with (x + 88) by lia. unfold is_byte in *. rewrite w32_shift by lia.
    rewrite <- (le32_lenum [plane E 2 (x + 32); plane E 2 (x + 40); plane E 2 (x + 80); plane E 2 (x + 88)]).
    - f_equal. cbn [lenum]. lia.
    - reflexivity.
    - repeat (apply Forall_cons; [unfold is_byte; assumption|]). apply Forall_nil. }
  unfold put32. rewrite EQ. clear EQ. set (pl := [plane E 2 (x + 32); _; _; _]). assert (Lp : len pl = 4) by reflexivity. split.
  - unfold g3. apply holds_app. rewrite len_g3half. rewrite holds_app, len_g3half. split; [|split].
    + apply (holds_keep (vstore 16 (fun j => E (x + j) + 8 * E (x + 16 + j) + 64 * (E (x + 32 + j) mod 4)) M q)); [apply holds_vstore; reflexivity|].
      rewrite len_g3half. intros a Ha. rewrite store_out, vstore_out, vstore_in by lia. rewrite vstore_in by lia. apply half3; [intros; apply HM; lia|intros; apply HE; lia|lia].
    + apply (holds_keep (vstore 16 (fun j => E (x + 48 + j) + 8 * E (x + 48 + 16 + j) + 64 * (E (x + 48 + 32 + j) mod 4)) M (q + 16))); [apply holds_vstore; reflexivity|].
      rewrite len_g3half. intros a Ha. rewrite store_out, !vstore_in by lia. 
      replace (p + 64) with (p + 48 + 16) by lia. replace (p + 80) with (p + 48 + 32) by lia.
      apply half3; [intros; rewrite <- Z.add_assoc, HM by lia; f_equal; lia|intros; apply HE; lia|lia].
    + replace (q + 16 + 16) with (q + 32) by lia. fold pl. apply holds_store.
  - intros a Ha. rewrite store_out, !vstore_out by lia. reflexivity.
Qed.

Definition upd3t M p q :=
  put16 (put16 (put16 M q (movemask8 (sll16 7 (load M p)))) (q + 2) (movemask8 (sll16 6 (load M p)))) (q + 4) (movemask8 (sll16 5 (load M p))).
Lemma upd3t_ok : Upd upd3t t3 1 6 3.
Proof.
  split; [reflexivity|]. intros M p q E x HM HE. change (2 ^ 3) with 8 in HE. change (16 * 1) with 16 in HM, HE.
  assert (K : forall b, 0 <= b < 3 -> le16 (movemask8 (sll16 (7 - b) (load M p))) = [plane E b x; plane E b (x + 8)]).
  { intros b Hb. rewrite (mask3 M p E x b) by (try lia; auto). rewrite <- (le16_lenum [plane E b x; plane E b (x + 8)]).
    - f_equal. cbn [lenum]. lia.
    - reflexivity.
    - repeat (apply Forall_cons; [apply plane_byte|]). apply Forall_nil. }
  pose proof (K 0 ltac:(lia)) as K0. pose proof (K 1 ltac:(lia)) as K1. pose proof (K 2 ltac:(lia)) as K2. change (7 - 0) with 7 in K0. change (7 - 1) with 6 in K1. change (7 - 2) with 5 in K2.
  unfold upd3t, put16. rewrite K0, K1, K2. clear K K0 K1 K2.
  assert (L : forall b y, len [plane E b y; plane E b (y + 8)] = 2) by reflexivity. split.
  - change (t3 E x) with ([plane E 0 x; plane E 0 (x + 8)] ++ [plane E 1 x; plane E 1 (x + 8)] ++ [plane E 2 x; plane E 2 (x + 8)]).
    rewrite !holds_app, !L. split; [|split].
    + apply (holds_keep (store M q [plane E 0 x; plane E 0 (x + 8)])); [apply holds_store|]. intros a Ha. rewrite L in Ha. rewrite !store_out by (rewrite L; lia). reflexivity.
    + apply (holds_keep (store (store M q [plane E 0 x; plane E 0 (x + 8)]) (q + 2) [plane E 1 x; plane E 1 (x + 8)])); [apply holds_store|]. intros a Ha. rewrite L in Ha. rewrite (store_out _ (q + 4)) by (rewrite L; lia). reflexivity.
    + replace (q + 2 + 2) with (q + 4) by lia. apply holds_store.
  - intros a Ha. rewrite !store_out by (rewrite L; lia). reflexivity.
Qed.

Definition updr M p q := vstore 16 (load M p) M q.
Lemma updr_ok : Upd updr raw1 1 16 8.
Proof.
  split; [intros; apply len_ll; lia|]. intros M p q E x HM HE. split; [|intros a Ha; apply vstore_out; lia].
  apply holds_vstore. intros k Hk. rewrite load_at by exact Hk. apply HM. lia.
Qed.

(** *** The loops *)
Section Loop.
  Context {R : Type}.
  Variables (step : Z * Z * Z * mem -> (Z * Z * Z * mem) + R) (fin : Z -> Z -> mem -> R) (upd : mem -> Z -> Z -> mem) (lay : mem -> Z -> list Z) (g adv w : Z).
  Variables (di i0 p0 q0 K : Z) (M0 E : mem) (x : Z).
  Hypothesis Hupd : Upd upd lay g adv w.
  Hypothesis Hg : 0 < g <= 6.
  Hypothesis Hadv : 0 < adv <= 16 * g.
  Hypothesis HK : 0 <= K < 2 ^ 50.
  Hypothesis Hq : q0 <= p0.
  Hypothesis HM : forall j, 0 <= j < 16 * g * K -> M0 (p0 + j) = E (x + j).
  Hypothesis HE : forall i, x <= i < x + 16 * g * K -> 0 <= E i < 2 ^ w.
  Hypothesis Hstep : forall k M, 0 <= k <= K -> step (i0 + di * k, p0 + 16 * g * k, q0 + adv * k, M) =
    if k <? K then inl (i0 + di * (k + 1), p0 + 16 * g * (k + 1), q0 + adv * (k + 1), upd M (p0 + 16 * g * k) (q0 + adv * k)) else inr (fin (p0 + 16 * g * k) (q0 + adv * k) M).

  Lemma pack_loop : exists M', loop step (i0, p0, q0, M0) = Some (fin (p0 + 16 * g * K) (q0 + adv * K) M') /\
    holds M' q0 (rep K (16 * g) (lay E) x) /\ forall a, a < q0 \/ q0 + adv * K <= a -> M' a = M0 a.
  Proof.
    set (Iv := fun s : Z * Z * Z * mem => exists k M, 0 <= k <= K /\ s = (i0 + di * k, p0 + 16 * g * k, q0 + adv * k, M) /\
      holds M q0 (rep k (16 * g) (lay E) x) /\ forall a, a < q0 \/ q0 + adv * k <= a -> M a = M0 a).
    destruct (loop_inv step Iv (fun '(_, p, _, _) => p0 + 16 * g * K - p)
      (fun r => exists M', r = fin (p0 + 16 * g * K) (q0 + adv * K) M' /\ holds M' q0 (rep K (16 * g) (lay E) x) /\ forall a, a < q0 \/ q0 + adv * K <= a -> M' a = M0 a) (i0, p0, q0, M0)) as (r & E1 & M' & -> & H1 & H2).
    - intros s (k & M & Hk & -> & Hh & Ho). rewrite Hstep by exact Hk. destruct (k <? K) eqn:Ek.
      + split; [|nia]. exists (k + 1), (upd M (p0 + 16 * g * k) (q0 + adv * k)). split; [lia|]. split; [reflexivity|]. destruct Hupd as [U1 U2].
        destruct (U2 M (p0 + 16 * g * k) (q0 + adv * k) E (x + 16 * g * k)) as [A B].
        { intros j Hj. rewrite Ho by nia. rewrite <- Z.add_assoc, HM by nia. f_equal. lia. }
        { intros i Hi. apply HE. nia. }
        assert (Lr : len (rep k (16 * g) (lay E) x) = adv * k) by (apply len_rep; [lia|apply U1]).
        split.
        * rewrite rep_S by lia. apply holds_app. rewrite Lr. split; [|exact A]. apply (holds_keep M); [exact Hh|]. rewrite Lr. intros a Ha. apply B. lia.
        * intros a Ha. rewrite B by nia. apply Ho. nia.
      + assert (k = K) by lia. subst k. exists M. auto.
    - exists 0, M0. rewrite !Z.mul_0_r, !Z.add_0_r. split; [lia|]. split; [reflexivity|]. split; [rewrite rep_0; exact I|reflexivity].
    - assert (16 * g * K <= 96 * K) by nia. lia.
    - exists M'. auto.
  Qed.
End Loop.

(** *** Modes *)
Inductive pmode := Raw | P2 | P3 | P4.
Definition mbits (m : pmode) : Z := match m with Raw => 0 | P2 => 6 | P3 => 4 | P4 => 2 end.
(** Blocks in a group, bytes for a group, bytes for a single block, bits of a value. *)
Definition pg (m : pmode) : Z := match m with Raw => 1 | P2 => 4 | P3 => 6 | P4 => 2 end.
Definition padv (m : pmode) : Z := match m with Raw => 16 | P2 => 16 | P3 => 36 | P4 => 16 end.
Definition ptadv (m : pmode) : Z := match m with Raw => 16 | P2 => 4 | P3 => 6 | P4 => 8 end.
Definition pw (m : pmode) : Z := match m with Raw => 8 | P2 => 2 | P3 => 3 | P4 => 4 end.
Definition play (m : pmode) : mem -> Z -> list Z := match m with Raw => raw1 | P2 => g2 | P3 => g3 | P4 => g4 end.
Definition ptlay (m : pmode) : mem -> Z -> list Z := match m with Raw => raw1 | P2 => t2 | P3 => t3 | P4 => t4 end.
Definition pupd (m : pmode) : mem -> Z -> Z -> mem := match m with Raw => updr | P2 => upd2 | P3 => upd3 | P4 => upd4 end.
Definition ptupd (m : pmode) : mem -> Z -> Z -> mem := match m with Raw => updr | P2 => upd2t | P3 => upd3t | P4 => upd4t end.
Lemma pupd_ok m : Upd (pupd m) (play m) (pg m) (padv m) (pw m).
Proof. destruct m; [apply updr_ok|apply upd2_ok|apply upd3_ok|apply upd4_ok]. Qed.
Lemma ptupd_ok m : Upd (ptupd m) (ptlay m) 1 (ptadv m) (pw m).
Proof. destruct m; [apply updr_ok|apply upd2t_ok|apply upd3t_ok|apply upd4t_ok]. Qed.

(** [c] blocks starting with value [x]. *)
Definition body (m : pmode) (E : mem) (x c : Z) : list Z :=
  rep (c / pg m) (16 * pg m) (play m E) x ++ rep (c mod pg m) 16 (ptlay m E) (x + 16 * pg m * (c / pg m)).
Definition blen (m : pmode) (c : Z) : Z := padv m * (c / pg m) + ptadv m * (c mod pg m).

Lemma pg_pos m : 0 < pg m <= 6.
Proof. destruct m; cbn; lia. Qed.
Lemma pg_split m c : 0 <= c -> c = pg m * (c / pg m) + c mod pg m /\ 0 <= c mod pg m < pg m /\ 0 <= c / pg m <= c.
Proof. intros Hc. destruct m; cbn [pg]; lia. Qed.
Lemma len_body m E x c : 0 <= c -> len (body m E x c) = blen m c.
Proof.
  intros Hc. destruct (pg_split m c Hc) as (_ & H1 & H2). unfold body, blen. rewrite len_app, (len_rep _ _ _ _ (padv m)), (len_rep _ _ _ _ (ptadv m)); [reflexivity|lia| |lia|].
  - apply (proj1 (ptupd_ok m)).
  - apply (proj1 (pupd_ok m)).
Qed.
Lemma blen_le m c : 0 <= c -> 0 <= blen m c <= 16 * c.
Proof. intros Hc. unfold blen. destruct m; cbn [padv ptadv pg]; lia. Qed.

Lemma holds_rep M q K d f x b : 0 <= K -> (forall y, len (f y) = b) -> (forall k, 0 <= k < K -> holds M (q + b * k) (f (x + d * k))) -> holds M q (rep K d f x).
Proof.
  intros HK Hf H. rewrite <- (Z2Nat.id K) in * by exact HK. induction (Z.to_nat K) as [|k IH]; [exact I|].
  rewrite Nat2Z.inj_succ, <- Z.add_1_r in *. rewrite rep_S by lia. apply holds_app. rewrite (len_rep _ _ _ _ b) by (try assumption; lia). split; [apply IH; [lia|]; intros j Hj; apply H; lia|apply H; lia].
Qed.
Lemma body_raw M q E x c : 0 <= c -> (forall j, 0 <= j < 16 * c -> M (q + j) = E (x + j)) -> holds M q (body Raw E x c).
Proof.
  intros Hc H. unfold body. cbn [pg play ptlay]. rewrite Z.div_1_r, Z.mod_1_r, rep_0, app_nil_r. apply (holds_rep _ _ _ _ _ _ 16); [exact Hc|intros; apply len_ll; lia|].
  intros k Hk. apply holds_ll; [lia|]. intros j Hj. rewrite <- Z.add_assoc, H by lia. f_equal. lia.
Qed.

Ltac rwl E := match type of E with _ = ?r => match goal with |- context [loop ?f ?s] => let H := fresh in assert (H : loop f s = r) by exact E; rewrite H; clear H end end.
(** The packing functions *)
Definition packs (m : pmode) : mem -> Z -> Z -> Z -> option (Z * mem) :=
  match m with P2 => pack2 | P3 => pack3 | P4 => pack4
  | Raw => fun M p q size => match loop move_step (size / 16, p, q, M) with Some M => Some (q + size, M) | None => None end end.

Lemma packs_ok m M p q E x c : 0 <= c < 2 ^ 40 -> q <= p -> (forall j, 0 <= j < 16 * c -> M (p + j) = E (x + j)) -> (forall i, x <= i < x + 16 * c -> 0 <= E i < 2 ^ pw m) ->
  exists M', packs m M p q (c * 16) = Some (q + blen m c, M') /\ holds M' q (body m E x c) /\ forall a, a < q \/ q + blen m c <= a -> M' a = M a.
Proof.
  intros Hc Hq HM HE. pose proof (pg_pos m) as Hg. destruct (pg_split m c ltac:(lia)) as (Hs & Hr & Hd).
  set (K := c / pg m) in *. set (r := c mod pg m) in *.
  assert (Adv : 0 < padv m <= 16 * pg m /\ 0 < ptadv m <= 16 * 1) by (destruct m; cbn; lia).
  assert (Hgk : 16 * pg m * K <= 16 * c) by lia.
  assert (Hp1 : 0 <= padv m * K <= 16 * pg m * K) by nia. assert (Hp2 : 0 <= ptadv m * r) by nia.
  assert (Hfirst : forall R (step : Z * Z * Z * mem -> (Z * Z * Z * mem) + R) fin i0 di,
    (forall k M, 0 <= k <= K -> step (i0 + di * k, p + 16 * pg m * k, q + padv m * k, M) =
      if k <? K then inl (i0 + di * (k + 1), p + 16 * pg m * (k + 1), q + padv m * (k + 1), pupd m M (p + 16 * pg m * k) (q + padv m * k)) else inr (fin (p + 16 * pg m * k) (q + padv m * k) M)) ->
    exists M', loop step (i0, p, q, M) = Some (fin (p + 16 * pg m * K) (q + padv m * K) M') /\ holds M' q (rep K (16 * pg m) (play m E) x) /\ forall a, a < q \/ q + padv m * K <= a -> M' a = M a).
  { intros R step fin i0 di Hst. apply (pack_loop step fin (pupd m) (play m) (pg m) (padv m) (pw m) di i0 p q K M E x); try assumption; try lia.
    all: first [apply pupd_ok | intros i Hi; apply HE; lia | intros j Hj; apply HM; lia]. }
  assert (Hsecond : forall R (step : Z * Z * Z * mem -> (Z * Z * Z * mem) + R) fin i0 di M1,
    (forall a, a < q \/ q + padv m * K <= a -> M1 a = M a) ->
    (forall k M, 0 <= k <= r -> step (i0 + di * k, p + 16 * pg m * K + 16 * 1 * k, q + padv m * K + ptadv m * k, M) =
      if k <? r then inl (i0 + di * (k + 1), p + 16 * pg m * K + 16 * 1 * (k + 1), q + padv m * K + ptadv m * (k + 1), ptupd m M (p + 16 * pg m * K + 16 * 1 * k) (q + padv m * K + ptadv m * k))
      else inr (fin (p + 16 * pg m * K + 16 * 1 * k) (q + padv m * K + ptadv m * k) M)) ->
    exists M', loop step (i0, p + 16 * pg m * K, q + padv m * K, M1) = Some (fin (p + 16 * pg m * K + 16 * 1 * r) (q + padv m * K + ptadv m * r) M') /\
      holds M' (q + padv m * K) (rep r (16 * 1) (ptlay m E) (x + 16 * pg m * K)) /\ forall a, a < q + padv m * K \/ q + padv m * K + ptadv m * r <= a -> M' a = M1 a).
  { intros R step fin i0 di M1 Hout Hst. apply (pack_loop step fin (ptupd m) (ptlay m) 1 (ptadv m) (pw m) di i0 (p + 16 * pg m * K) (q + padv m * K) r M1 E (x + 16 * pg m * K)); try assumption; try lia.
    all: first [apply ptupd_ok | intros i Hi; apply HE; lia | intros j Hj; rewrite Hout by lia; rewrite <- Z.add_assoc, HM by lia; f_equal; lia | lia]. }
  assert (Lr : len (rep K (16 * pg m) (play m E) x) = padv m * K) by (apply len_rep; [lia|apply (proj1 (pupd_ok m))]).
  assert (Hall : forall M1 M2, holds M1 q (rep K (16 * pg m) (play m E) x) -> (forall a, a < q \/ q + padv m * K <= a -> M1 a = M a) ->
     holds M2 (q + padv m * K) (rep r (16 * 1) (ptlay m E) (x + 16 * pg m * K)) -> (forall a, a < q + padv m * K \/ q + padv m * K + ptadv m * r <= a -> M2 a = M1 a) ->
     holds M2 q (body m E x c) /\ forall a, a < q \/ q + (padv m * K + ptadv m * r) <= a -> M2 a = M a).
  { intros M1 M2 A1 A2 B1 B2. split.
    - unfold body. fold K r. apply holds_app. rewrite Lr. split; [|exact B1]. apply (holds_keep M1); [exact A1|]. rewrite Lr. intros a Ha. apply B2. lia.
    - intros a Ha. rewrite B2, A2 by lia. reflexivity. }
  unfold blen. fold K r. unfold packs. subst K r. set (K := c / pg m) in *. set (r := c mod pg m) in *. clearbody K r. destruct m; cbn [pg padv ptadv pupd ptupd] in *.
  - destruct (Hfirst _ move_step (fun _ _ M => M) c (-1)) as (M1 & E1 & A1 & A2).
    { intros k M1 Hk. unfold move_step. destruct (k <? K) eqn:Ek.
      - replace (c + -1 * k =? 0) with false by lia. repeat first [lia | reflexivity | f_equal].
      - replace (c + -1 * k =? 0) with true by lia. reflexivity. }
    cbv beta. replace (c * 16 / 16) with c by lia. exists M1. rwl E1. split; [do 2 f_equal; lia|]. apply (Hall M1 M1); try assumption; [|reflexivity]. assert (r = 0) as -> by lia. exact I.
  - unfold pack2. destruct (Hfirst _ (pack2_step (c * 16)) (fun p q M => (64 * K, p, q, M)) 0 64) as (M1 & E1 & A1 & A2).
    { intros k M1 Hk. unfold pack2_step. destruct (k <? K) eqn:Ek.
      - replace (0 + 64 * k <=? c * 16 - 64) with true by lia. repeat first [lia | reflexivity | f_equal].
      - replace (0 + 64 * k <=? c * 16 - 64) with false by lia. assert (k = K) as -> by lia. reflexivity. }
    rwl E1. destruct (Hsecond _ (pack2_tail (c * 16)) (fun _ q M => (q, M)) (64 * K) 16 M1 A2) as (M2 & E2 & B1 & B2).
    { intros k M2 Hk. unfold pack2_tail. destruct (k <? r) eqn:Ek.
      - replace (64 * K + 16 * k <? c * 16) with true by lia. repeat first [lia | reflexivity | f_equal].
      - replace (64 * K + 16 * k <? c * 16) with false by lia. reflexivity. }
    rwl E2. exists M2. split; [do 2 f_equal; lia|]. apply (Hall M1 M2); assumption.
  - unfold pack3. destruct (Hfirst _ (pack3_step (c * 16)) (fun p q M => (96 * K, p, q, M)) 0 96) as (M1 & E1 & A1 & A2).
    { intros k M1 Hk. unfold pack3_step. destruct (k <? K) eqn:Ek.
      - replace (0 + 96 * k <=? c * 16 - 96) with true by lia. repeat first [lia | reflexivity | f_equal].
      - replace (0 + 96 * k <=? c * 16 - 96) with false by lia. assert (k = K) as -> by lia. reflexivity. }
    rwl E1. destruct (Hsecond _ (pack3_tail (c * 16)) (fun _ q M => (q, M)) (96 * K) 16 M1 A2) as (M2 & E2 & B1 & B2).
    { intros k M2 Hk. unfold pack3_tail. destruct (k <? r) eqn:Ek.
      - replace (96 * K + 16 * k <? c * 16) with true by lia. repeat first [lia | reflexivity | f_equal].
      - replace (96 * K + 16 * k <? c * 16) with false by lia. reflexivity. }
    rwl E2. exists M2. split; [do 2 f_equal; lia|]. apply (Hall M1 M2); assumption.
  - unfold pack4. destruct (Hfirst _ (pack4_step (c * 16)) (fun p q M => (32 * K, p, q, M)) 0 32) as (M1 & E1 & A1 & A2).
    { intros k M1 Hk. unfold pack4_step. destruct (k <? K) eqn:Ek.
      - replace (0 + 32 * k <=? c * 16 - 32) with true by lia. repeat first [lia | reflexivity | f_equal].
      - replace (0 + 32 * k <=? c * 16 - 32) with false by lia. assert (k = K) as -> by lia. reflexivity. }
    rwl E1.
    destruct (32 * K <? c * 16) eqn:Er.
    + assert (r = 1) by lia. subst r.
      destruct (proj2 (ptupd_ok P4) M1 (p + 32 * K) (q + 16 * K) E (x + 32 * K)) as [B1 B2].
      { intros j Hj. rewrite A2 by lia. rewrite <- Z.add_assoc, HM by lia. f_equal. lia. }
      { intros i Hi. apply HE. lia. }
      cbn [ptupd ptlay ptadv] in B1, B2. exists (upd4t M1 (p + 32 * K) (q + 16 * K)). split; [do 2 f_equal; lia|]. apply (Hall M1); try assumption.
      rewrite rep_1. exact B1.
    + assert (r = 0) by lia. subst r. exists M1. split; [do 2 f_equal; lia|]. apply (Hall M1 M1); try assumption; [exact I|reflexivity].
Qed.

(** *** The header of a copy *)
Definition hdr (m : pmode) (c : Z) : list Z := if c <? 32 then [8 * c + mbits m] else le32 (8 * c + 1 + mbits m).
Definition copy_bytes (m : pmode) (E : mem) (x c : Z) : list Z := hdr m c ++ body m E x c.
Definition mode_of (bits : Z -> Z) : pmode :=
  if clear_of 240 bits then if clear_of 252 bits then P2 else if clear_of 248 bits then P3 else P4 else Raw.

Lemma put8_at M p v a : put8 M p v a = if a =? p then v else M a.
Proof. unfold put8. destruct (a =? p) eqn:E; [apply vstore_in; lia|apply vstore_out; lia]. Qed.
Lemma lor_bits8 a b : 0 <= a -> 0 <= b < 8 -> Z.lor (8 * a) b = 8 * a + b.
Proof. intros Ha Hb. rewrite Z.lor_comm. replace (8 * a + b) with (b + 2 ^ 3 * a) by lia. rewrite cat_lor by lia. rewrite Z.shiftl_mul_pow2 by lia. f_equal. lia. Qed.
Lemma lor_bits8' a b : 0 <= a -> List.In b [0; 2; 4; 6] -> Z.lor (8 * a + 1) b = 8 * a + 1 + b.
Proof.
  intros Ha Hb. rewrite <- (lor_bits8 a 1) by lia. rewrite <- Z.lor_assoc. cbn [List.In] in Hb.
  assert (Hc : Z.lor 1 b = 1 + b /\ 0 <= b < 7) by (repeat (destruct Hb as [<-|Hb]; [cbn; lia|]); destruct Hb). destruct Hc as [-> Hb']. rewrite !lor_bits8 by lia. lia.
Qed.
Lemma mbits_in m : List.In (mbits m) [0; 2; 4; 6].
Proof. destruct m; cbn; tauto. Qed.
Lemma mbits_lt m : 0 <= mbits m <= 6.
Proof. destruct m; cbn; lia. Qed.
Lemma len_hdr m c : len (hdr m c) = if c <? 32 then 1 else 4.
Proof. unfold hdr. destruct (c <? 32); reflexivity. Qed.

Lemma copy_header_ok bits M h c E x : 0 <= c < 2 ^ 28 -> (forall j, 0 <= j < 16 * c -> M (h + 4 + j) = E (x + j)) ->
  (forall i, x <= i < x + 16 * c -> 0 <= E i < 2 ^ pw (mode_of bits)) ->
  exists M', copy_header bits M h (h + 4 + 16 * c) c = Some (h + len (copy_bytes (mode_of bits) E x c), M') /\ holds M' h (copy_bytes (mode_of bits) E x c) /\
    forall a, a < h \/ h + 4 + 16 * c <= a -> M' a = M a.
Proof.
  intros Hc HM HE. set (m := mode_of bits) in *. pose proof (blen_le m c ltac:(lia)) as Hbl. pose proof (mbits_lt m) as Hmb.
  assert (Lc : len (copy_bytes m E x c) = (if c <? 32 then 1 else 4) + blen m c) by (unfold copy_bytes; rewrite len_app, len_hdr, len_body by lia; reflexivity). rewrite Lc.
  unfold copy_header. cbn zeta. destruct (c <? 32) eqn:Ec.
  - set (M1 := put8 M h (w8 (w8 c * 2 ^ 3))).
    assert (Hv : M1 h = 8 * c) by (unfold M1; rewrite put8_at, Z.eqb_refl; unfold w8; rewrite (Z.mod_small c) by lia; rewrite Z.mod_small by lia; lia).
    assert (Ho : forall a, a <> h -> M1 a = M a) by (intros a Ha; unfold M1; rewrite put8_at; replace (a =? h) with false by lia; reflexivity).
    clearbody M1.
    assert (K : forall M2, M2 h = 8 * c + mbits m -> (forall a, a <> h -> M2 a = M a) -> exists M', packs m M2 (h + 4) (h + 4 - 3) (c * 16) = Some (h + (1 + blen m c), M') /\ holds M' h (copy_bytes m E x c) /\
      forall a, a < h \/ h + 4 + 16 * c <= a -> M' a = M a).
    { intros M2 H2 H3. destruct (packs_ok m M2 (h + 4) (h + 4 - 3) E x c) as (M' & P1 & P2 & P3).
      - lia.
      - lia.
      - intros j Hj. rewrite H3 by lia. now apply HM.
      - exact HE.
      - exists M'. split; [rewrite P1; do 2 f_equal; lia|]. split.
        + unfold copy_bytes, hdr. rewrite Ec. apply holds_app. change (len [8 * c + mbits m]) with 1. replace (h + 4 - 3) with (h + 1) in P2 by lia. split; [|exact P2]. cbn [holds]. split; [|exact I]. rewrite P3 by lia. exact H2.
        + intros a Ha. rewrite P3 by lia. apply H3. lia. }
    assert (Kp : forall b, mbits m = b -> 0 < b -> (put8 M1 h (Z.lor (M1 h) b)) h = 8 * c + mbits m /\ forall a, a <> h -> put8 M1 h (Z.lor (M1 h) b) a = M a).
    { intros b Hb Hb0. split; [rewrite put8_at, Z.eqb_refl, Hv, lor_bits8 by lia; lia|]. intros a Ha. rewrite put8_at. replace (a =? h) with false by lia. now apply Ho. }
    unfold mode_of in m. destruct (clear_of 240 bits); [destruct (clear_of 252 bits); [|destruct (clear_of 248 bits)]|].
    + destruct (Kp 6 eq_refl ltac:(lia)) as [A B]. exact (K _ A B).
    + destruct (Kp 4 eq_refl ltac:(lia)) as [A B]. exact (K _ A B).
    + destruct (Kp 2 eq_refl ltac:(lia)) as [A B]. exact (K _ A B).
    + destruct (K M1) as (M' & P1 & P2 & P3); [subst m; cbn [mbits]; lia|exact Ho|]. subst m. unfold packs in P1. replace (c * 16 / 16) with c in P1 by lia. replace (h + 4 - 3) with (h + 1) in P1 by lia.
      destruct (loop move_step (c, h + 4, h + 1, M1)) as [M2|]; [|discriminate]. injection P1 as P1 ->. exists M'. split; [|split; assumption]. do 2 f_equal. clear. unfold blen; cbn [padv pg ptadv]. lia.
  - set (M1 := put32 M h (Z.lor (w32 (w32 c * 2 ^ 3)) 1)).
    assert (Hv : holds M1 h (le32 (8 * c + 1))).
    { unfold M1, put32. unfold w32. rewrite (Z.mod_small c) by lia. rewrite Z.mod_small by lia. replace (c * 2 ^ 3) with (8 * c) by lia. rewrite lor_bits8 by lia. apply holds_store. }
    assert (Ho : forall a, a < h \/ h + 4 <= a -> M1 a = M a) by (intros a Ha; unfold M1, put32; apply store_out; exact Ha).
    clearbody M1.
    assert (K : forall M2, holds M2 h (le32 (8 * c + 1 + mbits m)) -> (forall a, a < h \/ h + 4 <= a -> M2 a = M a) -> m <> Raw -> exists M', packs m M2 (h + 4) (h + 4) (c * 16) = Some (h + (4 + blen m c), M') /\ holds M' h (copy_bytes m E x c) /\
      forall a, a < h \/ h + 4 + 16 * c <= a -> M' a = M a).
    { intros M2 H2 H3 _. destruct (packs_ok m M2 (h + 4) (h + 4) E x c) as (M' & P1 & P2 & P3).
      - lia.
      - lia.
      - intros j Hj. rewrite H3 by lia. now apply HM.
      - exact HE.
      - exists M'. split; [rewrite P1; do 2 f_equal; lia|]. split.
        + unfold copy_bytes, hdr. rewrite Ec. apply holds_app. rewrite len_le32. split; [|exact P2]. apply (holds_keep M2); [exact H2|]. rewrite len_le32. intros a Ha. apply P3. lia.
        + intros a Ha. rewrite P3 by lia. apply H3. lia. }
    assert (Kp : forall b, mbits m = b -> 0 < b -> holds (put8 M1 h (Z.lor (M1 h) b)) h (le32 (8 * c + 1 + mbits m)) /\ forall a, a < h \/ h + 4 <= a -> put8 M1 h (Z.lor (M1 h) b) a = M a).
    { intros b Hb Hb0. split; [|intros a Ha; rewrite put8_at; replace (a =? h) with false by lia; now apply Ho].
      unfold le32 in Hv |- *. cbn [holds] in Hv |- *. destruct Hv as (V0 & V1 & V2 & V3 & _). rewrite !put8_at. rewrite Z.eqb_refl. replace (h + 1 =? h) with false by lia. replace (h + 1 + 1 =? h) with false by lia. replace (h + 1 + 1 + 1 =? h) with false by lia.
      rewrite V0, V1, V2, V3. assert (E1 : (8 * c + 1) mod 256 = 8 * (c mod 32) + 1) by lia. rewrite E1. rewrite lor_bits8' by (try lia; subst b; apply mbits_in). clear - Hc Hmb Hb. repeat split; lia. }
    unfold mode_of in m. destruct (clear_of 240 bits); [destruct (clear_of 252 bits); [|destruct (clear_of 248 bits)]|].
    + destruct (Kp 6 eq_refl ltac:(lia)) as [A B]. apply (K _ A B). discriminate.
    + destruct (Kp 4 eq_refl ltac:(lia)) as [A B]. apply (K _ A B). discriminate.
    + destruct (Kp 2 eq_refl ltac:(lia)) as [A B]. apply (K _ A B). discriminate.
    + exists M1. subst m. split; [unfold blen; cbn [padv pg ptadv]; do 2 f_equal; lia|]. split.
      * unfold copy_bytes, hdr. rewrite Ec. apply holds_app. rewrite len_le32. cbn [mbits]. rewrite Z.add_0_r. split; [exact Hv|]. apply body_raw; [lia|]. intros j Hj. rewrite Ho by lia. now apply HM.
      * intros a Ha. apply Ho. lia.
Qed.
