(** Proofs about the packing functions of bitpack.h. *)
From Verif Require Import Base Simd SimdProof Spec MtfModel MtfSpec MtfProof BitMtf MzModel MzBits MzPack MzThm BpModel BpSpec.

Definition raw (n : Z) (E : mem) (x : Z) : list Z := ll n (fun j => E (x + j)).
Lemma len_raw n E x : 0 <= n -> len (raw n E x) = n.
Proof. intros. now apply len_ll. Qed.
Lemma holds_raw M q n E x : 0 <= n -> (holds M q (raw n E x) <-> forall k, 0 <= k < n -> M (q + k) = E (x + k)).
Proof. intros. now apply holds_ll. Qed.
Lemma ll_app a b f : 0 <= a -> 0 <= b -> ll (a + b) f = ll a f ++ ll b (fun j => f (a + j)).
Proof.
  intros Ha Hb. unfold ll, lanes. rewrite Z2Nat.inj_add, seq_app, !map_app, !map_map by assumption. f_equal. rewrite Nat.add_0_l.
  rewrite <- (Nat.add_0_r (Z.to_nat a)) at 1. generalize 0%nat as s. induction (Z.to_nat b) as [|k IH]; intros s; [reflexivity|]. cbn [seq map]. f_equal; [f_equal; lia|].
  rewrite <- Nat.add_succ_r. apply IH.
Qed.
Lemma raw_app a b E x : 0 <= a -> 0 <= b -> raw (a + b) E x = raw a E x ++ raw b E (x + a).
Proof. intros Ha Hb. unfold raw. rewrite ll_app by assumption. f_equal. apply ll_ext. intros k Hk. f_equal. lia. Qed.
Lemma raw_rep K d E x : 0 <= K -> 0 <= d -> rep K d (raw d E) x = raw (d * K) E x.
Proof.
  intros HK Hd. pattern K. apply natlike_ind; [| |exact HK].
  - rewrite Z.mul_0_r. reflexivity.
  - intros k Hk IH. rewrite <- Z.add_1_r, rep_S, IH by exact Hk. replace (d * (k + 1)) with (d * k + d) by lia. now rewrite raw_app by nia.
Qed.
Lemma raw_ext n E E' x : (forall i, x <= i < x + n -> E i = E' i) -> raw n E x = raw n E' x.
Proof. intros H. apply ll_ext. intros k Hk. apply H. lia. Qed.

(** *** One iteration: [d] values, [sl] bytes of input laid out as [src], [dl] bytes of output laid out as [dst] *)
Definition Moves (upd : mem -> Z -> Z -> mem) (src dst : mem -> Z -> list Z) (d sl dl lim : Z) : Prop :=
  (forall E x, len (src E x) = sl) /\ (forall E x, len (dst E x) = dl) /\
  forall M p q E x, holds M p (src E x) -> (forall i, x <= i < x + d -> 0 <= E i < lim) -> Apart p sl q dl ->
    holds (upd M p q) q (dst E x) /\ forall a, a < q \/ q + dl <= a -> upd M p q a = M a.

Lemma upd_moves upd lay g adv w : 0 <= g -> Upd upd lay g adv w -> Moves upd (raw (16 * g)) lay (16 * g) (16 * g) adv (2 ^ w).
Proof.
  intros Hg [H1 H2]. split; [intros; apply len_raw; lia|]. split; [exact H1|]. intros M p q E x HM HE _. rewrite holds_raw in HM by lia. now apply H2.
Qed.

(** Vector stores *)
Lemma vstores_cons M q v l : vstores M q (v :: l) = vstores (vstore 16 v M q) (q + 16) l.
Proof. reflexivity. Qed.
Lemma vstores_app l1 : forall M q l2, vstores M q (l1 ++ l2) = vstores (vstores M q l1) (q + 16 * len l1) l2.
Proof.
  induction l1 as [|v l1 IH]; intros M q l2; [change (len (@nil (Z -> Z))) with 0; rewrite Z.mul_0_r, Z.add_0_r; reflexivity|].
  cbn [app]. rewrite !vstores_cons, IH. f_equal. unfold len. cbn [length]. lia.
Qed.
Lemma vstores_out l : forall M q a, a < q \/ q + 16 * len l <= a -> vstores M q l a = M a.
Proof.
  induction l as [|v l IH]; intros M q a Ha; [reflexivity|]. unfold len in *. cbn [length] in Ha. rewrite vstores_cons, IH, vstore_out by lia. reflexivity.
Qed.
Lemma vstores_in l : forall M q m j, 0 <= m < len l -> 0 <= j < 16 -> vstores M q l (q + 16 * m + j) = nth (Z.to_nat m) l (fun _ => 0) j.
Proof.
  induction l as [|v l IH]; intros M q m j Hm Hj; unfold len in *; cbn [length] in Hm; [lia|]. rewrite vstores_cons. destruct (Z.eq_dec m 0) as [->|Hne].
  - rewrite vstores_out by lia. rewrite vstore_in by lia. cbn [nth Z.to_nat]. f_equal. lia.
  - replace (q + 16 * m + j) with (q + 16 + 16 * (m - 1) + j) by lia. rewrite IH by lia. replace (Z.to_nat m) with (S (Z.to_nat (m - 1))) by lia. reflexivity.
Qed.
Lemma vstores_raw M q l E x g : len l = g -> (forall m j, 0 <= m < g -> 0 <= j < 16 -> nth (Z.to_nat m) l (fun _ => 0) j = E (x + 16 * m + j)) ->
  holds (vstores M q l) q (raw (16 * g) E x).
Proof.
  intros Hl H. assert (Hg : 0 <= g) by (unfold len in Hl; lia). apply holds_raw; [lia|]. intros k Hk. replace (q + k) with (q + 16 * (k / 16) + k mod 16) by lia. rewrite vstores_in by lia. rewrite H by lia. f_equal. lia.
Qed.

Lemma reads_moves upd u lay g adv w : 0 <= g -> Reads u lay g w -> (forall E x, len (lay E x) = adv) ->
  (forall M p q, Apart p adv q (16 * g) -> upd M p q = vstores M q (u M p)) -> Moves upd lay (raw (16 * g)) (16 * g) adv (16 * g) (2 ^ w).
Proof.
  intros Hg HR HL HU. split; [exact HL|]. split; [intros; apply len_raw; lia|]. intros M p q E x HM HE HA. rewrite HU by exact HA. destruct (HR M p E x HM HE) as [L R]. split; [now apply vstores_raw|].
  intros a Ha. apply vstores_out. lia.
Qed.

(** *** 3 bits *)
Definition g3s (E : mem) (x : Z) : list Z := g3half E x ++ [plane E 2 (x + 32); plane E 2 (x + 40)].
Lemma len_g3s E x : len (g3s E x) = 18.
Proof. unfold g3s. rewrite len_app, len_g3half. reflexivity. Qed.
Lemma plane_pair16 M p E x b : 0 <= b < 3 -> (forall j, 0 <= j < 16 -> M (p + j) = E (x + j)) -> (forall i, x <= i < x + 16 -> 0 <= E i < 8) ->
  le16 (movemask8 (sll16 (7 - b) (load M p))) = [plane E b x; plane E b (x + 8)].
Proof.
  intros Hb HM HE. rewrite (mask3 M p E x b) by assumption. rewrite <- (le16_lenum [plane E b x; plane E b (x + 8)]).
  - f_equal. cbn [lenum]. lia.
  - reflexivity.
  - repeat (apply Forall_cons; [apply plane_byte|]). apply Forall_nil.
Qed.
Lemma enc33_ok : Upd enc33_upd g3s 3 18 3.
Proof.
  split; [intros; apply len_g3s|]. intros M p q E x HM HE. change (2 ^ 3) with 8 in HE. change (16 * 3) with 48 in HM, HE.
  unfold enc33_upd. cbn zeta. unfold put16. change 5 with (7 - 2). rewrite (plane_pair16 M (p + 32) E (x + 32) 2) by (try lia; intros; try (rewrite <- Z.add_assoc, HM by lia; f_equal; lia); apply HE; lia).
  replace (x + 32 + 8) with (x + 40) by lia. set (pl := [plane E 2 (x + 32); _]). assert (Lp : len pl = 2) by reflexivity. split.
  - unfold g3s. apply holds_app. rewrite len_g3half. split.
    + apply (holds_keep (vstore 16 (fun j => E (x + j) + 8 * E (x + 16 + j) + 64 * (E (x + 32 + j) mod 4)) M q)); [apply holds_vstore; reflexivity|].
      rewrite len_g3half. intros a Ha. rewrite store_out, vstore_in by lia. rewrite vstore_in by lia. apply half3; [intros; apply HM; lia|intros; apply HE; lia|lia].
    + fold pl. apply holds_store.
  - intros a Ha. rewrite store_out, vstore_out by lia. reflexivity.
Qed.
Definition un33 (C : mem) (p : Z) : list (Z -> Z) :=
  let cA := load C p in map (vec 16) [vand cA 7; vand (srl16 3 cA) 7; vor (vand (srl16 6 cA) 3) (sll16 2 (spread (rd16 C (p + 16))))].
Lemma spread_plane C q E b y : holds C q [plane E b y; plane E b (y + 8)] -> forall i, 0 <= i < 16 -> spread (rd16 C q) i = if Z.testbit (E (y + i)) b then 1 else 0.
Proof.
  intros H i Hi. unfold plane in H. pose proof (spread16 _ _ C q i H Hi) as K. cbn beta in K. pose proof (plane_pair E b y i) as PP. cbn beta in PP. rewrite PP in K. exact K.
Qed.
Lemma reads_33 : Reads un33 g3s 3 3.
Proof.
  intros C p E x H HE. split; [reflexivity|]. change (2 ^ 3) with 8 in HE. change (16 * 3) with 48 in HE.
  unfold g3s in H. apply holds_app in H as [HA HM]. rewrite len_g3half in HM. replace (x + 40) with (x + 32 + 8) in HM by lia. pose proof (spread_plane _ _ _ _ _ HM) as S.
  intros m j Hm Hj. unfold un33. cbn zeta. cbn [map]. destruct (reads_3half C p E x j HA ltac:(intros; apply HE; lia) Hj) as (A0 & A1 & A2).
  assert (m = 0 \/ m = 1 \/ m = 2) as [-> | [-> | ->]] by lia; pick; rewrite vec_at by exact Hj; unfold vor, vand.
  - rewrite A0. f_equal. lia.
  - rewrite A1. f_equal.
  - rewrite A2. rewrite sll_small by (try exact Hj; try lia; intros i Hi; rewrite (S i Hi); destruct (Z.testbit _ _); change (2 ^ 2) with 4; lia).
    rewrite S by exact Hj. change (2 ^ 2) with 4. change (16 * 2) with 32. apply bits3. apply HE. lia.
Qed.
Lemma rd16_ext C C' p : (forall k, 0 <= k < 2 -> C (p + k) = C' (p + k)) -> rd16 C p = rd16 C' p.
Proof. intros H. unfold rd16. pose proof (H 0 ltac:(lia)) as H0. rewrite Z.add_0_r in H0. rewrite H0, (H 1) by lia. reflexivity. Qed.
Lemma rd32_ext C C' p : (forall k, 0 <= k < 4 -> C (p + k) = C' (p + k)) -> rd32 C p = rd32 C' p.
Proof. intros H. unfold rd32. pose proof (H 0 ltac:(lia)) as H0. rewrite Z.add_0_r in H0. rewrite H0, (H 1), (H 2), (H 3) by lia. reflexivity. Qed.
Lemma dec33_un M p q : Apart p 18 q (16 * 3) -> dec33_upd M p q = vstores M q (un33 M p).
Proof.
  intros HA. unfold Apart in HA. unfold dec33_upd. cbn zeta. rewrite (rd16_ext (vstores M q _) M) by (intros k Hk; apply vstores_out; unfold len; cbn [length]; lia).
  change (un33 M p) with ([vec 16 (vand (load M p) 7); vec 16 (vand (srl16 3 (load M p)) 7)] ++ [vec 16 (vor (vand (srl16 6 (load M p)) 3) (sll16 2 (spread (rd16 M (p + 16)))))]).
  rewrite vstores_app. reflexivity.
Qed.
Lemma dec36_un M p q : Apart p 36 q (16 * 6) -> dec36_upd M p q = vstores M q (un3 M p).
Proof.
  intros HA. unfold Apart in HA. unfold dec36_upd. cbn zeta. rewrite (rd32_ext (vstores M q _) M) by (intros k Hk; apply vstores_out; unfold len; cbn [length]; lia).
  unfold un3. cbn zeta. cbn [map]. match goal with |- _ = vstores _ _ (?a :: ?b :: ?l) => change (a :: b :: l) with ([a; b] ++ l) end. rewrite vstores_app. reflexivity.
Qed.
Lemma len_g3 E x : len (g3 E x) = 36.
Proof. apply (proj1 upd3_ok). Qed.

Lemma m_enc33 : Moves enc33_upd (raw 48) g3s 48 48 18 8.
Proof. exact (upd_moves _ _ 3 18 3 ltac:(lia) enc33_ok). Qed.
Lemma m_dec33 : Moves dec33_upd g3s (raw 48) 48 18 48 8.
Proof. exact (reads_moves _ _ _ 3 18 3 ltac:(lia) reads_33 len_g3s dec33_un). Qed.
Lemma m_enc36 : Moves enc36_upd (raw 96) g3 96 96 36 8.
Proof. exact (upd_moves _ _ 6 36 3 ltac:(lia) upd3_ok). Qed.
Lemma m_dec36 : Moves dec36_upd g3 (raw 96) 96 36 96 8.
Proof. exact (reads_moves _ _ _ 6 36 3 ltac:(lia) reads_3 len_g3 dec36_un). Qed.
Lemma m_enc3t : Moves enc3t_upd (raw 16) t3 16 16 6 8.
Proof. exact (upd_moves _ _ 1 6 3 ltac:(lia) upd3t_ok). Qed.
Lemma m_dec3t : Moves dec3t_upd t3 (raw 16) 16 6 16 8.
Proof. exact (reads_moves _ _ _ 1 6 3 ltac:(lia) reads_3t ltac:(reflexivity) ltac:(reflexivity)). Qed.

(** *** Words *)
Lemma land_byte a b k : 0 <= k -> (Z.land a b / 256 ^ k) mod 256 = Z.land ((a / 256 ^ k) mod 256) ((b / 256 ^ k) mod 256).
Proof.
  intros Hk. change 256 with (2 ^ 8). rewrite <- Z.pow_mul_r by lia. rewrite <- !Z.shiftr_div_pow2 by lia. rewrite <- !Z.land_ones by lia. rewrite Z.shiftr_land.
  apply Z.bits_inj'. intros i Hi. rewrite !Z.land_spec. destruct (Z.testbit (Z.ones 8) i); rewrite ?andb_true_r, ?andb_false_r; reflexivity.
Qed.
Lemma word_field l pat P w k : Forall is_byte l -> 0 <= k < len l -> 0 <= w -> 0 < P -> (P * 2 ^ w | 256) -> (pat / 256 ^ k) mod 256 = 2 ^ w - 1 ->
  (Z.land (lenum l / P) pat / 256 ^ k) mod 256 = (nth (Z.to_nat k) l 0 / P) mod 2 ^ w.
Proof.
  intros Hl Hk Hw HP Hd Hp. rewrite land_byte, Hp, land_low by lia. apply lenum_field; try assumption. apply Z.pow_pos_nonneg; lia.
Qed.
Lemma land_bound a pat s : 0 <= pat < 2 ^ s -> 0 <= Z.land a pat < 2 ^ s.
Proof.
  intros Hp. assert (Hs : 0 <= s) by (destruct (Z_lt_ge_dec s 0); [rewrite Z.pow_neg_r in Hp by assumption; lia|lia]).
  replace (Z.land a pat) with (Z.land a pat mod 2 ^ s); [apply Z.mod_pos_bound; apply Z.pow_pos_nonneg; lia|]. rewrite <- Z.land_ones, <- Z.land_assoc, (Z.land_ones pat) by lia. now rewrite Z.mod_small by exact Hp.
Qed.
Lemma put32_in M q w k : 0 <= k < 4 -> put32 M q w (q + k) = (w / 256 ^ k) mod 256.
Proof.
  intros Hk. unfold put32. rewrite store_in by (rewrite len_le32; lia). replace (q + k - q) with k by lia. unfold le32.
  destruct (case4 k Hk) as [-> | [-> | [-> | ->]]].
  - change (256 ^ 0) with 1. cbn [nth Z.to_nat]. lia.
  - change (256 ^ 1) with 256. change (Z.to_nat 1) with 1%nat. reflexivity.
  - change (256 ^ 2) with 65536. change (Z.to_nat 2) with 2%nat. reflexivity.
  - change (256 ^ 3) with 16777216. change (Z.to_nat 3) with 3%nat. reflexivity.
Qed.
Lemma put32_out M q w a : a < q \/ q + 4 <= a -> put32 M q w a = M a.
Proof. intros Ha. unfold put32. apply store_out. rewrite len_le32. lia. Qed.
Lemma put64_in M q w k : 0 <= w < 2 ^ 64 -> 0 <= k < 8 -> put64 M q w (q + k) = (w / 256 ^ k) mod 256.
Proof.
  intros Hw Hk. unfold put64. rewrite store_in by (rewrite len_app, !len_le32; lia). replace (q + k - q) with k by lia. unfold le32. cbn [app].
  destruct (case8 k Hk) as [-> | [-> | [-> | [-> | [-> | [-> | [-> | ->]]]]]]].
  - change (256 ^ 0) with 1. cbn [nth Z.to_nat]. lia.
  - change (256 ^ 1) with 256. change (Z.to_nat 1) with 1%nat. cbn [nth]. lia.
  - change (256 ^ 2) with 65536. change (Z.to_nat 2) with 2%nat. cbn [nth]. lia.
  - change (256 ^ 3) with 16777216. change (Z.to_nat 3) with 3%nat. cbn [nth]. lia.
  - change (256 ^ 4) with (2 ^ 32). change (Z.to_nat 4) with 4%nat. cbn [nth]. reflexivity.
  - change (256 ^ 5) with (2 ^ 32 * 256). change (Z.to_nat 5) with 5%nat. cbn [nth]. rewrite Z.div_div by lia. reflexivity.
  - change (256 ^ 6) with (2 ^ 32 * 65536). change (Z.to_nat 6) with 6%nat. cbn [nth]. rewrite Z.div_div by lia. reflexivity.
  - change (256 ^ 7) with (2 ^ 32 * 16777216). change (Z.to_nat 7) with 7%nat. cbn [nth]. rewrite Z.div_div by lia. reflexivity.
Qed.
Lemma put64_out M q w a : a < q \/ q + 8 <= a -> put64 M q w a = M a.
Proof. intros Ha. unfold put64. apply store_out. rewrite len_app, !len_le32. lia. Qed.

(** *** 4 bits *)
Lemma dec4_un M p q : dec4_upd M p q = vstores M q (un4 M p).
Proof. reflexivity. Qed.
Lemma len_g4 E x : len (g4 E x) = 16.
Proof. apply len_ll. lia. Qed.
Lemma len_t4 E x : len (t4 E x) = 8.
Proof. apply len_ll. lia. Qed.
Lemma m_enc4 : Moves enc4_upd (raw 32) g4 32 32 16 16.
Proof. exact (upd_moves _ _ 2 16 4 ltac:(lia) upd4_ok). Qed.
Lemma m_dec4 : Moves dec4_upd g4 (raw 32) 32 16 32 16.
Proof. exact (reads_moves _ _ _ 2 16 4 ltac:(lia) reads_4 len_g4 (fun M p q _ => dec4_un M p q)). Qed.
Lemma m_enc4t : Moves enc4t_upd (raw 16) t4 16 16 8 16.
Proof. exact (upd_moves _ _ 1 8 4 ltac:(lia) upd4t_ok). Qed.
Lemma pat4 k : 0 <= k < 8 -> (0x0F0F0F0F0F0F0F0F / 256 ^ k) mod 256 = 2 ^ 4 - 1.
Proof. intros Hk. destruct (case8 k Hk) as [-> | [-> | [-> | [-> | [-> | [-> | [-> | ->]]]]]]]; reflexivity. Qed.
Lemma m_dec4t : Moves dec4t_upd t4 (raw 16) 16 8 16 16.
Proof.
  split; [exact len_t4|]. split; [intros; apply len_raw; lia|]. intros M p q E x HM HE HA.
  assert (K : forall k, 0 <= k < 8 -> (0 <= E (x + k) < 16 /\ 0 <= E (x + 8 + k) < 16)) by (intros k Hk; split; apply HE; lia).
  assert (HF : Forall is_byte (t4 E x)) by (apply Forall_ll; intros k Hk; pose proof (K k Hk); unfold is_byte; lia).
  unfold dec4t_upd. cbn zeta. rewrite (rd64_lenum M p (t4 E x) (len_t4 E x) HM).
  assert (B : forall a, 0 <= Z.land a 0x0F0F0F0F0F0F0F0F < 2 ^ 64) by (intros; apply land_bound; cbv; split; congruence).
  split.
  - apply holds_raw; [lia|]. intros k Hk. destruct (Z_lt_ge_dec k 8) as [Hlt|Hge].
    + rewrite put64_out by lia. rewrite put64_in by (try apply B; lia). rewrite <- (Z.div_1_r (lenum (t4 E x))).
      rewrite (word_field _ _ 1 4) by (try apply pat4; try exact HF; try (exists 16; reflexivity); rewrite ?len_t4; lia). unfold t4. rewrite nth_ll by lia. pose proof (K k ltac:(lia)). change (2 ^ 4) with 16. lia.
    + replace (q + k) with (q + 8 + (k - 8)) by lia. rewrite put64_in by (try apply B; lia).
      rewrite (word_field _ _ (2 ^ 4) 4) by (try apply pat4; try exact HF; try (exists 1; reflexivity); rewrite ?len_t4; lia). unfold t4. rewrite nth_ll by lia. pose proof (K (k - 8) ltac:(lia)). replace (x + 8 + (k - 8)) with (x + k) in * by lia. change (2 ^ 4) with 16. lia.
  - intros a Ha. rewrite !put64_out by lia. reflexivity.
Qed.
Definition s4 (E : mem) (x : Z) : list Z := [E x + 16 * E (x + 1)].
Definition one (E : mem) (x : Z) : list Z := [E x].
Lemma m_enc4s : Moves enc4s_upd (raw 2) s4 2 2 1 16.
Proof.
  split; [intros; apply len_raw; lia|]. split; [reflexivity|]. intros M p q E x HM HE HA. rewrite holds_raw in HM by lia. pose proof (HM 0 ltac:(lia)) as H0. pose proof (HM 1 ltac:(lia)) as H1. rewrite !Z.add_0_r in H0.
  unfold enc4s_upd. rewrite H0, H1. pose proof (HE x ltac:(lia)) as E0. pose proof (HE (x + 1) ltac:(lia)) as E1. change (2 ^ 4) with 16. rewrite Z.lor_comm, lor2 by assumption. unfold w8. rewrite Z.mod_small by lia.
  split; [|intros a Ha; rewrite put8_at; replace (a =? q) with false by lia; reflexivity]. split; [|exact I]. rewrite put8_at, Z.eqb_refl. lia.
Qed.
Lemma m_dec4s : Moves dec4s_upd s4 (raw 2) 2 1 2 16.
Proof.
  split; [reflexivity|]. split; [intros; apply len_raw; lia|]. intros M p q E x HM HE HA. destruct HM as [HM _]. pose proof (HE x ltac:(lia)) as E0. pose proof (HE (x + 1) ltac:(lia)) as E1.
  unfold dec4s_upd. cbn zeta. rewrite HM. change 15 with (2 ^ 4 - 1). rewrite land_low by lia. change (2 ^ 4) with 16. split.
  - apply holds_raw; [lia|]. intros k Hk. rewrite !put8_at. assert (k = 0 \/ k = 1) as [-> | ->] by lia.
    + rewrite !Z.add_0_r. replace (q =? q + 1) with false by lia. rewrite Z.eqb_refl. lia.
    + rewrite Z.eqb_refl. lia.
  - intros a Ha. rewrite !put8_at. replace (a =? q + 1) with false by lia. replace (a =? q) with false by lia. reflexivity.
Qed.
Lemma m_copy1 lim : Moves copy1_upd one one 1 1 1 lim.
Proof.
  split; [reflexivity|]. split; [reflexivity|]. intros M p q E x HM HE HA. destruct HM as [HM _]. unfold copy1_upd. rewrite HM. split; [split; [|exact I]; rewrite put8_at, Z.eqb_refl; reflexivity|].
  intros a Ha. rewrite put8_at. replace (a =? q) with false by lia. reflexivity.
Qed.

(** *** 2 bits *)
Lemma dec2_un M p q : dec2_upd M p q = vstores M q (un2 M p).
Proof. reflexivity. Qed.
Lemma len_g2 E x : len (g2 E x) = 16.
Proof. apply len_ll. lia. Qed.
Lemma len_t2 E x : len (t2 E x) = 4.
Proof. apply len_ll. lia. Qed.
Definition q2 (E : mem) (x : Z) : list Z := ll 8 (fun j => E (x + j) + 4 * E (x + 8 + j) + 16 * E (x + 16 + j) + 64 * E (x + 24 + j)).
Lemma len_q2 E x : len (q2 E x) = 8.
Proof. apply len_ll. lia. Qed.
Lemma m_enc2 : Moves enc2_upd (raw 64) g2 64 64 16 4.
Proof. exact (upd_moves _ _ 4 16 2 ltac:(lia) upd2_ok). Qed.
Lemma m_dec2 : Moves dec2_upd g2 (raw 64) 64 16 64 4.
Proof. exact (reads_moves _ _ _ 4 16 2 ltac:(lia) reads_2 len_g2 (fun M p q _ => dec2_un M p q)). Qed.
Lemma m_enc2d : Moves enc2d_upd (raw 16) t2 16 16 4 4.
Proof. exact (upd_moves _ _ 1 4 2 ltac:(lia) upd2t_ok). Qed.
Lemma pat2 k : 0 <= k < 8 -> (0x0303030303030303 / 256 ^ k) mod 256 = 2 ^ 2 - 1.
Proof. intros Hk. destruct (case8 k Hk) as [-> | [-> | [-> | [-> | [-> | [-> | [-> | ->]]]]]]]; reflexivity. Qed.
Lemma pat2' k : 0 <= k < 4 -> (0x03030303 / 256 ^ k) mod 256 = 2 ^ 2 - 1.
Proof. intros Hk. destruct (case4 k Hk) as [-> | [-> | [-> | ->]]]; reflexivity. Qed.
Lemma quad a b c d : (0 <= a < 4 /\ 0 <= b < 4) /\ (0 <= c < 4 /\ 0 <= d < 4) -> let v := a + 4 * b + 16 * c + 64 * d in (v / 1) mod 2 ^ 2 = a /\ (v / 2 ^ 2) mod 2 ^ 2 = b /\ (v / 2 ^ 4) mod 2 ^ 2 = c /\ (v / 2 ^ 6) mod 2 ^ 2 = d.
Proof. intros [[Ha Hb] [Hc Hd]]. cbv zeta. change (2 ^ 2) with 4. change (2 ^ 4) with 16. change (2 ^ 6) with 64. repeat split; lia. Qed.
Lemma m_dec2d : Moves dec2d_upd t2 (raw 16) 16 4 16 4.
Proof.
  split; [exact len_t2|]. split; [intros; apply len_raw; lia|]. intros M p q E x HM HE HA.
  assert (K : forall k, 0 <= k < 4 -> (0 <= E (x + k) < 4 /\ 0 <= E (x + 4 + k) < 4) /\ (0 <= E (x + 8 + k) < 4 /\ 0 <= E (x + 12 + k) < 4)) by (intros k Hk; split; split; apply HE; lia).
  assert (HF : Forall is_byte (t2 E x)) by (apply Forall_ll; intros k Hk; pose proof (K k Hk); unfold is_byte; lia).
  unfold dec2d_upd. cbn zeta. rewrite (rd32_lenum M p (t2 E x) (len_t2 E x) HM).
  assert (W : forall P k, List.In P [1; 2 ^ 2; 2 ^ 4; 2 ^ 6] -> 0 <= k < 4 -> (Z.land (lenum (t2 E x) / P) 0x03030303 / 256 ^ k) mod 256 = (nth (Z.to_nat k) (t2 E x) 0 / P) mod 2 ^ 2).
  { intros P k HP Hk. apply (word_field (t2 E x) _ P 2 k); [exact HF|rewrite len_t2; exact Hk|lia|cbn in HP; lia| |now apply pat2']. destruct HP as [<- | [<- | [<- | [<- | []]]]]; [exists 64|exists 16|exists 4|exists 1]; reflexivity. }
  split.
  - apply holds_raw; [lia|]. intros k Hk.
    destruct (Z_lt_ge_dec k 4) as [Hlt|Hge]; [|destruct (Z_lt_ge_dec k 8) as [Hlt|Hge2]; [|destruct (Z_lt_ge_dec k 12) as [Hlt|Hge3]]].
    + rewrite !(put32_out _ _ _ (q + k)), put32_in by lia. rewrite <- (Z.div_1_r (lenum (t2 E x))). rewrite W by (cbn; tauto || lia). unfold t2. rewrite nth_ll by lia. apply (quad _ _ _ _ (K k ltac:(lia))).
    + replace (q + k) with (q + 4 + (k - 4)) by lia. rewrite !put32_out, put32_in by lia. rewrite W by (cbn; tauto || lia). unfold t2. rewrite nth_ll by lia. replace (E (x + k)) with (E (x + 4 + (k - 4))) by (f_equal; lia). apply (quad _ _ _ _ (K (k - 4) ltac:(lia))).
    + replace (q + k) with (q + 8 + (k - 8)) by lia. rewrite put32_out, put32_in by lia. rewrite W by (cbn; tauto || lia). unfold t2. rewrite nth_ll by lia. replace (E (x + k)) with (E (x + 8 + (k - 8))) by (f_equal; lia). apply (quad _ _ _ _ (K (k - 8) ltac:(lia))).
    + replace (q + k) with (q + 12 + (k - 12)) by lia. rewrite put32_in by lia. rewrite W by (cbn; tauto || lia). unfold t2. rewrite nth_ll by lia. replace (E (x + k)) with (E (x + 12 + (k - 12))) by (f_equal; lia). apply (quad _ _ _ _ (K (k - 12) ltac:(lia))).
  - intros a Ha. rewrite !put32_out by lia. reflexivity.
Qed.
Lemma m_dec2q : Moves dec2q_upd q2 (raw 32) 32 8 32 4.
Proof.
  split; [exact len_q2|]. split; [intros; apply len_raw; lia|]. intros M p q E x HM HE HA.
  assert (K : forall k, 0 <= k < 8 -> (0 <= E (x + k) < 4 /\ 0 <= E (x + 8 + k) < 4) /\ (0 <= E (x + 16 + k) < 4 /\ 0 <= E (x + 24 + k) < 4)) by (intros k Hk; split; split; apply HE; lia).
  assert (HF : Forall is_byte (q2 E x)) by (apply Forall_ll; intros k Hk; pose proof (K k Hk); unfold is_byte; lia).
  unfold dec2q_upd. cbn zeta. rewrite (rd64_lenum M p (q2 E x) (len_q2 E x) HM).
  assert (B : forall a, 0 <= Z.land a 0x0303030303030303 < 2 ^ 64) by (intros; apply land_bound; cbv; split; congruence).
  assert (W : forall P k, List.In P [1; 2 ^ 2; 2 ^ 4; 2 ^ 6] -> 0 <= k < 8 -> (Z.land (lenum (q2 E x) / P) 0x0303030303030303 / 256 ^ k) mod 256 = (nth (Z.to_nat k) (q2 E x) 0 / P) mod 2 ^ 2).
  { intros P k HP Hk. apply (word_field (q2 E x) _ P 2 k); [exact HF|rewrite len_q2; exact Hk|lia|cbn in HP; lia| |now apply pat2]. destruct HP as [<- | [<- | [<- | [<- | []]]]]; [exists 64|exists 16|exists 4|exists 1]; reflexivity. }
  split.
  - apply holds_raw; [lia|]. intros k Hk.
    destruct (Z_lt_ge_dec k 8) as [Hlt|Hge]; [|destruct (Z_lt_ge_dec k 16) as [Hlt|Hge2]; [|destruct (Z_lt_ge_dec k 24) as [Hlt|Hge3]]].
    + rewrite !(put64_out _ _ _ (q + k)), put64_in by (try apply B; lia). rewrite <- (Z.div_1_r (lenum (q2 E x))). rewrite W by (cbn; tauto || lia). unfold q2. rewrite nth_ll by lia. apply (quad _ _ _ _ (K k ltac:(lia))).
    + replace (q + k) with (q + 8 + (k - 8)) by lia. rewrite !put64_out, put64_in by (try apply B; lia). rewrite W by (cbn; tauto || lia). unfold q2. rewrite nth_ll by lia. replace (E (x + k)) with (E (x + 8 + (k - 8))) by (f_equal; lia). apply (quad _ _ _ _ (K (k - 8) ltac:(lia))).
    + replace (q + k) with (q + 16 + (k - 16)) by lia. rewrite put64_out, put64_in by (try apply B; lia). rewrite W by (cbn; tauto || lia). unfold q2. rewrite nth_ll by lia. replace (E (x + k)) with (E (x + 16 + (k - 16))) by (f_equal; lia). apply (quad _ _ _ _ (K (k - 16) ltac:(lia))).
    + replace (q + k) with (q + 24 + (k - 24)) by lia. rewrite put64_in by (try apply B; lia). rewrite W by (cbn; tauto || lia). unfold q2. rewrite nth_ll by lia. replace (E (x + k)) with (E (x + 24 + (k - 24))) by (f_equal; lia). apply (quad _ _ _ _ (K (k - 24) ltac:(lia))).
  - intros a Ha. rewrite !put64_out by lia. reflexivity.
Qed.
Lemma enc2q_ok : Upd enc2q_upd q2 2 8 2.
Proof.
  split; [intros; apply len_q2|]. intros M p q E x HM HE. change (2 ^ 2) with 4 in HE. change (16 * 2) with 32 in HM, HE.
  assert (R : forall o, 0 <= o <= 24 -> rd64 M (p + o) = lenum (ll 8 (fun k => E (x + o + k)))).
  { intros o Ho. apply rd64_lenum; [apply len_ll; lia|]. apply holds_ll; [lia|]. intros k Hk. rewrite <- Z.add_assoc, HM by lia. f_equal. lia. }
  assert (R0 : rd64 M p = lenum (ll 8 (fun k => E (x + k)))).
  { apply rd64_lenum; [apply len_ll; lia|]. apply holds_ll; [lia|]. intros k Hk. rewrite HM by lia. reflexivity. }
  assert (W : forall o s, 0 <= o <= 24 -> 0 < s <= 64 -> w64 (lenum (ll 8 (fun k => E (x + o + k))) * s) = lenum (ll 8 (fun k => E (x + o + k) * s))).
  { intros o s Ho Hs. rewrite lenum_scale, map_ll. unfold w64. apply Z.mod_small. pose proof (lenum_bound (ll 8 (fun k => E (x + o + k) * s))) as B. rewrite len_ll in B by lia. apply B.
    apply Forall_ll. intros k Hk. pose proof (HE (x + o + k) ltac:(lia)). unfold is_byte. nia. }
  assert (K : forall o k, 0 <= o <= 24 -> 0 <= k < 8 -> 0 <= E (x + o + k) < 4) by (intros; apply HE; lia).
  assert (K0 : forall k, 0 <= k < 8 -> 0 <= E (x + k) < 4) by (intros; apply HE; lia).
  assert (EQ : enc2q_upd M p q = store M q (q2 E x)).
  { unfold enc2q_upd, put64. f_equal. rewrite R0, !R by lia. change (2 ^ 2) with 4. change (2 ^ 4) with 16. change (2 ^ 6) with 64. rewrite !W by lia.
    assert (B4 : forall k, 0 <= k < 8 -> is_byte (E (x + k)) /\ is_byte (E (x + 8 + k) * 4)) by (intros k Hk; pose proof (K0 k Hk); pose proof (K 8 k ltac:(lia) Hk); unfold is_byte; lia).
    rewrite (lor_ll 8 _ _ B4).
    assert (B8 : forall k, 0 <= k < 8 -> is_byte (Z.lor (E (x + k)) (E (x + 8 + k) * 4)) /\ is_byte (E (x + 16 + k) * 16)).
    { intros k Hk. split; [apply (lor_bound 8); try apply B4; try exact Hk; lia|]. pose proof (K 16 k ltac:(lia) Hk). unfold is_byte. lia. }
    rewrite (lor_ll 8 _ _ B8).
    assert (B12 : forall k, 0 <= k < 8 -> is_byte (Z.lor (Z.lor (E (x + k)) (E (x + 8 + k) * 4)) (E (x + 16 + k) * 16)) /\ is_byte (E (x + 24 + k) * 64)).
    { intros k Hk. split; [apply (lor_bound 8); try apply B8; try exact Hk; lia|]. pose proof (K 24 k ltac:(lia) Hk). unfold is_byte. lia. }
    rewrite (lor_ll 8 _ _ B12).
    rewrite (ll_ext 8 _ (fun k => E (x + k) + 4 * E (x + 8 + k) + 16 * E (x + 16 + k) + 64 * E (x + 24 + k))) by (intros k Hk; apply lor4'; try apply K0; try apply K; lia).
    apply le64_lenum; [apply len_ll; lia|]. apply Forall_ll. intros k Hk. pose proof (K0 k Hk). pose proof (K 8 k ltac:(lia) Hk). pose proof (K 16 k ltac:(lia) Hk). pose proof (K 24 k ltac:(lia) Hk). unfold is_byte. lia. }
  rewrite EQ. split; [apply holds_store|]. intros a Ha. apply store_out. rewrite len_q2; lia.
Qed.
Lemma m_enc2q : Moves enc2q_upd (raw 32) q2 32 32 8 4.
Proof. exact (upd_moves _ _ 2 8 2 ltac:(lia) enc2q_ok). Qed.

(** *** 1 bit *)
Definition l1 (E : mem) (x : Z) : list Z := [plane E 0 x; plane E 0 (x + 8)].
Lemma top1 v j : (forall i, 0 <= i < 16 -> is_byte (v i)) -> 0 <= j < 16 -> (128 <=? sll16 7 v j) = Z.testbit (v j) 0.
Proof.
  intros Hv Hj. rewrite Z.bit0_odd. unfold sll16, lane16. change (2 ^ 7) with 128. destruct (lane_case j Hj) as [[E Hr]|[E Hr]]; rewrite E.
  - change (256 ^ 0) with 1. rewrite Z.div_1_r, Z.sub_0_r. pose proof (Hv j Hj) as B. pose proof (Hv (j + 1) ltac:(lia)) as B1. unfold is_byte in *.
    pose proof (Zodd_bool_iff (v j)) as Ho. destruct (Z.odd (v j)) eqn:Eo; rewrite Zodd_mod in Eo; [apply Zeq_bool_eq in Eo|apply Zeq_bool_neq in Eo]; lia.
  - change (256 ^ 1) with 256. replace (j - 1 + 1) with j by lia. pose proof (Hv j Hj) as B. pose proof (Hv (j - 1) ltac:(lia)) as B1. unfold is_byte in *.
    destruct (Z.odd (v j)) eqn:Eo; rewrite Zodd_mod in Eo; [apply Zeq_bool_eq in Eo|apply Zeq_bool_neq in Eo]; lia.
Qed.
Lemma enc1_ok M p q E x : holds M p (raw 16 E x) -> (forall i, x <= i < x + 16 -> 0 <= E i < 256) -> enc1_upd M p q = store M q (l1 E x).
Proof.
  intros HM HE. rewrite holds_raw in HM by lia. unfold enc1_upd, put16. f_equal.
  assert (V : forall i, 0 <= i < 16 -> load M p i = E (x + i)) by (intros i Hi; rewrite load_at by exact Hi; now apply HM).
  assert (EQ : movemask8 (sll16 7 (load M p)) = plane E 0 x + 256 * plane E 0 (x + 8)).
  { unfold movemask8. rewrite movemask_split. unfold plane. f_equal; [|f_equal]; apply mm8_ext; intros j Hj; rewrite top1 by (try (intros i Hi; rewrite V by exact Hi; apply HE); lia); rewrite V by lia; do 2 f_equal; lia. }
  rewrite EQ, <- (le16_lenum (l1 E x)).
  - f_equal. cbn [l1 lenum]. lia.
  - reflexivity.
  - repeat (apply Forall_cons; [apply plane_byte|]). apply Forall_nil.
Qed.
Lemma m_enc1 : Moves enc1_upd (raw 16) l1 16 16 2 256.
Proof.
  split; [intros; apply len_raw; lia|]. split; [reflexivity|]. intros M p q E x HM HE HA. rewrite (enc1_ok M p q E x HM HE). split; [apply holds_store|]. intros a Ha. apply store_out. change (len (l1 E x)) with 2. lia.
Qed.
Definition un1 (C : mem) (p : Z) : list (Z -> Z) := [vec 16 (spread (rd16 C p))].
Lemma reads_1 : Reads un1 l1 1 1.
Proof.
  intros C p E x H HE. split; [reflexivity|]. intros m j Hm Hj. replace m with 0 by lia. unfold un1. pick. rewrite vec_at by exact Hj. rewrite (spread_plane C p E 0 x H j Hj). rewrite Z.mul_0_r, Z.add_0_r.
  pose proof (HE (x + j) ltac:(lia)) as B. change (2 ^ 1) with 2 in B. assert (E (x + j) = 0 \/ E (x + j) = 1) as [-> | ->] by lia; reflexivity.
Qed.
Lemma m_dec1 : Moves dec1_upd l1 (raw 16) 16 2 16 2.
Proof. exact (reads_moves _ _ _ 1 2 1 ltac:(lia) reads_1 ltac:(reflexivity) ltac:(reflexivity)). Qed.
Lemma l1_mod E x : l1 (fun i => E i mod 2 ^ 1) x = l1 E x.
Proof.
  unfold l1, plane. f_equal; [|f_equal]; apply mm8_ext; intros j Hj; rewrite Z.mod_pow2_bits_low by lia; reflexivity.
Qed.

(** *** Loops *)
Definition Phase (ai ao : bool) (i i' adv qadv : Z) (src dst : list Z) (f : bst -> bres bst) : Prop :=
  forall M p q, Aligned ai p -> Aligned ao q -> holds M p src -> Apart p (len src) q (len dst) ->
    exists M', f (i, p, q, M) = Ret (i', p + adv, q + qadv, M') /\ holds M' q dst /\ forall a, a < q \/ q + len dst <= a -> M' a = M a.

Lemma may_ok b p : Aligned b p -> may b p = true.
Proof. intros H. unfold may, Aligned in *. destruct b; [|reflexivity]. rewrite (H eq_refl). reflexivity. Qed.

Section Loop.
  Variables (ai ao : bool) (cont : Z -> bool) (di sp sq : Z) (upd : mem -> Z -> Z -> mem) (src dst : mem -> Z -> list Z) (d lim K i0 : Z) (E : mem) (x : Z).
  Hypothesis HU : Moves upd src dst d sp sq lim.
  Hypothesis Hsp : 0 < sp.
  Hypothesis Hsq : 0 <= sq.
  Hypothesis Hd : 0 <= d.
  Hypothesis HK : 0 <= K < 2 ^ 62.
  Hypothesis Hai : ai = true -> sp mod 16 = 0.
  Hypothesis Hao : ao = true -> sq mod 16 = 0.
  Hypothesis Hgo : forall k, 0 <= k < K -> cont (i0 + di * k) = true.
  Hypothesis Hend : cont (i0 + di * K) = false.
  Hypothesis HE : forall i, x <= i < x + d * K -> 0 <= E i < lim.

  Lemma aligned_add b p s k : Aligned b p -> (b = true -> s mod 16 = 0) -> Aligned b (p + s * k).
  Proof. intros Hp Hs Hb. specialize (Hp Hb). specialize (Hs Hb). rewrite <- Z.add_mod_idemp_r, <- Z.mul_mod_idemp_l, Hs by lia. rewrite Z.mul_0_l, Z.add_0_r. exact Hp. Qed.
  Lemma phase_loop : Phase ai ao i0 (i0 + di * K) (sp * K) (sq * K) (rep K d (src E) x) (rep K d (dst E) x) (bloop ai ao cont di sp sq upd).
  Proof.
    intros M0 p q Hp Hq HM HA. destruct HU as (U1 & U2 & U3). rewrite (len_rep _ _ _ _ sp), (len_rep _ _ _ _ sq) in HA by (try apply U1; try apply U2; lia). rewrite (len_rep _ _ _ _ sq) by (try apply U2; lia).
    set (Iv := fun s : bst => exists k M, 0 <= k <= K /\ s = (i0 + di * k, p + sp * k, q + sq * k, M) /\ holds M q (rep k d (dst E) x) /\ forall a, a < q \/ q + sq * k <= a -> M a = M0 a).
    destruct (loop_inv (bstep ai ao cont di sp sq upd) Iv (fun '(_, p', _, _) => (p + sp * K - p') / sp)
      (fun r => exists M', r = Some (i0 + di * K, p + sp * K, q + sq * K, M') /\ holds M' q (rep K d (dst E) x) /\ forall a, a < q \/ q + sq * K <= a -> M' a = M0 a) (i0, p, q, M0)) as (r & E1 & M' & -> & H1 & H2).
    - intros s (k & M & Hk & -> & Hh & Ho). unfold bstep. destruct (Z.eq_dec k K) as [->|Hne].
      + rewrite Hend. exists M. auto.
      + rewrite Hgo by lia. rewrite !may_ok by (apply aligned_add; assumption). cbn [andb]. split.
        * exists (k + 1), (upd M (p + sp * k) (q + sq * k)). split; [lia|]. split; [do 3 (f_equal; try lia)|].
          pose proof (rep_piece M0 p K d (src E) x sp k ltac:(intros; apply U1) HM ltac:(lia)) as HS.
          assert (G1 : sp * k + sp <= sp * K) by nia. assert (G2 : sq * k + sq <= sq * K) by nia. assert (G3 : 0 <= sp * k) by nia. assert (G4 : 0 <= sq * k) by nia. assert (G5 : 0 <= d * k /\ d * k + d <= d * K) by nia. unfold Apart in *.
          destruct (U3 M (p + sp * k) (q + sq * k) E (x + d * k)) as [A B].
          { apply (holds_keep M0); [exact HS|]. rewrite U1. intros a Ha. apply Ho. lia. }
          { intros i Hi. apply HE. lia. }
          { unfold Apart. lia. }
          split.
          -- rewrite rep_S by lia. apply holds_app. rewrite (len_rep _ _ _ _ sq) by (try apply U2; lia). split; [|exact A].
             apply (holds_keep M); [exact Hh|]. rewrite (len_rep _ _ _ _ sq) by (try apply U2; lia). intros a Ha. apply B. lia.
          -- intros a Ha. rewrite B, Ho by lia. reflexivity.
        * replace ((p + sp * K - (p + sp * k + sp)) / sp) with (K - k - 1) by (replace (p + sp * K - (p + sp * k + sp)) with ((K - k - 1) * sp) by ring; now rewrite Z.div_mul by lia).
          replace ((p + sp * K - (p + sp * k)) / sp) with (K - k) by (replace (p + sp * K - (p + sp * k)) with ((K - k) * sp) by ring; now rewrite Z.div_mul by lia). lia.
    - exists 0, M0. rewrite !Z.mul_0_r, !Z.add_0_r. split; [lia|]. split; [reflexivity|]. split; [rewrite rep_0; exact I|reflexivity].
    - replace ((p + sp * K - p) / sp) with K by (replace (p + sp * K - p) with (K * sp) by ring; now rewrite Z.div_mul by lia). lia.
    - exists M'. unfold bloop. rewrite E1. auto.
  Qed.
End Loop.

Lemma phase_loop_len ai ao cont di sp sq upd src dst d lim K i0 E x : Moves upd src dst d sp sq lim -> 0 < sp -> 0 <= sq -> 0 <= d -> 0 <= K < 2 ^ 62 -> (ai = true -> sp mod 16 = 0) -> (ao = true -> sq mod 16 = 0) ->
  (forall k, 0 <= k < K -> cont (i0 + di * k) = true) -> cont (i0 + di * K) = false -> (forall i, x <= i < x + d * K -> 0 <= E i < lim) ->
  Phase ai ao i0 (i0 + di * K) (len (rep K d (src E) x)) (len (rep K d (dst E) x)) (rep K d (src E) x) (rep K d (dst E) x) (bloop ai ao cont di sp sq upd).
Proof.
  intros HU ? ? ? HK **. pose proof HU as (U1 & U2 & _). rewrite (len_rep K d (src E) x sp), (len_rep K d (dst E) x sq) by (try apply U1; try apply U2; lia). now apply (phase_loop ai ao cont di sp sq upd src dst d lim).
Qed.
(** The last step of a function need not advance both pointers. *)
Lemma phase_if cont di sp sq sp' sq' upd src dst d lim i E x : Moves upd src dst d sp sq lim -> (forall j, x <= j < x + d -> 0 <= E j < lim) -> cont i = true ->
  Phase false false i (i + di) sp' sq' (src E x) (dst E x) (bif cont di sp' sq' upd).
Proof.
  intros (U1 & U2 & U3) HE Hc M p q _ _ HM HA. rewrite U1, U2 in HA. rewrite U2. unfold bif. rewrite Hc. destruct (U3 M p q E x HM HE HA) as [A B]. exists (upd M p q). auto.
Qed.
Lemma phase_if_not cont di sp sq upd i : cont i = false -> Phase false false i i 0 0 [] [] (bif cont di sp sq upd).
Proof.
  intros Hc M p q _ _ _ _. unfold bif. rewrite Hc. exists M. change (len (@nil Z)) with 0. rewrite !Z.add_0_r. split; [reflexivity|]. split; [exact I|reflexivity].
Qed.
Lemma phase_bind ai ao i i' i'' a1 a2 b2 s1 s2 S d1 d2 f1 f2 : Phase ai ao i i' a1 (len d1) s1 d1 f1 -> Phase false false i' i'' a2 b2 s2 d2 f2 ->
  (forall M p, holds M p S -> holds M p s1 /\ holds M (p + a1) s2) -> 0 <= a1 -> len s1 <= len S -> a1 + len s2 <= len S ->
  Phase ai ao i i'' (a1 + a2) (len d1 + b2) S (d1 ++ d2) (fun s => bind (f1 s) f2).
Proof.
  intros P1 P2 HS Ha L1 L2 M p q Hp Hq HM HA. rewrite len_app in *. pose proof (len_nonneg d1). pose proof (len_nonneg d2). pose proof (len_nonneg s1). pose proof (len_nonneg s2). unfold Apart in HA. destruct (HS M p HM) as [HS1 HS2].
  destruct (P1 M p q Hp Hq HS1 ltac:(unfold Apart; lia)) as (M1 & E1 & A1 & B1). rewrite E1. cbn [bind].
  destruct (P2 M1 (p + a1) (q + len d1)) as (M2 & E2 & A2 & B2); try (intros ?; discriminate).
  - apply (holds_keep M); [exact HS2|]. intros a Hr. apply B1. lia.
  - unfold Apart. lia.
  - exists M2. rewrite E2. split; [rewrite !Z.add_assoc; reflexivity|]. split.
    + apply holds_app. split; [|exact A2]. apply (holds_keep M1); [exact A1|]. intros a Hr. apply B2. lia.
    + intros a Hr. rewrite B2, B1 by lia. reflexivity.
Qed.
(** The usual case *)
Lemma phase_seq ai ao i i' i'' a2 b2 s1 s2 d1 d2 f1 f2 : Phase ai ao i i' (len s1) (len d1) s1 d1 f1 -> Phase false false i' i'' a2 b2 s2 d2 f2 ->
  Phase ai ao i i'' (len s1 + a2) (len d1 + b2) (s1 ++ s2) (d1 ++ d2) (fun s => bind (f1 s) f2).
Proof.
  intros P1 P2. pose proof (len_nonneg s1). pose proof (len_nonneg s2). apply (phase_bind ai ao i i' i'' (len s1) a2 b2 s1 s2); try assumption; try (rewrite len_app; lia).
  intros M p Hh. now apply holds_app in Hh.
Qed.
Lemma phase_eq ai ao i i' a b a' b' s s' d d' f : Phase ai ao i i' a b s d f -> a = a' -> b = b' -> s = s' -> d = d' -> Phase ai ao i i' a' b' s' d' f.
Proof. intros H <- <- <- <-. exact H. Qed.

Lemma yields_intro from w lim (dom : Z -> Prop) (size arg : Z -> Z) ei eo di do encb decb :
  (forall V n, 0 <= n < 2 ^ 62 -> dom n -> (forall k, 0 <= k < n -> 0 <= V k < lim) -> exists L adv qadv i1 i2, len L = size n /\
     Phase ei eo 0 i1 adv (size n) (raw n V 0) L (encb n) /\ Phase di do 0 i2 (size n) qadv L (raw n (fun k => V (from n k) mod 2 ^ w) 0) (decb (arg n))) ->
  YieldsBits from w lim dom size arg ei eo di do (fun M p q n => bout (encb n (0, p, q, M))) (fun M p q n => bin (decb n (0, p, q, M))).
Proof.
  intros H M pin pout n Hn Hdom Hi Ho HA HV. destruct (H (fun k => M (pin + k)) n Hn Hdom HV) as (L & adv & qadv & i1 & i2 & HL & P1 & P2).
  destruct (P1 M pin pout Hi Ho) as (M1 & E1 & A1 & B1).
  { apply holds_raw; [lia|]. intros k Hk. f_equal. }
  { rewrite len_raw, HL by lia. exact HA. }
  rewrite HL in *. exists M1. split; [cbv beta; rewrite E1; reflexivity|]. split; [exact B1|].
  intros M2 p2 q0 HM2 Hdi Hdo HA2. destruct (P2 M2 p2 q0 Hdi Hdo) as (M3 & E3 & A3 & B3).
  { rewrite <- (slice_of_holds M1 pout L A1), HL, <- HM2. apply holds_slice. }
  { rewrite len_raw, HL by lia. exact HA2. }
  rewrite len_raw in * by lia. exists M3. split; [cbv beta; rewrite E3; reflexivity|]. split; [|exact B3].
  rewrite holds_raw in A3 by lia. exact A3.
Qed.
Lemma keeps_intro w lim (dom : Z -> Prop) (size arg : Z -> Z) ei eo di do encb decb :
  (forall V n, 0 <= n < 2 ^ 62 -> dom n -> (forall k, 0 <= k < n -> 0 <= V k < lim) -> exists L adv qadv i1 i2, len L = size n /\
     Phase ei eo 0 i1 adv (size n) (raw n V 0) L (encb n) /\ Phase di do 0 i2 (size n) qadv L (raw n (fun k => V k mod 2 ^ w) 0) (decb (arg n))) ->
  KeepsBits w lim dom size arg ei eo di do (fun M p q n => bout (encb n (0, p, q, M))) (fun M p q n => bin (decb n (0, p, q, M))).
Proof. exact (yields_intro (fun _ k => k) w lim dom size arg ei eo di do encb decb). Qed.
