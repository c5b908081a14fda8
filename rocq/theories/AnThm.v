(** The statistics of --analyze: what the counters are. *)
From Coq Require Import Permutation.
From Verif Require Import Base Spec AnModel AnSpec AnTrack.

(** ** The two halves of byRLE[j - 1] as sequences of places *)

Definition at_ (j s q : Z) : Z := j + q * s.
Definition reps (In : mem) (j s : Z) : Z -> bool := fun q => matches In (at_ j s q) j.
Definition syms (In : mem) (j s : Z) : Z -> Z -> Z := fun q k => In (at_ j s q + k).

Lemma equal_bytes_iff a b j : equal_bytes a b j = true <-> forall k, 0 <= k < j -> a k = b k.
Proof.
  unfold equal_bytes. rewrite forallb_forall. split.
  - intros H k Hk. specialize (H (Z.to_nat k) ltac:(apply in_seq; lia)). rewrite Z2Nat.id in H by lia. apply Z.eqb_eq. exact H.
  - intros H k Hk. apply in_seq in Hk. apply Z.eqb_eq. apply H. lia.
Qed.
Lemma matches_iff In i j : matches In i j = true <-> RepeatsAt In j i.
Proof. apply equal_bytes_iff. Qed.
Lemma matches_not In i j : matches In i j = false <-> ~ RepeatsAt In j i.
Proof. rewrite <- matches_iff. destruct (matches In i j); split; congruence. Qed.

Definition loop_n (z : Z) (In : mem) (n : nat) : analysis := fold_left (fun a i => an_step z In a (Z.of_nat i)) (seq 0 n) an_start.
Lemma loop_S z In n : loop_n z In (S n) = an_step z In (loop_n z In n) (Z.of_nat n).
Proof. unfold loop_n. rewrite seq_S, fold_left_app. reflexivity. Qed.

Lemma free_tracks z In j n : 1 <= j -> an_free (loop_n z In n) j = tracks z j j (reps In j 1) (syms In j 1) (Z.to_nat (Z.of_nat n - j)).
Proof.
  intros Hj. induction n as [|n IH].
  - replace (Z.to_nat (Z.of_nat 0 - j)) with O by lia. reflexivity.
  - rewrite loop_S. cbn [an_free an_step]. rewrite IH. destruct (Z.ltb_spec (Z.of_nat n) j) as [L|L].
    + f_equal. lia.
    + replace (Z.to_nat (Z.of_nat (S n) - j)) with (S (Z.to_nat (Z.of_nat n - j))) by lia. rewrite tracks_S.
      unfold reps, syms, at_. replace (j + Z.of_nat (Z.to_nat (Z.of_nat n - j)) * 1) with (Z.of_nat n) by lia. reflexivity.
Qed.
Lemma aligned_tracks z In j n : 1 <= j -> an_aligned (loop_n z In n) j = tracks z j 1 (reps In j j) (syms In j j) (Z.to_nat ((Z.of_nat n - 1) / j)).
Proof.
  intros Hj. induction n as [|n IH].
  - replace (Z.to_nat ((Z.of_nat 0 - 1) / j)) with O; [reflexivity|]. assert ((Z.of_nat 0 - 1) / j < 0) by (apply Z.div_lt_upper_bound; lia). lia.
  - rewrite loop_S. cbn [an_aligned an_step]. rewrite IH. replace (Z.of_nat (S n) - 1) with (Z.of_nat n) by lia.
    set (i := Z.of_nat n). destruct (Z.ltb_spec i j) as [L|L].
    + f_equal. rewrite (Z.div_small i j) by lia. assert ((i - 1) / j < 1) by (apply Z.div_lt_upper_bound; lia). lia.
    + pose proof (Z.div_mod i j ltac:(lia)) as D. pose proof (Z.mod_pos_bound i j ltac:(lia)) as M.
      assert (1 <= i / j) by (apply Z.div_le_lower_bound; lia).
      destruct (Z.eqb_spec (i mod j) 0) as [E|E].
      * assert (E2 : (i - 1) / j = i / j - 1) by (symmetry; apply (Z.div_unique _ _ _ (j - 1)); lia).
        rewrite E2. replace (Z.to_nat (i / j)) with (S (Z.to_nat (i / j - 1))) by lia. rewrite tracks_S.
        unfold reps, syms, at_. replace (j + Z.of_nat (Z.to_nat (i / j - 1)) * j) with i by lia. reflexivity.
      * assert (E2 : (i - 1) / j = i / j) by (symmetry; apply (Z.div_unique _ _ _ (i mod j - 1)); lia).
        rewrite E2. reflexivity.
Qed.

(** ** From numbers of places to places *)

Definition addr (j s : Z) (x : Z * Z) : Z * Z := (at_ j s (fst x), snd x).
Lemma enum_map {X Y} (Q : X -> Prop) (Q' : Y -> Prop) (f : X -> Y) l : (forall x y, f x = f y -> x = y) ->
  (forall y, Q' y <-> exists x, y = f x /\ Q x) -> Enumerates Q l -> Enumerates Q' (map f l).
Proof.
  intros Hf HQ [H1 H2]. split.
  - apply FinFun.Injective_map_NoDup; auto.
  - intros y. rewrite HQ, in_map_iff. split; intros (x & H); exists x; [|]; rewrite <- (H2 x) in *; intuition.
Qed.
Lemma addr_inj j s x y : 1 <= s -> addr j s x = addr j s y -> x = y.
Proof. destruct x, y. unfold addr, at_. cbn. intros Hs E. injection E as E1 E2. f_equal; nia. Qed.

Lemma place_iff j s size n i : 1 <= s -> (forall q, 0 <= q -> (q < n <-> at_ j s q < size)) ->
  (Place j s size i <-> exists q, i = at_ j s q /\ 0 <= q < n).
Proof.
  intros Hs Hn. unfold Place, at_ in *. split.
  - intros (H1 & H2). exists ((i - j) / s). pose proof (Z.div_mod (i - j) s ltac:(lia)) as D. rewrite H2 in D.
    assert (E : i = j + (i - j) / s * s) by lia. split; [exact E|]. assert (0 <= (i - j) / s) by (apply Z.div_pos; lia).
    split; [assumption|]. apply Hn; lia.
  - intros (q & -> & Hq). split; [split; [nia|apply Hn; lia]|]. replace (j + q * s - j) with (q * s) by lia. apply Z.mod_mul. lia.
Qed.

Lemma stretch_iff In j s size n v (Q : Z -> Prop) y : 1 <= s -> (forall q, 0 <= q -> (q < n <-> at_ j s q < size)) ->
  (forall q, Q (at_ j s q) <-> reps In j s q = v) ->
  (Stretch Q j s size y <-> exists x, y = addr j s x /\ Full (reps In j s) n v x).
Proof.
  intros Hs Hn HQ. destruct y as [i k]. pose proof (fun i => place_iff j s size n i Hs Hn) as HP.
  assert (Hat : forall a b, at_ j s a + b * s = at_ j s (a + b)) by (intros; unfold at_; lia).
  assert (Hat' : forall a, at_ j s a - s = at_ j s (a - 1)) by (intros; unfold at_; lia).
  assert (Hi : forall a b, at_ j s a = at_ j s b -> a = b) by (unfold at_; intros; nia).
  assert (Hv : forall q, reps In j s q = negb v <-> ~ Q (at_ j s q)) by (intros q; rewrite HQ; destruct (reps In j s q), v; cbn; split; congruence).
  unfold Stretch. split.
  - intros (H1 & H2 & H3 & H4 & H5 & H6). apply HP in H2. destruct H2 as (a & -> & Ha). exists (a, k). split; [reflexivity|].
    rewrite Hat in H3. apply HP in H3. destruct H3 as (b & Eb & Hb). apply Hi in Eb. subst b.
    rewrite Hat' in H5. rewrite Hat in H6. split; [|split; [lia|]].
    + split; [lia|]. split; [lia|]. split.
      * intros q Hq. apply HQ. specialize (H4 (q - a) ltac:(lia)). rewrite Hat in H4. replace (a + (q - a)) with q in H4 by lia. exact H4.
      * destruct (Z.eq_dec a 0) as [E|E]; [left; exact E|right]. apply Hv. intros K. apply H5. split; [|exact K]. apply HP. exists (a - 1). split; [reflexivity|lia].
    + destruct (Z.eq_dec (a + k) n) as [E|E]; [left; exact E|right]. apply Hv. intros K. apply H6. split; [|exact K]. apply HP. exists (a + k). split; [reflexivity|lia].
  - intros ([a k'] & E & (F1 & F2 & F3 & F4) & G1 & G2). unfold addr in E. cbn [fst snd] in E. injection E as -> ->.
    rewrite !Hat, Hat'. split; [lia|]. split; [apply HP; exists a; split; [reflexivity|lia]|].
    split; [apply HP; exists (a + (k' - 1)); split; [reflexivity|lia]|]. split; [|split].
    + intros q Hq. rewrite Hat. apply HQ. apply F3. lia.
    + intros (K1 & K2). apply HP in K1. destruct K1 as (b & Eb & Hb). apply Hi in Eb. subst b. destruct F4 as [F4|F4]; [lia|].
      apply Hv in F4. contradiction.
    + intros (K1 & K2). apply HP in K1. destruct K1 as (b & Eb & Hb). apply Hi in Eb. subst b. destruct G2 as [G2|G2]; [lia|].
      apply Hv in G2. contradiction.
Qed.

(** ** The counters *)

Lemma by_bits z f l lens : (forall n, List.In n lens -> 1 <= n < 2 ^ 32) -> lens = l ->
  (forall x, f x = total (fun n => one (x =? bit_index z n)) lens) -> ByMagnitude 32 f l.
Proof.
  intros Hr <- Hf. split.
  - intros b Hb. rewrite Hf, number_total. apply total_ext. intros n Hn. specialize (Hr n Hn).
    destruct (bit_index_ok z n Hr) as (-> & HL & _). unfold one.
    destruct (Z.eqb_spec (32 + b) (32 + Z.log2 n)) as [E|E].
    + assert (Eb : b = Z.log2 n) by lia. subst b. pose proof (Z.log2_spec n ltac:(lia)) as S. unfold Z.succ in S.
      replace (2 ^ Z.log2 n <=? n) with true by lia. replace (n <? 2 ^ (Z.log2 n + 1)) with true by lia. reflexivity.
    + destruct (Z.leb_spec (2 ^ b) n) as [L|L]; [|reflexivity]. destruct (Z.ltb_spec n (2 ^ (b + 1))) as [L2|L2]; [|reflexivity].
      exfalso. apply E. rewrite (Z.log2_unique n b); [reflexivity|lia|]. unfold Z.succ. lia.
  - intros x Hx. rewrite Hf. assert (forall n, List.In n lens -> one (x =? bit_index z n) = 0).
    { intros n Hn. destruct (bit_index_ok z n (Hr n Hn)) as (-> & HL & _). unfold one. replace (x =? 32 + Z.log2 n) with false by lia. reflexivity. }
    rewrite (total_ext _ (fun _ => 0)) by assumption. unfold total. clear. induction lens as [|n lens IH]; cbn [fold_right]; lia.
Qed.
Lemma by_length f l lens : (forall n, List.In n lens -> 1 <= n) -> lens = l ->
  (forall x, f x = total (fun n => one ((n <=? 64) && (x =? n - 1))) lens) -> ByLength f l.
Proof.
  intros Hr <- Hf. split.
  - intros m Hm. rewrite Hf, number_total. apply total_ext. intros n Hn. unfold one. destruct (Z.eqb_spec m n) as [E|E].
    + subst m. replace (n <=? 64) with true by lia. rewrite Z.eqb_refl. reflexivity.
    + replace (m - 1 =? n - 1) with false by lia. rewrite andb_false_r. reflexivity.
  - intros x Hx. rewrite Hf. assert (forall n, List.In n lens -> one ((n <=? 64) && (x =? n - 1)) = 0).
    { intros n Hn. specialize (Hr n Hn). unfold one. destruct (Z.leb_spec n 64); cbn [andb]; [|reflexivity]. replace (x =? n - 1) with false by lia. reflexivity. }
    rewrite (total_ext _ (fun _ => 0)) by assumption. unfold total. clear. induction lens as [|n lens IH]; cbn [fold_right]; lia.
Qed.

Lemma counted_of z In j s first size (n : nat) : 1 <= s -> 1 <= first -> Z.of_nat n + first <= 2 ^ 32 ->
  (forall q, 0 <= q -> (q < Z.of_nat n <-> at_ j s q < size)) ->
  let t := track_end z (tracks z j first (reps In j s) (syms In j s) n) in
  exists runs gaps, Enumerates (Run In j s size) runs /\ Enumerates (Gap In j s size) gaps /\ Counted first runs gaps t /\ Magnitudes 32 first runs gaps t /\
    (k_undef t = true <-> (Place j s size j /\ RepeatsAt In j j) /\ exists i, Place j s size i /\ ~ RepeatsAt In j i) /\
    k_runs t + k_empty t = Z.of_nat n + (first - 1) * k_count t.
Proof.
  intros Hs Hf Hb Hn. pose proof (end_ok z j first (reps In j s) (syms In j s) Hf n Hb) as HE.
  pose proof (weight_end z j first (reps In j s) (syms In j s) Hf n) as HW. cbv zeta in HE, HW |- *.
  set (t := track_end _ _) in *. destruct HE as (cr & cg & H1 & H2 & [] & H4 & HB).
  assert (HR : forall q, RepeatsAt In j (at_ j s q) <-> reps In j s q = true) by (intros q; unfold reps; rewrite matches_iff; reflexivity).
  assert (HG : forall q, ~ RepeatsAt In j (at_ j s q) <-> reps In j s q = false) by (intros q; unfold reps; rewrite matches_not; reflexivity).
  pose proof (fun i => place_iff j s size (Z.of_nat n) i Hs Hn) as HP.
  exists (map (addr j s) cr), (map (addr j s) cg).
  assert (Inj : forall x y, addr j s x = addr j s y -> x = y) by (intros x y; now apply addr_inj).
  split; [|split; [|apply and_assoc; split; [|split]]].
  - apply (enum_map (Full (reps In j s) (Z.of_nat n) true)); [exact Inj| |exact H1]. intros y. apply (stretch_iff In j s size (Z.of_nat n) true); auto.
  - apply (enum_map (Full (reps In j s) (Z.of_nat n) false)); [exact Inj| |exact H2]. intros y. apply (stretch_iff In j s size (Z.of_nat n) false); auto.
  - assert (Lr : forall x, List.In x cr -> 1 <= snd x + first - 1 < 2 ^ 32).
    { intros [a k] Hx. apply H1 in Hx. destruct Hx as ((K1 & K2 & _) & K3 & _). cbn. lia. }
    assert (Lg : forall x, List.In x cg -> 1 <= snd x < 2 ^ 32).
    { intros [a k] Hx. apply H2 in Hx. destruct Hx as ((K1 & K2 & _) & K3 & _). cbn. lia. }
    assert (Er : runLengths first (map (addr j s) cr) = map (fun x => snd x + first - 1) cr) by (unfold runLengths; rewrite map_map; reflexivity).
    assert (Eg : map snd (map (addr j s) cg) = map snd cg) by (rewrite map_map; reflexivity).
    assert (Mr : forall m, List.In m (map (fun x => snd x + first - 1) cr) -> 1 <= m < 2 ^ 32).
    { intros m Hm. apply in_map_iff in Hm. destruct Hm as (x & <- & Hx). apply Lr. exact Hx. }
    assert (Mg : forall m, List.In m (map (@snd Z Z) cg) -> 1 <= m < 2 ^ 32).
    { intros m Hm. apply in_map_iff in Hm. destruct Hm as (x & <- & Hx). apply Lg. exact Hx. }
    split; [constructor|split]; rewrite ?Er, ?Eg.
    + unfold len in *. rewrite map_length. exact s_count.
    + rewrite total_map. exact s_runs.
    + rewrite total_map. exact s_empty.
    + apply (by_length _ _ (map (fun x => snd x + first - 1) cr)); [apply Mr|reflexivity|intros x; rewrite total_map; apply s_runExact].
    + apply (by_length _ _ (map snd cg)); [apply Mg|reflexivity|intros x; rewrite total_map; apply s_emptyExact].
    + apply (by_bits z _ _ (map (fun x => snd x + first - 1) cr)); [exact Mr|reflexivity|intros x; rewrite total_map; apply s_runBits].
    + apply (by_bits z _ _ (map snd cg)); [exact Mg|reflexivity|intros x; rewrite total_map; apply s_emptyBits].
  - rewrite H4. assert (E0 : at_ j s 0 = j) by (unfold at_; lia). rewrite <- (HR 0), E0. split.
    + intros (K1 & q & Hq & K2). split; [split; [apply HP; exists 0; split; [now rewrite E0|lia]|exact K1]|].
      exists (at_ j s q). split; [apply HP; exists q; split; [reflexivity|lia]|apply HG; exact K2].
    + intros ((_ & K1) & i & Hi & K2). split; [exact K1|]. apply HP in Hi. destruct Hi as (q & -> & Hq). exists q. split; [exact Hq|apply HG; exact K2].
  - exact HW.
Qed.

Lemma an_free_eq z In size j : 0 <= size -> 1 <= j ->
  an_free (analyze z In size) j = track_end z (tracks z j j (reps In j 1) (syms In j 1) (Z.to_nat (size - j))).
Proof.
  intros H1 H2. unfold analyze. cbn [an_free]. f_equal. change (an_loop z In size) with (loop_n z In (Z.to_nat size)).
  rewrite free_tracks by lia. f_equal. lia.
Qed.
Lemma an_aligned_eq z In size j : 0 <= size -> 1 <= j ->
  an_aligned (analyze z In size) j = track_end z (tracks z j 1 (reps In j j) (syms In j j) (Z.to_nat ((size - 1) / j))).
Proof.
  intros H1 H2. unfold analyze. cbn [an_aligned]. f_equal. change (an_loop z In size) with (loop_n z In (Z.to_nat size)).
  rewrite aligned_tracks by lia. f_equal. f_equal. f_equal. lia.
Qed.

Lemma places_free j size q : 1 <= j -> 0 <= q -> (q < Z.of_nat (Z.to_nat (size - j)) <-> at_ j 1 q < size).
Proof. unfold at_. lia. Qed.
Lemma places_aligned j size q : 1 <= j -> 0 <= size -> 0 <= q -> (q < Z.of_nat (Z.to_nat ((size - 1) / j)) <-> at_ j j q < size).
Proof.
  intros Hj Hs Hq. unfold at_. split; intros H.
  - assert (q + 1 <= (size - 1) / j) by lia. pose proof (Z.mul_div_le (size - 1) j ltac:(lia)). nia.
  - assert (q + 1 <= (size - 1) / j) by (apply Z.div_le_lower_bound; nia). lia.
Qed.

Theorem free_counted z In size j : 0 <= size < 2 ^ 32 -> 1 <= j <= 16 ->
  let t := an_free (analyze z In size) j in
  exists runs gaps, Enumerates (Run In j 1 size) runs /\ Enumerates (Gap In j 1 size) gaps /\ Counted j runs gaps t /\ Magnitudes 32 j runs gaps t /\
    (k_undef t = true <-> (Place j 1 size j /\ RepeatsAt In j j) /\ exists i, Place j 1 size i /\ ~ RepeatsAt In j i) /\
    k_runs t + k_empty t = Z.max 0 (size - j) + (j - 1) * k_count t.
Proof.
  intros Hs Hj. cbv zeta. rewrite an_free_eq by lia.
  destruct (counted_of z In j 1 j size (Z.to_nat (size - j)) ltac:(lia) ltac:(lia) ltac:(lia)) as (runs & gaps & H1 & H2 & H3 & H3' & H4 & H5).
  { intros q Hq. apply places_free; lia. }
  exists runs, gaps. repeat (split; [assumption|]). rewrite H5. f_equal. lia.
Qed.
Theorem aligned_counted z In size j : 0 <= size < 2 ^ 32 -> 1 <= j <= 16 ->
  let t := an_aligned (analyze z In size) j in
  exists runs gaps, Enumerates (Run In j j size) runs /\ Enumerates (Gap In j j size) gaps /\ Counted 1 runs gaps t /\ Magnitudes 32 1 runs gaps t /\
    (k_undef t = true <-> (Place j j size j /\ RepeatsAt In j j) /\ exists i, Place j j size i /\ ~ RepeatsAt In j i) /\
    k_runs t + k_empty t = Z.max 0 ((size - 1) / j).
Proof.
  intros Hs Hj. cbv zeta. rewrite an_aligned_eq by lia. assert ((size - 1) / j <= size - 1 \/ size = 0) by (destruct (Z.eq_dec size 0); [now right|left; apply Z.div_le_upper_bound; nia]).
  destruct (counted_of z In j j 1 size (Z.to_nat ((size - 1) / j)) ltac:(lia) ltac:(lia)) as (runs & gaps & H1 & H2 & H3 & H3' & H4 & H5).
  { destruct (Z.eq_dec size 0) as [->|E]; [|lia]. assert ((0 - 1) / j < 0) by (apply Z.div_lt_upper_bound; lia). lia. }
  { intros q Hq. apply places_aligned; lia. }
  exists runs, gaps. repeat (split; [assumption|]). rewrite H5. lia.
Qed.
