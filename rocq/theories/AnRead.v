(** The statistics of --analyze: bounds of the tables, the bytes they depend on. *)
From Verif Require Import Base Spec AnModel AnSpec AnTrack AnThm.

(** ** Every store stays in its table *)

Definition Bounded (t : track) : Prop :=
  (forall x, k_bits t x <> 0 -> 0 <= x < 16 * 16) /\ (forall x, k_diff t x <> 0 -> 0 <= x < 32 * 32).
Lemma clamp_range lo hi x : lo <= hi -> lo <= clamp lo hi x <= hi.
Proof. unfold clamp. lia. Qed.
Lemma bounded_step z j first m s t : Bounded t -> Bounded (track_step z j first m s t).
Proof.
  intros [H1 H2]. unfold track_step. destruct m.
  - destruct (k_cur t =? 0); [|split; assumption]. destruct (use_symbol _ _ _ _) as [L R]. unfold end_gap. cbn [k_non set_symbols].
    destruct (k_non t =? 0); split; assumption.
  - unfold end_run. destruct (k_cur t =? 0); [split; assumption|]. split; cbn [k_bits k_diff set_non]; intros x; rewrite bump_at.
    + pose proof (clamp_range 0 15 (bit_index z (k_lastNon t) - 1) ltac:(lia)). pose proof (clamp_range 0 15 (bit_index z (k_cur t) - 1) ltac:(lia)).
      destruct (Z.eqb_spec x (clamp 0 15 (bit_index z (k_lastNon t) - 1) * 16 + clamp 0 15 (bit_index z (k_cur t) - 1))) as [->|E]; [lia|]. cbn [one].
      intros K. apply H1. lia.
    + pose proof (clamp_range 0 31 (k_lastDiff t + 15) ltac:(lia)). pose proof (clamp_range 0 31 (k_cur t - k_lastLen t + 15) ltac:(lia)).
      destruct (Z.eqb_spec x (clamp 0 31 (k_lastDiff t + 15) * 32 + clamp 0 31 (k_cur t - k_lastLen t + 15))) as [->|E]; [lia|]. cbn [one].
      intros K. apply H2. lia.
Qed.
Lemma bounded_end z j first P sy n : Bounded (track_end z (tracks z j first P sy n)).
Proof.
  assert (H : Bounded (tracks z j first P sy n)).
  { induction n as [|n IH]; [split; cbn; lia|]. rewrite tracks_S. apply bounded_step. exact IH. }
  unfold track_end. destruct (negb _); [exact H|]. destruct (negb _); exact H.
Qed.
Theorem free_bounded z In size j : 0 <= size -> 1 <= j <= 16 -> Bounded (an_free (analyze z In size) j).
Proof. intros. rewrite an_free_eq by lia. apply bounded_end. Qed.
Theorem aligned_bounded z In size j : 0 <= size -> 1 <= j <= 16 -> Bounded (an_aligned (analyze z In size) j).
Proof. intros. rewrite an_aligned_eq by lia. apply bounded_end. Qed.

(** ** The table of magnitudes *)

Lemma bits_of z In j s first (n : nat) size : 1 <= s -> 1 <= first -> Z.of_nat n + first <= 2 ^ 32 ->
  (forall q, 0 <= q -> (q < Z.of_nat n <-> at_ j s q < size)) ->
  let t := track_end z (tracks z j first (reps In j s) (syms In j s) n) in
  k_undef t = false -> (forall x, x <> 255 -> k_bits t x = 0) /\ k_count t - 1 <= k_bits t 255 <= k_count t.
Proof.
  intros Hs Hf Hb Hn. pose proof (end_ok z j first (reps In j s) (syms In j s) Hf n Hb) as HE. cbv zeta in HE |- *.
  set (t := track_end _ _) in *. destruct HE as (cr & cg & _ & _ & _ & _ & HB). intros U. specialize (HB U). split.
  - intros x Hx. rewrite HB. replace (x =? 255) with false by lia. cbn [one]. lia.
  - rewrite HB. rewrite Z.eqb_refl. cbn [one]. destruct (_ && _); cbn [one]; lia.
Qed.
Theorem free_bits z In size j : 0 <= size < 2 ^ 32 -> 1 <= j <= 16 -> let t := an_free (analyze z In size) j in
  k_undef t = false -> (forall x, x <> 255 -> k_bits t x = 0) /\ k_count t - 1 <= k_bits t 255 <= k_count t.
Proof.
  intros Hs Hj. cbv zeta. rewrite an_free_eq by lia. apply (bits_of z In j 1 j _ size); try lia. intros q Hq. apply places_free; lia.
Qed.
Theorem aligned_bits z In size j : 0 <= size < 2 ^ 32 -> 1 <= j <= 16 -> let t := an_aligned (analyze z In size) j in
  k_undef t = false -> (forall x, x <> 255 -> k_bits t x = 0) /\ k_count t - 1 <= k_bits t 255 <= k_count t.
Proof.
  intros Hs Hj. cbv zeta. rewrite an_aligned_eq by lia. apply (bits_of z In j j 1 _ size); try lia.
  intros q Hq. apply places_aligned; lia.
Qed.

(** ** The bytes read *)

Definition LastEq (j : Z) (L L' : Z -> Z -> Z) : Prop := forall r k, 0 <= k < j -> L r k = L' r k.
Record TrackEq (j : Z) (t t' : track) : Prop := mkTrackEq
  { q_figs : SameFigures t t'; q_last : LastEq j (k_last t) (k_last t');
    q_cur : k_cur t = k_cur t'; q_non : k_non t = k_non t'; q_lastLen : k_lastLen t = k_lastLen t'; q_lastNon : k_lastNon t = k_lastNon t';
    q_lastDiff : k_lastDiff t = k_lastDiff t' }.

Lemma equal_bytes_ext a a' b b' j : (forall k, 0 <= k < j -> a k = a' k) -> (forall k, 0 <= k < j -> b k = b' k) -> equal_bytes a b j = equal_bytes a' b' j.
Proof.
  intros Ha Hb. destruct (equal_bytes a' b' j) eqn:E.
  - apply equal_bytes_iff. intros k Hk. rewrite Ha, Hb by exact Hk. apply (proj1 (equal_bytes_iff a' b' j) E). exact Hk.
  - destruct (equal_bytes a b j) eqn:E2; [|reflexivity]. exfalso. assert (equal_bytes a' b' j = true); [|congruence]. apply equal_bytes_iff.
    intros k Hk. rewrite <- Ha, <- Hb by exact Hk. apply (proj1 (equal_bytes_iff a b j) E2). exact Hk.
Qed.
Lemma find_row_ext j L L' s s' : LastEq j L L' -> (forall k, 0 <= k < j -> s k = s' k) -> forall fuel r, find_row L s j r fuel = find_row L' s' j r fuel.
Proof.
  intros HL Hs. induction fuel as [|k IH]; intros r; cbn [find_row]; [reflexivity|].
  rewrite (equal_bytes_ext (L r) (L' r) s s' j (HL r) Hs), IH. reflexivity.
Qed.
Lemma set_row_ext j L L' r b b' : LastEq j L L' -> (forall k, 0 <= k < j -> b k = b' k) -> LastEq j (set_row L r b j) (set_row L' r b' j).
Proof. intros HL Hb x k Hk. unfold set_row. destruct (_ && _); [apply Hb|apply HL]; exact Hk. Qed.
Lemma shift_rows_ext j k : forall L L', LastEq j L L' -> LastEq j (shift_rows L j k) (shift_rows L' j k).
Proof. induction k as [|k IH]; intros L L' HL; cbn [shift_rows]; [exact HL|]. apply IH. apply set_row_ext; [exact HL|]. apply HL. Qed.
Lemma use_symbol_ext j L L' R R' s s' : LastEq j L L' -> (forall x, R x = R' x) -> (forall k, 0 <= k < j -> s k = s' k) ->
  LastEq j (fst (use_symbol L R s j)) (fst (use_symbol L' R' s' j)) /\ forall x, snd (use_symbol L R s j) x = snd (use_symbol L' R' s' j) x.
Proof.
  intros HL HR Hs. unfold use_symbol. rewrite (find_row_ext j L L' s s' HL Hs). cbn [fst snd]. split.
  - apply set_row_ext; [|exact Hs]. destruct (_ =? 0); [exact HL|]. apply shift_rows_ext. exact HL.
  - intros x. destruct (_ <? 16); [|apply HR]. unfold bump. rewrite HR. reflexivity.
Qed.
Lemma exact_ext f f' n : (forall x, f x = f' x) -> forall x, exact f n x = exact f' n x.
Proof. intros H x. unfold exact, bump. destruct (n <=? 64); rewrite H; reflexivity. Qed.
Lemma bump_ext f f' i : (forall x, f x = f' x) -> forall x, bump f i x = bump f' i x.
Proof. intros H x. unfold bump. rewrite H. reflexivity. Qed.

Lemma step_ext z j first m s s' t t' : (forall k, 0 <= k < j -> s k = s' k) -> TrackEq j t t' ->
  TrackEq j (track_step z j first m s t) (track_step z j first m s' t').
Proof.
  intros Hs [(A1 & A2 & A3 & A4 & A5 & A6 & A7 & A8 & A9 & A10) B1 B2 B3 B4 B5 B6]. unfold track_step. destruct m.
  - rewrite <- B2. destruct (k_cur t =? 0).
    + pose proof (use_symbol_ext j _ _ _ _ s s' B1 A8 Hs) as HU. destruct (use_symbol (k_last t) _ _ _) as [L R], (use_symbol (k_last t') _ _ _) as [L' R'].
      cbn [fst snd] in HU. destruct HU as [U1 U2]. unfold end_gap. cbn [k_non set_symbols]. rewrite <- B3.
      destruct (k_non t =? 0); (constructor; cbn; [|assumption|lia|lia|lia|lia|lia]); repeat split; cbn;
        rewrite <- ?B3; try assumption; try lia; try (apply bump_ext; assumption); try (apply exact_ext; assumption).
    + constructor; cbn; try assumption; try lia. repeat split; assumption.
  - unfold end_run. rewrite <- B2. destruct (k_cur t =? 0).
    + constructor; cbn; try assumption; try lia. repeat split; assumption.
    + constructor; cbn; try assumption; try lia. rewrite <- ?B2, <- ?B4, <- ?B5, <- ?B6.
      repeat split; cbn; try assumption; try lia; try (apply bump_ext; assumption); try (apply exact_ext; assumption).
Qed.
Lemma tracks_ext z j first P P' sy sy' n : (forall q, 0 <= q < Z.of_nat n -> P q = P' q) ->
  (forall q k, 0 <= q < Z.of_nat n -> 0 <= k < j -> sy q k = sy' q k) -> TrackEq j (tracks z j first P sy n) (tracks z j first P' sy' n).
Proof.
  induction n as [|n IH]; intros HP Hs.
  - constructor; try reflexivity; repeat split; reflexivity.
  - rewrite !tracks_S, HP by lia. apply step_ext; [intros k Hk; apply Hs; lia|]. apply IH; intros; [apply HP|apply Hs]; lia.
Qed.
Lemma end_ext z j t t' : TrackEq j t t' -> SameFigures (track_end z t) (track_end z t').
Proof.
  intros [(A1 & A2 & A3 & A4 & A5 & A6 & A7 & A8 & A9 & A10) B1 B2 B3 B4 B5 B6]. unfold track_end. rewrite <- B3, <- B2.
  destruct (negb (k_non t =? 0)); [|destruct (negb (k_cur t =? 0))];
    (repeat split; cbn; try assumption; try lia; try (apply bump_ext; assumption); try (apply exact_ext; assumption)).
Qed.

Lemma figures_of z In In' j s first size (n : nat) : 1 <= j -> 1 <= s -> (forall q, 0 <= q -> (q < Z.of_nat n <-> at_ j s q < size)) ->
  AgreeBelow (size + j - 1) In In' ->
  SameFigures (track_end z (tracks z j first (reps In j s) (syms In j s) n)) (track_end z (tracks z j first (reps In' j s) (syms In' j s) n)).
Proof.
  intros Hj Hs Hn HA. apply (end_ext z j). apply tracks_ext.
  - intros q Hq. assert (at_ j s q < size) by (apply Hn; lia). assert (j <= at_ j s q) by (unfold at_; nia).
    unfold reps, matches. apply equal_bytes_ext; intros k Hk; apply HA; lia.
  - intros q k Hq Hk. assert (at_ j s q < size) by (apply Hn; lia). assert (j <= at_ j s q) by (unfold at_; nia). apply HA. lia.
Qed.
Theorem free_reads z In In' size j : 0 <= size -> 1 <= j <= 16 -> AgreeBelow (size + j - 1) In In' ->
  SameFigures (an_free (analyze z In size) j) (an_free (analyze z In' size) j).
Proof. intros Hs Hj HA. rewrite !an_free_eq by lia. apply (figures_of z In In' j 1 j size); auto; try lia. intros q Hq. apply places_free; lia. Qed.
Theorem aligned_reads z In In' size j : 0 <= size -> 1 <= j <= 16 -> AgreeBelow (size + j - 1) In In' ->
  SameFigures (an_aligned (analyze z In size) j) (an_aligned (analyze z In' size) j).
Proof. intros Hs Hj HA. rewrite !an_aligned_eq by lia. apply (figures_of z In In' j j 1 size); auto; try lia. intros q Hq. apply places_aligned; lia. Qed.

(** The last of these bytes matters: all zeros, and a 1 right behind the bytes that are read for a file of [j + 1] bytes. *)
Definition oneAt (a : Z) : mem := fun k => if k =? a then 1 else 0.
Lemma behind_matters j : 1 <= j <= 16 ->
  k_count (an_free (analyze 0 (oneAt (j + 1 + j - 2)) (j + 1)) j) <> k_count (an_free (analyze 0 (oneAt (j + 1 + j - 1)) (j + 1)) j).
Proof.
  intros Hj. assert (H : forallb (fun k => let j := Z.of_nat k in
    negb (k_count (an_free (analyze 0 (oneAt (j + 1 + j - 2)) (j + 1)) j) =? k_count (an_free (analyze 0 (oneAt (j + 1 + j - 1)) (j + 1)) j))) (seq 1 16) = true) by (vm_compute; reflexivity).
  rewrite forallb_forall in H. specialize (H (Z.to_nat j) ltac:(apply in_seq; lia)). cbv zeta in H. rewrite Z2Nat.id in H by lia. lia.
Qed.
