(** The statistics of --analyze: shares, histograms, bounds of the tables, bytes read. *)
From Coq Require Import Permutation.
From Verif Require Import Base Spec AnModel AnSpec AnTrack AnThm.

(** ** Runs do not overlap *)

Lemma repeats_apart In j i d : 1 <= j -> RepeatsAt In j i -> ~ RepeatsAt In j (i + 1) -> 1 <= d <= j -> ~ RepeatsAt In j (i + d).
Proof.
  intros Hj H1 H2 Hd H3. apply H2. intros k Hk. destruct (Z.eq_dec k (j - 1)) as [->|E].
  - specialize (H3 (j - d) ltac:(lia)). replace (i + d + (j - d)) with (i + 1 + (j - 1)) in H3 by lia.
    replace (i + d - j + (j - d)) with (i + 1 - j + (j - 1)) in H3 by lia. exact H3.
  - specialize (H1 (k + 1) ltac:(lia)). replace (i + (k + 1)) with (i + 1 + k) in H1 by lia.
    replace (i - j + (k + 1)) with (i + 1 - j + k) in H1 by lia. exact H1.
Qed.

Theorem free_share z In size j : 1 <= size < 2 ^ 32 -> 1 <= j <= 16 ->
  let t := an_free (analyze z In size) j in 0 <= k_runs t <= size - 1.
Proof.
  intros Hs Hj. cbv zeta. destruct (free_counted z In size j ltac:(lia) Hj) as (runs & gaps & H1 & H2 & [C1 C2 C3 _ _] & _ & _ & HW).
  assert (Gr : forall x, List.In x runs -> 1 <= snd x) by (intros [i k] Hx; apply H1 in Hx; destruct Hx as (Hk & _); exact Hk).
  assert (Gg : forall x, List.In x gaps -> 1 <= snd x) by (intros [i k] Hx; apply H2 in Hx; destruct Hx as (Hk & _); exact Hk).
  assert (0 <= k_empty (an_free (analyze z In size) j)).
  { rewrite C3, total_map. clear - Gg. unfold total. induction gaps as [|x l IH]; cbn [fold_right]; [lia|]. pose proof (Gg x (or_introl eq_refl)).
    specialize (IH (fun y Hy => Gg y (or_intror Hy))). lia. }
  assert (0 <= k_runs (an_free (analyze z In size) j)).
  { rewrite C2. unfold runLengths. rewrite total_map. clear - Gr Hj. unfold total. induction runs as [|x l IH]; cbn [fold_right]; [lia|]. pose proof (Gr x (or_introl eq_refl)).
    specialize (IH (fun y Hy => Gr y (or_intror Hy))). lia. }
  split; [assumption|]. destruct (Z.eq_dec (len runs) 0) as [E|E].
  { assert (En : runs = []) by (apply (len_nil runs); exact E). rewrite En in C2. unfold total in C2. cbn [fold_right map runLengths] in C2. lia. }
  assert (K : 0 < k_count (an_free (analyze z In size) j)) by (pose proof (len_nonneg runs); lia).
  assert (j < size).
  { destruct runs as [|[i k] runs]; [exfalso; apply E; reflexivity|]. assert (HR : Run In j 1 size (i, k)) by (apply H1; left; reflexivity).
    destruct HR as (_ & ((HR1 & HR2) & _) & _). lia. }
  revert K HW. rewrite an_free_eq by lia. intros K HW.
  pose proof (spread_end z j j (reps In j 1) (syms In j 1) ltac:(lia) j (Z.to_nat (size - j)) ltac:(lia) ltac:(lia)) as HS. cbv zeta in HS.
  assert (HP : forall q, 0 <= q -> reps In j 1 q = true -> reps In j 1 (q + 1) = false -> forall d, 1 <= d <= j -> reps In j 1 (q + d) = false).
  { intros q Hq K1 K2 d Hd. unfold reps in *. apply matches_iff in K1. apply matches_not in K2. apply matches_not.
    replace (at_ j 1 (q + 1)) with (at_ j 1 q + 1) in K2 by (unfold at_; lia). replace (at_ j 1 (q + d)) with (at_ j 1 q + d) by (unfold at_; lia).
    apply repeats_apart; auto; lia. }
  specialize (HS HP K). nia.
Qed.

(** ** Histograms *)

Lemma number_app {X} (f : X -> bool) a b : number f (a ++ b) = number f a + number f b.
Proof. unfold number, len. rewrite filter_app, app_length. lia. Qed.

Theorem hist_ok z In size c : 0 <= size -> an_hist (analyze z In size) c = number (Z.eqb c) (slice In 0 size).
Proof.
  intros Hs. unfold analyze. cbn [an_hist]. change (an_loop z In size) with (loop_n z In (Z.to_nat size)).
  unfold slice. generalize (Z.to_nat size). clear. intros n.
  assert (H : slice_nat In 0 n = map (fun i => In (Z.of_nat i)) (seq 0 n)).
  { change 0 with (Z.of_nat 0). generalize 0%nat. induction n as [|n IH]; intros a; [reflexivity|]. cbn [slice_nat seq map].
    f_equal. rewrite <- IH. f_equal. lia. }
  rewrite H. clear H. induction n as [|n IH]; [reflexivity|]. rewrite loop_S, seq_S, map_app, number_app. cbn [an_hist an_step map].
  rewrite bump_at, IH. f_equal. cbn [Nat.add]. unfold number, one, len. cbn [filter]. destruct (c =? In (Z.of_nat n)); reflexivity.
Qed.

(** ** Where runs begin *)

Definition starts (P : Z -> bool) (n : nat) : list Z :=
  filter (fun q => P q && ((q =? 0) || negb (P (q - 1)))) (map Z.of_nat (seq 0 n)).
Lemma starts_S P n : starts P (S n) = starts P n ++ (if P (Z.of_nat n) && ((Z.of_nat n =? 0) || negb (P (Z.of_nat n - 1))) then [Z.of_nat n] else []).
Proof. unfold starts. rewrite seq_S, map_app, filter_app. reflexivity. Qed.
Lemma in_starts P n q : List.In q (starts P n) <-> 0 <= q < Z.of_nat n /\ P q = true /\ (q = 0 \/ P (q - 1) = false).
Proof.
  unfold starts. rewrite filter_In, in_map_iff. rewrite andb_true_iff, orb_true_iff, negb_true_iff, Z.eqb_eq. split.
  - intros ((x & <- & Hx) & K1 & K2). apply in_seq in Hx. split; [lia|]. auto.
  - intros (Hq & K1 & K2). split; [|auto]. exists (Z.to_nat q). split; [lia|]. apply in_seq. lia.
Qed.
Lemma nodup_starts P n : NoDup (starts P n).
Proof. unfold starts. apply NoDup_filter. apply FinFun.Injective_map_NoDup; [intros x y H; lia|apply seq_NoDup]. Qed.

Lemma cur_zero z j first P sy n : 1 <= first -> (0 <= k_cur (tracks z j first P sy n)) /\
  ((k_cur (tracks z j first P sy n) =? 0) = (Z.of_nat n =? 0) || negb (P (Z.of_nat n - 1))).
Proof.
  intros Hf. induction n as [|n (IH1 & _)]; [cbn; split; [lia|reflexivity]|]. rewrite tracks_S.
  replace (Z.of_nat (S n)) with (Z.of_nat n + 1) by lia. replace (Z.of_nat n + 1 - 1) with (Z.of_nat n) by lia.
  replace (Z.of_nat n + 1 =? 0) with false by lia. cbn [orb]. unfold track_step. destruct (P (Z.of_nat n)); cbn [negb].
  - destruct (Z.eqb_spec (k_cur (tracks z j first P sy n)) 0) as [E|E].
    + destruct (use_symbol _ _ _ _) as [L R]. cbn [k_cur set_cur]. lia.
    + cbn [k_cur set_cur]. lia.
  - unfold end_run. destruct (Z.eqb_spec (k_cur (tracks z j first P sy n)) 0) as [E|E]; cbn [k_cur set_non]; [rewrite E|]; lia.
Qed.

Definition use (j : Z) (sy : Z -> Z -> Z) (s : (Z -> Z -> Z) * (Z -> Z)) (q : Z) := use_symbol (fst s) (snd s) (sy q) j.
Lemma last_recur z j first P sy n : 1 <= first ->
  (k_last (tracks z j first P sy n), k_recur (tracks z j first P sy n)) = fold_left (use j sy) (starts P n) ((fun _ _ => 0), (fun _ => 0)).
Proof.
  intros Hf. induction n as [|n IH]; [reflexivity|]. rewrite starts_S, fold_left_app, <- IH, tracks_S.
  destruct (cur_zero z j first P sy n Hf) as (_ & <-). unfold track_step. destruct (P (Z.of_nat n)); cbn [andb].
  - destruct (k_cur _ =? 0).
    + cbn [fold_left]. unfold use at 1. cbn [fst snd]. destruct (use_symbol _ _ _ _) as [L R].
      unfold end_gap. cbn [k_non set_symbols]. destruct (k_non _ =? 0); reflexivity.
    + reflexivity.
  - unfold end_run. destruct (k_cur _ =? 0); reflexivity.
Qed.

(** Runs begin at the first member of a run. *)
Lemma first_of_run In j s size n i : 1 <= s -> (forall q, 0 <= q -> (q < Z.of_nat n <-> at_ j s q < size)) ->
  ((exists k, Run In j s size (i, k)) <-> List.In i (map (at_ j s) (starts (reps In j s) n))).
Proof.
  intros Hs Hn. rewrite in_map_iff.
  assert (HR : forall q, RepeatsAt In j (at_ j s q) <-> reps In j s q = true) by (intros q; unfold reps; rewrite matches_iff; reflexivity).
  split.
  - intros (k & HK). apply (stretch_iff In j s size (Z.of_nat n) true (RepeatsAt In j) (i, k) Hs Hn HR) in HK.
    destruct HK as ([a k'] & E & (F1 & F2 & F3 & F4) & F5 & F6). unfold addr in E. cbn [fst snd] in E. injection E as -> ->.
    exists a. split; [reflexivity|]. apply in_starts. split; [lia|]. split; [apply F3; lia|exact F4].
  - intros (q & <- & Hq). apply in_starts in Hq. destruct Hq as (Hq & K1 & K2).
    assert (G : exists k, Full (reps In j s) (Z.of_nat n) true (q, k)).
    { set (P := reps In j s) in *. assert (D : forall m, (Z.of_nat m <= Z.of_nat n - q) -> (1 <= Z.of_nat m) -> (forall r, q <= r < q + Z.of_nat m -> P r = true) \/ exists k, Full P (Z.of_nat n) true (q, k)).
      { induction m as [|m IH]; intros B1 B2; [lia|]. destruct (Nat.eq_dec m 0) as [->|Em].
        - left. intros r Hr. replace r with q by lia. exact K1.
        - destruct (IH ltac:(lia) ltac:(lia)) as [D|D]; [|right; exact D]. destruct (P (q + Z.of_nat m)) eqn:E.
          + left. intros r Hr. destruct (Z.eq_dec r (q + Z.of_nat m)) as [->|Er]; [exact E|]. apply D. lia.
          + right. exists (Z.of_nat m). split; [|split; [lia|right; exact E]]. split; [lia|]. split; [lia|]. split; [exact D|exact K2]. }
      destruct (D (Z.to_nat (Z.of_nat n - q)) ltac:(lia) ltac:(lia)) as [F|F]; [|exact F].
      exists (Z.of_nat n - q). split; [|split; [lia|left; lia]]. split; [lia|]. split; [lia|]. split; [|exact K2]. intros r Hr. apply F. lia. }
    destruct G as (k & G). exists k. apply (stretch_iff In j s size (Z.of_nat n) true (RepeatsAt In j) _ Hs Hn HR). exists (q, k). split; [reflexivity|exact G].
Qed.

(** ** The symbols of the runs of single bytes *)

Theorem run_hist_ok z In size c : 0 <= size < 2 ^ 32 ->
  exists runs, Enumerates (Run In 1 1 size) runs /\ an_runHist (analyze z In size) c = number (fun x => In (fst x) =? c) runs.
Proof.
  intros Hs. destruct (free_counted z In size 1 ltac:(lia) ltac:(lia)) as (runs & gaps & H1 & _).
  exists runs. split; [exact H1|].
  assert (E : an_runHist (analyze z In size) c = number (fun i => In i =? c) (map (at_ 1 1) (starts (reps In 1 1) (Z.to_nat (size - 1))))).
  { unfold analyze. cbn [an_runHist]. change (an_loop z In size) with (loop_n z In (Z.to_nat size)).
    replace (Z.to_nat (size - 1)) with (Z.to_nat size - 1)%nat by lia. generalize (Z.to_nat size). clear. intros n.
    induction n as [|n IH]; [reflexivity|]. rewrite loop_S. cbn [an_runHist an_step]. rewrite (free_tracks z In 1 n) by lia.
    destruct (cur_zero z 1 1 (reps In 1 1) (syms In 1 1) (Z.to_nat (Z.of_nat n - 1)) ltac:(lia)) as (_ & ->).
    destruct n as [|n]; [reflexivity|]. replace (S (S n) - 1)%nat with (S n) by lia. replace (S n - 1)%nat with n in IH by lia.
    rewrite starts_S, map_app, number_app, <- IH. replace (1 <=? Z.of_nat (S n)) with true by lia. cbn [andb].
    replace (Z.of_nat (Z.to_nat (Z.of_nat (S n) - 1))) with (Z.of_nat n) by lia.
    replace (matches In (Z.of_nat (S n)) 1) with (reps In 1 1 (Z.of_nat n)) by (unfold reps, at_; f_equal; lia).
    destruct (reps In 1 1 (Z.of_nat n) && _).
    - rewrite bump_at. cbn [map]. unfold at_. replace (1 + Z.of_nat n * 1) with (Z.of_nat (S n)) by lia.
      f_equal. unfold number, one, len. cbn [filter]. rewrite (Z.eqb_sym c). destruct (In (Z.of_nat (S n)) =? c); reflexivity.
    - cbn [map]. change (number (fun i : Z => In i =? c) []) with 0. lia. }
  rewrite E. rewrite number_total. symmetry. transitivity (total (fun i => if In i =? c then 1 else 0) (map fst runs)).
  - rewrite number_total, total_map. reflexivity.
  - apply total_perm. apply NoDup_Permutation.
    + assert (G : forall i k k', Run In 1 1 size (i, k) -> Run In 1 1 size (i, k') -> k = k').
      { intros i k k' (A1 & A2 & A3 & A4 & A5 & A6) (B1 & B2 & B3 & B4 & B5 & B6).
        destruct (Z_lt_dec k k') as [L|L]; [|destruct (Z_lt_dec k' k) as [L'|L']; [|lia]]; exfalso.
        - apply A6. split; [|apply B4; lia]. unfold Place in *. rewrite !Z.mod_1_r in *. lia.
        - apply B6. split; [|apply A4; lia]. unfold Place in *. rewrite !Z.mod_1_r in *. lia. }
      destruct H1 as [N1 N2]. assert (G' : forall x y, List.In x runs -> List.In y runs -> fst x = fst y -> x = y).
      { intros [i k] [i' k'] Hx Hy. cbn. intros <-. f_equal. apply N2 in Hx. apply N2 in Hy. eapply G; eassumption. }
      clear - N1 G'. induction runs as [|x l IH]; [constructor|]. cbn [map]. inversion N1; subst. constructor.
      * rewrite in_map_iff. intros (y & Ey & Hy). assert (x = y) by (apply G'; [now left|now right|auto]). subst y. contradiction.
      * apply IH; [assumption|]. intros a b Ha Hb. apply G'; now right.
    + apply FinFun.Injective_map_NoDup; [intros a b; unfold at_; lia|apply nodup_starts].
    + intros i. rewrite <- (first_of_run In 1 1 size (Z.to_nat (size - 1)) i) by (try lia; intros q Hq; apply places_free; lia).
      rewrite in_map_iff. split.
      * intros ([i' k] & <- & Hx). exists k. apply H1. exact Hx.
      * intros (k & Hk). exists (i, k). split; [reflexivity|]. apply H1. exact Hk.
Qed.
