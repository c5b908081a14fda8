(** The run count table of the low entropy codecs: write_info followed by read_info. *)
From Coq Require Import Permutation.
From Verif Require Import Base Simd Spec ExtModel PktModel Rle8Model LeModel.

Lemma in_range256 x : List.In x range256 <-> is_byte x.
Proof.
  unfold range256, is_byte. rewrite in_map_iff. split.
  - intros (k & <- & Hk). apply in_seq in Hk. lia.
  - intros H. exists (Z.to_nat x). split; [lia|]. apply in_seq. lia.
Qed.

Lemma NoDup_range256 : NoDup range256.
Proof. apply FinFun.Injective_map_NoDup; [intros a b H; lia|apply seq_NoDup]. Qed.

Lemma len_range256 : len range256 = 256.
Proof. reflexivity. Qed.

Lemma nth_map_of_nat k m d : (k < m)%nat -> nth k (map Z.of_nat (seq 0 m)) d = Z.of_nat k.
Proof. intros H. rewrite nth_indep with (d' := Z.of_nat O) by (rewrite map_length, seq_length; lia). rewrite map_nth, seq_nth by lia. reflexivity. Qed.

Lemma length_range256 : length range256 = 256%nat.
Proof. reflexivity. Qed.

Lemma tab_range {X} (d : X) f k : is_byte k -> tab d (map f range256) k = f k.
Proof.
  intros H. unfold is_byte in H. unfold tab. rewrite nth_indep with (d' := f 0) by (rewrite map_length, length_range256; lia).
  rewrite map_nth. unfold range256. rewrite nth_map_of_nat by lia. f_equal. lia.
Qed.

Lemma length_upto32 : length (upto 32) = 32%nat.
Proof. reflexivity. Qed.
Global Opaque range256.

(** *** Selection *)

Lemma sel_max_spec pcount consumed :
  (forall i, 0 <= pcount i) ->
  (exists i, is_byte i /\ consumed i = false) ->
  (forall i, is_byte i -> consumed i = false -> 0 < pcount i) ->
  is_byte (sel_max pcount consumed) /\ consumed (sel_max pcount consumed) = false.
Proof.
  intros Hnn (i0 & Hi0 & Hc0) Hpos. unfold sel_max.
  set (f := fun '(m, mi) i => if negb (consumed i) && (m <? pcount i) then (pcount i, i) else (m, mi)).
  assert (G : forall l s, (forall x, List.In x l -> is_byte x) ->
             (fst s = 0 \/ (is_byte (snd s) /\ consumed (snd s) = false)) -> 0 <= fst s ->
             (fst s > 0 \/ exists x, List.In x l /\ consumed x = false) ->
             is_byte (snd (fold_left f l s)) /\ consumed (snd (fold_left f l s)) = false).
  { clear Hi0 Hc0 i0. induction l as [|x l IH]; intros [m mi] Hl Hs H0 Hex; cbn [fold_left fst snd] in *.
    - destruct Hex as [H|(x & [] & _)]. destruct Hs as [H'|H']; [lia|exact H'].
    - assert (Hx : is_byte x) by (apply Hl; now left).
      assert (Hl' : forall y, List.In y l -> is_byte y) by (intros y Hy; apply Hl; now right).
      unfold f at 2 4. destruct (consumed x) eqn:Ec; cbn [negb andb].
      + apply IH; cbn [fst snd]; auto. destruct Hex as [H|(y & [->|Hy] & Hc)]; [now left|congruence|right; eauto].
      + specialize (Hpos x Hx Ec). destruct (m <? pcount x) eqn:Em.
        * apply IH; cbn [fst snd]; [exact Hl'|right; auto|lia|left; lia].
        * apply IH; cbn [fst snd]; [exact Hl'|exact Hs|exact H0|left; lia]. }
  apply G; cbn [fst snd]; [intros x Hx; now apply in_range256|now left|lia|].
  right. exists i0. split; [now apply in_range256|exact Hc0].
Qed.

Lemma select_perm pcount : (forall i, 0 <= pcount i) -> forall k consumed,
  (forall i, is_byte i -> consumed i = false -> 0 < pcount i) ->
  length (filter (fun i => negb (consumed i)) range256) = k ->
  Permutation (select k pcount consumed) (filter (fun i => negb (consumed i)) range256).
Proof.
  intros Hnn. induction k as [|k IH]; intros consumed Hpos Hk; cbn [select].
  - destruct (filter _ _); [constructor|discriminate].
  - set (x := sel_max pcount consumed).
    assert (Hx : is_byte x /\ consumed x = false).
    { apply sel_max_spec; [exact Hnn| |exact Hpos].
      destruct (filter (fun i => negb (consumed i)) range256) as [|y l] eqn:E; [discriminate|].
      assert (Hy : List.In y (y :: l)) by now left. rewrite <- E in Hy. apply filter_In in Hy. destruct Hy as [H1 H2].
      exists y. split; [now apply in_range256|]. now destruct (consumed y). }
    destruct Hx as [Hx1 Hx2].
    assert (HP : Permutation (x :: filter (fun i => negb ((i =? x) || consumed i)) range256) (filter (fun i => negb (consumed i)) range256)).
    { apply NoDup_Permutation.
      - constructor; [|apply NoDup_filter, NoDup_range256]. rewrite filter_In. intros [_ H]. rewrite Z.eqb_refl in H. discriminate.
      - apply NoDup_filter, NoDup_range256.
      - intros y. cbn [List.In]. rewrite !filter_In. destruct (Z.eq_dec y x) as [->|Hne].
        + rewrite Hx2. split; [intros _; split; [now apply in_range256|reflexivity]|auto].
        + replace (y =? x) with false by lia. cbn [orb]. split; [intros [->|H]; [congruence|exact H]|auto]. }
    eapply Permutation_trans; [|exact HP]. constructor. apply IH.
    + intros i Hi Hc. apply Hpos; [exact Hi|]. now destruct (consumed i), (i =? x).
    + apply Permutation_length in HP. cbn [length] in HP. lia.
Qed.

Lemma filter_perm {X} (p : X -> bool) l : Permutation (filter (fun i => negb (p i)) l ++ filter p l) l.
Proof.
  induction l as [|x l IH]; cbn [filter]; [constructor|]. destruct (p x); cbn [negb].
  - eapply Permutation_trans; [apply Permutation_sym, Permutation_middle|]. now constructor.
  - cbn [app]. now constructor.
Qed.

(** The table is a permutation of the byte values, and behind the written entries the others
    follow in ascending order. *)
Lemma le_table_spec pcount : (forall i, 0 <= pcount i) ->
  let '(syms, count) := le_table pcount in
  let k := Z.to_nat (le_written count) in
  Permutation syms range256 /\ 1 <= le_written count <= 255 /\ 0 <= count < 256 /\
  skipn k syms = filter (fun i => negb (existsb (Z.eqb i) (firstn k syms))) range256.
Proof.
  intros Hnn. unfold le_table.
  set (unused := filter (fun i => pcount i =? 0) range256).
  pose proof (len_nonneg unused) as Hu0.
  assert (HL : len unused + len (filter (fun i => negb (pcount i =? 0)) range256) = 256).
  { pose proof (Permutation_length (filter_perm (fun i => pcount i =? 0) range256)) as H.
    rewrite app_length in H. fold unused in H. rewrite length_range256 in H. unfold len. lia. }
  assert (HP : Permutation (select (Z.to_nat (256 - len unused)) pcount (fun i => pcount i =? 0)) (filter (fun i => negb (pcount i =? 0)) range256)).
  { apply select_perm; [exact Hnn|intros i _ Hi; specialize (Hnn i); lia|unfold len in *; lia]. }
  set (sel := select _ _ _) in *.
  assert (Hsyms : Permutation (sel ++ unused) range256).
  { eapply Permutation_trans; [apply Permutation_app_tail, HP|]. apply filter_perm. }
  assert (Hls : len sel = 256 - len unused). { unfold len in *. rewrite (Permutation_length HP). lia. }
  pose proof (len_nonneg sel) as Hs0.
  split; [exact Hsyms|]. unfold le_written, w8.
  assert (Hc : (256 - len unused) mod 256 = 0 \/ (256 - len unused) mod 256 = 256 - len unused /\ 0 < len unused < 256) by (clear - Hs0 Hls Hu0; lia).
  assert (HND : NoDup (sel ++ unused)) by (eapply Permutation_NoDup; [apply Permutation_sym, Hsyms|apply NoDup_range256]).
  destruct Hc as [Hc|[Hc Hr]]; rewrite Hc.
  - cbn [Z.eqb]. change (0 =? 0) with true. cbv iota. split; [lia|]. split; [lia|].
    set (l := sel ++ unused) in *. change (Z.to_nat 255) with 255%nat.
    pose proof (Permutation_length Hsyms) as Hlen. rewrite length_range256 in Hlen.
    assert (H1 : length (skipn 255 l) = 1%nat) by (rewrite skipn_length; lia).
    destruct (skipn 255 l) as [|z [|? ?]] eqn:E; try discriminate. clear H1.
    symmetry. apply Permutation_length_1_inv. apply NoDup_Permutation; [repeat constructor; auto|apply NoDup_filter, NoDup_range256|].
    pose proof (firstn_skipn 255 l) as Hfs. rewrite E in Hfs.
    intros x. rewrite filter_In. split.
    + intros [<-|[]]. split.
      * eapply Permutation_in; [exact Hsyms|]. rewrite <- Hfs. apply in_app_iff. right. now left.
      * destruct (existsb _ _) eqn:Ex; [|reflexivity]. exfalso. apply existsb_exists in Ex. destruct Ex as (y & Hy & Hzy).
        assert (y = z) by lia. subst y. rewrite <- Hfs in HND. apply NoDup_remove_2 in HND. apply HND. apply in_app_iff. now left.
    + intros [H1 H2]. apply (Permutation_in _ (Permutation_sym Hsyms)) in H1. rewrite <- Hfs in H1. apply in_app_iff in H1.
      destruct H1 as [H1|H1]; [|exact H1]. exfalso.
      assert (Hex : existsb (Z.eqb x) (firstn 255 l) = true) by (apply existsb_exists; exists x; split; [exact H1|lia]).
      rewrite Hex in H2. discriminate.
  - replace (256 - len unused =? 0) with false by lia. split; [lia|]. split; [lia|].
    replace (Z.to_nat (256 - len unused)) with (length sel) by (unfold len in *; lia).
    rewrite skipn_app, skipn_all, Nat.sub_diag, firstn_app, firstn_all, Nat.sub_diag. cbn [skipn firstn app]. rewrite app_nil_r.
    unfold unused. apply filter_ext_in. intros a Ha. apply in_range256 in Ha.
    assert (Hin : List.In a sel <-> pcount a <> 0).
    { split; intros H.
      - apply (Permutation_in _ HP) in H. apply filter_In in H. destruct H as [_ H]. lia.
      - apply (Permutation_in _ (Permutation_sym HP)). apply filter_In. split; [now apply in_range256|lia]. }
    destruct (existsb (Z.eqb a) sel) eqn:Ex.
    + apply existsb_exists in Ex. destruct Ex as (y & Hy & Hay). assert (y = a) by lia. subst y. apply Hin in Hy. cbn [negb]. lia.
    + cbn [negb]. destruct (pcount a =? 0) eqn:E; [reflexivity|]. exfalso.
      assert (Hex : existsb (Z.eqb a) sel = true) by (apply existsb_exists; exists a; split; [apply Hin; lia|lia]). congruence.
Qed.

(** *** Reading *)

Lemma fold_upd_nth syms m : NoDup syms -> (m <= length syms)%nat -> forall t0 x,
  fold_left (fun t i => upd t (tab 0 syms i) i) (map Z.of_nat (seq 0 m)) t0 x =
  match find (fun j => tab 0 syms (Z.of_nat j) =? x) (seq 0 m) with Some j => Z.of_nat j | None => t0 x end.
Proof.
  intros HND. induction m as [|m IH]; intros Hm t0 x; [reflexivity|].
  rewrite seq_S, map_app, fold_left_app. cbn [map fold_left Nat.add]. unfold upd at 1.
  destruct (x =? tab 0 syms (Z.of_nat m)) eqn:E.
  - assert (Hn : find (fun j => tab 0 syms (Z.of_nat j) =? x) (seq 0 m ++ [m]) = Some m); [|now rewrite Hn].
    assert (G : forall l, (forall j, List.In j l -> (j < m)%nat) -> find (fun j => tab 0 syms (Z.of_nat j) =? x) (l ++ [m]) = Some m).
    { induction l as [|j l IHl]; intros Hl; cbn [app find].
      - replace (tab 0 syms (Z.of_nat m) =? x) with true by lia. reflexivity.
      - assert (Hj : (j < m)%nat) by (apply Hl; now left).
        destruct (tab 0 syms (Z.of_nat j) =? x) eqn:Ej; [|apply IHl; intros; apply Hl; now right].
        exfalso. unfold tab in *. rewrite !Nat2Z.id in *.
        assert (j = m); [|lia]. apply (proj1 (NoDup_nth syms 0) HND); lia. }
    apply G. intros j Hj. apply in_seq in Hj. lia.
  - rewrite IH by lia. clear IH.
    assert (G : forall l, find (fun j => tab 0 syms (Z.of_nat j) =? x) (l ++ [m]) = find (fun j => tab 0 syms (Z.of_nat j) =? x) l).
    { induction l as [|j l IHl]; cbn [app find]; [|now rewrite IHl]. replace (tab 0 syms (Z.of_nat m) =? x) with false by lia. reflexivity. }
    now rewrite G.
Qed.

Lemma find_index syms m k : NoDup syms -> (k < m)%nat -> (m <= length syms)%nat ->
  find (fun j => tab 0 syms (Z.of_nat j) =? nth k syms 0) (seq 0 m) = Some k.
Proof.
  intros HND Hk Hm. destruct (find _ _) as [j|] eqn:E.
  - apply find_some in E. destruct E as [E1 E2]. apply in_seq in E1. unfold tab in E2. rewrite Nat2Z.id in E2.
    f_equal. apply (proj1 (NoDup_nth syms 0) HND); lia.
  - exfalso. pose proof (find_none _ _ E k ltac:(apply in_seq; lia)) as H. unfold tab in H. rewrite Nat2Z.id in H. cbv beta in H. lia.
Qed.

(** The second loop: unlisted values get consecutive numbers in ascending order. *)
Lemma fold_next (p : Z -> bool) l : NoDup l -> forall t next, 0 <= next -> next + len (filter (fun i => negb (p i)) l) <= 256 ->
  let r := fst (fold_left (fun '(t, next) i => if p i then (t, next) else (upd t i next, w8 (next + 1))) l (t, next)) in
  (forall x, (p x = true \/ ~ List.In x l) -> r x = t x) /\
  (forall k, (k < length (filter (fun i => negb (p i)) l))%nat -> r (nth k (filter (fun i => negb (p i)) l) 0) = next + Z.of_nat k).
Proof.
  induction 1 as [|a l Ha HND IH]; intros t next H0 H1; cbn [fold_left filter].
  - split; [reflexivity|]. cbn [length]. intros; lia.
  - cbn [filter] in H1. destruct (p a) eqn:Ep; cbn [negb] in *.
    + destruct (IH t next H0 H1) as [I1 I2]. split; [|exact I2].
      intros x Hx. apply I1. destruct Hx as [Hx|Hx]; [now left|]. right. intros H. apply Hx. now right.
    + rewrite len_cons in H1.
      destruct (filter (fun i => negb (p i)) l) as [|b l'] eqn:Ef.
      * assert (I1 : forall l t n, filter (fun i => negb (p i)) l = [] ->
                       fst (fold_left (fun '(t, next) i => if p i then (t, next) else (upd t i next, w8 (next + 1))) l (t, n)) = t).
        { clear. induction l as [|c l IHl]; intros t n Hf; [reflexivity|]. cbn [filter fold_left] in *. destruct (p c); [|discriminate]. now apply IHl. }
        rewrite I1 by exact Ef. split.
        -- intros x Hx. unfold upd. destruct (x =? a) eqn:E; [|reflexivity]. exfalso. assert (x = a) by lia. subst x.
           destruct Hx as [Hx|Hx]; [congruence|]. apply Hx. now left.
        -- intros k Hk. cbn [length] in Hk. assert (k = O) by lia. subst k. cbn [nth]. unfold upd. rewrite Z.eqb_refl. lia.
      * rewrite len_cons in H1. pose proof (len_nonneg l').
        rewrite w8_id by lia.
        destruct (IH (upd t a next) (next + 1)) as [I1 I2]; [lia|rewrite len_cons; lia|]. split.
        -- intros x Hx. rewrite I1.
           ++ unfold upd. destruct (x =? a) eqn:E; [|reflexivity]. exfalso. assert (x = a) by lia. subst x.
              destruct Hx as [Hx|Hx]; [congruence|]. apply Hx. now left.
           ++ destruct Hx as [Hx|Hx]; [now left|]. right. intros H2. apply Hx. now right.
        -- intros k Hk. destruct k as [|k].
           ++ cbn [nth]. rewrite I1 by (right; exact Ha). unfold upd. rewrite Z.eqb_refl. lia.
           ++ cbn [length] in Hk. change (nth (S k) (a :: b :: l') 0) with (nth k (b :: l') 0). rewrite I2 by (cbn [length]; lia). lia.
Qed.

(** Reading the first [k] entries recovers the position of every entry. *)
Lemma read_table_spec syms k : Permutation syms range256 -> 1 <= k <= 255 ->
  skipn (Z.to_nat k) syms = filter (fun i => negb (existsb (Z.eqb i) (firstn (Z.to_nat k) syms))) range256 ->
  forall j, 0 <= j < 256 -> read_table (firstn (Z.to_nat k) syms) (tab 0 syms j) = j.
Proof.
  intros HP Hk Hrest j Hj.
  assert (HND : NoDup syms) by (eapply Permutation_NoDup; [apply Permutation_sym, HP|apply NoDup_range256]).
  pose proof (Permutation_length HP) as Hlen. rewrite length_range256 in Hlen.
  unfold read_table. set (f := firstn (Z.to_nat k) syms) in *.
  assert (Hf : length f = Z.to_nat k) by (unfold f; rewrite firstn_length; lia).
  assert (HNf : NoDup f). { rewrite <- (firstn_skipn (Z.to_nat k) syms) in HND. fold f in HND. clear - HND. induction f as [|a l IH]; [constructor|]. cbn [app] in HND. inversion HND as [|? ? H1 H2]; subst. constructor; [|now apply IH]. intros H. apply H1. apply in_app_iff. now left. }
  set (t1 := fold_left _ (upto (len f)) _).
  assert (Hlf : len f = k) by (unfold len; lia). rewrite Hlf. rewrite (w8_id k) by lia.
  assert (Hls : len (filter (fun i => negb (existsb (Z.eqb i) f)) range256) = 256 - k).
  { rewrite <- Hrest. unfold len. rewrite skipn_length. lia. }
  destruct (fold_next (fun i => existsb (Z.eqb i) f) range256 NoDup_range256 t1 k) as [F1 F2]; [lia|rewrite Hls; lia|].
  assert (Hsplit : tab 0 syms j = if j <? k then nth (Z.to_nat j) f 0 else nth (Z.to_nat (j - k)) (skipn (Z.to_nat k) syms) 0).
  { unfold tab. rewrite <- (firstn_skipn (Z.to_nat k) syms) at 1. fold f. destruct (j <? k) eqn:E.
    - apply app_nth1. lia.
    - rewrite app_nth2 by lia. rewrite Hf. f_equal. lia. }
  rewrite Hsplit. destruct (j <? k) eqn:E.
  - rewrite F1.
    + unfold t1, upto. rewrite Hlf. rewrite fold_upd_nth by (try exact HNf; lia). rewrite find_index by (try exact HNf; lia). lia.
    + left. apply existsb_exists. exists (nth (Z.to_nat j) f 0). split; [apply nth_In; lia|lia].
  - rewrite Hrest. rewrite F2; [lia|]. rewrite <- Hrest, skipn_length. lia.
Qed.

(** *** Flags *)

Lemma flag_byte_byte rle i : is_byte (flag_byte rle i).
Proof.
  unfold flag_byte. change (upto 8) with [0;1;2;3;4;5;6;7]. cbn [fold_left].
  destruct (rle (0 + i * 8)), (rle (1 + i * 8)), (rle (2 + i * 8)), (rle (3 + i * 8)),
    (rle (4 + i * 8)), (rle (5 + i * 8)), (rle (6 + i * 8)), (rle (7 + i * 8)); vm_compute; split; congruence.
Qed.

Lemma flag_bit rle i j : 0 <= j < 8 -> negb (Z.land (flag_byte rle i) (2 ^ j) =? 0) = rle (j + i * 8).
Proof.
  intros Hj. unfold flag_byte. change (upto 8) with [0;1;2;3;4;5;6;7]. cbn [fold_left].
  assert (Hc : j = 0 \/ j = 1 \/ j = 2 \/ j = 3 \/ j = 4 \/ j = 5 \/ j = 6 \/ j = 7) by lia.
  destruct Hc as [->|[->|[->|[->|[->|[->|[->| ->]]]]]]];
  destruct (rle (0 + i * 8)), (rle (1 + i * 8)), (rle (2 + i * 8)), (rle (3 + i * 8)),
    (rle (4 + i * 8)), (rle (5 + i * 8)), (rle (6 + i * 8)), (rle (7 + i * 8)); reflexivity.
Qed.

(** *** Header *)

(** What the codecs need of an info. *)
Definition InfoOk (info : leinfo) : Prop :=
  Permutation (li_syms info) range256 /\ 1 <= le_written (li_count info) <= 255 /\ 0 <= li_count info < 256 /\
  skipn (Z.to_nat (le_written (li_count info))) (li_syms info) =
  filter (fun i => negb (existsb (Z.eqb i) (firstn (Z.to_nat (le_written (li_count info))) (li_syms info)))) range256.

Lemma len_write_info info : InfoOk info -> len (write_info info) = 33 + le_written (li_count info).
Proof.
  intros (HP & Hw & _). unfold write_info. rewrite !len_app. unfold len at 1 2 3. rewrite map_length, firstn_length, (Permutation_length HP).
  rewrite length_range256. rewrite length_upto32. cbn [length]. lia.
Qed.

Lemma write_info_bytes info : InfoOk info -> Forall is_byte (write_info info).
Proof.
  intros (HP & Hw & Hc & _). unfold write_info. apply Forall_app. split; [|apply Forall_app; split].
  - apply Forall_forall. intros x Hx. apply in_map_iff in Hx. destruct Hx as (i & <- & _). apply flag_byte_byte.
  - repeat constructor; apply Hc.
  - apply Forall_forall. intros x Hx. apply in_range256. eapply Permutation_in; [exact HP|].
    rewrite <- (firstn_skipn (Z.to_nat (le_written (li_count info))) (li_syms info)). apply in_app_iff. now left.
Qed.

Lemma read_write_info info C p l : InfoOk info -> holds C p (write_info info ++ l) ->
  exists rle stc, read_info C p = (rle, stc, len (write_info info)) /\
    (forall b, is_byte b -> rle b = li_rle info b) /\
    (forall k, 0 <= k < 256 -> stc (tab 0 (li_syms info) k) = k).
Proof.
  intros HI Hh. rewrite (len_write_info info HI). pose proof HI as (HP & Hw & Hc & Hrest).
  apply holds_app in Hh. destruct Hh as [Hh _]. unfold write_info in Hh.
  apply holds_app in Hh. destruct Hh as [Hf Hh]. apply holds_app in Hh. destruct Hh as [Hcnt Hs].
  assert (L32 : len (map (flag_byte (li_rle info)) (upto 32)) = 32) by (unfold len; rewrite map_length; reflexivity).
  rewrite L32 in *. cbn [holds] in Hcnt. destruct Hcnt as [Hcnt _]. change (len [li_count info]) with 1 in Hs.
  unfold read_info. rewrite Hcnt. replace (p + 32 + 1) with (p + 33) in Hs by lia.
  set (k := le_written (li_count info)) in *.
  assert (Hsl : slice C (p + 33) k = firstn (Z.to_nat k) (li_syms info)).
  { rewrite <- (slice_of_holds _ _ _ Hs). f_equal. unfold len. rewrite firstn_length, (Permutation_length HP). rewrite length_range256. lia. }
  rewrite Hsl. eexists _, _. split; [reflexivity|]. split.
  - intros b Hb. rewrite tab_range by exact Hb. unfold read_rle. unfold is_byte in Hb.
    rewrite (holds_nth _ _ _ _ Hf) by (rewrite L32; lia).
    rewrite nth_indep with (d' := flag_byte (li_rle info) 0) by (unfold len in L32; lia). rewrite map_nth.
    unfold upto. rewrite nth_map_of_nat by lia. rewrite flag_bit by lia. f_equal. lia.
  - intros j Hj. rewrite tab_range.
    + apply read_table_spec; assumption.
    + unfold tab. apply in_range256. eapply Permutation_in; [exact HP|]. apply nth_In. rewrite (Permutation_length HP). rewrite length_range256. lia.
Qed.

(** *** Statistics *)

Definition u32 (f : Z -> Z) := forall x, 0 <= f x < 2 ^ 32.

Lemma u32_upd f k v : u32 f -> u32 (upd f k (w32 v)).
Proof. intros H x. unfold upd. destruct (x =? k); [apply Z.mod_pos_bound; lia|apply H]. Qed.

Lemma hist_u32 L In n : u32 (fst (hist L In n)) /\ u32 (snd (hist L In n)).
Proof.
  unfold hist.
  assert (G : forall l s, u32 (snd (fst s)) -> u32 (snd s) ->
     u32 (snd (fst (fold_left (hist_step L) l s))) /\ u32 (snd (fold_left (hist_step L) l s))).
  { induction l as [|b l IH]; intros [[[last count] prob] pcount] H1 H2; cbn [fold_left fst snd] in *; [auto|].
    apply IH; unfold hist_step; destruct (b =? last); cbn [fst snd]; auto using u32_upd. }
  set (s0 := (0, 0, fun _ : Z => 0, _)). specialize (G (slice In 0 n) s0).
  destruct (fold_left (hist_step L) (slice In 0 n) s0) as [[[last count] prob] pcount]. cbn [fst snd] in *.
  destruct G as [G1 G2].
  - unfold s0. cbn [fst snd]. intros x. lia.
  - unfold s0. cbn [fst snd]. destruct (In 0 =? 0); intros x; [lia|]. unfold upd. destruct (x =? 0); lia.
  - split; now apply u32_upd.
Qed.

Lemma tab_nonneg (f : Z -> Z) : u32 f -> forall i, 0 <= tab 0 (map f range256) i.
Proof.
  intros H i. unfold tab. destruct (nth_in_or_default (Z.to_nat i) (map f range256) 0) as [H1|H1]; [|lia].
  apply in_map_iff in H1. destruct H1 as (y & <- & _). apply H.
Qed.

Lemma le_info_ok L max In n : InfoOk (le_info L max In n).
Proof.
  unfold le_info. pose proof (hist_u32 L In n) as [H1 H2]. destruct (hist L In n) as [prob pcount]. cbn [fst snd] in *.
  pose proof (le_table_spec (tab 0 (map pcount range256)) (tab_nonneg _ H2)) as HT.
  destruct (le_table (tab 0 (map pcount range256))) as [syms count]. exact HT.
Qed.
