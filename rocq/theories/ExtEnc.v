(** Encoder side of the extreme codecs: the emitted bytes are a well-formed packet
    stream for the input, no longer than the input plus a constant. *)
From Verif Require Import Base Simd SimdProof Spec LargeSpec ExtModel ExtDec.

(** ** Masks *)

Lemma lead_nat_spec f n : forall j,
  j <= lead_nat f n j <= j + Z.of_nat n /\
  (forall k, j <= k < lead_nat f n j -> f k = true) /\
  (lead_nat f n j < j + Z.of_nat n -> f (lead_nat f n j) = false).
Proof.
  induction n as [|n IH]; intros j; cbn [lead_nat].
  - split; [lia|]. split; [intros; lia|lia].
  - destruct (f j) eqn:E.
    + destruct (IH (j + 1)) as (H1 & H2 & H3). split; [lia|]. split.
      * intros k Hk. destruct (Z.eq_dec k j) as [->|]; [exact E|]. apply H2. lia.
      * intros H. apply H3. lia.
    + split; [lia|]. split; [intros; lia|]. intros _. exact E.
Qed.

Lemma lead_spec f n : 0 <= n ->
  0 <= lead f n <= n /\ (forall k, 0 <= k < lead f n -> f k = true) /\ (lead f n < n -> f (lead f n) = false).
Proof.
  intros H. unfold lead. destruct (lead_nat_spec f (Z.to_nat n) 0) as (H1 & H2 & H3).
  split; [lia|]. split; [exact H2|]. intros K. apply H3. lia.
Qed.

Lemma highest_nat_spec f n k :
  (k < n)%nat -> f (Z.of_nat k) = true -> Z.of_nat k <= highest_nat f n < Z.of_nat n.
Proof.
  induction n as [|n IH]; intros Hk Hf; [lia|]. cbn [highest_nat].
  destruct (f (Z.of_nat n)) eqn:E; [lia|].
  destruct (Nat.eq_dec k n) as [->|]; [congruence|]. specialize (IH ltac:(lia) Hf). lia.
Qed.

Lemma mask_true W f j : mask W f j = true -> 0 <= j < W /\ f j = true.
Proof. unfold mask. intros H. apply andb_true_iff in H. destruct H as [H1 H2]. split; [lia|exact H2]. Qed.

Lemma fold_mask_sound S W f j : okS S -> S <> 16 ->
  fold_mask S (mask W f) j = true ->
  forall k, 0 <= k < S -> 0 <= j + k < W /\ f (j + k) = true.
Proof.
  intros HS H16 H k Hk. apply mask_true. unfold fold_mask, mand, mshr in H.
  destruct HS as [->|[->|[->|[->|[->| ->]]]]]; try congruence; cbn [Z.eqb Pos.eqb] in H;
    rewrite !andb_true_iff in H.
  - assert (k = 0 \/ k = 1) as [->| ->] by lia; rewrite ?Z.add_0_r; intuition congruence.
  - assert (k = 0 \/ k = 1 \/ k = 2) as [->|[->| ->]] by lia; rewrite ?Z.add_0_r; intuition congruence.
  - replace (j + 1 + 2) with (j + 3) in H by lia.
    assert (k = 0 \/ k = 1 \/ k = 2 \/ k = 3) as [->|[->|[->| ->]]] by lia; rewrite ?Z.add_0_r; intuition congruence.
  - replace (j + 1 + 3) with (j + 4) in H by lia. replace (j + 2 + 3) with (j + 5) in H by lia.
    assert (k = 0 \/ k = 1 \/ k = 2 \/ k = 3 \/ k = 4 \/ k = 5) as [->|[->|[->|[->|[->| ->]]]]] by lia;
      rewrite ?Z.add_0_r; intuition congruence.
  - replace (j + 1 + 2 + 4) with (j + 7) in H by lia. replace (j + 1 + 4) with (j + 5) in H by lia.
    replace (j + 2 + 4) with (j + 6) in H by lia. replace (j + 1 + 2) with (j + 3) in H by lia.
    assert (k = 0 \/ k = 1 \/ k = 2 \/ k = 3 \/ k = 4 \/ k = 5 \/ k = 6 \/ k = 7) as [->|[->|[->|[->|[->|[->|[->| ->]]]]]]] by lia;
      rewrite ?Z.add_0_r; intuition congruence.
Qed.

Lemma align_bit_ok S b : okS S -> S <> 16 -> 0 <= b < 32 ->
  0 <= align_bit S b <= b /\ align_bit S b mod S = 0.
Proof.
  intros HS H16 Hb.
  assert (K : forall S, (forallb (fun k => (0 <=? align_bit S (Z.of_nat k)) && (align_bit S (Z.of_nat k) <=? Z.of_nat k) &&
     (align_bit S (Z.of_nat k) mod S =? 0)) (seq 0 32) = true) -> 0 <= align_bit S b <= b /\ align_bit S b mod S = 0).
  { intros S0 H. pose proof (forall_range 32 (fun k => (0 <=? align_bit S0 k) && (align_bit S0 k <=? k) && (align_bit S0 k mod S0 =? 0)) H b Hb) as K.
    cbv beta in K. rewrite !andb_true_iff in K. rewrite Z.eqb_eq in K. lia. }
  apply K. destruct HS as [->|[->|[->|[->|[->| ->]]]]]; try congruence; vm_compute; reflexivity.
Qed.

Lemma enc_vec_spec S v sym j : okS S -> S <> 16 -> len sym = S -> 0 <= j < simdW v ->
  symbyte (enc_vec S v sym) j = symbyte sym (j mod S).
Proof.
  intros HS H16 Hl Hj. unfold enc_vec.
  assert (Happ : forall l, 0 < S -> symbyte (sym ++ l) (j mod S) = symbyte sym (j mod S)).
  { intros l HSp. unfold symbyte. apply app_nth1. unfold len in Hl.
    pose proof (Z.mod_pos_bound j S HSp). lia. }
  destruct (S =? 3) eqn:E3; [|destruct (S =? 6) eqn:E6].
  - assert (HS3 : S = 3) by lia. rewrite HS3 in *. rewrite vec24_spec by (rewrite app_length; unfold len in Hl; cbn; lia).
    cbn [fst]. rewrite lanes_nth by lia. rewrite Z.mul_0_l, Z.add_0_l. apply Happ. lia.
  - assert (HS6 : S = 6) by lia. rewrite HS6 in *. rewrite vec48_spec by (rewrite app_length; unfold len in Hl; cbn; lia).
    cbn [fst]. rewrite lanes_nth by lia. rewrite Z.mul_0_l, Z.add_0_l. apply Happ. lia.
  - unfold set1. rewrite (symbyte_map_seq (fun j => symbyte sym (j mod S))); [reflexivity|].
    destruct (simdW_cases v); lia.
Qed.

(** ** Runs *)

(** The [count] bytes of [In] before [i] repeat [sym]. *)
Definition run (S : Z) (In : mem) (i count : Z) (sym : list Z) : Prop :=
  forall k, 0 <= k < count -> In (i - count + k) = symbyte sym (k mod S).

Lemma mod_add0 S a j : 0 < S -> a mod S = 0 -> (a + j) mod S = j mod S.
Proof. intros HS H. rewrite <- Z.add_mod_idemp_l by lia. rewrite H. reflexivity. Qed.

Lemma run_ext S In i count sym b :
  0 < S -> count mod S = 0 -> run S In i count sym ->
  (forall j, 0 <= j < b -> In (i + j) = symbyte sym (j mod S)) -> 0 <= count ->
  run S In (i + b) (count + b) sym.
Proof.
  intros HS Hm Hr Hb Hc k Hk. replace (i + b - (count + b) + k) with (i - count + k) by lia.
  destruct (Z_lt_ge_dec k count) as [H|H]; [apply Hr; lia|].
  replace (i - count + k) with (i + (k - count)) by lia. rewrite Hb by lia.
  f_equal. replace k with (count + (k - count)) at 2 by lia. symmetry. now apply mod_add0.
Qed.

Lemma run_slice c In i count sym : len sym = xS c -> 0 <= count ->
  run (xS c) In i count sym -> slice In (i - count) count = periodic sym count.
Proof.
  intros Hl Hc Hr. unfold periodic. apply slice_map_shift. intros k Hk. rewrite Hr by lia. rewrite Hl. reflexivity.
Qed.

Lemma eqb_bytes_load In S i sym : 0 <= S -> eqb_bytes (load In S i) sym = true ->
  forall j, 0 <= j < S -> In (i + j) = symbyte sym j.
Proof.
  intros HS H j Hj. apply eqb_bytes_eq in H. rewrite <- H. unfold load, symbyte. now rewrite nth_slice by lia.
Qed.

Lemma symbyte_load In S i j : 0 <= j < S -> symbyte (load In S i) j = In (i + j).
Proof. intros H. unfold symbyte, load. now rewrite nth_slice by lia. Qed.

(** ** Invariants *)

Record OInv (c : xcfg) (In : mem) (last : Z) (lsym out : list Z) : Prop := {
  oi_last : 0 <= last;
  oi_len : len lsym = xS c;
  oi_ser : Ser c (repeat 0 (Z.to_nat (xS c))) out (slice In 0 last) lsym;
  oi_cost : len out <= last;
  oi_bytes : Forall is_byte out }.

Record RInv (c : xcfg) (In : mem) (n i count : Z) (sym : list Z) (last : Z) : Prop := {
  ri_count : 0 <= count;
  ri_last : last <= i - count;
  ri_len : len sym = xS c;
  ri_bytes : Forall is_byte sym;
  ri_i : i <= n + xS c;
  ri_run : run (xS c) In i count sym;
  ri_mod : xUnb c = false -> count mod xS c = 0 }.

Lemma len_emit_count c sym lsym count : len sym = xS c -> 
  len (emit_count c sym lsym count) =
    if xPack c then (if stored_count c count <=? 127 then 1 else 5) + (if eqb_bytes sym lsym then 0 else xS c)
    else xS c + (if stored_count c count <=? 255 then 1 else 5).
Proof.
  intros Hl. unfold emit_count. destruct (xPack c).
  - rewrite len_app. destruct (stored_count c count <=? 127); destruct (eqb_bytes sym lsym);
      rewrite ?len_cons, ?len_le32, ?len_nil, ?Hl; lia.
  - rewrite len_app, Hl. destruct (stored_count c count <=? 255); rewrite ?len_cons, ?len_le32, ?len_nil; lia.
Qed.

Lemma stored_le c count : cok c -> 0 <= count -> stored_count c count <= count - (if xPack c then 2 else 0) + (if xUnb c then 0 else 3).
Proof.
  intros [HS _] H. apply okS_pos in HS. unfold stored_count, xSHORT. destruct (xUnb c), (xPack c); try lia.
  - pose proof (Z.div_pos 3 (xS c) ltac:(lia) ltac:(lia)).
    pose proof (Z.div_le_upper_bound count (xS c) count ltac:(lia) ltac:(nia)). lia.
  - pose proof (Z.div_le_lower_bound (xS c + 1 + 1 + 2) (xS c) 1 ltac:(lia) ltac:(lia)).
    pose proof (Z.div_le_upper_bound count (xS c) count ltac:(lia) ltac:(nia)). lia.
Qed.

Lemma packet_cost c In st bytes :
  cok c -> len (e_sym st) = xS c -> 0 <= e_count st -> e_last st <= e_i st - e_count st ->
  packet c In st = Some bytes -> len bytes <= e_i st - e_last st.
Proof.
  intros Hc Hl Hcnt Hlast H. unfold packet in H.
  pose proof (stored_le c (e_count st) Hc Hcnt) as Hst. pose proof Hc as [HS HP7]. apply okS_pos in HS.
  set (range := e_i st - e_last st - e_count st + 1) in *.
  destruct (accept_short c range (e_count st) (e_sym st) (e_lsym st)) eqn:EA.
  - injection H as <-. rewrite !len_app, (len_emit_count _ _ _ _ Hl), len_slice by lia.
    unfold accept_short in EA. apply andb_true_iff in EA. destruct EA as [_ EA].
    assert (len (emit_range_short c range) = 1) as -> by (unfold emit_range_short; destruct (xP7 c); reflexivity).
    unfold xSHORT, xMEDIUM in *. destruct (xPack c).
    + destruct (eqb_bytes (e_sym st) (e_lsym st)); destruct (stored_count c (e_count st) <=? 127) eqn:E; destruct (xUnb c); lia.
    + destruct (stored_count c (e_count st) <=? 255) eqn:E; destruct (xUnb c); lia.
  - destruct (xLONG c <=? e_count st) eqn:EL; [|discriminate]. injection H as <-.
    rewrite !len_app, (len_emit_count _ _ _ _ Hl), len_slice by lia.
    assert (len (emit_range_long c range) = if xP7 c then 4 else 5) as -> by (unfold emit_range_long; destruct (xP7 c); reflexivity).
    unfold xLONG, xFULL in EL. destruct (xPack c); destruct (xP7 c); try (specialize (HP7 eq_refl); discriminate).
    + destruct (stored_count c (e_count st) <=? 127); destruct (eqb_bytes (e_sym st) (e_lsym st)); lia.
    + destruct (stored_count c (e_count st) <=? 127); destruct (eqb_bytes (e_sym st) (e_lsym st)); lia.
    + destruct (stored_count c (e_count st) <=? 255); lia.
Qed.

Lemma packet_count_ok c In st bytes : cok c -> packet c In st = Some bytes ->
  xSHORT c <= e_count st /\
  exists rf, bytes = emit_count c (e_sym st) (e_lsym st) (e_count st) ++ rf ++ slice In (e_last st) (e_i st - e_count st - e_last st) /\
    ((rf = emit_range_short c (e_i st - e_last st - e_count st + 1) /\ e_i st - e_last st - e_count st + 1 <= xMAXR c) \/
     rf = emit_range_long c (e_i st - e_last st - e_count st + 1)).
Proof.
  intros [HS HP7] H. apply okS_pos in HS. unfold packet in H.
  destruct (accept_short c _ (e_count st) (e_sym st) (e_lsym st)) eqn:EA.
  - injection H as <-. unfold accept_short in EA. apply andb_true_iff in EA. destruct EA as [EA1 EA2]. split.
    + unfold xSHORT, xMEDIUM in *. destruct (xPack c); lia.
    + eexists. split; [reflexivity|]. left. split; [reflexivity|]. lia.
  - destruct (xLONG c <=? e_count st) eqn:EL; [|discriminate]. injection H as <-. split.
    + unfold xSHORT, xLONG, xFULL in *. destruct (xPack c), (xP7 c); lia.
    + eexists. split; [reflexivity|]. right. reflexivity.
Qed.

Lemma Forall_w8 x : is_byte (w8 x).
Proof. unfold w8, is_byte. lia. Qed.

Lemma bytes_emit_count c sym lsym count : cok c -> count_ok c count -> Forall is_byte sym ->
  Forall is_byte (emit_count c sym lsym count).
Proof.
  intros Hc Hcnt H. pose proof (stored_ok c count Hc Hcnt) as [Hs _]. unfold emit_count. destruct (xPack c).
  - apply Forall_app. split.
    + destruct (stored_count c count <=? 127) eqn:E.
      * constructor; [|constructor]. rewrite w8_id by lia.
        destruct (bits_same (stored_count c count) ltac:(lia)) as (_ & _ & _ & _ & B1 & B2). destruct (eqb_bytes sym lsym); assumption.
      * constructor; [|apply Forall_le32]. unfold is_byte. destruct (eqb_bytes sym lsym); lia.
    + destruct (eqb_bytes sym lsym); [constructor|exact H].
  - apply Forall_app. split; [exact H|]. destruct (stored_count c count <=? 255).
    + constructor; [apply Forall_w8|constructor].
    + constructor; [unfold is_byte; lia|apply Forall_le32].
Qed.

Lemma bytes_range c r rf : (rf = emit_range_short c r \/ rf = emit_range_long c r) -> Forall is_byte rf.
Proof.
  intros [->| ->]; unfold emit_range_short, emit_range_long; destruct (xP7 c).
  - constructor; [apply Forall_w8|constructor].
  - constructor; [apply Forall_w8|constructor].
  - apply Forall_le32.
  - constructor; [unfold is_byte; lia|apply Forall_le32].
Qed.

Lemma packet_ok c In n st bytes :
  cok c -> byte_mem In -> 1 <= n <= large_in ->
  OInv c In (e_last st) (e_lsym st) (e_out st) ->
  RInv c In n (e_i st) (e_count st) (e_sym st) (e_last st) ->
  packet c In st = Some bytes ->
  OInv c In (e_i st) (e_sym st) (e_out st ++ bytes).
Proof.
  intros Hc HIn Hn [O1 O2 O3 O4 O5] [R1 R2 R3 R4 R5 R6 R7] HP.
  pose proof (packet_cost c In st bytes Hc R3 R1 R2 HP) as Hcost.
  destruct (packet_count_ok c In st bytes Hc HP) as (Hsh & rf & -> & Hrf).
  pose proof Hc as [HS _]. apply okS_pos in HS. unfold large_in in Hn.
  assert (Hcok : count_ok c (e_count st)) by (split; [lia|exact R7]).
  assert (Hlits : len (slice In (e_last st) (e_i st - e_count st - e_last st)) = e_i st - e_count st - e_last st) by (apply len_slice; lia).
  constructor.
  - lia.
  - exact R3.
  - replace (slice In 0 (e_i st)) with (slice In 0 (e_last st) ++ slice In (e_last st) (e_i st - e_count st - e_last st) ++ periodic (e_sym st) (e_count st)).
    + apply Ser_snoc; try assumption. unfold range_field. rewrite Hlits. 
      replace (e_i st - e_count st - e_last st + 1) with (e_i st - e_last st - e_count st + 1) by lia.
      destruct Hrf as [[-> Hr]| ->]; [left; split; [reflexivity|lia]|right; split; [reflexivity|lia]].
    + rewrite <- (run_slice c In (e_i st)) by assumption.
      assert (K : slice In 0 (e_last st + ((e_i st - e_count st - e_last st) + e_count st)) =
        slice In 0 (e_last st) ++ slice In (e_last st) (e_i st - e_count st - e_last st) ++ slice In (e_i st - e_count st) (e_count st)).
      { rewrite slice_app by lia. rewrite Z.add_0_l. rewrite slice_app by lia. f_equal. f_equal. f_equal. lia. }
      rewrite <- K. f_equal. lia.
  - rewrite len_app. lia.
  - apply Forall_app. split; [exact O5|]. apply Forall_app. split; [now apply bytes_emit_count|].
    apply Forall_app. split; [eapply bytes_range; destruct Hrf as [[-> _]| ->]; eauto|]. apply Forall_slice. exact HIn.
Qed.

Lemma emit_ok c In n st :
  cok c -> byte_mem In -> 1 <= n <= large_in ->
  OInv c In (e_last st) (e_lsym st) (e_out st) ->
  RInv c In n (e_i st) (e_count st) (e_sym st) (e_last st) ->
  OInv c In (e_last (emit c In st)) (e_lsym (emit c In st)) (e_out (emit c In st)) /\
  e_last (emit c In st) <= e_i st.
Proof.
  intros Hc HIn Hn HO HR. unfold emit. destruct (packet c In st) as [bytes|] eqn:E; cbn [e_last e_lsym e_out].
  - split; [|lia]. eapply packet_ok; eassumption.
  - split; [exact HO|]. destruct HR. lia.
Qed.

(** ** Search phases *)

Lemma scan_ok c v In n i0 : cok c -> xS c <> 16 -> 0 <= i0 <= n -> n <= large_in ->
  exists i found, scan c v In n i0 = Some (i, found) /\ i0 <= i <= n /\
    (found = true -> i + xS c * 2 < n /\ forall k, 0 <= k < xS c -> In (i + k) = In (i + xS c + k)).
Proof.
  intros [HS HP] H16 Hi Hn. pose proof (okS_pos _ HS) as HS2.
  destruct (loop_inv (scan_step c v In n) (fun i => i0 <= i <= n) (fun i => Z.max 0 (n - i))
     (fun '(i, found) => i0 <= i <= n /\ (found = true -> i + xS c * 2 < n /\ forall k, 0 <= k < xS c -> In (i + k) = In (i + xS c + k))) i0)
    as ([i found] & HL & HQ).
  - intros i Hinv. unfold scan_step. destruct (i <? n - simdW v - xS c) eqn:E.
    + set (m := fold_mask _ _).
      destruct (lead_spec (fun j => negb (m j)) (simdW v)) as (H1 & H2 & H3); [destruct (simdW_cases v); lia|].
      destruct (lead (fun j => negb (m j)) (simdW v) =? simdW v) eqn:EL.
      * assert (xS c < simdW v). { destruct (simdW_cases v) as [Hw|Hw]; rewrite Hw; unfold okS in HS; lia. }
        lia.
      * specialize (H3 ltac:(lia)). apply negb_false_iff in H3.
        pose proof (fold_mask_sound (xS c) (simdW v) _ _ HS H16 H3) as HF.
        pose proof (HF (xS c - 1) ltac:(lia)) as [HW _].
        split; [lia|]. intros _. split; [lia|]. intros k Hk.
        destruct (HF k Hk) as [_ HF2]. cbv beta in HF2. apply Z.eqb_eq in HF2.
        rewrite <- Z.add_assoc. rewrite HF2. f_equal. lia.
    + split; [lia|]. discriminate.
  - lia.
  - unfold large_in in Hn. lia.
  - destruct v; [|exists i, found; split; [exact HL|exact HQ]..].
    exists i0, false. split; [reflexivity|]. split; [lia|discriminate].
Qed.

Lemma scan128_ok In n i0 : 0 <= i0 <= n -> n <= large_in ->
  exists i found, loop (scan_step128 In n) i0 = Some (i, found) /\ i0 <= i <= n /\
    (found = true -> i + 16 * 2 < n /\ forall k, 0 <= k < 16 -> In (i + k) = In (i + 16 + k)).
Proof.
  intros Hi Hn.
  destruct (loop_inv (scan_step128 In n) (fun i => i0 <= i <= n) (fun i => Z.max 0 (n - i))
     (fun '(i, found) => i0 <= i <= n /\ (found = true -> i + 16 * 2 < n /\ forall k, 0 <= k < 16 -> In (i + k) = In (i + 16 + k))) i0)
    as ([i found] & HL & HQ).
  - intros i Hinv. unfold scan_step128. destruct (i <? n - 32) eqn:E; [|split; [lia|discriminate]].
    set (f := fun j : Z => In (i + j) =? In (i + 16 + j)).
    destruct (lead_spec f 16) as (H1 & H2 & H3); [lia|].
    destruct (lead f 16 =? 16) eqn:EL.
    + split; [lia|]. intros _. split; [lia|]. intros k Hk. apply Z.eqb_eq. apply (H2 k). lia.
    + change (In (i + 15) =? In (i + 16 + 15)) with (f 15).
      change (fun j : Z => negb (In (i + j) =? In (i + 16 + j))) with (fun j : Z => negb (f j)).
      destruct (f 15) eqn:E15; cbn [negb]; [|lia].
      specialize (H3 ltac:(lia)).
      assert (lead f 16 <> 15) by (intros K; rewrite K in H3; congruence).
      pose proof (highest_nat_spec (fun j => negb (f j)) 16 (Z.to_nat (lead f 16))) as HH.
      rewrite Z2Nat.id in HH by lia. cbv beta in HH. rewrite H3 in HH. specialize (HH ltac:(lia) eq_refl).
      change (Z.of_nat 16) with 16 in HH. lia.
  - lia.
  - unfold large_in in Hn. lia.
  - exists i, found. split; [exact HL|exact HQ].
Qed.

(** What the match phase guarantees: the run got longer by whole matches. *)
Definition grown (c : xcfg) (In : mem) (n i0 i count : Z) (sym : list Z) (last : Z) : Prop :=
  i0 <= i <= n /\ RInv c In n i count sym last.

Lemma phase1_ok c v In n st :
  cok c -> xS c <> 16 -> n <= large_in -> 0 <= e_i st <= n -> e_count st mod xS c = 0 ->
  RInv c In n (e_i st) (e_count st) (e_sym st) (e_last st) ->
  exists a, phase1 c v In n st = Some a /\
    match a with
    | Second i count => grown c In n (e_i st) i count (e_sym st) (e_last st)
    | Fall i count => grown c In n (e_i st) i count (e_sym st) (e_last st) /\ count mod xS c = 0
    end.
Proof.
  intros Hc H16 Hn Hi Hm HR. pose proof Hc as [HS _]. pose proof (okS_pos _ HS) as HS2.
  assert (HR3 : len (e_sym st) = xS c) by apply HR.
  destruct (loop_inv (match_step c v In n (enc_vec (xS c) v (e_sym st)))
    (fun '(i, count) => grown c In n (e_i st) i count (e_sym st) (e_last st) /\ count mod xS c = 0)
    (fun '(i, _) => Z.max 0 (n - i))
    (fun a => match a with
      | Second i count => grown c In n (e_i st) i count (e_sym st) (e_last st)
      | Fall i count => grown c In n (e_i st) i count (e_sym st) (e_last st) /\ count mod xS c = 0
      end) (e_i st, e_count st)) as (a & HL & HQ).
  - intros [i count] [[Hi1 HRi] Hmi]. unfold match_step.
    destruct (i <? n - simdW v - xS c) eqn:E; [|split; [split; assumption|exact Hmi]].
    set (f := fun j : Z => In (i + j) =? symbyte (enc_vec (xS c) v (e_sym st)) j).
    assert (HW : simdW v = 16 \/ simdW v = 32) by apply simdW_cases.
    assert (Hf : forall j, 0 <= j < simdW v -> f j = true -> In (i + j) = symbyte (e_sym st) (j mod xS c)).
    { intros j Hj Hfj. unfold f in Hfj. apply Z.eqb_eq in Hfj. rewrite Hfj. now apply enc_vec_spec. }
    change (In (i + 0) =? symbyte (enc_vec (xS c) v (e_sym st)) 0) with (f 0).
    destruct (f 0) eqn:E0; [|split; [lia|exact HRi]].
    destruct (lead_spec f (simdW v)) as (H1 & H2 & H3); [lia|].
    destruct HRi as [R1 R2 R3 R4 R5 R6 R7].
    assert (HG : forall b, 0 <= b <= lead f (simdW v) -> (xUnb c = false -> b mod xS c = 0) -> grown c In n (e_i st) (i + b) (count + b) (e_sym st) (e_last st)).
    { intros b Hb Hbm. split; [lia|]. constructor; try assumption; try lia.
      - apply run_ext; try assumption; try lia. intros j Hj. apply Hf; [lia|]. apply H2. lia.
      - intros Hu. rewrite mod_add0 by (try assumption; lia). now apply Hbm. }
    destruct (lead f (simdW v) =? simdW v) eqn:EL.
    + assert (Ha : 0 < simdW v - simdW v mod xS c <= simdW v /\ (simdW v - simdW v mod xS c) mod xS c = 0).
      { destruct HW as [->| ->]; destruct HS as [->|[->|[->|[->|[->| ->]]]]]; cbn; lia. }
      destruct Ha as [Ha1 Ha2]. revert Ha1 Ha2. generalize (simdW v - simdW v mod xS c). intros d Ha1 Ha2. apply Z.eqb_eq in EL.
      split; [split; [apply HG; [clear - Ha1 EL; lia|intros _; exact Ha2]|]|clear - Ha1 E HS2 HW; lia].
      rewrite mod_add0 by (try assumption; clear - HS2; lia). exact Ha2.
    + destruct (xUnb c) eqn:EU.
      * apply HG; [lia|discriminate].
      * destruct (align_bit_ok (xS c) (lead f (simdW v)) HS H16 ltac:(lia)) as [HA1 HA2].
        apply HG; [lia|]. intros _. exact HA2.
  - split; [split; [lia|exact HR]|exact Hm].
  - unfold large_in in Hn. lia.
  - destruct v; [|exists a; split; [exact HL|exact HQ]..].
    exists (Fall (e_i st) (e_count st)). split; [reflexivity|]. split; [split; [lia|exact HR]|exact Hm].
Qed.

Lemma match128_ok c In n st :
  cok c -> xS c = 16 -> n <= large_in -> 0 <= e_i st <= n -> e_count st mod xS c = 0 ->
  RInv c In n (e_i st) (e_count st) (e_sym st) (e_last st) ->
  exists a, loop (match_step128 c In n (e_sym st)) (e_i st, e_count st) = Some a /\
    match a with
    | Second i count => grown c In n (e_i st) i count (e_sym st) (e_last st)
    | Fall i count => False
    end.
Proof.
  intros Hc H16 Hn Hi Hm HR.
  destruct (loop_inv (match_step128 c In n (e_sym st))
    (fun '(i, count) => grown c In n (e_i st) i count (e_sym st) (e_last st) /\ count mod xS c = 0)
    (fun '(i, _) => Z.max 0 (n - i))
    (fun a => match a with
      | Second i count => grown c In n (e_i st) i count (e_sym st) (e_last st)
      | Fall i count => False
      end) (e_i st, e_count st)) as (a & HL & HQ).
  - intros [i count] [[Hi1 HRi] Hmi]. unfold match_step128.
    destruct (i <? n - 16) eqn:E; [|split; assumption].
    set (f := fun j : Z => In (i + j) =? symbyte (e_sym st) j).
    assert (Hf : forall j, 0 <= j < 16 -> f j = true -> In (i + j) = symbyte (e_sym st) (j mod xS c)).
    { intros j Hj Hfj. unfold f in Hfj. apply Z.eqb_eq in Hfj. rewrite Hfj. f_equal. rewrite H16. lia. }
    destruct (lead_spec f 16) as (H1 & H2 & H3); [lia|].
    pose proof HRi as [R1 R2 R3 R4 R5 R6 R7].
    assert (HG : forall b, 0 <= b <= lead f 16 -> (xUnb c = false -> b mod xS c = 0) -> grown c In n (e_i st) (i + b) (count + b) (e_sym st) (e_last st)).
    { intros b Hb Hbm. split; [clear - Hb Hi1 H1 E; lia|]. constructor; try assumption.
      - clear - R1 Hb. lia.
      - clear - R2 Hb. lia.
      - clear - Hb H1 E H16. lia.
      - apply run_ext; try assumption; try (clear - R1 Hb H16; lia). intros j Hj. apply Hf; [clear - Hb H1 Hj; lia|]. apply H2. clear - Hb Hj. lia.
      - intros Hu. rewrite mod_add0 by (try assumption; clear - H16; lia). now apply Hbm. }
    destruct (lead f 16 =? 16) eqn:EL.
    + split; [|clear - E; lia]. split; [apply HG; [clear - H1 EL; lia|intros _; rewrite H16; reflexivity]|].
      rewrite mod_add0 by (try assumption; clear - H16; lia). rewrite H16. reflexivity.
    + destruct (xUnb c) eqn:EU; [apply HG; [clear - H1; lia|discriminate]|]. split; assumption.
  - split; [split; [lia|exact HR]|exact Hm].
  - unfold large_in in Hn. lia.
  - exists a. split; [exact HL|exact HQ].
Qed.

(** ** The main loop *)

Definition EInv (c : xcfg) (In : mem) (n : Z) (st : est) : Prop :=
  OInv c In (e_last st) (e_lsym st) (e_out st) /\
  RInv c In n (e_i st) (e_count st) (e_sym st) (e_last st) /\
  e_count st mod xS c = 0 /\ 0 <= e_i st /\ (e_goto st = true -> e_i st < n).

Lemma next_run_ok c In n st i found :
  cok c -> byte_mem In ->
  OInv c In (e_last st) (e_lsym st) (e_out st) -> e_last st <= i -> 0 <= i <= n ->
  (found = true -> i + xS c * 2 < n /\ forall k, 0 <= k < xS c -> In (i + k) = In (i + xS c + k)) ->
  EInv c In n (next_run c In n st i found) /\ i < e_i (next_run c In n st i found).
Proof.
  intros Hc HIn HO Hl Hi Hf. pose proof Hc as [HS _]. pose proof (okS_pos _ HS) as HS2.
  assert (Hrun : (forall k, 0 <= k < xS c -> In (i + k) = In (i + xS c + k)) -> run (xS c) In (i + xS c * 2) (xS c * 2) (load In (xS c) i)).
  { intros H k Hk. rewrite symbyte_load by (apply Z.mod_pos_bound; lia).
    replace (i + xS c * 2 - xS c * 2 + k) with (i + k) by lia.
    destruct (Z_lt_ge_dec k (xS c)) as [Hs|Hs].
    - now rewrite Z.mod_small by lia.
    - assert (k mod xS c = k - xS c) as ->.
      { symmetry. apply Z.mod_unique with 1; lia. }
      rewrite (H (k - xS c)) by lia. f_equal. lia. }
  assert (Hlen : len (load In (xS c) i) = xS c) by (unfold load; apply len_slice; lia).
  assert (Hb : Forall is_byte (load In (xS c) i)) by (apply Forall_slice; exact HIn).
  assert (Hmod2 : (xS c * 2) mod xS c = 0) by (rewrite Z.mul_comm; apply Z_mod_mult).
  unfold next_run. destruct found.
  - destruct (Hf eq_refl) as [Hf1 Hf2].
    split; [|cbn; lia]. repeat split; cbn; try apply HO; try lia; try assumption; auto.
  - destruct ((i + xS c <=? n) && eqb_bytes (load In (xS c) (i + xS c)) (load In (xS c) i)) eqn:E.
    + apply andb_true_iff in E. destruct E as [E1 E2].
      assert (Hrun2 : run (xS c) In (i + xS c * 2) (xS c * 2) (load In (xS c) i)).
      { apply Hrun. intros k Hk. pose proof (eqb_bytes_load In (xS c) (i + xS c) (load In (xS c) i) ltac:(lia) E2 k Hk) as K.
        rewrite K. now rewrite symbyte_load by lia. }
      split; [|cbn; lia]. repeat split; cbn; try apply HO; try lia; try assumption; auto; discriminate.
    + split; [|cbn; lia]. repeat split; cbn; try apply HO; try lia; try assumption; auto; try discriminate.
      intros k Hk. lia.
Qed.

Lemma enc_step_ok c v In n st :
  cok c -> byte_mem In -> 1 <= n <= large_in -> EInv c In n st ->
  match enc_step c v In n st with
  | inl st' => EInv c In n st' /\ 0 <= Z.max 0 (n - e_i st') < Z.max 0 (n - e_i st)
  | inr r => exists st', r = Some st' /\ EInv c In n st' /\ n <= e_i st'
  end.
Proof.
  intros Hc HIn Hn (HO & HR & Hm & Hi0 & Hg). unfold enc_step.
  destruct ((e_i st <? n) || e_goto st) eqn:E.
  2:{ exists st. split; [reflexivity|]. split; [repeat (split; [assumption|]); assumption|]. lia. }
  assert (Hin : e_i st < n). { destruct (e_goto st); [auto|lia]. }
  pose proof Hc as [HS _]. pose proof (okS_pos _ HS) as HS2.
  assert (Hsecond : forall i count, grown c In n (e_i st) i count (e_sym st) (e_last st) ->
     match enc_second c v In n st i count with
     | inl st' => EInv c In n st' /\ 0 <= Z.max 0 (n - e_i st') < Z.max 0 (n - e_i st)
     | inr r => exists st', r = Some st' /\ EInv c In n st' /\ n <= e_i st'
     end).
  { intros i count [Hi HRi]. unfold enc_second. cbv zeta.
    set (st1 := mkE i count (e_sym st) (e_last st) (e_lsym st) (e_out st) false).
    destruct (emit_ok c In n st1 Hc HIn Hn HO HRi) as [HO1 HL1]. change (e_i st1) with i in HL1.
    assert (HScan : exists i' found, (if xS c =? 16 then loop (scan_step128 In n) i else scan c v In n i) = Some (i', found) /\
       i <= i' <= n /\ (found = true -> i' + xS c * 2 < n /\ forall k, 0 <= k < xS c -> In (i' + k) = In (i' + xS c + k))).
    { destruct (xS c =? 16) eqn:E16.
      - replace (xS c) with 16 by lia. apply scan128_ok; lia.
      - apply scan_ok; try assumption; lia. }
    destruct HScan as (i' & found & -> & Hi' & Hfound).
    destruct (next_run_ok c In n (emit c In st1) i' found Hc HIn HO1) as [HE HI]; try assumption; try lia.
    split; [exact HE|]. lia. }
  destruct (xS c =? 16) eqn:E16.
  - destruct (match128_ok c In n st Hc) as (a & -> & Ha); try assumption; try lia.
    destruct a as [i count|i count]; [|contradiction]. now apply Hsecond.
  - destruct (phase1_ok c v In n st Hc) as (a & -> & Ha); try assumption; try lia.
    destruct a as [i count|i count]; [now apply Hsecond|].
    destruct Ha as [[Hi HRi] Hmi]. unfold scalar_step.
    destruct (negb (count =? 0)); [|apply Hsecond; split; assumption].
    destruct (i + xS c <=? n) eqn:E3; [|apply Hsecond; split; assumption].
    pose proof HRi as [R1 R2 R3 R4 R5 R6 R7].
    destruct (eqb_bytes (load In (xS c) i) (e_sym st)) eqn:Eq.
    + assert (Hgrow : run (xS c) In (i + xS c) (count + xS c) (e_sym st)).
      { apply run_ext; try assumption; try lia. intros j Hj. rewrite Z.mod_small by lia.
        eapply eqb_bytes_load; try exact Eq; lia. }
      assert (Hmi2 : (count + xS c) mod xS c = 0).
      { rewrite mod_add0 by (try assumption; lia). apply Z_mod_same_full. }
      split; [|cbn; lia]. repeat split; cbn; try apply HO; try lia; try assumption; auto; discriminate.
    + destruct (xUnb c) eqn:EU; [|apply Hsecond; split; assumption].
      destruct (lead_spec (fun j => In (i + j) =? symbyte (e_sym st) j) (xS c)) as (H1 & H2 & _); [lia|].
      apply Hsecond. split; [lia|]. constructor; try assumption; try lia.
      * apply run_ext; try assumption; try lia. intros j Hj. specialize (H2 j Hj). cbv beta in H2. apply Z.eqb_eq in H2.
        rewrite H2. f_equal. rewrite Z.mod_small by lia. reflexivity.
      * congruence.
Qed.

Lemma init_ok c In n : cok c -> byte_mem In -> 1 <= n ->
  EInv c In n (mkE 0 0 (init_sym c In) 0 (repeat 0 (Z.to_nat (xS c))) [] false).
Proof.
  intros Hc HIn Hn. pose proof Hc as [HS _]. apply okS_pos in HS.
  assert (Hl : len (init_sym c In) = xS c /\ Forall is_byte (init_sym c In)).
  { unfold init_sym. destruct (xS c =? 16) eqn:E.
    - split; [unfold load; rewrite len_slice by lia; lia|apply Forall_slice; exact HIn].
    - split.
      + unfold len. rewrite map_length. unfold load. pose proof (len_slice In 0 (xS c) ltac:(lia)) as K. unfold len in K. exact K.
      + apply Forall_map. eapply Forall_impl; [|apply Forall_slice; exact HIn]. intros a Ha. unfold is_byte in *. lia. }
  destruct Hl as [Hl Hb].
  repeat split; cbn; try lia; try assumption.
  - unfold len. rewrite repeat_length. lia.
  - constructor.
  - constructor.
  - intros k Hk. lia.
Qed.

Lemma finish_ok c In n st :
  cok c -> byte_mem In -> 1 <= n <= large_in -> EInv c In n st -> n <= e_i st ->
  exists bytes meaning fsym tb tl,
    finish c In st = bytes ++ tb /\ Ser c (repeat 0 (Z.to_nat (xS c))) bytes meaning fsym /\ Term c tb tl /\
    meaning ++ tl = slice In 0 (e_i st) /\ len (bytes ++ tb) <= e_i st + xS c + 10 /\ Forall is_byte (bytes ++ tb).
Proof.
  intros Hc HIn Hn (HO & HR & Hm & Hi0 & Hg) Hi. pose proof Hc as [HS HP7]. pose proof (okS_pos _ HS) as HS2.
  assert (Ht1 : len (term_count c) <= xS c + 5) by (rewrite len_term_count by exact HS; destruct (xPack c); lia).
  assert (Ht2 : Forall is_byte (term_count c)).
  { unfold term_count. destruct (xPack c).
    - constructor; [unfold is_byte; lia|apply Forall_le32].
    - apply Forall_app. split.
      + apply Forall_forall. intros x Hx. apply repeat_spec in Hx. subst x. unfold is_byte. lia.
      + constructor; [unfold is_byte; lia|apply Forall_le32]. }
  unfold finish. destruct (packet c In st) as [bytes|] eqn:EP.
  - pose proof (packet_ok c In n st bytes Hc HIn Hn HO HR EP) as [P1 P2 P3 P4 P5].
    exists (e_out st ++ bytes), (slice In 0 (e_i st)), (e_sym st), (term_count c ++ term_range c), [].
    split; [now rewrite <- app_assoc|]. split; [exact P3|]. split; [constructor|]. split; [apply app_nil_r|].
    assert (len (term_range c) <= 5) by (unfold term_range; destruct (xP7 c && negb (xS c =? 16)); cbn; lia).
    split; [rewrite !len_app in *; lia|]. apply Forall_app. split; [exact P5|]. apply Forall_app. split; [exact Ht2|].
    unfold term_range. destruct (xP7 c && negb (xS c =? 16)); [apply Forall_le32|constructor; [unfold is_byte; lia|apply Forall_le32]].
  - destruct HO as [P1 P2 P3 P4 P5]. destruct HR as [R1 R2 R3 R4 R5 R6 R7]. unfold large_in in Hn.
    set (rf := if xP7 c then _ else _).
    assert (Hrf : rf = emit_range_long c (len (slice In (e_last st) (e_i st - e_last st)) + 1)).
    { rewrite len_slice by lia. reflexivity. }
    exists (e_out st), (slice In 0 (e_last st)), (e_lsym st), (term_count c ++ rf ++ slice In (e_last st) (e_i st - e_last st)),
      (slice In (e_last st) (e_i st - e_last st)).
    split; [reflexivity|]. split; [exact P3|]. split.
    { constructor. right. split; [exact Hrf|]. rewrite len_slice by lia. lia. }
    assert (Hlr : len rf <= 5) by (unfold rf; destruct (xP7 c); cbn; lia).
    split.
    { replace (e_i st) with (e_last st + (e_i st - e_last st)) at 2 by lia. rewrite slice_app by lia. now rewrite Z.add_0_l. }
    split; [rewrite !len_app, len_slice by lia; lia|].
    apply Forall_app. split; [exact P5|]. apply Forall_app. split; [exact Ht2|]. apply Forall_app. split.
    + rewrite Hrf. eapply bytes_range. right. reflexivity.
    + apply Forall_slice. exact HIn.
Qed.

(** ** Compress *)

Lemma xcodecs_cok c : List.In c xcodecs -> cok c.
Proof.
  intros H. unfold xcodecs, xsizes, xvariants in H. cbn [flat_map app] in H. unfold cok, okS.
  repeat (destruct H as [<-|H]; [cbn; split; [lia|congruence]|]). destruct H.
Qed.

Lemma xcompress_ok c v In n cap :
  cok c -> byte_mem In -> 1 <= n <= large_in -> rle_compress_bounds n <= cap ->
  exists bytes meaning fsym tb tl m,
    xcompress c v false false In n cap = COk (le32 n ++ le32 (8 + len (bytes ++ tb)) ++ bytes ++ tb) /\
    Ser c (repeat 0 (Z.to_nat (xS c))) bytes meaning fsym /\ Term c tb tl /\
    meaning ++ tl = slice In 0 m /\ n <= m <= n + xS c /\ len (bytes ++ tb) <= n + 2 * xS c + 10 /\
    Forall is_byte (bytes ++ tb).
Proof.
  intros Hc HIn Hn Hcap. unfold xcompress. cbn [orb].
  replace (n =? 0) with false by lia. replace (cap <? rle_compress_bounds n) with false by lia. cbn [orb].
  destruct (loop_inv (enc_step c v In n) (EInv c In n) (fun st => Z.max 0 (n - e_i st))
    (fun r => exists st', r = Some st' /\ EInv c In n st' /\ n <= e_i st')
    (mkE 0 0 (init_sym c In) 0 (repeat 0 (Z.to_nat (xS c))) [] false)) as (r & HL & st & -> & HE & Hi).
  - intros s Hs. now apply enc_step_ok.
  - apply init_ok; try assumption. lia.
  - cbn [e_i]. unfold large_in in Hn. lia.
  - rewrite HL. destruct (finish_ok c In n st Hc HIn Hn HE Hi) as (bytes & meaning & fsym & tb & tl & -> & H1 & H2 & H3 & H4 & H5).
    assert (HR : e_i st <= n + xS c) by apply HE.
    exists bytes, meaning, fsym, tb, tl, (e_i st). split; [reflexivity|]. repeat (split; [assumption|]). split; [lia|]. split; [lia|exact H5].
Qed.
