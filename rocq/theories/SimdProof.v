(** What the copy and fill macros do. *)
From Verif Require Import Base Simd.

Lemma vcopy_in W C p M q x : q <= x < q + W -> vcopy W C p M q x = C (p + (x - q)).
Proof. intros H. unfold vcopy. replace ((q <=? x) && (x <? q + W)) with true by lia. reflexivity. Qed.
Lemma vcopy_out W C p M q x : x < q \/ q + W <= x -> vcopy W C p M q x = M x.
Proof. intros H. unfold vcopy. replace ((q <=? x) && (x <? q + W)) with false by lia. reflexivity. Qed.
Lemma vstore_in W v M q x : q <= x < q + W -> vstore W v M q x = v (x - q).
Proof. intros H. unfold vstore. replace ((q <=? x) && (x <? q + W)) with true by lia. reflexivity. Qed.
Lemma vstore_out W v M q x : x < q \/ q + W <= x -> vstore W v M q x = M x.
Proof. intros H. unfold vstore. replace ((q <=? x) && (x <? q + W)) with false by lia. reflexivity. Qed.

(** Rounding up gives an aligned address; so does a step of the loop. *)
Lemma al_round W p : 0 < W -> al_ok W (p - p mod W + W) = true.
Proof.
  intros HW. unfold al_ok. replace (p - p mod W + W) with (0 + (p / W + 1) * W); [rewrite Z.mod_add by lia; rewrite Z.mod_0_l by lia; reflexivity|].
  pose proof (Z.div_mod p W). lia.
Qed.
Lemma al_next W p : 0 < W -> al_ok W p = true -> al_ok W (p + W) = true.
Proof. unfold al_ok. intros HW H. replace (p + W) with (p + 1 * W) by lia. rewrite Z.mod_add by lia. exact H. Qed.

(** Copying [off] bytes from [p] to [q] with vectors of [W] bytes copies exactly
    the wanted bytes and may clobber at most [W] bytes after them. *)
Lemma memcpyW_spec W C p M q off :
  0 < W -> 0 <= off -> 0 <= p -> 0 <= q -> p + off < 2 ^ 64 -> q + off < 2 ^ 64 ->
  exists M',
    memcpyW W C p M q off = Some (p + off, q + off, M') /\
    (forall x, q <= x < q + off -> M' x = C (p + (x - q))) /\
    (forall x, x < q \/ q + off + W <= x -> M' x = M x).
Proof.
  intros HW Hoff Hp Hq Hpo Hqo. unfold memcpyW.
  rewrite (w64_id (p + off)) by lia. rewrite (w64_id (q + off)) by lia.
  destruct (off <=? W) eqn:E.
  - eexists. split; [reflexivity|]. split; intros x Hx.
    + apply vcopy_in. lia.
    + apply vcopy_out. lia.
  - set (st := if p mod W =? 0 then (p, q, M) else _).
    assert (Hst : exists d M1, st = (p + d, q + d, M1) /\ al_ok W (p + d) = true /\ 0 <= d <= W /\
                (forall x, q <= x < q + d -> M1 x = C (p + (x - q))) /\
                (forall x, x < q \/ q + W <= x -> M1 x = M x)).
    { unfold st. destruct (p mod W =? 0) eqn:E2.
      - exists 0, M. rewrite !Z.add_0_r. split; [reflexivity|]. split; [exact E2|]. repeat split; intros; try lia; reflexivity.
      - pose proof (Z.mod_pos_bound p W HW) as Hb.
        exists (W - p mod W), (vcopy W C p M q). split; [|split; [|split; [lia|split]]].
        + f_equal. f_equal; lia.
        + replace (p + (W - p mod W)) with (p - p mod W + W) by lia. now apply al_round.
        + intros x Hx. apply vcopy_in. lia.
        + intros x Hx. apply vcopy_out. lia. }
    destruct Hst as (d & M1 & Heq & Hal & Hd & Hin & Hout). rewrite Heq. clearbody st.
    destruct (loop_inv (copy_step W C (q + off))
      (fun s => let '(pc, qc, Mc) := s in
         exists k, pc = p + k /\ qc = q + k /\ al_ok W (p + k) = true /\ 0 <= k < off + W /\
           (forall x, q <= x < q + k -> Mc x = C (p + (x - q))) /\
           (forall x, x < q \/ q + off + W <= x -> Mc x = M x))
      (fun s => let '(pc, qc, Mc) := s in Z.max 0 (q + off - qc))
      (fun r => exists Mc, r = Some Mc /\ (forall x, q <= x < q + off -> Mc x = C (p + (x - q))) /\
           (forall x, x < q \/ q + off + W <= x -> Mc x = M x))
      (p + d, q + d, M1)) as (? & Hl & M' & -> & HQ1 & HQ2).
    + intros [[pc qc] Mc] (k & -> & -> & Ha & Hk & H1 & H2). unfold copy_step.
      destruct (q + k <? q + off) eqn:E3.
      * rewrite Ha. split; [|lia]. exists (k + W). split; [lia|]. split; [lia|]. split; [rewrite Z.add_assoc; now apply al_next|]. split; [lia|]. split; intros x Hx.
        -- destruct (Z_lt_dec x (q + k)).
           ++ rewrite vcopy_out by lia. apply H1. lia.
           ++ rewrite vcopy_in by lia. f_equal. lia.
        -- rewrite vcopy_out by lia. apply H2. lia.
      * exists Mc. split; [reflexivity|]. split; [|exact H2]. intros x Hx. apply H1. lia.
    + exists d. split; [lia|]. split; [lia|]. split; [exact Hal|]. split; [lia|]. split; [exact Hin|].
      intros x Hx. apply Hout. lia.
    + cbv beta iota. lia.
    + rewrite Hl. exists M'. auto.
Qed.

(** Filling [cnt] bytes writes the register repeated from phase 0. *)
Lemma memset_multiW_spec W v M q cnt :
  0 < W -> 0 <= cnt -> 0 <= q -> q + cnt < 2 ^ 64 ->
  exists M',
    memset_multiW W v M q cnt = Some (q + cnt, M') /\
    (forall x, q <= x < q + cnt -> M' x = v ((x - q) mod W)) /\
    (forall x, x < q \/ q + cnt + W <= x -> M' x = M x).
Proof.
  intros HW Hc Hq Hqc. unfold memset_multiW. rewrite w64_id by lia.
  destruct (loop_inv (fill_step false W v (q + cnt))
      (fun s => let '(qc, Mc) := s in
         exists k, qc = q + W * k /\ 0 <= k /\ W * k < cnt + W /\
           (forall x, q <= x < q + W * k -> Mc x = v ((x - q) mod W)) /\
           (forall x, x < q \/ q + cnt + W <= x -> Mc x = M x))
      (fun s => let '(qc, Mc) := s in Z.max 0 (q + cnt - qc))
      (fun r => exists Mc, r = Some Mc /\ (forall x, q <= x < q + cnt -> Mc x = v ((x - q) mod W)) /\
           (forall x, x < q \/ q + cnt + W <= x -> Mc x = M x))
      (q, M)) as (? & Hl & M' & -> & HQ1 & HQ2).
  + intros [qc Mc] (k & -> & Hk0 & Hk & H1 & H2). unfold fill_step.
    destruct (q + W * k <? q + cnt) eqn:E3.
    * cbn [negb orb]. split; [|lia]. exists (k + 1). split; [lia|]. split; [lia|]. split; [lia|]. split; intros x Hx.
      -- destruct (Z_lt_dec x (q + W * k)).
         ++ rewrite vstore_out by lia. apply H1. lia.
         ++ rewrite vstore_in by lia. f_equal.
            replace (x - q) with ((x - (q + W * k)) + k * W) by lia.
            rewrite Z.mod_add by lia. rewrite Z.mod_small by lia. reflexivity.
      -- rewrite vstore_out by lia. apply H2. lia.
    * exists Mc. split; [reflexivity|]. split; [|exact H2]. intros x Hx. apply H1. lia.
  + exists 0. rewrite Z.mul_0_r. repeat split; intros; try lia; reflexivity.
  + cbv beta iota. lia.
  + rewrite Hl. exists M'. auto.
Qed.

Lemma memsetW_spec W b M q cnt :
  0 < W -> 0 <= cnt -> 0 <= q -> q + cnt < 2 ^ 64 ->
  exists M',
    memsetW W b M q cnt = Some (q + cnt, M') /\
    (forall x, q <= x < q + cnt -> M' x = b) /\
    (forall x, x < q \/ q + cnt + W <= x -> M' x = M x).
Proof.
  intros HW Hc Hq Hqc. unfold memsetW. rewrite w64_id by lia.
  destruct (cnt <=? W) eqn:E.
  - eexists. split; [reflexivity|]. split; intros x Hx.
    + apply vstore_in. lia.
    + apply vstore_out. lia.
  - set (st := if q mod W =? 0 then (q, M) else _).
    assert (Hst : exists d M1, st = (q + d, M1) /\ al_ok W (q + d) = true /\ 0 <= d <= W /\
                (forall x, q <= x < q + d -> M1 x = b) /\
                (forall x, x < q \/ q + W <= x -> M1 x = M x)).
    { unfold st. destruct (q mod W =? 0) eqn:E2.
      - exists 0, M. rewrite !Z.add_0_r. split; [reflexivity|]. split; [exact E2|]. repeat split; intros; try lia; reflexivity.
      - pose proof (Z.mod_pos_bound q W HW) as Hb.
        exists (W - q mod W), (vstore W (fun _ => b) M q). split; [|split; [|split; [lia|split]]].
        + f_equal. lia.
        + replace (q + (W - q mod W)) with (q - q mod W + W) by lia. now apply al_round.
        + intros x Hx. apply vstore_in. lia.
        + intros x Hx. apply vstore_out. lia. }
    destruct Hst as (d & M1 & Heq & Hal & Hd & Hin & Hout). rewrite Heq. clearbody st.
    destruct (loop_inv (fill_step true W (fun _ => b) (q + cnt))
      (fun s => let '(qc, Mc) := s in
         exists k, qc = q + k /\ al_ok W (q + k) = true /\ 0 <= k < cnt + W /\
           (forall x, q <= x < q + k -> Mc x = b) /\
           (forall x, x < q \/ q + cnt + W <= x -> Mc x = M x))
      (fun s => let '(qc, Mc) := s in Z.max 0 (q + cnt - qc))
      (fun r => exists Mc, r = Some Mc /\ (forall x, q <= x < q + cnt -> Mc x = b) /\
           (forall x, x < q \/ q + cnt + W <= x -> Mc x = M x))
      (q + d, M1)) as (? & Hl & M' & -> & HQ1 & HQ2).
    + intros [qc Mc] (k & -> & Ha & Hk & H1 & H2). unfold fill_step.
      destruct (q + k <? q + cnt) eqn:E3.
      * rewrite Ha. cbn [negb orb]. split; [|lia]. exists (k + W). split; [lia|]. split; [rewrite Z.add_assoc; now apply al_next|]. split; [lia|]. split; intros x Hx.
        -- destruct (Z_lt_dec x (q + k)).
           ++ rewrite vstore_out by lia. apply H1. lia.
           ++ apply vstore_in. lia.
        -- rewrite vstore_out by lia. apply H2. lia.
      * exists Mc. split; [reflexivity|]. split; [|exact H2]. intros x Hx. apply H1. lia.
    + exists d. split; [lia|]. split; [exact Hal|]. split; [lia|]. split; [exact Hin|].
      intros x Hx. apply Hout. lia.
    + cbv beta iota. lia.
    + rewrite Hl. exists M'. auto.
Qed.
