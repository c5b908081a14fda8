(** Correctness of the single symbol codecs. *)
From Verif Require Import Base Simd SimdProof Spec LargeSpec PktSpec Fmt8Spec ExtModel ExtDec ExtEnc PktModel PktDec PktEnc Rle8Model Rle8Proof.

(** ** Choice of the symbol *)

Lemma approx_best_ok prob pcount : 0 <= snd (approx_best prob pcount) < 256.
Proof.
  unfold approx_best.
  assert (K : forall l acc, (forall k, List.In k l -> (k < 256)%nat) -> 0 <= snd acc < 256 ->
    0 <= snd (fold_left (fun '(best, idx) k =>
      let s := Z.of_nat k in
      if (0 <? pcount s) && (2 <? prob s / pcount s) then
        let saved := w32 (prob s - w32 (pcount s * 2)) in
        if best <? saved then (saved, s) else (best, idx)
      else (best, idx)) l acc) < 256).
  { induction l as [|k l IH]; intros [best idx] Hl Ha; [exact Ha|]. cbn [fold_left]. apply IH.
    - intros k' Hk'. apply Hl. now right.
    - cbv zeta. specialize (Hl k (or_introl eq_refl)).
      destruct ((0 <? pcount (Z.of_nat k)) && (2 <? prob (Z.of_nat k) / pcount (Z.of_nat k))); [|exact Ha].
      destruct (best <? _); [cbn; lia|exact Ha]. }
  apply K; [intros k Hk; apply in_seq in Hk; lia|cbn; lia].
Qed.

Lemma approx_symbol_ok In n : 1 <= n <= large_in -> exists sym, approx_symbol In n = Some sym /\ is_byte sym.
Proof.
  intros Hn. unfold approx_symbol.
  destruct (loop_inv (approx_step In n) (fun '(i, _, _, _, _) => 0 <= i <= n) (fun '(i, _, _, _, _) => Z.max 0 (n - i))
    (fun r => exists q, r = Some q)
    (0, 255 - In 0, 0, fun _ => 0, if In 0 =? 0 then fun _ => 0 else upd (fun _ => 0) 0 (2 ^ 32 - 1)))
    as (r & HL & [[[sym count] prob] pcount] & ->).
  - intros [[[[i sym] count] prob] pcount] Hi. unfold approx_step. destruct (i <? n - 16) eqn:E; [|eexists; reflexivity].
    set (f := fun j : Z => In (i + j) =? sym). destruct (lead_spec f 16) as (L1 & _ & _); [lia|].
    destruct (lead f 16 =? 16) eqn:EL; [lia|].
    destruct (any f 16 || (1 <? count)).
    + destruct (scan8_ok 16 In n (i + lead f 16)) as (i' & -> & Hi'); try lia.
    + destruct (scan8_ok 16 In n i) as (i' & -> & Hi'); try lia.
  - lia.
  - unfold large_in in Hn. lia.
  - rewrite HL. eexists. split; [reflexivity|]. unfold is_byte. apply approx_best_ok.
Qed.

(** ** Packets *)

Definition SR (sym : Z) (reg : Z) (_ : unit) : Prop := reg = sym.

Lemma sSHORT_pos pk : 2 <= sSHORT pk <= 4.
Proof. destruct pk; cbn; lia. Qed.

(** Literal length fields. *)
Definition s_range_field (r : Z) (l : list Z) : Prop := (l = [w8 r] /\ r <= 255) \/ l = 0 :: le32 r.

(** *** Decoder on the grammar *)

Lemma S8Number_parse C p v f rest : S8Number v f -> holds C p (f ++ rest) ->
  (if C p =? 0 then (p + 1 + 4, rd32 C (p + 1)) else (p + 1, C p)) = (p + len f, v).
Proof.
  intros [Hv|Hv] H; cbn [app holds] in H.
  - destruct H as [H _]. rewrite H. replace (v =? 0) with false by lia. reflexivity.
  - destruct H as [H H2]. rewrite H. cbn [Z.eqb]. rewrite (rd32_holds C (p + 1) v rest) by (try exact H2; lia).
    rewrite len_cons, len_le32. f_equal. lia.
Qed.

Lemma S8Number_range v f : S8Number v f -> 0 <= v < 2 ^ 32.
Proof. intros []; lia. Qed.

Lemma S8_parse C p sym v cf r lf : S8Number v cf -> S8Number r lf -> 1 <= r -> holds C p (cf ++ lf) ->
  s_parse C p sym = PGo (p + len (cf ++ lf)) sym (r - 1) v.
Proof.
  intros Hc Hl Hr H. unfold s_parse. rewrite (S8Number_parse C p v cf lf Hc H). apply holds_app in H. destruct H as [_ H].
  pose proof (S8Number_range r lf Hl). rewrite len_app. destruct Hl as [Hl|Hl].
  - cbn [holds] in H. destruct H as [H _]. rewrite H. replace (r =? 0) with false by lia. rewrite w64_id by lia.
    change (len [r]) with 1. f_equal; lia.
  - cbn [holds] in H. destruct H as [H H2]. rewrite H. cbn [Z.eqb].
    rewrite (rd32_holds C _ r []) by (try (rewrite app_nil_r; exact H2); lia). replace (r =? 0) with false by lia.
    rewrite w64_id by lia. rewrite len_cons, len_le32. f_equal; lia.
Qed.

Notation S8Pkt pk sym := (Pkt (fun _ : d8 => s_parse) (s_fill pk) (SR sym)).
Notation S8Term sym := (GTerm (fun _ : d8 => s_parse) (SR sym)).

Lemma S8Packet_pkt pk sym u h lits run u' : S8Packet pk sym u h lits run u' -> S8Pkt pk sym u h lits run u'.
Proof.
  intros [v cf lits' lf HC Hv HL]. pose proof (S8Number_range _ _ HC) as Hr. pose proof (len_nonneg lits') as Hl0.
  assert (Hrun : 0 < s8Run pk v) by (unfold s8Run; destruct pk; lia).
  rewrite repetition_periodic. assert (Hlp : len (periodic [sym] (s8Run pk v)) = s8Run pk v) by (apply len_slice; lia).
  split; [lia|]. intros d C p reg HR H. unfold SR in HR. subst reg. exists sym, v. split.
  - rewrite (S8_parse C p sym v cf (len lits' + 1) lf HC HL ltac:(lia) H). f_equal. lia.
  - split; [exact Hv|]. split; [reflexivity|]. intros M q Hq Hq2. rewrite Hlp in *. rewrite periodic_1 by lia. unfold s_fill.
    replace (v + (sSHORT pk - 1)) with (s8Run pk v) by (unfold s8Run; destruct pk; cbn [sSHORT]; lia).
    apply memset_repeat; try lia. apply d8W_ok.
Qed.

Lemma S8End_term sym u e lits : S8End u e lits -> S8Term sym u e lits.
Proof.
  intros [v cf HC|cf lits' lf HC HL].
  - constructor. intros d C p reg _ H. unfold s_parse. rewrite (S8Number_parse C p v cf _ HC H).
    apply holds_app in H. destruct H as [_ H]. cbn [holds] in H. destruct H as [H1 H2]. rewrite H1. cbn [Z.eqb].
    rewrite (rd32_holds C _ 0 []) by (try (rewrite app_nil_r; exact H2); lia). reflexivity.
  - constructor. intros d C p reg _ H. exists reg. pose proof (len_nonneg lits') as Hl0.
    rewrite (S8_parse C p reg 0 cf (len lits' + 1) lf HC HL ltac:(lia) H). f_equal. lia.
Qed.

(** *** Encoder writes the grammar *)

Lemma s_range_number r rf : 1 <= r <= large_in + 1 -> s_range_field r rf -> S8Number r rf.
Proof.
  unfold large_in. intros Hr [[-> H]| ->]; [rewrite w8_id by lia|]; constructor; lia.
Qed.

Lemma s_count_number pk count : sSHORT pk <= count <= large_in -> S8Number (count - sSHORT pk + 1) (s_count pk count).
Proof.
  intros Hc. unfold large_in in *. unfold s_count. pose proof (sSHORT_pos pk).
  destruct (count - sSHORT pk + 1 <=? 255) eqn:E; [rewrite w8_id by lia|]; constructor; lia.
Qed.

Lemma s_pkt pk sym In i count last rf u u' :
  sSHORT pk <= count -> 0 <= last <= i - count -> i <= large_in ->
  s_range_field (i - last - count + 1) rf ->
  S8Packet pk sym u (s_count pk count ++ rf)
    (slice In last (i - count - last)) (repeat sym (Z.to_nat count)) u'.
Proof.
  intros Hc Hl Hi Hf. pose proof (sSHORT_pos pk). destruct u, u'. rewrite <- periodic_1 by lia. rewrite <- repetition_periodic.
  replace count with (s8Run pk (count - sSHORT pk + 1)) at 3 by (unfold s8Run; destruct pk; cbn [sSHORT]; lia). constructor.
  - apply s_count_number. lia.
  - lia.
  - rewrite len_slice by lia. replace (i - count - last + 1) with (i - last - count + 1) by lia. apply s_range_number; [lia|exact Hf].
Qed.

Lemma bytes_s_count pk count : Forall is_byte (s_count pk count).
Proof.
  unfold s_count. destruct (_ <=? 255); constructor; [apply Forall_w8|constructor|unfold is_byte; lia|apply Forall_le32].
Qed.
Lemma bytes_s_range r rf : s_range_field r rf -> Forall is_byte rf.
Proof.
  intros [[-> _]| ->]; constructor; [apply Forall_w8|constructor|unfold is_byte; lia|apply Forall_le32].
Qed.

(** Bound on the packets of the first [x] bytes.  Rolling back costs up to 4 (packed) or 2 bytes; in
    the plain codec the next packet always pays for it. *)
Definition sB (pk : bool) (x : Z) : Z := if pk then x + 4 * (x / 257) else x + 2.

Lemma len_s_count pk count : len (s_count pk count) = if count - sSHORT pk + 1 <=? 255 then 1 else 5.
Proof. unfold s_count. destruct (_ <=? 255); reflexivity. Qed.

(** Any packet of this codec. *)
Lemma s_packet_ok pk sym In i count last rf u u' :
  byte_mem In -> sSHORT pk <= count -> 0 <= last <= i - count -> i <= large_in ->
  s_range_field (i - last - count + 1) rf ->
  let bytes := s_count pk count ++ rf ++ slice In last (i - count - last) in
  (exists h, bytes = h ++ slice In last (i - count - last) /\
    S8Packet pk sym u h (slice In last (i - count - last)) (repeat sym (Z.to_nat count)) u') /\
  Forall is_byte bytes /\
  len bytes = (if count - sSHORT pk + 1 <=? 255 then 1 else 5) + len rf + (i - count - last).
Proof.
  intros HIn Hc Hl Hi Hf. cbv zeta. split; [|split].
  - eexists. split; [now rewrite app_assoc|]. now apply s_pkt.
  - apply Forall_app. split; [apply bytes_s_count|]. apply Forall_app. split; [eapply bytes_s_range; exact Hf|].
    apply Forall_slice. exact HIn.
  - rewrite !len_app, len_s_count, len_slice by lia. lia.
Qed.

Lemma s_procS_ok pk sym In : byte_mem In ->
  forall i count last u bytes u',
      0 <= count -> 0 <= last <= i - count -> i <= large_in -> run8 In i count sym ->
      s_procS pk In i count sym last u = Some (bytes, u') ->
      (exists h, bytes = h ++ slice In last (i - count - last) /\
        S8Packet pk sym u h (slice In last (i - count - last)) (repeat sym (Z.to_nat count)) u') /\
      Forall is_byte bytes /\ len bytes <= i - last.
Proof.
  intros HIn i count last u bytes u' Hc Hl Hi Hrun H. unfold s_procS in H.
  destruct ((i - last - count + 1 <=? 255) && (sSHORT pk <=? count)) eqn:E.
  - injection H as <- <-. destruct (s_packet_ok pk sym In i count last [w8 (i - last - count + 1)] u tt) as (H1 & H2 & H3); try assumption; try lia.
    { left. split; [reflexivity|lia]. }
    split; [exact H1|]. split; [exact H2|]. unfold s_packet_short. cbv zeta in H3. rewrite H3.
    change (len [w8 (i - last - count + 1)]) with 1. destruct (count - sSHORT pk + 1 <=? 255) eqn:E2; destruct pk; cbn [sSHORT] in *; lia.
  - destruct (sLONG pk <=? count) eqn:E2; [|discriminate]. injection H as <- <-.
    destruct (s_packet_ok pk sym In i count last (0 :: le32 (i - last - count + 1)) u tt) as (H1 & H2 & H3); try assumption.
    { destruct pk; cbn in *; lia. }
    { right. reflexivity. }
    split; [exact H1|]. split; [exact H2|]. unfold s_packet_long. cbv zeta in H3. rewrite H3.
    rewrite len_cons, len_le32. destruct (count - sSHORT pk + 1 <=? 255) eqn:E3; destruct pk; cbn [sSHORT sLONG] in *; lia.
Qed.

(** The scalar loop and tail with the decision restricted to one symbol behave as without. *)
Definition s_procR (pk : bool) (sym0 : Z) : proc8 unit :=
  fun In i count sym last u => if sym =? sym0 then s_procS pk In i count sym last u else None.

Lemma s_proc8_ok pk sym0 In : byte_mem In ->
  proc8_ok (S8Packet pk sym0) (sB pk) (s_procR pk sym0) In.
Proof.
  intros HIn i count sym last u bytes u' Hc Hl Hi Hb Hrun H. unfold s_procR in H. destruct (sym =? sym0) eqn:E; [|discriminate].
  apply Z.eqb_eq in E. subst sym. destruct (s_procS_ok pk sym0 In HIn i count last u bytes u') as (H1 & H2 & H3); try assumption.
  split; [exact H1|]. split; [exact H2|]. unfold sB. destruct pk; lia.
Qed.

(** ** The SIMD loop *)

Lemma popcnt_ge f a b W : 0 <= a -> a <= b <= W -> (forall j, a <= j < b -> f j = true) -> b - a <= popcnt f W.
Proof.
  intros Ha Hb H. unfold popcnt, len.
  assert (K : (length (seq (Z.to_nat a) (Z.to_nat (b - a))) <= length (filter (fun k => f (Z.of_nat k)) (seq 0 (Z.to_nat W))))%nat).
  { apply NoDup_incl_length; [apply seq_NoDup|]. intros k Hk. apply in_seq in Hk. apply filter_In. split; [apply in_seq; lia|]. apply H. lia. }
  rewrite seq_length in K. lia.
Qed.

Lemma any_true f W : any f W = true -> exists j, 0 <= j < W /\ f j = true.
Proof.
  unfold any. intros H. apply existsb_exists in H. destruct H as (k & Hk & Hf). apply in_seq in Hk. exists (Z.of_nat k). split; [lia|exact Hf].
Qed.

(** [c] bytes [sym] starting at [a]. *)
Definition srun (In : mem) (sym a c : Z) : Prop := forall k, a <= k < a + c -> In k = sym.

(** The search does not pass a run of [lim] or more bytes. *)
Lemma sscan_ok lim sym In n i0 : 1 <= lim -> 0 <= i0 < n -> n <= large_in ->
  exists i found, loop (sscan_step lim sym In n) i0 = Some (i, found) /\ i0 <= i < n /\ (found = true -> In i = sym) /\
   (forall a c, srun In sym a c -> lim <= c -> i0 <= a -> a + c < n - 16 -> found = true /\ i <= a).
Proof.
  intros Hlim Hi Hn.
  destruct (loop_inv (sscan_step lim sym In n)
    (fun i => i0 <= i < n /\ forall a c, srun In sym a c -> lim <= c -> i0 <= a -> a + c < n - 16 -> i <= a)
    (fun i => Z.max 0 (n - i))
    (fun '(i, found) => i0 <= i < n /\ (found = true -> In i = sym) /\
       (forall a c, srun In sym a c -> lim <= c -> i0 <= a -> a + c < n - 16 -> found = true /\ i <= a)) i0) as ([i found] & HL & HQ).
  - intros i [Hinv Hpass]. unfold sscan_step. destruct (i <? n - 16) eqn:E.
    2:{ split; [lia|]. split; [discriminate|]. intros a c Hr Hc Ha Hac. specialize (Hpass a c Hr Hc Ha Hac). lia. }
    set (f := fun j : Z => In (i + j) =? sym).
    change (In (i + 15) =? sym) with (f 15).
    change (lead (fun j => negb (In (i + j) =? sym)) 16) with (lead (fun j => negb (f j)) 16).
    destruct (negb (any f 16) || (negb (f 15) && (popcnt f 16 <? lim))) eqn:ES.
    + split; [|lia]. split; [lia|]. intros a c Hr Hc Ha Hac. specialize (Hpass a c Hr Hc Ha Hac).
      destruct (Z_lt_ge_dec a (i + 16)) as [Hlt|]; [|lia]. exfalso.
      assert (Hfa : forall j, a - i <= j < a - i + c -> f j = true).
      { intros j Hj. unfold f. apply Z.eqb_eq. apply Hr. lia. }
      apply orb_true_iff in ES. destruct ES as [ES|ES].
      * apply negb_true_iff in ES. pose proof (any_false f 16 ES (a - i) ltac:(lia)) as K. rewrite Hfa in K by lia. discriminate.
      * apply andb_true_iff in ES. destruct ES as [ES1 ES2]. apply negb_true_iff in ES1.
        destruct (Z_lt_ge_dec 15 (a - i + c)) as [H15|H15].
        { rewrite Hfa in ES1 by lia. discriminate. }
        pose proof (popcnt_ge f (a - i) (a - i + c) 16 ltac:(lia) ltac:(lia) Hfa). lia.
    + assert (Hany : any f 16 = true).
      { apply orb_false_iff in ES. destruct ES as [ES _]. now apply negb_false_iff in ES. }
      destruct (any_true f 16 Hany) as (j & Hj & Hfj).
      destruct (lead_spec (fun j => negb (f j)) 16) as (L1 & L2 & L3); [lia|].
      assert (Hlj : lead (fun j => negb (f j)) 16 <= j).
      { destruct (Z_lt_ge_dec j (lead (fun j => negb (f j)) 16)) as [Hlt|]; [|lia].
        specialize (L2 j ltac:(lia)). cbv beta in L2. rewrite Hfj in L2. discriminate. }
      specialize (L3 ltac:(lia)). cbv beta in L3. apply negb_false_iff in L3.
      split; [lia|]. split.
      { intros _. unfold f in L3. now apply Z.eqb_eq in L3. }
      intros a c Hr Hc Ha Hac. specialize (Hpass a c Hr Hc Ha Hac). split; [reflexivity|].
      destruct (Z_lt_ge_dec a (i + lead (fun j => negb (f j)) 16)) as [Hlt|]; [|lia]. exfalso.
      specialize (L2 (a - i) ltac:(lia)). cbv beta in L2. unfold f in L2.
      replace (i + (a - i)) with a in L2 by lia. rewrite (Hr a) in L2 by lia. rewrite Z.eqb_refl in L2. discriminate.
  - split; [lia|]. intros; lia.
  - unfold large_in in Hn. lia.
  - exists i, found. split; [exact HL|exact HQ].
Qed.

Section SingleDefs.
  Variables (pk : bool) (sym : Z) (In : mem) (n : Z).
  Local Notation SH := (sSHORT pk).

  Definition SO_ (last : Z) (out : list Z) : Prop :=
    OInv8 (S8Packet pk sym) (sB pk) In tt last tt out.

  (** A run remembered as wasted chance. *)
  Definition wrun_ (a c : Z) : Prop := srun In sym a c /\ In (a + c) <> sym /\ SH <= c /\ s_accept_long pk c = false.

  (** A debt_ of two bytes, to be paid by a run not yet passed. *)
  Definition debt_ (i0 last w : Z) : Prop :=
    w = 0 /\ exists a c, srun In sym a c /\ SH <= c /\ i0 <= a /\ a + c < n - 16 /\ a - last + 1 <= 255.

  Definition cost_ok_ (i0 last w : Z) (out : list Z) : Prop :=
    pk = false -> len out <= last \/ (len out <= last + 2 /\ debt_ i0 last w).

  Definition wasted_ok_ (i0 last w first : Z) : Prop :=
    (w = 0 \/ w = 1 \/ w = 2) /\
    (1 <= w -> exists c, wrun_ first c /\ last <= first /\ 255 < first - last + 1 /\ first + c <= i0 /\
       (w = 2 -> exists a2 c2, srun In sym a2 c2 /\ SH <= c2 /\ first + c <= a2 /\ a2 + c2 <= i0 /\ a2 + c2 - first <= 255)).

  Record SInv_ (s : sst) : Prop := {
    si_out : SO_ (ss_last s) (ss_out s);
    si_count : 0 <= ss_count s;
    si_last : ss_last s <= ss_i s - ss_count s;
    si_i : 0 <= ss_i s <= n;
    si_run : run8 In (ss_i s) (ss_count s) sym;
    si_cost : cost_ok_ (ss_i s - ss_count s) (ss_last s) (ss_w s) (ss_out s);
    si_w : wasted_ok_ (ss_i s - ss_count s) (ss_last s) (ss_w s) (ss_first s) }.

End SingleDefs.

Section Single.
  Variables (pk : bool) (sym : Z) (In : mem) (n : Z).
  Hypotheses (HIn : byte_mem In) (Hn : 1 <= n <= large_in).
  Local Notation SH := (sSHORT pk).
  Local Notation SO := (SO_ pk sym In).
  Local Notation wrun := (wrun_ pk sym In).
  Local Notation debt := (debt_ pk sym In n).
  Local Notation cost_ok := (cost_ok_ pk sym In n).
  Local Notation wasted_ok := (wasted_ok_ pk sym In).
  Local Notation SInv := (SInv_ pk sym In n).

  Lemma recount_ok first c : wrun first c -> 0 <= first -> first + c < n - 16 ->
    loop (recount_step In n sym) (first, 0) = Some (first + c, c).
  Proof.
    intros (Hr & Hne & Hc & _) Hf Hlt. pose proof (sSHORT_pos pk) as HSH.
    destruct (loop_inv (recount_step In n sym) (fun '(i, count) => first <= i <= first + c /\ count = i - first)
      (fun '(i, _) => Z.max 0 (first + c - i)) (fun r => r = (first + c, c)) (first, 0)) as (r & HL & ->).
    - intros [i count] [Hi ->]. unfold recount_step. replace (i <? n - 16) with true by lia.
      destruct (In i =? sym) eqn:E.
      + assert (i <> first + c) by (intros ->; apply Hne; lia). lia.
      + destruct (Z_lt_ge_dec i (first + c)) as [H|H]; [rewrite Hr in E by lia; lia|]. f_equal; lia.
    - lia.
    - unfold large_in in Hn. lia.
    - exact HL.
  Qed.

  (** Appending a packet for the run of [c] symbols ending at [e]. *)
  Lemma SO_packet last out e c rf :
    SO last out -> 0 <= c -> last <= e - c -> e <= n -> run8 In e c sym -> SH <= c ->
    s_range_field (e - last - c + 1) rf ->
    len out + len (s_count pk c ++ rf ++ slice In last (e - c - last)) <= sB pk e ->
    SO e (out ++ s_count pk c ++ rf ++ slice In last (e - c - last)).
  Proof.
    intros HO Hc Hl He Hr HSH Hf Hcost. pose proof HO as [O1 O2 O3 O4]. pose proof (sSHORT_pos pk) as HS.
    destruct (s_packet_ok pk sym In e c last rf tt tt) as ((h & Hh & HP) & Hb & Hlen); try assumption; try lia.
    cbv zeta in *. constructor.
    - lia.
    - replace (slice In 0 e) with (slice In 0 last ++ slice In last (e - c - last) ++ repeat sym (Z.to_nat c)).
      + rewrite Hh. eapply Serial_snoc; eassumption.
      + rewrite <- (run8_slice In e) by assumption.
        assert (K : slice In 0 (last + ((e - c - last) + c)) =
          slice In 0 last ++ slice In last (e - c - last) ++ slice In (e - c) c).
        { rewrite slice_app by lia. rewrite Z.add_0_l. rewrite slice_app by lia. f_equal. f_equal. f_equal. lia. }
        rewrite <- K. f_equal. lia.
    - rewrite len_app. lia.
    - apply Forall_app. split; assumption.
  Qed.

  (** The decision at the end of a run, entered with the maximal run of the state.  [i0] is the
      position at the head of the iteration. *)
  Lemma s_decide_ok s :
    SInv s -> ss_i s < n -> In (ss_i s) <> sym -> ss_i s - ss_count s < n - 16 ->
    exists s1, s_decide pk sym In n s = Some s1 /\
      SO (ss_last s1) (ss_out s1) /\ ss_last s1 <= ss_i s1 /\ 0 <= ss_i s1 < n /\
      cost_ok (ss_i s1) (ss_last s1) (ss_w s1) (ss_out s1) /\
      wasted_ok (ss_i s1) (ss_last s1) (ss_w s1) (ss_first s1) /\
      ((ss_last s1 = ss_last s /\ ss_i s1 = ss_i s) \/ ss_last s < ss_last s1).
  Proof.
    intros [HO Hc Hl Hi Hr Hcost Hw] Hin Hne H16. pose proof (sSHORT_pos pk) as HSH.
    pose proof HO as [O1 _ O3 _]. unfold s_decide. cbv zeta. set (i := ss_i s) in *. set (count := ss_count s) in *. set (last := ss_last s) in *.
    set (w := ss_w s) in *. set (first := ss_first s) in *. set (out := ss_out s) in *.
    assert (Hdebt : forall a c, srun In sym a c -> SH <= c -> i - count <= a -> a < i -> c <= count /\ i - count - last <= a - last).
    { intros a c Ha Hcc Hia Hai. split; [|lia]. destruct (Z_lt_ge_dec i (a + c)) as [K|K]; [|lia].
      exfalso. apply Hne. apply Ha. lia. }
    destruct (SH <=? count) eqn:E1.
    2:{ (* run too short *)
      exists s. split; [reflexivity|]. fold i last w out first. split; [exact HO|]. split; [lia|]. split; [lia|]. split; [|split; [|left; lia]].
      - intros Hpk. destruct (Hcost Hpk) as [Hc1|[Hc1 (Hw0 & a & c & D1 & D2 & D3 & D4 & D5)]]; [left; exact Hc1|right; split; [exact Hc1|]].
        split; [exact Hw0|]. exists a, c. repeat (split; [assumption|]). split; [|split; assumption].
        destruct (Z_lt_ge_dec a i) as [K|K]; [|lia]. destruct (Hdebt a c D1 D2 D3 K). lia.
      - destruct Hw as [Hw1 Hw2]. split; [exact Hw1|]. intros K. destruct (Hw2 K) as (c & W1 & W2 & W3 & W4 & W5).
        exists c. repeat (split; [assumption|]). split; [lia|]. intros K2. destruct (W5 K2) as (a2 & c2 & V1 & V2 & V3 & V4 & V5).
        exists a2, c2. repeat (split; [assumption|]). lia. }
    destruct (i - last - count + 1 <=? 255) eqn:E2.
    { (* short packet *)
      eexists. split; [reflexivity|]. cbn [ss_last ss_out ss_i ss_w ss_first].
      assert (Hlen : len (s_count pk count ++ [w8 (i - last - count + 1)] ++ slice In last (i - count - last)) =
        (if count - SH + 1 <=? 255 then 1 else 5) + 1 + (i - count - last)).
      { rewrite !len_app, len_s_count, len_slice by lia. change (len [w8 (i - last - count + 1)]) with 1. lia. }
      split.
      { apply SO_packet; try assumption; try lia; [left; split; [reflexivity|lia]|].
        rewrite Hlen. unfold sB in *. destruct (count - sSHORT pk + 1 <=? 255) eqn:E3; destruct pk; cbn [sSHORT] in *; lia. }
      split; [lia|]. split; [lia|]. split; [|split; [|right; lia]].
      - intros Hpk. left. unfold s_packet_short. rewrite len_app, Hlen. rewrite Hpk in *. cbn [sSHORT] in *.
        destruct (Hcost eq_refl) as [K|[K _]]; destruct (count - 4 + 1 <=? 255) eqn:E3; lia.
      - split; [left; reflexivity|]. lia. }
    (* no debt here *)
    assert (Hnd : pk = false -> len out <= last).
    { intros Hpk. destruct (Hcost Hpk) as [K|[K (Hw0 & a & c & D1 & D2 & D3 & D4 & D5)]]; [exact K|]. lia. }
    destruct (s_accept_long pk count) eqn:E3.
    { (* long packet *)
      eexists. split; [reflexivity|]. cbn [ss_last ss_out ss_i ss_w ss_first].
      assert (Hlen : len (s_count pk count ++ (0 :: le32 (i - last - count + 1)) ++ slice In last (i - count - last)) =
        (if count - SH + 1 <=? 255 then 1 else 5) + 5 + (i - count - last)).
      { rewrite !len_app, len_s_count, len_slice, len_cons, len_le32 by lia. lia. }
      assert (Hlen2 : (if count - SH + 1 <=? 255 then 1 else 5) + 5 <= count).
      { unfold s_accept_long, sMEDIUM in E3. destruct (count - sSHORT pk + 1 <=? 255) eqn:E4; destruct pk; cbn [sSHORT sLONG andb] in *; lia. }
      split.
      { apply SO_packet; try assumption; try lia; [right; reflexivity|].
        rewrite Hlen. unfold sB in *. destruct pk; lia. }
      split; [lia|]. split; [lia|]. split; [|split; [|right; lia]].
      - intros Hpk. left. unfold s_packet_long. rewrite len_app, Hlen. specialize (Hnd Hpk). lia.
      - split; [left; reflexivity|]. lia. }
    assert (Hhere : wrun (i - count) count).
    { split; [intros k Hk; apply Hr; lia|]. split; [replace (i - count + count) with i by lia; exact Hne|]. split; [lia|exact E3]. }
    destruct ((w + 1 =? 1) || (255 <? w64 (i - first))) eqn:E4.
    { (* first wasted chance *)
      eexists. split; [reflexivity|]. cbn [ss_last ss_out ss_i ss_w ss_first]. split; [exact HO|]. split; [lia|]. split; [lia|].
      split; [intros Hpk; left; now apply Hnd|]. split; [|left; lia]. split; [right; left; reflexivity|].
      intros _. exists count. split; [exact Hhere|]. split; [lia|]. split; [lia|]. split; [lia|]. lia. }
    apply orb_false_iff in E4. destruct E4 as [E4 E5].
    destruct Hw as [Hw1 Hw2]. destruct (Hw2 ltac:(lia)) as (c1 & W1 & W2 & W3 & W4 & W5).
    pose proof W1 as (_ & _ & W1pos & _).
    rewrite w64_id in E5 by (unfold large_in in *; lia).
    destruct (2 <? w + 1) eqn:E6.
    - (* roll back *)
      destruct (W5 ltac:(lia)) as (a2 & c2 & V1 & V2 & V3 & V4 & V5).
      rewrite (recount_ok first c1 W1) by lia.
      eexists. split; [reflexivity|]. cbn [ss_last ss_out ss_i ss_w ss_first].
      destruct W1 as (W1a & W1b & W1c & W1d).
      assert (Hc1 : c1 - SH + 1 <= 255).
      { unfold s_accept_long, sMEDIUM in W1d. destruct pk; cbn [sSHORT sLONG andb] in *; lia. }
      assert (Hw8 : s_count pk c1 = [w8 (c1 - SH + 1)]).
      { unfold s_count. replace (c1 - SH + 1 <=? 255) with true by lia. reflexivity. }
      assert (Hlen : len (s_count pk c1 ++ (0 :: le32 (first + c1 - last - c1 + 1)) ++ slice In last (first + c1 - c1 - last)) =
        6 + (first - last)).
      { rewrite !len_app, len_s_count, len_slice, len_cons, len_le32 by lia. replace (c1 - SH + 1 <=? 255) with true by lia. lia. }
      assert (Hrun1 : run8 In (first + c1) c1 sym) by (intros k Hk; apply W1a; lia).
      split.
      { unfold s_packet_wasted. rewrite <- Hw8. apply SO_packet; try assumption; try lia; [right; reflexivity|].
        rewrite Hlen. unfold sB in *. destruct pk; cbn [sSHORT] in *; [lia|specialize (Hnd eq_refl); lia]. }
      split; [lia|]. split; [lia|]. split; [|split; [|right; lia]].
      + intros Hpk. right. unfold s_packet_wasted. rewrite <- Hw8. rewrite len_app, Hlen. specialize (Hnd Hpk).
        split; [ rewrite Hpk in *; cbn [sSHORT] in *; lia|]. split; [reflexivity|].
        exists a2, c2. repeat (split; [assumption|]). lia.
      + split; [left; reflexivity|]. lia.
    - (* second wasted chance *)
      eexists. split; [reflexivity|]. cbn [ss_last ss_out ss_i ss_w ss_first]. fold last out. split; [exact HO|]. split; [lia|]. split; [lia|].
      split; [intros Hpk; left; now apply Hnd|]. split; [|left; lia]. split; [lia|].
      intros _. exists c1. split; [exact W1|]. split; [lia|]. split; [lia|]. split; [lia|]. intros K2.
      exists (i - count), count. split; [apply Hhere|]. split; [lia|]. split; [lia|]. split; lia.
  Qed.

  Definition smeasure (s : sst) : Z := (n - ss_last s) * (n + 2) + (n - ss_i s).

  Lemma single_step_ok s : SInv s ->
    match single_step pk sym In n s with
    | inl s' => SInv s' /\ 0 <= smeasure s' < smeasure s
    | inr r => exists s', r = Some s' /\ SInv s'
    end.
  Proof.
    intros HI. pose proof HI as [HO Hc Hl Hi Hr Hcost Hw]. pose proof (sSHORT_pos pk) as HSH. unfold single_step.
    destruct (ss_i s <? n - 16) eqn:E; [|exists s; split; [reflexivity|exact HI]].
    set (f := fun j : Z => In (ss_i s + j) =? sym).
    destruct (lead_spec f 16) as (L1 & L2 & L3); [lia|].
    pose proof HO as [O1 _ _ _].
    assert (Hgrow : SInv (mkS (ss_i s + lead f 16) (ss_count s + lead f 16) (ss_last s) (ss_out s) (ss_w s) (ss_first s))).
    { constructor; cbn [ss_i ss_count ss_last ss_out ss_w ss_first]; try assumption; try lia.
      - intros k Hk. destruct (Z_lt_ge_dec k (ss_i s)) as [Hk2|Hk2]; [apply Hr; lia|].
        specialize (L2 (k - ss_i s) ltac:(lia)). unfold f in L2. apply Z.eqb_eq in L2. rewrite <- L2. f_equal. lia.
      - replace (ss_i s + lead f 16 - (ss_count s + lead f 16)) with (ss_i s - ss_count s) by lia. exact Hcost.
      - replace (ss_i s + lead f 16 - (ss_count s + lead f 16)) with (ss_i s - ss_count s) by lia. exact Hw. }
    destruct (lead f 16 =? 16) eqn:EL.
    { apply Z.eqb_eq in EL. rewrite EL in Hgrow. split; [exact Hgrow|]. unfold smeasure. cbn. nia. }
    specialize (L3 ltac:(lia)). change (In (ss_i s + lead f 16) =? sym = false) in L3. apply Z.eqb_neq in L3.
    assert (Hmid : exists s1, (if any f 16 || (1 <? ss_count s)
             then s_decide pk sym In n (mkS (ss_i s + lead f 16) (ss_count s + lead f 16) (ss_last s) (ss_out s) (ss_w s) (ss_first s))
             else Some s) = Some s1 /\
      SO (ss_last s1) (ss_out s1) /\ ss_last s1 <= ss_i s1 /\ 0 <= ss_i s1 < n /\
      cost_ok (ss_i s1) (ss_last s1) (ss_w s1) (ss_out s1) /\
      wasted_ok (ss_i s1) (ss_last s1) (ss_w s1) (ss_first s1) /\
      ((ss_last s1 = ss_last s /\ ss_i s <= ss_i s1) \/ ss_last s < ss_last s1)).
    { destruct (any f 16 || (1 <? ss_count s)) eqn:EA.
      - destruct (s_decide_ok _ Hgrow) as (s1 & Hs1 & P1 & P2 & P3 & P4 & P5 & P6); try (cbn [ss_i ss_count]; lia).
        exists s1. split; [exact Hs1|]. repeat (split; [assumption|]). cbn [ss_i ss_last] in P6. lia.
      - apply orb_false_iff in EA. destruct EA as [EA1 EA2]. exists s. split; [reflexivity|]. split; [exact HO|]. split; [lia|]. split; [lia|].
        split; [|split; [|left; lia]].
        + intros Hpk. destruct (Hcost Hpk) as [K|[K (Hw0 & a & c & D1 & D2 & D3 & D4 & D5)]]; [left; exact K|right; split; [exact K|]].
          split; [exact Hw0|]. exists a, c. repeat (split; [assumption|]). split; [|split; assumption].
          destruct (Z_lt_ge_dec a (ss_i s)) as [K2|K2]; [|lia]. exfalso.
          pose proof (any_false f 16 EA1 0 ltac:(lia)) as K3. unfold f in K3. rewrite Z.add_0_r in K3.
          rewrite (D1 (ss_i s)) in K3 by lia. lia.
        + destruct Hw as [Hw1 Hw2]. split; [exact Hw1|]. intros K. destruct (Hw2 K) as (c & W1 & W2 & W3 & W4 & W5).
          exists c. repeat (split; [assumption|]). split; [lia|]. intros K2. destruct (W5 K2) as (a2 & c2 & V1 & V2 & V3 & V4 & V5).
          exists a2, c2. repeat (split; [assumption|]). lia. }
    destruct Hmid as (s1 & -> & P1 & P2 & P3 & P4 & P5 & P6).
    destruct (sscan_ok SH sym In n (ss_i s1)) as (i' & found & HL & Hi' & Hfound & Hpass); try lia.
    rewrite HL. pose proof P1 as [Q1 _ _ _].
    split.
    - assert (Hpos : i' + 1 - (if found then 1 else 0) = if found then i' else i' + 1) by (destruct found; lia).
      constructor; cbn [ss_i ss_count ss_last ss_out ss_w ss_first]; try assumption.
      + destruct found; lia.
      + destruct found; lia.
      + lia.
      + intros k Hk. destruct found; [|lia]. replace k with i' by lia. now apply Hfound.
      + rewrite Hpos. intros Hpk. destruct (P4 Hpk) as [K|[K (Hw0 & a & c & D1 & D2 & D3 & D4 & D5)]]; [left; exact K|right; split; [exact K|]].
        split; [exact Hw0|]. exists a, c. destruct (Hpass a c D1 D2 D3 D4) as [-> Hia]. repeat (split; [assumption|]). assumption.
      + rewrite Hpos. destruct P5 as [Hw1 Hw2]. split; [exact Hw1|]. intros K. destruct (Hw2 K) as (c & W1 & W2 & W3 & W4 & W5).
        exists c. repeat (split; [assumption|]). split; [destruct found; lia|]. intros K2. destruct (W5 K2) as (a2 & c2 & V1 & V2 & V3 & V4 & V5).
        exists a2, c2. repeat (split; [assumption|]). split; [destruct found; lia|exact V5].
    - unfold smeasure. cbn [ss_i ss_last]. destruct P6 as [[P6 P7]|P6]; [rewrite P6; nia|]. nia.
  Qed.

  Lemma single_loop_ok : exists s1, loop (single_step pk sym In n) (mkS 0 0 0 [] 0 0) = Some (Some s1) /\ SInv s1.
  Proof.
    destruct (loop_inv (single_step pk sym In n) SInv smeasure (fun r => exists s', r = Some s' /\ SInv s') (mkS 0 0 0 [] 0 0))
      as (r & HL & s1 & -> & H1).
    - intros s Hs. now apply single_step_ok.
    - constructor; cbn; try lia.
      + constructor; cbn; try lia; try constructor. unfold sB. destruct pk; cbn; lia.
      + intros k Hk. lia.
      + intros _. left. reflexivity.
      + split; [left; reflexivity|lia].
    - unfold smeasure. cbn. unfold large_in in Hn. nia.
    - exists s1. split; [exact HL|exact H1].
  Qed.
End Single.

Lemma scalar_restrict pk sym0 In n s : sym8 s = sym0 ->
  scalar8_step true (s_procR pk sym0) In n s = scalar8_step true (s_procS pk) In n s.
Proof.
  intros H. unfold scalar8_step, emit8, s_procR. rewrite H, Z.eqb_refl. reflexivity.
Qed.

Lemma scalar_loop_restrict pk sym0 In n s : sym8 s = sym0 ->
  loop (scalar8_step true (s_procR pk sym0) In n) s = loop (scalar8_step true (s_procS pk) In n) s.
Proof.
  intros H. unfold loop.
  destruct (iter_ext_inv (scalar8_step true (s_procR pk sym0) In n) (scalar8_step true (s_procS pk) In n) (fun s => sym8 s = sym0)) with (d := 64%nat) (s := s) as [-> _].
  - intros s1 H1. now apply scalar_restrict.
  - intros s1 s2 H1 H2. unfold scalar8_step in H2. destruct (i8 s1 <? n); [|discriminate].
    destruct (In (i8 s1) =? sym8 s1); injection H2 as <-; exact H1.
  - exact H.
  - reflexivity.
Qed.

Lemma s_term_none_ok a : S8End a s_term_none [].
Proof. destruct a. apply (S8End_none 0 (0 :: le32 0)). constructor. lia. Qed.

Lemma s_term_lits_ok a lits : len lits <= large_in ->
  exists tb, tb = s_term_lits (len lits) ++ lits /\ S8End a tb lits.
Proof.
  intros Hl. pose proof (len_nonneg lits). unfold large_in in Hl. eexists. split; [reflexivity|]. destruct a.
  unfold s_term_lits. apply (S8End_lits (0 :: le32 0)); constructor; lia.
Qed.

Definition sbound (pk : bool) (n : Z) : Z := n + 22 + (if pk then 4 * (n / 257) else 0).

Lemma s_compress_ok pk In n cap :
  byte_mem In -> 1 <= n <= large_in -> rle_compress_bounds n <= cap ->
  exists sym body, s_compress pk false false In n cap = COk (le32 n ++ le32 (10 + len body) ++ [1] ++ [sym] ++ body) /\
    is_byte sym /\ StreamP (S8Packet pk sym) S8End 0 tt body In n /\ 10 + len body <= sbound pk n.
Proof.
  intros HIn Hn Hcap. unfold s_compress. cbn [orb].
  replace (n =? 0) with false by lia. replace (cap <? rle_compress_bounds n) with false by lia. cbn [orb].
  destruct (approx_symbol_ok In n Hn) as (sym & -> & Hsym).
  destruct (single_loop_ok pk sym In n HIn Hn) as (s1 & -> & HI1).
  rewrite <- (scalar_loop_restrict pk sym) by reflexivity.
  pose proof HI1 as [HO Hc Hl Hi Hr Hcost Hw].
  assert (HIS : Inv8 (S8Packet pk sym) (sB pk) In n tt (mk8 (ss_i s1) (ss_count s1) sym (ss_last s1) tt (ss_out s1))).
  { split; [exact HO|]. constructor; cbn; try assumption; lia. }
  pose proof (s_proc8_ok pk sym In HIn) as HP.
  destruct (scalar8_ok (S8Packet pk sym) S8End (sB pk) true (s_procR pk sym) In n tt _ HP HIn Hn HIS ltac:(cbn; lia)) as (s2 & HL2 & HI2 & Hi2).
  rewrite HL2.
  assert (Hs2 : sym8 s2 = sym).
  { eapply (loop_pres (scalar8_step true (s_procR pk sym) In n) (fun s => sym8 s = sym) (fun s => sym8 s = sym)); [| |exact HL2].
    - intros s Hs. unfold scalar8_step. destruct (i8 s <? n); [|exact Hs]. destruct (In (i8 s) =? sym8 s); exact Hs.
    - reflexivity. }
  assert (Hfin : finish8 (s_procS pk) s_term_none s_term_lits In s2 = finish8 (s_procR pk sym) s_term_none s_term_lits In s2).
  { unfold finish8, s_procR. rewrite Hs2, Z.eqb_refl. reflexivity. }
  rewrite Hfin.
  destruct (finish8_ok (S8Packet pk sym) S8End (sB pk) (s_procR pk sym) s_term_none s_term_lits In n tt s2) as (HS & Hlen); try assumption.
  - intros a. apply s_term_none_ok.
  - unfold s_term_none, le32, is_byte. repeat constructor; lia.
  - intros a lits Hls. now apply s_term_lits_ok.
  - intros k. unfold s_term_lits. apply Forall_app. split; (constructor; [unfold is_byte; lia|apply Forall_le32]).
  - exists sym, (finish8 (s_procR pk sym) s_term_none s_term_lits In s2). split; [reflexivity|]. split; [exact Hsym|]. split; [exact HS|].
    unfold sbound. change (len s_term_none) with 10 in Hlen.
    assert (L2 : forall k, len (s_term_lits k) = 10) by (intros k; reflexivity).
    unfold sB in Hlen. destruct Hlen as [Hlen|(last & Hlast & Hlen)].
    + destruct pk; lia.
    + rewrite L2 in Hlen. destruct pk; lia.
Qed.

Lemma r8_single_restores pk d sym body In n :
  StreamP (S8Packet pk sym) S8End 0 tt body In n -> 1 <= n <= large_in -> 10 + len body < 2 ^ 32 ->
  Restores (r8_decompress pk d) 128 (le32 n ++ le32 (10 + len body) ++ [1] ++ [sym] ++ body) In n.
Proof.
  intros HS Hn Hlen C pin inSize M pout cap Hh Hpin Hpin2 Hin Hpout Hpout2 Hcap. unfold large_in in Hn.
  apply (StreamP_mono _ (S8Pkt pk sym) _ (S8Term sym) 0 16) in HS; [|apply S8Packet_pkt|apply S8End_term|lia].
  rewrite !len_app, !len_le32 in *. change (len [1]) with 1 in *. change (len [sym]) with 1 in *. pose proof (len_nonneg body).
  unfold r8_decompress.
  rewrite (rd32_holds C pin n _) by (try exact Hh; lia).
  apply holds_app in Hh. destruct Hh as [_ Hh]. rewrite len_le32 in Hh.
  rewrite (rd32_holds C (pin + 4) (10 + len body) _) by (try exact Hh; lia).
  apply holds_app in Hh. destruct Hh as [_ Hh]. rewrite len_le32 in Hh.
  cbn [app holds] in Hh. destruct Hh as (Hmode & Hs & Hh).
  replace (pin + 4 + 4) with (pin + 8) in * by lia. rewrite Hmode.
  replace (pin + 8 + 1) with (pin + 9) in * by lia. rewrite Hs.
  replace ((pin =? 0) || (pout =? 0) || (inSize =? 0) || (cap =? 0)) with false by lia.
  replace ((cap <? n) || (inSize <? 10 + len body)) with false by lia. cbn [Z.eqb].
  destruct (stream_dec (fun _ : d8 => s_parse) (s_fill pk) d8W (SR sym) d8W_ok d C (pin + 10) sym M pout tt body In n) as (M' & HL & H1 & H2);
    try assumption; try lia; try reflexivity.
  { replace (pin + 10) with (pin + 9 + 1) by lia. exact Hh. }
  rewrite HL. exists M'. split; [reflexivity|]. split; [exact H1|]. intros x Hx. apply H2. lia.
Qed.
