(** Decoder side of the extreme codecs: every well-formed packet stream decodes to its meaning. *)
From Verif Require Import Base Simd SimdProof Spec ExtModel.

Lemma loop_stop {S R} (step : S -> S + R) s r : step s = inr r -> loop step s = Some r.
Proof.
  intros H. assert (Hi : forall d, iter d step s = inr r).
  { induction d as [|d IH]; cbn [iter]; [exact H|]. now rewrite IH. }
  unfold loop. now rewrite Hi.
Qed.

Lemma forall_range (N : nat) (P : Z -> bool) :
  forallb (fun k => P (Z.of_nat k)) (seq 0 N) = true -> forall x, 0 <= x < Z.of_nat N -> P x = true.
Proof.
  intros H x Hx. rewrite forallb_forall in H. specialize (H (Z.to_nat x)).
  rewrite Z2Nat.id in H by lia. apply H. apply in_seq. lia.
Qed.

Lemma symbyte_map_seq (f : Z -> Z) (N : nat) j : 0 <= j < Z.of_nat N ->
  symbyte (map (fun k => f (Z.of_nat k)) (seq 0 N)) j = f j.
Proof.
  intros H. unfold symbyte.
  rewrite (nth_indep _ 0 (f (Z.of_nat 0))) by (rewrite map_length, seq_length; lia).
  rewrite (map_nth (fun k => f (Z.of_nat k))). rewrite seq_nth by lia. f_equal. lia.
Qed.

(** ** Repeated-symbol registers *)

Ltac vec_solve :=
  unfold vec24, vec48; lazy -[Z.lor]; rewrite ?Z.lor_0_r, ?Z.lor_0_l; reflexivity.

Definition lanes (r : list Z) (S W k : Z) (N : nat) : list Z :=
  map (fun j => symbyte r ((k * W + Z.of_nat j) mod S)) (seq 0 N).

Lemma vec24_spec v r : length r = 4%nat ->
  vec24 v r = (lanes r 3 (simdW v) 0 (Z.to_nat (simdW v)), lanes r 3 (simdW v) 1 (Z.to_nat (simdW v)),
               lanes r 3 (simdW v) 2 (Z.to_nat (simdW v))).
Proof.
  intros H. destruct r as [|a [|b [|c [|x [|y r]]]]]; try discriminate H.
  destruct v; vec_solve.
Qed.

Lemma vec48_spec v r : length r = 8%nat ->
  vec48 v r = (lanes r 6 (simdW v) 0 (Z.to_nat (simdW v)), lanes r 6 (simdW v) 1 (Z.to_nat (simdW v)),
               lanes r 6 (simdW v) 2 (Z.to_nat (simdW v))).
Proof.
  intros H. destruct r as [|a [|b [|c [|d [|e [|f [|x [|y [|z r]]]]]]]]]; try discriminate H.
  destruct v; vec_solve.
Qed.

Lemma lanes_nth r S W k N j : 0 <= j < Z.of_nat N -> symbyte (lanes r S W k N) j = symbyte r ((k * W + j) mod S).
Proof. intros H. apply (symbyte_map_seq (fun j => symbyte r ((k * W + j) mod S))). exact H. Qed.

Lemma simdW_cases v : simdW v = 16 \/ simdW v = 32.
Proof. destruct v; cbn; auto. Qed.

(** ** Fill *)

Lemma fill3_spec W S r M q cnt :
  (W = 16 \/ W = 32) -> (S = 3 \/ S = 6) -> 0 <= cnt -> 0 <= q -> q + cnt < 2 ^ 64 ->
  exists M',
    loop (fill3_step W (lanes r S W 0 (Z.to_nat W)) (lanes r S W 1 (Z.to_nat W)) (lanes r S W 2 (Z.to_nat W)) (q + cnt))
      (q, M) = Some M' /\
    (forall x, q <= x < q + cnt -> M' x = symbyte r ((x - q) mod S)) /\
    (forall x, x < q \/ q + cnt + 96 <= x -> M' x = M x).
Proof.
  intros HW HS Hc Hq Hqc.
  destruct (loop_inv (fill3_step W (lanes r S W 0 (Z.to_nat W)) (lanes r S W 1 (Z.to_nat W)) (lanes r S W 2 (Z.to_nat W)) (q + cnt))
    (fun '(qc, M1) => q <= qc /\ qc < q + cnt + 3 * W /\ (qc - q) mod S = 0 /\
       (forall x, q <= x < qc -> M1 x = symbyte r ((x - q) mod S)) /\
       (forall x, x < q \/ q + cnt + 96 <= x -> M1 x = M x))
    (fun '(qc, _) => Z.max 0 (q + cnt - qc))
    (fun M' => (forall x, q <= x < q + cnt -> M' x = symbyte r ((x - q) mod S)) /\
       (forall x, x < q \/ q + cnt + 96 <= x -> M' x = M x)) (q, M)) as (M' & HM & H).
  - intros [qc M1] (H1 & H2 & H3 & H4 & H5). unfold fill3_step.
    destruct (qc <? q + cnt) eqn:E.
    + split; [|lia]. split; [lia|]. split; [lia|]. split; [destruct HW; destruct HS; subst; lia|]. split.
      * intros x Hx.
        destruct (Z_lt_ge_dec x qc) as [Hl|Hl].
        { rewrite !vstore_out by lia. apply H4. lia. }
        destruct (Z_lt_ge_dec x (qc + W)) as [Hl1|Hl1].
        { rewrite vstore_out by lia. rewrite vstore_out by lia. rewrite vstore_in by lia.
          rewrite lanes_nth by lia. f_equal. destruct HS; subst; lia. }
        destruct (Z_lt_ge_dec x (qc + 2 * W)) as [Hl2|Hl2].
        { rewrite vstore_out by lia. rewrite vstore_in by lia.
          rewrite lanes_nth by lia. f_equal. destruct HS; subst; lia. }
        rewrite vstore_in by lia. rewrite lanes_nth by lia. f_equal. destruct HS; subst; lia.
      * intros x Hx. rewrite !vstore_out by lia. apply H5. lia.
    + split; [|exact H5]. intros x Hx. apply H4. lia.
  - split; [lia|]. split; [lia|]. split; [replace (q - q) with 0 by lia; now rewrite Z.mod_0_l by lia|].
    split; [intros; lia|reflexivity].
  - lia.
  - exists M'. split; [exact HM|]. exact H.
Qed.

Definition okS (S : Z) : Prop := S = 2 \/ S = 3 \/ S = 4 \/ S = 6 \/ S = 8 \/ S = 16.

Lemma rawS_nonneg S : okS S -> S <= rawS S <= 16.
Proof. intros H. unfold rawS. destruct H as [->|[->|[->|[->|[->| ->]]]]]; cbn; lia. Qed.

Lemma dfill_spec S d r M q cnt :
  okS S -> len r = rawS S -> 0 <= cnt -> 0 <= q -> q + cnt < 2 ^ 64 ->
  exists M',
    dfill S d r M q cnt = Some (q + cnt, M') /\
    (forall x, q <= x < q + cnt -> M' x = symbyte r ((x - q) mod S)) /\
    (forall x, x < q \/ q + cnt + 96 <= x -> M' x = M x).
Proof.
  intros HS Hr Hc Hq Hqc. unfold dfill.
  destruct ((S =? 3) || (S =? 6)) eqn:E36.
  - assert (Hv : (if S =? 3 then vec24 (dvec d) r else vec48 (dvec d) r) =
      (lanes r S (simdW (dvec d)) 0 (Z.to_nat (simdW (dvec d))), lanes r S (simdW (dvec d)) 1 (Z.to_nat (simdW (dvec d))),
       lanes r S (simdW (dvec d)) 2 (Z.to_nat (simdW (dvec d))))).
    { destruct (S =? 3) eqn:E.
      - assert (S = 3) by lia. subst S. apply vec24_spec. unfold len, rawS in Hr. cbn in Hr. lia.
      - assert (S = 6) by lia. subst S. apply vec48_spec. unfold len, rawS in Hr. cbn in Hr. lia. }
    rewrite Hv. rewrite w64_id by lia.
    destruct (fill3_spec (simdW (dvec d)) S r M q cnt) as (M' & HM & H1 & H2); try lia.
    + apply simdW_cases.
    + rewrite HM. exists M'. split; [reflexivity|]. split; assumption.
  - destruct (memset_multiW_spec (dfillW d) (fun j => symbyte r (j mod S)) M q cnt) as (M' & HM & H1 & H2); try lia.
    + destruct d; cbn; lia.
    + exists M'. split; [exact HM|]. split.
      * intros x Hx. rewrite H1 by lia. f_equal.
        destruct HS as [->|[->|[->|[->|[->| ->]]]]]; try discriminate E36; destruct d; cbn [dfillW]; lia.
      * intros x Hx. apply H2. destruct d; cbn [dfillW]; lia.
Qed.

(** ** The wrap-around copy of the 128 bit packed end marker *)

Lemma memcpyW_wrap W C p M q :
  (W = 16 \/ W = 32) -> 0 < p -> 0 < q -> p < 2 ^ 64 - 64 -> q < 2 ^ 64 - 64 ->
  exists M', memcpyW W C p M q (w64 (0 - 1)) = Some (p - 1, q - 1, M') /\
    (forall x, x < q \/ q + W <= x -> M' x = M x).
Proof.
  intros HW Hp Hq Hp2 Hq2. unfold memcpyW. change (w64 (0 - 1)) with (2 ^ 64 - 1).
  replace (w64 (p + (2 ^ 64 - 1))) with (p - 1).
  2:{ unfold w64. replace (p + (2 ^ 64 - 1)) with ((p - 1) + 1 * 2 ^ 64) by lia.
      rewrite Z.mod_add by lia. rewrite Z.mod_small by lia. reflexivity. }
  replace (w64 (q + (2 ^ 64 - 1))) with (q - 1).
  2:{ unfold w64. replace (q + (2 ^ 64 - 1)) with ((q - 1) + 1 * 2 ^ 64) by lia.
      rewrite Z.mod_add by lia. rewrite Z.mod_small by lia. reflexivity. }
  replace (2 ^ 64 - 1 <=? W) with false by (destruct HW; subst; reflexivity).
  destruct (p mod W =? 0) eqn:E.
  - erewrite loop_stop.
    2:{ unfold copy_step. replace (q <? q - 1) with false by lia. reflexivity. }
    eexists. split; [reflexivity|]. reflexivity.
  - erewrite loop_stop.
    2:{ unfold copy_step. replace (q + (p - p mod W + W - p) <? q - 1) with false; [reflexivity|].
        destruct HW; subst; lia. }
    eexists. split; [reflexivity|]. intros x Hx. apply vcopy_out. lia.
Qed.

(** ** Fields *)

Definition regok (S : Z) (r sym : list Z) : Prop :=
  len r = rawS S /\ forall j, 0 <= j < S -> symbyte r j = symbyte sym j.

Definition cok (c : xcfg) : Prop := okS (xS c) /\ (xP7 c = true -> xPack c = true).

Lemma eqb_bytes_eq a : forall b, eqb_bytes a b = true <-> a = b.
Proof.
  induction a as [|x a IH]; intros [|y b]; cbn [eqb_bytes]; split; intros H; try discriminate; try reflexivity.
  - apply andb_true_iff in H. destruct H as [H1 H2]. apply Z.eqb_eq in H1. apply IH in H2. congruence.
  - injection H as -> ->. rewrite Z.eqb_refl. cbn. now apply IH.
Qed.

(** A run length the packet format can carry. *)
Definition count_ok (c : xcfg) (count : Z) : Prop :=
  xSHORT c <= count < 2 ^ 31 /\ (xUnb c = false -> count mod xS c = 0).

Definition decoded_count (c : xcfg) (cnt : Z) : Z :=
  if xUnb c then cnt + xSHORT c - 1 else (cnt + xSHORT c / xS c - 1) * xS c.

Lemma okS_pos S : okS S -> 2 <= S <= 16.
Proof. unfold okS. lia. Qed.

Lemma xSHORT_pos c : cok c -> 3 <= xSHORT c.
Proof. intros [H _]. apply okS_pos in H. unfold xSHORT. destruct (xPack c); lia. Qed.

Lemma stored_ok c count : cok c -> count_ok c count ->
  1 <= stored_count c count < 2 ^ 32 /\ decoded_count c (stored_count c count) = count.
Proof.
  intros Hc [H1 H2]. pose proof (xSHORT_pos c Hc) as H3. destruct Hc as [HS _]. apply okS_pos in HS.
  unfold stored_count, decoded_count. destruct (xUnb c).
  - lia.
  - specialize (H2 eq_refl).
    pose proof (Z.div_le_mono (xSHORT c) count (xS c) ltac:(lia) ltac:(lia)).
    pose proof (Z.div_pos (xSHORT c) (xS c) ltac:(lia) ltac:(lia)).
    pose proof (Z.div_le_upper_bound count (xS c) count ltac:(lia) ltac:(nia)).
    split; [lia|].
    rewrite (Z.div_mod count (xS c)) at 2 by lia. nia.
Qed.

Lemma bits_same sc : 0 <= sc < 128 ->
  Z.land (Z.lor sc 128) 127 = sc /\ Z.land (Z.lor sc 128) 128 = 128 /\
  Z.land (Z.lor sc 0) 127 = sc /\ Z.land (Z.lor sc 0) 128 = 0 /\ is_byte (Z.lor sc 128) /\ is_byte (Z.lor sc 0).
Proof.
  intros H.
  pose proof (forall_range 128 (fun sc => (Z.land (Z.lor sc 128) 127 =? sc) && (Z.land (Z.lor sc 128) 128 =? 128)
     && (Z.land (Z.lor sc 0) 127 =? sc) && (Z.land (Z.lor sc 0) 128 =? 0)
     && (0 <=? Z.lor sc 128) && (Z.lor sc 128 <? 256) && (0 <=? Z.lor sc 0) && (Z.lor sc 0 <? 256)) eq_refl sc H) as K.
  cbv beta in K. rewrite !andb_true_iff in K. unfold is_byte. lia.
Qed.

Lemma holds_slice_load C p S sym l : len sym = S -> S <= rawS S -> holds C p (sym ++ l) -> regok S (slice C p (rawS S)) sym.
Proof.
  intros Hl Hr H. apply holds_app in H. destruct H as [H _]. split.
  - rewrite len_slice; [reflexivity|]. unfold len in Hl. lia.
  - intros j Hj. unfold symbyte. rewrite nth_slice by lia. apply holds_nth; [exact H|lia].
Qed.

Lemma dec_count_ok c C p reg sym lsym count rest :
  cok c -> count_ok c count -> len sym = xS c -> regok (xS c) reg lsym ->
  holds C p (emit_count c sym lsym count ++ rest) ->
  exists reg', dec_count c C p reg = (p + len (emit_count c sym lsym count), reg', stored_count c count) /\
    regok (xS c) reg' sym.
Proof.
  intros Hc Hcnt Hl Hreg H. pose proof (stored_ok c count Hc Hcnt) as [Hs _].
  destruct Hc as [HS _]. pose proof (rawS_nonneg _ HS) as Hraw. apply okS_pos in HS.
  unfold dec_count, emit_count in *. set (sc := stored_count c count) in *.
  destruct (xPack c) eqn:EP.
  - destruct (eqb_bytes sym lsym) eqn:Esame.
    + apply eqb_bytes_eq in Esame. subst lsym. rewrite app_nil_r in *.
      destruct (sc <=? 127) eqn:E.
      * cbn [app holds] in H. destruct H as [H _]. rewrite w8_id in H by lia. rewrite H.
        destruct (bits_same sc ltac:(lia)) as (B1 & B2 & _). rewrite B1, B2.
        replace (sc =? 0) with false by lia. cbn [negb Z.eqb]. exists reg. split; [reflexivity|exact Hreg].
      * cbn [app holds] in H. destruct H as [H H2]. rewrite H.
        change (Z.land 128 127) with 0. change (Z.land 128 128) with 128. cbn [negb Z.eqb].
        exists reg. split; [|exact Hreg]. rewrite (rd32_holds C (p + 1) sc rest) by (try exact H2; lia).
        rewrite len_cons, len_le32. f_equal. f_equal. lia.
    + destruct (sc <=? 127) eqn:E.
      * rewrite <- app_assoc in H. cbn [app holds] in H. destruct H as [H H2]. rewrite (w8_id sc) in H by lia. rewrite H.
        destruct (bits_same sc ltac:(lia)) as (_ & _ & B1 & B2 & _). rewrite B1, B2.
        replace (sc =? 0) with false by lia. cbn [negb Z.eqb]. eexists. split.
        { f_equal. f_equal. rewrite len_app, Hl, len_cons, len_nil. lia. }
        eapply holds_slice_load; [exact Hl|lia|exact H2].
      * rewrite <- app_assoc in H. cbn [app holds] in H. destruct H as [H H2]. rewrite H.
        change (Z.land 0 127) with 0. change (Z.land 0 128) with 0. cbn [negb Z.eqb].
        rewrite (rd32_holds C (p + 1) sc (sym ++ rest)) by (try exact H2; lia).
        eexists. split.
        { f_equal. f_equal. rewrite len_app, len_cons, len_le32, Hl. lia. }
        apply holds_app in H2. rewrite len_le32 in H2. eapply holds_slice_load; [exact Hl|lia|apply H2].
  - rewrite <- app_assoc in H. apply holds_app in H. destruct H as [H H2]. rewrite Hl in H2.
    assert (HR : regok (xS c) (slice C p (rawS (xS c))) sym).
    { apply (holds_slice_load C p (xS c) sym []); [exact Hl|lia|]. now rewrite app_nil_r. }
    destruct (sc <=? 255) eqn:E.
    + cbn [app holds] in H2. destruct H2 as [H2 _]. rewrite w8_id in H2 by lia. rewrite H2.
      replace (sc =? 0) with false by lia. eexists. split; [|exact HR].
      f_equal. f_equal. rewrite len_app, Hl, len_cons, len_nil. lia.
    + cbn [app holds] in H2. destruct H2 as [H2 H3]. rewrite H2. cbn [Z.eqb]. rewrite (rd32_holds C (p + xS c + 1) sc rest) by (try exact H3; lia).
      eexists. split; [|exact HR]. rewrite len_app, len_cons, len_le32, Hl. f_equal. f_equal. lia.
Qed.

Lemma lor1 x : 0 <= x -> Z.lor (x * 2) 1 = 2 * x + 1.
Proof. intros H. rewrite Z.mul_comm. destruct x; try reflexivity. lia. Qed.

Lemma land1 x : Z.land x 1 = x mod 2.
Proof. change 1 with (Z.ones 1). rewrite Z.land_ones by lia. reflexivity. Qed.

(** A literal length field encoding [range]. *)
Definition range_field (c : xcfg) (range : Z) (l : list Z) : Prop :=
  (l = emit_range_short c range /\ 1 <= range <= xMAXR c) \/
  (l = emit_range_long c range /\ 1 <= range < 2 ^ 31).

Lemma dec_range_ok c C p range l rest :
  range_field c range l -> holds C p (l ++ rest) -> dec_range c C p = (p + len l, range, false).
Proof.
  intros HR H. unfold dec_range. destruct HR as [[-> Hr]|[-> Hr]].
  - unfold emit_range_short, xMAXR in *. destruct (xP7 c).
    + cbn [app holds] in H. destruct H as [H _]. rewrite H. rewrite w8_id by lia. rewrite land1.
      replace ((range * 2) mod 2 =? 1) with false by lia. change (len [range * 2]) with 1. f_equal. f_equal. lia.
    + cbn [app holds] in H. destruct H as [H _]. rewrite H. rewrite w8_id by lia.
      replace (range =? 0) with false by lia. reflexivity.
  - unfold emit_range_long in *. destruct (xP7 c).
    + rewrite lor1 in * by lia. rewrite (rd32_holds C p (2 * range + 1) rest) by (try exact H; lia).
      unfold le32 in H. cbn [app holds] in H. destruct H as [H _]. rewrite H. rewrite land1.
      replace ((2 * range + 1) mod 256 mod 2 =? 1) with true by lia. rewrite len_le32.
      replace ((2 * range + 1) / 2) with range by lia. replace (range =? 0) with false by lia. reflexivity.
    + cbn [app holds] in H. destruct H as [H H2]. rewrite H. cbn [Z.eqb].
      rewrite (rd32_holds C (p + 1) range rest) by (try exact H2; lia).
      rewrite len_cons, len_le32. replace (range =? 0) with false by lia. f_equal. f_equal. lia.
Qed.

(** ** Streams *)

(** [periodic sym n]: the first [n] bytes of the endless repetition of [sym]. *)
Definition periodic (sym : list Z) (n : Z) : list Z :=
  slice (fun j => symbyte sym (j mod len sym)) 0 n.

(** [Ser c lsym bytes meaning fsym]: [bytes] is a sequence of packets, read with last
    symbol [lsym], that stands for [meaning] and leaves last symbol [fsym]. *)
Inductive Ser (c : xcfg) : list Z -> list Z -> list Z -> list Z -> Prop :=
| Ser_nil lsym : Ser c lsym [] [] lsym
| Ser_cons lsym sym count lits rf bytes meaning fsym :
    count_ok c count -> len sym = xS c ->
    range_field c (len lits + 1) rf ->
    Ser c sym bytes meaning fsym ->
    Ser c lsym (emit_count c sym lsym count ++ rf ++ lits ++ bytes) (lits ++ periodic sym count ++ meaning) fsym.

Lemma Ser_snoc c lsym bytes meaning fsym sym count lits rf :
  Ser c lsym bytes meaning fsym ->
  count_ok c count -> len sym = xS c -> range_field c (len lits + 1) rf ->
  Ser c lsym (bytes ++ emit_count c sym fsym count ++ rf ++ lits) (meaning ++ lits ++ periodic sym count) sym.
Proof.
  intros H Hc Hl Hr. induction H as [lsym|lsym sym0 count0 lits0 rf0 bytes meaning fsym Hc0 Hl0 Hr0 H IH].
  - cbn [app]. replace (emit_count c sym lsym count ++ rf ++ lits) with (emit_count c sym lsym count ++ rf ++ lits ++ []) by now rewrite app_nil_r.
    replace (lits ++ periodic sym count) with (lits ++ periodic sym count ++ []) by now rewrite app_nil_r.
    econstructor; eauto. constructor.
  - rewrite <- !app_assoc. econstructor; eauto.
Qed.

(** End markers: after a run, or followed by the remaining literals. *)
Inductive Term (c : xcfg) : list Z -> list Z -> Prop :=
| Term_none : Term c (term_count c ++ term_range c) []
| Term_lits lits rf :
    range_field c (len lits + 1) rf -> Term c (term_count c ++ rf ++ lits) lits.

Lemma len_term_count c : okS (xS c) -> len (term_count c) = if xPack c then 5 else xS c + 5.
Proof.
  intros H. apply okS_pos in H. unfold term_count. destruct (xPack c); [reflexivity|].
  rewrite len_app, len_cons, len_le32. unfold len. rewrite repeat_length. lia.
Qed.

Lemma dec_count_term c C p reg rest :
  cok c -> holds C p (term_count c ++ rest) ->
  exists reg', dec_count c C p reg = (p + len (term_count c), reg', 0).
Proof.
  intros [HS _] H. rewrite len_term_count by exact HS. unfold dec_count, term_count in *. destruct (xPack c).
  - cbn [app holds] in H. destruct H as [H H2]. rewrite H. change (Z.land 128 127) with 0. change (Z.land 128 128) with 128.
    cbn [negb Z.eqb]. rewrite (rd32_holds C (p + 1) 0 rest) by (try exact H2; lia).
    eexists. f_equal. f_equal. lia.
  - apply okS_pos in HS. rewrite <- app_assoc in H. apply holds_app in H. destruct H as [_ H].
    replace (len (repeat 0 (Z.to_nat (xS c)))) with (xS c) in H by (unfold len; rewrite repeat_length; lia).
    cbn [app holds] in H. destruct H as [H H2]. rewrite H. cbn [Z.eqb]. rewrite (rd32_holds C (p + xS c + 1) 0 rest) by (try exact H2; lia).
    eexists. f_equal. f_equal. lia.
Qed.

Lemma slice_map_shift (f g : mem) a b n :
  (forall k, 0 <= k < n -> f (a + k) = g (b + k)) -> slice f a n = slice g b n.
Proof.
  intros H. unfold slice. assert (K : forall m a b, (forall k, 0 <= k < Z.of_nat m -> f (a + k) = g (b + k)) ->
    slice_nat f a m = slice_nat g b m).
  { clear. induction m as [|m IH]; intros a b H; cbn [slice_nat]; [reflexivity|]. f_equal.
    - specialize (H 0). rewrite !Z.add_0_r in H. apply H. lia.
    - apply IH. intros k Hk. specialize (H (k + 1)). replace (a + 1 + k) with (a + (k + 1)) by lia.
      replace (b + 1 + k) with (b + (k + 1)) by lia. apply H. lia. }
  apply K. intros k Hk. apply H. lia.
Qed.

Lemma len_periodic sym n : 0 <= n -> len (periodic sym n) = n.
Proof. intros H. unfold periodic. now apply len_slice. Qed.

Lemma dcopyW_pos d : dcopyW d = 16 \/ dcopyW d = 32.
Proof. destruct d; cbn; auto. Qed.

(** Copying [lits] by the decoder. *)
Lemma copy_lits d C p3 M q lits rest :
  holds C p3 (lits ++ rest) -> 0 < p3 -> 0 < q -> p3 + len lits < 2 ^ 64 -> q + len lits < 2 ^ 64 ->
  exists M4, memcpyW (dcopyW d) C p3 M q (w64 (len lits + 1 - 1)) = Some (p3 + len lits, q + len lits, M4) /\
    slice M4 q (len lits) = lits /\ (forall x, x < q \/ q + len lits + 32 <= x -> M4 x = M x).
Proof.
  intros H Hp Hq Hp2 Hq2. pose proof (len_nonneg lits). rewrite w64_id by lia.
  replace (len lits + 1 - 1) with (len lits) by lia. apply holds_app in H. destruct H as [H _].
  destruct (memcpyW_spec (dcopyW d) C p3 M q (len lits)) as (M4 & HM & H1 & H2); try lia.
  { destruct (dcopyW_pos d); lia. }
  exists M4. split; [exact HM|]. split.
  - transitivity (slice C p3 (len lits)); [|now apply slice_of_holds].
    apply slice_map_shift. intros k Hk. rewrite H1 by lia. f_equal. lia.
  - intros x Hx. apply H2. destruct (dcopyW_pos d); lia.
Qed.

Definition N64 := 2 ^ 64.

(** The decode loop on packets followed by an end marker. *)
Lemma dec_loop_ok c d C p0 reg0 M0 q0 lsym bytes meaning fsym tb tl total :
  cok c -> regok (xS c) reg0 lsym ->
  Ser c lsym bytes meaning fsym -> Term c tb tl -> total = meaning ++ tl ->
  holds C p0 (bytes ++ tb) ->
  0 < p0 -> 0 < q0 -> p0 + len (bytes ++ tb) + 128 < 2 ^ 64 -> q0 + len total + 128 < 2 ^ 64 ->
  exists M', loop (dec_step c d C) (p0, q0, reg0, M0) = Some (Some M') /\
    slice M' q0 (len total) = total /\
    (forall x, x < q0 \/ q0 + len total + 96 <= x -> M' x = M0 x).
Proof.
  intros Hc Hreg0 HSer HTerm Htot Hh Hp0 Hq0 HpB HqB.
  pose proof (xSHORT_pos c Hc) as HSh.
  destruct (loop_inv (dec_step c d C)
    (fun '(p, q, reg, M) => exists lsym bytes meaning fsym,
       regok (xS c) reg lsym /\ Ser c lsym bytes meaning fsym /\
       holds C p (bytes ++ tb) /\ 0 < p /\ p + len (bytes ++ tb) + 128 < 2 ^ 64 /\
       q0 <= q /\ total = slice M q0 (q - q0) ++ meaning ++ tl /\
       (forall x, x < q0 \/ q0 + len total + 96 <= x -> M x = M0 x))
    (fun '(_, q, _, _) => Z.max 0 (q0 + len total + 1 - q))
    (fun r => exists M', r = Some M' /\ slice M' q0 (len total) = total /\
       (forall x, x < q0 \/ q0 + len total + 96 <= x -> M' x = M0 x))
    (p0, q0, reg0, M0)) as (r & HL & M' & -> & H1 & H2).
  - clear reg0 Hreg0 lsym bytes meaning fsym HSer Hh p0 Hp0 HpB Htot.
    intros [[[p q] reg] M] (lsym & bytes & meaning & fsym & Hreg & HSer & Hh & Hp & HpB & Hq & Htot & Hout).
    assert (Hlt : len total = (q - q0) + len meaning + len tl).
    { rewrite Htot at 1. rewrite !len_app, len_slice by lia. lia. }
    pose proof (len_nonneg meaning). pose proof (len_nonneg tl).
    unfold dec_step. destruct HSer as [lsym|lsym sym count lits rf bytes meaning fsym Hcnt Hlen Hrf HSer].
    + (* end marker *)
      cbn [app] in *. destruct HTerm as [|tl rf Hrf].
      * destruct (dec_count_term c C p reg (term_range c) Hc Hh) as (reg' & ->).
        rewrite len_app in HpB. pose proof (len_nonneg (term_range c)). pose proof (len_nonneg (term_count c)).
        apply holds_app in Hh. destruct Hh as [_ Hh]. unfold dec_range, term_range in *.
        rewrite len_nil in *. change (len []) with 0 in Hlt.
        assert (Hfin : slice M q0 (len total) = total).
        { rewrite Htot at 2. rewrite !app_nil_r. f_equal. lia. }
        destruct (xP7 c) eqn:EP7; cbn [andb].
        -- destruct (xS c =? 16) eqn:E16; cbn [negb andb] in *.
           ++ cbn [app holds] in Hh. destruct Hh as [Hh _]. rewrite Hh. change (Z.land 0 1 =? 1) with false. cbn iota.
              change (0 / 2) with 0.
              destruct (memcpyW_wrap (dcopyW d) C (p + len (term_count c) + 1) M q) as (M4 & HM4 & Hout4); try lia.
              { apply dcopyW_pos. }
              rewrite HM4. cbn [Z.eqb]. exists M4. split; [reflexivity|]. split.
              ** rewrite <- Hfin at 2. apply slice_ext. intros k Hk. apply Hout4. lia.
              ** intros x Hx. rewrite Hout4; [apply Hout; lia|]. destruct (dcopyW_pos d); lia.
           ++ rewrite (rd32_holds C _ 1 []) by (try (rewrite app_nil_r; exact Hh); lia).
              unfold le32 in Hh. cbn [app holds] in Hh. destruct Hh as [Hh _]. rewrite Hh.
              change (Z.land (1 mod 256) 1 =? 1) with true. cbn iota. change (1 / 2 =? 0) with true. cbn iota.
              exists M. split; [reflexivity|]. split; [exact Hfin|exact Hout].
        -- cbn [andb] in Hh. change (0 :: le32 0) with ([0] ++ le32 0) in Hh. apply holds_app in Hh. destruct Hh as [[Hh _] Hh2].
           rewrite Hh. cbn [Z.eqb]. change (len [0]) with 1 in Hh2.
           rewrite (rd32_holds C _ 0 []) by (try (rewrite app_nil_r; exact Hh2); lia).
           cbn [Z.eqb]. exists M. split; [reflexivity|]. split; [exact Hfin|exact Hout].
      * destruct (dec_count_term c C p reg (rf ++ tl) Hc Hh) as (reg' & ->).
        rewrite len_app in HpB. pose proof (len_nonneg (term_count c)).
        rewrite len_app in HpB. pose proof (len_nonneg rf).
        apply holds_app in Hh. destruct Hh as [_ Hh].
        rewrite (dec_range_ok c C _ (len tl + 1) rf tl Hrf Hh).
        apply holds_app in Hh. destruct Hh as [_ Hh].
        change (@len Z []) with 0 in Hlt.
        destruct (copy_lits d C (p + len (term_count c) + len rf) M q tl []) as (M4 & HM4 & Hs4 & Hout4); try lia.
        { rewrite app_nil_r. exact Hh. }
        rewrite HM4. cbn [Z.eqb]. exists M4. split; [reflexivity|]. split.
        -- rewrite Htot at 2. replace (len total) with ((q - q0) + len tl) by lia. rewrite slice_app by lia.
           f_equal.
           ++ apply slice_ext. intros k Hk. apply Hout4. lia.
           ++ replace (q0 + (q - q0)) with q by lia. exact Hs4.
        -- intros x Hx. rewrite Hout4; [apply Hout; lia|]. lia.
    + (* packet *)
      pose proof (stored_ok c count Hc Hcnt) as [Hst Hdec].
      rewrite <- !app_assoc in Hh.
      destruct (dec_count_ok c C p reg sym lsym count _ Hc Hcnt Hlen Hreg Hh) as (reg' & -> & Hreg').
      rewrite <- !app_assoc in HpB. rewrite len_app in HpB. pose proof (len_nonneg (emit_count c sym lsym count)).
      apply holds_app in Hh. destruct Hh as [_ Hh].
      rewrite (dec_range_ok c C _ (len lits + 1) rf _ Hrf Hh).
      rewrite len_app in HpB. pose proof (len_nonneg rf).
      apply holds_app in Hh. destruct Hh as [_ Hh].
      rewrite (len_app lits (bytes ++ tb)) in HpB.
      pose proof (len_nonneg lits). pose proof (len_nonneg (bytes ++ tb)).
      assert (Hcp : 0 <= count) by (destruct Hcnt; lia).
      pose proof (len_periodic sym count Hcp) as Hlper.
      rewrite !len_app, Hlper in Hlt. pose proof (len_nonneg meaning).
      destruct (copy_lits d C (p + len (emit_count c sym lsym count) + len rf) M q lits (bytes ++ tb)) as (M4 & HM4 & Hs4 & Hout4); try lia.
      { exact Hh. }
      rewrite HM4. replace (stored_count c count =? 0) with false by lia.
      fold (decoded_count c (stored_count c count)). rewrite Hdec.
      destruct (dfill_spec (xS c) d reg' M4 (q + len lits) count) as (M5 & HM5 & Hin5 & Hout5); try lia.
      { apply Hc. } { apply Hreg'. }
      rewrite HM5. destruct Hcnt as [Hcnt _].
      split; [|lia].
      exists sym, bytes, meaning, fsym. split; [exact Hreg'|]. split; [exact HSer|].
      apply holds_app in Hh. split; [apply Hh|]. split; [lia|]. split; [lia|]. split; [lia|]. split.
      * rewrite Htot at 1. rewrite <- !app_assoc.
        replace (q + len lits + count - q0) with ((q - q0) + (len lits + count)) by lia.
        rewrite slice_app by lia. rewrite (slice_app _ (q0 + (q - q0))) by lia.
        rewrite <- !app_assoc. f_equal.
        { apply slice_ext. intros k Hk. rewrite Hout5 by lia. rewrite Hout4 by lia. reflexivity. }
        replace (q0 + (q - q0)) with q by lia. f_equal.
        { rewrite <- Hs4 at 1. apply slice_ext. intros k Hk. rewrite Hout5 by lia. reflexivity. }
        f_equal. unfold periodic. apply slice_map_shift. intros k Hk. rewrite Hin5 by lia.
        replace (q + len lits + k - (q + len lits)) with k by lia. rewrite Hlen, Z.add_0_l.
        destruct Hreg' as [_ Hr2]. destruct Hc as [HS _]. apply okS_pos in HS. symmetry. apply Hr2. apply Z.mod_pos_bound. lia.
      * intros x Hx. rewrite Hout5 by lia. rewrite Hout4 by lia. apply Hout. lia.
  - exists lsym, bytes, meaning, fsym. repeat split; try assumption; try lia; try apply Hreg0.
    rewrite slice_0 by lia. exact Htot.
  - lia.
  - exists M'. split; [exact HL|]. split; [exact H1|exact H2].
Qed.
