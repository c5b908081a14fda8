(** rle8_mmtf128_decompress restores what the stream describes. *)
From Verif Require Import Base LargeSpec Simd SimdProof Spec MtfModel MtfSpec MtfProof BitMtf MzModel MzBits MzPack.

Ltac rwd E := match type of E with _ = ?r => match goal with |- context [dloop ?g ?a ?u ?C ?s] => let H := fresh in assert (H : dloop g a u C s = r) by exact E; rewrite H; clear H end end.

  Lemma byte_fields b : is_byte b -> Z.land b 1 = b mod 2 /\ Z.land b 6 = b mod 8 - b mod 2.
  Proof.
    intros Hb. assert (H : forallb (fun b => (Z.land b 1 =? b mod 2) && (Z.land b 6 =? b mod 8 - b mod 2)) (lanes 256) = true) by (vm_compute; reflexivity).
    pose proof (below_check 256 _ H b Hb) as K. cbn beta in K. lia.
  Qed.

Section Dec.
  Variables (X : mem) (n : Z).
  Hypothesis HX : forall i, 0 <= i < n -> is_byte (X i).
  Notation E := (cod 16 X).

  Lemma tabs c j : 0 <= c -> 16 * c <= n -> 0 <= j < 16 -> TabOk (tab 16 X c j).
  Proof. intros Hc Hn Hj. apply tab_ok. intros m Hm. apply HX. lia. Qed.
  Lemma E_byte i : 0 <= i < n -> is_byte (E i).
  Proof.
    intros Hi. replace i with (16 * (i / 16) + i mod 16) by lia. rewrite cod_at by lia. apply rank_in; [apply tabs; lia|apply HX; lia].
  Qed.

  (** One block: what the history says about it, and the history afterwards. *)
  Lemma hist_block c H : 0 <= c -> 16 * c + 16 <= n -> Hist 16 X c H ->
    (forall j, 0 <= j < 16 -> H (E (16 * c + j)) j = X (16 * c + j)) /\
    (forall j d e, 0 <= j < 16 -> is_byte d -> is_byte e -> H d j = H e j -> d = e) /\
    forall H', (forall k j, is_byte k -> 0 <= j < 16 -> H' k j = mv (E (16 * c + j)) (fun d => H d j) k) -> Hist 16 X (c + 1) H'.
  Proof.
    intros Hc Hn HH. assert (Ht : forall j, 0 <= j < 16 -> TabOk (tab 16 X c j)) by (intros; apply tabs; lia).
    assert (Hb : forall j, 0 <= j < 16 -> is_byte (X (16 * c + j))) by (intros; apply HX; lia).
    split; [|split].
    - intros j Hj. rewrite cod_at by lia. destruct (rank_in (X (16 * c + j)) _ (Ht j Hj) (Hb j Hj)) as [A B]. rewrite HH by assumption. exact B.
    - intros j d e Hj Hd He. rewrite !HH by assumption. intros Ed. rewrite <- (rank_nth d _ (Ht j Hj) Hd), Ed. now apply rank_nth; [apply Ht|].
    - intros H' HE k j Hk Hj. rewrite HE by assumption. rewrite tab_S by lia. replace (j + 16 * c) with (16 * c + j) by lia. rewrite front_mv by auto.
      rewrite <- cod_at by lia. pose proof (E_byte (16 * c + j) ltac:(lia)) as HEb. unfold mv, is_byte in *. destruct (k =? 0) eqn:E0; [apply HH; [exact HEb|exact Hj]|]. destruct (k <=? E (16 * c + j)) eqn:E1; apply HH; unfold is_byte; lia.
  Qed.
  Lemma enc_block c H v : 0 <= c -> 16 * c + 16 <= n -> Hist 16 X c H -> (forall j, 0 <= j < 16 -> v j = X (16 * c + j)) ->
    exists out H', menc_vec 16 v H = Some (out, H') /\ (forall j, 0 <= j < 16 -> out j = E (16 * c + j)) /\ Hist 16 X (c + 1) H'.
  Proof.
    intros Hc Hn HH Hv. destruct (hist_block c H Hc Hn HH) as (A & B & D).
    destruct (menc_vec_ok 16 H (fun j => E (16 * c + j)) ltac:(intros; apply E_byte; lia) B v) as (out & H' & E1 & E2).
    { intros j Hj. rewrite Hv, A by exact Hj. reflexivity. }
    exists out, H'. split; [exact E1|]. split; [intros j Hj; apply E2, Hj|]. apply D. intros k j Hk Hj. now apply E2.
  Qed.
  Lemma dec_block c H v : 0 <= c -> 16 * c + 16 <= n -> Hist 16 X c H -> (forall j, 0 <= j < 16 -> v j = E (16 * c + j)) ->
    exists out H', mdec_vec 16 v H = Some (out, H') /\ (forall j, 0 <= j < 16 -> out j = X (16 * c + j)) /\ Hist 16 X (c + 1) H'.
  Proof.
    intros Hc Hn HH Hv. destruct (hist_block c H Hc Hn HH) as (A & B & D).
    destruct (mdec_vec_ok 16 H (fun j => E (16 * c + j)) ltac:(intros; apply E_byte; lia) B v Hv) as (out & H' & E1 & E2).
    exists out, H'. split; [exact E1|]. split; [intros j Hj; rewrite <- A by exact Hj; apply E2, Hj|]. apply D. intros k j Hk Hj. now apply E2.
  Qed.

  (** *** The decoder has written [a] blocks. *)
  Variables (M0 : mem) (pout : Z).
  Definition Wr (l : Z) (M : mem) : Prop := (forall i, 0 <= i < l -> M (pout + i) = X i) /\ (forall x, x < pout \/ pout + l <= x -> M x = M0 x).
  Definition DSt (a : Z) (st : Z * mem * (Z -> Z -> Z)) : Prop := let '(q, M, H) := st in q = pout + 16 * a /\ Wr (16 * a) M /\ Hist 16 X a H.

  Lemma wr_block a M v : 0 <= a -> Wr (16 * a) M -> (forall j, 0 <= j < 16 -> v j = X (16 * a + j)) -> Wr (16 * (a + 1)) (vstore 16 v M (pout + 16 * a)).
  Proof.
    intros Ha [W1 W2] Hv. split.
    - intros i Hi. destruct (Z_lt_ge_dec i (16 * a)); [rewrite vstore_out by lia; apply W1; lia|]. rewrite vstore_in by lia. rewrite Hv by lia. f_equal. lia.
    - intros x Hx. rewrite vstore_out by lia. apply W2. lia.
  Qed.
  Lemma dblock_ok a st v : 0 <= a -> 16 * a + 16 <= n -> DSt a st -> (forall j, 0 <= j < 16 -> v j = E (16 * a + j)) ->
    exists st', dblock (Some st) v = Some st' /\ DSt (a + 1) st'.
  Proof.
    intros Ha Hn HD Hv. destruct st as [[q M] H]. destruct HD as (-> & HW & HH). destruct (dec_block a H v Ha Hn HH Hv) as (out & H' & E1 & E2 & E3).
    unfold dblock. rewrite E1. eexists. split; [reflexivity|]. split; [lia|]. split; [now apply wr_block|exact E3].
  Qed.
  Lemma dblocks_ok vs : forall a st, 0 <= a -> 16 * (a + len vs) <= n -> DSt a st ->
    (forall m j, 0 <= m < len vs -> 0 <= j < 16 -> nth (Z.to_nat m) vs (fun _ => 0) j = E (16 * a + 16 * m + j)) ->
    exists st', fold_left dblock vs (Some st) = Some st' /\ DSt (a + len vs) st'.
  Proof.
    induction vs as [|v vs IH]; intros a st Ha Hn HD Hv.
    - exists st. change (len (@nil (Z -> Z))) with 0. rewrite Z.add_0_r. auto.
    - rewrite len_cons in *. pose proof (len_nonneg vs). destruct (dblock_ok a st v Ha ltac:(lia) HD) as (st1 & E1 & D1).
      { intros j Hj. specialize (Hv 0 j ltac:(lia) Hj). cbn [Z.to_nat nth] in Hv. rewrite Hv. f_equal. lia. }
      cbn [fold_left]. rewrite E1. destruct (IH (a + 1) st1 ltac:(lia) ltac:(lia) D1) as (st' & E2 & D2).
      { intros m j Hm Hj. specialize (Hv (m + 1) j ltac:(lia) Hj). replace (Z.to_nat (m + 1)) with (S (Z.to_nat m)) in Hv by lia. cbn [nth] in Hv. rewrite Hv. f_equal. lia. }
      exists st'. split; [exact E2|]. now replace (a + (1 + len vs)) with (a + 1 + len vs) by lia.
  Qed.

  Lemma dloop_ok C g adv w un lay p a K r st :
    Reads un lay g w -> (forall y, len (lay E y) = adv) -> 0 < g <= 6 -> 0 <= K -> 0 <= r < g -> 0 <= a -> 16 * (a + g * K) <= n -> n < 2 ^ 40 -> DSt a st ->
    (forall i, 16 * a <= i < 16 * (a + g * K) -> 0 <= E i < 2 ^ w) ->
    holds C p (rep K (16 * g) (lay E) (16 * a)) ->
    exists st', dloop g adv un C (g * K + r, p, Some st) = Some (r, p + adv * K, Some st') /\ DSt (a + g * K) st'.
  Proof.
    intros HR Hlay Hg HK Hr Ha Hn Hn40 HD HE Hh. unfold dloop.
    set (Iv := fun s : Z * Z * dst => exists k st1, 0 <= k <= K /\ s = (g * (K - k) + r, p + adv * k, Some st1) /\ DSt (a + g * k) st1).
    destruct (loop_inv (dgroup g adv un C) Iv (fun '(rem, _, _) => rem) (fun s => exists st', s = (r, p + adv * K, Some st') /\ DSt (a + g * K) st') (g * K + r, p, Some st)) as (s & E1 & st' & -> & D').
    - intros s (k & st1 & Hk & -> & D1). unfold dgroup. destruct (g <=? g * (K - k) + r) eqn:Eg.
      + assert (k < K) by nia. assert (Hgk : g * (K - (k + 1)) = g * (K - k) - g) by ring. assert (0 <= g * (K - (k + 1))) by nia. split; [|lia].
        pose proof (rep_piece C p K (16 * g) (lay E) (16 * a) adv k Hlay Hh ltac:(lia)) as Hp.
        destruct (HR C (p + adv * k) E (16 * a + 16 * g * k) Hp) as [L1 L2].
        { intros i Hi. apply HE. assert (g * (k + 1) <= g * K) by nia. nia. }
        assert (g * (k + 1) <= g * K) by nia.
        destruct (dblocks_ok (un C (p + adv * k)) (a + g * k) st1) as (st2 & E2 & D2).
        * nia.
        * rewrite L1. lia.
        * exact D1.
        * intros m j Hm Hj. rewrite L1 in Hm. rewrite L2 by assumption. f_equal. lia.
        * exists (k + 1), st2. split; [lia|]. split; [rewrite E2; repeat first [lia | reflexivity | f_equal]|]. rewrite L1 in D2. now replace (a + g * (k + 1)) with (a + g * k + g) by lia.
      + assert (k = K) by nia. subst k. exists st1. rewrite Z.sub_diag, Z.mul_0_r. auto.
    - exists 0, st. rewrite Z.sub_0_r, !Z.mul_0_r, !Z.add_0_r. auto with zarith.
    - nia.
    - exists st'. auto.
  Qed.

  (** *** A copy *)
  Definition Fits (m : pmode) (a c : Z) : Prop := forall i, 16 * a <= i < 16 * (a + c) -> 0 <= E i < 2 ^ pw m.


  Lemma dcopy_ok C p m a c st : 0 <= a -> 0 <= c -> 16 * (a + c) <= n -> n <= large_in -> DSt a st -> Fits m a c -> holds C p (copy_bytes m E (16 * a) c) ->
    exists st', dcopy C p (Some st) = Some (p + len (copy_bytes m E (16 * a) c), Some st') /\ DSt (a + c) st'.
  Proof.
    intros Ha Hc Hn Hmax HD HF Hh. unfold large_in in Hmax. pose proof (mbits_lt m) as Hm6.
    unfold copy_bytes in *. rewrite len_app, len_hdr, len_body by exact Hc. apply holds_app in Hh as [Hhd Hb]. rewrite len_hdr in Hb.
    set (hl := if c <? 32 then 1 else 4) in *.
    unfold dcopy. cbn zeta.
    assert (HP : (if Z.land (C p) 1 =? 0 then (C p / 2 ^ 3, p + 1) else (rd32 C p / 2 ^ 3, p + 4)) = (c, p + hl) /\ Z.land (C p) 6 = mbits m).
    { assert (Hev : mbits m mod 2 = 0) by (destruct m; reflexivity). unfold hdr in Hhd. unfold hl. destruct (c <? 32) eqn:Ec.
      - destruct Hhd as [Hv _]. rewrite Hv. destruct (byte_fields (8 * c + mbits m)) as [F1 F2]; [unfold is_byte; lia|]. rewrite F1, F2. change (2 ^ 3) with 8. split; [|lia].
        replace ((8 * c + mbits m) mod 2 =? 0) with true by lia. f_equal. lia.
      - pose proof Hhd as Hr. rewrite <- (app_nil_r (le32 _)) in Hr. apply rd32_holds in Hr; [|lia]. rewrite Hr. unfold le32 in Hhd. cbn [holds] in Hhd. destruct Hhd as [Hv _]. rewrite Hv.
        destruct (byte_fields ((8 * c + 1 + mbits m) mod 256)) as [F1 F2]; [unfold is_byte; lia|]. rewrite F1, F2. change (2 ^ 3) with 8. split; [|lia].
        replace ((8 * c + 1 + mbits m) mod 256 mod 2 =? 0) with false by lia. f_equal. lia. }
    destruct HP as [HP1 HP2]. rewrite HP1, HP2. clear HP1 HP2 Hhd.
    pose proof (pg_pos m) as Hg. destruct (pg_split m c Hc) as (Hs & Hr & Hd). unfold body in Hb. unfold blen. unfold Fits in HF.
    set (K := c / pg m) in *. set (r := c mod pg m) in *. clearbody K r hl.
    assert (Lr : len (rep K (16 * pg m) (play m E) (16 * a)) = padv m * K) by (apply len_rep; [lia|apply (proj1 (pupd_ok m))]).
    apply holds_app in Hb as [Hb1 Hb2]. rewrite Lr in Hb2.
    assert (HRd : Reads (match m with Raw => unraw | P2 => un2 | P3 => un3 | P4 => un4 end) (play m) (pg m) (pw m)) by (destruct m; [apply reads_raw|apply reads_2|apply reads_3|apply reads_4]).
    assert (HRt : Reads (match m with Raw => unraw | P2 => un2_tail | P3 => un3_tail | P4 => un4_tail end) (ptlay m) 1 (pw m)) by (destruct m; [apply reads_raw|apply reads_2t|apply reads_3t|apply reads_4t]).
    destruct (dloop_ok C (pg m) (padv m) (pw m) _ (play m) (p + hl) a K r st HRd (proj1 (pupd_ok m) E) Hg ltac:(lia) Hr Ha ltac:(lia) ltac:(lia) HD ltac:(intros i Hi; apply HF; lia) Hb1) as (st1 & E1 & D1).
    rewrite <- Hs in E1.
    replace (16 * a + 16 * pg m * K) with (16 * (a + pg m * K)) in Hb2 by lia.
    assert (Hgk : 0 <= pg m * K) by nia.
    destruct (dloop_ok C 1 (ptadv m) (pw m) _ (ptlay m) (p + hl + padv m * K) (a + pg m * K) r 0 st1 HRt (proj1 (ptupd_ok m) E) ltac:(lia) ltac:(lia) ltac:(lia) ltac:(lia) ltac:(lia) ltac:(lia) D1 ltac:(intros i Hi; apply HF; lia) Hb2) as (st2 & E2 & D2).
    replace (1 * r + 0) with r in E2 by lia. replace (a + pg m * K + 1 * r) with (a + c) in D2 by lia.
    assert (Hone : r = 1 -> exists st3, fold_left dblock ((match m with Raw => unraw | P2 => un2_tail | P3 => un3_tail | P4 => un4_tail end) C (p + hl + padv m * K)) (Some st1) = Some st3 /\ DSt (a + c) st3).
    { intros H1. rewrite H1, rep_1 in Hb2. destruct (HRt C (p + hl + padv m * K) E (16 * (a + pg m * K)) Hb2 ltac:(intros i Hi; apply HF; lia)) as [L1 L2].
      destruct (dblocks_ok _ (a + pg m * K) st1 ltac:(lia) ltac:(rewrite L1; lia) D1 ltac:(rewrite L1; exact L2)) as (st3 & E3 & D3).
      exists st3. split; [exact E3|]. rewrite L1 in D3. now replace (a + c) with (a + pg m * K + 1) by lia. }
    destruct m; cbn [mbits pg padv ptadv] in *; rewrite ?Z.eqb_refl; change (6 =? 0) with false; change (4 =? 0) with false; change (2 =? 0) with false; change (2 =? 6) with false; change (2 =? 4) with false; change (4 =? 6) with false; cbn iota.
    - exists st1. rwd E1. split; [do 2 f_equal; lia|]. now replace (a + c) with (a + 1 * K) by lia.
    - exists st2. split; [|exact D2]. rwd E1. rwd E2. do 2 f_equal. lia.
    - exists st2. split; [|exact D2]. rwd E1. rwd E2. do 2 f_equal. lia.
    - rwd E1. destruct (r =? 0) eqn:Er.
      + exists st1. split; [do 2 f_equal; lia|]. now replace (a + c) with (a + 2 * K) by lia.
      + destruct (Hone ltac:(lia)) as (st3 & E3 & D3). exists st3. split; [|exact D3]. rewrite E3. do 2 f_equal. lia.
  Qed.

  (** *** A run *)
  Definition Const (a r s : Z) : Prop := forall i, 16 * a <= i < 16 * (a + r) -> E i = s.
  Definition rot (s m : Z) (t : Z -> Z) (k : Z) : Z := if k <=? s then t ((k - m) mod (s + 1)) else t k.

  Lemma mv_rot s m t k : 0 <= s -> 0 <= k -> mv s (rot s m t) k = rot s (m + 1) t k.
  Proof.
    intros Hs Hk. unfold mv, rot. destruct (k =? 0) eqn:E0.
    - replace (s <=? s) with true by lia. replace (k <=? s) with true by lia. f_equal. assert (k = 0) by lia. subst k.
      replace (s - m) with (0 - (m + 1) + 1 * (s + 1)) by lia. apply Z_mod_plus_full.
    - destruct (k <=? s) eqn:E1; [|reflexivity]. replace (k - 1 <=? s) with true by lia. f_equal. f_equal. lia.
  Qed.
  Lemma const_hist a r s H : 0 <= a -> 16 * (a + r) <= n -> is_byte s -> Const a r s -> Hist 16 X a H ->
    forall m, 0 <= m -> m <= r -> Hist 16 X (a + m) (fun k j => rot s m (fun d => H d j) k).
  Proof.
    intros Ha Hn Hs HC HH m Hm. pattern m. apply natlike_ind; [| |exact Hm].
    - intros _ k j Hk Hj. rewrite Z.add_0_r. unfold rot. rewrite Z.sub_0_r. unfold is_byte in *. destruct (k <=? s) eqn:E1; [rewrite Z.mod_small by lia|]; apply HH; assumption.
    - clear m Hm. intros m Hm IH Hr. specialize (IH ltac:(lia)). destruct (hist_block (a + m) _ ltac:(lia) ltac:(lia) IH) as (_ & _ & K). replace (a + Z.succ m) with (a + m + 1) by lia. apply K.
      intros k j Hk Hj. rewrite HC by lia. unfold is_byte in *. change (fun d => rot s m (fun d0 => H d0 j) d) with (rot s m (fun d0 => H d0 j)). rewrite mv_rot by lia. f_equal.
  Qed.
  Lemma const_data a r s H : 0 <= a -> 16 * (a + r) <= n -> is_byte s -> Const a r s -> Hist 16 X a H ->
    forall m j, 0 <= m < r -> m <= s -> 0 <= j < 16 -> X (16 * (a + m) + j) = H (s - m) j.
  Proof.
    intros Ha Hn Hs HC HH m j Hm Hms Hj. pose proof (const_hist a r s H Ha Hn Hs HC HH m ltac:(lia) ltac:(lia)) as HM.
    destruct (hist_block (a + m) _ ltac:(lia) ltac:(lia) HM) as (K & _). rewrite <- K by exact Hj. rewrite HC by lia. unfold rot. replace (s <=? s) with true by lia. now rewrite Z.mod_small by lia.
  Qed.
  Lemma const_cycle a r s H : 0 <= a -> 16 * (a + r) <= n -> is_byte s -> Const a r s -> Hist 16 X a H -> s + 1 <= r -> Hist 16 X (a + (s + 1)) H.
  Proof.
    intros Ha Hn Hs HC HH Hr k j Hk Hj. unfold is_byte in *. pose proof (const_hist a r s H Ha Hn Hs HC HH (s + 1) ltac:(lia) ltac:(lia) k j Hk Hj) as K. rewrite <- K. unfold rot.
    destruct (k <=? s) eqn:E1; [|reflexivity]. replace (k - (s + 1)) with (k + (-1) * (s + 1)) by lia. now rewrite Z_mod_plus_full, Z.mod_small by lia.
  Qed.

  (** The rows are written one after the other. *)
  Lemma cyc_fold s H : forall t q M, 0 <= s -> Z.of_nat t <= s + 1 ->
    exists M', fold_left (fun '(q, M) i => (q + 16, vstore 16 (H (s - i)) M q)) (lanes (Z.of_nat t)) (q, M) = (q + 16 * Z.of_nat t, M') /\
      (forall m j, 0 <= m < Z.of_nat t -> 0 <= j < 16 -> M' (q + 16 * m + j) = H (s - m) j) /\ (forall x, x < q \/ q + 16 * Z.of_nat t <= x -> M' x = M x).
  Proof.
    induction t as [|t IH]; intros q M Hs Ht.
    - exists M. split; [cbn; f_equal; lia|]. split; [lia|reflexivity].
    - destruct (IH q M Hs ltac:(lia)) as (M1 & E1 & A1 & A2). rewrite Nat2Z.inj_succ, <- Z.add_1_r, lanes_S, fold_left_app by lia.
      match type of E1 with ?x = _ => match goal with |- context [fold_left _ [_] ?y] => change y with x end end. rewrite E1. cbn [fold_left].
      exists (vstore 16 (H (s - Z.of_nat t)) M1 (q + 16 * Z.of_nat t)). split; [f_equal; lia|]. split.
      + intros m j Hm Hj. destruct (Z.eq_dec m (Z.of_nat t)) as [->|]; [rewrite vstore_in by lia; f_equal; lia|rewrite vstore_out by lia; apply A1; lia].
      + intros x Hx. rewrite vstore_out by lia. apply A2. lia.
  Qed.
  Lemma wr_rows a r s H M M' t : 0 <= a -> 16 * (a + r) <= n -> is_byte s -> Const a r s -> Hist 16 X a H -> 0 <= t <= r -> t <= s + 1 -> Wr (16 * a) M ->
    (forall m j, 0 <= m < t -> 0 <= j < 16 -> M' (pout + 16 * a + 16 * m + j) = H (s - m) j) -> (forall x, x < pout + 16 * a \/ pout + 16 * a + 16 * t <= x -> M' x = M x) -> Wr (16 * (a + t)) M'.
  Proof.
    intros Ha Hn Hs HC HH Ht Hts [W1 W2] A1 A2. split.
    - intros i Hi. destruct (Z_lt_ge_dec i (16 * a)); [rewrite A2 by lia; apply W1; lia|].
      replace (pout + i) with (pout + 16 * a + 16 * ((i - 16 * a) / 16) + (i - 16 * a) mod 16) by lia. rewrite A1 by lia. rewrite <- (const_data a r s H Ha Hn Hs HC HH) by lia. f_equal. lia.
    - intros x Hx. rewrite A2 by lia. apply W2. lia.
  Qed.
  Lemma const_sub a r s k : 0 <= k <= r -> Const a r s -> Const (a + k) (r - k) s.
  Proof. intros Hk H i Hi. apply H. lia. Qed.

  Lemma cyc_ok a r s q M H : 0 <= a -> 0 <= r -> 16 * (a + r) <= n -> n <= large_in -> is_byte s -> Const a r s -> DSt a (q, M, H) ->
    exists r' q' M', loop (cyc_step s H) (r, q, M) = Some (r', q', M') /\ 0 <= r' <= r /\ r' < s + 1 /\ DSt (a + (r - r')) (q', M', H).
  Proof.
    intros Ha Hr Hn Hmax Hs HC HD. unfold large_in in Hmax.
    destruct (loop_inv (cyc_step s H) (fun '(r', q', M') => 0 <= r' <= r /\ DSt (a + (r - r')) (q', M', H)) (fun '(r', _, _) => r')
      (fun '(r', q', M') => 0 <= r' <= r /\ r' < s + 1 /\ DSt (a + (r - r')) (q', M', H)) (r, q, M)) as ([[r' q'] M'] & E1 & D1).
    - intros [[c q1] M1] [Hc D1]. unfold cyc_step. destruct (s + 1 <=? c) eqn:Ec; [|split; [exact Hc|split; [lia|exact D1]]].
      destruct D1 as (-> & HW & HH). pose proof Hs as Hs'. unfold is_byte in Hs'.
      destruct (cyc_fold s H (Z.to_nat (s + 1)) (pout + 16 * (a + (r - c))) M1 ltac:(lia) ltac:(lia)) as (M2 & E2 & A1 & A2). rewrite Z2Nat.id in E2, A1, A2 by lia.
      match type of E2 with ?x = _ => match goal with |- context [let '(_, _) := ?y in _] => change y with x end end. rewrite E2.
      pose proof (const_sub a r s (r - c) ltac:(lia) HC) as HC'. replace (r - (r - c)) with c in HC' by lia.
      split; [|lia]. split; [lia|]. replace (a + (r - (c - (s + 1)))) with (a + (r - c) + (s + 1)) by lia. split; [lia|]. split.
      + apply (wr_rows (a + (r - c)) c s H M1 M2 (s + 1)); try assumption; lia.
      + apply (const_cycle (a + (r - c)) c s H); try assumption; lia.
    - split; [lia|]. now rewrite Z.sub_diag, Z.add_0_r.
    - lia.
    - exists r', q', M'. auto.
  Qed.

  Lemma down_ok H s : forall t, Z.of_nat t <= s -> forall k j,
    fold_left (fun H i => hrow H (s - i) (H (s - i - 1))) (lanes (Z.of_nat t)) H k j = if (s - Z.of_nat t <? k) && (k <=? s) then H (k - 1) j else H k j.
  Proof.
    induction t as [|t IH]; intros Ht k j.
    - cbn. replace ((s - 0 <? k) && (k <=? s)) with false by lia. reflexivity.
    - rewrite Nat2Z.inj_succ, <- Z.add_1_r, lanes_S, fold_left_app by lia. cbn [fold_left]. unfold hrow at 1. destruct (k =? s - Z.of_nat t) eqn:Ek.
      + rewrite IH by lia. replace ((s - Z.of_nat t <? s - Z.of_nat t - 1) && (s - Z.of_nat t - 1 <=? s)) with false by lia. replace ((s - (Z.of_nat t + 1) <? k) && (k <=? s)) with true by lia. f_equal. lia.
      + rewrite IH by lia. replace ((s - (Z.of_nat t + 1) <? k) && (k <=? s)) with ((s - Z.of_nat t <? k) && (k <=? s)) by lia. reflexivity.
  Qed.
  Lemma rest_ok a r s q M H : 0 <= a -> 0 <= r -> 16 * (a + r) <= n -> n <= large_in -> is_byte s -> Const a r s -> DSt a (q, M, H) ->
    exists st, loop (rest_step s) (r, q, M, H) = Some st /\ DSt (a + r) st.
  Proof.
    intros Ha Hr Hn Hmax Hs HC HD. unfold large_in in Hmax.
    destruct (loop_inv (rest_step s) (fun '(r', q', M', H') => 0 <= r' <= r /\ DSt (a + (r - r')) (q', M', H')) (fun '(r', _, _, _) => r')
      (fun st => DSt (a + r) st) (r, q, M, H)) as (st & E1 & D1).
    - intros [[[c q1] M1] H1] [Hc D1]. unfold rest_step. destruct (c =? 0) eqn:Ec; [now replace (a + r) with (a + (r - c)) by lia|].
      destruct D1 as (-> & HW & HH). pose proof Hs as Hs'. unfold is_byte in Hs'. split; [|lia]. split; [lia|].
      replace (a + (r - (c - 1))) with (a + (r - c) + 1) by lia. destruct (hist_block (a + (r - c)) H1 ltac:(lia) ltac:(lia) HH) as (K1 & _ & K2).
      split; [lia|]. split.
      + apply wr_block; [lia|exact HW|]. intros j Hj. rewrite <- K1 by exact Hj. rewrite HC by lia. reflexivity.
      + apply K2. intros k j Hk Hj. rewrite HC by lia. unfold hrow at 1. unfold mv. destruct (k =? 0) eqn:Ek; [reflexivity|]. unfold down.
        pose proof (down_ok H1 s (Z.to_nat s) ltac:(lia) k j) as Kd. rewrite Z2Nat.id in Kd by lia. unfold is_byte in Hk. rewrite Kd.
        replace (s - s <? k) with true by lia. cbn [andb]. destruct (k <=? s); reflexivity.
    - split; [lia|]. now rewrite Z.sub_diag, Z.add_0_r.
    - lia.
    - exists st. auto.
  Qed.

  Lemma drun_ok a r s q M H : 0 <= a -> 0 <= r -> 16 * (a + r) <= n -> n <= large_in -> is_byte s -> Const a r s -> DSt a (q, M, H) ->
    exists st, drun s r q M H = Some st /\ DSt (a + r) st.
  Proof.
    intros Ha Hr Hn Hmax Hs HC HD. destruct (cyc_ok a r s q M H Ha Hr Hn Hmax Hs HC HD) as (r' & q' & M' & E1 & Hr1 & Hr2 & D1). unfold drun. rewrite E1.
    pose proof (const_sub a r s (r - r') ltac:(lia) HC) as HC'. replace (r - (r - r')) with r' in HC' by lia.
    replace (a + r) with (a + (r - r') + r') by lia. set (b := a + (r - r')) in *. assert (Hb : 0 <= b) by lia. assert (Hbn : 16 * (b + r') <= n) by lia. clearbody b. clear E1 HC HD.
    pose proof D1 as (Hq & HW & HH). unfold is_byte in Hs.
    assert (Hgen : forall t M2 H2, t = r' -> t <= s -> (forall m j, 0 <= m < t -> 0 <= j < 16 -> M2 (q' + 16 * m + j) = H (s - m) j) -> (forall x, x < q' \/ q' + 16 * t <= x -> M2 x = M' x) ->
      (forall k j, 0 <= k <= s -> H2 k j = H ((k - t) mod (s + 1)) j) -> (forall k j, s < k -> H2 k j = H k j) -> DSt (b + r') (q' + 16 * t, M2, H2)).
    { intros t M2 H2 -> Ht A1 A2 B1 B2. split; [lia|]. split.
      - apply (wr_rows b r' s H M' M2 r'); try assumption; try lia; rewrite Hq in A1, A2; assumption.
      - intros k j Hk Hj. rewrite <- (const_hist b r' s H Hb Hbn Hs HC' HH r' ltac:(lia) ltac:(lia) k j Hk Hj). unfold rot. unfold is_byte in Hk. destruct (k <=? s) eqn:Ek; [apply B1; lia|apply B2; lia]. }
    assert (Hz : r' = 0 -> DSt (b + r') (q', M', H)) by (intros ->; now rewrite Z.add_0_r).
    destruct (s =? 0) eqn:Es0; [exists (q', M', H); split; [reflexivity|apply Hz; lia]|].
    destruct (s =? 1) eqn:Es1.
    { assert (s = 1) by lia. subst s. destruct (r' =? 0) eqn:Er; [exists (q', M', H); split; [reflexivity|apply Hz; lia]|]. eexists. split; [reflexivity|]. replace (q' + 16) with (q' + 16 * 1) by lia. apply Hgen; try lia.
      - intros m j Hm Hj. assert (m = 0) as -> by lia. rewrite vstore_in by lia. change (1 - 0) with 1. f_equal. lia.
      - intros x Hx. apply vstore_out. lia.
      - intros k j Hk. unfold hrow. assert (k = 0 \/ k = 1) as [-> | ->] by lia; reflexivity.
      - intros k j Hk. unfold hrow. replace (k =? 1) with false by lia. replace (k =? 0) with false by lia. reflexivity. }
    destruct (s =? 2) eqn:Es2.
    { assert (s = 2) by lia. subst s. destruct (r' =? 2) eqn:Er2; [|destruct (r' =? 1) eqn:Er1].
      - eexists. split; [reflexivity|]. replace (q' + 32) with (q' + 16 * 2) by lia. apply Hgen; try lia.
        + intros m j Hm Hj. assert (m = 0 \/ m = 1) as [-> | ->] by lia.
          * rewrite vstore_out, vstore_in by lia. change (2 - 0) with 2. f_equal. lia.
          * rewrite vstore_in by lia. change (2 - 1) with 1. f_equal. lia.
        + intros x Hx. rewrite !vstore_out by lia. reflexivity.
        + intros k j Hk. unfold hrow. assert (k = 0 \/ k = 1 \/ k = 2) as [-> | [-> | ->]] by lia; reflexivity.
        + intros k j Hk. unfold hrow. replace (k =? 2) with false by lia. replace (k =? 1) with false by lia. replace (k =? 0) with false by lia. reflexivity.
      - eexists. split; [reflexivity|]. replace (q' + 16) with (q' + 16 * 1) by lia. apply Hgen; try lia.
        + intros m j Hm Hj. assert (m = 0) as -> by lia. rewrite vstore_in by lia. change (2 - 0) with 2. f_equal. lia.
        + intros x Hx. apply vstore_out. lia.
        + intros k j Hk. unfold hrow. assert (k = 0 \/ k = 1 \/ k = 2) as [-> | [-> | ->]] by lia; reflexivity.
        + intros k j Hk. unfold hrow. replace (k =? 2) with false by lia. replace (k =? 1) with false by lia. replace (k =? 0) with false by lia. reflexivity.
      - exists (q', M', H). split; [reflexivity|apply Hz; lia]. }
    destruct (rest_ok b r' s q' M' H Hb ltac:(lia) Hbn Hmax Hs HC' D1) as (st & E2 & D2). rewrite E2. exists st. auto.
  Qed.

  (** *** The stream *)
  Definition run_bytes (r s : Z) : list Z := (if r <? 128 then [2 * r] else le32 (2 * r + 1)) ++ [s].
  (** Copies of [c] blocks, each followed by a run of [r]. *)
  Fixpoint stream (a : Z) (segs : list (pmode * Z * Z)) : list Z :=
    match segs with
    | [] => []
    | (m, c, r) :: t => copy_bytes m E (16 * a) c ++ run_bytes r (E (16 * (a + c))) ++ stream (a + c + r) t
    end.
  Fixpoint total (segs : list (pmode * Z * Z)) : Z := match segs with [] => 0 | (_, c, r) :: t => c + r + total t end.
  Fixpoint Valid (a : Z) (segs : list (pmode * Z * Z)) : Prop :=
    match segs with
    | [] => True
    | (m, c, r) :: t => 0 <= c /\ 1 <= r /\ Fits m a c /\ Const (a + c) r (E (16 * (a + c))) /\ Valid (a + c + r) t
    end.
  Lemma total_nonneg segs : forall a, Valid a segs -> 0 <= total segs.
  Proof. induction segs as [|[[m c] r] t IH]; intros a H; cbn [total]; [lia|]. destruct H as (H1 & H2 & _ & _ & H3). apply IH in H3. lia. Qed.

  (** Reading the count of a run or the end. *)
  Lemma run_count C p r s : 0 <= r < 2 ^ 31 -> is_byte s -> holds C p (run_bytes r s) ->
    (if Z.land (C p) 1 =? 0 then (C p / 2, p + 1) else (rd32 C p / 2, p + 4)) = (r, p + len (run_bytes r s) - 1) /\ C (p + len (run_bytes r s) - 1) = s.
  Proof.
    intros Hr Hs H. unfold run_bytes in *. destruct (r <? 128) eqn:Er.
    - change (len ([2 * r] ++ [s])) with 2. destruct H as (H1 & H2 & _). rewrite H1. destruct (byte_fields (2 * r)) as [-> _]; [unfold is_byte; lia|].
      replace ((2 * r) mod 2 =? 0) with true by lia. replace (p + 2 - 1) with (p + 1) by lia. split; [f_equal; lia|exact H2].
    - rewrite len_app, len_le32. change (len [s]) with 1. pose proof (rd32_holds C p (2 * r + 1) [s] ltac:(lia) H) as R. apply holds_app in H as [H1 H2]. rewrite len_le32 in H2. destruct H2 as [H2 _].
      unfold le32 in H1. destruct H1 as [H1 _]. rewrite H1, R. destruct (byte_fields ((2 * r + 1) mod 256)) as [-> _]; [unfold is_byte; lia|].
      replace ((2 * r + 1) mod 256 mod 2 =? 0) with false by lia. replace (p + (4 + 1) - 1) with (p + 4) by lia. split; [f_equal; lia|exact H2].
  Qed.

  Lemma dmain_ok C m c segs p a st : 0 <= a -> 0 <= c -> Valid a segs -> 16 * (a + total segs + c) <= n -> n <= large_in -> Fits m (a + total segs) c -> DSt a st ->
    holds C p (stream a segs ++ copy_bytes m E (16 * (a + total segs)) c ++ [0]) ->
    exists st', loop (mz_dstep C) (p, st) = Some (Some (p + len (stream a segs ++ copy_bytes m E (16 * (a + total segs)) c ++ [0]), st')) /\ DSt (a + total segs + c) st'.
  Proof.
    intros Ha Hc HV Hn Hmax HF HD Hh. unfold large_in in *. set (endp := p + len (stream a segs ++ copy_bytes m E (16 * (a + total segs)) c ++ [0])). set (tot := a + total segs) in *.
    set (Iv := fun s : Z * (Z * mem * (Z -> Z -> Z)) => exists a1 segs1 p1 st1, s = (p1, st1) /\ 0 <= a1 /\ Valid a1 segs1 /\ a1 + total segs1 = tot /\ DSt a1 st1 /\
      holds C p1 (stream a1 segs1 ++ copy_bytes m E (16 * tot) c ++ [0]) /\ p1 + len (stream a1 segs1 ++ copy_bytes m E (16 * tot) c ++ [0]) = endp).
    destruct (loop_inv (mz_dstep C) Iv (fun '(p1, _) => endp - p1) (fun r => exists st', r = Some (endp, st') /\ DSt (tot + c) st') (p, st)) as (r & E1 & st' & -> & D').
    - intros s (a1 & segs1 & p1 & st1 & -> & Ha1 & HV1 & Ht & D1 & Hh1 & He). unfold mz_dstep. destruct segs1 as [|[[m1 c1] r1] t].
      + cbn [stream total app] in *. assert (a1 = tot) by lia. subst a1. apply holds_app in Hh1 as [Hc1 Hz].
        destruct (dcopy_ok C p1 m tot c st1 ltac:(lia) Hc ltac:(lia) ltac:(unfold large_in; lia) D1 HF Hc1) as (st2 & E2 & D2). rewrite E2. destruct st2 as [[q M] H]. destruct Hz as [Hz _]. rewrite Hz.
        change (Z.land 0 1 =? 0) with true. cbn iota zeta. change (0 / 2 =? 0) with true. cbn iota. eexists. split; [|exact D2]. do 2 f_equal. rewrite len_app in He. change (len [0]) with 1 in He. lia.
      + cbn [stream total] in *. destruct HV1 as (V1 & V2 & V3 & V4 & V5). pose proof (total_nonneg _ _ V5) as Ht0. rewrite <- !app_assoc in Hh1, He. apply holds_app in Hh1 as [Hc1 Hh1].
        destruct (dcopy_ok C p1 m1 a1 c1 st1 ltac:(lia) V1 ltac:(lia) ltac:(unfold large_in; lia) D1 V3 Hc1) as (st2 & E2 & D2). rewrite E2. destruct st2 as [[q M] H].
        rewrite len_app in He. set (p2 := p1 + len (copy_bytes m1 E (16 * a1) c1)) in *. apply holds_app in Hh1 as [Hr Hh1].
        assert (Hsb : is_byte (E (16 * (a1 + c1)))) by (apply E_byte; lia).
        destruct (run_count C p2 r1 _ ltac:(lia) Hsb Hr) as [R1 R2]. rewrite R1. replace (r1 =? 0) with false by lia. rewrite R2. 
        destruct (drun_ok (a1 + c1) r1 (E (16 * (a1 + c1))) q M H ltac:(lia) ltac:(lia) ltac:(lia) ltac:(unfold large_in; lia) Hsb V4 D2) as (st3 & E3 & D3). rewrite E3.
        rewrite len_app in He. pose proof (len_nonneg (stream (a1 + c1 + r1) t ++ copy_bytes m E (16 * tot) c ++ [0])).
        assert (Hrl : 0 < len (run_bytes r1 (E (16 * (a1 + c1))))) by (unfold run_bytes; destruct (r1 <? 128); reflexivity).
        pose proof (len_nonneg (copy_bytes m1 E (16 * a1) c1)).
        split; [|lia]. exists (a1 + c1 + r1), t, (p2 + len (run_bytes r1 (E (16 * (a1 + c1)))) - 1 + 1), st3. split; [reflexivity|]. split; [lia|]. split; [exact V5|]. split; [lia|]. split; [exact D3|].
        replace (p2 + len (run_bytes r1 (E (16 * (a1 + c1)))) - 1 + 1) with (p2 + len (run_bytes r1 (E (16 * (a1 + c1))))) by lia. split; [exact Hh1|lia].
    - exists a, segs, p, st. split; [reflexivity|]. split; [exact Ha|]. split; [exact HV|]. split; [reflexivity|]. split; [exact HD|]. split; [exact Hh|reflexivity].
    - assert (Hle : forall segs a, Valid a segs -> len (stream a segs) <= 16 * total segs).
      { clear. induction segs as [|[[m c] r] t IH]; intros a H; cbn [stream total]; [change (len (@nil Z)) with 0; lia|]. destruct H as (H1 & H2 & _ & _ & H3). apply IH in H3.
        unfold copy_bytes. rewrite !len_app, len_hdr, len_body by lia. pose proof (blen_le m c H1). unfold run_bytes. assert (len ((if r <? 128 then [2 * r] else le32 (2 * r + 1)) ++ [E (16 * (a + c))]) <= 5) by (destruct (r <? 128); cbn; lia).
        destruct (c <? 32); lia. }
      unfold endp. pose proof (Hle segs a HV). unfold copy_bytes. rewrite !len_app, len_hdr, len_body by lia. pose proof (blen_le m c Hc). change (len [0]) with 1. unfold tot in *. destruct (c <? 32); lia.
    - exists st'. auto.
  Qed.
  Lemma stream_le segs : forall a, Valid a segs -> len (stream a segs) <= 16 * total segs.
  Proof.
    induction segs as [|[[m c] r] t IH]; intros a H; cbn [stream total]; [change (len (@nil Z)) with 0; lia|]. destruct H as (H1 & H2 & _ & _ & H3). apply IH in H3.
    unfold copy_bytes. rewrite !len_app, len_hdr, len_body by lia. pose proof (blen_le m c H1). unfold run_bytes. assert (len ((if r <? 128 then [2 * r] else le32 (2 * r + 1)) ++ [E (16 * (a + c))]) <= 5) by (destruct (r <? 128); cbn; lia).
    destruct (c <? 32); lia.
  Qed.

  Lemma dlast_ok C H a : 0 <= a -> Hist 16 X a H -> forall t p q M, 16 * a + Z.of_nat t <= n -> Z.of_nat t <= 16 -> q = pout + 16 * a -> Wr (16 * a) M ->
    (forall i, 0 <= i < Z.of_nat t -> C (p + i) = E (16 * a + i)) ->
    exists M', fold_left (mz_dlast C H) (lanes (Z.of_nat t)) (p, q, M) = (p + Z.of_nat t, q + Z.of_nat t, M') /\ Wr (16 * a + Z.of_nat t) M'.
  Proof.
    intros Ha HH t p q M. induction t as [|t IH]; intros Hn Ht Hq HW HC.
    - exists M. rewrite !Z.add_0_r. auto.
    - destruct IH as (M1 & E1 & W1 & W2); [lia|lia|exact Hq|exact HW|intros; apply HC; lia|]. rewrite Nat2Z.inj_succ, <- Z.add_1_r, lanes_S, fold_left_app by lia. rewrite E1. cbn [fold_left mz_dlast].
      rewrite (Z.div_small (Z.of_nat t) 16), (Z.mod_small (Z.of_nat t) 16), Z.add_0_r by lia.
      exists (put8 M1 (q + Z.of_nat t) (H (C (p + Z.of_nat t)) (Z.of_nat t))). split; [repeat first [lia | reflexivity | f_equal]|]. rewrite HC by lia.
      assert (HX' : H (E (16 * a + Z.of_nat t)) (Z.of_nat t) = X (16 * a + Z.of_nat t)).
      { rewrite cod_at by lia. destruct (rank_in (X (16 * a + Z.of_nat t)) _ (tabs a (Z.of_nat t) Ha ltac:(lia) ltac:(lia)) (HX (16 * a + Z.of_nat t) ltac:(lia))) as [A B]. rewrite HH by (try exact A; lia). exact B. }
      rewrite HX'. split.
      + intros i Hi. rewrite put8_at. destruct (pout + i =? q + Z.of_nat t) eqn:Ei; [f_equal; lia|apply W1; lia].
      + intros x Hx. rewrite put8_at. replace (x =? q + Z.of_nat t) with false by lia. apply W2. lia.
  Qed.
End Dec.

(** The whole compressed block. *)
Definition mz_body (X : mem) (segs : list (pmode * Z * Z)) (m : pmode) (c rem : Z) : list Z :=
  stream X 0 segs ++ copy_bytes m (cod 16 X) (16 * total segs) c ++ [0] ++ slice (cod 16 X) (16 * (total segs + c)) rem.

Theorem mz_decode_ok X n segs m c : byte_mem X -> 1 <= n <= large_in -> Valid X 0 segs -> 0 <= c -> n - 16 * (total segs + c) < 16 -> 16 * (total segs + c) <= n -> Fits X m (total segs) c ->
  let b := mz_body X segs m c (n - 16 * (total segs + c)) in
  8 + len b < 2 ^ 32 -> Restores mz_decompress 0 (le32 n ++ le32 (8 + len b) ++ b) X n.
Proof.
  intros HX Hn HV Hc Hrem Htot HF b Hb C pin inSize M pout cap Hh Hp Hp64 Hin Hq Hq64 Hcap. unfold large_in in Hn.
  pose proof (total_nonneg X n ltac:(intros; apply HX) segs 0 HV) as Ht. pose proof (len_nonneg b). rewrite !len_app, !len_le32 in *.
  unfold mz_decompress. replace ((pin =? 0) || (pout =? 0) || (inSize =? 0) || (cap =? 0)) with false by lia.
  rewrite (rd32_holds C pin n _) by (try exact Hh; lia). apply holds_app in Hh as [_ Hh]. rewrite len_le32 in Hh.
  rewrite (rd32_holds C (pin + 4) (8 + len b) _) by (try exact Hh; lia). apply holds_app in Hh as [_ Hh]. rewrite len_le32 in Hh. replace (pin + 4 + 4) with (pin + 8) in Hh by lia.
  replace ((cap <? n) || (inSize <? 8 + len b)) with false by lia.
  unfold b, mz_body in Hh. rewrite !app_assoc in Hh. apply holds_app in Hh as [Hh1 Hh2]. rewrite <- !app_assoc in Hh1, Hh2.
  destruct (dmain_ok X n ltac:(intros; apply HX) M pout C m c segs (pin + 8) 0 (pout, M, hist0)) as ([[q M1] H1] & E1 & (Hq1 & HW & HH)).
  - lia.
  - exact Hc.
  - exact HV.
  - lia.
  - unfold large_in. lia.
  - exact HF.
  - split; [lia|]. split; [split; [lia|reflexivity]|]. intros k j Hk Hj. unfold hist0. now rewrite tab_0.
  - exact Hh1.
  - rewrite E1. rewrite !Z.add_0_l in *. set (rem := n - 16 * (total segs + c)) in *.
    assert (Hw : w64 (pout + n - q) = rem) by (rewrite Hq1; unfold rem; rewrite w64_id by lia; lia). rewrite Hw.
    destruct (dlast_ok X n ltac:(intros; apply HX) M pout C H1 (total segs + c) ltac:(lia) HH (Z.to_nat rem) (pin + 8 + len (stream X 0 segs ++ copy_bytes m (cod 16 X) (16 * total segs) c ++ [0])) q M1) as (M' & E2 & W1 & W2).
    + lia.
    + lia.
    + lia.
    + exact HW.
    + intros i Hi. rewrite (holds_nth _ _ _ i Hh2) by (rewrite len_slice by lia; lia). rewrite nth_slice by lia. f_equal; lia.
    + rewrite Z2Nat.id in * by lia. rewrite E2. exists M'. split; [reflexivity|]. replace (16 * (total segs + c) + rem) with n in * by lia. split.
      * rewrite <- (len_slice X 0 n) at 1 by lia. apply slice_of_holds, holds_intro. intros k Hk. rewrite len_slice in Hk by lia. rewrite nth_slice by lia. now apply W1.
      * intros x Hx. apply W2. lia.
Qed.
