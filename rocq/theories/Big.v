(** What the encoders do with an input of [B] blocks, each of [L] literals and a run of [cnt] bytes,
    and a rest of literals: followed symbolically, since the blocks are too long to run. *)
From Verif Require Import Base Simd Spec ExtModel ExtDec ExtEnc PktModel PktEnc MbModel SameMb Same8.

(** *** Symbols of several bytes *)
Section BigM.
  Context {A : Type} (proc : procM A) (S : Z) (unb : bool) (In : mem) (L cnt B rest H : Z) (symb : Z -> list Z) (Inv : Z -> A -> Prop).
  Variables T n : Z.
  Hypothesis HT0 : T = L + cnt.
  Hypothesis Hn0 : n = B * T + rest.
  Hypothesis HS : okS S.
  Hypothesis H16 : S <> 16.
  Hypothesis Hn : n < 2 ^ 62.
  Hypothesis HL : 0 < rest <= L.
  Hypothesis HB : 0 <= B.
  Hypothesis Hrest : S < rest.
  Hypothesis Hcnt : S * 2 <= cnt.
  Hypothesis Hpart : unb = false -> cnt mod S = 0.
  Hypothesis Hsym : forall b, len (symb b) = S.
  Hypothesis Hlits : forall b r, 0 <= b <= B -> 0 <= r < L -> load In S (b * T + r + S) <> load In S (b * T + r).
  Hypothesis Hrun : forall b j, 0 <= b < B -> 0 <= j < cnt -> In (b * T + L + j) = symbyte (symb b) (j mod S).
  Hypothesis Hstop : forall b, 0 <= b < B -> In (b * T + T) <> symbyte (symb b) (cnt mod S).
  Hypothesis Hnone : forall i sym last a, proc In i 0 sym last a = None.
  Hypothesis Hproc : forall b a, 0 <= b < B -> Inv b a -> exists bytes a', proc In (b * T + T) cnt (symb b) (b * T) a = Some (bytes, a') /\ len bytes = H + L /\ Inv (b + 1) a'.

  Notation bstep := (mb_step proc S unb Base_ In n).

  Lemma big_block b s : 0 <= b < B -> m_last s = b * T -> Inv b (m_aux s) ->
    exists s', Reach bstep (next_runM S In n s (b * T) false) (next_runM S In n s' (b * T + T) false) /\
      m_last s' = (b + 1) * T /\ Inv (b + 1) (m_aux s') /\ len (m_out s') = len (m_out s) + H + L.
  Proof.
    intros Hb Hl Ha. pose proof (S_small proc S In n HS H16 Hnone) as HS2. destruct (Hproc b (m_aux s) Hb Ha) as (bytes & a' & P1 & P2 & P3).
    assert (HTp : 0 < T) by lia. assert (HT : b * T + T <= B * T) by (replace (b * T + T) with ((b + 1) * T) by ring; apply Z.mul_le_mono_nonneg_r; lia). assert (HT2 : 0 <= b * T) by (apply Z.mul_nonneg_nonneg; lia).
    set (q := cnt / S). set (d := cnt mod S). assert (Hqd : cnt = S * q + d) by (apply Z.div_mod; lia). assert (Hd : 0 <= d < S) by (apply Z.mod_pos_bound; lia). assert (Hq : 2 <= q) by (apply Z.div_le_lower_bound; lia). assert (Hq2 : S * 2 <= S * q) by (apply Z.mul_le_mono_nonneg_l; lia). assert (Hd0 : cnt mod S = d) by reflexivity. clearbody q d.
    (* literals *)
    assert (R1 : Reach bstep (next_runM S In n s (b * T) false) (next_runM S In n s (b * T + L) false)).
    { replace L with (Z.of_nat (Z.to_nat L)) by lia. apply (reach_cands proc S unb In n Hnone Base_).
      - left. lia.
      - intros k Hk. replace k with (b * T + (k - b * T)) by lia. apply Hlits; lia. }
    (* the first two symbols *)
    assert (W : forall k, 0 <= k <= q - 1 -> load In S (b * T + L + k * S) = symb b).
    { intros k Hk. apply (load_periodic proc S In n HS H16 Hnone); [apply Hsym|]. intros j Hj. assert (0 <= k * S /\ k * S + S <= S * q) by (clear - Hk HS2; nia). rewrite <- Z.add_assoc, Hrun by lia. f_equal. rewrite Z.add_comm, Z.mod_add, Z.mod_small by lia. reflexivity. }
    assert (R2 : next_runM S In n s (b * T + L) false = st (b * T + L + S * 2) (S * 2) (symb b) (m_last s) (m_aux s) (m_out s)).
    { unfold next_runM. pose proof (W 0 ltac:(lia)) as W0. pose proof (W 1 ltac:(lia)) as W1. rewrite Z.mul_0_l, Z.add_0_r in W0. rewrite Z.mul_1_l in W1. rewrite W0, W1.
      rewrite (proj2 (eqb_bytes_eq (symb b) (symb b)) eq_refl). replace (b * T + L + S <=? n) with true by lia. reflexivity. }
    assert (R3 : Reach bstep (st (b * T + L + S * 2) (S * 2) (symb b) (m_last s) (m_aux s) (m_out s)) (st (b * T + L + S * q) (S * q) (symb b) (m_last s) (m_aux s) (m_out s))).
    { replace (S * q) with (S * 2 + Z.of_nat (Z.to_nat (q - 2)) * S) by (rewrite Z2Nat.id by lia; lia). rewrite Z.add_assoc.
      apply (reach_blocks proc S unb In n HS H16 Hnone); [apply Hsym|lia| |].
      - rewrite Z2Nat.id by lia. replace ((q - 2) * S) with (S * q - S * 2) by ring. lia.
      - rewrite Z2Nat.id by lia. intros j Hj. replace ((q - 2) * S) with (S * q - S * 2) in Hj by ring. rewrite <- (Z.add_assoc _ (S * 2)), Hrun by lia. f_equal. rewrite Z.add_comm, Z.mul_comm, Z.mod_add by lia. reflexivity. }
    (* its end *)
    set (i := b * T + L + S * q).
    assert (E1 : load In S i <> symb b).
    { intros E. apply (Hstop b Hb). rewrite <- E, Hd0. unfold symbyte, load. rewrite nth_slice by exact Hd. f_equal. unfold i. lia. }
    assert (Ei : i + d = b * T + T) by (subst i; lia).
    assert (SS : scalar_step (mcfg S unb) In n i (S * q) (symb b) = inr (b * T + T, cnt)).
    { unfold scalar_step. cbn [xS xUnb mcfg]. replace (S * q =? 0) with false by lia. cbn [negb]. replace (i + S <=? n) with true by lia.
      destruct (eqb_bytes (load In S i) (symb b)) eqn:Eq; [apply eqb_bytes_eq in Eq; contradiction|].
      destruct unb eqn:Eu.
      - assert (LD : lead (fun j => In (i + j) =? symbyte (symb b) j) S = d).
        { apply lead_is; [exact Hd| |].
          - intros k Hk. apply Z.eqb_eq. unfold i. rewrite <- (Z.add_assoc _ (S * q)), Hrun by lia. f_equal. rewrite Z.add_comm, Z.mul_comm, Z.mod_add, Z.mod_small by lia. reflexivity.
          - apply Z.eqb_neq. rewrite Ei, <- Hd0. apply Hstop. exact Hb. }
        rewrite LD, Ei, <- Hqd. reflexivity.
      - specialize (Hpart eq_refl). rewrite Hd0 in Hpart. rewrite <- Ei, Hpart, Z.add_0_r. do 2 f_equal. lia. }
    set (s' := emitM proc In (st (b * T + T) cnt (symb b) (m_last s) (m_aux s) (m_out s))).
    assert (ES : s' = mkM (b * T + T) cnt (symb b) (b * T + T) a' (m_out s ++ bytes) false).
    { unfold s', emitM, st. cbn [m_i m_count m_sym m_last m_aux m_out m_goto]. rewrite Hl, P1. reflexivity. }
    exists s'. split.
    - eapply reach_trans; [exact R1|]. rewrite R2. eapply reach_trans; [exact R3|]. apply reach_one. apply (bstep_second proc S unb In n Hnone); [lia|exact SS].
    - rewrite ES. cbn [m_last m_aux m_out]. rewrite len_app. split; [lia|]. split; [exact P3|lia].
  Qed.

  Lemma big_blocks s : m_last s = 0 -> Inv 0 (m_aux s) -> forall b : nat, Z.of_nat b <= B ->
    exists s', Reach bstep (next_runM S In n s 0 false) (next_runM S In n s' (Z.of_nat b * T) false) /\
      m_last s' = Z.of_nat b * T /\ len (m_out s') = len (m_out s) + Z.of_nat b * (H + L) /\ Inv (Z.of_nat b) (m_aux s').
  Proof.
    intros Hl Ha. induction b as [|b IH]; intros Hb.
    - exists s. split; [constructor|]. split; [lia|]. split; [lia|exact Ha].
    - destruct IH as (s1 & R & A1 & A2 & A3); [lia|]. destruct (big_block (Z.of_nat b) s1 ltac:(lia) A1 A3) as (s2 & R2 & B1 & B2 & B3).
      exists s2. replace (Z.of_nat (Datatypes.S b)) with (Z.of_nat b + 1) by lia. split.
      + eapply reach_trans; [exact R|]. replace ((Z.of_nat b + 1) * T) with (Z.of_nat b * T + T) by lia. exact R2.
      + split; [exact B1|]. split; [rewrite B3, A2; ring|exact B2].
  Qed.

  Lemma big_body tn tl a0 v : Inv 0 a0 -> In 0 <> symbyte (not_first S In) 0 ->
    exists out, mb_body proc tn tl S unb v In n a0 = Some out /\ len out = B * (H + L) + len (tl rest) + rest.
  Proof.
    intros Ha H0. pose proof (S_small proc S In n HS H16 Hnone) as HS2. assert (HTp : 0 < T) by lia. assert (HT : 0 <= B * T) by (apply Z.mul_nonneg_nonneg; lia).
    rewrite (mb_same proc tn tl S unb v In n a0 HS H16) by (try exact Hnone; lia). unfold mb_body. set (s0 := mkM 0 0 (not_first S In) 0 a0 [] false).
    destruct (base_ends proc S unb In n s0 HS Hn ltac:(cbn; lia) eq_refl) as (sb & Eb). rewrite Eb.
    destruct (big_blocks s0 eq_refl Ha (Z.to_nat B)) as (s1 & R1 & A1 & A2 & _); [lia|]. rewrite Z2Nat.id in * by lia.
    assert (R0 : Reach bstep s0 (next_runM S In n s0 0 false)).
    { apply reach_one. change s0 with (st 0 0 (not_first S In) 0 a0 (@nil Z)) at 1. rewrite (bstep_second proc S unb In n Hnone 0 0 _ _ _ _ 0 0); [|lia|reflexivity].
      unfold emitM, st. cbn [m_i m_count m_sym m_last m_aux m_out m_goto]. rewrite Hnone. reflexivity. }
    assert (R2 : Reach bstep (next_runM S In n s1 (B * T) false) (next_runM S In n s1 (B * T + Z.of_nat (Z.to_nat (rest - 1))) false)).
    { apply (reach_cands proc S unb In n Hnone Base_); [left; lia|]. intros k Hk. replace k with (B * T + (k - B * T)) by lia. apply Hlits; lia. }
    rewrite Z2Nat.id in R2 by lia. replace (B * T + (rest - 1)) with (n - 1) in R2 by lia.
    assert (F : next_runM S In n s1 (n - 1) false = mkM n 0 (load In S (n - 1)) (m_last s1) (m_aux s1) (m_out s1) false).
    { unfold next_runM. replace (n - 1 + S <=? n) with false by lia. cbn [andb]. f_equal; lia. }
    rewrite F in R2.
    assert (E : Some sb = Some (mkM n 0 (load In S (n - 1)) (m_last s1) (m_aux s1) (m_out s1) false)).
    { eapply loop_reach; [exact Eb|eapply reach_trans; [exact R0|eapply reach_trans; [exact R1|exact R2]]|]. unfold mb_step. cbn [m_i m_goto]. replace (n <? n) with false by lia. reflexivity. }
    injection E as ->. eexists. split; [reflexivity|]. unfold finishM. cbn [m_i m_count m_sym m_last m_aux m_out]. rewrite Hnone, A1. rewrite !len_app, A2. replace (n - B * T) with rest by lia. rewrite len_slice by lia. cbn. lia.
  Qed.
End BigM.

(** *** Symbols of one byte *)
Section Big8.
  Context {A : Type} (proc : proc8 A) (In : mem) (L cnt B rest H : Z) (symb : Z -> Z) (Inv : Z -> A -> Prop).
  Variables T n : Z.
  Hypothesis HT0 : T = L + cnt.
  Hypothesis Hn0 : n = B * T + rest.
  Hypothesis Hn : n < 2 ^ 62.
  Hypothesis HL : 0 < rest <= L.
  Hypothesis HB : 0 <= B.
  Hypothesis Hcnt : 1 <= cnt.
  Hypothesis Hlits : forall b r, 0 <= b <= B -> 0 <= r < L -> In (b * T + r) <> In (b * T + r + 1).
  Hypothesis Hrun : forall b j, 0 <= b < B -> 0 <= j < cnt -> In (b * T + L + j) = symb b.
  Hypothesis Hstop : forall b, 0 <= b < B -> In (b * T + T) <> symb b.
  Hypothesis Hnone : forall i count sym last a, count <= 1 -> proc In i count sym last a = None.
  Hypothesis Hproc : forall b a, 0 <= b < B -> Inv b a -> exists bytes a', proc In (b * T + T) cnt (symb b) (b * T) a = Some (bytes, a') /\ len bytes = H + L /\ Inv (b + 1) a'.

  Notation sstep := (scalar8_step false proc In n).

  Lemma big8_block b s : 0 <= b < B -> last8 s = b * T -> Inv b (aux8 s) ->
    exists s', Reach sstep (cand In s (b * T)) (cand In s' (b * T + T)) /\
      last8 s' = (b + 1) * T /\ Inv (b + 1) (aux8 s') /\ len (out8 s') = len (out8 s) + H + L.
  Proof.
    intros Hb Hl Ha. destruct (Hproc b (aux8 s) Hb Ha) as (bytes & a' & P1 & P2 & P3).
    assert (HTp : 0 < T) by lia. assert (HT : b * T + T <= B * T) by (replace (b * T + T) with ((b + 1) * T) by ring; apply Z.mul_le_mono_nonneg_r; lia). assert (HT2 : 0 <= b * T) by (apply Z.mul_nonneg_nonneg; lia).
    assert (R1 : Reach sstep (cand In s (b * T)) (cand In s (b * T + L))).
    { replace L with (Z.of_nat (Z.to_nat L)) by lia. apply (reach_cands8 proc In n Hnone).
      - left. lia.
      - intros k Hk. replace k with (b * T + (k - b * T)) by lia. apply Hlits; lia. }
    assert (E0 : In (b * T + L) = symb b) by (rewrite <- (Hrun b 0) by lia; f_equal; lia).
    pose proof (reach_same proc In n 16 ltac:(lia) Hnone (mk8 (b * T + L + 1) 1 (symb b) (last8 s) (aux8 s) (out8 s)) (Z.to_nat (cnt - 1))) as R2. cbn [i8 count8 sym8 last8 aux8 out8] in R2. rewrite Z2Nat.id in R2 by lia.
    specialize (R2 ltac:(lia)). assert (R2' : forall j, 0 <= j < cnt - 1 -> In (b * T + L + 1 + j) = symb b) by (intros j Hj; rewrite <- (Hrun b (1 + j)) by lia; f_equal; lia). specialize (R2 R2').
    replace (b * T + L + 1 + (cnt - 1)) with (b * T + T) in R2 by lia. replace (1 + (cnt - 1)) with cnt in R2 by lia.
    set (m := mk8 (b * T + T) cnt (symb b) (last8 s) (aux8 s) (out8 s)) in *.
    assert (EM : emit8 proc In m = mk8 (b * T + T) cnt (symb b) (b * T + T) a' (out8 s ++ bytes)).
    { unfold emit8, m. cbn [i8 count8 sym8 last8 aux8 out8]. rewrite Hl, P1. reflexivity. }
    exists (emit8 proc In m). split.
    - eapply reach_trans; [exact R1|]. unfold cand at 1. rewrite E0. eapply reach_snoc; [exact R2|]. unfold scalar8_step. cbn [m i8 sym8]. replace (b * T + T <? n) with true by lia.
      replace (In (b * T + T) =? symb b) with false by (symmetry; apply Z.eqb_neq; now apply Hstop). reflexivity.
    - rewrite EM. cbn [last8 aux8 out8]. rewrite len_app. split; [lia|]. split; [exact P3|lia].
  Qed.

  Lemma big8_blocks s : last8 s = 0 -> Inv 0 (aux8 s) -> forall b : nat, Z.of_nat b <= B ->
    exists s', Reach sstep (cand In s 0) (cand In s' (Z.of_nat b * T)) /\
      last8 s' = Z.of_nat b * T /\ len (out8 s') = len (out8 s) + Z.of_nat b * (H + L) /\ Inv (Z.of_nat b) (aux8 s').
  Proof.
    intros Hl Ha. induction b as [|b IH]; intros Hb.
    - exists s. split; [constructor|]. split; [lia|]. split; [lia|exact Ha].
    - destruct IH as (s1 & R & A1 & A2 & A3); [lia|]. destruct (big8_block (Z.of_nat b) s1 ltac:(lia) A1 A3) as (s2 & R2 & B1 & B2 & B3).
      exists s2. replace (Z.of_nat (Datatypes.S b)) with (Z.of_nat b + 1) by lia. split.
      + eapply reach_trans; [exact R|]. replace ((Z.of_nat b + 1) * T) with (Z.of_nat b * T + T) by lia. exact R2.
      + split; [exact B1|]. split; [rewrite B3, A2; ring|exact B2].
  Qed.

  Lemma big8_body tn tl a0 W : Inv 0 a0 -> 16 <= W <= 32 ->
    exists out, body8 proc proc tn tl W In n (mk8 0 0 (255 - In 0) 0 a0 []) = Some out /\ len out = B * (H + L) + len (tl rest) + rest.
  Proof.
    intros Ha HW. assert (HTp : 0 < T) by lia. assert (HT : 0 <= B * T) by (apply Z.mul_nonneg_nonneg; lia). set (s0 := mk8 0 0 (255 - In 0) 0 a0 []).
    destruct (body8_scalar proc tn tl W In n a0) as (sb & Eb & EB); [lia|exact HW|exact Hnone|]. fold s0 in Eb, EB. rewrite EB.
    destruct (big8_blocks s0 eq_refl Ha (Z.to_nat B)) as (s1 & R1 & A1 & A2 & _); [lia|]. rewrite Z2Nat.id in * by lia.
    assert (R0 : Reach sstep s0 (cand In s0 0)).
    { apply reach_one. unfold scalar8_step. cbn [s0 i8 sym8]. replace (0 <? n) with true by lia. replace (In 0 =? 255 - In 0) with false by lia.
      unfold emit8. cbn [s0 i8 count8 sym8 last8 aux8 out8]. rewrite Hnone by lia. reflexivity. }
    assert (R2 : Reach sstep (cand In s1 (B * T)) (cand In s1 (B * T + Z.of_nat (Z.to_nat (rest - 1))))).
    { apply (reach_cands8 proc In n Hnone); [left; lia|]. intros k Hk. replace k with (B * T + (k - B * T)) by lia. apply Hlits; lia. }
    rewrite Z2Nat.id in R2 by lia. replace (B * T + (rest - 1)) with (n - 1) in R2 by lia.
    assert (E : sb = cand In s1 (n - 1)).
    { eapply loop_reach; [exact Eb|eapply reach_trans; [exact R0|eapply reach_trans; [exact R1|exact R2]]|]. unfold scalar8_step, cand. cbn [i8]. replace (n - 1 + 1 <? n) with false by lia. reflexivity. }
    eexists. split; [reflexivity|]. rewrite E. unfold finish8, cand. cbn [i8 count8 sym8 last8 aux8 out8]. rewrite Hnone by lia. rewrite A1. replace (n - 1 + 1 - B * T) with rest by lia.
    rewrite !len_app, A2, len_slice by lia. cbn. lia.
  Qed.
End Big8.
