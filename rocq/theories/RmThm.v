(** Correctness of rle8m (the sectioned low entropy codec). *)
From Coq Require Import Permutation.
From Verif Require Import Base Simd SimdProof Spec Spec2 ExtModel ExtEnc PktModel Rle8Model LeModel LeSpec LeTable LeDec LeEnc LeSize LeThm.

(** Space that is always enough. *)
Definition rm_space (subs n : Z) : Z := 2 * n + 4 * subs + 296.
Definition rm_decs (dec : decompressor) : Prop := exists c, dec = rm_decompress c.
Definition rm_cond (subs : Z) (In : mem) (n : Z) : Prop := subs <= n /\ SomeNotWorth 255 In n.

Lemma slice_shift (In : mem) a n : slice (fun k => In (a + k)) 0 n = slice In a n.
Proof.
  destruct (Z_le_gt_dec n 0) as [H|H]; [rewrite !slice_0 by lia; reflexivity|].
  assert (K : forall m, 0 <= m -> slice (fun k => In (a + k)) 0 m = slice In a m).
  { apply natlike_ind; [rewrite !slice_0 by lia; reflexivity|]. intros m Hm IH. unfold Z.succ. rewrite !slice_snoc, IH by lia. reflexivity. }
  apply K. lia.
Qed.

Lemma upd_same (f : Z -> Z) a v : upd f a v a = v.
Proof. unfold upd. now rewrite Z.eqb_refl. Qed.
Lemma upd_other (f : Z -> Z) a v x : x <> a -> upd f a v x = f x.
Proof. intros H. unfold upd. now replace (x =? a) with false by lia. Qed.

Section Rm.
  Variables (info : leinfo) (stc : Z -> Z) (In : mem) (n subs : Z).
  Let rle := li_rle info.
  Let head := write_info info.
  Let sub := n / subs.
  Let base := 12 + 4 * (subs - 1) + len head.
  Hypothesis HI : InfoOk info.
  Hypothesis Hstc : forall k, 0 <= k < 256 -> stc (tab 0 (li_syms info) k) = k.
  Hypothesis HIn : forall k, is_byte (In k).
  Hypothesis Hn : 1 <= n <= max_in.
  Hypothesis Hs : 1 <= subs <= 2 ^ 28.

  Lemma sub_bounds i : 0 <= i <= subs -> 0 <= sub /\ 0 <= sub * i <= n.
  Proof using Hn Hs.
    clear HI Hstc HIn base head rle stc info In. intros Hi. assert (0 <= sub) by (apply Z.div_pos; lia). split; [assumption|].
    pose proof (Z.mul_div_le n subs ltac:(lia)). fold sub in H0. clearbody sub. nia.
  Qed.
  Lemma base_bounds : 12 <= base <= 4 * subs + 296.
  Proof using HI Hs. unfold base, head. rewrite len_write_info by exact HI. destruct HI as (_ & Hw & _). clear - Hw Hs. lia. Qed.

  (** What the loop over the sections has written after section [i]. *)
  Definition SecAt (idx : Z -> Z) (offs out : list Z) (j : Z) : Prop :=
    exists body o1 o2 t1 t2,
      offs = o1 ++ le32 (idx (j + 1)) ++ o2 /\ len o1 = 4 * j /\
      out = t1 ++ body ++ t2 /\ len t1 = idx j - base /\ len body = idx (j + 1) - idx j /\
      Ser 255 rle stc body (slice In (sub * j) sub).
  Definition RInv (i index : Z) (offs out : list Z) : Prop :=
    0 <= i <= subs - 1 /\ len offs = 4 * i /\ index = base + len out /\ len out <= 2 * (sub * i) /\
    Forall is_byte offs /\ Forall is_byte out /\
    exists idx, idx 0 = base /\ idx i = index /\ forall j, 0 <= j < i -> 0 <= idx (j + 1) < 2 ^ 32 /\ SecAt idx offs out j.

  Lemma section_ser a m o body : 1 <= m -> m < 2 ^ 32 -> le_with_info 255 info (fun k => In (a + k)) m o = Some (Some body) -> Ser 255 rle stc body (slice In a m).
  Proof using HI Hstc HIn.
    clear Hn Hs base sub. intros Hm Hm2 E. destruct (le_with_info_ok 255 info stc (fun k => In (a + k)) m m ltac:(auto) HI Hstc ltac:(intros; apply HIn) ltac:(lia) ltac:(lia)) as (b & E' & HS).
    rewrite (le_with_info_some _ _ _ _ _ _ m E ltac:(lia)) in E'. assert (b = body) by congruence. subst b. now rewrite slice_shift in HS.
  Qed.
  Lemma section_pos m a o body : 0 <= m -> le_with_info 255 info (fun k => In (a + k)) m o = Some (Some body) -> 1 <= m.
  Proof using Type. clear HI Hstc HIn Hn Hs base sub head rle stc. intros Hm. unfold le_with_info. destruct (m =? 0) eqn:E; [discriminate|]. lia. Qed.

  Lemma rinv_step i index offs out o body : RInv i index offs out -> i < subs - 1 ->
    le_with_info 255 info (fun k => In (sub * i + k)) sub o = Some (Some body) ->
    RInv (i + 1) (index + len body) (offs ++ le32 (index + len body)) (out ++ body) /\ w32 (index + len body) = index + len body.
  Proof using HI Hstc HIn Hn Hs.
    intros (R1 & R2 & R3 & R4 & R5 & R6 & idx & R7 & R8 & R9) Hi E.
    pose proof (sub_bounds i ltac:(lia)) as [S1 S2]. pose proof (sub_bounds (i + 1) ltac:(lia)) as [_ S3].
    assert (Hsub : 1 <= sub) by (eapply section_pos; [exact S1|exact E]).
    assert (Hle : sub * i + sub = sub * (i + 1)) by ring.
    assert (HS : Ser 255 rle stc body (slice In (sub * i) sub)) by (eapply section_ser; [exact Hsub|unfold max_in in Hn; lia|exact E]).
    assert (Hlb : len body <= 2 * sub) by (pose proof (ser_len _ _ _ _ _ HS) as K; rewrite len_slice in K by lia; exact K).
    pose proof base_bounds as HB. pose proof (len_nonneg body). pose proof (len_nonneg out).
    assert (Hidx : 0 <= index + len body < 2 ^ 32) by (unfold max_in in Hn; lia).
    split; [|apply w32_id; exact Hidx].
    unfold RInv. rewrite !len_app, len_le32. split; [lia|]. split; [lia|]. split; [lia|]. split; [lia|].
    split; [apply Forall_app; split; [exact R5|apply Forall_le32]|].
    split; [apply Forall_app; split; [exact R6|apply (proj1 (ser_bytes _ _ _ _ _ HS))]|].
    exists (upd idx (i + 1) (index + len body)). split; [rewrite upd_other by lia; exact R7|]. split; [apply upd_same|].
    intros j Hj. destruct (Z.eq_dec j i) as [->|Hne].
    - rewrite upd_same. split; [exact Hidx|]. exists body, offs, [], out, []. rewrite upd_same, upd_other, R8 by lia. rewrite !app_nil_r. repeat split; auto; lia.
    - destruct (R9 j ltac:(lia)) as (K1 & body' & o1 & o2 & t1 & t2 & K2 & K3 & K4 & K5 & K6 & K7).
      rewrite upd_other by lia. split; [exact K1|]. exists body', o1, (o2 ++ le32 (index + len body)), t1, (t2 ++ body). rewrite !upd_other by lia.
      rewrite K2, K4, <- !app_assoc. repeat split; auto.
  Qed.

  Lemma rinv_init : RInv 0 base [] [].
  Proof using HI Hstc HIn Hn Hs.
    unfold RInv. change (len (@nil Z)) with 0. split; [lia|]. split; [lia|]. split; [lia|]. split; [lia|]. split; [constructor|]. split; [constructor|].
    exists (fun _ => base). split; [reflexivity|]. split; [reflexivity|]. intros; lia.
  Qed.

  Lemma sub_w32 i : 0 <= i <= subs -> w32 (sub * i) = sub * i.
  Proof using Hn Hs. clear HI Hstc HIn base head rle stc info In. intros Hi. apply w32_id. pose proof (sub_bounds i Hi). unfold max_in in Hn. lia. Qed.

  Lemma rm_loop_ok outSize r t : loop (rm_step info In subs sub outSize) (0, base, [], []) = Some (r, t) ->
    match r with COk _ => let '(index, offs, out) := t in RInv (subs - 1) index offs out | _ => True end.
  Proof using HI Hstc HIn Hn Hs.
    intros E. eapply (loop_pres _ (fun '(i, index, offs, out) => RInv i index offs out)
      (fun '(r, t) => match r with COk _ => let '(index, offs, out) := t in RInv (subs - 1) index offs out | _ => True end)) in E; [exact E| |exact rinv_init].
    intros [[[i index] offs] out] HR. unfold rm_step. destruct (i <? subs - 1) eqn:Ei.
    - pose proof HR as (Hi & _). rewrite (sub_w32 i) by lia.
      destruct (le_with_info 255 info (fun k => In (sub * i + k)) sub (w32 (outSize - index))) as [[body|]|] eqn:E1; auto.
      destruct (rinv_step _ _ _ _ _ _ HR ltac:(lia) E1) as [K1 K2]. rewrite K2. exact K1.
    - pose proof HR as (Hi & _). replace (subs - 1) with i by lia. exact HR.
  Qed.

  Lemma rm_loop_total outSize : subs <= n -> rm_space subs n <= outSize < 2 ^ 32 ->
    exists index offs out, loop (rm_step info In subs sub outSize) (0, base, [], []) = Some (COk [], (index, offs, out)) /\ RInv (subs - 1) index offs out.
  Proof using HI Hstc HIn Hn Hs.
    intros Hsn Ho. assert (Hsub : 1 <= sub) by (apply Z.div_le_lower_bound; lia).
    destruct (loop_inv (rm_step info In subs sub outSize) (fun '(i, index, offs, out) => RInv i index offs out) (fun '(i, _, _, _) => subs - 1 - i)
      (fun r => exists index offs out, r = (COk [], (index, offs, out)) /\ RInv (subs - 1) index offs out) (0, base, [], [])) as (r & E & index & offs & out & -> & HR).
    - intros [[[i index] offs] out] HR. unfold rm_step. pose proof HR as (Hi & _ & Hix & Hlo & _). destruct (i <? subs - 1) eqn:Ei.
      + rewrite (sub_w32 i) by lia. pose proof base_bounds as HB. pose proof (len_nonneg out).
        pose proof (sub_bounds (i + 1) ltac:(lia)) as [_ S3]. assert (Hle : sub * i + sub = sub * (i + 1)) by ring. unfold rm_space in Ho. unfold max_in in Hn.
        destruct (le_with_info_ok 255 info stc (fun k => In (sub * i + k)) sub (w32 (outSize - index)) ltac:(auto) HI Hstc ltac:(intros; apply HIn) ltac:(lia)) as (body & E1 & _).
        { rewrite w32_id by lia. lia. }
        rewrite E1. destruct (rinv_step _ _ _ _ _ _ HR ltac:(lia) E1) as [K1 K2]. rewrite K2. split; [exact K1|lia].
      + exists index, offs, out. split; [reflexivity|]. replace (subs - 1) with i by lia. exact HR.
    - exact rinv_init.
    - lia.
    - exists index, offs, out. auto.
  Qed.

  (** *** Decompression *)
  Lemma rmd_loop c rle' stc' C pin M pout idx offs out :
    (exists b, is_byte b /\ rle' b = false) ->
    (forall s o, Ser 255 rle stc s o -> Ser 255 rle' stc' s o) ->
    idx 0 = base -> (forall j, 0 <= j < subs - 1 -> 0 <= idx (j + 1) < 2 ^ 32 /\ SecAt idx offs out j) ->
    holds C (pin + 12) offs -> holds C (pin + base) out -> 0 < pin -> pin + base + len out + 1024 < 2 ^ 64 ->
    0 < pout -> pout + n + 1024 < 2 ^ 64 ->
    exists M', loop (rmd_step c rle' stc' C pin subs sub) (0, pin + base, pout, M) = Some (Some (pin + idx (subs - 1), pout + sub * (subs - 1), M')) /\
      slice M' pout (sub * (subs - 1)) = slice In 0 (sub * (subs - 1)) /\
      (forall x, x < pout \/ pout + sub * (subs - 1) <= x -> M' x = M x).
  Proof using HI Hn Hs.
    clear Hstc HIn. intros Hex Hser H0 Hsec Ho Hb Hp Hp64 Hq Hq64.
    destruct (loop_inv (rmd_step c rle' stc' C pin subs sub)
      (fun '(i, p, q, N) => 0 <= i <= subs - 1 /\ p = pin + idx i /\ q = pout + sub * i /\ slice N pout (sub * i) = slice In 0 (sub * i) /\ (forall x, x < pout \/ pout + sub * i <= x -> N x = M x))
      (fun '(i, _, _, _) => subs - 1 - i)
      (fun r => exists M', r = Some (pin + idx (subs - 1), pout + sub * (subs - 1), M') /\ slice M' pout (sub * (subs - 1)) = slice In 0 (sub * (subs - 1)) /\
        (forall x, x < pout \/ pout + sub * (subs - 1) <= x -> M' x = M x)) (0, pin + base, pout, M)) as (r & E & M' & -> & R1 & R2).
    - intros [[[i p] q] N] (I1 & I2 & I3 & I4 & I5). unfold rmd_step. destruct (i <? subs - 1) eqn:Ei.
      + destruct (Hsec i ltac:(lia)) as (K1 & body & o1 & o2 & t1 & t2 & K2 & K3 & K4 & K5 & K6 & K7).
        assert (E1 : rd32 C (pin + 12 + 4 * i) = idx (i + 1)).
        { rewrite K2 in Ho. apply holds_app in Ho. destruct Ho as [_ Ho]. rewrite K3 in Ho. apply (rd32_holds C _ (idx (i + 1)) o2); [exact K1|exact Ho]. }
        rewrite E1. pose proof (sub_bounds i ltac:(lia)) as [S1 S2]. pose proof (sub_bounds (i + 1) ltac:(lia)) as [_ S3].
        assert (Hle : sub * i + sub = sub * (i + 1)) by ring.
        assert (Hbh : holds C (pin + idx i) body /\ base <= idx i /\ idx i + len body <= base + len out).
        { rewrite K4 in Hb. apply holds_app in Hb. destruct Hb as [_ Hb]. apply holds_app in Hb. destruct Hb as [Hb _].
          replace (pin + base + len t1) with (pin + idx i) in Hb by lia. split; [exact Hb|].
          rewrite K4, !len_app. pose proof (len_nonneg t1). pose proof (len_nonneg t2). lia. }
        destruct Hbh as (B1 & B2 & B3). pose proof base_bounds as HB. pose proof (len_nonneg body).
        assert (Hlo : len (slice In (sub * i) sub) = sub) by (apply len_slice; lia).
        destruct (le_decode_ok 255 c rle' stc' C (pin + idx i) body (slice In (sub * i) sub) N q) as (N' & D1 & D2 & D3); auto; try lia.
        rewrite Hlo in *. rewrite I2. replace (pin + idx (i + 1)) with (pin + idx i + len body) by lia. rewrite D1.
        split; [|lia]. split; [lia|]. split; [lia|]. split; [lia|]. rewrite <- Hle. split.
        * rewrite !slice_app by lia. f_equal; [|rewrite Z.add_0_l; rewrite <- I3; exact D2]. rewrite <- I4. apply slice_ext. intros k Hk. apply D3. lia.
        * intros x Hx. rewrite D3 by lia. apply I5. lia.
      + assert (Ei' : i = subs - 1) by lia. rewrite Ei' in *. exists N. rewrite I2, I3. auto.
    - cbn beta iota. rewrite H0, Z.mul_0_r. split; [lia|]. split; [lia|]. split; [lia|]. rewrite !slice_0 by lia. auto.
    - lia.
    - exists M'. auto.
  Qed.
End Rm.

Theorem rm_ok subs : 1 <= subs <= 2 ^ 28 -> OkI true (rm_cond subs) (rm_compress subs) rm_decs 0 (rm_space subs).
Proof.
  intros Hs In n cap out HIn Hn. unfold rm_compress. destruct (false || (n =? 0) || false || (cap <? rm_bounds subs n) || (subs =? 0)); [discriminate|].
  set (info := le_info 255 false In n). assert (HI : InfoOk info) by apply le_info_ok. destruct (cap <? 32 + 256 + 1); [discriminate|].
  destruct (syms_inverse info HI) as (stc & Hstc). set (sub := n / subs). set (head := write_info info). set (base := 12 + 4 * (subs - 1) + len head).
  destruct (loop (rm_step info In subs sub cap) (0, base, [], [])) as [[r [[index offs] secs]]|] eqn:E1; [|discriminate].
  pose proof (rm_loop_ok info stc In n subs HI Hstc HIn Hn Hs cap _ _ E1) as HR. destruct r as [r| |]; try discriminate. clear E1.
  pose proof (base_bounds info subs HI Hs) as HB. fold head base in HB.
  pose proof (sub_bounds n subs Hn Hs (subs - 1) ltac:(lia)) as [S1 S2]. pose proof (sub_bounds n subs Hn Hs subs ltac:(lia)) as [_ S3]. fold sub in S1, S2, S3.
  assert (S4 : sub * subs = sub * (subs - 1) + sub) by ring.
  assert (Esw : w32 (sub * (subs - 1)) = sub * (subs - 1)) by (apply (sub_w32 n subs Hn Hs (subs - 1)); lia). rewrite Esw. unfold max_in in Hn. rewrite (w32_id (n - sub * (subs - 1))) by lia. set (rest := n - sub * (subs - 1)).
  destruct (le_with_info 255 info (fun k => In (sub * (subs - 1) + k)) rest (w32 (cap - index))) as [[body|]|] eqn:E2; try discriminate.
  intros H.
  assert (HO : out = le32 (w32 (index + len body)) ++ le32 n ++ le32 subs ++ offs ++ head ++ secs ++ body)
    by (symmetry; exact (f_equal (fun r => match r with COk o => o | _ => [] end) H)). clear H.
  assert (Hrest : 1 <= rest) by (apply (section_pos info In rest _ _ _ ltac:(lia) E2)).
  assert (HS : Ser 255 (li_rle info) stc body (slice In (sub * (subs - 1)) rest)) by (eapply section_ser; [exact HI|exact Hstc|exact HIn|exact Hrest|lia|exact E2]).
  assert (Hlb : len body <= 2 * rest) by (pose proof (ser_len _ _ _ _ _ HS) as K; rewrite len_slice in K by lia; exact K).
  destruct HR as (R1 & R2 & R3 & R4 & R5 & R6 & idx & R7 & R8 & R9). fold head base sub in R3, R4, R7, R9.
  pose proof (len_nonneg body). pose proof (len_nonneg secs).
  rewrite w32_id in HO by lia.
  assert (Hlen : len out = index + len body) by (rewrite HO, !len_app, !len_le32; lia).
  split; [|split; [|split]].
  - rewrite HO. repeat (apply Forall_app; split; [first [apply Forall_le32|exact R5|exact R6|apply write_info_bytes; exact HI]|]). apply (proj1 (ser_bytes _ _ _ _ _ HS)).
  - unfold rm_space. lia.
  - rewrite Hlen, HO. eexists. reflexivity.
  - intros [Hsn HL] dec (c & ->) C pin inSize M pout outSize Hh Hp Hp64 Hin Hq Hq64 Hcap. cbn [InSize] in Hin.
    rewrite Hin in *. rewrite Hlen in *. rewrite HO in Hh. unfold rm_decompress.
    replace ((pin =? 0) || (pout =? 0) || (index + len body =? 0) || (outSize =? 0)) with false by lia.
    rewrite (rd32_holds C pin (index + len body) _) by (try exact Hh; lia).
    apply holds_app in Hh. destruct Hh as [_ Hh]. rewrite len_le32 in Hh.
    rewrite (rd32_holds C (pin + 4) n _) by (try exact Hh; lia).
    apply holds_app in Hh. destruct Hh as [_ Hh]. rewrite len_le32 in Hh. replace (pin + 4 + 4) with (pin + 8) in Hh by lia.
    rewrite (rd32_holds C (pin + 8) subs _) by (try exact Hh; lia).
    apply holds_app in Hh. destruct Hh as [_ Hh]. rewrite len_le32 in Hh. replace (pin + 8 + 4) with (pin + 12) in Hh by lia.
    replace ((outSize <? n) || (index + len body <? index + len body)) with false by lia. replace (subs =? 0) with false by lia.
    apply holds_app in Hh. destruct Hh as [Hoffs Hh]. rewrite R2 in Hh.
    destruct (read_write_info info C (pin + 12 + 4 * (subs - 1)) (secs ++ body) HI Hh) as (rle & stc' & E & Q1 & Q2). rewrite E. fold head.
    apply holds_app in Hh. destruct Hh as [_ Hh]. fold head in Hh. replace (pin + 12 + 4 * (subs - 1) + len head) with (pin + base) in * by (unfold base; lia).
    apply holds_app in Hh. destruct Hh as [Hsecs Hbody]. replace (pin + base + len secs) with (pin + index) in Hbody by lia.
    assert (Hser : forall s o, Ser 255 (li_rle info) stc s o -> Ser 255 rle stc' s o).
    { intros s o HS'. apply ser_ext with (3 := HS').
      - intros b Hb. symmetry. now apply Q1.
      - intros b Hb. destruct HI as (HP & _). assert (Hin' : List.In b (li_syms info)) by (eapply Permutation_in; [apply Permutation_sym, HP|now apply in_range256]).
        apply (In_nth _ _ 0) in Hin'. destruct Hin' as (k & Hk & Hkb). rewrite (Permutation_length HP), length_range256 in Hk.
        specialize (Q2 (Z.of_nat k) ltac:(lia)). specialize (Hstc (Z.of_nat k) ltac:(lia)). unfold tab in Q2, Hstc. rewrite Nat2Z.id, Hkb in Q2, Hstc. congruence. }
    assert (Hex : exists b, is_byte b /\ rle b = false).
    { destruct (le_cond_rle 255 false In n ltac:(auto) HIn ltac:(unfold max_in; lia) HL) as (b & Hb & Hr). exists b. split; [exact Hb|]. now rewrite Q1. }
    destruct (rmd_loop info stc In n subs HI ltac:(unfold max_in; lia) Hs c rle stc' C pin M pout idx offs secs Hex Hser R7 R9 Hoffs Hsecs Hp ltac:(fold head base; lia) Hq ltac:(lia))
      as (M1 & L1 & L2 & L3). fold head base sub in L1, L2, L3.
    change (n / subs) with sub. rewrite L1, R8. rewrite Esw. rewrite (w32_id (n - sub * (subs - 1))) by lia. fold rest.
    assert (Hlo : len (slice In (sub * (subs - 1)) rest) = rest) by (apply len_slice; lia).
    destruct (le_decode_ok 255 c rle stc' C (pin + index) body (slice In (sub * (subs - 1)) rest) M1 (pout + sub * (subs - 1))) as (M2 & D1 & D2 & D3); auto; try lia.
    rewrite Hlo in *. replace (pin + index + len body) with (pin + (index + len body)) in D1 by lia. rewrite D1.
    exists M2. split; [reflexivity|]. assert (Hn' : n = sub * (subs - 1) + rest) by (unfold rest; lia). split.
    + rewrite Hn' at 1 2. rewrite !slice_app by lia. f_equal; [|exact D2]. rewrite <- L2. apply slice_ext. intros k Hk. apply D3. lia.
    + intros x Hx. rewrite D3 by lia. apply L3. lia.
Qed.

Lemma rm_bounds_eq subs n : 1 <= subs <= 2 ^ 28 -> 0 <= n <= max_in -> rm_bounds subs n = n + 4 * subs + 297.
Proof. unfold max_in, rm_bounds. intros H H0. rewrite (w32_id (n + 32 + 1 + 256)), (w32_id (2 + subs - 1 + 1)) by lia. rewrite w32_id by lia. lia. Qed.

Theorem rm_total subs : 1 <= subs <= 2 ^ 28 -> TotalI (rm_compress subs) (rm_cond subs) (fun n => rm_space subs n + 1).
Proof.
  intros Hs In n cap HIn Hn [Hsn HL] Hcap. unfold rm_compress. rewrite rm_bounds_eq by lia. unfold rm_space in Hcap.
  replace (false || (n =? 0) || false || (cap <? n + 4 * subs + 297) || (subs =? 0)) with false by lia.
  set (info := le_info 255 false In n). assert (HI : InfoOk info) by apply le_info_ok. replace (cap <? 32 + 256 + 1) with false by lia.
  destruct (syms_inverse info HI) as (stc & Hstc).
  destruct (rm_loop_total info stc In n subs HI Hstc HIn Hn Hs cap Hsn ltac:(unfold rm_space; lia)) as (index & offs & out & E & HR). rewrite E.
  pose proof (base_bounds info subs HI Hs) as HB.
  pose proof (sub_bounds n subs Hn Hs (subs - 1) ltac:(lia)) as [S1 S2]. pose proof (sub_bounds n subs Hn Hs subs ltac:(lia)) as [_ S3].
  set (sub := n / subs) in *. assert (S4 : sub * subs = sub * (subs - 1) + sub) by ring.
  assert (Hsub : 1 <= sub) by (apply Z.div_le_lower_bound; lia).
  assert (Esw : w32 (sub * (subs - 1)) = sub * (subs - 1)) by (apply (sub_w32 n subs Hn Hs (subs - 1)); lia). rewrite Esw.
  unfold max_in in Hn. rewrite (w32_id (n - sub * (subs - 1))) by lia.
  destruct HR as (R1 & R2 & R3 & R4 & _). fold sub in R4. pose proof (len_nonneg out).
  destruct (le_with_info_ok 255 info stc (fun k => In (sub * (subs - 1) + k)) (n - sub * (subs - 1)) (w32 (cap - index)) ltac:(auto) HI Hstc ltac:(intros; apply HIn) ltac:(lia)) as (body & E1 & _).
  { rewrite w32_id by lia. lia. }
  rewrite E1. eexists. reflexivity.
Qed.

Theorem rm_guarded subs : GuardedI (rm_compress subs) (rm_bounds subs).
Proof.
  intros inNull outNull In n cap H. unfold rm_compress.
  replace (inNull || (n =? 0) || outNull || (cap <? rm_bounds subs n) || (subs =? 0)) with true; [reflexivity|].
  symmetry. destruct inNull; [reflexivity|]. destruct outNull; [rewrite orb_true_r; reflexivity|]. cbn [orb]. rewrite orb_false_r. lia.
Qed.

(** No sections, or more sections than bytes: refused. *)
Theorem rm_sections subs In n cap : 0 <= n -> subs = 0 \/ n < subs -> rm_compress subs false false In n cap = CRefused.
Proof.
  intros Hn H. unfold rm_compress. cbn [orb]. destruct (n =? 0) eqn:E0; [reflexivity|]. cbn [orb]. destruct (cap <? rm_bounds subs n); [reflexivity|]. cbn [orb].
  destruct (subs =? 0) eqn:E1; [reflexivity|]. destruct (cap <? 32 + 256 + 1); [reflexivity|]. replace (n / subs) with 0 by (symmetry; apply Z.div_small; lia).
  set (f := rm_step _ _ _ _ _). set (s0 := (0, _, [], [])). assert (E : loop f s0 = Some (CRefused, (12 + 4 * (subs - 1) + len (write_info (le_info 255 false In n)), [], []))).
  { destruct (loop_inv f (fun s => s = s0) (fun _ => 0) (fun r => r = (CRefused, (12 + 4 * (subs - 1) + len (write_info (le_info 255 false In n)), [], []))) s0) as (r & E & ->).
    - intros s ->. unfold f, s0, rm_step. replace (0 <? subs - 1) with true by lia. unfold le_with_info. cbn [Z.eqb orb]. reflexivity.
    - reflexivity.
    - lia.
    - exact E. }
  rewrite E. reflexivity.
Qed.

Theorem rm_dec_args c : DecompressArgsI (rm_decompress c).
Proof.
  intros C pin inSize M pout outSize H. unfold rm_decompress.
  destruct ((pin =? 0) || (pout =? 0) || (inSize =? 0) || (outSize =? 0)) eqn:E; [reflexivity|].
  replace ((outSize <? rd32 C (pin + 4)) || (inSize <? rd32 C pin)) with true; [reflexivity|]. lia.
Qed.

Theorem rm_input_only subs : 0 <= subs -> InputOnly (rm_compress subs false false).
Proof.
  intros Hs In1 In2 n cap Hn Heq. unfold rm_compress. cbn [orb]. destruct (n =? 0) eqn:E0; [reflexivity|]. cbn [orb]. destruct (cap <? rm_bounds subs n); [reflexivity|]. cbn [orb].
  destruct (subs =? 0) eqn:E1; [reflexivity|]. rewrite (le_info_ext 255 false In1 In2 n) by (try exact Heq; lia). set (info := le_info 255 false In2 n).
  destruct (cap <? 32 + 256 + 1); [reflexivity|]. set (sub := n / subs). set (s0 := (0, _, [], [])).
  assert (Hsub : 0 <= sub) by (apply Z.div_pos; lia). assert (Hle : sub * subs <= n) by (rewrite Z.mul_comm; apply Z.mul_div_le; lia).
  assert (Hw : forall x, 0 <= x -> 0 <= w32 x <= x) by (intros x Hx; unfold w32; pose proof (Z.mod_pos_bound x (2 ^ 32)); pose proof (Z.mod_le x (2 ^ 32)); lia).
  assert (K : forall a m o, 0 <= a -> a + m <= n -> le_with_info 255 info (fun k => In1 (a + k)) m o = le_with_info 255 info (fun k => In2 (a + k)) m o).
  { intros a m o Ha Hm. unfold le_with_info. destruct ((m =? 0) || (o <? m)); [reflexivity|]. f_equal. apply le_step_ext; [auto|]. intros k Hk. apply Heq. lia. }
  assert (El : loop (rm_step info In1 subs sub cap) s0 = loop (rm_step info In2 subs sub cap) s0).
  { unfold loop. destruct (iter_ext_inv (rm_step info In1 subs sub cap) (rm_step info In2 subs sub cap) (fun s => 0 <= fst (fst (fst s)))) with (d := 64%nat) (s := s0) as [E _].
    - intros [[[i index] offs] out] Hi. cbn [fst] in Hi. unfold rm_step. destruct (i <? subs - 1) eqn:Ei; [|reflexivity]. rewrite K; [reflexivity|apply Hw; nia|].
      pose proof (Hw (sub * i) ltac:(nia)). nia.
    - intros [[[i index] offs] out] s' Hi Hst. cbn [fst] in Hi. unfold rm_step in Hst. destruct (i <? subs - 1); [|discriminate].
      destruct (le_with_info _ _ _ _ _) as [[body|]|]; [|discriminate|discriminate]. injection Hst as <-. cbn [fst]. lia.
    - cbn. lia.
    - rewrite E. reflexivity. }
  rewrite El. destruct (loop (rm_step info In2 subs sub cap) s0) as [[[] [[index offs] out]]|]; try reflexivity.
  rewrite K; [reflexivity|apply Hw; nia|]. pose proof (Hw (sub * (subs - 1)) ltac:(nia)).
  destruct (Z_lt_ge_dec (sub * (subs - 1)) (2 ^ 32)) as [H1|H1]; [rewrite (w32_id (sub * (subs - 1))) by nia; pose proof (Hw (n - sub * (subs - 1)) ltac:(nia)); lia|].
  assert (En : w32 (n - w32 (sub * (subs - 1))) <= n - w32 (sub * (subs - 1))) by (apply Hw; nia). lia.
Qed.

(** *** Collected *)
Section Collect.
  Variable subs : Z.
  Hypothesis Hs : 1 <= subs <= 2 ^ 28.
  Lemma rm_round_trip : RoundTripI true (rm_cond subs) (rm_compress subs false false) (fun n => rm_space subs n + 1) rm_decs 0.
  Proof. refine (codecI_round_trip _ _ _ _ _ _ (rm_ok subs Hs) _ _ (rm_total subs Hs) _). intros n Hn. lia. Qed.
  Lemma rm_within : WithinBound (rm_compress subs false false) (rm_space subs).
  Proof. exact (codecI_within _ _ _ _ _ _ (rm_ok subs Hs)). Qed.
  Lemma rm_header : HeaderSizesI (rm_compress subs false false).
  Proof. exact (codecI_header _ _ _ _ _ _ (rm_ok subs Hs)). Qed.
  Lemma rm_agree : DecodersAgreeI true (rm_cond subs) (rm_compress subs false false) rm_decs.
  Proof. exact (codecI_agree _ _ _ _ _ _ (rm_ok subs Hs)). Qed.
End Collect.
Lemma rm_truncated subs c : 1 <= subs <= 2 ^ 28 -> RejectsTruncated (rm_compress subs false false) (rm_decompress c).
Proof. intros Hs. refine (codecI_truncated _ _ _ _ _ _ (rm_ok subs Hs) _ _ (rm_dec_args c)). intros n Hn. unfold rm_space, max_in in *. lia. Qed.
Lemma rm_inside subs c : 1 <= subs <= 2 ^ 28 -> StaysInsideI true (rm_cond subs) (rm_compress subs false false) (rm_decompress c) 0.
Proof. intros Hs. refine (codecI_inside _ _ _ _ _ _ (rm_ok subs Hs) _ _). now exists c. Qed.
Lemma rm_args subs inNull outNull In n cap :
  0 <= n -> inNull = true \/ outNull = true \/ n = 0 \/ cap < rm_bounds subs n \/ subs = 0 \/ n < subs ->
  rm_compress subs inNull outNull In n cap = CRefused.
Proof.
  intros Hn H. destruct inNull; [apply rm_guarded; tauto|]. destruct outNull; [apply rm_guarded; tauto|].
  destruct H as [H|[H|[H|[H|H]]]]; try discriminate; [apply rm_guarded; tauto|apply rm_guarded; tauto|now apply rm_sections].
Qed.
