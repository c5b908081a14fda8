(** The low entropy encoder emits well formed packets; which values it run length codes. *)
From Coq Require Import Permutation.
From Verif Require Import Base Spec LargeSpec Simd SimdProof Spec ExtModel ExtEnc PktModel Rle8Model LeModel LeTable LeDec.

Lemma syms_byte info k : InfoOk info -> 0 <= k < 256 -> is_byte (tab 0 (li_syms info) k).
Proof.
  intros (HP & _) Hk. unfold tab. apply in_range256. eapply Permutation_in; [exact HP|]. apply nth_In.
  rewrite (Permutation_length HP), length_range256. lia.
Qed.

(** rle8_low_entropy(_short)_compress_with_info. *)
Lemma le_with_info_ok L info stc In n outSize : (L = 255 \/ L = 32) -> InfoOk info ->
  (forall k, 0 <= k < 256 -> stc (tab 0 (li_syms info) k) = k) ->
  (forall k, is_byte (In k)) -> 1 <= n < 2 ^ 32 -> n <= outSize ->
  exists body, le_with_info L info In n outSize = Some (Some body) /\ Ser L (li_rle info) stc body (slice In 0 n).
Proof.
  intros HL HI Hstc HIn Hn Ho. unfold le_with_info. replace ((n =? 0) || (outSize <? n)) with false by lia.
  destruct (loop_inv (le_step L info In n) (fun '(i, out) => 0 <= i <= n /\ Ser L (li_rle info) stc out (slice In 0 i))
     (fun '(i, out) => Z.max 0 (n - i)) (fun out => Ser L (li_rle info) stc out (slice In 0 n)) (0, [])) as (body & E & HS).
  - intros [i out] [Hi HS]. unfold le_step. destruct (i <? n) eqn:Ei.
    + destruct (li_rle info (In i)) eqn:Er.
      * set (range := if i <? n - 256 then L else w8 (Z.min (n - i - 1) L)).
        assert (Hr : 0 <= range <= L /\ (range <= n - i - 1 \/ range <= 0)).
        { unfold range. destruct (i <? n - 256) eqn:Et; [lia|]. unfold w8. rewrite Z.mod_small by lia. lia. }
        set (f := fun j => In (1 + j + i) =? In i).
        assert (Hc : 0 <= lead f (range - 1) /\ lead f (range - 1) <= Z.max 0 (range - 1) /\ (forall k, 0 <= k < lead f (range - 1) -> In (1 + k + i) = In i)).
        { destruct (Z_le_gt_dec 0 (range - 1)) as [H1|H1].
          - destruct (lead_spec f (range - 1) H1) as (L1 & L2 & _). split; [lia|]. split; [lia|]. intros k Hk. specialize (L2 k Hk). unfold f in L2. lia.
          - unfold lead. replace (Z.to_nat (range - 1)) with O by lia. cbn [lead_nat]. split; [lia|]. split; [lia|]. intros; lia. }
        set (c := lead f (range - 1)) in *. destruct Hc as (C1 & C2 & C3).
        split; [|lia]. split; [lia|].
        replace (i + c + 1) with (i + (c + 1)) by lia. rewrite slice_app by lia. apply ser_app; [exact HS|].
        replace (slice In (0 + i) (c + 1)) with (In i :: repeat (In i) (Z.to_nat (stc (tab 0 (li_syms info) c))) ++ []).
        { constructor; [apply HIn|apply syms_byte; [exact HI|lia]|exact Er|rewrite Hstc by lia; lia|constructor]. }
        rewrite app_nil_r, Hstc by lia. change (In i :: repeat (In i) (Z.to_nat c)) with (repeat (In i) (S (Z.to_nat c))).
        rewrite (slice_const _ _ (In i)); [f_equal; lia|lia|]. intros x Hx. destruct (Z.eq_dec x i) as [->|Hne]; [reflexivity|].
        rewrite <- (C3 (x - i - 1)) by lia. f_equal. lia.
      * split; [|lia]. split; [lia|]. rewrite slice_snoc by lia. apply ser_app; [exact HS|].
        constructor; [apply HIn|exact Er|constructor].
    + replace n with i by lia. exact HS.
  - split; [lia|]. rewrite slice_0 by lia. constructor.
  - lia.
  - exists body. rewrite E. auto.
Qed.

(** The encoder looks at nothing but its input. *)
Lemma le_step_ext L info In1 In2 n : (L = 255 \/ L = 32) -> (forall k, 0 <= k < n -> In1 k = In2 k) ->
  loop (le_step L info In1 n) (0, []) = loop (le_step L info In2 n) (0, []).
Proof.
  intros HL Heq. unfold loop.
  destruct (iter_ext_inv (le_step L info In1 n) (le_step L info In2 n) (fun s => 0 <= fst s)) with (d := 64%nat) (s := (0, @nil Z)) as [E _].
  - intros [i out] Hi. cbn [fst] in Hi. unfold le_step. destruct (i <? n) eqn:Ei; [|reflexivity]. rewrite <- (Heq i) by lia.
    destruct (li_rle info (In1 i)); [|reflexivity].
    set (range := if i <? n - 256 then L else w8 (Z.min (n - i - 1) L)).
    assert (Hr : range <= n - i - 1 \/ range <= 0).
    { unfold range. destruct (i <? n - 256) eqn:Et; [lia|]. unfold w8. rewrite Z.mod_small by lia. lia. }
    assert (G : forall k j, (j + Z.of_nat k <= range - 1) -> 0 <= j ->
              lead_nat (fun j => In1 (1 + j + i) =? In1 i) k j = lead_nat (fun j => In2 (1 + j + i) =? In1 i) k j).
    { induction k as [|k IH]; intros j Hj H0; cbn [lead_nat]; [reflexivity|]. rewrite (Heq (1 + j + i)) by lia. rewrite IH by lia. reflexivity. }
    unfold lead. destruct (Z_le_gt_dec 0 (range - 1)) as [H1|H1].
    + rewrite G by lia. reflexivity.
    + replace (Z.to_nat (range - 1)) with O by lia. reflexivity.
  - intros [i out] [i' out'] Hi. cbn [fst] in *. unfold le_step. destruct (i <? n) eqn:Ei; [|discriminate].
    destruct (li_rle info (In1 i)).
    + set (c := lead _ _). assert (0 <= c). { unfold c, lead. destruct (lead_nat_spec (fun j => In1 (1 + j + i) =? In1 i) (Z.to_nat ((if i <? n - 256 then L else w8 (Z.min (n - i - 1) L)) - 1)) 0). lia. }
      intros H'. injection H' as <- _. lia.
    + intros H'. injection H' as <- _. lia.
  - cbn [fst]. lia.
  - rewrite E. reflexivity.
Qed.

(** *** Which values are run length coded *)

(** No two adjacent bytes are both [b]. *)
Definition lonely (In : mem) (n b : Z) : Prop := forall k, 0 <= k < n - 1 -> ~ (In k = b /\ In (k + 1) = b).

Definition hist0 (In : mem) : Z * Z * (Z -> Z) * (Z -> Z) :=
  (0, 0, fun _ => 0, if In 0 =? 0 then fun _ => 0 else upd (fun _ => 0) 0 (2 ^ 32 - 1)).
Definition histI (L : Z) (In : mem) (i : Z) := fold_left (hist_step L) (slice In 0 i) (hist0 In).

Lemma histI_snoc L In i : 0 <= i -> histI L In (i + 1) = hist_step L (histI L In i) (In i).
Proof. intros H. unfold histI. rewrite slice_snoc, fold_left_app by lia. reflexivity. Qed.

Lemma hist_eq L In n : hist L In n =
  let '(last, count, prob, pcount) := histI L In n in
  (upd prob last (w32 (prob last + count)), upd pcount last (w32 (pcount last + 1))).
Proof. reflexivity. Qed.

Lemma w32_id x : 0 <= x < 2 ^ 32 -> w32 x = x.
Proof. apply Z.mod_small. Qed.

(** The first byte initialises the statistics. *)
Lemma hist_first L In : 2 <= L ->
  exists prob pcount, histI L In 1 = (In 0, 1, prob, pcount) /\ (forall x, prob x = 0) /\ (forall x, pcount x = 0).
Proof.
  intros HL. change (histI L In 1) with (histI L In (0 + 1)). rewrite histI_snoc by lia. unfold histI. rewrite slice_0 by lia. cbn [fold_left].
  unfold hist0, hist_step. destruct (In 0 =? 0) eqn:E.
  - exists (fun _ => 0), (fun _ => 0). split; [|split; reflexivity]. replace (In 0) with 0 by lia. reflexivity.
  - eexists _, _. split; [reflexivity|]. split; intros x; unfold upd.
    + destruct (x =? 0); reflexivity.
    + destruct (x =? 0) eqn:Ex; [|reflexivity]. cbn [Z.eqb]. replace (0 / L + 1) with 1 by (rewrite Z.div_0_l by lia; lia). reflexivity.
Qed.

Lemma hist_lonely L In b : 2 <= L -> forall n, 1 <= n < 2 ^ 32 - 1 -> lonely In n b ->
  let '(last, count, prob, pcount) := histI L In n in
  last = In (n - 1) /\ 1 <= count <= n /\ (last = b -> count = 1) /\ 0 <= prob b <= pcount b /\ pcount b + (if last =? b then 1 else 0) <= n.
Proof.
  intros HL n Hn. assert (Hn1 : 1 <= n) by lia. revert Hn. pattern n. apply Zlt_lower_bound_ind with (z := 1); [|exact Hn1]. clear n Hn1.
  intros n IH H1 Hn Hlon. destruct (Z.eq_dec n 1) as [->|Hne].
  - destruct (hist_first L In HL) as (prob & pcount & -> & P1 & P2). rewrite P1, P2. destruct (In 0 =? b); change (1 - 1) with 0; lia.
  - specialize (IH (n - 1) ltac:(lia) ltac:(lia)). assert (Hl' : lonely In (n - 1) b) by (intros k Hk; apply Hlon; lia). specialize (IH Hl').
    assert (Hs : histI L In n = hist_step L (histI L In (n - 1)) (In (n - 1))) by (rewrite <- histI_snoc by lia; f_equal; lia).
    rewrite Hs. clear Hs.
    destruct (histI L In (n - 1)) as [[[last count] prob] pcount]. destruct IH as (I1 & I2 & I3 & I4 & I5).
    unfold hist_step. replace (n - 1 - 1) with (n - 2) in I1 by lia.
    specialize (Hlon (n - 2) ltac:(lia)). replace (n - 2 + 1) with (n - 1) in Hlon by lia. rewrite <- I1 in Hlon.
    destruct (In (n - 1) =? last) eqn:El.
    + rewrite w32_id by lia. split; [lia|]. split; [lia|]. split; [intros; exfalso; apply Hlon; lia|]. split; [exact I4|lia].
    + split; [reflexivity|]. split; [lia|]. split; [reflexivity|]. unfold upd. destruct (b =? last) eqn:Eb.
      * assert (Elb : last = b) by lia. rewrite Elb in *. rewrite (I3 eq_refl) in *. rewrite Z.div_small by lia. rewrite Z.eqb_refl in I5.
        rewrite !w32_id by lia. replace (In (n - 1) =? b) with false by lia. lia.
      * replace (last =? b) with false in I5 by lia. split; [exact I4|]. destruct (In (n - 1) =? b); lia.
Qed.

Lemma lonely_not_rle_large L In n b : 2 <= L -> 1 <= n <= large_in -> is_byte b -> lonely In n b -> li_rle (le_info L false In n) b = false.
Proof.
  intros HL Hn Hb Hlon. unfold large_in in Hn. unfold le_info. rewrite hist_eq.
  pose proof (hist_lonely L In b HL n ltac:(lia) Hlon) as H. destruct (histI L In n) as [[[last count] prob] pcount].
  destruct (le_table _) as [syms cnt]. cbn [li_rle]. rewrite tab_range by exact Hb.
  set (pr := upd prob last _). set (pc := upd pcount last _). rewrite !tab_range by exact Hb.
  assert (K : 0 <= pr b <= pc b).
  { unfold pr, pc, upd. destruct H as (H1 & H2 & H3 & H4 & H5). destruct (b =? last) eqn:E; [|exact H4].
    replace (last =? b) with true in H5 by lia. assert (Elb : last = b) by lia. rewrite Elb in *. rewrite (H3 eq_refl). rewrite !w32_id; lia. }
  destruct (0 <? pc b) eqn:E0; [|reflexivity]. cbn [andb]. assert (pr b / pc b < 2); [|lia].
  apply Z.div_lt_upper_bound; lia.
Qed.
Lemma lonely_not_rle L In n b : 2 <= L -> 1 <= n <= max_in -> is_byte b -> lonely In n b -> li_rle (le_info L false In n) b = false.
Proof. intros HL Hn. apply lonely_not_rle_large; [exact HL|now apply max_large1]. Qed.

Lemma max_not_rle L In n : exists b, is_byte b /\ li_rle (le_info L true In n) b = false.
Proof.
  unfold le_info. destruct (hist L In n) as [prob pcount]. destruct (le_table _) as [syms cnt]. cbn [li_rle].
  destruct (approx_best _ _) as [best idx]. destruct (Z.eq_dec idx 0) as [->|H].
  - exists 1. split; [unfold is_byte; lia|]. rewrite tab_range by (unfold is_byte; lia). replace (1 =? 0) with false by lia. apply andb_false_r.
  - exists 0. split; [unfold is_byte; lia|]. rewrite tab_range by (unfold is_byte; lia). replace (0 =? idx) with false by lia. apply andb_false_r.
Qed.

Lemma le_info_ext L max In1 In2 n : 1 <= n -> (forall k, 0 <= k < n -> In1 k = In2 k) -> le_info L max In1 n = le_info L max In2 n.
Proof.
  intros Hn Heq. unfold le_info, hist. rewrite (Heq 0) by lia. rewrite (slice_ext In1 In2 0 n) by (intros k Hk; apply Heq; lia). reflexivity.
Qed.
