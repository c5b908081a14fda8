(** Which values the low entropy codecs run length code, and the order of their table. *)
From Coq Require Import Permutation.
From Verif Require Import Base Simd SimdProof Spec Spec2 ExtModel ExtEnc PktModel Rle8Model LeModel LeSpec LeTable LeDec LeEnc LeSize LeWorth LeThm DomSpec.

(** ** Selection of the value that saves most *)

Lemma best_spec P PC : (forall u, 0 <= P u < 2 ^ 32) -> (forall u, 0 <= PC u < 2 ^ 32) ->
  let ok u := 0 < PC u /\ 3 * PC u <= P u in let sv u := P u - 2 * PC u in
  let '(best, idx) := approx_best P PC in
  (best = 0 /\ forall u, is_byte u -> ~ ok u) \/
  (is_byte idx /\ ok idx /\ best = sv idx /\ forall u, is_byte u -> ok u -> sv u <= best /\ (u < idx -> sv u < best)).
Proof.
  intros HP HC. cbv zeta. unfold approx_best. set (F := fun '(best, idx) k => _).
  assert (HF : forall best idx k, let u := Z.of_nat k in
    ((0 < PC u /\ 3 * PC u <= P u) /\ F (best, idx) k = if best <? P u - 2 * PC u then (P u - 2 * PC u, u) else (best, idx)) \/
    (~ (0 < PC u /\ 3 * PC u <= P u) /\ F (best, idx) k = (best, idx))).
  { intros best idx k. cbv zeta. unfold F. cbv zeta. set (s := Z.of_nat k). specialize (HP s). specialize (HC s).
    destruct (Z.ltb_spec 0 (PC s)) as [A|A]; [|right; split; [lia|reflexivity]]. cbn [andb].
    pose proof (Z.mul_div_le (P s) (PC s) ltac:(lia)) as D. destruct (Z.ltb_spec 2 (P s / PC s)) as [B|B].
    - left. assert (3 * PC s <= P s) by nia. split; [lia|].
      assert (E : w32 (P s - w32 (PC s * 2)) = P s - 2 * PC s). { unfold w32. rewrite (Z.mod_small (PC s * 2)) by lia. rewrite Z.mod_small; lia. }
      rewrite E. reflexivity.
    - right. split; [|reflexivity]. intros [_ K]. assert (3 <= P s / PC s) by (apply Z.div_le_lower_bound; lia). lia. }
  assert (K : forall m, let '(best, idx) := fold_left F (seq 0 m) (0, 0) in
    (best = 0 /\ forall u, 0 <= u < Z.of_nat m -> ~ (0 < PC u /\ 3 * PC u <= P u)) \/
    (0 <= idx < Z.of_nat m /\ (0 < PC idx /\ 3 * PC idx <= P idx) /\ best = P idx - 2 * PC idx /\
     forall u, 0 <= u < Z.of_nat m -> (0 < PC u /\ 3 * PC u <= P u) -> P u - 2 * PC u <= best /\ (u < idx -> P u - 2 * PC u < best))).
  { induction m as [|m IH]; [cbn; left; split; [reflexivity|lia]|]. rewrite seq_S, fold_left_app. cbn [fold_left Nat.add].
    destruct (fold_left F (seq 0 m) (0, 0)) as [best idx]. destruct (HF best idx m) as [[HK ->]|[HK ->]].
    - destruct (Z.ltb_spec best (P (Z.of_nat m) - 2 * PC (Z.of_nat m))) as [B|B].
      + right. split; [lia|]. split; [exact HK|]. split; [reflexivity|]. intros u Hu Ku.
        destruct (Z.eq_dec u (Z.of_nat m)) as [->|D]; [lia|]. destruct IH as [[E IH]|(I1 & I2 & I3 & I4)]; [exfalso; apply (IH u); [lia|exact Ku]|].
        destruct (I4 u ltac:(lia) Ku). lia.
      + destruct IH as [[E IH]|(I1 & I2 & I3 & I4)]; [lia|]. right. split; [lia|]. split; [exact I2|]. split; [exact I3|]. intros u Hu Ku.
        destruct (Z.eq_dec u (Z.of_nat m)) as [->|D]; [lia|]. apply I4; [lia|exact Ku].
    - destruct IH as [[E IH]|(I1 & I2 & I3 & I4)].
      + left. split; [exact E|]. intros u Hu. destruct (Z.eq_dec u (Z.of_nat m)) as [->|D]; [exact HK|]. apply IH. lia.
      + right. split; [lia|]. split; [exact I2|]. split; [exact I3|]. intros u Hu Ku. destruct (Z.eq_dec u (Z.of_nat m)) as [->|D]; [contradiction|]. apply I4; [lia|exact Ku]. }
  specialize (K 256%nat). destruct (fold_left F (seq 0 256) (0, 0)) as [best idx]. unfold is_byte. exact K.
Qed.

(** ** The statistics *)

Lemma le_stats L In n b : 2 <= L -> byte_mem In -> 1 <= n <= max_in -> is_byte b ->
  fst (hist L In n) b = occ In n b /\ snd (hist L In n) b = pieces L In n b.
Proof.
  intros HL HIn Hn Hb. unfold max_in in Hn. rewrite hist_eq.
  pose proof (gI_hist L In HL HIn n ltac:(lia)) as HG. pose proof (gI_bounds L In n HL HIn ltac:(lia)) as HB. pose proof (gI_inv L In HL HIn n ltac:(lia)) as HV.
  pose proof (gI_spec L In HL HIn (Z.to_nat n) b Hb) as HS. rewrite Z2Nat.id in HS by lia.
  destruct (gI L In n) as [[[last count] prob] pcount]. destruct (histI L In n) as [[[last' count'] prob'] pcount'].
  destruct HG as (-> & -> & HG). destruct (HG b Hb) as [G1 G2]. destruct HB as [B1 B2]. destruct (B2 b Hb) as [B3 B4]. destruct HV as (_ & V2 & V3 & _). specialize (V3 b Hb).
  destruct (V2 ltac:(lia)) as [_ V4]. clear V2. destruct HS as (S1 & S2 & S3 & S4). cbn [fst snd]. split.
  - rewrite S3. unfold upd. destruct (b =? last) eqn:E; [|lia]. assert (E' : b = last) by lia. rewrite <- E', G1. apply w32_id. lia.
  - unfold pieces. rewrite S1, S2. unfold upd. destruct (b =? last) eqn:E; [|rewrite Z.ltb_irrefl; lia]. assert (E' : b = last) by lia. rewrite <- E', G2.
    replace (0 <? count) with true by lia. apply w32_id. lia.
Qed.

Lemma max_iff_best L In n b : 2 <= L -> byte_mem In -> 1 <= n <= max_in -> is_byte b ->
  li_rle (le_info L true In n) b = true <-> Best L In n b.
Proof.
  intros HL HIn Hn Hb. unfold le_info. pose proof (le_stats L In n) as HS. destruct (hist_u32 L In n) as [U1 U2].
  assert (H1 : forall u, is_byte u -> 0 < occ In n u -> 0 < pieces L In n u) by (intros u Hu; apply pieces_pos; try assumption; lia).
  assert (H0 : forall u, is_byte u -> 0 <= occ In n u) by (intros u Hu; unfold occ; apply len_nonneg).
  destruct (hist L In n) as [prob pcount]. cbn [fst snd] in *. destruct (le_table _) as [syms cnt]. cbn [li_rle].
  rewrite tab_range by exact Hb. set (P := tab 0 (map prob range256)). set (PC := tab 0 (map pcount range256)).
  assert (HT : forall f u, u32 f -> 0 <= tab 0 (map f range256) u < 2 ^ 32).
  { intros f u Hf. unfold tab. destruct (nth_in_or_default (Z.to_nat u) (map f range256) 0) as [K|K]; [|lia]. apply in_map_iff in K. destruct K as (y & <- & _). apply Hf. }
  pose proof (best_spec P PC (fun u => HT _ u U1) (fun u => HT _ u U2)) as HB. cbv zeta in HB.
  assert (EP : forall u, is_byte u -> P u = occ In n u /\ PC u = pieces L In n u).
  { intros u Hu. unfold P, PC. rewrite !tab_range by exact Hu. apply HS; assumption. }
  assert (EO : forall u, is_byte u -> ((0 < PC u /\ 3 * PC u <= P u) <-> PaysOff L In n u)).
  { intros u Hu. destruct (EP u Hu) as [-> ->]. unfold PaysOff. specialize (H1 u Hu). specialize (H0 u Hu). split; intros K; [|destruct K; split; [apply H1|]]; lia. }
  destruct (approx_best P PC) as [best idx]. destruct HB as [[-> HB]|(B1 & B2 & B3 & B4)].
  - cbn. split; [discriminate|]. intros [K _]. exfalso. apply (HB b Hb). apply EO; assumption.
  - pose proof (proj1 (EO idx B1) B2) as B2'. destruct (EP idx B1) as [E1 E2]. assert (0 < best) by lia. replace (0 <? best) with true by lia. cbn [andb]. split.
    + intros K. assert (b = idx) by lia. subst idx. split; [exact B2'|]. intros u Hu Ku. specialize (B4 u Hu (proj2 (EO u Hu) Ku)). destruct (EP u Hu) as [E3 E4]. unfold saved. lia.
    + intros [K1 K2]. destruct (K2 idx B1 B2') as [K3 K4]. destruct (B4 b Hb (proj2 (EO b Hb) K1)) as [K5 K6]. destruct (EP b Hb) as [E3 E4]. unfold saved in *.
      destruct (Z.lt_trichotomy b idx) as [D|[D|D]]; lia.
Qed.

(** ** The stream *)

Lemma length_le32 x : length (le32 x) = 4%nat. Proof. reflexivity. Qed.
Lemma nth_first (l : list Z) k i d : (i < k)%nat -> nth i (firstn k l) d = nth i l d.
Proof. revert k i. induction l as [|x l IH]; intros [|k] [|i] H; try lia; cbn; try reflexivity. apply IH. lia. Qed.

Lemma out_shape L max In n cap out : le_compress L max false false In n cap = COk out ->
  exists a1 a2 body, out = le32 a1 ++ le32 a2 ++ write_info (le_info L max In n) ++ body.
Proof.
  unfold le_compress. destruct (false || (n =? 0) || false || (cap <? le_bounds n)); [discriminate|]. cbv zeta. generalize (le_info L max In n). intros info.
  destruct (cap <? 32 + 256 + 1); [discriminate|]. destruct (le_with_info _ _ _ _ _) as [[body|]|]; [|discriminate|discriminate].
  destruct (w32 (len body) =? 0); [discriminate|]. intros E. exists (8 + len (write_info info) + len body), n, body. congruence.
Qed.

Lemma coded_iff L max In n cap out b : le_compress L max false false In n cap = COk out -> is_byte b -> (Coded out b <-> li_rle (le_info L max In n) b = true).
Proof.
  intros HC Hb. destruct (out_shape _ _ _ _ _ _ HC) as (a1 & a2 & body & ->). clear HC. generalize (le_info L max In n). intros info. unfold Coded. unfold is_byte in Hb.
  assert (Hd : 0 <= b / 8 < 32) by (split; [apply Z.div_pos; lia|apply Z.div_lt_upper_bound; lia]). pose proof (Z.mod_pos_bound b 8 ltac:(lia)) as Hm.
  pose proof (Z.div_mod b 8 ltac:(lia)) as Hdm.
  assert (E : nth (Z.to_nat (8 + b / 8)) (le32 a1 ++ le32 a2 ++ write_info info ++ body) 0 = flag_byte (li_rle info) (b / 8)).
  { replace (Z.to_nat (8 + b / 8)) with (8 + Z.to_nat (b / 8))%nat by lia. rewrite app_assoc. rewrite app_nth2 by (rewrite app_length, !length_le32; lia).
    rewrite app_length, !length_le32. replace (8 + Z.to_nat (b / 8) - (4 + 4))%nat with (Z.to_nat (b / 8)) by lia. unfold write_info. rewrite <- app_assoc.
    rewrite app_nth1 by (rewrite map_length, length_upto32; lia).
    rewrite nth_indep with (d' := flag_byte (li_rle info) 0) by (rewrite map_length, length_upto32; lia).
    rewrite map_nth. f_equal. unfold upto. rewrite nth_map_of_nat by lia. lia. }
  rewrite E. pose proof (flag_bit (li_rle info) (b / 8) (b mod 8) Hm) as HF. replace (b mod 8 + b / 8 * 8) with b in HF by lia. rewrite <- HF.
  generalize (flag_byte (li_rle info) (b / 8)). intros x. generalize (b mod 8) Hm. clear. intros j Hj.
  assert (K : Z.testbit x j = negb (Z.land x (2 ^ j) =? 0)); [|rewrite K; reflexivity].
  destruct (Z.eqb_spec (Z.land x (2 ^ j)) 0) as [D|D].
  - cbn. pose proof (f_equal (fun z => Z.testbit z j) D) as T. cbv beta in T. rewrite Z.land_spec, Z.pow2_bits_true, andb_true_r, Z.bits_0 in T by lia. exact T.
  - cbn. destruct (Z.testbit x j) eqn:T; [reflexivity|]. exfalso. apply D. apply Z.bits_inj. intros i. rewrite Z.land_spec, Z.bits_0.
    destruct (Z.eq_dec i j) as [->|N]; [rewrite T; reflexivity|]. rewrite Z.pow2_bits_false by lia. apply andb_false_r.
Qed.

Theorem le_codes_worth L In n cap out b : L = 255 \/ L = 32 -> byte_mem In -> 1 <= n <= max_in -> le_compress L false false false In n cap = COk out -> is_byte b ->
  (Coded out b <-> Worth L In n b).
Proof. intros HL HIn Hn HC Hb. rewrite (coded_iff _ _ _ _ _ _ _ HC Hb). apply rle_iff_worth; try assumption. lia. Qed.
Theorem le_codes_best L In n cap out b : L = 255 \/ L = 32 -> byte_mem In -> 1 <= n <= max_in -> le_compress L true false false In n cap = COk out -> is_byte b ->
  (Coded out b <-> Best L In n b).
Proof. intros HL HIn Hn HC Hb. rewrite (coded_iff _ _ _ _ _ _ _ HC Hb). apply max_iff_best; try assumption. lia. Qed.

(** ** The order of the table *)

Lemma sel_max_max pcount consumed i : is_byte i -> consumed i = false -> 0 < pcount i -> pcount i <= pcount (sel_max pcount consumed).
Proof.
  intros Hi Hc Hp. unfold sel_max. set (f := fun '(m, mi) i => _).
  assert (G : forall l s, (fst s = 0 \/ fst s = pcount (snd s)) -> 
    let r := fold_left f l s in (fst r = 0 \/ fst r = pcount (snd r)) /\ fst s <= fst r /\ (List.In i l -> pcount i <= fst r)).
  { induction l as [|x l IH]; intros [m mi] Hs; cbn [fold_left]; [cbn; split; [exact Hs|]; split; [lia|intros []]|].
    assert (HF : (f (m, mi) x = (pcount x, x) /\ consumed x = false /\ m < pcount x) \/ (f (m, mi) x = (m, mi) /\ (consumed x = false -> pcount x <= m))).
    { unfold f. destruct (consumed x); cbn [negb andb]; [right; split; [reflexivity|discriminate]|]. destruct (Z.ltb_spec m (pcount x)); [left; auto|right; auto]. }
    destruct HF as [(-> & H1 & H2)|(-> & H1)].
    - destruct (IH (pcount x, x) (or_intror eq_refl)) as (I1 & I2 & I3). cbn [fst snd] in *. split; [exact I1|]. split; [lia|]. intros [->|K]; [exact I2|auto].
    - destruct (IH (m, mi) Hs) as (I1 & I2 & I3). cbn [fst snd] in *. split; [exact I1|]. split; [lia|]. intros [->|K]; [specialize (H1 Hc); lia|auto]. }
  destruct (G range256 (0, 0) (or_introl eq_refl)) as (G1 & G2 & G3). specialize (G3 (proj2 (in_range256 i) Hi)).
  destruct G1 as [G1|G1]; [lia|]. fold f. rewrite <- G1. exact G3.
Qed.

Definition Falls (w : Z -> Z) (l : list Z) : Prop := forall i j, (i < j < length l)%nat -> w (nth j l 0) <= w (nth i l 0).
Lemma falls_cons w x l : (forall y, List.In y l -> w y <= w x) -> Falls w l -> Falls w (x :: l).
Proof.
  intros H HF i j Hij. cbn [length] in Hij. destruct j as [|j]; [lia|]. destruct i as [|i]; cbn [nth].
  - apply H. apply nth_In. lia.
  - apply HF. lia.
Qed.
Lemma falls_app w l r : Falls w l -> (forall y, List.In y r -> w y = 0) -> (forall y, List.In y l -> 0 <= w y) -> Falls w (l ++ r).
Proof.
  intros HF Hr Hl i j Hij. rewrite app_length in Hij. destruct (Nat.lt_ge_cases j (length l)) as [D|D].
  - rewrite !app_nth1 by lia. apply HF. lia.
  - rewrite (app_nth2 _ _ _ D). rewrite (Hr (nth (j - length l) r 0)) by (apply nth_In; lia).
    destruct (Nat.lt_ge_cases i (length l)) as [E|E]; [rewrite app_nth1 by lia; apply Hl, nth_In; lia|].
    rewrite (app_nth2 _ _ _ E). rewrite Hr by (apply nth_In; lia). lia.
Qed.

Lemma select_falls pcount : (forall i, 0 <= pcount i) -> forall k consumed, (forall i, is_byte i -> consumed i = false -> 0 < pcount i) ->
  length (filter (fun i => negb (consumed i)) range256) = k -> Falls pcount (select k pcount consumed).
Proof.
  intros Hnn. induction k as [|k IH]; intros consumed Hpos Hk; cbn [select]; [intros i j H; cbn in H; lia|].
  set (x := sel_max pcount consumed).
  assert (Hx : is_byte x /\ consumed x = false).
  { apply sel_max_spec; [exact Hnn| |exact Hpos].
    destruct (filter (fun i => negb (consumed i)) range256) as [|y l] eqn:E; [discriminate|].
    assert (Hy : List.In y (y :: l)) by now left. rewrite <- E in Hy. apply filter_In in Hy. destruct Hy as [H1 H2].
    exists y. split; [now apply in_range256|]. now destruct (consumed y). }
  destruct Hx as [Hx1 Hx2].
  assert (Hk2 : length (filter (fun i => negb ((i =? x) || consumed i)) range256) = k).
  { assert (HP : Permutation (x :: filter (fun i => negb ((i =? x) || consumed i)) range256) (filter (fun i => negb (consumed i)) range256)).
    { apply NoDup_Permutation.
      - constructor; [|apply NoDup_filter, NoDup_range256]. rewrite filter_In. intros [_ H]. rewrite Z.eqb_refl in H. discriminate.
      - apply NoDup_filter, NoDup_range256.
      - intros y. cbn [List.In]. rewrite !filter_In. destruct (Z.eq_dec y x) as [->|Hne].
        + rewrite Hx2. split; [intros _; split; [now apply in_range256|reflexivity]|auto].
        + replace (y =? x) with false by lia. cbn [orb]. split; [intros [->|H]; [congruence|exact H]|auto]. }
    apply Permutation_length in HP. cbn [length] in HP. lia. }
  assert (Hpos2 : forall i, is_byte i -> (i =? x) || consumed i = false -> 0 < pcount i).
  { intros i Hi Hc. apply Hpos; [exact Hi|]. now destruct (consumed i), (i =? x). }
  apply falls_cons; [|apply IH; assumption]. intros y Hy.
  pose proof (select_perm pcount Hnn k _ Hpos2 Hk2) as HP. apply (Permutation_in _ HP) in Hy. apply filter_In in Hy. destruct Hy as [Hy1 Hy2].
  apply in_range256 in Hy1. apply negb_true_iff, orb_false_iff in Hy2. destruct Hy2 as [_ Hy2]. apply sel_max_max; [exact Hy1|exact Hy2|]. apply Hpos; assumption.
Qed.

Lemma table_falls pcount : (forall i, 0 <= pcount i) -> Falls pcount (fst (le_table pcount)).
Proof.
  intros Hnn. unfold le_table. cbn [fst]. set (unused := filter (fun i => pcount i =? 0) range256).
  assert (HL : len unused + len (filter (fun i => negb (pcount i =? 0)) range256) = 256).
  { pose proof (Permutation_length (filter_perm (fun i => pcount i =? 0) range256)) as H.
    rewrite app_length in H. fold unused in H. rewrite length_range256 in H. unfold len. lia. }
  apply falls_app; [|intros y Hy; apply filter_In in Hy; lia|intros; apply Hnn].
  apply select_falls; [exact Hnn|intros i _ Hi; specialize (Hnn i); lia|unfold len in *; lia].
Qed.

(** The written table: distinct values, falling number of pieces. *)
Theorem le_table_order L max In n cap out : L = 255 \/ L = 32 -> byte_mem In -> 1 <= n <= max_in -> le_compress L max false false In n cap = COk out ->
  forall i j, 0 <= i < j -> j < tableSize out ->
    is_byte (tableEntry out i) /\ tableEntry out i <> tableEntry out j /\ pieces L In n (tableEntry out j) <= pieces L In n (tableEntry out i).
Proof.
  intros HL HIn Hn HC i j Hij Hj. destruct (out_shape _ _ _ _ _ _ HC) as (a1 & a2 & body & ->). clear HC.
  set (info := le_info L max In n) in *.
  assert (HI : exists pc, (forall u, is_byte u -> pc u = pieces L In n u) /\ (forall u, 0 <= pc u) /\ li_syms info = fst (le_table pc) /\ li_count info = snd (le_table pc)).
  { unfold info, le_info. pose proof (le_stats L In n) as HS. destruct (hist_u32 L In n) as [_ U2]. destruct (hist L In n) as [prob pcount]. cbn [fst snd] in *.
    exists (tab 0 (map pcount range256)). split; [intros u Hu; rewrite tab_range by exact Hu; apply HS; try assumption; lia|]. split; [apply tab_nonneg; exact U2|].
    destruct (le_table _) as [syms cnt]. split; reflexivity. }
  destruct HI as (pc & H1 & H2 & H3 & H4). pose proof (table_falls pc H2) as HF. pose proof (le_table_spec pc H2) as HT.
  destruct (le_table pc) as [syms count] eqn:ET. cbn [fst snd] in *. destruct HT as (HPm & HW & Hcnt & _).
  assert (Hlen : length syms = 256%nat) by (rewrite (Permutation_length HPm), length_range256; reflexivity).
  set (w := Z.to_nat (le_written count)).
  assert (EO : le32 a1 ++ le32 a2 ++ write_info info ++ body = (le32 a1 ++ le32 a2 ++ map (flag_byte (li_rle info)) (upto 32)) ++ count :: firstn w syms ++ body).
  { unfold write_info. rewrite H3, H4. fold w. rewrite <- !app_assoc. reflexivity. }
  rewrite EO in *. clear EO. set (head := le32 a1 ++ le32 a2 ++ map _ (upto 32)) in *.
  assert (Hh : length head = 40%nat) by (unfold head; rewrite !app_length, !length_le32, map_length, length_upto32; reflexivity).
  assert (E40 : nth 40 (head ++ count :: firstn w syms ++ body) 0 = count) by (rewrite app_nth2 by lia; rewrite Hh; reflexivity).
  assert (Ets : tableSize (head ++ count :: firstn w syms ++ body) = le_written count) by (unfold tableSize, le_written; rewrite E40; reflexivity).
  rewrite Ets in Hj.
  assert (Ent : forall q, 0 <= q < le_written count -> tableEntry (head ++ count :: firstn w syms ++ body) q = nth (Z.to_nat q) syms 0).
  { intros q Hq. unfold tableEntry. replace (Z.to_nat (41 + q)) with (40 + S (Z.to_nat q))%nat by lia. rewrite app_nth2 by lia. rewrite Hh.
    replace (40 + S (Z.to_nat q) - 40)%nat with (S (Z.to_nat q)) by lia. cbn [nth]. rewrite app_nth1 by (rewrite firstn_length; unfold w; lia).
    rewrite nth_first; [reflexivity|unfold w; lia]. }
  rewrite !Ent by lia.
  assert (Hb : forall q, 0 <= q < 256 -> is_byte (nth (Z.to_nat q) syms 0)).
  { intros q Hq. apply in_range256. eapply Permutation_in; [exact HPm|]. apply nth_In. lia. }
  assert (HND : NoDup syms) by (eapply Permutation_NoDup; [apply Permutation_sym, HPm|apply NoDup_range256]).
  split; [apply Hb; lia|]. split.
  - intros E. apply (proj1 (NoDup_nth syms 0) HND) in E; lia.
  - rewrite <- !H1 by (apply Hb; lia). apply HF. lia.
Qed.

Theorem best_one L In n a b : is_byte a -> is_byte b -> Best L In n a -> Best L In n b -> a = b.
Proof.
  intros Ha Hb [A1 A2] [B1 B2]. destruct (Z.lt_trichotomy a b) as [D|[D|D]]; [|exact D|].
  - destruct (A2 b Hb B1) as [A3 _]. destruct (B2 a Ha A1) as [_ B3]. specialize (B3 D). lia.
  - destruct (A2 b Hb B1) as [_ A3]. destruct (B2 a Ha A1) as [B3 _]. specialize (A3 D). lia.
Qed.
(** Some value, if any pays off. *)
Theorem best_exists L In n : (exists u, is_byte u /\ PaysOff L In n u) -> exists b, is_byte b /\ Best L In n b.
Proof.
  intros (u & Hu & Pu).
  assert (D : forall v, {PaysOff L In n v} + {~ PaysOff L In n v}).
  { intros v. unfold PaysOff. destruct (Z_lt_dec 0 (occ In n v)); [|right; tauto]. destruct (Z_le_dec (3 * pieces L In n v) (occ In n v)); [left; tauto|right; tauto]. }
  assert (G : forall k, (exists b, 0 <= b < Z.of_nat k /\ PaysOff L In n b /\ forall v, 0 <= v < Z.of_nat k -> PaysOff L In n v -> saved L In n v <= saved L In n b /\ (v < b -> saved L In n v < saved L In n b)) \/
    (forall v, 0 <= v < Z.of_nat k -> ~ PaysOff L In n v)).
  { induction k as [|k IH]; [right; intros v Hv; lia|]. destruct IH as [(b & B1 & B2 & B3)|N].
    - destruct (D (Z.of_nat k)) as [Y|NY].
      + destruct (Z_lt_dec (saved L In n b) (saved L In n (Z.of_nat k))) as [G|G]; left.
        * exists (Z.of_nat k). split; [lia|]. split; [exact Y|]. intros v Hv Pv. destruct (Z.eq_dec v (Z.of_nat k)) as [->|Ne]; [lia|].
          destruct (B3 v ltac:(lia) Pv). lia.
        * exists b. split; [lia|]. split; [exact B2|]. intros v Hv Pv. destruct (Z.eq_dec v (Z.of_nat k)) as [->|Ne]; [lia|]. apply B3; [lia|exact Pv].
      + left. exists b. split; [lia|]. split; [exact B2|]. intros v Hv Pv. destruct (Z.eq_dec v (Z.of_nat k)) as [->|Ne]; [contradiction|]. apply B3; [lia|exact Pv].
    - destruct (D (Z.of_nat k)) as [Y|NY].
      + left. exists (Z.of_nat k). split; [lia|]. split; [exact Y|]. intros v Hv Pv. destruct (Z.eq_dec v (Z.of_nat k)) as [->|Ne]; [lia|]. exfalso. apply (N v); [lia|exact Pv].
      + right. intros v Hv. destruct (Z.eq_dec v (Z.of_nat k)) as [->|Ne]; [exact NY|]. apply N. lia. }
  destruct (G 256%nat) as [(b & B1 & B2 & B3)|N]; [|exfalso; exact (N u Hu Pu)]. exists b. split; [exact B1|]. split; [exact B2|exact B3].
Qed.
