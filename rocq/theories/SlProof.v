(** Correctness of the symlut codecs. *)
From Verif Require Import Base Simd SimdProof Spec LargeSpec PktSpec LutSpec ExtModel ExtDec ExtEnc PktModel PktDec PktEnc Rle8Proof
  MbModel MbEnc LutModel LutProof SlModel.

Definition slok (c : slcfg) : Prop := okS1 (slS c) /\ slS c <= 8 /\ (slSC c = 3 \/ slSC c = 7).

Lemma slcodecs_ok c : List.In c slcodecs -> slok c.
Proof.
  intros H. unfold slcodecs in H. cbn in H. unfold slok, okS1, okS.
  repeat (destruct H as [<-|H]; [cbn [slS slSC]; lia|]). destruct H.
Qed.

(** The configuration as the format sees it. *)
Definition slw (c : slcfg) : lutwire := mkLW (slS c) (slUnb c) (slSC c).

Definition sl_value (c : slcfg) (k tc tr : Z) : Z := Z.lor (Z.lor (Z.shiftl k (7 + slRB c)) (Z.shiftl tc (slRB c))) tr.

Lemma sl_value_sum c k tc tr : slok c -> 0 <= k <= slSC c -> 0 <= tc <= slMAXC -> 0 <= tr <= slMAXR c ->
  sl_value c k tc tr = k * 2 ^ (7 + slRB c) + tc * 2 ^ slRB c + tr.
Proof.
  intros (_ & _ & HSC) Hk Hc Hr. unfold slMAXC, slMAXR, slRB in *. rewrite <- Z.add_assoc.
  unfold sl_value, slRB. rewrite <- Z.lor_assoc.
  destruct HSC as [HS|HS]; rewrite HS in *; cbn [Z.eqb Pos.eqb] in *; (rewrite (lor_shift tc tr) by lia); apply lor_shift; lia.
Qed.

Lemma sl_value_ok c k tc tr : slok c -> 0 <= k <= slSC c -> 0 <= tc <= slMAXC -> 0 <= tr <= slMAXR c ->
  let v := k * 2 ^ (7 + slRB c) + tc * 2 ^ slRB c + tr in
  0 <= v < 65536 /\ Z.land v (slMAXR c) = tr /\ Z.land (Z.shiftr v (slRB c)) slMAXC = tc /\ Z.shiftr v (7 + slRB c) = k.
Proof.
  intros (_ & _ & HSC) Hk Hc Hr. cbv zeta. unfold slMAXC, slMAXR, slRB in *.
  destruct HSC as [HS|HS]; rewrite HS in *; cbn [Z.eqb Pos.eqb] in *.
  - change (2 ^ 7 - 1) with (Z.ones 7) in *. change 127 with (Z.ones 7) in *.
    rewrite !Z.land_ones, !Z.shiftr_div_pow2 by lia. change (Z.ones 7) with 127 in *.
    change (2 ^ 7) with 128 in *. change (2 ^ (7 + 7)) with 16384 in *. lia.
  - change (2 ^ 6 - 1) with (Z.ones 6) in *. change 127 with (Z.ones 7) in *.
    rewrite !Z.land_ones, !Z.shiftr_div_pow2 by lia. change (Z.ones 7) with 127 in *. change (Z.ones 6) with 63 in *.
    change (2 ^ 7) with 128 in *. change (2 ^ 6) with 64 in *. change (2 ^ (7 + 6)) with 8192 in *. lia.
Qed.

Lemma slRB_pos c : 63 <= slMAXR c <= 127.
Proof. unfold slMAXR, slRB. destruct (_ =? _); cbn; lia. Qed.

(** *** Decoder on the grammar *)

(** Any header of the format, [r] being the number of literals as stored. *)
Lemma sl_parse_ok c l C p regs lut sym sb k v fc ec r fl el :
  slok c -> Rlut (slS c) (slSC c) regs lut -> len sym = slS c ->
  0 <= k <= slSC c -> (k < slSC c -> nth (Z.to_nat k) lut [] = sym) -> sb = (if k =? slSC c then sym else []) ->
  Number 127 v fc ec -> Number (2 ^ lwBits (slw c) - 1) r fl el ->
  holds C p (lwHead (slw c) k fc fl ++ sb ++ ec ++ el) ->
  exists regs',
    sl_parse c l C p regs =
      (if (r =? 0) && ((fl =? 1) || match l with LAvx512 => negb ((slS c =? 3) || (slS c =? 6)) | _ => false end) then PStop
       else PGo (p + len (lwHead (slw c) k fc fl ++ sb ++ ec ++ el)) regs' (w64 (r - 2)) v) /\
    regok (slS c) (hd [] regs') sym /\ Rlut (slS c) (slSC c) regs' (lut_front (slSC c) sym k lut).
Proof.
  intros Hc HR Hl Hk Hkn Hsb HN1 HN2 Hh. pose proof Hc as (HS & _ & HSC). pose proof (okS1_pos _ HS) as HS2. pose proof (slRB_pos c) as HRB.
  change (2 ^ lwBits (slw c) - 1) with (slMAXR c) in HN2.
  pose proof (Number_field _ _ _ _ HN1 ltac:(lia)) as Htc. pose proof (Number_field _ _ _ _ HN2 ltac:(lia)) as Htr.
  destruct (sl_value_ok c k _ _ Hc Hk Htc Htr) as (V0 & V1 & V2 & V3).
  unfold lwHead in *. change (lwBits (slw c)) with (slRB c) in *.
  revert Hh V0 V1 V2 V3. generalize (k * 2 ^ (7 + slRB c) + fc * 2 ^ slRB c + fl). intros h Hh V0 V1 V2 V3.
  unfold sl_parse. rewrite (rd16_holds C p h _) by (try exact Hh; lia). cbv zeta. rewrite V1, V2, V3.
  apply holds_app in Hh. destruct Hh as [_ Hh]. rewrite len_le16 in Hh. rewrite Hsb in *.
  destruct (dec_sym_ok (slS c) (slSC c) C (p + 2) regs lut sym k _ ltac:(lia) ltac:(lia) ltac:(lia) HR Hl ltac:(lia) (fun _ => conj Hk Hkn) Hh)
    as (regs' & HD & Hreg & HRl).
  rewrite HD. apply holds_app in Hh. destruct Hh as [_ Hh].
  rewrite (Number_read _ _ _ _ C _ _ HN1 Hh).
  apply holds_app in Hh. destruct Hh as [_ Hh]. rewrite <- (app_nil_r el) in Hh.
  rewrite (Number_read _ _ _ _ C _ _ HN2 Hh).
  exists regs'. split; [|split; [exact Hreg|now apply HRl]]. destruct (_ && _); [reflexivity|]. f_equal. rewrite !len_app, len_le16. lia.
Qed.

Lemma len_sl_head c k stored range sym : len sym = slS c ->
  len (sl_head c k stored range sym) = 2 + (if k =? slSC c then slS c else 0) + len (ext slMAXC stored) + len (ext (slMAXR c) range).
Proof. intros H. unfold sl_head. rewrite !len_app, len_le16. destruct (k =? slSC c); rewrite ?len_nil; lia. Qed.

Lemma bytes_sl_head c k stored range sym : Forall is_byte sym -> Forall is_byte (sl_head c k stored range sym).
Proof.
  intros H. unfold sl_head. apply Forall_app. split; [apply Forall_le16|]. apply Forall_app. split; [destruct (_ =? _); auto|].
  apply Forall_app. split; apply bytes_ext.
Qed.

(** Stored and restored run length. *)
Lemma sl_stored_ok c count : slok c -> slSHORT <= count <= large_in + 8 -> (slUnb c = false -> slS c <> 1 -> count mod slS c = 0) ->
  2 <= sl_stored c count < 2 ^ 32 /\ lwRun (slw c) (sl_stored c count) = count.
Proof.
  intros (HS & H8 & _) Hc Hm. pose proof (okS1_pos _ HS) as HS2. unfold lwRun, sl_stored, slSHORT, large_in in *. cbn [lwByte lwS slw].
  destruct (slUnb c || (slS c =? 1)) eqn:E.
  - lia.
  - apply orb_false_iff in E. destruct E as [E1 E2]. specialize (Hm E1 ltac:(lia)).
    assert (HD : count = slS c * (count / slS c)) by (apply Z_div_exact_full_2; lia).
    assert (HLE : 3 / slS c <= count / slS c) by (apply Z.div_le_mono; lia).
    assert (HL2 : 0 <= 3 / slS c) by (apply Z.div_pos; lia).
    assert (HLT : count / slS c <= count) by (apply Z.div_le_upper_bound; nia).
    split; [lia|]. transitivity (slS c * (count / slS c)); [ring|lia].
Qed.

(** Bound on the size of the packets for the first [x] bytes.  24 bit symbols lose up to one byte
    per packet behind more than 60 literals; 8, 16 and 32 bit up to two per packet behind more
    than 65533 literals. *)
Definition sl_loss (c : slcfg) (x : Z) : Z := if slS c =? 3 then x / 68 else if slS c <=? 4 then 2 * (x / 65537) else 0.
Definition slB (c : slcfg) (x : Z) : Z := x + sl_loss c x.

Lemma sl_cost c k count stored range last i :
  slok c -> 0 <= last <= i - count -> range = i - last - count + 2 -> stored = sl_stored c count ->
  (slS c = 1 \/ 2 * slS c <= count) -> slSHORT <= count <= large_in + 8 -> (slUnb c = false -> slS c <> 1 -> count mod slS c = 0) ->
  (slLONG c <=? count) || (slSHORT + (ext_penalty (slMAXR c) range + ext_penalty slMAXC stored + (if k =? slSC c then 1 else 0)) <=? count) = true ->
  2 + (if k =? slSC c then slS c else 0) + len (ext slMAXC stored) + len (ext (slMAXR c) range) + (i - count - last) + slB c last <= slB c i.
Proof.
  intros Hc Hl Hr Hs Hmin Hcr Hmod Hacc. pose proof Hc as (HS & H8 & _). pose proof (okS1_pos _ HS) as HS2. pose proof (slRB_pos c) as HRB.
  rewrite !len_ext. unfold ext_penalty in Hacc. apply orb_true_iff in Hacc. unfold slLONG, slSHORT, slMAXC in *.
  assert (Hst : stored <= count).
  { rewrite Hs. unfold sl_stored, slSHORT. destruct (slUnb c || (slS c =? 1)) eqn:E; [lia|].
    apply orb_false_iff in E. destruct E as [E1 E2].
    assert (HLT : 2 * (count / slS c) <= count) by (pose proof (Z_div_mod_eq_full count (slS c)); pose proof (Z.mod_pos_bound count (slS c) ltac:(lia)); nia).
    assert (HL2 : 0 <= 3 / slS c) by (apply Z.div_pos; lia). lia. }
  clear Hs Hmod. revert HRB Hacc. generalize (slMAXR c). intros mr HRB Hacc.
  assert (Hcost : 2 + (if k =? slSC c then slS c else 0) + (if stored <=? 127 then 0 else if stored <=? 65535 then 2 else 4)
     + (if range <=? mr then 0 else if range <=? 65535 then 2 else 4) <= count +
       (if slS c =? 3 then (if range <=? 65535 then if range <=? 63 then 0 else 1 else 3) else if (slS c <=? 4) && negb (range <=? 65535) then 2 else 0)).
  { destruct HS as [HS|[HS|[HS|[HS|[HS|[HS|HS]]]]]]; rewrite HS in *; cbn [Z.eqb Pos.eqb Z.leb Z.compare Pos.compare Pos.compare_cont andb negb].
    all: destruct (k =? slSC c); destruct (stored <=? 127) eqn:?; destruct (stored <=? 65535) eqn:?;
         destruct (range <=? mr) eqn:?; destruct (range <=? 65535) eqn:?; cbn [negb]; try lia; destruct (range <=? 63) eqn:?; try lia;
         destruct (range <=? 1048575) eqn:?; destruct (stored <=? 1048575) eqn:?; lia. }
  unfold slB, sl_loss. destruct (slS c =? 3) eqn:E3.
  - destruct (range <=? 65535) eqn:E1; [destruct (range <=? 63) eqn:E2|]; lia.
  - destruct (slS c <=? 4) eqn:E4; cbn [andb] in Hcost; [destruct (range <=? 65535) eqn:E1; cbn [negb] in Hcost|]; lia.
Qed.

Notation SlPkt c := (Pkt (sl_parse c) (sl_fill c) (Rlut (slS c) (slSC c))).
Notation SlTerm c := (GTerm (sl_parse c) (Rlut (slS c) (slSC c))).

Lemma slRun_fill c v : slok c -> 0 <= v < 2 ^ 32 -> 0 < lwRun (slw c) v ->
  lwRun (slw c) v < 2 ^ 36 /\
  (if slUnb c || (slS c =? 1) then w64 (v + (slSHORT - 2)) else w64 ((v + slSHORT / slS c - 2) * slS c)) = lwRun (slw c) v.
Proof.
  intros (HS & H8 & _) Hv Hr. pose proof (okS1_pos _ HS) as HS2. unfold lwRun, slSHORT in *. cbn [lwByte lwS slw] in *.
  destruct (slUnb c || (slS c =? 1)).
  - rewrite w64_id by lia. lia.
  - assert (0 <= 3 / slS c <= 3) by (split; [apply Z.div_pos; lia|apply Z.div_le_upper_bound; nia]).
    assert ((v + 3 / slS c - 2) * slS c < 2 ^ 36) by nia. rewrite w64_id by lia. lia.
Qed.

Lemma LutPacket_pkt c lut h lits run lut' : slok c -> LutPacket (slw c) lut h lits run lut' -> SlPkt c lut h lits run lut'.
Proof.
  intros Hc [k sym sb table' v fc ec lits' fl el HRc HN1 Hv Hrun HN2]. pose proof Hc as (HS & _ & HSC). pose proof (len_nonneg lits') as Hl0.
  cbn [lwS lwSC slw] in HRc.
  pose proof (Number_value _ _ _ _ HN1 ltac:(lia)) as Hvr.
  assert (Hrr : len lits' + 2 < 2 ^ 32).
  { change (2 ^ lwBits (slw c) - 1) with (slMAXR c) in HN2. pose proof (slRB_pos c). pose proof (Number_value _ _ _ _ HN2 ltac:(lia)). lia. }
  destruct (slRun_fill c v Hc Hvr Hrun) as [Hbig Hfill].
  rewrite repetition_periodic. assert (Hlp : len (periodic sym (lwRun (slw c) v)) = lwRun (slw c) v) by (apply len_slice; lia).
  split; [lia|]. intros d C p regs HR Hh.
  assert (Hwf : len lut = slSC c /\ Forall (fun x => len x = slS c) lut) by (destruct HR as [|(HR1 & _ & HR2)]; [lia|split; assumption]).
  destruct Hwf as [Hwf1 Hwf2].
  destruct (Recall_front (slS c) (slSC c) lut k sym sb _ ltac:(lia) HRc Hwf1) as (K1 & K2 & K3 & ->).
  destruct (Recall_symlen _ _ _ _ _ _ _ HRc Hwf2) as [Hls _].
  destruct (sl_parse_ok c d C p regs lut sym sb k v fc ec (len lits' + 2) fl el) as (regs' & HP & Hreg & HRl); try assumption.
  { intros H. apply K2, H. }
  { destruct (k =? slSC c) eqn:E; [apply K3; lia|apply K2; lia]. }
  replace (len lits' + 2 =? 0) with false in HP by lia. cbn [andb] in HP. rewrite w64_id in HP by lia.
  exists regs', v. split; [rewrite HP; f_equal; lia|]. split; [exact Hv|]. split; [exact HRl|].
  intros M q Hq Hq2. rewrite Hlp in *. unfold sl_fill. rewrite Hfill. apply lvl_fill_ok; try assumption; lia.
Qed.

Lemma AnySymbol_sym c lut regs k sb : slok c -> Rlut (slS c) (slSC c) regs lut -> AnySymbol (slS c) (slSC c) k sb ->
  exists sym, len sym = slS c /\ 0 <= k <= slSC c /\ (k < slSC c -> nth (Z.to_nat k) lut [] = sym) /\ sb = (if k =? slSC c then sym else []).
Proof.
  intros (HS & _ & HSC) HR [[Hk ->]|(-> & Hl & _)].
  - exists (nth (Z.to_nat k) lut []). replace (k =? slSC c) with false by lia. split; [|split; [lia|split; reflexivity]].
    destruct HR as [|(HR1 & _ & HR2)]; [lia|]. rewrite Forall_forall in HR2. apply HR2. apply nth_In. unfold len in HR1. lia.
  - exists sb. rewrite Z.eqb_refl. repeat split; try lia.
Qed.

Lemma LutEnd_term c lut e lits : slok c -> LutEnd (slw c) lut e lits -> SlTerm c lut e lits.
Proof.
  intros Hc [k sb v fc ec HA HN1|k sb fc ec lits' fl el HA HN1 HN2]; cbn [lwS lwSC slw] in HA.
  - constructor. intros d C p regs HR Hh. destruct (AnySymbol_sym c lut regs k sb Hc HR HA) as (sym & S1 & S2 & S3 & S4).
    destruct (sl_parse_ok c d C p regs lut sym sb k v fc ec 0 1 (le16 0)) as (regs' & -> & _); try assumption; [|reflexivity].
    constructor. lia.
  - constructor. intros d C p regs HR Hh. destruct (AnySymbol_sym c lut regs k sb Hc HR HA) as (sym & S1 & S2 & S3 & S4).
    pose proof (len_nonneg lits') as Hl0.
    assert (Hrr : len lits' + 2 < 2 ^ 32).
    { change (2 ^ lwBits (slw c) - 1) with (slMAXR c) in HN2. pose proof (slRB_pos c). pose proof (Number_value _ _ _ _ HN2 ltac:(lia)). lia. }
    destruct (sl_parse_ok c d C p regs lut sym sb k 0 fc ec (len lits' + 2) fl el) as (regs' & -> & _); try assumption.
    replace (len lits' + 2 =? 0) with false by lia. cbn [andb]. rewrite w64_id by lia. exists regs'. f_equal. lia.
Qed.

(** *** Encoder writes the grammar *)

(** The table of the encoder. *)
Definition slW (c : slcfg) (lut : list (list Z)) : Prop := len lut = slSC c.
Notation SlG c := (guarded (slW c) (LutPacket (slw c))).
Notation SlE c := (guarded_end (slW c) (LutEnd (slw c))).

Lemma sl_pkt c In i count sym last lut :
  slok c -> len sym = slS c -> Forall is_byte sym -> slSHORT <= count -> 0 <= last <= i - count -> i <= large_in + 8 ->
  (slUnb c = false -> slS c <> 1 -> count mod slS c = 0) ->
  SlG c lut (sl_head c (lut_index sym lut) (sl_stored c count) (i - last - count + 2) sym)
    (slice In last (i - count - last)) (periodic sym count) (lut_front (slSC c) sym (lut_index sym lut) lut).
Proof.
  intros Hc Hl Hb Hcnt Hlast Hi Hmod HW. unfold slW in *. pose proof Hc as (HS & _ & HSC). pose proof (slRB_pos c) as HRB.
  destruct (sl_stored_ok c count Hc) as [Hst Hrun]; [lia|exact Hmod|]. unfold slSHORT, large_in in *.
  split; [|pose proof (lut_index_range sym lut); apply len_lut_front; lia].
  unfold sl_head. fold (sl_value c (lut_index sym lut) (tiny slMAXC (sl_stored c count)) (tiny (slMAXR c) (i - last - count + 2))).
  rewrite sl_value_sum; try assumption; [|rewrite <- HW; apply lut_index_range|apply tiny_range; unfold slMAXC; lia|apply tiny_range; lia].
  rewrite <- repetition_periodic. replace (repetition sym count) with (repetition sym (lwRun (slw c) (sl_stored c count))) by now rewrite Hrun.
  apply (LutPacket_intro (slw c) lut (lut_index sym lut) sym (if lut_index sym lut =? slSC c then sym else []) _ (sl_stored c count)
    (tiny slMAXC (sl_stored c count)) (ext slMAXC (sl_stored c count)) (slice In last (i - count - last))
    (tiny (slMAXR c) (i - last - count + 2)) (ext (slMAXR c) (i - last - count + 2))); cbn [lwS lwSC slw].
  - apply Recall_index; try assumption; lia.
  - apply Number_tiny. lia.
  - lia.
  - lia.
  - rewrite len_slice by lia. replace (i - count - last + 2) with (i - last - count + 2) by lia. apply Number_tiny. lia.
Qed.

Lemma sl_accept c count p : 0 <= p -> (slLONG c <=? count) || (slSHORT + p <=? count) = true -> 1 <= slS c -> slSHORT <= count.
Proof. unfold slLONG, slSHORT. intros Hp H HS. apply orb_true_iff in H. lia. Qed.

Lemma ext_penalty_nonneg m v : 0 <= ext_penalty m v.
Proof. unfold ext_penalty. destruct (_ <=? _); [destruct (_ <=? _)|]; lia. Qed.

Lemma sl_proc_ok c In i count sym last lut bytes lut' :
  slok c -> byte_mem In -> (slS c = 1 \/ count = 0 \/ 2 * slS c <= count) ->
  (slUnb c = false -> slS c <> 1 -> count mod slS c = 0) ->
  0 <= last <= i - count -> i <= large_in + 8 -> len sym = slS c -> Forall is_byte sym ->
  sl_proc c In i count sym last lut = Some (bytes, lut') ->
  (exists h, bytes = h ++ slice In last (i - count - last) /\
    SlG c lut h (slice In last (i - count - last)) (periodic sym count) lut') /\
  Forall is_byte bytes /\ len bytes + slB c last <= slB c i.
Proof.
  intros Hc HIn Hmin Hmod Hl Hi Hs Hb H. pose proof Hc as (HS & _ & _). pose proof (okS1_pos _ HS) as HS2.
  unfold sl_proc in H. cbv zeta in H.
  destruct (_ || _) eqn:E; [|discriminate].
  assert (Hcnt : slSHORT <= count).
  { eapply sl_accept; [|exact E|lia]. pose proof (ext_penalty_nonneg (slMAXR c) (i - last - count + 2)).
    pose proof (ext_penalty_nonneg slMAXC (sl_stored c count)). destruct (lut_index sym lut =? slSC c); lia. }
  apply some_pair in H. destruct H as [<- <-]. split; [|split].
  - eexists. split; [reflexivity|]. apply sl_pkt; assumption.
  - apply Forall_app. split; [now apply bytes_sl_head|]. apply Forall_slice. exact HIn.
  - rewrite len_app, len_slice, len_sl_head by (try assumption; lia).
    apply (sl_cost c (lut_index sym lut) count (sl_stored c count) (i - last - count + 2) last i); try assumption; try reflexivity.
    + unfold slSHORT in *. lia.
    + lia.
Qed.

Lemma sl_term_none_ok c a : slok c -> SlE c a (sl_term_none c) [].
Proof.
  intros Hc _. pose proof Hc as (_ & _ & HSC). pose proof (slRB_pos c) as HRB. unfold sl_term_none.
  assert (HV : Z.lor (Z.shiftl 1 (slRB c)) 1 = sl_value c 0 1 1) by (unfold sl_value; rewrite Z.shiftl_0_l, Z.lor_0_l; reflexivity).
  rewrite HV, sl_value_sum by (try assumption; unfold slMAXC; lia).
  apply (LutEnd_none (slw c) a 0 [] 0 1 (le16 0)); [left; cbn [lwSC slw]; split; [lia|reflexivity]|constructor; lia].
Qed.

Lemma sl_term_lits_ok c a lits : slok c -> len lits <= large_in + 8 ->
  exists tb, tb = sl_term_lits c (len lits) ++ lits /\ SlE c a tb lits.
Proof.
  intros Hc Hlen. eexists. split; [reflexivity|]. intros _.
  pose proof Hc as (_ & _ & HSC). pose proof (slRB_pos c) as HRB. pose proof (len_nonneg lits). unfold large_in in *. unfold sl_term_lits.
  assert (HV : Z.shiftl 1 (slRB c) = sl_value c 0 1 0) by (unfold sl_value; rewrite Z.lor_0_r, Z.shiftl_0_l, Z.lor_0_l; reflexivity).
  rewrite HV, sl_value_sum by (try assumption; unfold slMAXC; lia).
  apply (LutEnd_lits (slw c) a 0 [] 1 (le16 0) lits 0 (le32 (len lits + 2)));
    [left; cbn [lwSC slw]; split; [lia|reflexivity]|constructor; lia|constructor; lia].
Qed.

Lemma sl_term_bytes c : Forall is_byte (sl_term_none c) /\ forall k, Forall is_byte (sl_term_lits c k).
Proof.
  split; [|intros k]; unfold sl_term_none, sl_term_lits; (apply Forall_app; split; [apply Forall_le16|]);
    (apply Forall_app; split; [apply Forall_le16|]); [apply Forall_le16|apply Forall_le32].
Qed.

Definition slsize (c : slcfg) (n : Z) : Z := n + 30 + sl_loss c n.

Lemma sl_body_ok c v In n : slok c -> byte_mem In -> 1 <= n <= large_in ->
  exists body, sl_body c v In n = Some body /\
    StreamP (LutPacket (slw c)) (LutEnd (slw c)) (if slS c =? 1 then 0 else slS c) (first_table (slS c) (slSC c)) body In n /\ 8 + len body <= slsize c n.
Proof.
  intros Hc HIn Hn. pose proof Hc as (HS & H8 & HSC). pose proof (okS1_pos _ HS) as HS2.
  assert (HB0 : 0 <= slB c 0) by (unfold slB, sl_loss; destruct (_ =? _); [|destruct (_ <=? _)]; cbn; lia).
  assert (Hlen : forall (body : list Z) m, n <= m <= n + slS c ->
    (len body <= slB c m + 6 \/ exists last, 0 <= last <= m /\ len body <= slB c last + (m - last) + 8) -> 8 + len body <= slsize c n).
  { intros body m Hm HL. unfold slsize, slB, sl_loss in *. clear - HL Hm H8.
    destruct HL as [HL|(last & Hlast & HL)]; (destruct (slS c =? 3); [lia|]; destruct (slS c <=? 4); [|lia]).
    - assert (m / 65537 <= (n + 8) / 65537) by (apply Z.div_le_mono; lia). assert ((n + 8) / 65537 <= n / 65537 + 1) by lia. lia.
    - assert (last / 65537 <= (n + 8) / 65537) by (apply Z.div_le_mono; lia). assert ((n + 8) / 65537 <= n / 65537 + 1) by lia. lia. }
  assert (HW0 : slW c (lut_init (slS c) (slSC c))).
  { unfold slW, lut_init, lut_bytes, len. rewrite map_length, firstn_length. cbn [length]. lia. }
  rewrite first_table_init. unfold sl_body. cbv zeta. destruct (slS c =? 1) eqn:E1.
  - apply Z.eqb_eq in E1.
    set (proc := fun In i count sym last a => sl_proc c In i count [sym] last a).
    assert (HP : proc8_ok (SlG c) (slB c) proc In).
    { intros i count sym last a bytes a' Hcnt Hl Hi Hb Hrun H. rewrite <- periodic_1 by assumption.
      eapply sl_proc_ok; try exact H; try assumption; try lia.
      - rewrite E1. reflexivity.
      - constructor; [exact Hb|constructor]. }
    destruct (body8_ok (SlG c) (SlE c) (slB c) proc proc (sl_term_none c) (sl_term_lits c)
      (match v with Avx2 => 32 | _ => 16 end) In n (lut_init (slS c) (slSC c)) (255 - In 0)) as (body & HB & HSt & HL); try assumption.
    + destruct v; lia.
    + specialize (HIn 0). unfold is_byte in *. lia.
    + intros a. now apply sl_term_none_ok.
    + apply sl_term_bytes.
    + intros a lits Hlits. apply sl_term_lits_ok; [assumption|lia].
    + apply sl_term_bytes.
    + exists body. split; [exact HB|]. split; [eapply StreamP_guarded; [exact HW0|exact HSt]|]. apply (Hlen body n); [lia|]. exact HL.
  - assert (HSk : okS (slS c)) by (destruct HS; [lia|assumption]).
    assert (HP : procM_ok (SlG c) (slS c) (slUnb c) (slB c) (sl_proc c) In).
    { intros i count sym last a bytes a' Hcnt Hmin Hmod Hl Hi Hs Hb Hrun H. eapply sl_proc_ok; try exact H; try assumption; try tauto. }
    destruct (mb_body_ok (SlG c) (SlE c) (slS c) (slUnb c) (slB c) (sl_proc c) (sl_term_none c) (sl_term_lits c)
      v In n (lut_init (slS c) (slSC c))) as (body & HB & HSt & m & Hm & HL); try assumption.
    + intros a. now apply sl_term_none_ok.
    + apply sl_term_bytes.
    + intros a lits Hlits. now apply sl_term_lits_ok.
    + apply sl_term_bytes.
    + exists body. split; [exact HB|]. split; [eapply StreamP_guarded; [exact HW0|exact HSt]|]. apply (Hlen body m); [exact Hm|]. exact HL.
Qed.

Lemma sl_compress_ok c v In n cap :
  slok c -> byte_mem In -> 1 <= n <= large_in -> rle_compress_bounds n <= cap ->
  exists body, sl_compress c v false false In n cap = COk (le32 n ++ le32 (8 + len body) ++ body) /\
    StreamP (LutPacket (slw c)) (LutEnd (slw c)) (if slS c =? 1 then 0 else slS c) (first_table (slS c) (slSC c)) body In n /\ 8 + len body <= slsize c n.
Proof.
  intros Hc HIn Hn Hcap. unfold sl_compress. cbn [orb].
  replace (n =? 0) with false by lia. replace (cap <? rle_compress_bounds n) with false by lia. cbn [orb].
  destruct (sl_body_ok c v In n Hc HIn Hn) as (body & -> & HS & HL). exists body. split; [reflexivity|]. split; assumption.
Qed.
