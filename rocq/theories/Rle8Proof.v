(** Correctness of the 8 bit extreme codecs. *)
From Verif Require Import Base Simd SimdProof Spec LargeSpec PktSpec Fmt8Spec ExtModel ExtDec ExtEnc PktModel PktDec PktEnc Rle8Model.

(** ** Multi symbol codec *)

Lemma d8W_ok d : 0 < d8W d <= 64.
Proof. destruct d; cbn; lia. Qed.

Lemma memset_repeat W M q cnt b : 0 < W <= 64 -> 0 <= cnt -> 0 < q -> q + cnt + 128 < 2 ^ 64 ->
  exists M', memsetW W b M q cnt = Some (q + cnt, M') /\ slice M' q cnt = repeat b (Z.to_nat cnt) /\
    (forall x, x < q \/ q + cnt + 96 <= x -> M' x = M x).
Proof.
  intros HW Hc Hq Hb. destruct (memsetW_spec W b M q cnt) as (M' & HM & H1 & H2); try lia.
  exists M'. split; [exact HM|]. split.
  - pose proof (run8_slice M' (q + cnt) cnt b Hc) as K. replace (q + cnt - cnt) with q in K by lia. apply K.
    intros k Hk. apply H1. lia.
  - intros x Hx. apply H2. lia.
Qed.

Lemma len_repeat (b : Z) k : 0 <= k -> len (repeat b (Z.to_nat k)) = k.
Proof. intros H. unfold len. rewrite repeat_length. lia. Qed.

Lemma lor_shift a b k : 0 <= k -> 0 <= b < 2 ^ k -> Z.lor (Z.shiftl a k) b = a * 2 ^ k + b.
Proof.
  intros Hk Hb. rewrite Z.shiftl_mul_pow2 by assumption.
  assert (H0 : Z.land (a * 2 ^ k) b = 0).
  { apply Z.bits_inj'. intros i Hi. rewrite Z.land_spec, Z.bits_0. destruct (Z_lt_ge_dec i k) as [H|H].
    - rewrite Z.mul_pow2_bits_low by lia. reflexivity.
    - destruct (Z.eq_dec b 0) as [->|]; [rewrite Z.bits_0; apply andb_false_r|].
      rewrite (Z.bits_above_log2 b i), andb_false_r; try reflexivity; try lia.
      apply Z.lt_le_trans with k; [apply Z.log2_lt_pow2; lia|lia]. }
  rewrite <- Z.lxor_lor by exact H0. symmetry. now apply Z.add_nocarry_lxor.
Qed.

Lemma periodic_1 b cnt : 0 <= cnt -> periodic [b] cnt = repeat b (Z.to_nat cnt).
Proof.
  intros H. rewrite <- (run8_slice (fun _ => b) cnt cnt b H) by (intros k Hk; reflexivity).
  unfold periodic. apply slice_map_shift. intros k Hk. change (len [b]) with 1. rewrite Z.mod_1_r. reflexivity.
Qed.

Lemma repetition_periodic sym n : repetition sym n = periodic sym n.
Proof. reflexivity. Qed.

Lemma mSHORT_pos pk : 3 <= mSHORT pk <= 6.
Proof. destruct pk; cbn; lia. Qed.

(** *** Decoder on the grammar *)

Lemma M8Count_parse pk C p last sym v cf rest :
  M8Count pk last sym v cf -> holds C p (cf ++ rest) -> m_dec_count pk C p last = (p + len cf, sym, v).
Proof.
  intros HC H. unfold m_dec_count. destruct HC as [ -> Hb Hv| -> Hb Hv| -> Hb Hv| -> Hb Hv| -> -> Hv| -> -> Hv].
  - cbn [app holds] in H. destruct H as (H1 & H2 & _). rewrite H1, H2. replace (v =? 0) with false by lia. reflexivity.
  - cbn [app holds] in H. destruct H as (H1 & H2 & H3). rewrite H1, H2. cbn [Z.eqb]. replace (p + 2) with (p + 1 + 1) by lia.
    rewrite (rd32_holds C (p + 1 + 1) v rest) by (try exact H3; lia). rewrite !len_cons, len_le32. do 2 f_equal. lia.
  - cbn [app holds] in H. destruct H as (H1 & H2 & _). cbv zeta. rewrite H1.
    destruct (bits_same v ltac:(lia)) as (_ & _ & B3 & B4 & _ & _). rewrite Z.lor_0_r in B3, B4. rewrite B3, B4.
    replace (v =? 0) with false by lia. cbn [negb Z.eqb]. rewrite H2. change (len [v; sym]) with 2. do 2 f_equal. lia.
  - cbn [app holds] in H. destruct H as (H1 & H2). cbv zeta. rewrite H1. change (Z.land 0 127 =? 0) with true.
    change (negb (Z.land 0 128 =? 0)) with false. cbn iota. rewrite <- app_assoc in H2.
    rewrite (rd32_holds C (p + 1) v _) by (try exact H2; lia). apply holds_app in H2. destruct H2 as [_ H2]. rewrite len_le32 in H2.
    cbn [app holds] in H2. destruct H2 as [H2 _]. rewrite H2, len_cons, len_app, len_le32. change (len [sym]) with 1. do 2 f_equal. lia.
  - cbn [app holds] in H. destruct H as (H1 & _). cbv zeta. rewrite H1.
    destruct (bits_same v ltac:(lia)) as (B1 & B2 & _). rewrite Z.lor_comm in B1, B2. change 128 with (Z.shiftl 1 7) in B1, B2 at 1.
    rewrite lor_shift in B1, B2 by lia. change (1 * 2 ^ 7) with 128 in *. rewrite B1, B2.
    replace (v =? 0) with false by lia. cbn [negb Z.eqb]. reflexivity.
  - cbn [app holds] in H. destruct H as (H1 & H2). cbv zeta. rewrite H1. change (Z.land 128 127 =? 0) with true.
    change (negb (Z.land 128 128 =? 0)) with true. cbn iota.
    rewrite (rd32_holds C (p + 1) v _) by (try exact H2; lia). rewrite len_cons, len_le32. do 2 f_equal. lia.
Qed.

Lemma M8Count_range pk last sym v cf : M8Count pk last sym v cf -> 0 <= v < 2 ^ 32.
Proof. intros []; lia. Qed.

Lemma M8Lits_parse pk C p r lf rest :
  M8Lits pk r lf -> 1 <= r -> holds C p (lf ++ rest) -> m_dec_range pk C p = (p + len lf, r, false) /\ r < 2 ^ 32.
Proof.
  intros HL Hr H. unfold m_dec_range. destruct HL as [ -> Hv| -> Hv| -> Hv| -> Hv].
  - cbn [app holds] in H. destruct H as [H _]. rewrite H. replace (r =? 0) with false by lia. split; [reflexivity|lia].
  - cbn [app holds] in H. destruct H as [H1 H2]. rewrite H1. cbn [Z.eqb]. rewrite (rd32_holds C (p + 1) r rest) by (try exact H2; lia).
    replace (r =? 0) with false by lia. rewrite len_cons, len_le32. split; [do 2 f_equal; lia|lia].
  - cbn [app holds] in H. destruct H as [H _]. cbv zeta. rewrite H, land1. replace ((2 * r) mod 2 =? 1) with false by lia.
    change (len [2 * r]) with 1. split; [do 2 f_equal; lia|lia].
  - cbv zeta. rewrite (rd32_holds C p (2 * r + 1) rest) by (try exact H; lia).
    unfold le32 in H. cbn [app holds] in H. destruct H as [H _]. rewrite H, land1.
    replace (((2 * r + 1) mod 256) mod 2 =? 1) with true by lia. replace ((2 * r + 1) / 2) with r by lia.
    replace (r =? 0) with false by lia. rewrite len_le32. split; [reflexivity|lia].
Qed.

Notation MPkt pk := (Pkt (fun _ : d8 => m_parse pk) (m_fill pk) eq).
Notation MTerm pk := (GTerm (fun _ : d8 => m_parse pk) eq).

Lemma M8Packet_pkt pk last h lits run sym : M8Packet pk last h lits run sym -> MPkt pk last h lits run sym.
Proof.
  intros [sym' v cf lits' lf HC Hv HL]. pose proof (M8Count_range _ _ _ _ _ HC) as Hr. pose proof (len_nonneg lits') as Hl0.
  assert (Hrun : 0 < m8Run pk v) by (unfold m8Run; destruct pk; lia).
  rewrite repetition_periodic. assert (Hlp : len (periodic [sym'] (m8Run pk v)) = m8Run pk v) by (apply len_slice; lia).
  split; [lia|]. intros d C p reg -> H. exists sym', v. split.
  - unfold m_parse. rewrite (M8Count_parse pk C p last sym' v cf lf HC H). apply holds_app in H. destruct H as [_ H].
    destruct (M8Lits_parse pk C (p + len cf) (len lits' + 1) lf [] HL ltac:(lia) ltac:(rewrite app_nil_r; exact H)) as [ -> H32].
    rewrite w64_id by lia. rewrite len_app. f_equal; lia.
  - split; [exact Hv|]. split; [reflexivity|]. intros M q Hq Hq2. rewrite Hlp in *. rewrite periodic_1 by lia. unfold m_fill.
    replace (v + (mSHORT pk - 1)) with (m8Run pk v) by (unfold m8Run; destruct pk; cbn [mSHORT]; lia).
    apply memset_repeat; try lia. apply d8W_ok.
Qed.

Lemma M8End_term pk last e lits : M8End pk last e lits -> MTerm pk last e lits.
Proof.
  intros [sym v cf HC|sym cf lits' lf HC HL].
  - constructor. intros d C p reg -> H. unfold m_parse. rewrite (M8Count_parse pk C p last sym v cf _ HC H).
    apply holds_app in H. destruct H as [_ H]. unfold m_dec_range. destruct pk.
    + rewrite (rd32_holds C _ 1 []) by (try (rewrite app_nil_r; exact H); lia).
      unfold le32 in H. cbn [app holds] in H. destruct H as [H _]. rewrite H. reflexivity.
    + change (0 :: le32 0) with ([0] ++ le32 0) in H. apply holds_app in H. destruct H as [[H1 _] H2].
      change (len [0]) with 1 in H2. rewrite H1. cbn [Z.eqb].
      rewrite (rd32_holds C _ 0 []) by (try (rewrite app_nil_r; exact H2); lia). reflexivity.
  - constructor. intros d C p reg -> H. exists sym. pose proof (len_nonneg lits') as Hl0.
    unfold m_parse. rewrite (M8Count_parse pk C p last sym 0 cf _ HC H). apply holds_app in H. destruct H as [_ H].
    destruct (M8Lits_parse pk C (p + len cf) (len lits' + 1) lf [] HL ltac:(lia) ltac:(rewrite app_nil_r; exact H)) as [ -> H32].
    rewrite w64_id by lia. rewrite len_app. f_equal; lia.
Qed.

(** *** Encoder writes the grammar *)

Lemma m_range_lits pk r : 1 <= r < 2 ^ 31 -> M8Lits pk r (m_range pk r).
Proof.
  intros Hr. unfold m_range. destruct pk.
  - destruct (r <=? 127) eqn:E.
    + rewrite w8_id by lia. rewrite Z.mul_comm. constructor; [reflexivity|lia].
    + change (r * 2) with (r * 2 ^ 1). rewrite <- Z.shiftl_mul_pow2, lor_shift by lia. change (2 ^ 1) with 2. rewrite Z.mul_comm. constructor; [reflexivity|lia].
  - destruct (r <=? 255) eqn:E; [rewrite w8_id by lia|]; constructor; try reflexivity; lia.
Qed.

Lemma m_count_field pk a sym count same :
  (same = true -> pk = true /\ sym = a) -> is_byte sym -> mSHORT pk <= count <= large_in ->
  M8Count pk a sym (count - mSHORT pk + 1) (m_count pk sym count same).
Proof.
  intros Hs Hb Hc. unfold m_count, large_in in *. pose proof (mSHORT_pos pk). set (sc := count - mSHORT pk + 1) in *.
  assert (Hsc : 1 <= sc < 2 ^ 31) by (unfold sc; lia). clearbody sc. destruct pk.
  - destruct (sc <=? 127) eqn:E.
    + rewrite w8_id by lia. destruct same.
      * destruct (Hs eq_refl) as [_ ->]. rewrite Z.lor_comm. change 128 with (Z.shiftl 1 7). rewrite lor_shift by lia. apply M8C_sshort; try reflexivity. lia.
      * rewrite Z.lor_0_r. cbn [app]. apply M8C_pshort; try assumption; [reflexivity|lia].
    + destruct same.
      * destruct (Hs eq_refl) as [_ ->]. rewrite app_nil_r. apply M8C_slong; try reflexivity. lia.
      * cbn [app]. apply M8C_plong; try assumption; [reflexivity|lia].
  - destruct (sc <=? 255) eqn:E; cbn [app]; [rewrite w8_id by lia; apply M8C_short|apply M8C_long]; try assumption; try reflexivity; lia.
Qed.

Lemma m_pkt pk a In i count sym last same :
  (same = true -> pk = true /\ sym = a) -> is_byte sym -> mSHORT pk <= count -> 0 <= last <= i - count -> i <= large_in ->
  M8Packet pk a (m_count pk sym count same ++ m_range pk (i - last - count + 1))
    (slice In last (i - count - last)) (repeat sym (Z.to_nat count)) sym.
Proof.
  intros Hs Hb Hc Hl Hi. pose proof (mSHORT_pos pk). unfold large_in in *. rewrite <- periodic_1 by lia. rewrite <- repetition_periodic.
  replace count with (m8Run pk (count - mSHORT pk + 1)) at 4 by (unfold m8Run; destruct pk; cbn [mSHORT]; lia). constructor.
  - apply m_count_field; try assumption. unfold large_in. lia.
  - lia.
  - rewrite len_slice by lia. replace (i - count - last + 1) with (i - last - count + 1) by lia. apply m_range_lits. lia.
Qed.

Lemma bytes_m_range pk r : Forall is_byte (m_range pk r).
Proof.
  unfold m_range. destruct pk.
  - destruct (r <=? 127); [constructor; [apply Forall_w8|constructor]|apply Forall_le32].
  - destruct (r <=? 255); [constructor; [apply Forall_w8|constructor]|constructor; [unfold is_byte; lia|apply Forall_le32]].
Qed.

Lemma bytes_m_count pk sym count same : is_byte sym -> mSHORT pk <= count -> Forall is_byte (m_count pk sym count same).
Proof.
  intros Hb Hc. unfold m_count. set (sc := count - mSHORT pk + 1). assert (1 <= sc) by (unfold sc; lia). destruct pk.
  - apply Forall_app. split.
    + destruct (sc <=? 127) eqn:E.
      * constructor; [|constructor]. rewrite w8_id by lia.
        destruct (bits_same sc ltac:(lia)) as (_ & _ & _ & _ & B1 & B2). destruct same; assumption.
      * constructor; [|apply Forall_le32]. unfold is_byte. destruct same; lia.
    + destruct same; repeat constructor; apply Hb.
  - apply Forall_app. split; [repeat constructor; apply Hb|]. destruct (sc <=? 255).
    + constructor; [apply Forall_w8|constructor].
    + constructor; [unfold is_byte; lia|apply Forall_le32].
Qed.

(** Bound on the packets for the first [x] bytes: the plain codec may lose one byte on a run of 6
    behind 255 literals. *)
Definition mB (pk : bool) (x : Z) : Z := if pk then x else x + x / 261.

Lemma len_m_count pk sym count same : len (m_count pk sym count same) =
  if pk then (if count - 2 <=? 127 then 1 else 5) + (if same then 0 else 1)
  else 1 + (if count - 5 <=? 255 then 1 else 5).
Proof.
  unfold m_count. replace (count - mSHORT pk + 1) with (if pk then count - 2 else count - 5) by (destruct pk; cbn [mSHORT]; lia).
  destruct pk.
  - rewrite len_app. destruct (count - 2 <=? 127), same; reflexivity.
  - rewrite len_app. destruct (count - 5 <=? 255); reflexivity.
Qed.

Lemma len_m_range pk r : len (m_range pk r) = if pk then (if r <=? 127 then 1 else 4) else (if r <=? 255 then 1 else 5).
Proof. unfold m_range. destruct pk; [destruct (r <=? 127)|destruct (r <=? 255)]; reflexivity. Qed.

(** Either a long run, or a short distance and a medium run or a repeated symbol. *)
Lemma m_packet_ok pk In i count sym last a same :
  byte_mem In -> 0 <= last <= i - count -> i <= large_in -> is_byte sym ->
  (same = true -> pk = true /\ sym = a) -> mSHORT pk <= count ->
  (pk = true -> mLONG <= count \/ (i - last - count + 1 <= 127 /\ (same = true \/ mMEDIUM <= count))) ->
  (exists h, m_packet pk In i count sym last same = h ++ slice In last (i - count - last) /\
    M8Packet pk a h (slice In last (i - count - last)) (repeat sym (Z.to_nat count)) sym) /\
  Forall is_byte (m_packet pk In i count sym last same) /\
  len (m_packet pk In i count sym last same) + mB pk last <= mB pk i.
Proof.
  intros HIn Hl Hi Hb Hs Hc Hacc. pose proof (mSHORT_pos pk). unfold m_packet. split; [|split].
  - eexists. split; [now rewrite app_assoc|]. now apply m_pkt.
  - apply Forall_app. split; [now apply bytes_m_count|]. apply Forall_app. split; [apply bytes_m_range|].
    apply Forall_slice. exact HIn.
  - rewrite !len_app, len_slice by lia. rewrite len_m_count, len_m_range. unfold mB. destruct pk.
    + specialize (Hacc eq_refl). unfold mLONG, mMEDIUM in Hacc. cbn [mSHORT] in *.
      destruct (count - 2 <=? 127) eqn:E1; destruct same; destruct (i - last - count + 1 <=? 127) eqn:E2; lia.
    + cbn [mSHORT] in *. destruct (count - 5 <=? 255) eqn:E1; destruct (i - last - count + 1 <=? 255) eqn:E2; lia.
Qed.

Lemma m_procV_ok pk In : byte_mem In -> proc8_ok (M8Packet pk) (mB pk) (m_procV pk) In.
Proof.
  intros HIn i count sym last a bytes a' Hc Hl Hi Hb Hrun H. unfold m_procV in H. destruct pk.
  - destruct (_ || _) eqn:E; [|discriminate]. injection H as <- <-.
    unfold mLONG, mMEDIUM in E. cbn [mSHORT] in *. apply m_packet_ok; try assumption; cbn [mSHORT]; unfold mLONG, mMEDIUM; lia.
  - destruct (mSHORT false <=? count) eqn:E; [|discriminate]. injection H as <- <-.
    apply m_packet_ok; try assumption; try lia; discriminate.
Qed.

Lemma m_procS_ok pk In : byte_mem In -> proc8_ok (M8Packet pk) (mB pk) (m_procS pk) In.
Proof.
  intros HIn i count sym last a bytes a' Hc Hl Hi Hb Hrun H. unfold m_procS in H.
  destruct (_ <=? count) eqn:E; [|discriminate]. injection H as <- <-.
  apply m_packet_ok; try assumption; try discriminate; destruct pk; unfold mLONG in *; cbn [mSHORT] in *; try lia; discriminate.
Qed.

Lemma m_term_count_field pk a : exists sym, M8Count pk a sym 0 (m_term_count pk).
Proof.
  destruct pk; [exists a; apply M8C_slong; try reflexivity; lia|exists 0; apply M8C_long; try reflexivity; unfold is_byte; lia].
Qed.

Lemma m_term_none_ok pk a : M8End pk a (m_term_none pk) [].
Proof. destruct (m_term_count_field pk a) as [sym H]. econstructor. exact H. Qed.

Lemma m_term_lits_ok pk a lits : len lits <= large_in ->
  exists tb, tb = m_term_lits pk (len lits) ++ lits /\ M8End pk a tb lits.
Proof.
  intros Hl. pose proof (len_nonneg lits). unfold large_in in Hl. eexists. split; [reflexivity|]. unfold m_term_lits.
  destruct (m_term_count_field pk a) as [sym H0]. econstructor; [exact H0|]. destruct pk.
  - change ((len lits + 1) * 2) with ((len lits + 1) * 2 ^ 1). rewrite <- Z.shiftl_mul_pow2, lor_shift by lia. change (2 ^ 1) with 2. rewrite Z.mul_comm.
    apply M8L_plong; [reflexivity|lia].
  - apply M8L_long; [reflexivity|lia].
Qed.

Lemma m_term_bytes pk : Forall is_byte (m_term_none pk) /\ forall k, Forall is_byte (m_term_lits pk k).
Proof.
  assert (Hz : is_byte 0 /\ is_byte 128) by (unfold is_byte; lia). destruct Hz as [Hz Hz2].
  assert (Hc : Forall is_byte (m_term_count pk)).
  { unfold m_term_count. destruct pk; constructor; try assumption; [|constructor; [assumption|]]; apply Forall_le32. }
  split; [|intros k]; (apply Forall_app; split; [exact Hc|]); destruct pk; try apply Forall_le32;
    (constructor; [exact Hz|apply Forall_le32]).
Qed.

Definition mbound (pk : bool) (n : Z) : Z := n + 20 + (if pk then 0 else n / 261).

(** Everything about multi_compress. *)
Lemma m_compress_ok pk avx2 In n cap :
  byte_mem In -> 1 <= n <= large_in -> rle_compress_bounds n <= cap ->
  exists body, m_compress pk avx2 false false In n cap = COk (le32 n ++ le32 (9 + len body) ++ [0] ++ body) /\
    StreamP (M8Packet pk) (M8End pk) 0 0 body In n /\ 9 + len body <= mbound pk n.
Proof.
  intros HIn Hn Hcap. unfold m_compress. cbn [orb].
  replace (n =? 0) with false by lia. replace (cap <? rle_compress_bounds n) with false by lia. cbn [orb].
  destruct (body8_ok (M8Packet pk) (M8End pk) (mB pk) (m_procV pk) (m_procS pk) (m_term_none pk) (m_term_lits pk)
    (if avx2 then 32 else 16) In n 0 (255 - In 0)) as (body & -> & HS & Hlen); try assumption.
  - now apply m_procV_ok.
  - now apply m_procS_ok.
  - destruct avx2; lia.
  - specialize (HIn 0). unfold is_byte in *. lia.
  - unfold mB. destruct pk; cbn; lia.
  - intros a. apply m_term_none_ok.
  - apply m_term_bytes.
  - intros a lits Hl. now apply m_term_lits_ok.
  - apply m_term_bytes.
  - exists body. split; [reflexivity|]. split; [exact HS|]. unfold mbound.
    assert (L1 : len (m_term_none pk) <= 11) by (destruct pk; cbn; lia).
    assert (L2 : forall k, len (m_term_lits pk k) <= 11) by (intros k; destruct pk; cbn; lia).
    unfold mB in Hlen. destruct Hlen as [Hlen|(last & Hlast & Hlen)].
    + destruct pk; lia.
    + specialize (L2 (n - last)). destruct pk; lia.
Qed.

Lemma r8_multi_restores pk d body In n :
  StreamP (M8Packet pk) (M8End pk) 0 0 body In n -> 1 <= n <= large_in -> 9 + len body < 2 ^ 32 ->
  Restores (r8_decompress pk d) 128 (le32 n ++ le32 (9 + len body) ++ [0] ++ body) In n.
Proof.
  intros HS Hn Hlen C pin inSize M pout cap Hh Hpin Hpin2 Hin Hpout Hpout2 Hcap. unfold large_in in Hn.
  apply (StreamP_mono _ (MPkt pk) _ (MTerm pk) 0 16) in HS; [|apply M8Packet_pkt|apply M8End_term|lia].
  rewrite !len_app, !len_le32 in *. change (len [0]) with 1 in *. pose proof (len_nonneg body).
  unfold r8_decompress.
  rewrite (rd32_holds C pin n _) by (try exact Hh; lia).
  apply holds_app in Hh. destruct Hh as [_ Hh]. rewrite len_le32 in Hh.
  rewrite (rd32_holds C (pin + 4) (9 + len body) _) by (try exact Hh; lia).
  apply holds_app in Hh. destruct Hh as [_ Hh]. rewrite len_le32 in Hh.
  cbn [app holds] in Hh. destruct Hh as [Hmode Hh].
  replace (pin + 4 + 4) with (pin + 8) in * by lia. rewrite Hmode.
  replace ((pin =? 0) || (pout =? 0) || (inSize =? 0) || (cap =? 0)) with false by lia.
  replace ((cap <? n) || (inSize <? 9 + len body)) with false by lia. cbn [Z.eqb].
  destruct (stream_dec (fun _ : d8 => m_parse pk) (m_fill pk) d8W eq d8W_ok d C (pin + 9) 0 M pout 0 body In n) as (M' & HL & H1 & H2);
    try assumption; try lia; try reflexivity.
  { replace (pin + 9) with (pin + 8 + 1) by lia. exact Hh. }
  rewrite HL. exists M'. split; [reflexivity|]. split; [exact H1|]. intros x Hx. apply H2. lia.
Qed.
