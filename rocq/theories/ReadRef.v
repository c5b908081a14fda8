(** The bytes behind a stream that the decoders depend on: exactly one vector. *)
From Verif Require Import Base Simd SimdProof Spec PktSpec FmtSpec Fmt8Spec LutSpec ExtModel ExtDec ExtEnc PktModel PktDec PktEnc Codec
  Rle8Model Rle8Proof Rle8Single Rle8Thm MbModel MbEnc LutModel LutProof SlModel SlProof SlThm ShModel ShProof ShEnc ShThm FmtThm Fmt2Thm WrThm ReadSpec ReadThm ReadFam ReadX.

Lemma upto_mono k k' dec n m m' out : k <= k' -> m <= m' -> StreamUpTo k dec n m out -> StreamUpTo k' dec n m' out.
Proof.
  intros Hk Hm H C1 C2 pin inSize M pout cap Hh HA H1 H2 H3 H4 H5 H6. apply H; try assumption; [|lia]. intros x Hx. apply HA. lia.
Qed.

(** The byte at distance [k] from the end of the stream, made visible by the byte [at] of the memory. *)
Definition shows (dec : decompressor) (k n at_ : Z) (out : list Z) : bool :=
  let C1 := store (fun _ => 0) 4096 out in
  let C2 := fun x => if x =? 4096 + len out + k then 1 else C1 x in
  match dec C1 4096 (len out) (fun _ => 0) 65536 n, dec C2 4096 (len out) (fun _ => 0) 65536 n with
  | DRet _ M1, DRet _ M2 => negb (M1 (65536 + at_) =? M2 (65536 + at_))
  | _, _ => false
  end.

Lemma store_holds l : forall M q, holds (store M q l) q l.
Proof.
  intros M q. apply holds_intro. intros k Hk. unfold store. replace ((q <=? q + k) && (q + k <? q + len l)) with true by lia.
  f_equal. lia.
Qed.

Lemma shows_refutes dec k n m at_ out : 0 <= k -> len out < 2 ^ 32 -> m < 2 ^ 32 -> shows dec k n at_ out = true -> ~ StreamUpTo k dec n m out.
Proof.
  intros Hk Hl Hm HS H. unfold shows in HS. set (C1 := store (fun _ => 0) 4096 out) in *. set (C2 := fun x => if x =? 4096 + len out + k then 1 else C1 x) in *.
  pose proof (len_nonneg out).
  destruct (H C1 C2 4096 (len out) (fun _ => 0) 65536 n) as (M1 & M2 & E1 & E2 & E); try lia.
  - apply store_holds.
  - intros x Hx. unfold C2. replace (x =? 4096 + len out + k) with false by lia. reflexivity.
  - rewrite E1, E2, E in HS. now rewrite Z.eqb_refl in HS.
Qed.

Lemma format_iff k W Str dec n out data : FormatUpTo W Str dec -> 1 <= W -> Str n out data -> ~ StreamUpTo (W - 1) dec n (len data) out ->
  (FormatUpTo k Str dec <-> W <= k).
Proof.
  intros HF HW HS HN. split.
  - intros H. destruct (Z.le_gt_cases W k) as [|Hlt]; [assumption|]. exfalso. apply HN. eapply upto_mono; [|reflexivity|apply (H n out data HS)]. lia.
  - intros Hk n' out' data' HS'. eapply upto_mono; [exact Hk|reflexivity|]. now apply HF.
Qed.

(** *** Streams that end with a copy of no literals *)

Definition xbody (c : xcfg) : list Z :=
  let sym := repeat 1 (Z.to_nat (xS c)) in
  let lf := if xUnb c && xPack c then [2] else [1] in
  (if xPack c then 2 :: sym else sym ++ [2]) ++ lf ++ (if xPack c then 128 :: le32 0 else sym ++ 0 :: le32 0) ++ lf.
Definition xout (c : xcfg) : list Z := le32 1 ++ le32 (8 + len (xbody c)) ++ xbody c.
Definition xdata (c : xcfg) : list Z := repetition (repeat 1 (Z.to_nat (xS c))) (wRun (wire_of c) 2).

Lemma xout_small c : List.In c xcodecs -> 1 <= wRun (wire_of c) 2 /\ len (xbody c) < 100.
Proof.
  intros H. assert (K : forallb (fun c => (1 <=? wRun (wire_of c) 2) && (len (xbody c) <? 100)) xcodecs = true) by (vm_compute; reflexivity).
  rewrite forallb_forall in K. specialize (K c H). lia.
Qed.

Lemma xout_stream c : List.In c xcodecs -> WireStream (wire_of c) 1 (xout c) (xdata c).
Proof.
  intros Hin. pose proof (proj1 (xcodecs_fok c Hin)) as Hc. pose proof (okS_pos _ (proj1 Hc)) as HS.
  set (sym := repeat 1 (Z.to_nat (xS c))). assert (Hl : len sym = xS c) by (unfold sym, len; rewrite repeat_length; lia).
  set (lf := if xUnb c && xPack c then [2] else [1]).
  assert (HL : LitField (wire_of c) (len (@nil Z)) lf).
  { unfold lf. destruct (xUnb c && xPack c) eqn:E; [apply LF_short7|apply LF_short]; try exact E; change (len (@nil Z)) with 0; lia. }
  exists ((if xPack c then 2 :: sym else sym ++ [2]) ++ lf ++ [] ++ []), ((if xPack c then 128 :: le32 0 else sym ++ 0 :: le32 0) ++ lf ++ []),
    ([] ++ xdata c ++ []), [].
  assert (EB : ((if xPack c then 2 :: sym else sym ++ [2]) ++ lf ++ [] ++ []) ++ ((if xPack c then 128 :: le32 0 else sym ++ 0 :: le32 0) ++ lf ++ []) = xbody c).
  { unfold xbody. fold sym lf. rewrite !app_nil_r. now rewrite <- !app_assoc. }
  split; [|split; [|split; [now rewrite !app_nil_r|split; [lia|split; [|split]]]]].
  - apply (Pk_cons (wire_of c) _ sym 2); [exact Hl| |exact HL|constructor].
    destruct (xPack c) eqn:EP; [apply CF_short|apply CF_plain_short]; try exact EP; lia.
  - apply End_lits; [|exact HL]. destruct (xPack c) eqn:EP; [apply ZC_same|apply ZC_plain]; assumption.
  - unfold xdata, repetition. pose proof (xout_small c Hin). rewrite len_slice; lia.
  - rewrite EB. pose proof (xout_small c Hin). lia.
  - rewrite EB. reflexivity.
Qed.

Definition dlevels : list dsimd := [DSse; DSsse3; DAvx; DAvx512].
Lemma dlevels_all d : List.In d dlevels.
Proof. destruct d; cbn; tauto. Qed.
Lemma x_shows : forallb (fun c => forallb (fun d => shows (xdecompress c d) (dcopyW d - 1) 1 (len (xdata c) + dcopyW d - 1) (xout c)) dlevels) xcodecs = true.
Proof. vm_compute. reflexivity. Qed.

Lemma x_format_iff c d k : List.In c xcodecs -> (FormatUpTo k (WireStream (wire_of c)) (xdecompress c d) <-> dcopyW d <= k).
Proof.
  intros Hin. pose proof (xout_small c Hin) as [H1 H2]. apply (format_iff k _ _ _ 1 (xout c) (xdata c)).
  - intros n out data. now apply wire_reads.
  - destruct (dcopyW_pos d); lia.
  - now apply xout_stream.
  - apply (shows_refutes _ _ _ _ (len (xdata c) + dcopyW d - 1)).
    + destruct (dcopyW_pos d); lia.
    + unfold xout. rewrite !len_app, !len_le32. lia.
    + assert (K : forallb (fun c => len (xdata c) <? 100) xcodecs = true) by (vm_compute; reflexivity). rewrite forallb_forall in K. specialize (K c Hin). lia.
    + pose proof x_shows as K. rewrite forallb_forall in K. specialize (K c Hin). rewrite forallb_forall in K. apply K. apply dlevels_all.
Qed.

Definition m8body (pk : bool) : list Z := (if pk then [2; 1; 2] else [1; 2; 1]) ++ (if pk then 0 :: le32 0 ++ [1] ++ [2] else 1 :: 0 :: le32 0 ++ [1]).
Definition m8out (pk : bool) : list Z := le32 1 ++ le32 (9 + len (m8body pk)) ++ [0] ++ m8body pk.
Definition m8data (pk : bool) : list Z := repetition [1] (m8Run pk 2).
Lemma m8out_stream pk : M8Stream pk 1 (m8out pk) (m8data pk).
Proof.
  exists (m8body pk). split; [reflexivity|]. split; [lia|]. split; [destruct pk; vm_compute; discriminate|]. split; [destruct pk; vm_compute; reflexivity|].
  assert (B : is_byte 1) by (unfold is_byte; lia). destruct pk.
  - exists ((([2; 1] ++ [2 * 1]) ++ [] ++ [])), ([] ++ m8data true ++ []), 1, (((0 :: le32 0 ++ [1]) ++ [2 * 1]) ++ []), [].
    split; [|split; [|split; reflexivity]].
    + eapply Serial_cons; [|apply Serial_nil]. apply (M8Packet_intro true 0 1 2 [2; 1] [] [2 * 1]); [apply M8C_pshort; auto; lia|lia|apply M8L_pshort; [reflexivity|unfold len; cbn; lia]].
    + apply (M8End_lits true 1 1 (0 :: le32 0 ++ [1]) [] [2 * 1]); [apply M8C_plong; auto; lia|apply M8L_pshort; [reflexivity|unfold len; cbn; lia]].
  - exists ((([1; 2] ++ [1]) ++ [] ++ [])), ([] ++ m8data false ++ []), 1, (((1 :: 0 :: le32 0) ++ [1]) ++ []), [].
    split; [|split; [|split; reflexivity]].
    + eapply Serial_cons; [|apply Serial_nil]. apply (M8Packet_intro false 0 1 2 [1; 2] [] [1]); [apply M8C_short; auto; lia|lia|apply M8L_short; [reflexivity|unfold len; cbn; lia]].
    + apply (M8End_lits false 1 1 (1 :: 0 :: le32 0) [] [1]); [apply M8C_long; auto; lia|apply M8L_short; [reflexivity|unfold len; cbn; lia]].
Qed.
Lemma m8_format_iff pk d k : FormatUpTo k (M8Stream pk) (r8_decompress pk d) <-> d8W d <= k.
Proof.
  apply (format_iff k _ _ _ 1 (m8out pk) (m8data pk)).
  - intros n out data. now apply m8_reads.
  - pose proof (d8W_16 d); lia.
  - apply m8out_stream.
  - apply (shows_refutes _ _ _ _ (len (m8data pk) + d8W d - 1)); [pose proof (d8W_16 d); lia|destruct pk; vm_compute; reflexivity|destruct pk; vm_compute; reflexivity|].
    destruct pk, d; vm_compute; reflexivity.
Qed.

Definition s8body : list Z := [2; 1] ++ (0 :: le32 0 ++ [1]).
Definition s8out : list Z := le32 1 ++ le32 (10 + len s8body) ++ [1; 1] ++ s8body.
Definition s8data (pk : bool) : list Z := repetition [1] (s8Run pk 2).
Lemma s8out_stream pk : S8Stream pk 1 s8out (s8data pk).
Proof.
  exists 1, s8body. split; [reflexivity|]. split; [lia|]. split; [destruct pk; vm_compute; discriminate|]. split; [vm_compute; reflexivity|]. split; [unfold is_byte; lia|].
  exists ((([2] ++ [1]) ++ [] ++ [])), ([] ++ s8data pk ++ []), tt, (((0 :: le32 0) ++ [1]) ++ []), [].
  split; [|split; [|split; [reflexivity|now rewrite !app_nil_r]]].
  - eapply Serial_cons; [|apply Serial_nil]. apply (S8Packet_intro pk 1 2 [2] [] [1]); [apply S8N_short; lia|lia|apply S8N_short; unfold len; cbn; lia].
  - apply (S8End_lits (0 :: le32 0) [] [1]); [apply S8N_long; lia|apply S8N_short; unfold len; cbn; lia].
Qed.
Lemma s8_format_iff pk d k : FormatUpTo k (S8Stream pk) (r8_decompress pk d) <-> d8W d <= k.
Proof.
  apply (format_iff k _ _ _ 1 s8out (s8data pk)).
  - intros n out data. now apply s8_reads.
  - pose proof (d8W_16 d); lia.
  - apply s8out_stream.
  - apply (shows_refutes _ _ _ _ (len (s8data pk) + d8W d - 1)); [pose proof (d8W_16 d); lia|destruct pk; vm_compute; reflexivity|destruct pk; vm_compute; reflexivity|].
    destruct pk, d; vm_compute; reflexivity.
Qed.

Definition levels : list lvl := [LSse; LSsse3; LSse41; LAvx; LAvx2; LAvx512].
Lemma levels_all l : List.In l levels.
Proof. destruct l; cbn; tauto. Qed.

Definition lutbody (c : slcfg) : list Z :=
  (lwHead (slw c) (slSC c) 4 2 ++ repeat 1 (Z.to_nat (slS c))) ++ lwHead (slw c) 0 0 2 ++ le32 0.
Definition lutout (c : slcfg) : list Z := le32 1 ++ le32 (8 + len (lutbody c)) ++ lutbody c.
Definition lutdata (c : slcfg) : list Z := repetition (repeat 1 (Z.to_nat (slS c))) (lwRun (slw c) 4).
Lemma lut_small c : List.In c slcodecs -> 1 <= lwRun (slw c) 4 /\ len (lutbody c) < 100 /\ len (lutdata c) < 100.
Proof.
  intros H. assert (K : forallb (fun c => (1 <=? lwRun (slw c) 4) && (len (lutbody c) <? 100) && (len (lutdata c) <? 100)) slcodecs = true) by (vm_compute; reflexivity).
  rewrite forallb_forall in K. specialize (K c H). lia.
Qed.
Lemma lutout_stream c : List.In c slcodecs -> LutStream (slw c) 1 (lutout c) (lutdata c).
Proof.
  intros Hin. pose proof (lut_small c Hin) as (H1 & H2 & H3). pose proof (slcodecs_ok c Hin) as (HS & H8 & HSC). pose proof (okS1_pos _ HS) as HS2.
  exists (lutbody c). split; [reflexivity|]. split; [lia|]. split; [unfold lutdata, repetition; rewrite len_slice; lia|]. split; [lia|].
  set (sym := repeat 1 (Z.to_nat (slS c))) in *. assert (Hl : len sym = slS c) by (unfold sym, len; rewrite repeat_length; lia).
  assert (Hb : Forall is_byte sym) by (apply Forall_forall; intros x Hx; apply repeat_spec in Hx; subst x; unfold is_byte; lia).
  exists ((lwHead (slw c) (lwSC (slw c)) 4 2 ++ sym ++ [] ++ []) ++ [] ++ []), ([] ++ lutdata c ++ []).
  do 3 eexists. split; [|split; [|split]].
  - eapply Serial_cons; [|apply Serial_nil].
    apply (LutPacket_intro (slw c) _ (lwSC (slw c)) sym sym _ 4 4 [] [] 2 []).
    + apply Recall_new; assumption.
    + apply Number_small. lia.
    + lia.
    + lia.
    + change (len (@nil Z) + 2) with 2. apply Number_small. unfold lwBits. destruct (lwSC (slw c) =? 3); split; cbv; discriminate.
  - apply (LutEnd_lits (slw c) _ 0 [] 0 (le32 0) [] 2 []); [left; cbn [lwSC slw]; split; [lia|reflexivity]|constructor; lia|].
    change (len (@nil Z) + 2) with 2. apply Number_small. unfold lwBits. destruct (lwSC (slw c) =? 3); split; cbv; discriminate.
  - unfold lutbody. fold sym. rewrite !app_nil_r. cbn [lwSC slw app]. reflexivity.
  - now rewrite !app_nil_r.
Qed.
Lemma lut_shows : forallb (fun c => forallb (fun l => shows (sl_decompress c l) (lvl_copyW (slS c) l - 1) 1 (len (lutdata c) + lvl_copyW (slS c) l - 1) (lutout c)) levels) slcodecs = true.
Proof. vm_compute. reflexivity. Qed.
Lemma lut_format_iff c l k : List.In c slcodecs -> (FormatUpTo k (LutStream (slw c)) (sl_decompress c l) <-> lvl_copyW (slS c) l <= k).
Proof.
  intros Hin. pose proof (lut_small c Hin) as (H1 & H2 & H3). pose proof (lvl_copyW_16 (slS c) l). apply (format_iff k _ _ _ 1 (lutout c) (lutdata c)).
  - intros n out data. now apply lut_reads.
  - lia.
  - now apply lutout_stream.
  - apply (shows_refutes _ _ _ _ (len (lutdata c) + lvl_copyW (slS c) l - 1)); [lia| |lia|].
    + unfold lutout. rewrite !len_app, !len_le32. lia.
    + pose proof lut_shows as K. rewrite forallb_forall in K. specialize (K c Hin). rewrite forallb_forall in K. apply K. apply levels_all.
Qed.

Definition shbody (c : shcfg) : list Z :=
  let h k := be24 ((k * 2 ^ swC (shw c) + (2 ^ swC (shw c) - 1)) * 2 ^ (swC3 (shw c) + swL3 (shw c)) + 0 * 2 ^ swL3 (shw c) + 2) in
  let sym := repeat 1 (Z.to_nat (shS c)) in
  (h (shSC c) ++ le32 4 ++ (if shOne c then [] else sym)) ++ h 0 ++ le32 0 ++ (if shOne c then [] else if shSC c =? 0 then sym else []).
Definition shinner (c : shcfg) : list Z := if shOne c then 1 :: shbody c else shbody c.
Definition shout (c : shcfg) : list Z := le32 1 ++ le32 (8 + len (shinner c)) ++ shinner c.
Definition shdata (c : shcfg) : list Z := repetition (repeat 1 (Z.to_nat (shS c))) (swRun (shw c) 4).
Lemma sh_small c : List.In c shcodecs -> 1 <= swRun (shw c) 4 /\ len (shinner c) < 100 /\ len (shdata c) < 100 /\ 2 <= 2 ^ swL3 (shw c) - 1 /\ (shOne c = true -> shS c = 1 /\ shSC c = 0).
Proof.
  intros H. assert (K : forallb (fun c => (1 <=? swRun (shw c) 4) && (len (shinner c) <? 100) && (len (shdata c) <? 100) && (2 <=? 2 ^ swL3 (shw c) - 1) &&
    (negb (shOne c) || ((shS c =? 1) && (shSC c =? 0)))) shcodecs = true) by (vm_compute; reflexivity).
  rewrite forallb_forall in K. specialize (K c H). destruct (shOne c); cbn [negb orb] in K; repeat split; try lia; intros; try lia; discriminate.
Qed.
Lemma shout_stream c : List.In c shcodecs -> ShortStream (shw c) 1 (shout c) (shdata c).
Proof.
  intros Hin. pose proof (sh_small c Hin) as (H1 & H2 & H3 & H4 & H5). pose proof (shcodecs_ok c Hin) as (HS & H8 & HSC & _). pose proof (okS1_pos _ HS) as HS2.
  exists 1, (shbody c). cbv zeta. cbn [swOne shw]. fold (shinner c). split; [reflexivity|]. split; [lia|]. split; [unfold shdata, repetition; rewrite len_slice; lia|].
  split; [lia|]. split; [unfold is_byte; lia|].
  set (sym := repeat 1 (Z.to_nat (shS c))) in *. assert (Hl : len sym = shS c) by (unfold sym, len; rewrite repeat_length; lia).
  assert (Hb : Forall is_byte sym) by (apply Forall_forall; intros x Hx; apply repeat_spec in Hx; subst x; unfold is_byte; lia).
  set (h := fun k => be24 ((k * 2 ^ swC (shw c) + (2 ^ swC (shw c) - 1)) * 2 ^ (swC3 (shw c) + swL3 (shw c)) + 0 * 2 ^ swL3 (shw c) + 2)).
  set (T0 := first_table (swS (shw c)) (swSC (shw c))).
  assert (HE : ShortHead (shw c) 0 0 (len (@nil Z)) (h 0 ++ le32 0 ++ [])).
  { apply ShortHead_3; [constructor; lia|]. change (len (@nil Z) + 2) with 2. now apply Number_small. }
  exists (((h (shSC c) ++ le32 4 ++ []) ++ (if shOne c then [] else sym)) ++ [] ++ []), ([] ++ shdata c ++ []).
  exists (if shOne c || (shSC c =? 0) then T0 else sym :: removelast T0).
  exists (((h 0 ++ le32 0 ++ []) ++ (if shOne c then [] else if shSC c =? 0 then sym else [])) ++ []), []. split; [|split; [|split]].
  - eapply Serial_cons; [|apply Serial_nil]. eapply (ShortPacket_intro (shw c) 1 _ (shSC c) sym _ _ 4 []).
    + destruct (shOne c) eqn:Ho.
      * destruct (H5 eq_refl) as [HS1 HSC0]. rewrite HSC0. unfold sym. rewrite HS1. cbn. apply ShortSymbol_one. exact Ho.
      * cbn [orb]. destruct (Z.eq_dec (shSC c) 0) as [H0|H0].
        -- rewrite H0. cbn [Z.eqb]. apply ShortSymbol_given; cbn [swOne swSC swS shw]; assumption.
        -- replace (shSC c =? 0) with false by lia. apply ShortSymbol_table; cbn [swOne swSC swS shw]; try assumption. apply Recall_new; assumption.
    + apply ShortHead_3; [constructor; lia|]. change (len (@nil Z) + 2) with 2. now apply Number_small.
    + lia.
    + lia.
  - apply (ShortEnd_lits (shw c) 1 _ 0 _ [] _ HE). cbn [swOne swS swSC shw]. destruct (shOne c); [split; reflexivity|].
    destruct (shSC c =? 0) eqn:E0; [right; split; [lia|split; assumption]|left; split; [lia|reflexivity]].
  - unfold shbody. fold sym. fold h. cbv zeta. rewrite !app_nil_r. reflexivity.
  - now rewrite !app_nil_r.
Qed.
Lemma sh_shows : forallb (fun c => forallb (fun l => shows (sh_decompress c l) (lvl_copyW (shS c) l - 1) 1 (len (shdata c) + lvl_copyW (shS c) l - 1) (shout c)) levels) shcodecs = true.
Proof. vm_compute. reflexivity. Qed.
Lemma short_format_iff c l k : List.In c shcodecs -> (FormatUpTo k (ShortStream (shw c)) (sh_decompress c l) <-> lvl_copyW (shS c) l <= k).
Proof.
  intros Hin. pose proof (sh_small c Hin) as (H1 & H2 & H3 & _). pose proof (lvl_copyW_16 (shS c) l). apply (format_iff k _ _ _ 1 (shout c) (shdata c)).
  - intros n out data. now apply short_reads.
  - lia.
  - now apply shout_stream.
  - apply (shows_refutes _ _ _ _ (len (shdata c) + lvl_copyW (shS c) l - 1)); [lia| |lia|].
    + unfold shout. rewrite !len_app, !len_le32. lia.
    + pose proof sh_shows as K. rewrite forallb_forall in K. specialize (K c Hin). rewrite forallb_forall in K. apply K. apply levels_all.
Qed.

(** *** The streams of the compressors *)

Lemma x_own c v d : List.In c xcodecs -> OwnUpTo (dcopyW d) (xcompress c v false false) (xdecompress c d).
Proof.
  intros Hc In n cap out HIn Hn HC. destruct (wire_encodes c v In n cap out Hc HIn Hn HC) as (m & Hm & HS).
  eapply upto_mono; [reflexivity| |apply (wire_reads c d n out _ Hc HS)]. rewrite len_slice by lia.
  assert (xS c <= 16) by (pose proof (proj1 (proj1 (xcodecs_fok c Hc))) as H; unfold okS in H; lia). lia.
Qed.
Lemma m_own pk avx2 d : OwnUpTo (d8W d) (m_compress pk avx2 false false) (r8_decompress pk d).
Proof.
  intros In n cap out HIn Hn HC. eapply upto_mono; [reflexivity| |apply (m8_reads pk d n out _ (m8_encodes pk avx2 In n cap out HIn Hn HC))]. rewrite len_slice; lia.
Qed.
Lemma s_own pk d : OwnUpTo (d8W d) (s_compress pk false false) (r8_decompress pk d).
Proof.
  intros In n cap out HIn Hn HC. eapply upto_mono; [reflexivity| |apply (s8_reads pk d n out _ (s8_encodes pk In n cap out HIn Hn HC))]. rewrite len_slice; lia.
Qed.
Lemma sl_own c v l : List.In c slcodecs -> OwnUpTo (lvl_copyW (slS c) l) (sl_compress c v false false) (sl_decompress c l).
Proof.
  intros Hc In n cap out HIn Hn HC. destruct (lut_encodes c v In n cap out Hc HIn Hn HC) as (m & Hm & HS).
  eapply upto_mono; [reflexivity| |apply (lut_reads c l n out _ Hc HS)]. pose proof (slcodecs_ok c Hc) as (H1 & H8 & _).
  destruct (slS c =? 1); rewrite len_slice; lia.
Qed.
Lemma sh_encoder_in c comp : sh_encoder c comp -> List.In c shcodecs.
Proof.
  intros [c' v H|c' H]; [exact H|]. revert H. unfold greedy_codecs. cbn [flat_map map app]. intros H.
  repeat (destruct H as [<-|H]; [vm_compute; tauto|]). destruct H.
Qed.
Lemma sh_own c comp l : sh_encoder c comp -> OwnUpTo (lvl_copyW (shS c) l) (comp false false) (sh_decompress c l).
Proof.
  intros He In n cap out HIn Hn HC. destruct (short_encodes c comp In n cap out He HIn Hn HC) as (m & Hm & HS).
  pose proof (sh_encoder_in c comp He) as Hc. pose proof (shcodecs_ok c Hc) as (_ & H8 & _).
  eapply upto_mono; [reflexivity| |apply (short_reads c l n out _ Hc HS)]. destruct (shS c =? 1); rewrite len_slice; lia.
Qed.

(** One byte: the byte is a literal and the decoder copies a vector that begins with it. *)
Definition own_shows (comp : compressor) (dec : decompressor) (W : Z) : bool :=
  match comp (fun _ => 5) 1 256 with COk out => (len out <? 100) && shows dec (W - 2) 1 (W - 1) out | _ => false end.
Lemma own_refutes comp dec W : 2 <= W -> own_shows comp dec W = true -> ~ OwnUpTo (W - 2) comp dec.
Proof.
  intros HW H HO. unfold own_shows in H. destruct (comp (fun _ => 5) 1 256) as [|out|] eqn:E; try discriminate.
  apply andb_true_iff in H. destruct H as [H1 H2].
  refine (shows_refutes dec (W - 2) 1 (1 + 16) (W - 1) out _ _ _ H2 (HO (fun _ => 5) 1 256 out _ _ E)); try lia. intros x. unfold is_byte. lia.
Qed.

Definition simds : list simd := [Base_; Sse2; Ssse3; Avx2].
Lemma simds_all v : List.In v simds.
Proof. destruct v; cbn; tauto. Qed.
Lemma x_own_shows : forallb (fun c => forallb (fun v => forallb (fun d => own_shows (xcompress c v false false) (xdecompress c d) (dcopyW d)) dlevels) simds) xcodecs = true.
Proof. vm_compute. reflexivity. Qed.
Lemma x_own_refuted c v d : List.In c xcodecs -> ~ OwnUpTo (dcopyW d - 2) (xcompress c v false false) (xdecompress c d).
Proof.
  intros Hc. apply own_refutes; [destruct (dcopyW_pos d); lia|]. pose proof x_own_shows as K. rewrite forallb_forall in K. specialize (K c Hc).
  rewrite forallb_forall in K. specialize (K v (simds_all v)). rewrite forallb_forall in K. apply K. apply dlevels_all.
Qed.
Lemma m_own_refuted pk avx2 d : ~ OwnUpTo (d8W d - 2) (m_compress pk avx2 false false) (r8_decompress pk d).
Proof. apply own_refutes; [pose proof (d8W_16 d); lia|]. destruct pk, avx2, d; vm_compute; reflexivity. Qed.
Lemma s_own_refuted pk d : ~ OwnUpTo (d8W d - 2) (s_compress pk false false) (r8_decompress pk d).
Proof. apply own_refutes; [pose proof (d8W_16 d); lia|]. destruct pk, d; vm_compute; reflexivity. Qed.
Lemma sl_own_shows : forallb (fun c => forallb (fun v => forallb (fun l => own_shows (sl_compress c v false false) (sl_decompress c l) (lvl_copyW (slS c) l)) levels) simds) slcodecs = true.
Proof. vm_compute. reflexivity. Qed.
Lemma sl_own_refuted c v l : List.In c slcodecs -> ~ OwnUpTo (lvl_copyW (slS c) l - 2) (sl_compress c v false false) (sl_decompress c l).
Proof.
  intros Hc. apply own_refutes; [pose proof (lvl_copyW_16 (slS c) l); lia|]. pose proof sl_own_shows as K. rewrite forallb_forall in K. specialize (K c Hc).
  rewrite forallb_forall in K. specialize (K v (simds_all v)). rewrite forallb_forall in K. apply K. apply levels_all.
Qed.
Lemma sh_own_shows : forallb (fun c => forallb (fun v => forallb (fun l => own_shows (sh_compress c v false false) (sh_decompress c l) (lvl_copyW (shS c) l)) levels) simds) shcodecs
  && forallb (fun c => forallb (fun l => own_shows (greedy_compress c false false) (sh_decompress c l) (lvl_copyW (shS c) l)) levels) greedy_codecs = true.
Proof. vm_compute. reflexivity. Qed.
Lemma sh_own_refuted c comp l : sh_encoder c comp -> ~ OwnUpTo (lvl_copyW (shS c) l - 2) (comp false false) (sh_decompress c l).
Proof.
  intros He. apply own_refutes; [pose proof (lvl_copyW_16 (shS c) l); lia|]. pose proof sh_own_shows as K. apply andb_true_iff in K. destruct K as [K1 K2].
  rewrite forallb_forall in K1, K2. destruct He as [c v Hc|c Hc].
  - specialize (K1 c Hc). rewrite forallb_forall in K1. specialize (K1 v (simds_all v)). rewrite forallb_forall in K1. apply K1. apply levels_all.
  - specialize (K2 c Hc). rewrite forallb_forall in K2. apply K2. apply levels_all.
Qed.
