(** rle8_sh: from the two directions to the statements of Spec.v. *)
From Verif Require Import Base LargeSpec Simd SimdProof Spec Spec2 Codec ExtModel MtfModel MtfSpec MtfProof MzModel MzPack HsModel HsStream HsEnc HsWrite.

(** A capacity that is always enough. *)
Definition sh_need (n : Z) : Z := n + n / 128 + 19.

(** *** Facts about the writes of blocks *)
Lemma symop_shape enc g s : Forall op_ok (symop enc g s) /\ (is_byte s -> Forall is_byte (obytes (symop enc g s))) /\ len (obits (symop enc g s)) <= (if enc then 3 else 4).
Proof.
  unfold symop, sh_symbol. destruct (s =? s_rle g); [|destruct (s =? s_sec g); [|destruct (s =? s_thr g)]]; destruct enc; cbn [fst app];
    (split; [repeat constructor; cbn; lia|split; [intros Hs; cbn; repeat constructor; apply Hs|cbv; congruence]]).
Qed.
Lemma eops_shape enc l : Forall is_byte l -> forall g, Forall op_ok (eops enc g l) /\ Forall is_byte (obytes (eops enc g l)) /\ len (obits (eops enc g l)) <= (if enc then 3 else 4) * len l.
Proof.
  induction 1 as [|s l Hs Hl IH]; intros g; cbn [eops].
  - split; [constructor|]. split; [constructor|]. destruct enc; cbv; congruence.
  - rewrite obytes_app, obits_app, len_app, len_cons. destruct (IH (snx g s)) as (I1 & I2 & I3). destruct (symop_shape enc g s) as (S1 & S2 & S3).
    split; [now apply Forall_app|]. split; [apply Forall_app; auto|]. destruct enc; lia.
Qed.
Lemma tops_shape g t : tok_ok t -> Forall op_ok (tops g t) /\ Forall is_byte (obytes (tops g t)) /\ len (obits (tops g t)) <= 4 * len (tout g t).
Proof.
  destruct t as [s|c|l|l|c s|l]; cbn [tok_ok tops tout]; intros Ht.
  - destruct (symop_shape false g s) as (S1 & S2 & S3). split; [exact S1|]. split; [now apply S2|]. change (len [s]) with 1. lia.
  - split; [repeat constructor; cbn; lia|]. split; [cbn; repeat constructor; lia|]. rewrite len_repeat by lia. change (len (obits _)) with 5. lia.
  - split; [repeat constructor; cbn; lia|]. split; [|change (len (obits _)) with 7; lia].
    change (obytes _) with ([len l - 7] ++ l ++ []). rewrite app_nil_r. apply Forall_app. split; [repeat constructor; lia|apply Ht].
  - split; [repeat constructor; cbn; lia|]. split; [|change (len (obits _)) with 7; lia].
    change (obytes _) with (le32 (len l - 7) ++ l ++ []). rewrite app_nil_r. apply Forall_app. split; [apply Forall_le32|apply Ht].
  - split; [repeat constructor; cbn; lia|]. split.
    + change (obytes _) with (le32 (w32 (c - 14)) ++ [s]). apply Forall_app. split; [apply Forall_le32|]. constructor; [apply Ht|constructor].
    + rewrite len_repeat by lia. change (len (obits _)) with 7. lia.
  - destruct (eops_shape true l (proj2 Ht) g) as (E1 & E2 & E3). split; [constructor; [cbn; lia|constructor; [exact I|exact E1]]|]. split.
    + change (obytes _) with ([len l - 161] ++ obytes (eops true g l)). apply Forall_app. split; [repeat constructor; lia|exact E2].
    + change (obits _) with (bits_of 127 7 ++ obits (eops true g l)). rewrite len_app. change (len (bits_of 127 7)) with 7. lia.
Qed.

Lemma sops_shape l : Forall tok_ok l -> forall g, Forall op_ok (sops g l) /\ Forall is_byte (obytes (sops g l)) /\ len (obits (sops g l)) <= 4 * len (sout g l).
Proof.
  induction 1 as [|t l Ht Hl IH]; intros g; cbn [sops sout].
  - split; [constructor|]. split; [constructor|]. cbv; congruence.
  - rewrite obytes_app, obits_app, !len_app. destruct (IH (tnx g t)) as (I1 & I2 & I3). destruct (tops_shape g t Ht) as (S1 & S2 & S3).
    split; [now apply Forall_app|]. split; [now apply Forall_app|]. lia.
Qed.
Lemma fin_shape : Forall op_ok fin /\ Forall is_byte (obytes fin) /\ len (obits fin) = 7 /\ cost fin = 39.
Proof. split; [repeat constructor; cbn; lia|]. split; [repeat constructor; lia|]. split; reflexivity. Qed.

(** *** The stream *)
Definition sh_body (ops : list op) : list Z := obytes ops ++ hdr_bytes (obits ops).
Definition sh_stream (n : Z) (ops : list op) : list Z := le32 n ++ le32 (8 + len (sh_body ops)) ++ sh_body ops.
Lemma hdr_bytes_ok B : Forall is_byte (hdr_bytes B).
Proof. apply Forall_map, Forall_forall. intros j _. apply byteof_range. Qed.

Lemma sh_restores In n toks : 1 <= n <= large_in -> Forall tok_ok toks -> sout syms0 toks = slice In 0 n -> 8 + len (sh_body (sops syms0 toks ++ fin)) < 2 ^ 32 ->
  Restores sh_decompress 0 (sh_stream n (sops syms0 toks ++ fin)) In n.
Proof.
  intros Hn Hok Hout Hlen C pin inSize M pout cap HC H1 H2 H3 H4 H5 H6. unfold large_in in Hn.
  set (ops := sops syms0 toks ++ fin) in *. set (P := obytes ops) in *. set (B := obits ops) in *. unfold sh_stream in *.
  set (body := sh_body ops) in *. pose proof (len_nonneg body). pose proof (len_nonneg P). pose proof (len_nonneg B). assert (Hb : len body = len P + hdr_len B) by (unfold body, sh_body; rewrite len_app, (len_hdr_bytes 0 0); reflexivity).
  rewrite !len_app, !len_le32 in H2, H3. assert (HC2 := HC). apply holds_app in HC2. destruct HC2 as [_ HC2]. rewrite len_le32 in HC2.
  assert (HC3 := HC2). apply holds_app in HC3. destruct HC3 as [_ HC3]. rewrite len_le32 in HC3. replace (pin + 4 + 4) with (pin + 8) in HC3 by lia.
  unfold sh_decompress. rewrite (rd32_holds C pin n _ ltac:(lia) HC). rewrite (rd32_holds C (pin + 4) (8 + len body) body ltac:(lia) HC2).
  replace ((pin =? 0) || (pout =? 0) || (inSize =? 0) || (cap =? 0)) with false by lia. replace ((cap <? n) || (inSize <? 8 + len body)) with false by lia.
  set (top := pin + (8 + len body) - 1).
  assert (HB : forall x, pin <= x <= top -> is_byte (C x)).
  { intros x Hx. assert (Hall : Forall is_byte (le32 n ++ le32 (8 + len body) ++ body)).
    { apply Forall_app. split; [apply Forall_le32|]. apply Forall_app. split; [apply Forall_le32|]. unfold body, sh_body. apply Forall_app. split; [|apply hdr_bytes_ok].
      unfold ops. rewrite obytes_app. apply Forall_app. split; [apply (sops_shape toks Hok)|apply fin_shape]. }
    replace x with (pin + (x - pin)) by lia. rewrite (holds_nth _ _ _ (x - pin) HC) by (rewrite !len_app, !len_le32; unfold top in Hx; lia).
    rewrite Forall_forall in Hall. apply Hall. apply nth_In. assert (HX : x - pin < len (le32 n ++ le32 (8 + len body) ++ body)) by (rewrite !len_app, !len_le32; unfold top in Hx; lia). set (L := le32 n ++ le32 (8 + len body) ++ body) in *. clearbody L. unfold len in HX. lia. }
  assert (HP : holds C (pin + 8) P) by (unfold body, sh_body in HC3; apply holds_app in HC3; apply HC3).
  assert (HH : forall i, 0 <= i < len B -> bt C top i = nthb B i).
  { intros i Hi. unfold bt. assert (HX : C (top - i / 8) = byteof B (i / 8)).
    { unfold body, sh_body in HC3. apply holds_app in HC3. destruct HC3 as [_ HX]. fold P B in HX.
      replace (top - i / 8) with (pin + 8 + len P + (hdr_len B - 1 - i / 8)) by (unfold top; lia).
      rewrite (holds_nth _ _ _ (hdr_len B - 1 - i / 8) HX) by (rewrite (len_hdr_bytes 0 0); unfold hdr_len; lia).
      unfold hdr_bytes. rewrite (nth_lanes 0 0) by (unfold hdr_len; lia). f_equal. lia. }
    rewrite HX, byteof_bit by lia. f_equal. lia. }
  pose proof (sync0 C pin top HB ltac:(unfold top; lia)) as HS.
  destruct (dloop_ok C pin top HB toks (pin + 8) pout M syms0 (mkR (C top) 8 (top - 1)) Hok) as (M' & E & HW).
  - rewrite Hout, len_slice by lia. lia.
  - fold ops B. unfold top. unfold hdr_len in Hb. lia.
  - exact HS.
  - apply Bt_intro. fold ops B. intros k Hk. rewrite Z.add_0_l, HH by lia. unfold nthb. now replace (k <? 0) with false by lia.
  - exact HP.
  - rewrite E. exists M'. split; [reflexivity|]. rewrite Hout in HW. destruct HW as [W1 W2]. rewrite len_slice in W2 by lia. split.
    + pose proof (slice_of_holds _ _ _ W1) as HX. now rewrite len_slice in HX by lia.
    + intros x Hx. apply W2. lia.
Qed.

(** *** The encoder *)
Lemma mz_bounds_n n : 1 <= n <= max_in -> mz_bounds n = n + 8.
Proof. intros H. unfold mz_bounds, max_in, w32 in *. replace (2 ^ 30 <? n) with false by lia. rewrite Z.mod_small; lia. Qed.

Lemma mz_bounds_le n : 1 <= n <= large_in -> mz_bounds n <= n + 8.
Proof. intros H. unfold mz_bounds, large_in, w32 in *. destruct (2 ^ 30 <? n); [lia|]. rewrite Z.mod_small; lia. Qed.

Theorem sh_run_ok In n cap M pout : byte_mem In -> 1 <= n <= large_in -> n + 8 <= cap ->
  exists toks r M', let ops := sops syms0 toks ++ fin in
    sh_ops In n = Some ops /\ Forall tok_ok toks /\ sout syms0 toks = slice In 0 n /\
    sh_run In n cap M pout = Some (r, M') /\ r = 8 + len (sh_body ops) /\ r <= sh_need n /\ holds M' pout (le32 n ++ le32 r) /\
    (sh_need n <= cap -> holds M' pout (sh_stream n ops) /\ forall x, x < pout \/ pout + cap <= x -> M' x = M x).
Proof.
  intros HIn Hn Hcap. destruct (sh_ops_ok In n HIn Hn) as (toks & E & Hok & Hout & Hcost). unfold large_in in Hn. exists toks. set (ops := sops syms0 toks ++ fin) in *. cbv zeta.
  set (P := obytes ops). set (B := obits ops).
  assert (HopsOk : Forall op_ok ops) by (apply Forall_app; split; [apply (sops_shape toks Hok)|apply fin_shape]).
  assert (HC : 8 * len P + len B = cost (sops syms0 toks) + 39) by (change (8 * len P + len B) with (cost ops); unfold ops; rewrite cost_app; f_equal; apply fin_shape).
  assert (HB : len B <= 4 * n + 7).
  { unfold B, ops. rewrite obits_app, len_app. destruct (sops_shape toks Hok syms0) as (_ & _ & HX). rewrite Hout, len_slice in HX by lia. destruct fin_shape as (_ & _ & HF & _). lia. }
  pose proof (len_nonneg P). pose proof (len_nonneg B).
  assert (Hbl : len (sh_body ops) = len P + hdr_len B) by (unfold sh_body; rewrite len_app, (len_hdr_bytes 0 0); reflexivity).
  assert (Hsz : 8 + len P + len B / 8 + 1 <= sh_need n) by (unfold sh_need; lia).
  assert (Hsz2 : 8 + len P + hdr_len B <= sh_need n) by (unfold hdr_len; lia).
  pose proof (wok_ops M pout cap n ops _ [] [] HopsOk (wok_init M pout cap n ltac:(lia))) as HW. rewrite !app_nil_l in HW. fold P B in HW.
  unfold sh_run. rewrite E. set (w := fold_left exec ops _) in *.
  pose proof (finish_ok M pout cap n w B P HW ltac:(unfold sh_need in *; lia)) as HF. destruct (if w_next w =? 0 then _ else _) as [hs hp]. cbv zeta in HF. destruct HF as (F1 & F2 & F3).
  eexists _, _. split; [reflexivity|]. split; [exact Hok|]. split; [exact Hout|]. split; [reflexivity|]. split; [rewrite F1; lia|]. split; [rewrite F1; exact Hsz2|].
  split; [apply F2; lia|]. intros Hc. unfold Fits in F3. specialize (F3 ltac:(lia)). destruct F3 as [F3 F4]. split; [|exact F4].
  unfold sh_stream. rewrite Hbl. unfold sh_body. fold P B. rewrite F1 in F3 at 2. replace (8 + (len P + hdr_len B)) with (8 + len P + hdr_len B) by lia. exact F3.
Qed.

Lemma sh_guarded M pout : Guarded (sh_compress M pout) mz_bounds.
Proof.
  intros inNull outNull In n cap H. unfold sh_compress. replace (inNull || (n =? 0) || outNull || (cap <? mz_bounds n)) with true; [reflexivity|].
  destruct inNull, outNull; cbn [orb]; try reflexivity; try (destruct H as [H|[H|H]]; try discriminate; lia).
Qed.
Lemma sh_accepts M pout In n cap : byte_mem In -> 1 <= n <= max_in -> mz_bounds n <= cap ->
  exists r M', sh_run In n cap M pout = Some (r, M') /\ sh_compress M pout false false In n cap = COk (slice M' pout r).
Proof.
  intros HIn Hn Hc. assert (Hb := mz_bounds_n n Hn). destruct (sh_run_ok In n cap M pout HIn (max_large1 n Hn) ltac:(lia)) as (toks & r & M' & _ & _ & _ & E & _).
  exists r, M'. split; [exact E|]. unfold sh_compress. rewrite E. replace (false || (n =? 0) || false || (cap <? mz_bounds n)) with false by lia. reflexivity.
Qed.

Definition shdecs : decompressor -> Prop := fun d => d = sh_decompress.

(** What a call with enough space returns. *)
Theorem sh_good_large M pout In n cap : byte_mem In -> 1 <= n <= large_in -> sh_need n <= cap ->
  exists ops, sh_ops In n = Some ops /\ sh_compress M pout false false In n cap = COk (sh_stream n ops) /\
    Forall is_byte (sh_stream n ops) /\ len (sh_stream n ops) <= sh_need n /\ Restores sh_decompress 0 (sh_stream n ops) In n.
Proof.
  intros HIn Hn Hc. pose proof (mz_bounds_le n Hn) as Hb. assert (Hc8 : n + 8 <= cap) by (unfold sh_need in Hc; lia).
  destruct (sh_run_ok In n cap M pout HIn Hn Hc8) as (toks & r & M' & E1 & Hok & Hout & E2 & E3 & E4 & _ & E5). destruct (E5 Hc) as [E6 _]. clear E5.
  set (ops := sops syms0 toks ++ fin) in *. exists ops. split; [exact E1|].
  assert (HL : len (sh_stream n ops) = r) by (unfold sh_stream; rewrite !len_app, !len_le32; lia).
  split; [|split; [|split]].
  - unfold sh_compress. rewrite E2. replace (false || (n =? 0) || false || (cap <? mz_bounds n)) with false by lia. f_equal. rewrite <- HL. now apply slice_of_holds.
  - unfold sh_stream, sh_body. apply Forall_app. split; [apply Forall_le32|]. apply Forall_app. split; [apply Forall_le32|]. apply Forall_app. split; [|apply hdr_bytes_ok].
    unfold ops. rewrite obytes_app. apply Forall_app. split; [apply (sops_shape toks Hok)|apply fin_shape].
  - lia.
  - apply sh_restores; auto. fold ops. unfold sh_need, large_in in *. lia.
Qed.
Theorem sh_good M pout In n cap : byte_mem In -> 1 <= n <= max_in -> sh_need n <= cap ->
  exists ops, sh_ops In n = Some ops /\ sh_compress M pout false false In n cap = COk (sh_stream n ops) /\
    Forall is_byte (sh_stream n ops) /\ len (sh_stream n ops) <= sh_need n /\ Restores sh_decompress 0 (sh_stream n ops) In n.
Proof. intros HIn Hn. apply sh_good_large; [exact HIn|now apply max_large1]. Qed.

Theorem sh_round_trip M pout : RoundTrip (sh_compress M pout false false) sh_need shdecs 0.
Proof.
  intros In n cap HIn Hn Hc. destruct (sh_good M pout In n cap HIn Hn Hc) as (ops & _ & E & H1 & H2 & H3). exists (sh_stream n ops).
  split; [exact E|]. split; [exact H1|]. split; [lia|]. intros dec ->. exact H3.
Qed.
Lemma sh_out M pout In n cap out : byte_mem In -> 1 <= n <= max_in -> sh_compress M pout false false In n cap = COk out ->
  exists rest, out = le32 n ++ le32 (len out) ++ rest /\ len out <= sh_need n.
Proof.
  intros HIn Hn HC. pose proof (mz_bounds_n n Hn) as Hb.
  assert (Hcap : mz_bounds n <= cap).
  { destruct (Z_lt_ge_dec cap (mz_bounds n)) as [H|H]; [|lia]. rewrite (sh_guarded M pout) in HC by tauto. discriminate. }
  destruct (sh_run_ok In n cap M pout HIn (max_large1 n Hn) ltac:(lia)) as (toks & r & M' & _ & _ & _ & E2 & E3 & E4 & E5 & _).
  unfold sh_compress in HC. rewrite E2 in HC. replace (false || (n =? 0) || false || (cap <? mz_bounds n)) with false in HC by lia. assert (HO : out = slice M' pout r) by congruence.
  pose proof (len_nonneg (sh_body (sops syms0 toks ++ fin))). assert (HL : len out = r) by (rewrite HO; apply len_slice; lia).
  exists (slice M' (pout + 8) (r - 8)). rewrite HL. split; [|exact E4]. rewrite HO. replace r with (8 + (r - 8)) at 1 by lia. rewrite slice_app by lia. rewrite app_assoc. f_equal.
  pose proof (slice_of_holds _ _ _ E5) as HX. rewrite len_app, !len_le32 in HX. exact HX.
Qed.
Theorem sh_within M pout : WithinBound (sh_compress M pout false false) sh_need.
Proof. intros In n cap out HIn Hn HC. destruct (sh_out M pout In n cap out HIn Hn HC) as (_ & _ & H). exact H. Qed.
Theorem sh_header M pout : HeaderSizes (sh_compress M pout false false).
Proof. intros In n cap out HIn Hn HC. destruct (sh_out M pout In n cap out HIn Hn HC) as (rest & H & _). now exists rest. Qed.
Theorem sh_args M pout : CompressArgs (sh_compress M pout) mz_bounds.
Proof.
  intros inNull outNull In n cap HIn Hn. split; [|apply (sh_guarded M pout)]. intros HC.
  destruct inNull; [tauto|]. destruct outNull; [tauto|]. destruct (Z.eq_dec n 0) as [|Hn0]; [tauto|].
  destruct (Z_lt_ge_dec cap (mz_bounds n)) as [H|H]; [tauto|].
  destruct (sh_accepts M pout In n cap HIn ltac:(lia) ltac:(lia)) as (r & M' & _ & E). rewrite HC in E. discriminate.
Qed.
Theorem sh_dec_args : DecompressArgs sh_decompress.
Proof.
  intros C pin inSize M pout outSize H. unfold sh_decompress. destruct ((pin =? 0) || (pout =? 0) || (inSize =? 0) || (outSize =? 0)) eqn:E; [reflexivity|].
  replace ((outSize <? rd32 C pin) || (inSize <? rd32 C (pin + 4))) with true by lia. reflexivity.
Qed.
Theorem sh_truncated M pout : RejectsTruncated (sh_compress M pout false false) sh_decompress.
Proof.
  intros In n cap out C pin inSize M1 pout1 outSize HIn Hn HC Hh Hs. destruct (sh_out M pout In n cap out HIn Hn HC) as (rest & Ho & Hl).
  apply sh_dec_args. rewrite Ho in Hh. apply holds_app in Hh. destruct Hh as [_ Hh]. rewrite len_le32 in Hh. pose proof (len_nonneg out).
  rewrite (rd32_holds C (pin + 4) (len out) rest) by (try exact Hh; unfold sh_need, max_in in *; lia). lia.
Qed.
(** With enough space nothing outside of the buffer is written. *)
Theorem sh_writes In n cap M pout r M' : byte_mem In -> 1 <= n <= max_in -> sh_need n <= cap -> sh_run In n cap M pout = Some (r, M') ->
  r <= cap /\ forall x, x < pout \/ pout + cap <= x -> M' x = M x.
Proof.
  intros HIn Hn Hc HR. assert (Hc8 : n + 8 <= cap) by (unfold sh_need in Hc; lia).
  destruct (sh_run_ok In n cap M pout HIn (max_large1 n Hn) Hc8) as (toks & r0 & M0 & _ & _ & _ & E2 & E3 & E4 & _ & E5). assert (HX : (r0, M0) = (r, M')) by congruence. injection HX as -> ->.
  split; [lia|]. now apply E5.
Qed.

(** *** The encoder reads the input only *)
Section Ext.
  Variables (In1 In2 : mem) (n : Z).
  Hypothesis Heq : forall k, 0 <= k < n -> In1 k = In2 k.

  Lemma symbols_ext enc start count a : 0 <= start -> start + count <= n -> sh_symbols enc In1 start count a = sh_symbols enc In2 start count a.
  Proof. destruct a as [ops g]. intros H1 H2. rewrite !symbols_eq. rewrite (slice_ext In1 In2) by (intros; apply Heq; lia). reflexivity. Qed.
  Lemma scopy_ext start count a : 0 <= start -> start + count <= n -> scopy In1 start count a = scopy In2 start count a.
  Proof.
    intros H1 H2. unfold scopy. destruct a as [ops g]. rewrite (slice_ext In1 In2) by (intros; apply Heq; lia). rewrite (symbols_ext false start count (ops, g)) by lia. reflexivity.
  Qed.
  Lemma ecopy_ext start count a : 0 <= start -> 0 <= count -> start + count <= n -> ecopy In1 start count a = ecopy In2 start count a.
  Proof.
    intros H1 H2 H3. unfold ecopy, loop.
    destruct (iter_ext_inv (ecopy_step In1) (ecopy_step In2) (fun s => 0 <= fst (fst s) /\ 0 <= snd (fst s) /\ snd (fst s) + fst (fst s) <= n)) with (d := 64%nat) (s := (count, start, a)) as [E _].
    - intros [[rem p] [ops g]] (G1 & G2 & G3). cbn [fst snd] in *. unfold ecopy_step. destruct (rem =? 0); [reflexivity|]. destruct (161 <? rem) eqn:E1.
      + rewrite symbols_ext by lia. reflexivity.
      + rewrite symbols_ext by lia. reflexivity.
    - intros [[rem p] [ops g]] s' (G1 & G2 & G3). cbn [fst snd] in *. unfold ecopy_step. destruct (rem =? 0) eqn:E0; [discriminate|]. destruct (161 <? rem) eqn:E1; [|discriminate].
      intros H. injection H as <-. cbn [fst snd]. lia.
    - cbn [fst snd]. lia.
    - now rewrite E.
  Qed.

  Hypothesis HIn : byte_mem In1.
  Hypothesis Hn : 1 <= n <= max_in.

  Lemma step_ext i os : 0 <= i < n -> EInv In1 i os -> sh_step In1 os i = sh_step In2 os i.
  Proof.
    intros Hi (s & toks & pos & -> & Hp & HE & Hb & HI). unfold max_in in Hn. unfold sh_step. rewrite <- (Heq i Hi). set (rle := s_rle (e_g s)) in *.
    destruct (e_wascopy s) eqn:Ew.
    - destruct HI as (Hblk & HC & Hcp & HI). fold rle in HI. rewrite Hblk. clear HC HE. destruct (In1 i =? rle).
      + destruct (e_same s); cbn [negb].
        * destruct HI as (H1 & H2 & _ & H4 & _). destruct (14 <? e_run s + 1); [|reflexivity]. rewrite ecopy_ext by lia. rewrite scopy_ext by lia. reflexivity.
        * destruct HI as (H1 & H2 & H3 & _). destruct (10 <=? e_change s); [|reflexivity]. rewrite scopy_ext by (try lia; rewrite w64_id; lia). reflexivity.
      + rewrite andb_true_r. set (copy := if e_same s then e_copy s + e_run s else e_copy s).
        assert (H : pos + copy = i /\ 0 <= e_change s <= copy) by (unfold copy; destruct (e_same s); lia). clear HI.
        destruct (In1 i =? e_last s); [reflexivity|]. destruct (10 <=? e_change s); [|reflexivity]. rewrite (w64_id (copy - e_change s)) by lia.
        rewrite ecopy_ext by lia. rewrite scopy_ext by lia. reflexivity.
    - destruct HI as (H1 & H2 & H3 & _). rewrite H1, H2. change (10 <=? 0) with false. cbv iota. rewrite !ecopy_0, !scopy_0. reflexivity.
  Qed.

  Lemma ops_ext : sh_ops In1 n = sh_ops In2 n.
  Proof.
    assert (HI : EInv In1 n (fold_left (sh_step In1) (lanes n) (Some (mkE [] syms0 0 0 0 0 0 false false 0))) /\
      fold_left (sh_step In1) (lanes n) (Some (mkE [] syms0 0 0 0 0 0 false false 0)) = fold_left (sh_step In2) (lanes n) (Some (mkE [] syms0 0 0 0 0 0 false false 0))).
    { assert (K : forall k, 0 <= k -> k <= n -> EInv In1 k (fold_left (sh_step In1) (lanes k) (Some (mkE [] syms0 0 0 0 0 0 false false 0))) /\
        fold_left (sh_step In1) (lanes k) (Some (mkE [] syms0 0 0 0 0 0 false false 0)) = fold_left (sh_step In2) (lanes k) (Some (mkE [] syms0 0 0 0 0 0 false false 0))); [|apply K; lia].
      intros k Hk. pattern k. apply natlike_ind; [| |exact Hk]; clear k Hk.
      - intros _. split; [|reflexivity]. eexists _, [], 0. split; [reflexivity|]. cbn [e_ops e_g e_wascopy]. split; [lia|]. split; [apply emits_nil|]. split; [cbv; split; congruence|].
        unfold Running. cbn [e_copy e_change e_run e_same e_g]. change (cost []) with 0. split; [lia|]. split; [lia|]. split; [lia|]. split; [lia|]. split; [intros; lia|]. split; [cbn; lia|reflexivity].
      - intros k Hk IH Hkn. destruct (IH ltac:(lia)) as [I1 I2]. unfold Z.succ. rewrite lanes_S, !fold_left_app by lia. cbn [fold_left]. rewrite <- I2. split.
        + apply (step_ok In1 n HIn (max_large1 n Hn)); [lia|exact I1].
        + apply step_ext; [lia|exact I1]. }
    destruct HI as [(s & toks & pos & Es & Hp & HE & Hb & HI) HE2]. unfold sh_ops. rewrite <- HE2, Es. cbv iota. destruct (e_wascopy s) eqn:Ew; [|reflexivity].
    destruct HI as (Hblk & HC & Hcp & HI). rewrite Hblk. rewrite scopy_ext; [reflexivity|lia|]. destruct (e_same s); lia.
  Qed.
End Ext.

Theorem sh_input_only M pout In1 In2 n cap : byte_mem In1 -> 0 <= n <= max_in -> (forall k, 0 <= k < n -> In1 k = In2 k) ->
  sh_compress M pout false false In1 n cap = sh_compress M pout false false In2 n cap.
Proof.
  intros HIn Hn Heq. unfold sh_compress. destruct (n =? 0) eqn:E0; [reflexivity|]. unfold sh_run. rewrite (ops_ext In1 In2 n Heq HIn) by lia. reflexivity.
Qed.
Theorem sh_memory M1 pout1 cap1 M2 pout2 cap2 In n : byte_mem In -> 1 <= n <= max_in -> sh_need n <= cap1 -> sh_need n <= cap2 ->
  sh_compress M1 pout1 false false In n cap1 = sh_compress M2 pout2 false false In n cap2.
Proof.
  intros HIn Hn H1 H2. destruct (sh_good M1 pout1 In n cap1 HIn Hn H1) as (ops1 & E1 & -> & _). destruct (sh_good M2 pout2 In n cap2 HIn Hn H2) as (ops2 & E2 & -> & _). congruence.
Qed.
Theorem sh_inside M pout In n cap out C pin inSize M1 pout1 outSize : byte_mem In -> 1 <= n <= max_in -> sh_need n <= cap -> sh_compress M pout false false In n cap = COk out ->
  holds C pin out -> 0 < pin -> pin + len out + 1024 < 2 ^ 64 -> len out <= inSize -> 0 < pout1 -> pout1 + n + 1024 < 2 ^ 64 -> n <= outSize ->
  exists M', sh_decompress C pin inSize M1 pout1 outSize = DRet n M' /\ forall x, x < pout1 \/ pout1 + n <= x -> M' x = M1 x.
Proof.
  intros HIn Hn Hc HC Hh P1 P2 P3 P4 P5 P6. destruct (sh_good M pout In n cap HIn Hn Hc) as (ops & _ & E & _ & _ & HR). assert (out = sh_stream n ops) by congruence. subst out.
  destruct (HR C pin inSize M1 pout1 outSize Hh P1 P2 P3 P4 P5 P6) as (M' & E1 & _ & E2). exists M'. split; [exact E1|]. intros x Hx. apply E2. lia.
Qed.

(** *** The documented sizes are too small *)
Theorem sh_bounds_exceeded M pout : exists In n r M', byte_mem In /\ 1 <= n <= max_in /\ sh_run In n (sh_bounds n) M pout = Some (r, M') /\
  sh_compress M pout false false In n (sh_bounds n) = COk (slice M' pout r) /\ sh_bounds n < r.
Proof.
  assert (HX : byte_mem (fun _ => 5)) by (intros k; unfold is_byte; lia).
  destruct (sh_run_ok (fun _ => 5) 1 14 M pout HX ltac:(unfold large_in; lia) ltac:(lia)) as (toks & r & M' & E1 & _ & _ & E2 & E3 & _).
  assert (E4 : sh_ops (fun _ => 5) 1 = Some [Bits 1 2; Put [5]; Bits 63 7; Put [0; 0; 0; 0]]) by (vm_compute; reflexivity). rewrite E4 in E1. injection E1 as E1. rewrite <- E1 in E3.
  change (len (sh_body [Bits 1 2; Put [5]; Bits 63 7; Put [0; 0; 0; 0]])) with 7 in E3.
  exists (fun _ => 5), 1, r, M'. change (sh_bounds 1) with 14. split; [exact HX|]. split; [unfold max_in; lia|]. split; [exact E2|]. split; [|lia].
  unfold sh_compress. rewrite E2. reflexivity.
Qed.
Definition sh_bad : list Z := [0; 0; 0; 1; 2; 3; 63].
Theorem sh_corrupted : exists In n out C pin M pout M', byte_mem In /\ 1 <= n <= max_in /\
  sh_compress (fun _ => 0) 16 false false In n (sh_bounds n) = COk out /\ holds C pin out /\ 0 < pin /\ 0 < pout /\
  sh_decompress C pin (len out) M pout n = DRet n M' /\ slice M' pout n <> slice In 0 n.
Proof.
  set (In := fun k => nth (Z.to_nat k) sh_bad 0).
  assert (HIn : byte_mem In).
  { intros k. unfold In. assert (HA : Forall is_byte sh_bad) by (repeat constructor; lia). destruct (nth_in_or_default (Z.to_nat k) sh_bad 0) as [H| ->]; [|unfold is_byte; lia]. rewrite Forall_forall in HA. now apply HA. }
  set (out := match sh_compress (fun _ => 0) 16 false false In 7 (sh_bounds 7) with COk out => out | _ => [] end). vm_compute in out.
  set (C := fun a => nth (Z.to_nat (a - 16)) out 0).
  set (M' := match sh_decompress C 16 (len out) (fun _ => 0) 64 7 with DRet _ M' => M' | _ => fun _ => 0 end).
  exists In, 7, out, C, 16, (fun _ => 0), 64, M'. split; [exact HIn|]. split; [unfold max_in; lia|]. split; [vm_compute; reflexivity|].
  split; [repeat (split; [reflexivity|]); exact I|]. split; [lia|]. split; [lia|]. split; [|vm_compute; discriminate].
  unfold M'. assert (HD : match sh_decompress C 16 (len out) (fun _ => 0) 64 7 with DRet r _ => r =? 7 | _ => false end = true) by (vm_compute; reflexivity).
  destruct (sh_decompress C 16 (len out) (fun _ => 0) 64 7) as [r N|]; [|discriminate]. apply Z.eqb_eq in HD. now subst r.
Qed.

(** *** Other refutations *)
Theorem sh_oversize M pout In n cap : 2 ^ 30 < n -> 0 <= cap -> sh_compress M pout false false In n cap <> CRefused.
Proof.
  intros Hn Hc. unfold sh_compress, mz_bounds. replace (2 ^ 30 <? n) with true by lia. replace (false || (n =? 0) || false || (cap <? 0)) with false by lia.
  destruct (sh_run In n cap M pout) as [[r N]|]; discriminate.
Qed.
Theorem sh_hostile : exists C M pout outSize, (forall a, is_byte (C a)) /\
  match sh_decompress C 4096 115 M pout outSize with DRet r M' => r = 1 /\ outSize = 1 /\ M' (pout + 99) <> M (pout + 99) | DDiverge => False end.
Proof.
  set (out := match sh_compress (fun _ => 0) 16 false false (fun _ => 5) 100 200 with COk out => le32 1 ++ skipn 4 out | _ => [] end). vm_compute in out.
  exists (fun a => nth (Z.to_nat (a - 4096)) out 0), (fun _ => 0), 16, 1. split.
  - intros a. assert (HA : Forall is_byte out) by (repeat constructor; lia). destruct (nth_in_or_default (Z.to_nat (a - 4096)) out 0) as [H| ->]; [|unfold is_byte; lia]. rewrite Forall_forall in HA. now apply HA.
  - assert (HD : match sh_decompress (fun a => nth (Z.to_nat (a - 4096)) out 0) 4096 115 (fun _ => 0) 16 1 with DRet r M' => (r =? 1) && negb (M' (16 + 99) =? 0) | DDiverge => false end = true) by (vm_compute; reflexivity).
    destruct (sh_decompress _ 4096 115 _ 16 1) as [r N|]; [|discriminate]. apply andb_prop in HD. destruct HD as [H1 H2]. split; [lia|]. split; [reflexivity|]. lia.
Qed.
