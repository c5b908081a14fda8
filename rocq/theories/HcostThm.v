(** rle8_sh takes linear time. *)
From Verif Require Import LargeSpec Base Simd SimdProof Spec MtfModel MtfSpec MzModel MzPack HsModel HsStream HsEnc HsWrite HsThm.
From Verif Require Import CostModel CostSpec CostThm McostSpec HcostModel.

Lemma ecopy_cost In start count a : 0 <= count < 2 ^ 62 -> exists k, ecopy_passes In start count a = Some k /\ 0 <= k <= 2 * count + 1.
Proof.
  intros Hc. unfold ecopy_passes.
  apply (passes_bound (ecopy_step In) _ (fun '(rem, _, _) => 0 <= rem) (fun '(rem, _, _) => 2 * rem + 1)); [|lia|lia].
  intros [[rem st] [ops g]] Hr. unfold ecopy_step. destruct (rem =? 0) eqn:E0; [exists 0; repeat split; lia|].
  destruct (161 <? rem) eqn:E1; (eexists; split; [reflexivity|]); cbv zeta; [|split; lia]. split; [lia|]. split; lia.
Qed.

Definition pend (s : est) : Z := e_copy s + e_run s.

Section Enc.
  Variables (In : mem) (n : Z).
  Hypothesis HIn : byte_mem In.
  Hypothesis Hn : 1 <= n <= max_in.

  Lemma pend_nonneg i s : EInv In i (Some s) -> 0 <= pend s.
  Proof.
    intros (s' & toks & pos & E & Hp & _ & _ & HI). injection E as <-. unfold pend. destruct (e_wascopy s).
    - destruct HI as (_ & _ & Hc & HI). destruct (e_same s); lia.
    - destruct HI as (H1 & _ & H3 & _). lia.
  Qed.

  Lemma either_cost (b : bool) start count a : 0 <= count < 2 ^ 62 ->
    exists k, (if b then ecopy_passes In start count a else Some (scopy_passes count)) = Some k /\ 0 <= k <= 2 * count + 1.
  Proof.
    intros Hc. destruct b; [apply ecopy_cost; exact Hc|]. exists (count + 1). unfold scopy_passes. split; [reflexivity|lia].
  Qed.

  Lemma step_cost i s : 0 <= i < n -> EInv In i (Some s) ->
    exists c, sh_inner In s i = Some c /\ 0 <= c /\ forall s', sh_step In (Some s) i = Some s' -> 1 + c + 2 * pend s' <= 2 * pend s + 5.
  Proof.
    intros Hi (s0 & toks & pos & E & Hp & _ & _ & HI). injection E as <-. unfold max_in in Hn. unfold sh_inner, sh_step, pend. cbv zeta.
    assert (F : 0 <= e_copy s /\ 0 <= e_run s /\ 0 <= e_change s <= e_copy s /\ e_copy s + e_run s <= i /\ (e_same s = false -> e_run s = 0)).
    { destruct (e_wascopy s).
      - destruct HI as (_ & _ & Hc & HI). destruct (e_same s); repeat split; try discriminate; lia.
      - destruct HI as (H1 & H2 & H3 & H4 & _ & _ & H7). repeat split; try assumption; lia. }
    clear HI. destruct F as (F1 & F2 & F3 & F4 & F5).
    destruct (In i =? s_rle (e_g s)) eqn:Es.
    - destruct (e_same s) eqn:Esame; cbn [negb].
      + destruct (14 <? e_run s + 1) eqn:E14.
        * set (b := w64 _ <? w64 _). destruct (either_cost b (e_blk s) (e_copy s) (e_ops s, e_g s) ltac:(lia)) as (c & E1 & E2).
          rewrite E1. exists c. split; [reflexivity|]. split; [lia|]. intros s'. clear E1.
          destruct (if b then _ else _) as [[ops g]|]; [|discriminate]. intros E; injection E as <-. cbn [e_copy e_run]. lia.
        * exists 0. split; [reflexivity|]. split; [lia|]. intros s' E; injection E as <-. cbn [e_copy e_run]. lia.
      + specialize (F5 eq_refl).
        destruct (10 <=? e_change s) eqn:E10.
        * rewrite w64_id by lia. eexists. split; [reflexivity|]. unfold scopy_passes. split; [lia|]. intros s'.
          destruct (scopy _ _ _ _) as [ops g]. intros E; injection E as <-. cbn [e_copy e_run]. lia.
        * exists 0. split; [reflexivity|]. split; [lia|]. intros s' E; injection E as <-. cbn [e_copy e_run]. lia.
    - set (back := e_same s && e_wascopy s). set (copy := if back then e_copy s + e_run s else e_copy s). set (run := if back then 0 else e_run s).
      assert (Hc : 0 <= copy /\ 0 <= run /\ copy + run = e_copy s + e_run s /\ copy < 2 ^ 62 /\ 0 <= e_change s <= copy).
      { unfold copy, run. clearbody back. clear copy run. destruct back; lia. }
      clearbody copy run. destruct Hc as (C1 & C2 & C3 & C4 & C5).
      assert (Hrun : 0 <= run_passes run <= run + 1) by (unfold run_passes; destruct (14 <=? run); lia).
      destruct (In i =? e_last s); [|destruct (10 <=? e_change s) eqn:E10].
      + eexists. split; [reflexivity|]. split; [destruct (e_wascopy s); cbn [negb]; lia|]. intros s'.
        destruct (e_wascopy s) eqn:Ew; cbn [negb]; intros E; injection E as <-; cbn [e_copy e_run]; try lia.
      + rewrite (w64_id (copy - e_change s)) by lia. set (b := w64 _ <? w64 _). destruct (either_cost b (e_blk s) (copy - e_change s) (e_ops s, e_g s) ltac:(lia)) as (c & E1 & E2).
        rewrite E1. eexists. split; [reflexivity|]. split; [destruct (e_wascopy s); cbn [negb]; lia|]. intros s'. clear E1.
        destruct (if b then _ else _) as [[ops g]|]; [|discriminate].
        destruct (e_wascopy s) eqn:Ew; cbn [negb]; intros E; injection E as <-; cbn [e_copy e_run]; try lia.
      + eexists. split; [reflexivity|]. split; [destruct (e_wascopy s); cbn [negb]; lia|]. intros s'.
        destruct (e_wascopy s) eqn:Ew; cbn [negb]; intros E; injection E as <-; cbn [e_copy e_run]; try lia.
  Qed.

  Lemma bits_passes_app a b : bits_passes (a ++ b) = bits_passes a + bits_passes b.
  Proof. induction a as [|o a IH]; cbn; [reflexivity|]. unfold bits_passes in *. rewrite IH. lia. Qed.
  Lemma bits_le_sym enc g s : bits_passes (symop enc g s) <= 2 * len (obits (symop enc g s)).
  Proof.
    unfold symop, sh_symbol. destruct (s =? s_rle g); [cbv; congruence|]. destruct (s =? s_sec g); [cbv; congruence|].
    destruct (s =? s_thr g); [destruct enc; cbv; congruence|]. cbv; congruence.
  Qed.
  Lemma bits_le_syms enc l : forall g, bits_passes (eops enc g l) <= 2 * len (obits (eops enc g l)).
  Proof.
    induction l as [|s l IH]; intros g; cbn [eops]; [cbv; congruence|]. rewrite bits_passes_app, obits_app, len_app.
    pose proof (bits_le_sym enc g s). specialize (IH (snx g s)). lia.
  Qed.
  Lemma bits_le_tok g t : bits_passes (tops g t) <= 2 * len (obits (tops g t)).
  Proof.
    destruct t; cbn [tops]; [apply bits_le_sym|cbv; congruence..|].
    change (Bits 127 7 :: Put [len l - 161] :: eops true g l) with ([Bits 127 7; Put [len l - 161]] ++ eops true g l).
    rewrite bits_passes_app, obits_app, len_app. pose proof (bits_le_syms true l g). 
    change (bits_passes [Bits 127 7; Put [len l - 161]]) with 8. change (len (obits [Bits 127 7; Put [len l - 161]])) with 7. lia.
  Qed.
  Lemma bits_le_toks l : forall g, bits_passes (sops g l) <= 2 * len (obits (sops g l)).
  Proof.
    induction l as [|t l IH]; intros g; cbn [sops]; [cbv; congruence|]. rewrite bits_passes_app, obits_app, len_app.
    pose proof (bits_le_tok g t). specialize (IH (tnx g t)). lia.
  Qed.

  Lemma hs_cost : exists k, hs_passes In n = Some k /\ k <= 13 * n + 20.
  Proof.
    pose proof (Hn : 1 <= n <= max_in) as Hn'. unfold max_in in Hn'. unfold hs_passes.
    assert (HI : (fun i st => fst st = fold_left (sh_step In) (lanes i) (Some (mkE [] syms0 0 0 0 0 0 false false 0)) /\ EInv In i (fst st) /\
       exists s k, st = (Some s, Some k) /\ k + 2 * pend s <= 5 * i) n
       (fold_left (sh_count In) (lanes n) (Some (mkE [] syms0 0 0 0 0 0 false false 0), Some 0))).
    { apply (fold_lanes (sh_count In) (fun i st => fst st = fold_left (sh_step In) (lanes i) (Some (mkE [] syms0 0 0 0 0 0 false false 0)) /\ EInv In i (fst st) /\
       exists s k, st = (Some s, Some k) /\ k + 2 * pend s <= 5 * i)); [lia| |].
      - split; [reflexivity|]. split; [|eexists _, _; split; [reflexivity|]; unfold pend; cbn; lia].
        cbn [fst]. eexists _, [], 0. split; [reflexivity|]. cbn [e_ops e_g e_wascopy]. split; [lia|]. split; [apply emits_nil|]. split; [cbv; split; congruence|].
        unfold Running. cbn [e_copy e_change e_run e_same e_g]. change (cost []) with 0. split; [lia|]. split; [lia|]. split; [lia|]. split; [lia|]. split; [intros; lia|]. split; [cbn; lia|reflexivity].
      - intros i [os ok] Hi (F & HE & s & k & E & Hk). injection E as -> ->. cbn [fst] in F, HE. unfold sh_count.
        pose proof (step_ok In n HIn (max_large1 n Hn) i (Some s) Hi HE) as HE'. destruct (step_cost i s Hi HE) as (c & E1 & E2 & E3). rewrite E1. cbn [fst oadd].
        split; [rewrite lanes_S, fold_left_app by lia; cbn [fold_left]; now rewrite <- F|]. split; [exact HE'|].
        destruct HE' as (s' & t' & p' & E' & HE2). rewrite E' in *. exists s', (k + (1 + c)). split; [reflexivity|]. specialize (E3 s' eq_refl). lia. }
    destruct (fold_left (sh_count In) (lanes n) _) as [os ok]. destruct HI as (_ & HE & s & k & E & Hk). injection E as -> ->.
    destruct (sh_ops_ok In n HIn (max_large1 n Hn)) as (toks & -> & Hok & Hout & _). cbn [fst] in HE.
    eexists. split; [reflexivity|]. rewrite bits_passes_app. change (bits_passes fin) with 8. pose proof (bits_le_toks toks syms0) as HB.
    destruct (sops_shape toks Hok syms0) as (_ & _ & HX). rewrite Hout, len_slice in HX by lia.
    pose proof (pend_nonneg n s HE) as Hpd. destruct HE as (s' & t' & pos & E & Hp & _ & _ & HI). injection E as <-. unfold pend in *.
    assert (Hfin : (if e_wascopy s then scopy_passes (if e_same s then e_copy s + e_run s else e_copy s) else run_passes (e_run s)) <= e_copy s + e_run s + 1).
    { unfold scopy_passes, run_passes. destruct (e_wascopy s); [destruct HI as (_ & _ & Hc & HI); destruct (e_same s); lia|]. destruct HI as (H1 & _ & H3 & _). destruct (14 <=? e_run s); lia. }
    lia.
  Qed.
End Enc.

Theorem hs_linear : LinearPasses hs_passes 13 20.
Proof. intros In n HIn Hn. exact (hs_cost In n HIn Hn). Qed.

(** *** The decoder *)

Lemma dsymbol_out enc C s s' : dsymbol enc C s = Some s' -> d_out s' = d_out s + 1.
Proof.
  unfold dsymbol. cbv zeta. destruct (negb (bit (d_h s) 0)); [intros E; injection E as <-; reflexivity|].
  destruct (negb (bit (d_h s) 1)); [intros E; injection E as <-; reflexivity|]. destruct (negb (bit (d_h s) 2)); [intros E; injection E as <-; reflexivity|].
  destruct enc; [intros E; injection E as <-; reflexivity|]. destruct (negb (bit (d_h s) 3)); [intros E; injection E as <-; reflexivity|discriminate].
Qed.
Lemma dsymbols_out C l : forall os s', fold_left (fun os (_ : Z) => match os with Some s => dsymbol true C s | None => None end) l os = Some s' ->
  exists s, os = Some s /\ d_out s' = d_out s + len l.
Proof.
  induction l as [|x l IH]; intros os s'; cbn [fold_left].
  - intros ->. exists s'. split; [reflexivity|]. rewrite len_nil. lia.
  - intros E. destruct (IH _ _ E) as (s1 & E1 & H1). destruct os as [s|]; [|discriminate]. exists s. split; [reflexivity|].
    rewrite H1, (dsymbol_out _ _ _ _ E1), len_cons. lia.
Qed.
Lemma dstep_cost C s s' : byte_mem C -> sh_dstep C s = inl s' -> d_out s < d_out s' ->
  exists c, sh_dinner C s = Some c /\ 0 <= c /\ 1 + c <= 2 * (d_out s' - d_out s).
Proof.
  intros HC. unfold sh_dstep, sh_dinner. destruct (dsymbol false C s) as [s1|] eqn:E1.
  - intros E; injection E as <-. intros _. exists 0. rewrite (dsymbol_out _ _ _ _ E1). repeat split; lia.
  - cbv zeta. pose proof (HC (d_in s)) as Hb. unfold is_byte in Hb. destruct (negb (bit (d_h s) 4)).
    + intros E; injection E as <-. cbn [d_out]. intros Hd. eexists. split; [reflexivity|]. lia.
    + destruct (_ =? 0).
      * intros E; injection E as <-. cbn [d_out]. intros Hd. eexists. split; [reflexivity|]. lia.
      * destruct (_ =? 1).
        -- destruct (rd32 C (d_in s) =? 0); [discriminate|]. intros E; injection E as <-. cbn [d_out]. intros Hd. eexists. split; [reflexivity|]. lia.
        -- destruct (_ =? 2).
           ++ intros E; injection E as <-. cbn [d_out]. intros Hd. eexists. split; [reflexivity|]. lia.
           ++ destruct (fold_left _ (lanes (C (d_in s) + 161)) _) as [s1|] eqn:E2; [|discriminate]. intros E; injection E as <-. intros _.
              destruct (dsymbols_out _ _ _ _ E2) as (s2 & E3 & E4). injection E3 as <-. cbn [d_out] in E4. unfold len, lanes in E4. rewrite map_length, seq_length in E4.
              eexists. split; [reflexivity|]. lia.
Qed.

Section Dec.
  Variables (C : mem) (lo top : Z).
  Hypothesis HC : byte_mem C.

  Lemma dloop_cost toks p q M g h :
    Forall tok_ok toks -> len (sout g toks) < 2 ^ 60 -> len (obits (sops g toks ++ fin)) + 16 <= 8 * (top - lo + 1) -> Sync C top 0 h ->
    Bt (bt C top) 0 (obits (sops g toks ++ fin)) -> holds C p (obytes (sops g toks ++ fin)) ->
    exists k, passes (sh_dstep C) (sh_dinner C) (mkD p q M g h) = Some k /\ 0 <= k <= 2 * len (sout g toks) + 1.
  Proof.
    intros Hok Hlen Hp HS HBt HP. assert (HB : forall x, lo <= x <= top -> is_byte (C x)) by (intros; apply HC).
    pose (Inv := fun (s : dst) => exists pos rest, Forall tok_ok rest /\
      0 <= pos /\ pos + len (obits (sops (d_g s) rest ++ fin)) + 16 <= 8 * (top - lo + 1) /\ Sync C top pos (d_h s) /\
      Bt (bt C top) pos (obits (sops (d_g s) rest ++ fin)) /\ holds C (d_in s) (obytes (sops (d_g s) rest ++ fin)) /\
      q + len (sout g toks) = d_out s + len (sout (d_g s) rest)).
    destruct (passes_bound (sh_dstep C) (sh_dinner C) Inv (fun s => 2 * (q + len (sout g toks) - d_out s) + 1) (mkD p q M g h)) as (k & E & Hk).
    - intros s (pos & rest & Hr & Hp0 & Hp' & HS' & HB' & HP' & Hout). destruct s as [pin po Mo gg hh]. cbn [d_in d_g d_h d_out] in *.
      destruct rest as [|t rest].
      + cbn [sops app] in HB', HP'. exists 0. rewrite (dfin C lo top HB pin po Mo gg hh pos HS' HB' HP'). cbn [sout] in Hout. rewrite len_nil in Hout. split; [|split; lia].
        unfold sh_dinner. change (obits fin) with [true; true; true; true; true; true; false] in HB'.
        destruct (dstep_long C lo top HB pin po Mo gg hh pos 1 true false HS' HB' eq_refl) as (E1 & E2 & E3). rewrite E1. cbn [d_h d_in]. rewrite E2, E3. cbn [negb]. cbv zeta.
        change (1 =? 0) with false. change (1 =? 1) with true. cbv iota.
        change (obytes fin) with (le32 0 ++ []) in HP'. rewrite (rd32_holds C pin 0 []) by (try exact HP'; lia). reflexivity.
      + cbn [sops] in Hp', HB', HP'. rewrite <- app_assoc in Hp', HB', HP'. rewrite obits_app in Hp', HB'. rewrite obytes_app in HP'. rewrite len_app in Hp'. apply Bt_app in HB'. apply holds_app in HP'.
        inversion_clear Hr as [|? ? Ht Hr']. pose proof (len_nonneg (obits (tops gg t))). pose proof (len_nonneg (obits (sops (tnx gg t) rest ++ fin))).
        destruct (dtok_ok C lo top HB t pin po Mo gg hh pos Ht Hp0 ltac:(lia) HS' (proj1 HB') (proj1 HP')) as (M2 & h2 & E2 & S2 & W2).
        pose proof (tout_pos gg t Ht). cbn [sout] in Hout. rewrite len_app in Hout. pose proof (len_nonneg (sout (tnx gg t) rest)).
        destruct (dstep_cost C _ _ HC E2) as (c & E3 & Hc & Hc2); [cbn [d_out]; lia|]. exists c. rewrite E2. split; [exact E3|]. split; [exact Hc|]. cbn [d_out] in *.
        split; [|lia]. exists (pos + len (obits (tops gg t))), rest. cbn [d_in d_g d_h d_out].
        split; [exact Hr'|]. split; [lia|]. split; [lia|]. split; [exact S2|]. split; [apply HB'|]. split; [apply HP'|]. lia.
    - exists 0, toks. cbn [d_in d_g d_h d_out]. repeat (split; [first [reflexivity|assumption|lia]|]). reflexivity.
    - cbn [d_out]. pose proof (len_nonneg (sout g toks)). lia.
    - exists k. split; [exact E|]. cbn [d_out] in Hk. lia.
  Qed.
End Dec.

Theorem hs_dec_linear M0 pout0 : LinearDecodeB (sh_compress M0 pout0 false false) sh_need hs_dpasses 2 1.
Proof.
  intros In n cap HIn Hn Hcap. pose proof Hn as Hn'. unfold max_in in Hn'.
  assert (Hc8 : n + 8 <= cap) by (unfold sh_need in Hcap; lia).
  destruct (sh_run_ok In n cap M0 pout0 HIn (max_large1 n Hn) Hc8) as (toks & r & M' & _ & Hok & Hout & Er & Hr & Hrn & _ & Hfit). destruct (Hfit Hcap) as [HM _].
  set (ops := sops syms0 toks ++ fin) in *. exists (sh_stream n ops). split.
  { unfold sh_compress. rewrite (mz_bounds_n n Hn). replace (false || (n =? 0) || false || (cap <? n + 8)) with false by lia. rewrite Er. f_equal.
    pose proof (slice_of_holds _ _ _ HM) as HX. rewrite <- HX at 1. f_equal. unfold sh_stream. rewrite !len_app, !len_le32. lia. }
  intros C pin M pout HC HH Hpin Hpin2 Hpout Hpout2.
  assert (Hlen : 8 + len (sh_body ops) < 2 ^ 32) by (unfold sh_need in Hrn; lia).
  set (P := obytes ops) in *. set (B := obits ops) in *. unfold sh_stream in *.
  set (body := sh_body ops) in *. pose proof (len_nonneg body). pose proof (len_nonneg P). pose proof (len_nonneg B). assert (Hb : len body = len P + hdr_len B) by (unfold body, sh_body; rewrite len_app, (len_hdr_bytes 0 0); reflexivity).
  assert (HC2 := HH). apply holds_app in HC2. destruct HC2 as [_ HC2]. rewrite len_le32 in HC2.
  assert (HC3 := HC2). apply holds_app in HC3. destruct HC3 as [_ HC3]. rewrite len_le32 in HC3. replace (pin + 4 + 4) with (pin + 8) in HC3 by lia.
  unfold hs_dpasses. rewrite (rd32_holds C (pin + 4) (8 + len body) body ltac:(lia) HC2). cbv zeta.
  set (top := pin + (8 + len body) - 1).
  assert (HP : holds C (pin + 8) P) by (unfold body, sh_body in HC3; apply holds_app in HC3; apply HC3).
  assert (HX : forall i, 0 <= i < len B -> bt C top i = nthb B i).
  { intros i Hi. unfold bt. assert (HX : C (top - i / 8) = byteof B (i / 8)).
    { unfold body, sh_body in HC3. apply holds_app in HC3. destruct HC3 as [_ HX]. fold P B in HX.
      replace (top - i / 8) with (pin + 8 + len P + (hdr_len B - 1 - i / 8)) by (unfold top; lia).
      rewrite (holds_nth _ _ _ (hdr_len B - 1 - i / 8) HX) by (rewrite (len_hdr_bytes 0 0); unfold hdr_len; lia).
      unfold hdr_bytes. rewrite (nth_lanes 0 0) by (unfold hdr_len; lia). f_equal. lia. }
    rewrite HX, byteof_bit by lia. f_equal. lia. }
  pose proof (sync0 C pin top (fun x _ => HC x) ltac:(unfold top; lia)) as HS.
  destruct (dloop_cost C pin top HC toks (pin + 8) pout M syms0 (mkR (C top) 8 (top - 1)) Hok) as (k & E & Hk).
  - rewrite Hout, len_slice by lia. lia.
  - fold ops B. unfold top. unfold hdr_len in Hb. lia.
  - exact HS.
  - apply Bt_intro. fold ops B. intros k Hk. rewrite Z.add_0_l, HX by lia. unfold nthb. now replace (k <? 0) with false by lia.
  - exact HP.
  - exists k. split; [exact E|]. rewrite Hout, len_slice in Hk by lia. lia.
Qed.
