(** rle8_sh: the writes of the encoder are those of a list of blocks that restores the input, and
    not too many. *)
From Verif Require Import Base LargeSpec Simd SimdProof Spec MtfModel MtfSpec MzModel MzPack HsModel HsStream.

Definition cost (l : list op) : Z := 8 * len (obytes l) + len (obits l).
Lemma cost_app a b : cost (a ++ b) = cost a + cost b.
Proof. unfold cost. rewrite obytes_app, obits_app, !len_app. lia. Qed.
Lemma cost_nonneg a : 0 <= cost a.
Proof. unfold cost. pose proof (len_nonneg (obytes a)). pose proof (len_nonneg (obits a)). lia. Qed.

(** Occurrences of [r] *)
Definition cnt (r : Z) (l : list Z) : Z := len (filter (fun x => x =? r) l).
Lemma cnt_app r a b : cnt r (a ++ b) = cnt r a + cnt r b.
Proof. unfold cnt. rewrite filter_app, len_app. lia. Qed.
Lemma cnt_cons r x l : cnt r (x :: l) = (if x =? r then 1 else 0) + cnt r l.
Proof. unfold cnt. cbn [filter]. destruct (x =? r); [rewrite len_cons|]; lia. Qed.
Lemma cnt_range r l : 0 <= cnt r l <= len l.
Proof. induction l as [|x l IH]; [unfold cnt; cbn; lia|]. rewrite cnt_cons, len_cons. destruct (x =? r); lia. Qed.
Lemma cnt_all r In p c : 0 <= c -> (forall k, p <= k < p + c -> In k = r) -> cnt r (slice In p c) = c.
Proof.
  intros Hc. revert p. pattern c. apply natlike_ind; [| |exact Hc]; clear c Hc.
  - intros p _. rewrite slice_0 by lia. reflexivity.
  - intros c Hc IH p H. rewrite slice_cons, cnt_cons by lia. rewrite (H p) by lia. rewrite Z.eqb_refl.
    replace (Z.succ c - 1) with c by lia. rewrite IH by (intros; apply H; lia). lia.
Qed.
Lemma cnt_none r x In p c : 0 <= c -> x <> r -> (forall k, p <= k < p + c -> In k = x) -> cnt r (slice In p c) = 0.
Proof.
  intros Hc Hx. revert p. pattern c. apply natlike_ind; [| |exact Hc]; clear c Hc.
  - intros p _. rewrite slice_0 by lia. reflexivity.
  - intros c Hc IH p H. rewrite slice_cons, cnt_cons by lia. rewrite (H p) by lia. replace (x =? r) with false by lia.
    replace (Z.succ c - 1) with c by lia. rewrite IH by (intros; apply H; lia). lia.
Qed.
Lemma slice_const In r p c : 0 <= c -> (forall k, p <= k < p + c -> In k = r) -> slice In p c = repeat r (Z.to_nat c).
Proof.
  intros Hc. revert p. pattern c. apply natlike_ind; [| |exact Hc]; clear c Hc.
  - intros p _. reflexivity.
  - intros c Hc IH p H. rewrite slice_cons by lia. rewrite (H p) by lia. replace (Z.to_nat (Z.succ c)) with (S (Z.to_nat c)) by lia.
    cbn [repeat]. f_equal. replace (Z.succ c - 1) with c by lia. apply IH. intros. apply H. lia.
Qed.

(** *** Symbols *)
Lemma s_rle_snx g s : s_rle (snx g s) = s_rle g.
Proof. unfold snx, sh_symbol, learn, seen. repeat (match goal with |- context [if ?b then _ else _] => destruct b end); reflexivity. Qed.
Lemma s_rle_enx l : forall g, s_rle (enx g l) = s_rle g.
Proof. induction l as [|s l IH]; intros g; cbn; [reflexivity|]. now rewrite IH, s_rle_snx. Qed.
Lemma symop_cost enc g s : 0 < cost (symop enc g s) <= if s =? s_rle g then 1 else 10.
Proof.
  assert (K : forall l g v m, cost l = v -> 0 < v <= m -> 0 < cost (fst (@pair _ syms l g)) <= m) by (intros; cbn [fst]; lia).
  unfold symop, sh_symbol. destruct (s =? s_rle g); [apply (K _ _ 1); [reflexivity|lia]|]. destruct (s =? s_sec g); [apply (K _ _ 3); [reflexivity|lia]|].
  destruct (s =? s_thr g); [destruct enc; [apply (K _ _ 3)|apply (K _ _ 4)]; [reflexivity|lia|reflexivity|lia]|]. apply (K _ _ 10); [reflexivity|lia].
Qed.
Lemma eops_cost enc l : forall g, cost (eops enc g l) <= cnt (s_rle g) l + 10 * (len l - cnt (s_rle g) l).
Proof.
  induction l as [|s l IH]; intros g; [cbv; discriminate|]. cbn [eops]. rewrite cost_app, cnt_cons, len_cons.
  specialize (IH (snx g s)). rewrite s_rle_snx in IH. pose proof (symop_cost enc g s). destruct (s =? s_rle g); lia.
Qed.
Lemma fold_symbols enc l : forall ops g, fold_left (sh_symbol enc) l (ops, g) = (ops ++ eops enc g l, enx g l).
Proof.
  induction l as [|s l IH]; intros ops g; cbn [fold_left eops enx]; [now rewrite app_nil_r|].
  rewrite sh_symbol_eq, IH, app_assoc. reflexivity.
Qed.
Lemma slice_lanes In start count : slice In start count = map (fun i => In (start + i)) (lanes count).
Proof.
  unfold slice, lanes. rewrite map_map. generalize (Z.to_nat count). intros k. revert start. induction k as [|k IH]; intros start; [reflexivity|].
  cbn [slice_nat seq map]. rewrite Z.add_0_r. f_equal. rewrite IH, <- seq_shift, map_map. apply map_ext. intros j. f_equal. lia.
Qed.
Lemma symbols_eq enc In start count ops g :
  sh_symbols enc In start count (ops, g) = (ops ++ eops enc g (slice In start count), enx g (slice In start count)).
Proof.
  unfold sh_symbols. rewrite <- fold_symbols, slice_lanes. generalize (lanes count) (ops, g). intros l.
  induction l as [|i l IH]; intros a; [reflexivity|]. cbn [fold_left map]. apply IH.
Qed.
Lemma sym_toks l : forall g, sops g (map KSym l) = eops false g l /\ sout g (map KSym l) = l /\ snxs g (map KSym l) = enx g l.
Proof.
  induction l as [|s l IH]; intros g; cbn; [auto|]. destruct (IH (snx g s)) as (-> & -> & ->). auto.
Qed.

(** [toks] turns [a] into [b] and stands for [l]. *)
Definition Emits (a : list op * syms) (toks : list tok) (b : list op * syms) (l : list Z) : Prop :=
  b = (fst a ++ sops (snd a) toks, snxs (snd a) toks) /\ Forall tok_ok toks /\ sout (snd a) toks = l.

Lemma emits_app a b c t1 t2 l1 l2 : Emits a t1 b l1 -> Emits b t2 c l2 -> Emits a (t1 ++ t2) c (l1 ++ l2).
Proof.
  intros (-> & F1 & <-) (-> & F2 & <-). cbn [fst snd] in *. split; [|split].
  - rewrite sops_app, snxs_app, app_assoc. reflexivity.
  - now apply Forall_app.
  - now rewrite sout_app.
Qed.
Lemma emits_nil a : Emits a [] a [].
Proof. destruct a. split; [|split]; [cbn; now rewrite app_nil_r|constructor|reflexivity]. Qed.

Lemma scopy_ok In start count ops g : byte_mem In -> 0 <= count < 2 ^ 32 ->
  exists toks g', Emits (ops, g) toks (ops ++ sops g toks, g') (slice In start count) /\ scopy In start count (ops, g) = (ops ++ sops g toks, g') /\
    s_rle g' = s_rle g /\ cost (sops g toks) <= 8 * count + 39 /\ (count <= 262 -> cost (sops g toks) <= 8 * count + 15).
Proof.
  intros HIn Hc. assert (HB : Forall is_byte (slice In start count)) by (apply Forall_slice, HIn).
  pose proof (len_slice In start count ltac:(lia)) as HL. unfold scopy, Emits. cbn [fst snd].
  destruct (255 + 7 <? count) eqn:E1; [|destruct (7 <=? count) eqn:E2].
  - exists [KCopyL (slice In start count)], g. cbn [sops sout snxs tops tout tnx]. rewrite app_nil_r. rewrite HL.
    replace (w32 (count - 7)) with (count - 7) by (unfold w32; rewrite Z.mod_small; lia).
    split; [split; [reflexivity|]; split; [constructor; [|constructor]; cbn [tok_ok]; split; [lia|exact HB]|]; now rewrite app_nil_r|].
    split; [reflexivity|]. split; [reflexivity|].
    assert (HC : cost [Bits 63 7; Put (le32 (count - 7)); Put (slice In start count)] = 8 * count + 39).
    { unfold cost. change (obytes _) with (le32 (count - 7) ++ slice In start count ++ []). rewrite !len_app, HL, len_le32, len_nil. change (len (obits _)) with 7. lia. }
    rewrite HC. lia.
  - exists [KCopyS (slice In start count)], g. cbn [sops sout snxs tops tout tnx]. rewrite app_nil_r. rewrite HL.
    replace (w8 (count - 7)) with (count - 7) by (rewrite w8_id; lia).
    split; [split; [reflexivity|]; split; [constructor; [|constructor]; cbn [tok_ok]; split; [lia|exact HB]|]; now rewrite app_nil_r|].
    split; [reflexivity|]. split; [reflexivity|].
    assert (HC : cost [Bits 31 7; Put [count - 7]; Put (slice In start count)] = 8 * count + 15).
    { unfold cost. change (obytes _) with ([count - 7] ++ slice In start count ++ []). rewrite !len_app, HL, len_nil. change (len (obits _)) with 7. change (len [count - 7]) with 1. lia. }
    rewrite HC. lia.
  - exists (map KSym (slice In start count)), (enx g (slice In start count)).
    destruct (sym_toks (slice In start count) g) as (T1 & T2 & T3). rewrite T1, T2, T3, symbols_eq, s_rle_enx.
    split; [split; [reflexivity|]; split; [|reflexivity]; apply Forall_map; exact HB|]. split; [reflexivity|]. split; [reflexivity|].
    pose proof (eops_cost false (slice In start count) g). pose proof (cnt_range (s_rle g) (slice In start count)). lia.
Qed.
Lemma scopy_0 In start a : scopy In start 0 a = a.
Proof. destruct a as [ops g]. unfold scopy. change (255 + 7 <? 0) with false. change (7 <=? 0) with false. cbv iota. rewrite symbols_eq, slice_0 by lia. cbn. now rewrite app_nil_r. Qed.

Lemma ecopy_ok In start count ops g : byte_mem In -> 0 <= count < 2 ^ 32 ->
  exists toks g', Emits (ops, g) toks (ops ++ sops g toks, g') (slice In start count) /\ ecopy In start count (ops, g) = Some (ops ++ sops g toks, g') /\
    s_rle g' = s_rle g /\
    416 * cost (sops g toks) <= 416 * (cnt (s_rle g) (slice In start count) + 10 * (count - cnt (s_rle g) (slice In start count))) + 15 * count + 6240.
Proof.
  intros HIn Hc. set (r := s_rle g).
  pose (Cst := fun c => cnt r (slice In start c) + 10 * (c - cnt r (slice In start c))).
  assert (HCst : forall c d, 0 <= c -> 0 <= d -> Cst (c + d) = Cst c + (cnt r (slice In (start + c) d) + 10 * (d - cnt r (slice In (start + c) d)))).
  { intros c d H1 H2. unfold Cst. rewrite slice_app, cnt_app by lia. lia. }
  pose (Inv := fun (s : Z * Z * (list op * syms)) => let '(rem, p, (ops', g')) := s in 0 <= rem <= count /\ p = start + (count - rem) /\
    exists toks, Emits (ops, g) toks (ops', g') (slice In start (count - rem)) /\ s_rle g' = r /\
      416 * cost (sops g toks) <= 416 * Cst (count - rem) + 15 * (count - rem) + (if rem =? 0 then 6240 else 0)).
  destruct (loop_inv (ecopy_step In) Inv (fun '(rem, _, _) => rem)
    (fun res => exists toks, Emits (ops, g) toks res (slice In start count) /\ s_rle (snd res) = r /\
       416 * cost (sops g toks) <= 416 * Cst count + 15 * count + 6240) (count, start, (ops, g))) as (res & E & toks & HE & Hr & HC).
  - intros [[rem p] [ops' g']] (Hrem & -> & toks & HE & Hr & HC). unfold ecopy_step. destruct (rem =? 0) eqn:E0.
    + apply Z.eqb_eq in E0. subst rem. rewrite Z.sub_0_r in *. exists toks. cbn [snd]. auto.
    + destruct (161 <? rem) eqn:E1.
      * set (c := Z.min 255 (rem - 161) + 161). assert (Hcr : 161 < c <= 416 /\ c <= rem /\ (c = 416 \/ c = rem)) by lia.
        replace (w8 (Z.min 255 (rem - 161))) with (c - 161) by (rewrite w8_id; lia). clearbody c.
        set (l := slice In (start + (count - rem)) c). assert (HL : len l = c) by (apply len_slice; lia).
        rewrite symbols_eq. fold l. split; [|lia]. split; [lia|]. split; [lia|]. exists (toks ++ [KEnc l]).
        replace (count - (rem - c)) with (count - rem + c) by lia. rewrite slice_app by lia. fold l.
        assert (HE2 : Emits (ops', g') [KEnc l] (ops' ++ tops g' (KEnc l), enx g' l) l).
        { split; [|split]; cbn [fst snd sops snxs sout tnx tout]; [now rewrite app_nil_r| |now rewrite app_nil_r].
          constructor; [|constructor]. cbn [tok_ok]. split; [lia|]. apply Forall_slice, HIn. }
        assert (EQ : (ops' ++ [Bits 127 7; Put [c - 161]]) ++ eops true g' l = ops' ++ tops g' (KEnc l)).
        { cbn [tops]. rewrite HL, <- app_assoc. reflexivity. }
        rewrite EQ. split; [|split].
        -- eapply emits_app; eassumption.
        -- rewrite s_rle_enx. exact Hr.
        -- rewrite sops_app, cost_app, HCst by lia. fold l. destruct HE as [HE _]. injection HE as -> ->. cbn [fst snd sops] in *. rewrite app_nil_r.
           change (tops (snxs g toks) (KEnc l)) with ([Bits 127 7; Put [len l - 161]] ++ eops true (snxs g toks) l). rewrite cost_app. change (cost [Bits 127 7; Put [len l - 161]]) with 15.
           pose proof (eops_cost true l (snxs g toks)) as HK. rewrite Hr, HL in HK. destruct (rem - c =? 0) eqn:E2; lia.
      * exists (toks ++ map KSym (slice In (start + (count - rem)) rem)). set (l := slice In (start + (count - rem)) rem). assert (HL : len l = rem) by (apply len_slice; lia).
        rewrite symbols_eq. fold l. destruct (sym_toks l g') as (T1 & T2 & T3). cbn [snd]. split; [|split].
        -- assert (HS : slice In start count = slice In start (count - rem) ++ l).
           { unfold l. rewrite <- slice_app by lia. f_equal. lia. } rewrite HS.
           eapply emits_app; [eassumption|]. split; [|split]; cbn [fst snd]; [now rewrite T1, T3| |exact T2]. apply Forall_map. apply Forall_slice, HIn.
        -- rewrite s_rle_enx. exact Hr.
        -- rewrite sops_app, cost_app. pose proof (HCst (count - rem) rem ltac:(lia) ltac:(lia)) as HX. fold l in HX. replace (count - rem + rem) with count in HX by lia. destruct HE as [HE _]. injection HE as -> ->. cbn [fst snd] in *. rewrite T1.
           pose proof (eops_cost false l (snxs g toks)) as HK. rewrite Hr, HL in HK. lia.
  - split; [lia|]. split; [lia|]. exists []. rewrite Z.sub_diag. split; [apply emits_nil|]. split; [reflexivity|]. cbn [sops]. change (cost []) with 0.
    unfold Cst. rewrite slice_0 by lia. change (cnt r []) with 0. destruct (count =? 0); lia.
  - lia.
  - destruct res as [ops' g']. exists toks, g'. destruct HE as [HE HE']. cbn [fst snd] in *. injection HE as -> ->. unfold ecopy. rewrite E.
    split; [split; [reflexivity|exact HE']|]. split; [reflexivity|]. split; [exact Hr|]. exact HC.
Qed.
Lemma ecopy_0 In start a : ecopy In start 0 a = Some a.
Proof.
  unfold ecopy. destruct (loop_inv (ecopy_step In) (fun s => s = (0, start, a)) (fun _ => 0) (fun r => r = a) (0, start, a)) as (r & E & ->).
  - intros s ->. destruct a as [ops g]. reflexivity.
  - reflexivity.
  - lia.
  - exact E.
Qed.

(** *** Runs *)
Lemma mkS_eta g : mkS (s_rle g) (s_occ g) (s_sec g) (s_thr g) = g.
Proof. destruct g; reflexivity. Qed.
Lemma snx_rle g : snx g (s_rle g) = g.
Proof. unfold snx, sh_symbol. rewrite Z.eqb_refl. reflexivity. Qed.
Lemma run_ops_ok ops g c : is_byte (s_rle g) -> 0 <= c < 2 ^ 32 ->
  exists toks, Emits (ops, g) toks (ops ++ run_ops c (s_rle g), g) (repeat (s_rle g) (Z.to_nat c)) /\
    run_ops c (s_rle g) = sops g toks /\ cost (run_ops c (s_rle g)) = (if 269 <? c then 47 else if 14 <=? c then 13 else c).
Proof.
  intros Hb Hc. unfold run_ops. change (255 + 14) with 269. destruct (269 <? c) eqn:E1; [|destruct (14 <=? c) eqn:E2].
  - exists [KRunL c (s_rle g)]. cbn [sops tops]. rewrite app_nil_r. split; [|split; reflexivity].
    split; [|split]; cbn [fst snd sops snxs sout tops tnx tout]; [now rewrite app_nil_r, mkS_eta| |now rewrite app_nil_r].
    constructor; [|constructor]. cbn [tok_ok]. split; [lia|exact Hb].
  - exists [KRunS c]. cbn [sops tops]. rewrite app_nil_r. rewrite w8_id by lia. split; [|split; reflexivity].
    split; [|split]; cbn [fst snd sops snxs sout tops tnx tout]; [now rewrite app_nil_r| |now rewrite app_nil_r].
    constructor; [|constructor]. cbn [tok_ok]. lia.
  - exists (map KSym (repeat (s_rle g) (Z.to_nat c))). destruct (sym_toks (repeat (s_rle g) (Z.to_nat c)) g) as (T1 & T2 & T3).
    assert (HN : forall k, enx g (repeat (s_rle g) k) = g) by (induction k as [|k IH]; cbn [repeat enx]; [reflexivity|]; now rewrite snx_rle).
    assert (HK : forall k a, map (fun _ : Z => Bits 0 1) (map Z.of_nat (seq a k)) = eops false g (repeat (s_rle g) k)).
    { induction k as [|k IH]; intros a; cbn [seq map repeat eops]; [reflexivity|]. rewrite snx_rle, <- (IH (S a)). unfold symop, sh_symbol. now rewrite Z.eqb_refl. }
    unfold lanes. rewrite HK. split; [|split].
    + split; [|split]; cbn [fst snd]; [now rewrite T1, T3, HN| |exact T2]. apply Forall_map. apply Forall_forall. intros x Hx. apply repeat_spec in Hx. now subst x.
    + now rewrite T1.
    + assert (HC : forall k, cost (eops false g (repeat (s_rle g) k)) = Z.of_nat k).
      { induction k as [|k IH]; [reflexivity|]. cbn [repeat eops]. rewrite snx_rle, cost_app, IH. unfold symop, sh_symbol. rewrite Z.eqb_refl. change (cost (fst ([] ++ [Bits 0 1], g))) with 1. lia. }
      rewrite HC. lia.
Qed.

(** *** The main loop *)
Section Main.
  Variables (In : mem) (n : Z).
  Hypothesis HIn : byte_mem In.
  Hypothesis Hn : 1 <= n <= large_in.

  Definition Copying (i pos c : Z) (s : est) : Prop :=
    let rle := s_rle (e_g s) in
    e_blk s = pos /\ 16 * c <= 129 * pos /\ 0 <= e_copy s /\
    if e_same s then
      pos + e_copy s + e_run s = i /\ 1 <= e_run s <= 14 /\ (forall k, pos + e_copy s <= k < i -> In k = rle) /\ e_change s = 0 /\
      e_sym s = cnt rle (slice In pos (e_copy s)) + e_run s
    else
      pos + e_copy s = i /\ e_run s = 0 /\ 1 <= e_change s <= e_copy s /\ (forall k, i - e_change s <= k < i -> In k = e_last s) /\
      e_last s <> rle /\ e_sym s = cnt rle (slice In pos (e_copy s)).
  Definition Running (i pos c : Z) (s : est) : Prop :=
    e_copy s = 0 /\ e_change s = 0 /\ 0 <= e_run s /\ pos + e_run s = i /\ (forall k, pos <= k < i -> In k = s_rle (e_g s)) /\
    16 * c <= 129 * pos + (if 15 <=? e_run s then 528 else 0) /\ (e_same s = false -> e_run s = 0).
  Definition EInv (i : Z) (os : option est) : Prop :=
    exists s toks pos, os = Some s /\ 0 <= pos /\ Emits ([], syms0) toks (e_ops s, e_g s) (slice In 0 pos) /\ is_byte (s_rle (e_g s)) /\
      if e_wascopy s then Copying i pos (cost (e_ops s)) s else Running i pos (cost (e_ops s)) s.

  Lemma change_ok toks pos ops g c s : Emits ([], syms0) toks (ops, g) (slice In 0 pos) -> 0 <= pos -> 10 <= c < 2 ^ 32 -> (forall k, pos <= k < pos + c -> In k = s) ->
    Emits ([], syms0) (toks ++ [KRunL c s]) (ops ++ change_ops c s, mkS s (s_occ g) (s_sec g) (s_thr g)) (slice In 0 (pos + c)) /\
    cost (ops ++ change_ops c s) = cost ops + 47 /\ is_byte s.
  Proof.
    intros HE Hp Hc Hs. assert (Hb : is_byte s) by (rewrite <- (Hs pos) by lia; apply HIn). split; [|split].
    - rewrite slice_app by lia. rewrite Z.add_0_l. rewrite (slice_const In s pos c) by (auto; lia).
      eapply emits_app; [exact HE|]. split; [|split]; cbn [fst snd sops snxs sout tops tnx tout]; [now rewrite app_nil_r| |now rewrite app_nil_r].
      constructor; [|constructor]. cbn [tok_ok]. auto.
    - rewrite cost_app. reflexivity.
    - exact Hb.
  Qed.

  Lemma copy_ok (enc : bool) toks pos ops g c : Emits ([], syms0) toks (ops, g) (slice In 0 pos) -> 0 <= pos -> 0 <= c < 2 ^ 32 ->
    (enc = true -> 2 * (c - cnt (s_rle g) (slice In pos c)) < 7 * cnt (s_rle g) (slice In pos c)) ->
    exists toks' ops' g', (if enc then ecopy In pos c (ops, g) else Some (scopy In pos c (ops, g))) = Some (ops', g') /\
      Emits ([], syms0) toks' (ops', g') (slice In 0 (pos + c)) /\ s_rle g' = s_rle g /\
      16 * cost ops' <= 16 * cost ops + 129 * c + 528.
  Proof.
    intros HE Hp Hc He. rewrite slice_app, Z.add_0_l by lia. pose proof (cnt_range (s_rle g) (slice In pos c)) as Hr. destruct enc.
    - specialize (He eq_refl). destruct (ecopy_ok In pos c ops g HIn Hc) as (t & g' & E1 & E2 & E3 & E4). exists (toks ++ t), (ops ++ sops g t), g'.
      split; [exact E2|]. split; [eapply emits_app; eassumption|]. split; [exact E3|]. rewrite cost_app.
      destruct (Z_lt_ge_dec c 1) as [H0|H0].
      + assert (c = 0) by lia. subst c. rewrite slice_0 in * by lia. change (cnt (s_rle g) []) with 0 in *. lia.
      + lia.
    - destruct (scopy_ok In pos c ops g HIn Hc) as (t & g' & E1 & E2 & E3 & E4 & E5). exists (toks ++ t), (ops ++ sops g t), g'.
      rewrite E2. split; [reflexivity|]. split; [eapply emits_app; eassumption|]. split; [exact E3|]. rewrite cost_app. lia.
  Qed.

  Lemma in_eqb a b : (a =? b) = true -> a = b.
  Proof. apply Z.eqb_eq. Qed.

  Lemma step_ok i os : 0 <= i < n -> EInv i os -> EInv (i + 1) (sh_step In os i).
  Proof.
    intros Hi (s & toks & pos & -> & Hp & HE & Hb & HI). unfold large_in in Hn. unfold sh_step. set (rle := s_rle (e_g s)) in *.
    pose proof (HIn i) as Hbi. destruct (e_wascopy s) eqn:Ew.
    - destruct HI as (Hblk & HC & Hcp & HI). fold rle in HI. rewrite Hblk. destruct (In i =? rle) eqn:Es; [apply Z.eqb_eq in Es|].
      + destruct (e_same s) eqn:Esame; cbn [negb].
        * destruct HI as (H1 & H2 & H3 & H4 & H5). destruct (14 <? e_run s + 1) eqn:E14.
          -- replace (w64 (e_sym s + 1 - (e_run s + 1))) with (cnt rle (slice In pos (e_copy s))) by (rewrite w64_id; pose proof (cnt_range rle (slice In pos (e_copy s))); rewrite len_slice in * by lia; lia).
             pose proof (cnt_range rle (slice In pos (e_copy s))) as Hr. rewrite len_slice in Hr by lia.
             set (k := cnt rle (slice In pos (e_copy s))) in *. rewrite (w64_id (e_copy s - k)) by lia. rewrite (w64_id ((e_copy s - k) * 2)) by lia. rewrite (w64_id (k * 7)) by lia.
             destruct (copy_ok ((e_copy s - k) * 2 <? k * 7) toks pos (e_ops s) (e_g s) (e_copy s) HE Hp ltac:(lia)) as (t' & ops' & g' & E1 & E2 & E3 & E4); [fold rle; fold k; lia|].
             rewrite E1. eexists _, t', (pos + e_copy s). split; [reflexivity|]. cbn [e_ops e_g e_wascopy]. split; [lia|]. split; [exact E2|].
             split; [rewrite E3; exact Hb|]. unfold Running. cbn [e_copy e_change e_run e_same e_g]. rewrite E3. fold rle. split; [lia|]. split; [lia|]. split; [lia|]. split; [lia|].
             split; [intros j Hj; destruct (Z.eq_dec j i) as [->|]; [exact Es|apply H3; lia]|]. split; [|discriminate]. replace (15 <=? e_run s + 1) with true by lia. lia.
          -- eexists _, toks, pos. split; [reflexivity|]. cbn [e_ops e_g e_wascopy]. split; [lia|]. split; [exact HE|]. split; [exact Hb|].
             unfold Copying. cbn [e_copy e_change e_run e_same e_g e_blk e_sym e_last]. fold rle. split; [reflexivity|]. split; [lia|]. split; [lia|]. split; [lia|]. split; [lia|].
             split; [intros j Hj; destruct (Z.eq_dec j i) as [->|]; [exact Es|apply H3; lia]|]. split; [lia|]. lia.
        * destruct HI as (H1 & H2 & H3 & H4 & H5 & H6). destruct (10 <=? e_change s) eqn:E10.
          -- rewrite (w64_id (e_copy s - e_change s)) by lia.
             destruct (copy_ok false toks pos (e_ops s) (e_g s) (e_copy s - e_change s) HE Hp ltac:(lia) ltac:(discriminate)) as (t' & ops' & g' & E1 & E2 & E3 & E4).
             assert (E1' : scopy In pos (e_copy s - e_change s) (e_ops s, e_g s) = (ops', g')) by congruence. rewrite E1'.
             destruct (change_ok t' (pos + (e_copy s - e_change s)) ops' g' (e_change s) (e_last s) E2 ltac:(lia) ltac:(lia)) as (F1 & F2 & F3); [intros k Hk; apply H4; lia|].
             eexists _, _, i. split; [reflexivity|]. cbn [e_ops e_g e_wascopy s_rle]. split; [lia|].
             replace (pos + (e_copy s - e_change s) + e_change s) with i in F1 by lia. split; [exact F1|]. split; [exact F3|].
             unfold Copying. cbn [e_copy e_change e_run e_same e_g e_blk e_sym e_last s_rle]. rewrite F2. split; [lia|]. split; [lia|]. split; [lia|]. split; [lia|]. split; [lia|]. split; [lia|].
             split; [intros k Hk; replace k with i by lia; reflexivity|]. split; [congruence|].
             rewrite slice_1, cnt_cons. replace (In i =? e_last s) with false by lia. reflexivity.
          -- eexists _, toks, pos. split; [reflexivity|]. cbn [e_ops e_g e_wascopy]. split; [lia|]. split; [exact HE|]. split; [exact Hb|].
             unfold Copying. cbn [e_copy e_change e_run e_same e_g e_blk e_sym e_last]. fold rle. split; [reflexivity|]. split; [lia|]. split; [lia|]. split; [lia|]. split; [lia|].
             split; [intros j Hj; replace j with i by lia; exact Es|]. split; [reflexivity|]. lia.
      + rewrite andb_true_r. cbn [negb].
        assert (HI2 : let copy := if e_same s then e_copy s + e_run s else e_copy s in
          (if e_same s then 0 else e_run s) = 0 /\ (if e_same s then false else e_same s) = false /\
          pos + copy = i /\ 0 <= copy /\ 0 <= e_change s <= copy /\ (forall k, i - e_change s <= k < i -> In k = e_last s) /\ (0 < e_change s -> e_last s <> rle) /\ e_sym s = cnt rle (slice In pos copy)).
        { cbv zeta. destruct (e_same s) eqn:Esame.
          - destruct HI as (H1 & H2 & H3 & H4 & H5). repeat (split; [first [reflexivity|lia|intros; lia]|]).
            rewrite slice_app, cnt_app by lia. rewrite (cnt_all rle In (pos + e_copy s) (e_run s)) by (try lia; intros; apply H3; lia). lia.
          - destruct HI as (H1 & H2 & H3 & H4 & H5 & H6). repeat (split; [first [reflexivity|lia|exact H4|auto]|]). exact H6. }
        cbv zeta in HI2. set (copy := if e_same s then e_copy s + e_run s else e_copy s) in *. destruct HI2 as (-> & -> & H1 & H2 & H3 & H4 & H5 & H6).
        assert (Hr := cnt_range rle (slice In pos copy)). rewrite len_slice in Hr by lia.
        assert (Hsn : cnt rle (slice In pos (copy + 1)) = cnt rle (slice In pos copy)).
        { rewrite slice_snoc, cnt_app by lia. rewrite H1, cnt_cons, Es. change (cnt rle []) with 0. lia. }
        destruct (In i =? e_last s) eqn:El; [apply Z.eqb_eq in El|destruct (10 <=? e_change s) eqn:E10].
        * eexists _, toks, pos. split; [reflexivity|]. cbn [e_ops e_g e_wascopy]. split; [lia|]. split; [exact HE|]. split; [exact Hb|].
          unfold Copying. cbn [e_copy e_change e_run e_same e_g e_blk e_sym e_last]. fold rle. split; [reflexivity|]. split; [lia|]. split; [lia|]. split; [lia|]. split; [lia|]. split; [lia|].
          split; [intros k Hk; destruct (Z.eq_dec k i) as [->|]; [exact El|apply H4; lia]|]. split; [rewrite <- El; lia|]. lia.
        * assert (Hcnt : cnt rle (slice In pos copy) = cnt rle (slice In pos (copy - e_change s))).
          { replace copy with (copy - e_change s + e_change s) at 1 by lia. rewrite slice_app, cnt_app by lia.
            rewrite (cnt_none rle (e_last s) In (pos + (copy - e_change s)) (e_change s)); [lia|lia|apply H5; lia|intros; apply H4; lia]. }
          assert (Hr2 := cnt_range rle (slice In pos (copy - e_change s))). rewrite len_slice in Hr2 by lia.
          rewrite (w64_id (copy - e_change s)) by lia. rewrite H6, Hcnt. set (k := cnt rle (slice In pos (copy - e_change s))) in *.
          rewrite (w64_id (copy - e_change s - k)) by lia. rewrite (w64_id ((copy - e_change s - k) * 2)) by lia. rewrite (w64_id (k * 7)) by lia.
          destruct (copy_ok ((copy - e_change s - k) * 2 <? k * 7) toks pos (e_ops s) (e_g s) (copy - e_change s) HE Hp ltac:(lia)) as (t' & ops' & g' & E1 & E2 & E3 & E4); [fold rle; fold k; lia|].
          rewrite E1.
          destruct (change_ok t' (pos + (copy - e_change s)) ops' g' (e_change s) (e_last s) E2 ltac:(lia) ltac:(lia)) as (F1 & F2 & F3); [intros j Hj; apply H4; lia|].
          eexists _, _, i. split; [reflexivity|]. cbn [e_ops e_g e_wascopy s_rle]. split; [lia|].
          replace (pos + (copy - e_change s) + e_change s) with i in F1 by lia. split; [exact F1|]. split; [exact F3|].
          unfold Copying. cbn [e_copy e_change e_run e_same e_g e_blk e_sym e_last s_rle]. rewrite F2. split; [lia|]. split; [lia|]. split; [lia|]. split; [lia|]. split; [lia|]. split; [lia|].
          split; [intros j Hj; replace j with i by lia; reflexivity|]. split; [lia|].
          change (0 + 1) with 1. rewrite slice_1, cnt_cons. rewrite El. reflexivity.
        * eexists _, toks, pos. split; [reflexivity|]. cbn [e_ops e_g e_wascopy]. split; [lia|]. split; [exact HE|]. split; [exact Hb|].
          unfold Copying. cbn [e_copy e_change e_run e_same e_g e_blk e_sym e_last]. fold rle. split; [reflexivity|]. split; [lia|]. split; [lia|]. split; [lia|]. split; [lia|]. split; [lia|].
          split; [intros k Hk; replace k with i by lia; reflexivity|]. split; [lia|]. lia.
    - destruct HI as (H1 & H2 & H3 & H4 & H5 & H6 & H7). fold rle in H5. rewrite H1, H2. destruct (In i =? rle) eqn:Es; [apply Z.eqb_eq in Es|].
      + assert (H5' : forall k, pos <= k < i + 1 -> In k = rle) by (intros k Hk; destruct (Z.eq_dec k i) as [->|]; [exact Es|apply H5; lia]).
        destruct (e_same s) eqn:Esame; cbn [negb].
        * destruct (14 <? e_run s + 1) eqn:E14.
          -- rewrite ecopy_0, scopy_0. set (b := w64 _ <? _). replace (if b then Some (e_ops s, e_g s) else Some (e_ops s, e_g s)) with (Some (e_ops s, e_g s)) by (destruct b; reflexivity). clearbody b.
             eexists _, toks, pos. split; [reflexivity|]. cbn [e_ops e_g e_wascopy]. split; [lia|]. split; [exact HE|]. split; [exact Hb|].
             unfold Running. cbn [e_copy e_change e_run e_same e_g]. fold rle. split; [lia|]. split; [lia|]. split; [lia|]. split; [lia|]. split; [exact H5'|]. split; [|discriminate].
             replace (15 <=? e_run s + 1) with true by lia. destruct (15 <=? e_run s); lia.
          -- eexists _, toks, pos. split; [reflexivity|]. cbn [e_ops e_g e_wascopy]. split; [lia|]. split; [exact HE|]. split; [exact Hb|].
             unfold Running. cbn [e_copy e_change e_run e_same e_g]. fold rle. split; [lia|]. split; [lia|]. split; [lia|]. split; [lia|]. split; [exact H5'|]. split; [|discriminate].
             replace (15 <=? e_run s + 1) with false by lia. replace (15 <=? e_run s) with false in H6 by lia. lia.
        * specialize (H7 eq_refl). change (10 <=? 0) with false. cbv iota. eexists _, toks, pos. split; [reflexivity|]. cbn [e_ops e_g e_wascopy]. split; [lia|]. split; [exact HE|]. split; [exact Hb|].
          unfold Running. cbn [e_copy e_change e_run e_same e_g]. fold rle. split; [lia|]. split; [lia|]. split; [lia|]. split; [lia|]. split; [exact H5'|]. split; [|discriminate].
          change (15 <=? 1) with false. rewrite H7 in H6. change (15 <=? 0) with false in H6. cbv iota in H6 |- *. lia.
      + rewrite andb_false_r. cbv iota. change (10 <=? 0) with false. cbv iota.
        destruct (run_ops_ok (e_ops s) (e_g s) (e_run s) Hb ltac:(lia)) as (t & F1 & F2 & F3). fold rle in F1, F2, F3.
        rewrite <- (slice_const In rle pos (e_run s)) in F1 by (try lia; intros; apply H5; lia).
        pose proof (emits_app _ _ _ _ _ _ _ HE F1) as HE2. replace (slice In 0 pos ++ slice In pos (e_run s)) with (slice In 0 i) in HE2 by (rewrite <- H4, slice_app by lia; reflexivity).
        set (r := if In i =? e_last s then _ else _).
        assert (Er : exists sym, r = Some (e_ops s, e_g s, In i, 0, 1, sym, e_blk s)).
        { unfold r. destruct (In i =? e_last s) eqn:El; [apply Z.eqb_eq in El; rewrite <- El|]; eexists; reflexivity. }
        destruct Er as (sym & ->). cbn [negb]. fold rle. eexists _, _, i. split; [reflexivity|]. cbn [e_ops e_g e_wascopy]. split; [lia|]. split; [exact HE2|]. split; [exact Hb|].
        unfold Copying. cbn [e_copy e_change e_run e_same e_g e_blk e_sym e_last]. fold rle. rewrite cost_app, F3. split; [reflexivity|].
        split; [destruct (269 <? e_run s) eqn:E1; [|destruct (14 <=? e_run s) eqn:E2]; destruct (15 <=? e_run s) eqn:E3; lia|].
        split; [lia|]. split; [lia|]. split; [lia|]. split; [lia|]. split; [intros k Hk; replace k with i by lia; reflexivity|]. split; [lia|].
        rewrite slice_1, cnt_cons, Es. reflexivity.
  Qed.

  Lemma fold_lanes {A} (f : A -> Z -> A) (I : Z -> A -> Prop) m a : 0 <= m -> I 0 a -> (forall i a, 0 <= i < m -> I i a -> I (i + 1) (f a i)) ->
    I m (fold_left f (lanes m) a).
  Proof.
    intros Hm H0 Hs. enough (K : forall k, 0 <= k -> k <= m -> I k (fold_left f (lanes k) a)) by (apply K; lia).
    intros k Hk. pattern k. apply natlike_ind; [| |exact Hk]; clear k Hk.
    - intros _. exact H0.
    - intros k Hk IH Hkm. unfold Z.succ. rewrite lanes_S, fold_left_app by lia. cbn [fold_left]. apply Hs; [lia|]. apply IH. lia.
  Qed.

  (** The writes of the encoder: blocks that stand for the input, and the terminator. *)
  Theorem sh_ops_ok : exists toks, sh_ops In n = Some (sops syms0 toks ++ fin) /\ Forall tok_ok toks /\ sout syms0 toks = slice In 0 n /\
    16 * cost (sops syms0 toks) <= 129 * n + 624.
  Proof.
    unfold large_in in Hn. unfold sh_ops. assert (HI : EInv n (fold_left (sh_step In) (lanes n) (Some (mkE [] syms0 0 0 0 0 0 false false 0)))).
    { apply (fold_lanes (sh_step In) EInv); [lia| |intros i a Hi Ha; apply step_ok; [lia|exact Ha]].
      eexists _, [], 0. split; [reflexivity|]. cbn [e_ops e_g e_wascopy]. split; [lia|]. split; [apply emits_nil|]. split; [cbv; split; congruence|].
      unfold Running. cbn [e_copy e_change e_run e_same e_g]. change (cost []) with 0. split; [lia|]. split; [lia|]. split; [lia|]. split; [lia|]. split; [intros; lia|]. split; [cbn; lia|reflexivity]. }
    destruct HI as (s & toks & pos & -> & Hp & HE & Hb & HI). destruct (e_wascopy s) eqn:Ew.
    - destruct HI as (Hblk & HC & Hcp & HI). rewrite Hblk. set (copy := if e_same s then e_copy s + e_run s else e_copy s).
      assert (Hc : pos + copy = n /\ 0 <= copy) by (unfold copy; destruct (e_same s); lia).
      destruct (scopy_ok In pos copy (e_ops s) (e_g s) HIn ltac:(lia)) as (t & g' & E1 & E2 & E3 & E4 & E5). rewrite E2. cbn [fst].
      pose proof (emits_app _ _ _ _ _ _ _ HE E1) as HE2. replace (slice In 0 pos ++ slice In pos copy) with (slice In 0 n) in HE2 by (replace n with (pos + copy) by lia; rewrite slice_app by lia; reflexivity).
      destruct HE2 as (F1 & F2 & F3). cbn [fst snd] in *. exists (toks ++ t). injection F1 as F1 _. split; [now rewrite F1|]. split; [exact F2|]. split; [exact F3|].
      rewrite <- F1, cost_app. lia.
    - destruct HI as (H1 & H2 & H3 & H4 & H5 & H6 & H7).
      destruct (run_ops_ok (e_ops s) (e_g s) (e_run s) Hb ltac:(lia)) as (t & E1 & E2 & E3).
      rewrite <- (slice_const In _ pos (e_run s)) in E1 by (try lia; intros; apply H5; lia).
      pose proof (emits_app _ _ _ _ _ _ _ HE E1) as HE2. replace (slice In 0 pos ++ slice In pos (e_run s)) with (slice In 0 n) in HE2 by (rewrite <- H4, slice_app by lia; reflexivity).
      destruct HE2 as (F1 & F2 & F3). cbn [fst snd] in *. exists (toks ++ t). injection F1 as F1 _. split; [now rewrite F1|]. split; [exact F2|]. split; [exact F3|].
      rewrite <- F1, cost_app, E3. destruct (269 <? e_run s) eqn:G1; [|destruct (14 <=? e_run s) eqn:G2]; destruct (15 <=? e_run s) eqn:G3; lia.
  Qed.
End Main.
