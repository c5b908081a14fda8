(** rle8_single_short exceeds rle_compress_bounds on the input of [BigGr]. *)
From Verif Require Import Base LargeSpec Simd Spec ExtModel ExtDec ExtEnc PktModel PktEnc Rle8Model Rle8Proof Rle8Single MbModel LutModel LutProof ShModel ShProof ShEnc ShThm SameMb SameThm BigGr.

(** The symbol heuristic never chooses a symbol other than 0 that is always followed by another. *)
Lemma approx_zero In n : 1 <= n <= max_in -> byte_mem In -> (forall x, 0 <= x -> In x <> 0 -> In (x + 1) <> In x) -> approx_symbol In n = Some 0.
Proof.
  intros Hn HIn Hruns. unfold approx_symbol. set (pc0 := if In 0 =? 0 then _ else _).
  set (P := fun (i : Z) (prob pcount : Z -> Z) => forall s, s <> 0 -> 0 <= prob s <= pcount s /\ pcount s <= i).
  destruct (loop_inv (approx_step In n)
    (fun '(i, sym, count, prob, pcount) => 0 <= i <= n /\ (sym <> 0 -> (count = 0 /\ i = 0 /\ sym = 255 - In 0) \/ (count = 1 /\ 1 <= i /\ In (i - 1) = sym)) /\ P i prob pcount)
    (fun '(i, _, _, _, _) => Z.max 0 (n - i))
    (fun r => exists i sym count prob pcount, r = Some (sym, count, prob, pcount) /\ i <= n /\ (sym <> 0 -> 0 <= count <= 1) /\ P i prob pcount)
    (0, 255 - In 0, 0, fun _ => 0, pc0)) as (r & HL & i & sym & count & prob & pcount & -> & Hi & Hc & HP).
  - intros [[[[i sym] count] prob] pcount] (Hi & Hc & HP). unfold approx_step. destruct (i <? n - 16) eqn:E.
    2:{ exists i, sym, count, prob, pcount. split; [reflexivity|]. split; [lia|]. split; [|exact HP]. intros H0. destruct (Hc H0); lia. }
    set (f := fun j : Z => In (i + j) =? sym). destruct (lead_spec f 16) as (L1 & L2 & _); [lia|].
    assert (Hb : sym <> 0 -> lead f 16 = 0).
    { intros H0. destruct (Z.eq_dec (lead f 16) 0) as [|Hne]; [assumption|]. exfalso. pose proof (L2 0 ltac:(lia)) as A0. unfold f in A0. apply Z.eqb_eq in A0. rewrite Z.add_0_r in A0.
      destruct (Hc H0) as [(_ & -> & Hs)|(_ & Hi1 & Hs)]; [lia|]. apply (Hruns (i - 1)); [lia|congruence|]. replace (i - 1 + 1) with i by lia. congruence. }
    assert (Hn2 : n < 2 ^ 31) by (unfold max_in in Hn; lia). pose proof (max_large n ltac:(lia)).
    destruct (lead f 16 =? 16) eqn:E16.
    { split; [|lia]. split; [lia|]. split; [intros H0; specialize (Hb H0); lia|]. intros s Hs. specialize (HP s Hs). lia. }
    destruct (any f 16 || (1 <? count)) eqn:EA.
    + destruct (scan8_ok 16 In n (i + lead f 16)) as (i' & -> & Hi'); try lia.
      split; [|lia]. split; [lia|]. split; [intros _; right; split; [reflexivity|]; split; [lia|f_equal; lia]|].
      intros s Hs. unfold upd. pose proof (HP s Hs) as HPs. unfold w32. destruct (s =? sym) eqn:Es; [|lia].
      apply Z.eqb_eq in Es. subst s. rewrite (Hb Hs). assert (0 <= count <= 1) by (destruct (Hc Hs); lia). rewrite (Z.mod_small (count + 0)) by lia. rewrite !Z.mod_small by lia. lia.
    + destruct (scan8_ok 16 In n i) as (i' & -> & Hi'); try lia.
      split; [|lia]. split; [lia|]. split; [intros _; right; split; [reflexivity|]; split; [lia|f_equal; lia]|].
      intros s Hs. pose proof (HP s Hs). lia.
  - split; [lia|]. split; [tauto|]. intros s Hs. unfold pc0. destruct (In 0 =? 0); [lia|]. unfold upd. replace (s =? 0) with false by lia. lia.
  - unfold max_in in Hn. lia.
  - rewrite HL. f_equal. assert (Hn2 : n < 2 ^ 31) by (unfold max_in in Hn; lia).
    set (prob2 := upd prob sym _). set (pcount2 := upd pcount sym _).
    assert (HP2 : forall s, s <> 0 -> 0 <= prob2 s <= pcount2 s).
    { intros s Hs. unfold prob2, pcount2, upd, w32. pose proof (HP s Hs). destruct (s =? sym) eqn:Es; [|lia].
      apply Z.eqb_eq in Es. subst s. specialize (Hc Hs). rewrite !Z.mod_small by lia. lia. }
    unfold approx_best. clearbody prob2 pcount2. clear - HP2.
    set (F := fun '(best, idx) k => _). assert (K : forall l acc, snd acc = 0 -> snd (fold_left F l acc) = 0); [|now apply K].
    induction l as [|k l IH]; intros [best idx] Ha; [exact Ha|]. cbn [fold_left]. apply IH. unfold F. cbv zeta. destruct (Z.eq_dec (Z.of_nat k) 0) as [->|Hk].
    { destruct (_ && _); [destruct (best <? _)|]; (reflexivity || exact Ha). }
    replace ((0 <? pcount2 (Z.of_nat k)) && (2 <? prob2 (Z.of_nat k) / pcount2 (Z.of_nat k))) with false; [exact Ha|].
    symmetry. destruct (0 <? pcount2 (Z.of_nat k)) eqn:E; [|reflexivity]. cbn [andb]. apply Z.ltb_ge. pose proof (HP2 (Z.of_nat k) Hk). apply Z.lt_succ_r. apply Z.div_lt_upper_bound; lia.
Qed.

Lemma zbig_next x : 0 <= x -> zbig x <> 0 -> zbig (x + 1) <> zbig x.
Proof.
  intros Hx Hne. unfold zbig in *. destruct (x mod 65540 <? 65534); [|contradiction]. destruct (_ <? _); [|exact (not_eq_sym Hne)]. clear - Hx. lia.
Qed.

Section Follow.
  Context {S R : Type} (step : S -> S + R).
  Lemma reach_rest s s1 s2 r : Reach step s s1 -> Reach step s s2 -> step s2 = inr r -> Reach step s1 s2.
  Proof.
    induction 1 as [s|s t s1 E H IH]; intros H2 E2; [exact H2|]. inversion H2 as [x|x t' s2' E' H']; subst; [congruence|]. rewrite E in E'. injection E' as <-. auto.
  Qed.
  Lemma reach_keeps (I : S -> Prop) s s2 : (forall s s', I s -> step s = inl s' -> I s') -> Reach step s s2 -> I s -> I s2.
  Proof. intros HI. induction 1; eauto. Qed.
End Follow.

Definition one : shcfg := mkSh 1 false 0 true.
Definition one_proc : proc8 (list (list Z)) := fun In i count sym last a => sh_proc one In i count [sym] last a.
Notation n := zbig_n.
Notation step1 := (sh_single_step one_proc zbig n).

Lemma one_none In i count sym last a : count <= 1 -> one_proc In i count sym last a = None.
Proof. intros H. unfold one_proc. apply sh_none; [cbn; lia|exact H]. Qed.
Lemma one_some b : 0 <= b -> exists bytes, one_proc zbig (b * 65540 + 65540) 6 0 (b * 65540) [] = Some (bytes, []) /\ len bytes = 7 + 65534.
Proof.
  intros Hb. unfold one_proc, sh_proc. cbv zeta. replace (b * 65540 + 65540 - b * 65540 - 6 + 2) with 65536 by ring. change (shSC one =? 0) with true. cbv iota.
  change ((shLONG one <=? 6) || (shSHORT one + sh_penalty one 0 (sh_stored one 6) 65536 <=? 6)) with true. cbv iota. eexists. split; [reflexivity|]. rewrite len_app, len_slice by lia.
  change (len (sh_head one 0 (sh_stored one 6) 65536 [0])) with 7. lia.
Qed.

Lemma one_scan b i0 : 0 <= b < 200 -> b * 65540 <= i0 <= b * 65540 + 65534 -> loop (sscan_step 2 0 zbig n) i0 = Some (b * 65540 + 65534, true).
Proof.
  intros Hb Hi. assert (Hn : n = 200 * 65540 + 32) by reflexivity.
  destruct (sscan_ok 2 0 zbig n i0) as (i & found & E & H1 & H2 & H3); [lia|lia|unfold large_in; lia|]. rewrite E.
  destruct (H3 (b * 65540 + 65534) 6) as [Hf Hi2]; [intros k Hk; replace k with (b * 65540 + (k - b * 65540)) by lia; apply zbig_zero; lia|lia|lia|lia|].
  rewrite Hf. specialize (H2 Hf). destruct (Z.eq_dec i (b * 65540 + 65534)) as [->|Hne]; [reflexivity|]. exfalso.
  pose proof (zbig_lit b (i - b * 65540) ltac:(lia)) as K. replace (b * 65540 + (i - b * 65540)) with i in K by lia. lia.
Qed.

Lemma one_last i0 : 200 * 65540 <= i0 < n -> exists i', loop (sscan_step 2 0 zbig n) i0 = Some (i', false) /\ i0 <= i' < n.
Proof.
  intros Hi. assert (Hn : n = 200 * 65540 + 32) by reflexivity.
  destruct (sscan_ok 2 0 zbig n i0) as (i & found & E & H1 & H2 & H3); [lia|lia|unfold large_in; lia|]. exists i. rewrite E. destruct found; [|auto]. exfalso. specialize (H2 eq_refl).
  pose proof (zbig_lit 200 (i - 200 * 65540) ltac:(lia)) as K. replace (200 * 65540 + (i - 200 * 65540)) with i in K by lia. lia.
Qed.

Definition hb (b : Z) (out : list Z) : est8 (list (list Z)) := mk8 (b * 65540 + 65535) 1 0 (b * 65540) [] out.

Lemma any_none f W : (forall j, 0 <= j < W -> f j = false) -> any f W = false.
Proof. intros H. destruct (any f W) eqn:E; [|reflexivity]. apply any_true in E. destruct E as (j & Hj & E). rewrite H in E by exact Hj. discriminate. Qed.

Lemma one_start : step1 (mk8 0 0 0 0 [] []) = inl (hb 0 []).
Proof.
  assert (Hn : n = 200 * 65540 + 32) by reflexivity. unfold sh_single_step. cbn [i8 count8 sym8 last8 aux8 out8]. replace (0 <? n - 16) with true by lia. cbv zeta.
  assert (F : forall j, 0 <= j < 16 -> (zbig (0 + j) =? 0) = false). { intros j Hj. pose proof (zbig_lit 0 j ltac:(lia)). change (0 * 65540) with 0 in *. lia. }
  set (f := fun j => zbig (0 + j) =? 0) in *. assert (L0 : lead f 16 = 0) by (apply lead_is; [lia|intros k Hk; lia|apply F; lia]). rewrite L0, any_none by exact F. clear L0 F. cbn [Z.eqb orb Z.ltb Z.compare]. cbn [i8 count8 sym8 last8 aux8 out8]. rewrite (one_scan 0 0) by lia. reflexivity.
Qed.

(** The end of a run: its packet, and the search for the next. *)
Lemma one_run b out bytes : 0 <= b < 200 -> one_proc zbig (b * 65540 + 65540) 6 0 (b * 65540) [] = Some (bytes, []) ->
  step1 (hb b out) = match loop (sscan_step 2 0 zbig n) ((b + 1) * 65540) with
    | Some (i', found) => inl (mk8 (i' + 1) (if found then 1 else 0) 0 ((b + 1) * 65540) [] (out ++ bytes))
    | None => inr None
    end.
Proof.
  intros Hb HP. assert (Hn : n = 200 * 65540 + 32) by reflexivity. unfold sh_single_step, hb. cbn [i8 count8 sym8 last8 aux8 out8]. replace (b * 65540 + 65535 <? n - 16) with true by lia. cbv zeta.
  set (f := fun j => zbig (b * 65540 + 65535 + j) =? 0).
  assert (F : forall j, 0 <= j < 5 -> f j = true). { intros j Hj. unfold f. rewrite <- Z.add_assoc, zbig_zero by lia. reflexivity. }
  assert (F5 : f 5 = false). { unfold f. pose proof (zbig_lit (b + 1) 0 ltac:(lia)) as K. replace (b * 65540 + 65535 + 5) with ((b + 1) * 65540 + 0) by ring. lia. }
  rewrite (lead_is f 16 5) by (try lia; assumption). cbn [Z.eqb Pos.eqb].
  assert (A : any f 16 = true). { destruct (any f 16) eqn:E; [reflexivity|]. pose proof (any_false f 16 E 0 ltac:(lia)) as K. rewrite (F 0) in K by lia. discriminate. }
  rewrite A. cbn [orb]. unfold emit8. cbn [i8 count8 sym8 last8 aux8 out8]. replace (b * 65540 + 65535 + 5) with (b * 65540 + 65540) by ring. change (1 + 5) with 6. rewrite HP. cbn [i8 count8 sym8 last8 aux8 out8].
  replace (b * 65540 + 65540) with ((b + 1) * 65540) by ring. reflexivity.
Qed.

Lemma one_blocks : forall B : nat, Z.of_nat B < 200 -> exists out, Reach step1 (mk8 0 0 0 0 [] []) (hb (Z.of_nat B) out) /\ len out = Z.of_nat B * 65541.
Proof.
  induction B as [|B IH]; intros HB; [exists []; split; [apply reach_one, one_start|reflexivity]|]. destruct (IH ltac:(lia)) as (out & R & L).
  destruct (one_some (Z.of_nat B) ltac:(lia)) as (bytes & HP & LB). exists (out ++ bytes). split; [|rewrite len_app, L, LB; lia].
  eapply reach_snoc; [exact R|]. rewrite (one_run _ _ bytes) by (try lia; exact HP). rewrite (one_scan (Z.of_nat B + 1)) by lia. unfold hb. replace (Z.of_nat (Datatypes.S B)) with (Z.of_nat B + 1) by lia. do 2 f_equal. lia.
Qed.

(** Behind the last run: literals. *)
Definition rest_ok (out : list Z) (s : est8 (list (list Z))) : Prop := 200 * 65540 <= i8 s <= n /\ count8 s = 0 /\ sym8 s = 0 /\ last8 s = 200 * 65540 /\ aux8 s = [] /\ out8 s = out.
Lemma rest_lit x : 200 * 65540 <= x < n -> (zbig x =? 0) = false.
Proof. intros H. assert (Hn : n = 200 * 65540 + 32) by reflexivity. pose proof (zbig_lit 200 (x - 200 * 65540) ltac:(lia)) as K. replace (200 * 65540 + (x - 200 * 65540)) with x in K by lia. lia. Qed.
Lemma rest_step out s s' : rest_ok out s -> step1 s = inl s' -> rest_ok out s'.
Proof.
  intros (H1 & H2 & H3 & H4 & H5 & H6) E. unfold sh_single_step in E. destruct (i8 s <? n - 16) eqn:Ei; [|discriminate]. cbv zeta in E. rewrite H3 in E.
  assert (F : forall j, 0 <= j < 16 -> (zbig (i8 s + j) =? 0) = false) by (intros j Hj; apply rest_lit; lia).
  rewrite (lead_is _ 16 0) in E by (try lia; apply F; lia). rewrite any_none in E by exact F. rewrite H2 in E. cbn [Z.eqb orb Z.ltb Z.compare] in E.
  destruct (one_last (i8 s)) as (i' & EL & Hi'); [lia|]. rewrite EL in E. injection E as <-. unfold rest_ok. cbn [i8 count8 sym8 last8 aux8 out8]. rewrite H3. repeat split; try assumption; lia.
Qed.
Lemma rest_scalar out s s' : rest_ok out s -> scalar8_step true one_proc zbig n s = inl s' -> rest_ok out s'.
Proof.
  intros (H1 & H2 & H3 & H4 & H5 & H6) E. unfold scalar8_step in E. destruct (i8 s <? n) eqn:Ei; [|discriminate]. rewrite H3 in E. rewrite rest_lit in E by lia.
  unfold emit8 in E. rewrite one_none in E by lia. injection E as <-. unfold rest_ok. cbn [i8 count8 sym8 last8 aux8 out8]. repeat split; try assumption; lia.
Qed.

Lemma single_stop proc In m s r : sh_single_step proc In m s = inr (Some r) -> r = s.
Proof.
  unfold sh_single_step. cbv zeta. destruct (i8 s <? m - 16); [|congruence]. destruct (_ =? 16); [discriminate|]. destruct (loop _ _) as [[? ?]|]; discriminate.
Qed.
Lemma one_parts In m body : sh_body_single one In m = Some body -> exists sym s1 s2, approx_symbol In m = Some sym /\ loop (sh_single_step one_proc In m) (mk8 0 0 sym 0 [] []) = Some (Some s1) /\
  loop (scalar8_step true one_proc In m) s1 = Some s2 /\ body = sym :: finish8 one_proc (sh_term_none one) (sh_term_lits one) In s2.
Proof.
  unfold sh_body_single. cbv zeta. destruct (approx_symbol In m) as [sym|]; [|discriminate]. change (fun (In0 : mem) (i count sym0 last : Z) (a : list (list Z)) => sh_proc one In0 i count [sym0] last a) with one_proc.
  destruct (loop (sh_single_step _ _ _) _) as [[s1|]|] eqn:E1; try discriminate. destruct (loop (scalar8_step _ _ _ _) _) as [s2|] eqn:E2; [|discriminate]. intros E. exists sym, s1, s2. repeat split; try assumption. congruence.
Qed.

Lemma one_big v : exists out, sh_compress one v false false zbig n (rle_compress_bounds n) = COk out /\ rle_compress_bounds n < len out.
Proof.
  assert (Hn : n = 200 * 65540 + 32) by reflexivity.
  destruct (sh_single_ok one zbig n) as (body & EB & _); [apply shcodecs_ok; now left|reflexivity|apply zbig_byte|unfold large_in; lia|].
  pose proof EB as EB'. destruct (one_parts _ _ _ EB) as (sym & s1 & s2 & E0 & E1 & E2 & EB2). clear EB. rewrite (approx_zero zbig n) in E0; [|unfold max_in; lia|apply zbig_byte|apply zbig_next]. injection E0 as <-.
  destruct (one_blocks 199 ltac:(lia)) as (out & R & L). change (Z.of_nat 199) with 199 in *. destruct (one_some 199 ltac:(lia)) as (bytes & HP & LB).
  destruct (one_last (200 * 65540) ltac:(lia)) as (i' & EL & Hi').
  assert (R1 : Reach step1 (mk8 0 0 0 0 [] []) (mk8 (i' + 1) 0 0 (200 * 65540) [] (out ++ bytes))). { eapply reach_snoc; [exact R|]. rewrite (one_run _ _ bytes) by (try lia; exact HP). change ((199 + 1) * 65540) with (200 * 65540). rewrite EL. reflexivity. }
  destruct (loop_halts _ _ _ E1) as (t1 & T1 & T2).
  assert (I1 : rest_ok (out ++ bytes) t1). { eapply (reach_keeps step1); [intros; eapply rest_step; eassumption|eapply reach_rest; [exact R1|exact T1|exact T2]|]. unfold rest_ok. cbn [i8 count8 sym8 last8 aux8 out8]. repeat split; lia. }
  assert (t1 = s1) as -> by (symmetry; eapply single_stop; exact T2).
  destruct (loop_halts _ _ _ E2) as (t2 & U1 & U2).
  assert (I2 : rest_ok (out ++ bytes) t2). { eapply (reach_keeps (scalar8_step true one_proc zbig n)); [intros; eapply rest_scalar; eassumption|exact U1|exact I1]. }
  assert (t2 = s2 /\ i8 t2 = n) as [-> Hi2]. { unfold scalar8_step in U2. destruct (i8 t2 <? n) eqn:E; [destruct (_ =? _); discriminate|]. split; [congruence|]. destruct I2. lia. }
  destruct I2 as (_ & J2 & _ & J4 & _ & J6).
  assert (LB2 : len body = 1 + 200 * 65541 + len (sh_term_lits one 32) + 32).
  { rewrite EB2. unfold finish8. rewrite one_none by lia. rewrite len_cons, J6, J4, Hi2. replace (n - 200 * 65540) with 32 by lia. rewrite !len_app, L, LB, len_slice by lia. lia. }
  assert (Hb : rle_compress_bounds n = n + 193) by (unfold rle_compress_bounds; replace (n >? 2 ^ 30) with false by lia; reflexivity).
  unfold sh_compress, sh_wrap, sh_body. change (shOne one) with true. cbv iota zeta. rewrite EB'. replace (n =? 0) with false by lia. replace (rle_compress_bounds n <? rle_compress_bounds n) with false by lia. cbn [orb].
  eexists. split; [reflexivity|]. rewrite !len_app, LB2, !len_le32, Hb. change (len (sh_term_lits one 32)) with 9. lia.
Qed.
