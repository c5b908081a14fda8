(** The greedy encoders exceed rle_compress_bounds for every symbol size: 6 bytes of a symbol in the
    table behind 65534 literals cost 7. *)
From Verif Require Import Base LargeSpec Simd Spec ExtModel ExtDec ExtEnc PktModel PktEnc MbModel LutModel LutProof ShModel ShProof ShEnc ShThm SameMb SameThm.

Definition zbig : mem := fun x => if x mod 65540 <? 65534 then 200 + x mod 16 else 0.
Definition zbig_n : Z := 200 * 65540 + 32.

Lemma zbig_byte : byte_mem zbig.
Proof. intros x. unfold zbig, is_byte. destruct (_ <? _); lia. Qed.
Lemma zbig_lit b r : 0 <= r < 65534 -> 200 <= zbig (b * 65540 + r) < 216.
Proof. intros Hr. unfold zbig. replace ((b * 65540 + r) mod 65540) with r by lia. replace (r <? 65534) with true by lia. lia. Qed.
Lemma zbig_zero b r : 65534 <= r < 65540 -> zbig (b * 65540 + r) = 0.
Proof. intros Hr. unfold zbig. replace ((b * 65540 + r) mod 65540) with r by lia. replace (r <? 65534) with false by lia. reflexivity. Qed.
Lemma zbig_diff b r S : 0 <= r < 65534 -> 0 < S < 16 -> zbig (b * 65540 + r + S) <> zbig (b * 65540 + r).
Proof.
  intros Hr HS. pose proof (zbig_lit b r Hr) as K. unfold zbig at 1. destruct (_ <? 65534) eqn:E; [|lia]. unfold zbig in *. replace ((b * 65540 + r) mod 65540) with r in * by lia. replace (r <? 65534) with true in * by lia.
  generalize (b * 65540 + r). clear - HS. intros x. lia.
Qed.

Lemma gr_S0 c : List.In c greedy_codecs -> shS c = 2 \/ shS c = 3 \/ shS c = 4 \/ shS c = 6 \/ shS c = 8.
Proof. intros Hc. unfold greedy_codecs in Hc. cbn [flat_map map app List.In] in Hc. repeat (destruct Hc as [<-|Hc]; [cbn [shS]; lia|]). destruct Hc. Qed.
Lemma lut_shape0 c : List.In c greedy_codecs -> exists rest, lut_init (shS c) (shSC c) = repeat 0 (Z.to_nat (shS c)) :: rest /\ forall e, List.In e rest -> exists y e', e = y :: e' /\ y <> 0.
Proof.
  intros Hc. unfold greedy_codecs in Hc. cbn [flat_map map app List.In] in Hc.
  repeat (destruct Hc as [<-|Hc]; [eexists; split; [reflexivity|]; cbn; intros e H; repeat (destruct H as [<-|H]; [eexists _, _; split; [reflexivity|discriminate]|]); destruct H|]). destruct Hc.
Qed.
Lemma gr_consts c : List.In c greedy_codecs -> (if shSC c =? 0 then 0 else lut_index (repeat 0 (Z.to_nat (shS c))) (lut_init (shS c) (shSC c))) = 0 /\ (shSHORT c + sh_penalty c 0 (sh_stored c 6) 65536 <=? 6) = true /\ len (sh_head c 0 (sh_stored c 6) 65536 (repeat 0 (Z.to_nat (shS c)))) = 7 /\
      (if shSC c =? 0 then lut_init (shS c) (shSC c) else lut_front (shSC c) (repeat 0 (Z.to_nat (shS c))) 0 (lut_init (shS c) (shSC c))) = lut_init (shS c) (shSC c) /\ 9 <= len (sh_term_lits c 32).
Proof. intros Hc. unfold greedy_codecs in Hc. cbn [flat_map map app List.In] in Hc. repeat (destruct Hc as [<-|Hc]; [vm_compute; repeat split; (reflexivity || discriminate)|]). destruct Hc. Qed.

Lemma load_is In x l : (forall j, 0 <= j < len l -> In (x + j) = symbyte l j) -> load In (len l) x = l.
Proof.
  revert x. induction l as [|y l IH]; intros x H; [reflexivity|]. pose proof (len_nonneg l). unfold load in *. rewrite len_cons in *. rewrite slice_cons by lia. f_equal.
  - rewrite <- (Z.add_0_r x). apply (H 0). lia.
  - replace (1 + len l - 1) with (len l) by lia. apply IH. intros j Hj. rewrite <- Z.add_assoc, (H (1 + j)) by lia. unfold symbyte. replace (Z.to_nat (1 + j)) with (Datatypes.S (Z.to_nat j)) by lia. reflexivity.
Qed.

Lemma nth_firstn_lt (k m : nat) : (k < m)%nat -> forall l : list Z, nth k (firstn m l) 0 = nth k l 0.
Proof. revert m. induction k as [|k IH]; intros m Hk l; (destruct m as [|m]; [lia|]); destruct l as [|y l]; try reflexivity. cbn [firstn nth]. apply IH. lia. Qed.
Lemma nth_skipn_add (m k : nat) : forall l : list Z, nth k (skipn m l) 0 = nth (m + k) l 0.
Proof. induction m as [|m IH]; intros l; [reflexivity|]. destruct l as [|y l]; [destruct k; reflexivity|]. cbn [skipn Nat.add nth]. apply IH. Qed.
Lemma load_window In i l q s : (forall k, 0 <= k < len l -> In (i + k) = symbyte l k) -> 0 <= q -> 0 <= s -> q + s <= len l -> load In s (i + q) = firstn (Z.to_nat s) (skipn (Z.to_nat q) l).
Proof.
  intros H Hq Hs Hqs. assert (E : len (firstn (Z.to_nat s) (skipn (Z.to_nat q) l)) = s). { unfold len in *. rewrite firstn_length, skipn_length. lia. }
  rewrite <- E at 1. apply load_is. intros j Hj. rewrite E in Hj. rewrite <- Z.add_assoc, H by lia. unfold symbyte. rewrite nth_firstn_lt by lia. rewrite nth_skipn_add. f_equal. lia.
Qed.

Ltac nats := change (Z.to_nat 2) with 2%nat; change (Z.to_nat 3) with 3%nat; change (Z.to_nat 4) with 4%nat; change (Z.to_nat 6) with 6%nat; change (Z.to_nat 8) with 8%nat; cbn [firstn skipn].

Section Greedy.
  Variables (c : shcfg).
  Hypothesis Hc : List.In c greedy_codecs.
  Notation S := (shS c).
  Notation lut := (lut_init (shS c) (shSC c)).
  Notation n := zbig_n.
  Notation step := (greedy_step c zbig n).

  Lemma gr_S : S = 2 \/ S = 3 \/ S = 4 \/ S = 6 \/ S = 8.
  Proof. exact (gr_S0 c Hc). Qed.

  (** From the end of a packet to the end of the iteration. *)
  Definition gafter (i last : Z) (out : list Z) : estm (list (list Z)) :=
    greedy_second c zbig n (mkM i 0 [] last lut out false).
  Lemma gr_none i sym last out g : greedy_second c zbig n (mkM i 0 sym last lut out g) = gafter i last out.
  Proof. unfold gafter, greedy_second, emitM. cbn [m_i m_count m_sym m_last m_aux m_out m_goto]. rewrite !sh_none by (pose proof gr_S; lia). reflexivity. Qed.
  Lemma gr_some i count sym last out bytes g : sh_proc c zbig i count sym last lut = Some (bytes, lut) -> greedy_second c zbig n (mkM i count sym last lut out g) = gafter i i (out ++ bytes).
  Proof. intros E. unfold gafter, greedy_second, emitM. cbn [m_i m_count m_sym m_last m_aux m_out m_goto]. rewrite E, sh_none by (pose proof gr_S; lia). reflexivity. Qed.

  Lemma eqb_hd a b x y : x <> y -> eqb_bytes (x :: a) (y :: b) = false.
  Proof. intros H. destruct (eqb_bytes _ _) eqn:E; [|reflexivity]. apply eqb_bytes_eq in E. congruence. Qed.
  Lemma best_none x r : forall l best cnt, 0 <= cnt -> (forall e, List.In e l -> exists y e', e = y :: e' /\ y <> x) -> best_match S (x :: r) l best cnt = (best, cnt).
  Proof.
    induction l as [|e l IH]; intros best cnt H0 H; [reflexivity|]. cbn [best_match]. destruct (H e (or_introl eq_refl)) as (y & e' & -> & Hy).
    rewrite eqb_hd by exact Hy. cbn [common]. replace (x =? y) with false by lia. replace (cnt <? 0) with false by lia. rewrite andb_false_r. apply IH; [exact H0|]. intros e He. apply H. now right.
  Qed.
  Lemma lut_heads e : List.In e lut -> exists y e', e = y :: e' /\ ~ (200 <= y < 216).
  Proof.
    pose proof gr_S as HS. unfold lut_init, lut_bytes. intros H. apply in_map_iff in H. destruct H as (y & <- & H).
    replace (Z.to_nat S) with (Datatypes.S (Z.to_nat (S - 1))) by lia. cbn [repeat]. eexists _, _. split; [reflexivity|].
    assert (K : List.In y [0; 127; 255; 1; 126; 128; 254]). { rewrite <- (firstn_skipn (Z.to_nat (shSC c))). apply in_or_app. now left. }
    cbn [List.In] in K. lia.
  Qed.
  Lemma lut_shape : exists rest, lut = repeat 0 (Z.to_nat S) :: rest /\ forall e, List.In e rest -> exists y e', e = y :: e' /\ y <> 0.
  Proof. exact (lut_shape0 c Hc). Qed.

  Lemma gr_lit b r last out : 0 <= b -> 0 <= r < 65534 -> gafter (b * 65540 + r) last out = mkM (b * 65540 + r + 1) 0 (load zbig S (b * 65540 + r)) last lut out false.
  Proof.
    intros Hb Hr. pose proof gr_S as HS. unfold gafter, greedy_second, emitM. cbn [m_i m_count m_sym m_last m_aux m_out m_goto]. rewrite sh_none by lia. cbn [m_i m_count m_sym m_last m_aux m_out m_goto].
    assert (E : forall x, load zbig S x = zbig x :: slice zbig (x + 1) (S - 1)) by (intros x; unfold load; apply slice_cons; lia).
    rewrite !E, eqb_hd by (apply zbig_diff; lia). rewrite andb_false_r. rewrite best_none; [|lia|].
    - destruct (_ <=? n); reflexivity.
    - intros e He. destruct (lut_heads e He) as (y & e' & -> & Hy). exists y, e'. split; [reflexivity|]. pose proof (zbig_lit b r Hr). lia.
  Qed.
  Lemma gr_lits b last out : 0 <= b -> forall d : nat, Z.of_nat d <= 65534 -> b * 65540 + Z.of_nat d < n \/ d = 0%nat -> Reach step (gafter (b * 65540) last out) (gafter (b * 65540 + Z.of_nat d) last out).
  Proof.
    intros Hb. induction d as [|d IH]; intros Hd Hn; [replace (b * 65540 + Z.of_nat 0) with (b * 65540) by lia; constructor|].
    eapply reach_snoc; [apply IH; [lia|left; lia]|]. rewrite gr_lit by lia. unfold greedy_step. cbn [m_i m_count m_sym m_last m_aux m_out m_goto].
    replace (b * 65540 + Z.of_nat d + 1 <? n) with true by lia. cbn [Z.eqb negb andb]. rewrite gr_none. do 2 f_equal. lia.
  Qed.

  Lemma gr_proc b : 0 <= b -> exists bytes, sh_proc c zbig (b * 65540 + 65540) 6 (repeat 0 (Z.to_nat S)) (b * 65540) lut = Some (bytes, lut) /\ len bytes = 7 + 65534.
  Proof.
    intros Hb. unfold sh_proc. cbv zeta. replace (b * 65540 + 65540 - b * 65540 - 6 + 2) with 65536 by ring.
    destruct (gr_consts c Hc) as (E1 & E2 & K & E3 & _). rewrite E1, E2, E3.
    rewrite orb_true_r. eexists. split; [reflexivity|]. rewrite len_app, K, len_slice by lia. lia.
  Qed.

  Lemma gr_eq s i last out : S = s -> gafter i last out =
    let sym := load zbig s i in
    if (i + s <=? n) && eqb_bytes (load zbig s (i + s)) sym then mkM (i + s * 2) (s * 2) sym last lut out false
    else if i + s <=? n then
      let '(best, cnt) := best_match s sym lut [] 0 in
      if 2 <=? cnt then mkM (i + cnt) cnt best last lut out (negb (s =? 2) && (cnt <? s)) else mkM (i + 1) 0 sym last lut out false
    else mkM (i + 1) 0 sym last lut out false.
  Proof. intros <-. unfold gafter, greedy_second, emitM. cbn [m_i m_count m_sym m_last m_aux m_out m_goto]. rewrite sh_none by (pose proof gr_S; lia). reflexivity. Qed.
  Lemma gr_ext s j cnt sym last out : S = s -> 0 < cnt -> j < n -> j + s <= n -> load zbig s j = sym -> step (mkM j cnt sym last lut out false) = inl (mkM (j + s) (cnt + s) sym last lut out false).
  Proof.
    intros <- H0 Hj H1 H2. unfold greedy_step. cbn [m_i m_count m_sym m_last m_aux m_out m_goto]. rewrite H2. replace (j <? n) with true by (clear - Hj; lia). replace (cnt =? 0) with false by (clear - H0; lia). replace (j + S <=? n) with true by (clear - H1; lia).
    rewrite (proj2 (eqb_bytes_eq sym sym) eq_refl). reflexivity.
  Qed.
  Lemma gr_end s j cnt sym last out i6 bytes m l : S = s -> load zbig s j = l -> 0 < cnt -> j < n -> j + s <= n -> eqb_bytes l sym = false -> common sym l = m -> j + m = i6 -> cnt + m = 6 ->
    sh_proc c zbig i6 6 sym last lut = Some (bytes, lut) -> step (mkM j cnt sym last lut out false) = inl (gafter i6 i6 (out ++ bytes)).
  Proof.
    intros <- HL H0 Hj H1 H2 H3 H4 H5 HP. unfold greedy_step. cbn [m_i m_count m_sym m_last m_aux m_out m_goto]. rewrite HL, H2, H3, H4, H5. replace (j <? n) with true by (clear - Hj; lia). replace (cnt =? 0) with false by (clear - H0; lia). replace (j + S <=? n) with true by (clear - H1; lia).
    cbn [negb andb]. rewrite (gr_some _ _ _ _ _ bytes) by exact HP. reflexivity.
  Qed.

  (** Six zeros and two bytes of the next block. *)
  Lemma gr_run b out bytes : 0 <= b < 200 -> sh_proc c zbig (b * 65540 + 65540) 6 (repeat 0 (Z.to_nat S)) (b * 65540) lut = Some (bytes, lut) ->
    Reach step (gafter (b * 65540 + 65534) (b * 65540) out) (gafter ((b + 1) * 65540) ((b + 1) * 65540) (out ++ bytes)).
  Proof.
    intros Hb HP. pose proof (Z.eq_refl n) as Hn. unfold zbig_n in Hn at 2. set (i := b * 65540 + 65534).
    assert (Z0 : forall k, 0 <= k < 6 -> zbig (i + k) = 0) by (intros k Hk; unfold i; rewrite <- Z.add_assoc; apply zbig_zero; lia).
    assert (Z6 : forall k, 6 <= k < 16 -> exists y, zbig (i + k) = y /\ (0 =? y) = false /\ y <> 0).
    { intros k Hk. eexists. split; [reflexivity|]. pose proof (zbig_lit (b + 1) (k - 6) ltac:(lia)). replace (i + k) with ((b + 1) * 65540 + (k - 6)) by (unfold i; ring). lia. }
    replace (b * 65540 + 65540) with (i + 6) in HP by (unfold i; ring). replace ((b + 1) * 65540) with (i + 6) by (unfold i; ring).
    assert (Hi : 0 <= i /\ i + 30 < n) by (unfold i; lia).
    destruct lut_shape as (rest & EL & HR). revert HP. generalize (b * 65540). clearbody i. intros last HP.
    destruct (Z6 6 ltac:(lia)) as (y6 & X6 & B6 & N6). destruct (Z6 7 ltac:(lia)) as (y7 & X7 & B7 & N7). destruct (Z6 8 ltac:(lia)) as (y8 & X8 & B8 & N8). destruct (Z6 9 ltac:(lia)) as (y9 & X9 & B9 & N9).
    destruct (Z6 10 ltac:(lia)) as (ya & Xa & Ba & Na). destruct (Z6 11 ltac:(lia)) as (yb & Xb & Bb & Nb). destruct (Z6 12 ltac:(lia)) as (yc & Xc & Bc & Nc). destruct (Z6 13 ltac:(lia)) as (yd & Xd & Bd & Nd). destruct (Z6 14 ltac:(lia)) as (ye & Xe & Be & Ne). destruct (Z6 15 ltac:(lia)) as (yf & Xf & Bf & Nf). clear Z6.
    assert (HZ : forall k, 0 <= k < 16 -> zbig (i + k) = symbyte [0;0;0;0;0;0;y6;y7;y8;y9;ya;yb;yc;yd;ye;yf] k).
    { intros k Hk. destruct (Z_lt_ge_dec k 6); [rewrite Z0 by lia; assert (K : k = 0 \/ k = 1 \/ k = 2 \/ k = 3 \/ k = 4 \/ k = 5) by lia; repeat (destruct K as [->|K]; [reflexivity|]); subst k; reflexivity|].
      assert (K : k = 6 \/ k = 7 \/ k = 8 \/ k = 9 \/ k = 10 \/ k = 11 \/ k = 12 \/ k = 13 \/ k = 14 \/ k = 15) by lia. repeat (destruct K as [->|K]; [assumption|]). subst k. assumption. }
    assert (HW : forall q s, 0 <= q -> 0 <= s -> q + s <= 16 -> load zbig s (i + q) = firstn (Z.to_nat s) (skipn (Z.to_nat q) [0;0;0;0;0;0;y6;y7;y8;y9;ya;yb;yc;yd;ye;yf])).
    { intros q s Hq Hs Hqs. apply load_window; [exact HZ|exact Hq|exact Hs|exact Hqs]. }
    clear HZ X6 X7 X8 X9 Xa Xb Xc Xd Xe Xf Z0.
    assert (HW0 : forall s, 0 <= s <= 16 -> load zbig s i = firstn (Z.to_nat s) [0;0;0;0;0;0;y6;y7;y8;y9;ya;yb;yc;yd;ye;yf]) by (intros s Hs; rewrite <- (Z.add_0_r i) at 1; apply (HW 0 s); lia).
    destruct gr_S as [ES|[ES|[ES|[ES|ES]]]].
    - assert (HP' : sh_proc c zbig (i + 6) 6 [0; 0] last lut = Some (bytes, lut)) by (revert HP; rewrite ES at 1; exact (fun x => x)).
      rewrite (gr_eq 2) by exact ES. cbv zeta. rewrite (HW0 2), (HW 2 2) by lia. nats. replace (i + 2 <=? n) with true by lia. cbn -[lut_init zbig_n].
      eapply reach_trans; [apply reach_one, (gr_ext 2); try exact ES; try lia; rewrite (HW 4 2) by lia; reflexivity|]. apply reach_one.
      apply (gr_end 2 _ _ _ _ _ _ _ 0 [y6; y7]); try exact ES; try exact HP'; try lia.
      + replace (i + 4 + 2) with (i + 6) by lia. rewrite (HW 6 2) by lia. reflexivity.
      + now apply eqb_hd.
      + cbn [common]. now rewrite B6.
    - assert (HP' : sh_proc c zbig (i + 6) 6 [0; 0; 0] last lut = Some (bytes, lut)) by (revert HP; rewrite ES at 1; exact (fun x => x)).
      rewrite (gr_eq 3) by exact ES. cbv zeta. rewrite (HW0 3), (HW 3 3) by lia. nats. replace (i + 3 <=? n) with true by lia. cbn -[lut_init zbig_n]. apply reach_one.
      apply (gr_end 3 _ _ _ _ _ _ _ 0 [y6; y7; y8]); try exact ES; try exact HP'; try lia.
      + rewrite (HW 6 3) by lia. reflexivity.
      + now apply eqb_hd.
      + cbn [common]. now rewrite B6.
    - assert (HP' : sh_proc c zbig (i + 6) 6 [0; 0; 0; 0] last lut = Some (bytes, lut)) by (revert HP; rewrite ES at 1; exact (fun x => x)).
      rewrite (gr_eq 4) by exact ES. cbv zeta. rewrite (HW0 4), (HW 4 4) by lia. nats. replace (i + 4 <=? n) with true by lia.
      assert (EL' : lut = [0; 0; 0; 0] :: rest) by (rewrite EL; rewrite ES; reflexivity).
      cbn -[lut_init zbig_n best_match eqb_bytes]. replace (eqb_bytes [0; 0; y6; y7] [0; 0; 0; 0]) with false by (cbn; rewrite (Z.eqb_sym y6), B6; reflexivity). rewrite EL' at 1. cbn -[lut_init zbig_n]. apply reach_one.
      apply (gr_end 4 _ _ _ _ _ _ _ 2 [0; 0; y6; y7]); try exact ES; try exact HP'; try lia.
      + rewrite (HW 4 4) by lia. reflexivity.
      + cbn. rewrite (Z.eqb_sym y6), B6. reflexivity.
      + cbn [common]. now rewrite B6.
    - assert (HP' : sh_proc c zbig (i + 6) 6 [0; 0; 0; 0; 0; 0] last lut = Some (bytes, lut)) by (revert HP; rewrite ES at 1; exact (fun x => x)).
      rewrite (gr_eq 6) by exact ES. cbv zeta. rewrite (HW0 6), (HW 6 6) by lia. nats. replace (i + 6 <=? n) with true by lia.
      assert (EL' : lut = [0; 0; 0; 0; 0; 0] :: rest) by (rewrite EL; rewrite ES; reflexivity).
      cbn -[lut_init zbig_n best_match eqb_bytes]. rewrite eqb_hd by exact N6. rewrite EL' at 1. cbn -[lut_init zbig_n]. apply reach_one.
      apply (gr_end 6 _ _ _ _ _ _ _ 0 [y6; y7; y8; y9; ya; yb]); try exact ES; try exact HP'; try lia.
      + rewrite (HW 6 6) by lia. reflexivity.
      + now apply eqb_hd.
      + cbn [common]. now rewrite B6.
    - assert (HP' : sh_proc c zbig (i + 6) 6 [0; 0; 0; 0; 0; 0; 0; 0] last lut = Some (bytes, lut)) by (revert HP; rewrite ES at 1; exact (fun x => x)).
      rewrite (gr_eq 8) by exact ES. cbv zeta. rewrite (HW0 8), (HW 8 8) by lia. nats. replace (i + 8 <=? n) with true by lia.
      assert (EL' : lut = [0; 0; 0; 0; 0; 0; 0; 0] :: rest) by (rewrite EL; rewrite ES; reflexivity).
      cbn -[lut_init zbig_n best_match eqb_bytes]. rewrite eqb_hd by exact N8.
      assert (EB : best_match 8 [0; 0; 0; 0; 0; 0; y6; y7] lut [] 0 = ([0; 0; 0; 0; 0; 0; 0; 0], 6)).
      { rewrite EL'. cbn -[best_match]. cbn [best_match]. replace (eqb_bytes [0; 0; 0; 0; 0; 0; 0; 0] [0; 0; 0; 0; 0; 0; y6; y7]) with false by (symmetry; cbn [eqb_bytes]; rewrite !Z.eqb_refl, B6; reflexivity).
        replace (common [0; 0; 0; 0; 0; 0; y6; y7] [0; 0; 0; 0; 0; 0; 0; 0]) with 6 by (cbn [common]; rewrite !Z.eqb_refl, (Z.eqb_sym y6), B6; reflexivity). cbn [negb Z.eqb Pos.eqb andb Z.ltb Z.compare].
        rewrite <- ES. apply best_none; [lia|]. intros e He. destruct (HR e He) as (y & e' & E & Hy). exists y, e'. split; [exact E|lia]. }
      rewrite EB. cbn -[lut_init zbig_n]. apply reach_one. unfold greedy_step. cbn [m_goto]. rewrite (gr_some _ _ _ _ _ bytes) by exact HP'. reflexivity.
  Qed.

  Lemma gr_blocks : forall B : nat, Z.of_nat B <= 200 -> exists out, Reach step (gafter 0 0 []) (gafter (Z.of_nat B * 65540) (Z.of_nat B * 65540) out) /\ len out = Z.of_nat B * 65541.
  Proof.
    induction B as [|B IH]; intros HB; [exists []; split; [constructor|reflexivity]|]. destruct (IH ltac:(lia)) as (out & R & L).
    destruct (gr_proc (Z.of_nat B) ltac:(lia)) as (bytes & HP & LB). exists (out ++ bytes). split; [|rewrite len_app, L, LB; lia].
    eapply reach_trans; [exact R|]. eapply reach_trans; [apply (gr_lits (Z.of_nat B) _ _ ltac:(lia) (Z.to_nat 65534)); [lia|left; unfold zbig_n; lia]|]. rewrite Z2Nat.id by lia.
    replace (Z.of_nat (Datatypes.S B)) with (Z.of_nat B + 1) by lia. apply gr_run; [lia|exact HP].
  Qed.

  Lemma gr_big : exists out, greedy_compress c false false zbig n (rle_compress_bounds n) = COk out /\ rle_compress_bounds n < len out.
  Proof.
    destruct (greedy_codecs_ok c Hc) as (H1 & H2 & H3 & H4 & H5). assert (Hn : n = 200 * 65540 + 32) by reflexivity.
    destruct (greedy_body_ok c zbig n H1 H2 H3 H4 H5 zbig_byte ltac:(unfold large_in; lia)) as (body & EB & _). pose proof EB as EB'. unfold greedy_body in EB.
    set (s0 := mkM 0 0 (not_first S zbig) 0 lut [] false) in *. destruct (loop step s0) as [st|] eqn:EL; [|discriminate].
    destruct (gr_blocks 200 ltac:(lia)) as (out & R & L). change (Z.of_nat 200) with 200 in *.
    assert (R0 : Reach step s0 (gafter 0 0 [])).
    { apply reach_one. unfold greedy_step, s0. cbn [m_i m_count m_sym m_last m_aux m_out m_goto]. replace (0 <? n) with true by lia. cbn [Z.eqb negb andb]. now rewrite gr_none. }
    pose proof (gr_lits 200 (200 * 65540) out ltac:(lia) (Z.to_nat 31) ltac:(lia) ltac:(left; lia)) as R2. rewrite Z2Nat.id in R2 by lia. rewrite (gr_lit 200 31) in R2 by lia.
    assert (E : st = mkM (200 * 65540 + 31 + 1) 0 (load zbig S (200 * 65540 + 31)) (200 * 65540) lut out false).
    { eapply loop_reach; [exact EL|eapply reach_trans; [exact R0|eapply reach_trans; [exact R|exact R2]]|]. unfold greedy_step. cbn [m_i m_goto]. replace (200 * 65540 + 31 + 1 <? n) with false by lia. reflexivity. }
    destruct (gr_consts c Hc) as (_ & _ & _ & _ & K).
    assert (LB : len body = 200 * 65541 + len (sh_term_lits c 32) + 32).
    { injection EB as <-. rewrite E. unfold finishM. cbn [m_i m_count m_sym m_last m_aux m_out]. rewrite sh_none by (pose proof gr_S; lia). rewrite !len_app, L. replace (200 * 65540 + 31 + 1 - 200 * 65540) with 32 by lia. rewrite len_slice by lia. lia. }
    assert (Hb : rle_compress_bounds n = n + 193) by (unfold rle_compress_bounds; replace (n >? 2 ^ 30) with false by lia; reflexivity).
    unfold greedy_compress, sh_wrap. rewrite EB'. replace (n =? 0) with false by lia. replace (rle_compress_bounds n <? rle_compress_bounds n) with false by lia. cbn [orb].
    eexists. split; [reflexivity|]. rewrite !len_app, LB, !len_le32, Hb. lia.
  Qed.
End Greedy.
