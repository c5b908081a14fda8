(** Inputs on which rle8_multi and rle8_packed_single write more than rle_compress_bounds. *)
From Verif Require Import Base LargeSpec Simd SimdProof Spec ExtModel ExtDec ExtEnc PktModel PktDec PktEnc Codec
  Rle8Model Rle8Proof Rle8Single Rle8Thm.

Lemma lead_eq f W b : 0 <= b < W -> (forall k, 0 <= k < b -> f k = true) -> f b = false -> lead f W = b.
Proof.
  intros Hb H1 H2. destruct (lead_spec f W) as (L1 & L2 & L3); [lia|].
  destruct (Z_lt_ge_dec (lead f W) b) as [H|H].
  - specialize (L3 ltac:(lia)). rewrite H1 in L3 by lia. discriminate.
  - destruct (Z.eq_dec (lead f W) b) as [|H']; [assumption|]. rewrite L2 in H2 by lia. discriminate.
Qed.

Lemma scan8_find W In n i0 e :
  2 <= W -> 0 <= i0 <= e -> e + W < n -> n <= max_in ->
  (forall x, i0 <= x < e -> In x <> In (x + 1)) -> In e = In (e + 1) ->
  loop (scan8_step W In n) i0 = Some e.
Proof.
  intros HW Hi He Hn Hne Heq.
  destruct (loop_inv (scan8_step W In n) (fun i => i0 <= i <= e) (fun i => Z.max 0 (n - i)) (fun i => i = e) i0) as (r & HL & ->).
  - intros i Hinv. unfold scan8_step. replace (i <? n - W) with true by lia.
    set (f := fun j => negb (In (i + j) =? In (i + j + 1))).
    destruct (Z_lt_ge_dec (e - i) (W - 1)) as [H|H].
    + assert (HL : lead f (W - 1) = e - i).
      { apply lead_eq; [lia| |].
        - intros k Hk. unfold f. apply negb_true_iff, Z.eqb_neq. apply Hne. lia.
        - unfold f. apply negb_false_iff, Z.eqb_eq. replace (i + (e - i)) with e by lia. exact Heq. }
      rewrite HL. replace (e - i =? W - 1) with false by lia. lia.
    + destruct (lead_spec f (W - 1)) as (L1 & L2 & L3); [lia|].
      destruct (lead f (W - 1) =? W - 1) eqn:E; [lia|]. exfalso. specialize (L3 ltac:(lia)). unfold f in L3.
      apply negb_false_iff, Z.eqb_eq in L3. apply (Hne (i + lead f (W - 1))); [lia|exact L3].
  - lia.
  - unfold max_in in Hn. lia.
  - exact HL.
Qed.

(** *** rle8_multi: runs of 6 behind 255 literals cost 7 bytes *)

Definition bad_multi : mem := fun x => let r := x mod 261 in if r <? 255 then r mod 2 else 5.

Lemma bad_multi_at k r : 0 <= r < 261 -> bad_multi (261 * k + r) = if r <? 255 then r mod 2 else 5.
Proof.
  intros Hr. unfold bad_multi. replace ((261 * k + r) mod 261) with r; [reflexivity|].
  rewrite Z.add_comm, Z.mul_comm, Z.mod_add by lia. symmetry. now apply Z.mod_small.
Qed.

Lemma bad_multi_byte : byte_mem bad_multi.
Proof. intros x. unfold bad_multi, is_byte. cbv zeta. destruct (x mod 261 <? 255); lia. Qed.

Lemma bad_multi_scan W n k : 2 <= W <= 32 -> 0 <= k -> 261 * k + 255 + W < n -> n <= max_in ->
  loop (scan8_step W bad_multi n) (261 * k) = Some (261 * k + 255).
Proof.
  intros HW Hk Hn Hn2. apply scan8_find; try lia.
  - intros x Hx. replace x with (261 * k + (x - 261 * k)) by lia.
    replace (261 * k + (x - 261 * k) + 1) with (261 * k + (x - 261 * k + 1)) by lia.
    rewrite !bad_multi_at by lia. destruct (x - 261 * k <? 255) eqn:E1; destruct (x - 261 * k + 1 <? 255) eqn:E2; lia.
  - replace (261 * k + 255 + 1) with (261 * k + 256) by lia. now rewrite !bad_multi_at by lia.
Qed.

Definition bad_n : Z := 261 * 902.

Lemma bad_multi_simd W s1 : 16 <= W <= 32 ->
  loop (simd8_step (m_procV false) W bad_multi bad_n) (mk8 0 0 (255 - bad_multi 0) 0 0 []) = Some (Some s1) ->
  262 * 900 <= len (out8 s1).
Proof.
  intros HW HL.
  apply (loop_pres (simd8_step (m_procV false) W bad_multi bad_n)
    (fun s => s = mk8 0 0 (255 - bad_multi 0) 0 0 [] \/
      (exists k, 0 <= k <= 900 /\ i8 s = 261 * k + 256 /\ count8 s = 1 /\ sym8 s = 5 /\ last8 s = 261 * k /\ len (out8 s) = 262 * k) \/
      262 * 900 <= len (out8 s))
    (fun r => match r with Some s => 262 * 900 <= len (out8 s) | None => True end)) in HL; [exact HL| |left; reflexivity].
  clear HL s1. intros s [->|[(k & Hk & Hi & Hc & Hs & Hl & Ho)|Ho]].
  - unfold simd8_step. cbn [i8 count8 sym8 last8 aux8 out8]. replace (0 <? bad_n - W) with true by (unfold bad_n; lia).
    set (f := fun j : Z => bad_multi (0 + j) =? 255 - bad_multi 0).
    assert (Hf : forall j, 0 <= j < W -> f j = false).
    { intros j Hj. unfold f. apply Z.eqb_neq. change (bad_multi 0) with 0. replace (0 + j) with (261 * 0 + j) by lia.
      rewrite bad_multi_at by lia. destruct (j <? 255) eqn:E; lia. }
    rewrite (lead_eq f W 0) by (try (intros; lia); try lia; apply Hf; lia).
    replace (0 =? W) with false by lia.
    assert (Ha : any f W = false).
    { unfold any. apply not_true_iff_false. intros H. apply existsb_exists in H. destruct H as (j & Hj & HT). apply in_seq in Hj.
      rewrite Hf in HT by lia. discriminate. }
    rewrite Ha. cbn [orb Z.ltb Z.compare i8].
    change (loop (scan8_step W bad_multi bad_n) 0) with (loop (scan8_step W bad_multi bad_n) (261 * 0)).
    rewrite (bad_multi_scan W bad_n 0) by (unfold bad_n, max_in; lia). cbv zeta. right. left. exists 0.
    cbn [i8 count8 sym8 last8 out8]. repeat split; try lia; reflexivity.
  - unfold simd8_step. rewrite Hi, Hc, Hs, Hl. replace (261 * k + 256 <? bad_n - W) with true by (unfold bad_n; lia).
    set (f := fun j : Z => bad_multi (261 * k + 256 + j) =? 5).
    assert (HL : lead f W = 5).
    { apply lead_eq; [lia| |].
      - intros j Hj. unfold f. rewrite <- Z.add_assoc. rewrite bad_multi_at by lia. replace (256 + j <? 255) with false by lia. reflexivity.
      - unfold f. replace (261 * k + 256 + 5) with (261 * (k + 1) + 0) by lia. rewrite bad_multi_at by lia. reflexivity. }
    assert (Ha : any f W = true).
    { unfold any. apply existsb_exists. exists 0%nat. split; [apply in_seq; lia|]. unfold f. cbn [Z.of_nat]. rewrite Z.add_0_r.
      rewrite bad_multi_at by lia. reflexivity. }
    rewrite HL, Ha. replace (5 =? W) with false by lia. cbn [orb].
    unfold emit8. cbn [i8 count8 sym8 last8 aux8 out8]. unfold m_procV. change (mSHORT false <=? 1 + 5) with true. cbv iota.
    cbn [i8 count8 sym8 last8 aux8 out8].
    assert (Hlen : len (out8 s ++ m_packet false bad_multi (261 * k + 256 + 5) (1 + 5) 5 (261 * k) false) = 262 * (k + 1)).
    { unfold m_packet, m_count, m_range. replace (261 * k + 256 + 5 - 261 * k - (1 + 5) + 1) with 256 by lia.
      replace (261 * k + 256 + 5 - (1 + 5) - 261 * k) with 255 by lia. rewrite !len_app, len_slice by lia. rewrite Ho.
      change (len [5]) with 1. change (len (if 256 <=? 255 then [w8 256] else 0 :: le32 256)) with 5.
      change (len (if 1 + 5 - mSHORT false + 1 <=? 255 then [w8 (1 + 5 - mSHORT false + 1)] else 0 :: le32 (1 + 5 - mSHORT false + 1))) with 1. lia. }
    destruct (Z.eq_dec k 900) as [->|Hk2].
    + destruct (loop (scan8_step W bad_multi bad_n) _) as [i'|]; [|exact Logic.I]. right. right. cbn [out8]. lia.
    + replace (261 * k + 256 + 5) with (261 * (k + 1)) in * by lia.
      rewrite (bad_multi_scan W bad_n (k + 1)) by (unfold bad_n, max_in; lia).
      right. left. exists (k + 1). cbn [i8 count8 sym8 last8 out8]. rewrite bad_multi_at by lia. repeat split; lia.
  - unfold simd8_step. destruct (i8 s <? bad_n - W); [|exact Ho].
    destruct (lead _ W =? W); [right; right; exact Ho|]. 
    set (s1 := if any _ W || _ then _ else s).
    assert (Hs1 : 262 * 900 <= len (out8 s1)).
    { unfold s1. destruct (any _ W || _); [|exact Ho]. unfold emit8. destruct (m_procV _ _ _ _ _ _ _) as [[bytes a]|]; cbn [out8]; [|exact Ho].
      rewrite len_app. pose proof (len_nonneg bytes). lia. }
    destruct (loop _ _) as [i'|]; [|exact Logic.I]. right. right. exact Hs1.
Qed.

Lemma scalar_out_ge {A} single (proc : proc8 A) In n s s' B :
  loop (scalar8_step single proc In n) s = Some s' -> B <= len (out8 s) -> B <= len (out8 s').
Proof.
  intros HL HB. apply (loop_pres (scalar8_step single proc In n) (fun s => B <= len (out8 s)) (fun s => B <= len (out8 s))) in HL;
    [exact HL| |exact HB]. clear. intros s HB. unfold scalar8_step. destruct (i8 s <? n); [|exact HB].
  destruct (In (i8 s) =? sym8 s); [exact HB|].
  assert (Hs1 : B <= len (out8 (emit8 proc In s))).
  { unfold emit8. destruct (proc _ _ _ _ _ _) as [[bytes a]|]; cbn [out8]; [|exact HB]. rewrite len_app. pose proof (len_nonneg bytes). lia. }
  destruct single; exact Hs1.
Qed.

Lemma finish_out_ge {A} (proc : proc8 A) tn tls In s : len (out8 s) <= len (finish8 proc tn tls In s).
Proof.
  unfold finish8. destruct (proc _ _ _ _ _ _) as [[bytes a]|]; rewrite !len_app.
  - pose proof (len_nonneg bytes). pose proof (len_nonneg tn). lia.
  - pose proof (len_nonneg (tls (i8 s - last8 s))). pose proof (len_nonneg (slice In (last8 s) (i8 s - last8 s))). lia.
Qed.

Lemma m_out_ge pk avx2 In n cap out B : m_compress pk avx2 false false In n cap = COk out ->
  (forall s1, loop (simd8_step (m_procV pk) (if avx2 then 32 else 16) In n) (mk8 0 0 (255 - In 0) 0 0 []) = Some (Some s1) ->
     B <= len (out8 s1)) -> B <= len out.
Proof.
  intros HC HB. unfold m_compress in HC.
  destruct (false || (n =? 0) || false || (cap <? rle_compress_bounds n)); [discriminate|].
  unfold body8 in HC.
  destruct (loop (simd8_step (m_procV pk) (if avx2 then 32 else 16) In n) (mk8 0 0 (255 - In 0) 0 0 [])) as [[s1|]|]; try discriminate.
  specialize (HB s1 eq_refl).
  destruct (loop (scalar8_step false (m_procS pk) In n) s1) as [s2|] eqn:E2; try discriminate.
  pose proof (scalar_out_ge _ _ _ _ _ _ _ E2 HB) as H2.
  pose proof (finish_out_ge (m_procS pk) (m_term_none pk) (m_term_lits pk) In s2) as H3.
  revert HC H3. generalize (finish8 (m_procS pk) (m_term_none pk) (m_term_lits pk) In s2). intros b HC H3.
  assert (HO := f_equal (fun r => match r with COk o => o | _ => [] end) HC). cbv beta iota in HO. rewrite <- HO.
  rewrite !len_app, !len_le32. change (len [0]) with 1. lia.
Qed.

Lemma bad_n_range : 1 <= bad_n <= max_in.
Proof. unfold bad_n, max_in. lia. Qed.
Lemma multi_writes avx2 cap : rle_compress_bounds bad_n <= cap ->
  exists out, m_compress false avx2 false false bad_multi bad_n cap = COk out /\ bad_n + 297 < len out.
Proof.
  intros Hcap. destruct (multi_good false avx2 bad_multi bad_n cap bad_multi_byte bad_n_range Hcap) as (body & HC & _).
  eexists. split; [exact HC|].
  assert (HW : 16 <= (if avx2 then 32 else 16) <= 32) by (destruct avx2; lia).
  assert (HB := m_out_ge _ _ _ _ _ _ (262 * 900) HC (fun s1 => bad_multi_simd _ s1 HW)).
  clear HC. unfold bad_n in *. lia.
Qed.
Lemma multi_overflow : exists In n, byte_mem In /\ 1 <= n <= max_in /\
  forall avx2, exists out, m_compress false avx2 false false In n (rle_compress_bounds n) = COk out /\ rle_compress_bounds n < len out.
Proof.
  exists bad_multi, bad_n. split; [exact bad_multi_byte|]. split; [exact bad_n_range|]. intros avx2.
  destruct (multi_writes avx2 _ (Z.le_refl _)) as (out & HC & HB). exists out. split; [exact HC|].
  rewrite (bounds_193 bad_n) by apply bad_n_range. clear HC. lia.
Qed.

(** *** rle8_packed_single: three runs of 2 behind 255 literals cost 10 bytes *)

Definition bad_single : mem := fun x => let r := x mod 263 in
  if r <? 2 then 0 else if r <? 3 then 1 else if r <? 5 then 0 else if r <? 6 then 1 else if r <? 8 then 0 else 1 + r mod 2.
Definition bad_single_n : Z := 263 * 210.

Lemma bad_single_at k r : 0 <= r < 263 -> bad_single (263 * k + r) =
  if r <? 2 then 0 else if r <? 3 then 1 else if r <? 5 then 0 else if r <? 6 then 1 else if r <? 8 then 0 else 1 + r mod 2.
Proof.
  intros Hr. unfold bad_single. replace ((263 * k + r) mod 263) with r; [reflexivity|].
  rewrite Z.add_comm, Z.mul_comm, Z.mod_add by lia. symmetry. now apply Z.mod_small.
Qed.

Lemma bad_single_byte : byte_mem bad_single.
Proof.
  intros x. unfold bad_single, is_byte. cbv zeta.
  repeat match goal with |- context [if ?b then _ else _] => destruct b end; lia.
Qed.

(** No run is longer than 2. *)
Lemma bad_single_runs x : bad_single x = bad_single (x + 1) -> bad_single (x + 1) <> bad_single (x + 2).
Proof.
  set (k := x / 263). set (r := x mod 263).
  assert (Hr : 0 <= r < 263) by (apply Z.mod_pos_bound; lia).
  assert (Hx : x = 263 * k + r) by (apply Z.div_mod; lia).
  rewrite Hx. replace (263 * k + r + 1) with (263 * k + (r + 1)) by lia. replace (263 * k + r + 2) with (263 * k + (r + 2)) by lia.
  destruct (Z_lt_ge_dec r 261) as [H|H].
  - rewrite !bad_single_at by lia.
    repeat match goal with |- context [if ?b then _ else _] => destruct b eqn:? end; lia.
  - destruct (Z.eq_dec r 261) as [->|H2].
    + replace (263 * k + (261 + 2)) with (263 * (k + 1) + 0) by lia. rewrite !bad_single_at by lia. cbn. discriminate.
    + replace r with 262 by lia. replace (263 * k + (262 + 1)) with (263 * (k + 1) + 0) by lia.
      replace (263 * k + (262 + 2)) with (263 * (k + 1) + 1) by lia. rewrite !bad_single_at by lia. cbn. discriminate.
Qed.

(** On an input that starts with 0 and has no runs longer than 2 the heuristic finds nothing. *)
Lemma approx_none In n : 1 <= n <= max_in -> byte_mem In -> In 0 = 0 ->
  (forall x, 0 <= x -> In x = In (x + 1) -> In (x + 1) <> In (x + 2)) -> approx_symbol In n = Some 0.
Proof.
  intros Hn HIn H0 Hruns. unfold approx_symbol. rewrite H0. cbn [Z.eqb].
  set (P := fun (i : Z) (prob pcount : Z -> Z) => forall s, 0 <= prob s <= 2 * pcount s /\ pcount s <= i).
  destruct (loop_inv (approx_step In n)
    (fun '(i, sym, count, prob, pcount) => 0 <= i <= n /\ (count = 0 \/ (count = 1 /\ 1 <= i /\ In (i - 1) = sym)) /\ P i prob pcount)
    (fun '(i, _, _, _, _) => Z.max 0 (n - i))
    (fun r => exists i sym count prob pcount, r = Some (sym, count, prob, pcount) /\ i <= n /\ 0 <= count <= 1 /\ P i prob pcount)
    (0, 255 - 0, 0, fun _ => 0, fun _ => 0)) as (r & HL & i & sym & count & prob & pcount & -> & Hi & Hc & HP).
  - intros [[[[i sym] count] prob] pcount] (Hi & Hc & HP). unfold approx_step. destruct (i <? n - 16) eqn:E.
    2:{ exists i, sym, count, prob, pcount. split; [reflexivity|]. split; [lia|]. split; [lia|exact HP]. }
    set (f := fun j : Z => In (i + j) =? sym). destruct (lead_spec f 16) as (L1 & L2 & _); [lia|].
    assert (Hb : count + lead f 16 <= 2).
    { destruct (Z_lt_ge_dec 2 (count + lead f 16)) as [Hgt|]; [|lia]. exfalso.
      destruct Hc as [Hc|(Hc & Hi1 & Hpi)].
      - pose proof (L2 0 ltac:(lia)) as A0. pose proof (L2 1 ltac:(lia)) as A1. pose proof (L2 2 ltac:(lia)) as A2.
        unfold f in A0, A1, A2. apply Z.eqb_eq in A0, A1, A2. rewrite Z.add_0_r in A0. apply (Hruns i); [lia|congruence|congruence].
      - pose proof (L2 0 ltac:(lia)) as A0. pose proof (L2 1 ltac:(lia)) as A1. unfold f in A0, A1. apply Z.eqb_eq in A0, A1. rewrite Z.add_0_r in A0.
        apply (Hruns (i - 1)); [lia| |]; replace (i - 1 + 1) with i by lia; [congruence|]. replace (i - 1 + 2) with (i + 1) by lia. congruence. }
    destruct (lead f 16 =? 16) eqn:E16; [lia|].
    assert (Hn2 : n < 2 ^ 31) by (unfold max_in in Hn; lia). pose proof (max_large n ltac:(lia)).
    destruct (any f 16 || (1 <? count)) eqn:EA.
    + destruct (scan8_ok 16 In n (i + lead f 16)) as (i' & -> & Hi'); try lia.
      split; [|lia]. split; [lia|]. split; [right; split; [reflexivity|]; split; [lia|f_equal; lia]|].
      intros s. unfold upd. pose proof (HP s) as HPs. unfold w32. destruct (s =? sym) eqn:Es; [|lia].
      apply Z.eqb_eq in Es. subst s. rewrite (Z.mod_small (count + lead f 16)) by lia. rewrite !Z.mod_small by lia. lia.
    + destruct (scan8_ok 16 In n i) as (i' & -> & Hi'); try lia.
      split; [|lia]. split; [lia|]. split; [right; split; [reflexivity|]; split; [lia|f_equal; lia]|].
      intros s. pose proof (HP s). lia.
  - split; [lia|]. split; [tauto|]. intros s. lia.
  - unfold max_in in Hn. lia.
  - rewrite HL. f_equal. assert (Hn2 : n < 2 ^ 31) by (unfold max_in in Hn; lia).
    set (prob2 := upd prob sym _). set (pcount2 := upd pcount sym _).
    assert (HP2 : forall s, 0 <= prob2 s <= 2 * pcount2 s).
    { intros s. unfold prob2, pcount2, upd, w32. pose proof (HP s). destruct (s =? sym) eqn:Es; [|lia].
      apply Z.eqb_eq in Es. subst s. rewrite !Z.mod_small by lia. lia. }
    unfold approx_best.
    assert (K : forall l acc, fold_left (fun '(best, idx) k =>
      let s := Z.of_nat k in
      if (0 <? pcount2 s) && (2 <? prob2 s / pcount2 s) then
        let saved := w32 (prob2 s - w32 (pcount2 s * 2)) in
        if best <? saved then (saved, s) else (best, idx)
      else (best, idx)) l acc = acc).
    { induction l as [|k l IH]; intros [best idx]; [reflexivity|]. cbn [fold_left]. cbv zeta.
      replace ((0 <? pcount2 (Z.of_nat k)) && (2 <? prob2 (Z.of_nat k) / pcount2 (Z.of_nat k))) with false; [apply IH|].
      symmetry. destruct (0 <? pcount2 (Z.of_nat k)) eqn:E; [|reflexivity]. cbn [andb]. apply Z.ltb_ge.
      pose proof (HP2 (Z.of_nat k)). apply Z.lt_succ_r. apply Z.div_lt_upper_bound; lia. }
    rewrite K. reflexivity.
Qed.

Lemma bad_single_scan k c e : 0 <= k -> (c, e) = (2, 3) \/ (c, e) = (5, 6) \/ (c, e) = (8, 263) -> 263 * k + e + 18 < bad_single_n ->
  loop (sscan_step 2 0 bad_single bad_single_n) (263 * k + c) = Some (263 * k + e, true).
Proof.
  intros Hk Hce Hlt.
  assert (Hz : srun bad_single 0 (263 * k + e) 2).
  { intros x Hx. destruct Hce as [H|[H|H]]; injection H as -> ->.
    - replace x with (263 * k + (x - 263 * k)) by lia. rewrite bad_single_at by lia.
      assert (Hc : x - 263 * k = 3 \/ x - 263 * k = 4) by lia. destruct Hc as [->| ->]; reflexivity.
    - replace x with (263 * k + (x - 263 * k)) by lia. rewrite bad_single_at by lia.
      assert (Hc : x - 263 * k = 6 \/ x - 263 * k = 7) by lia. destruct Hc as [->| ->]; reflexivity.
    - replace x with (263 * (k + 1) + (x - 263 * (k + 1))) by lia. rewrite bad_single_at by lia.
      assert (Hc : x - 263 * (k + 1) = 0 \/ x - 263 * (k + 1) = 1) by lia. destruct Hc as [->| ->]; reflexivity. }
  assert (Hnz : forall x, 263 * k + c <= x < 263 * k + e -> bad_single x <> 0).
  { intros x Hx. replace x with (263 * k + (x - 263 * k)) by lia. destruct Hce as [H|[H|H]]; injection H as -> ->.
    - rewrite bad_single_at by lia. replace (x - 263 * k) with 2 by lia. cbn. discriminate.
    - rewrite bad_single_at by lia. replace (x - 263 * k) with 5 by lia. cbn. discriminate.
    - rewrite bad_single_at by lia. repeat match goal with |- context [if ?b then _ else _] => destruct b eqn:? end; lia. }
  assert (Hce2 : 2 <= c <= e) by (destruct Hce as [H|[H|H]]; injection H as -> ->; lia).
  assert (Hn : bad_single_n <= max_in) by (unfold bad_single_n, max_in; lia).
  destruct (sscan_ok 2 0 bad_single bad_single_n (263 * k + c)) as (i & found & HL & Hi & Hf & Hp); [lia|lia|exact Hn|].
  destruct (Hp (263 * k + e) 2 Hz ltac:(lia) ltac:(lia) ltac:(lia)) as [-> Hle]. rewrite HL. f_equal. f_equal.
  destruct (Z_lt_ge_dec i (263 * k + e)) as [H|H]; [|lia]. exfalso. apply (Hnz i); [lia|]. now apply Hf.
Qed.

(** One iteration at the second byte of a run of two. *)
Lemma single_step_two s : ss_i s < bad_single_n - 16 -> ss_count s = 1 ->
  bad_single (ss_i s) = 0 -> bad_single (ss_i s + 1) <> 0 ->
  single_step true 0 bad_single bad_single_n s =
  match s_decide true 0 bad_single bad_single_n (mkS (ss_i s + 1) 2 (ss_last s) (ss_out s) (ss_w s) (ss_first s)) with
  | Some s1 =>
      match loop (sscan_step 2 0 bad_single bad_single_n) (ss_i s1) with
      | Some (i', found) => inl (mkS (i' + 1) (if found then 1 else 0) (ss_last s1) (ss_out s1) (ss_w s1) (ss_first s1))
      | None => inr None
      end
  | None => inr None
  end.
Proof.
  intros Hi Hc H0 H1. unfold single_step. replace (ss_i s <? bad_single_n - 16) with true by lia.
  set (f := fun j : Z => bad_single (ss_i s + j) =? 0).
  rewrite (lead_eq f 16 1).
  - change (1 =? 16) with false. cbv iota. rewrite Hc. change (1 + 1) with 2.
    replace (any f 16) with true; [reflexivity|]. symmetry. unfold any. apply existsb_exists. exists 0%nat. split; [apply in_seq; lia|].
    unfold f. cbn [Z.of_nat]. rewrite Z.add_0_r. lia.
  - lia.
  - intros j Hj. unfold f. replace j with 0 by lia. rewrite Z.add_0_r. lia.
  - unfold f. lia.
Qed.

(** States at the second byte of the first, second, third run of a period. *)
Definition bad_state (ph : Z) (k : Z) (s : sst) : Prop :=
  ss_count s = 1 /\
  if ph =? 0 then (* first run, long literals *)
    ss_i s = 263 * k + 1 /\ ss_last s = 263 * k - 255 /\ ss_w s = 0 /\ len (ss_out s) = 267 * k - 259
  else if ph =? 1 then (* second run, one chance wasted *)
    ss_i s = 263 * k + 4 /\ ss_last s = 263 * k - 255 /\ ss_w s = 1 /\ ss_first s = 263 * k /\ len (ss_out s) = 267 * k - 259
  else if ph =? 2 then (* third run, two chances wasted *)
    ss_i s = 263 * k + 7 /\ ss_last s = 263 * k - 255 /\ ss_w s = 2 /\ ss_first s = 263 * k /\ len (ss_out s) = 267 * k - 259
  else if ph =? 3 then (* second run again *)
    ss_i s = 263 * k + 4 /\ ss_last s = 263 * k + 2 /\ ss_w s = 0 /\ len (ss_out s) = 267 * k + 2
  else (* third run again *)
    ss_i s = 263 * k + 7 /\ ss_last s = 263 * k + 5 /\ ss_w s = 0 /\ len (ss_out s) = 267 * k + 5.

Lemma len_short_two (b c last : Z) : 0 <= c -> last = b - c -> len (s_packet_short true bad_single (b + 2) 2 last) = 2 + c.
Proof.
  intros Hc ->. unfold s_packet_short. rewrite !len_app, len_slice by lia. change (len (s_count true 2)) with 1.
  change (len [w8 (b + 2 - (b - c) - 2 + 1)]) with 1. lia.
Qed.

Ltac at_ r := rewrite (bad_single_at _ r) by lia.

Lemma bad_step ph k s : 0 <= k <= 208 -> (0 <= ph <= 4) -> (ph <= 2 -> 1 <= k) -> bad_state ph k s ->
  exists s', single_step true 0 bad_single bad_single_n s = inl s' /\
    bad_state (if ph =? 4 then 0 else ph + 1) (if ph =? 4 then k + 1 else k) s'.
Proof.
  intros Hk Hph Hk1 [Hc H]. assert (HN : bad_single_n = 55230) by reflexivity.
  assert (HM : bad_single_n <= max_in) by (unfold bad_single_n, max_in; lia).
  assert (Hcase : ph = 0 \/ ph = 1 \/ ph = 2 \/ ph = 3 \/ ph = 4) by lia.
  destruct Hcase as [->|[->|[->|[->| ->]]]]; cbn [Z.eqb Pos.eqb] in *.
  - destruct H as (Hi & Hl & Hw & Ho). rewrite single_step_two; try lia.
    2:{ rewrite Hi. at_ 1. reflexivity. }
    2:{ rewrite Hi. replace (263 * k + 1 + 1) with (263 * k + 2) by lia. at_ 2. cbn. discriminate. }
    unfold s_decide. cbn [ss_i ss_count ss_last ss_out ss_w ss_first]. rewrite Hi, Hl, Hw.
    change (sSHORT true <=? 2) with true. replace (263 * k + 1 + 1 - (263 * k - 255) - 2 + 1 <=? 255) with false by lia.
    change (s_accept_long true 2) with false. change (0 + 1 =? 1) with true. cbn [orb]. cbn [ss_i ss_count ss_last ss_out ss_w ss_first].
    replace (263 * k + 1 + 1) with (263 * k + 2) by lia. rewrite (bad_single_scan k 2 3) by (try tauto; lia).
    eexists. split; [reflexivity|]. unfold bad_state. cbn [ss_i ss_count ss_last ss_out ss_w ss_first Z.add Z.eqb Pos.eqb Pos.add Pos.succ]. lia.
  - destruct H as (Hi & Hl & Hw & Hf & Ho). rewrite single_step_two; try lia.
    2:{ rewrite Hi. at_ 4. reflexivity. }
    2:{ rewrite Hi. replace (263 * k + 4 + 1) with (263 * k + 5) by lia. at_ 5. cbn. discriminate. }
    unfold s_decide. cbn [ss_i ss_count ss_last ss_out ss_w ss_first]. rewrite Hi, Hl, Hw, Hf.
    change (sSHORT true <=? 2) with true. replace (263 * k + 4 + 1 - (263 * k - 255) - 2 + 1 <=? 255) with false by lia.
    change (s_accept_long true 2) with false. change (1 + 1 =? 1) with false. rewrite w64_id by lia.
    replace (255 <? 263 * k + 4 + 1 - 263 * k) with false by lia. cbn [orb]. change (2 <? 1 + 1) with false. cbv iota.
    cbn [ss_i ss_count ss_last ss_out ss_w ss_first].
    replace (263 * k + 4 + 1) with (263 * k + 5) by lia. rewrite (bad_single_scan k 5 6) by (try tauto; lia).
    eexists. split; [reflexivity|]. unfold bad_state. cbn [ss_i ss_count ss_last ss_out ss_w ss_first Z.add Z.eqb Pos.eqb Pos.add Pos.succ]. lia.
  - destruct H as (Hi & Hl & Hw & Hf & Ho). rewrite single_step_two; try lia.
    2:{ rewrite Hi. at_ 7. reflexivity. }
    2:{ rewrite Hi. replace (263 * k + 7 + 1) with (263 * k + 8) by lia. at_ 8. cbn. discriminate. }
    unfold s_decide. cbn [ss_i ss_count ss_last ss_out ss_w ss_first]. rewrite Hi, Hl, Hw, Hf.
    change (sSHORT true <=? 2) with true. replace (263 * k + 7 + 1 - (263 * k - 255) - 2 + 1 <=? 255) with false by lia.
    change (s_accept_long true 2) with false. change (2 + 1 =? 1) with false. rewrite w64_id by lia.
    replace (255 <? 263 * k + 7 + 1 - 263 * k) with false by lia. cbn [orb]. change (2 <? 2 + 1) with true. cbv iota.
    rewrite (recount_ok true 0 bad_single bad_single_n ltac:(unfold bad_single_n, large_in; lia) (263 * k) 2).
    + cbn [ss_i ss_count ss_last ss_out ss_w ss_first]. rewrite (bad_single_scan k 2 3) by (try tauto; lia).
      eexists. split; [reflexivity|]. unfold bad_state. cbn [ss_i ss_count ss_last ss_out ss_w ss_first Z.add Z.eqb Pos.eqb Pos.add Pos.succ].
      unfold s_packet_wasted. rewrite !len_app, len_slice by lia.
      change (len [w8 (2 - sSHORT true + 1)]) with 1. rewrite len_cons, len_le32. lia.
    + split; [|split; [|split; [cbn; lia|reflexivity]]].
      * intros x Hx. replace x with (263 * k + (x - 263 * k)) by lia. rewrite bad_single_at by lia. replace (x - 263 * k <? 2) with true by lia. reflexivity.
      * at_ 2. cbn. discriminate.
    + lia.
    + lia.
  - destruct H as (Hi & Hl & Hw & Ho). rewrite single_step_two; try lia.
    2:{ rewrite Hi. at_ 4. reflexivity. }
    2:{ rewrite Hi. replace (263 * k + 4 + 1) with (263 * k + 5) by lia. at_ 5. cbn. discriminate. }
    unfold s_decide. cbn [ss_i ss_count ss_last ss_out ss_w ss_first]. rewrite Hi, Hl, Hw.
    assert (HP : len (s_packet_short true bad_single (263 * k + 5) 2 (263 * k + 2)) = 3).
    { replace (263 * k + 5) with (263 * k + 3 + 2) by lia. rewrite (len_short_two _ 1) by lia. reflexivity. }
    change (sSHORT true <=? 2) with true. replace (263 * k + 4 + 1 - (263 * k + 2) - 2 + 1 <=? 255) with true by lia.
    cbn [ss_i ss_count ss_last ss_out ss_w ss_first].
    replace (263 * k + 4 + 1) with (263 * k + 5) by lia. rewrite (bad_single_scan k 5 6) by (try tauto; lia).
    eexists. split; [reflexivity|]. unfold bad_state. cbn [ss_i ss_count ss_last ss_out ss_w ss_first Z.add Z.eqb Pos.eqb Pos.add Pos.succ].
    rewrite len_app, HP. lia.
  - destruct H as (Hi & Hl & Hw & Ho). rewrite single_step_two; try lia.
    2:{ rewrite Hi. at_ 7. reflexivity. }
    2:{ rewrite Hi. replace (263 * k + 7 + 1) with (263 * k + 8) by lia. at_ 8. cbn. discriminate. }
    unfold s_decide. cbn [ss_i ss_count ss_last ss_out ss_w ss_first]. rewrite Hi, Hl, Hw.
    assert (HP : len (s_packet_short true bad_single (263 * k + 8) 2 (263 * k + 5)) = 3).
    { replace (263 * k + 8) with (263 * k + 6 + 2) by lia. rewrite (len_short_two _ 1) by lia. reflexivity. }
    change (sSHORT true <=? 2) with true. replace (263 * k + 7 + 1 - (263 * k + 5) - 2 + 1 <=? 255) with true by lia.
    cbn [ss_i ss_count ss_last ss_out ss_w ss_first].
    replace (263 * k + 7 + 1) with (263 * k + 8) by lia. rewrite (bad_single_scan k 8 263) by (try tauto; lia).
    eexists. split; [reflexivity|]. unfold bad_state. cbn [ss_i ss_count ss_last ss_out ss_w ss_first Z.add Z.eqb Pos.eqb Pos.add Pos.succ].
    rewrite len_app, HP. lia.
Qed.

Lemma bad_first : exists s', single_step true 0 bad_single bad_single_n (mkS 0 0 0 [] 0 0) = inl s' /\ bad_state 3 0 s'.
Proof.
  unfold single_step. cbn [ss_i ss_count ss_last ss_out ss_w ss_first]. change (0 <? bad_single_n - 16) with true.
  set (f := fun j : Z => bad_single (0 + j) =? 0).
  rewrite (lead_eq f 16 2).
  - change (2 =? 16) with false. cbv iota. replace (any f 16) with true by reflexivity. cbn [orb].
    unfold s_decide. cbn [ss_i ss_count ss_last ss_out ss_w ss_first]. change (sSHORT true <=? 0 + 2) with true.
    change (0 + 2 - 0 - (0 + 2) + 1 <=? 255) with true. cbv iota. cbn [ss_i ss_count ss_last ss_out ss_w ss_first].
    change (0 + 2) with (263 * 0 + 2). change (sSHORT true) with 2. rewrite (bad_single_scan 0 2 3) by (try tauto; try lia; unfold bad_single_n; lia).
    eexists. split; [reflexivity|]. vm_compute. repeat split.
  - lia.
  - intros j Hj. assert (Hc : j = 0 \/ j = 1) by lia. destruct Hc as [->| ->]; reflexivity.
  - reflexivity.
Qed.

Lemma single_step_ge s B : B <= len (ss_out s) ->
  match single_step true 0 bad_single bad_single_n s with
  | inl s' => B <= len (ss_out s')
  | inr (Some s') => B <= len (ss_out s')
  | inr None => True
  end.
Proof.
  intros HB. unfold single_step. destruct (ss_i s <? bad_single_n - 16); [|exact HB].
  destruct (lead _ 16 =? 16); [exact HB|].
  set (d := if any _ 16 || _ then _ else Some s).
  assert (Hd : match d with Some s1 => B <= len (ss_out s1) | None => True end).
  { unfold d. destruct (any _ 16 || _); [|exact HB]. unfold s_decide. cbn [ss_i ss_count ss_last ss_out ss_w ss_first].
    destruct (sSHORT true <=? _); [|exact HB].
    destruct (_ <=? 255); [cbn [ss_out]; rewrite len_app; match goal with |- context [_ + len ?x] => pose proof (len_nonneg x) end; lia|].
    destruct (s_accept_long true _); [cbn [ss_out]; rewrite len_app; match goal with |- context [_ + len ?x] => pose proof (len_nonneg x) end; lia|].
    destruct (_ || _); [exact HB|]. destruct (2 <? _); [|exact HB].
    destruct (loop _ _) as [[i' c']|]; [|exact Logic.I]. cbn [ss_out]; rewrite len_app; match goal with |- context [_ + len ?x] => pose proof (len_nonneg x) end; lia. }
  destruct d as [s1|]; [|exact Logic.I]. destruct (loop _ _) as [[i' found]|]; [|exact Logic.I]. exact Hd.
Qed.

Lemma bad_single_loop s1 : loop (single_step true 0 bad_single bad_single_n) (mkS 0 0 0 [] 0 0) = Some (Some s1) ->
  267 * 209 - 259 <= len (ss_out s1).
Proof.
  intros HL.
  apply (loop_pres (single_step true 0 bad_single bad_single_n)
    (fun s => s = mkS 0 0 0 [] 0 0 \/
      (exists ph k, 0 <= k <= 208 /\ 0 <= ph <= 4 /\ (ph <= 2 -> 1 <= k) /\ bad_state ph k s) \/ 267 * 209 - 259 <= len (ss_out s))
    (fun r => match r with Some s => 267 * 209 - 259 <= len (ss_out s) | None => True end)) in HL; [exact HL| |left; reflexivity].
  clear HL s1. intros s [->|[(ph & k & Hk & Hph & Hk1 & HS)|Ho]].
  - destruct bad_first as (s' & -> & HS). right. left. exists 3, 0. repeat (split; [lia|]). exact HS.
  - destruct (bad_step ph k s Hk Hph Hk1 HS) as (s' & -> & HS').
    destruct (ph =? 4) eqn:E.
    + destruct (Z.eq_dec k 208) as [->|Hk2].
      * right. right. unfold bad_state in HS'. cbn [Z.eqb] in HS'. lia.
      * right. left. exists 0, (k + 1). split; [lia|]. split; [lia|]. split; [lia|]. exact HS'.
    + right. left. exists (ph + 1), k. split; [lia|]. split; [lia|]. split; [lia|]. exact HS'.
  - pose proof (single_step_ge s _ Ho) as K. destruct (single_step true 0 bad_single bad_single_n s) as [s'|[s'|]]; [right; right; exact K|exact K|exact K].
Qed.

Lemma s_out_ge pk In n cap out B sym : s_compress pk false false In n cap = COk out -> approx_symbol In n = Some sym ->
  (forall s1, loop (single_step pk sym In n) (mkS 0 0 0 [] 0 0) = Some (Some s1) -> B <= len (ss_out s1)) -> B <= len out.
Proof.
  intros HC Hs HB. unfold s_compress in HC.
  destruct (false || (n =? 0) || false || (cap <? rle_compress_bounds n)); [discriminate|]. rewrite Hs in HC.
  destruct (loop (single_step pk sym In n) (mkS 0 0 0 [] 0 0)) as [[s1|]|]; try discriminate.
  specialize (HB s1 eq_refl).
  destruct (loop (scalar8_step true (s_procS pk) In n) _) as [s2|] eqn:E2; try discriminate.
  pose proof (scalar_out_ge _ _ _ _ _ _ B E2 HB) as H2.
  pose proof (finish_out_ge (s_procS pk) s_term_none s_term_lits In s2) as H3. cbv zeta in HC.
  revert HC H3. generalize (finish8 (s_procS pk) s_term_none s_term_lits In s2). intros b HC H3.
  assert (HO := f_equal (fun r => match r with COk o => o | _ => [] end) HC). cbv beta iota in HO. rewrite <- HO.
  rewrite !len_app, !len_le32. change (len [1]) with 1. change (len [sym]) with 1. lia.
Qed.

Lemma bad_single_range : 1 <= bad_single_n <= max_in.
Proof. unfold bad_single_n, max_in. lia. Qed.
Lemma packed_single_writes cap : rle_compress_bounds bad_single_n <= cap ->
  exists out, s_compress true false false bad_single bad_single_n cap = COk out /\ bad_single_n + 297 < len out.
Proof.
  intros Hcap. destruct (single_good true bad_single bad_single_n cap bad_single_byte bad_single_range Hcap) as (body & HC & _).
  eexists. split; [exact HC|].
  assert (Hs : approx_symbol bad_single bad_single_n = Some 0).
  { apply approx_none; [exact bad_single_range|exact bad_single_byte|reflexivity|]. intros x _. apply bad_single_runs. }
  assert (HB := s_out_ge _ _ _ _ _ _ _ HC Hs bad_single_loop).
  clear HC. unfold bad_single_n in *. lia.
Qed.
Lemma packed_single_overflow : exists In n, byte_mem In /\ 1 <= n <= max_in /\
  exists out, s_compress true false false In n (rle_compress_bounds n) = COk out /\ rle_compress_bounds n < len out.
Proof.
  exists bad_single, bad_single_n. split; [exact bad_single_byte|]. split; [exact bad_single_range|].
  destruct (packed_single_writes _ (Z.le_refl _)) as (out & HC & HB). exists out. split; [exact HC|].
  rewrite (bounds_193 bad_single_n) by apply bad_single_range. clear HC. lia.
Qed.
