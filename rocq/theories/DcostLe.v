(** C73: the low entropy decoders take linear time on any bytes. *)
From Verif Require Import Base Simd SimdProof Spec ExtModel ExtEnc Rle8Model LeModel LeDec LeHos WrThm CostModel CostThm DcostModel DcostSpec DcostThm.

Lemma fill_loop_cost16 al W v qe qc M : W = 16 \/ W = 32 -> 0 < qc -> 0 <= qe < 2 ^ 64 -> qe - qc <= 256 ->
  exists k, passes (fill_step al W v qe) alone (qc, M) = Some k /\ 0 <= k <= 17.
Proof.
  intros HW Hq Hqe Hd.
  destruct (passes_bound (fill_step al W v qe) alone (fun '(q, _) => 0 < q) (fun '(q, _) => (Z.max 0 (qe - q) + 15) / 16 + 1) (qc, M)) as (k & E & Hk).
  - intros [q N] H. exists 0. split; [reflexivity|]. split; [lia|]. unfold fill_step.
    destruct (q <? qe) eqn:E; [destruct (negb al || al_ok W q)|]; lia.
  - lia.
  - lia.
  - exists k. split; [exact E|]. lia.
Qed.

Lemma le_fillp_cost L W b M q count : W = 16 \/ W = 32 -> 0 < q -> is_byte count ->
  exists k, le_fillp L W b M q count = Some k /\ 0 <= k <= 17.
Proof.
  intros HW Hq Hc. unfold is_byte in Hc. unfold le_fillp. destruct (L =? 255); [|exists 0; split; [reflexivity|lia]].
  destruct (count =? 0); [exists 0; split; [reflexivity|lia]|]. unfold set_passes.
  destruct (count <=? W); [exists 0; split; [reflexivity|lia]|].
  pose proof (Z.mod_pos_bound q W ltac:(lia)). pose proof (w64_range (q + count)).
  assert (w64 (q + count) <= q + count) by (unfold w64; apply Z.mod_le; lia).
  destruct (q mod W =? 0); apply fill_loop_cost16; try assumption; lia.
Qed.

Lemma fillS_cost b M q count : is_byte count -> exists k, fillS_passes b M q count = Some k /\ 0 <= k <= 17.
Proof.
  intros Hc. unfold is_byte in Hc. unfold fillS_passes. destruct (count <? 16) eqn:E16; [exists 0; split; [reflexivity|lia]|].
  assert (K : forall q1 rem M1, rem <= 255 -> exists k, passes (fillS_step b) alone (q1, rem, M1) = Some k /\ 0 <= k <= 17).
  { intros q1 rem M1 Hr.
    destruct (passes_bound (fillS_step b) alone (fun '(_, rem, _) => True) (fun '(_, rem, _) => Z.max 0 rem / 16 + 1) (q1, rem, M1)) as (k & E & Hk); [|exact I|lia|].
    - intros [[q2 r] N] _. exists 0. split; [reflexivity|]. split; [lia|]. unfold fillS_step.
      destruct (15 <? r) eqn:E; [destruct (al_ok 16 q2); [split; [exact I|]|]|]; lia.
    - exists k. split; [exact E|]. lia. }
  destruct (q mod 16 =? 0); apply K; [lia|]. pose proof (Z.mod_pos_bound q 16 ltac:(lia)). lia.
Qed.

(** Passes, and what the result of the loop leaves of the potential. *)
Lemma passes_post {S R} (step : S -> S + R) inner (I : S -> Prop) (P : S -> Z) (Q : R -> Prop) (F : R -> Z) s0 :
  (forall s, I s -> exists c, inner s = Some c /\ 0 <= c /\
     match step s with inl s' => I s' /\ 0 <= P s' /\ 1 + c + P s' <= P s | inr r => Q r /\ 1 + c + F r <= P s end) ->
  I s0 -> 0 <= P s0 < 2 ^ 64 -> exists r k, loop step s0 = Some r /\ passes step inner s0 = Some k /\ Q r /\ 0 <= k /\ k + F r <= P s0.
Proof.
  intros H H0 HP.
  destruct (loop_inv step I P (fun _ => True) s0) as (r & E & _); [|exact H0|lia|].
  - intros s Hs. destruct (H s Hs) as (c & _ & Hc & Hm). destruct (step s) as [s'|r]; [|exact Logic.I].
    destruct Hm as (M1 & M2 & M3). split; [exact M1|lia].
  - assert (K : match loop step s0, loop (cstep step inner) (s0, 0) with
      | Some r, Some r' => exists k, r' = Some k /\ Q r /\ 0 <= k /\ k + F r <= P s0 | None, None => True | _, _ => False end).
    { apply (loop_rel step (cstep step inner) (fun s '(t, k) => s = t /\ I s /\ 0 <= k /\ k + P s <= P s0)
        (fun r r' => exists k, r' = Some k /\ Q r /\ 0 <= k /\ k + F r <= P s0)); [|repeat split; try assumption; lia].
      intros s [t k] (<- & Hs & Hk & Hle). unfold cstep. cbn [fst snd]. destruct (H s Hs) as (c & -> & Hc & Hm).
      destruct (step s) as [s2|r1]; [destruct Hm as (M1 & M2 & M3); repeat split; try assumption; lia|].
      destruct Hm as (M1 & M2). exists (k + 1 + c). repeat split; try assumption; lia. }
    rewrite E in K. unfold passes. destruct (loop (cstep step inner) (s0, 0)) as [r'|]; [|contradiction].
    destruct K as (k & -> & Hk). exists r, k. split; [exact E|]. split; [reflexivity|exact Hk].
Qed.

Lemma le_decode_cost L c rle stc C p pEnd M q :
  (forall i, is_byte (stc i)) -> 0 < q -> pEnd - p < 2 ^ 32 -> q + 128 * Z.max 0 (pEnd + 1 - p) < 2 ^ 64 ->
  exists k, le_decode_passes L c rle stc C p pEnd M q = Some k /\ k <= 18 * Z.max 0 (pEnd - p) + 2.
Proof.
  intros Hs Hq Hl Hr. unfold le_decode_passes. destruct (w8 (len (filter rle range256)) =? 0); [exists 0; split; [reflexivity|lia]|].
  set (multi := negb _). set (W := if (if multi then cpu_avx c else cpu_avx2 c) then 32 else 16). set (hit := if multi then rle else _).
  set (fill := if L =? 255 then le_fillV W else les_fillV multi W).
  assert (HW : W = 16 \/ W = 32) by (unfold W; destruct (if multi then cpu_avx c else cpu_avx2 c); auto).
  assert (HF : FillIn fill) by (unfold fill; destruct (L =? 255); [now apply le_fillV_in|now apply les_fillV_in]).
  clearbody multi W hit fill. cbv zeta.
  set (J := fun s : Z * Z * mem => let '(p1, q1, _) := s in p <= p1 /\ q <= q1 <= q + 128 * (p1 - p)).
  destruct (passes_post (le_simd_step W hit fill stc C (pEnd - 256)) (le_simd_inner L W hit stc C (pEnd - 256)) J
    (fun '(p1, _, _) => 18 * Z.max 0 (pEnd - p1) + 1) (fun r => exists s, r = Some s /\ J s)
    (fun r => match r with Some (p1, _, _) => 18 * Z.max 0 (pEnd - p1) | None => 0 end) (p, q, M)) as (r & k1 & E1 & E2 & (s1 & -> & HJ) & Hk1 & Hk2).
  - intros [[p1 q1] M1] (Hp & Hq1). unfold le_simd_step, le_simd_inner. destruct (p1 <? pEnd - 256) eqn:Ep.
    2:{ exists 0. split; [reflexivity|]. split; [lia|]. split; [|lia]. eexists. split; [reflexivity|]. split; lia. }
    set (f := fun j => negb (hit (C (p1 + j)))). pose proof (lead_le f W ltac:(lia)) as HL. set (idx := lead f W) in *. clearbody idx. cbv zeta.
    destruct (idx =? W) eqn:Ei.
    + exists 0. split; [reflexivity|]. split; [lia|]. split; [split; lia|]. lia.
    + set (cnt := stc (C (p1 + idx + 1))). pose proof (Hs (C (p1 + idx + 1))) as Hc. fold cnt in Hc. pose proof Hc as Hc'. unfold is_byte in Hc'.
      destruct (HF (C (p1 + idx)) (vcopy W C p1 M1 q1) (q1 + idx + 1) cnt) as (M2 & F1 & F2); [exact Hc|lia|lia|]. rewrite F1.
      destruct (le_fillp_cost L W (C (p1 + idx)) (vcopy W C p1 M1 q1) (q1 + idx + 1) cnt HW ltac:(lia) Hc) as (k & -> & Hk).
      exists k. split; [reflexivity|]. split; [lia|]. split; [split; lia|]. lia.
  - split; lia.
  - lia.
  - rewrite E1, E2. destruct s1 as [[p1 q1] M1].
    destruct (passes_bound (le_tail_step rle stc C pEnd) (le_tail_inner rle stc C pEnd) J
      (fun '(p2, _, _) => 18 * Z.max 0 (pEnd - p2) + 1) (p1, q1, M1)) as (k2 & E3 & Hk3).
    + clear HJ E1 E2 Hk2. intros [[p2 q2] M2] (Hp & Hq1). unfold le_tail_step, le_tail_inner. destruct (p2 <? pEnd) eqn:Ep.
      2:{ exists 0. split; [reflexivity|]. split; lia. }
      cbv zeta. destruct (rle (C p2)).
      * set (cnt := stc (C (p2 + 1))). pose proof (Hs (C (p2 + 1))) as Hc. fold cnt in Hc. pose proof Hc as Hc'. unfold is_byte in Hc'.
        destruct (fillS_cost (C p2) (vstore 1 (fun _ => C p2) M2 q2) (q2 + 1) cnt Hc) as (k & -> & Hk).
        exists k. split; [reflexivity|]. split; [lia|].
        destruct (le_fillS_ok (C p2) (vstore 1 (fun _ => C p2) M2 q2) (q2 + 1) cnt) as (M3 & F1 & _ & F2); [lia|lia|]. rewrite F1.
        split; [split; lia|]. lia.
      * exists 0. split; [reflexivity|]. split; [lia|]. split; [split; lia|]. lia.
    + exact HJ.
    + destruct HJ. lia.
    + rewrite E3. cbn [oadd]. exists (k1 + k2). split; [reflexivity|]. lia.
Qed.

Lemma le_linear_decode L c : LinearDecodeAny (le_dec_passes L c) 18 2.
Proof.
  intros C pin M pout HC Hp Hq Hp2 Hq2. unfold le_dec_passes. pose proof (read_info_byte C (pin + 8) HC) as K.
  destruct (read_info C (pin + 8)) as [[rle stc] k]. destruct K as (K1 & K2).
  assert (0 <= rd32 C pin < 2 ^ 32).
  { pose proof (HC pin). pose proof (HC (pin + 1)). pose proof (HC (pin + 2)). pose proof (HC (pin + 3)). unfold is_byte in *. unfold rd32. lia. }
  destruct (le_decode_cost L c rle stc C (pin + 8 + k) (pin + rd32 C pin) M pout) as (n & E & Hn); try assumption; try lia.
  exists n. split; [exact E|]. lia.
Qed.
