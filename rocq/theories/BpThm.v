(** The packing functions of bitpack.h restore what was packed; bitpack_encode3_sse2_unaligned_m128i does not. *)
From Verif Require Import Base Simd SimdProof Spec MtfModel MtfSpec MtfProof BitMtf MzModel MzBits MzPack MzThm BpModel BpSpec BpProof.

Lemma keeps_ext w lim (dom dom' : Z -> Prop) size size' arg arg' ei eo di do enc dec :
  (forall n, 0 <= n < 2 ^ 62 -> dom' n -> dom n /\ size n = size' n /\ arg n = arg' n) -> KeepsBits w lim dom size arg ei eo di do enc dec -> KeepsBits w lim dom' size' arg' ei eo di do enc dec.
Proof. intros H HK M pin pout n Hn Hd. unfold KeepsBits, YieldsBits in HK. destruct (H n Hn Hd) as (H1 & H2 & H3). rewrite <- H2, <- H3. now apply HK. Qed.

Lemma raw_mod n V w : 0 <= n -> (forall k, 0 <= k < n -> 0 <= V k < 2 ^ w) -> raw n (fun k => V k mod 2 ^ w) 0 = raw n V 0.
Proof. intros Hn HV. apply raw_ext. intros i Hi. apply Z.mod_small. apply HV. lia. Qed.

Lemma single w lay d adv ai ao bi bo updE updD : Moves updE (raw d) lay d d adv (2 ^ w) -> Moves updD lay (raw d) d adv d (2 ^ w) -> 0 < d -> 0 < adv ->
  (ai = true -> d mod 16 = 0) -> (ao = true -> adv mod 16 = 0) -> (bi = true -> adv mod 16 = 0) -> (bo = true -> d mod 16 = 0) ->
  KeepsBits w (2 ^ w) (fun n => n mod d = 0) (fun n => adv * (n / d)) (fun n => adv * (n / d)) ai ao bi bo
    (fun M p q n => bout (bloop ai ao (fun i => i <? n) d d adv updE (0, p, q, M))) (fun M p q n => bin (bloop bi bo (fun i => i <? n) adv adv d updD (0, p, q, M))).
Proof.
  intros HE HD Hd Ha A1 A2 A3 A4. apply (keeps_intro w (2 ^ w) _ _ _ ai ao bi bo (fun n => bloop ai ao (fun i => i <? n) d d adv updE) (fun n => bloop bi bo (fun i => i <? n) adv adv d updD)).
  intros V n Hn Hdom HV. assert (Hs : n = d * (n / d)) by (rewrite (Z.div_mod n d) at 1 by lia; lia). set (K := n / d) in *. assert (HK : 0 <= K < 2 ^ 62) by nia.
  exists (rep K d (lay V) 0), (d * K), (d * K), (0 + d * K), (0 + adv * K). split; [apply len_rep; [lia|apply HE]|]. rewrite raw_mod by (try lia; exact HV). split.
  - rewrite Hs at 1. rewrite <- raw_rep by lia. apply (phase_loop ai ao _ d d adv updE (raw d) lay d (2 ^ w) K 0 V 0); try assumption; try lia; try (intros; nia). intros i Hi. apply HV. lia.
  - rewrite Hs at 1. rewrite <- raw_rep by lia. apply (phase_loop bi bo _ adv adv d updD lay (raw d) d (2 ^ w) K 0 V 0); try assumption; try lia; try (intros; nia). intros i Hi. apply HV. lia.
Qed.

Theorem encode3_3_keeps ai ao : KeepsBits 3 8 (vectors 3) (fun n => n * 3 / 8) (fun n => n * 3 / 8) ai false false ao (encode3_3 ai) (decode3_3 ao).
Proof.
  apply (keeps_ext 3 8 (fun n => n mod 48 = 0) _ (fun n => 18 * (n / 48)) _ (fun n => 18 * (n / 48))).
  - intros n Hn Hd. unfold vectors in Hd. change (16 * 3) with 48 in Hd. split; [exact Hd|]. split; lia.
  - exact (single 3 g3s 48 18 ai false false ao _ _ m_enc33 m_dec33 ltac:(lia) ltac:(lia) ltac:(reflexivity) ltac:(discriminate) ltac:(discriminate) ltac:(reflexivity)).
Qed.
Theorem encode3_6_keeps ai ao : KeepsBits 3 8 (vectors 6) (fun n => n * 3 / 8) (fun n => n * 3 / 8) ai false false ao (encode3_6 ai) (decode3_6 ao).
Proof.
  apply (keeps_ext 3 8 (fun n => n mod 96 = 0) _ (fun n => 36 * (n / 96)) _ (fun n => 36 * (n / 96))).
  - intros n Hn Hd. unfold vectors in Hd. change (16 * 6) with 96 in Hd. split; [exact Hd|]. split; lia.
  - exact (single 3 g3 96 36 ai false false ao _ _ m_enc36 m_dec36 ltac:(lia) ltac:(lia) ltac:(reflexivity) ltac:(discriminate) ltac:(discriminate) ltac:(reflexivity)).
Qed.
Theorem encode2_keeps a b : KeepsBits 2 4 (vectors 4) (fun n => n / 4) (fun n => n / 4) a a b b (encode2 a) (decode2 b).
Proof.
  apply (keeps_ext 2 4 (fun n => n mod 64 = 0) _ (fun n => 16 * (n / 64)) _ (fun n => 16 * (n / 64))).
  - intros n Hn Hd. unfold vectors in Hd. change (16 * 4) with 64 in Hd. split; [exact Hd|]. split; lia.
  - exact (single 2 g2 64 16 a a b b _ _ m_enc2 m_dec2 ltac:(lia) ltac:(lia) ltac:(reflexivity) ltac:(reflexivity) ltac:(reflexivity) ltac:(reflexivity)).
Qed.

(** 1 bit: whatever the other bits are *)
Theorem encode1_keeps ai ao : KeepsBits 1 256 (vectors 1) (fun n => n / 8) (fun n => n / 8) ai false false ao (encode1 ai) (decode1 ao).
Proof.
  apply (keeps_intro 1 256 _ _ _ ai false false ao (fun n => bloop ai false (fun i => i <? n) 16 16 2 enc1_upd) (fun n => bloop false ao (fun i => i <? n) 2 2 16 dec1_upd)).
  intros V n Hn Hdom HV. unfold vectors in Hdom. change (16 * 1) with 16 in Hdom. set (K := n / 16). assert (Hs : n = 16 * K) by (subst K; lia). assert (HK : 0 <= K < 2 ^ 62) by lia. clearbody K.
  exists (rep K 16 (l1 V) 0), (16 * K), (16 * K), (0 + 16 * K), (0 + 2 * K). split; [rewrite (len_rep _ _ _ _ 2) by (try reflexivity; lia); lia|]. replace (n / 8) with (2 * K) by lia. split.
  - rewrite Hs at 1. rewrite <- raw_rep by lia. apply (phase_loop ai false _ 16 16 2 enc1_upd (raw 16) l1 16 256 K 0 V 0); try assumption; try lia; try apply m_enc1; try reflexivity; try discriminate; intros; try lia. apply HV. lia.
  - rewrite Hs at 1. rewrite <- raw_rep by lia.
    replace (rep K 16 (l1 V) 0) with (rep K 16 (l1 (fun i => V i mod 2 ^ 1)) 0) by (unfold rep; apply flat_map_ext; intros i; apply l1_mod).
    apply (phase_loop false ao _ 2 2 16 dec1_upd l1 (raw 16) 16 2 K 0 (fun i => V i mod 2 ^ 1) 0); try assumption; try lia; try apply m_dec1; try reflexivity; try discriminate; intros; try lia; change (2 ^ 1) with 2; lia.
Qed.

(** 4 bits, any size *)
Definition lay4 (V : mem) (n : Z) : list Z := rep (n / 32) 32 (g4 V) 0 ++ rep (n mod 32 / 2) 2 (s4 V) (32 * (n / 32)) ++ (if n mod 2 =? 0 then [] else one V (n - 1)).
Lemma len_lay4 V n : 0 <= n -> len (lay4 V n) = (n + 1) / 2.
Proof.
  intros Hn. unfold lay4. rewrite !len_app, (len_rep _ _ _ _ 16), (len_rep _ _ _ _ 1) by (try apply len_g4; try reflexivity; lia). destruct (n mod 2 =? 0) eqn:E; [change (len (@nil Z)) with 0|change (len (one V (n - 1))) with 1]; lia.
Qed.
Lemma raw4 V n : 0 <= n -> raw n V 0 = rep (n / 32) 32 (raw 32 V) 0 ++ rep (n mod 32 / 2) 2 (raw 2 V) (32 * (n / 32)) ++ (if n mod 2 =? 0 then [] else one V (n - 1)).
Proof.
  intros Hn. rewrite !raw_rep by lia. set (K := n / 32). set (r := n mod 32 / 2). assert (Hs : n = 32 * K + 2 * r + n mod 2) by (subst K r; lia). assert (0 <= K /\ 0 <= r) by (subst K r; lia). clearbody K r.
  rewrite Hs at 1. rewrite !raw_app by lia. rewrite <- app_assoc. f_equal. f_equal. destruct (n mod 2 =? 0) eqn:E.
  - replace (n mod 2) with 0 by lia. reflexivity.
  - replace (n mod 2) with 1 by lia. unfold raw, ll, one. change (lanes 1) with [0]. cbn [map]. do 2 f_equal. lia.
Qed.
Theorem encode4_keeps a b : KeepsBits 4 16 (fun _ => True) (fun n => (n + 1) / 2) (fun n => n) a a b b (encode4 a) (decode4 b).
Proof.
  apply (keeps_intro 4 16 _ _ _ a a b b
    (fun n s => bind (bloop a a (fun i => i <=? n - 32) 32 32 16 enc4_upd s) (fun s => bind (bloop false false (fun i => i <? n - 1) 2 2 1 enc4s_upd s) (fun s => bif (fun i => i <? n) 0 0 1 copy1_upd s)))
    (fun n s => bind (bloop b b (fun i => i <=? n - 32) 32 16 32 dec4_upd s) (fun s => bind (bloop false false (fun i => i <? n - 1) 2 1 2 dec4s_upd s) (fun s => bif (fun i => i <? n) 0 1 0 copy1_upd s)))).
  intros V n Hn _ HV. exists (lay4 V n). change 16 with (2 ^ 4) in HV. rewrite raw_mod by (try lia; exact HV). change (2 ^ 4) with 16 in HV. rewrite raw4 by lia.
  pose proof (len_lay4 V n ltac:(lia)) as HL. unfold lay4 in *. 
  set (K := n / 32) in *. set (r := n mod 32 / 2) in *. assert (Hs : n = 32 * K + 2 * r + n mod 2) by (subst K r; lia). assert (H0 : 0 <= K < 2 ^ 62 /\ 0 <= r < 2 ^ 62 /\ r <= 15) by (subst K r; lia).
  assert (Hr : 0 <= n mod 2 <= 1) by lia. clearbody K r.
  assert (HV1 : forall i, 0 <= i < 0 + 32 * K -> 0 <= V i < 16) by (intros; apply HV; lia). assert (HV2 : forall i, 32 * K <= i < 32 * K + 2 * r -> 0 <= V i < 16) by (intros; apply HV; lia).
  assert (P1 : Phase a a 0 (0 + 32 * K) _ _ _ _ (bloop a a (fun i => i <=? n - 32) 32 32 16 enc4_upd)) by (apply (phase_loop_len a a _ 32 32 16 enc4_upd (raw 32) g4 32 16 K 0 V 0 m_enc4); try reflexivity; intros; try lia; now apply HV1).
  assert (P2 : Phase false false (0 + 32 * K) (0 + 32 * K + 2 * r) _ _ _ _ (bloop false false (fun i => i <? n - 1) 2 2 1 enc4s_upd)) by (apply (phase_loop_len false false _ 2 2 1 enc4s_upd (raw 2) s4 2 16 r (0 + 32 * K) V (32 * K) m_enc4s); try discriminate; intros; try lia; now apply HV2).
  assert (Q1 : Phase b b 0 (0 + 32 * K) _ _ _ _ (bloop b b (fun i => i <=? n - 32) 32 16 32 dec4_upd)) by (apply (phase_loop_len b b _ 32 16 32 dec4_upd g4 (raw 32) 32 16 K 0 V 0 m_dec4); try reflexivity; intros; try lia; now apply HV1).
  assert (Q2 : Phase false false (0 + 32 * K) (0 + 32 * K + 2 * r) _ _ _ _ (bloop false false (fun i => i <? n - 1) 2 1 2 dec4s_upd)) by (apply (phase_loop_len false false _ 2 1 2 dec4s_upd s4 (raw 2) 2 16 r (0 + 32 * K) V (32 * K) m_dec4s); try discriminate; intros; try lia; now apply HV2).
  rewrite !len_app in HL. destruct (n mod 2 =? 0) eqn:Eo.
  - assert (P3 : Phase false false (0 + 32 * K + 2 * r) (0 + 32 * K + 2 * r) 0 0 [] [] (bif (fun i => i <? n) 0 0 1 copy1_upd)) by (apply phase_if_not; lia).
    assert (Q3 : Phase false false (0 + 32 * K + 2 * r) (0 + 32 * K + 2 * r) 0 0 [] [] (bif (fun i => i <? n) 0 1 0 copy1_upd)) by (apply phase_if_not; lia).
    pose proof (phase_seq _ _ _ _ _ _ _ _ _ _ _ _ _ P1 (phase_seq _ _ _ _ _ _ _ _ _ _ _ _ _ P2 P3)) as PP. pose proof (phase_seq _ _ _ _ _ _ _ _ _ _ _ _ _ Q1 (phase_seq _ _ _ _ _ _ _ _ _ _ _ _ _ Q2 Q3)) as QQ.
    change (len (@nil Z)) with 0 in HL. do 4 eexists. split; [rewrite !len_app; exact HL|]. split; [|]; (eapply phase_eq; [eassumption|try reflexivity..]); exact HL.
  - assert (HV3 : forall i, n - 1 <= i < n - 1 + 1 -> 0 <= V i < 16) by (intros; apply HV; lia).
    assert (P3 : Phase false false (0 + 32 * K + 2 * r) (0 + 32 * K + 2 * r + 0) 0 1 (one V (n - 1)) (one V (n - 1)) (bif (fun i => i <? n) 0 0 1 copy1_upd)) by (apply (phase_if _ 0 1 1 0 1 copy1_upd one one 1 16 _ V (n - 1) (m_copy1 16) HV3); lia).
    assert (Q3 : Phase false false (0 + 32 * K + 2 * r) (0 + 32 * K + 2 * r + 0) 1 0 (one V (n - 1)) (one V (n - 1)) (bif (fun i => i <? n) 0 1 0 copy1_upd)) by (apply (phase_if _ 0 1 1 1 0 copy1_upd one one 1 16 _ V (n - 1) (m_copy1 16) HV3); lia).
    pose proof (phase_seq _ _ _ _ _ _ _ _ _ _ _ _ _ P1 (phase_seq _ _ _ _ _ _ _ _ _ _ _ _ _ P2 P3)) as PP. pose proof (phase_seq _ _ _ _ _ _ _ _ _ _ _ _ _ Q1 (phase_seq _ _ _ _ _ _ _ _ _ _ _ _ _ Q2 Q3)) as QQ.
    change (len (one V (n - 1))) with 1 in HL. do 4 eexists. split; [rewrite !len_app; exact HL|]. split; (eapply phase_eq; [eassumption|try reflexivity..]); exact HL.
Qed.

(** 4 bits, in whole vectors *)
Definition lay4v (V : mem) (n : Z) : list Z := rep (n / 32) 32 (g4 V) 0 ++ (if n mod 32 =? 0 then [] else t4 V (32 * (n / 32))).
Theorem encode4_m128i_keeps : KeepsBits 4 16 (vectors 1) (fun n => n / 2) (fun n => n) false false false false encode4_m128i decode4_m128i.
Proof.
  apply (keeps_intro 4 16 _ _ _ false false false false
    (fun n s => bind (bloop false false (fun i => i <=? n - 32) 32 32 16 enc4_upd s) (fun s => bif (fun i => i <? n) 0 0 8 enc4t_upd s))
    (fun n s => bind (bloop false false (fun i => i <=? n - 32) 32 16 32 dec4_upd s) (fun s => bif (fun i => i <? n) 0 8 0 dec4t_upd s))).
  intros V n Hn Hd HV. unfold vectors in Hd. exists (lay4v V n). change 16 with (2 ^ 4) in HV. rewrite raw_mod by (try lia; exact HV). change (2 ^ 4) with 16 in HV.
  unfold lay4v. set (K := n / 32) in *. assert (Hs : n = 32 * K + n mod 32) by (subst K; lia). assert (H0 : 0 <= K < 2 ^ 62) by (subst K; lia). assert (Hr : n mod 32 = 0 \/ n mod 32 = 16) by lia. clearbody K.
  assert (HV1 : forall i, 0 <= i < 0 + 32 * K -> 0 <= V i < 16) by (intros; apply HV; lia).
  assert (P1 : Phase false false 0 (0 + 32 * K) _ _ _ _ (bloop false false (fun i => i <=? n - 32) 32 32 16 enc4_upd)) by (apply (phase_loop_len false false _ 32 32 16 enc4_upd (raw 32) g4 32 16 K 0 V 0 m_enc4); try reflexivity; intros; try lia; now apply HV1).
  assert (Q1 : Phase false false 0 (0 + 32 * K) _ _ _ _ (bloop false false (fun i => i <=? n - 32) 32 16 32 dec4_upd)) by (apply (phase_loop_len false false _ 32 16 32 dec4_upd g4 (raw 32) 32 16 K 0 V 0 m_dec4); try reflexivity; intros; try lia; now apply HV1).
  assert (L1 : len (rep K 32 (g4 V) 0) = 16 * K) by (apply len_rep; [lia|intros; apply len_g4]). rewrite raw_rep in P1, Q1 by lia.
  destruct Hr as [Hr | Hr]; rewrite Hr in *; cbn [Z.eqb Pos.eqb].
  - assert (P3 : Phase false false (0 + 32 * K) (0 + 32 * K) 0 0 [] [] (bif (fun i => i <? n) 0 0 8 enc4t_upd)) by (apply phase_if_not; lia).
    assert (Q3 : Phase false false (0 + 32 * K) (0 + 32 * K) 0 0 [] [] (bif (fun i => i <? n) 0 8 0 dec4t_upd)) by (apply phase_if_not; lia).
    pose proof (phase_seq _ _ _ _ _ _ _ _ _ _ _ _ _ P1 P3) as PP. pose proof (phase_seq _ _ _ _ _ _ _ _ _ _ _ _ _ Q1 Q3) as QQ.
    replace (raw n V 0) with (raw (32 * K) V 0 ++ []) by (rewrite app_nil_r; f_equal; lia). do 4 eexists. split; [rewrite !len_app; change (len (@nil Z)) with 0; lia|]. split; (eapply phase_eq; [eassumption|try reflexivity..]); lia.
  - assert (HV3 : forall i, 32 * K <= i < 32 * K + 16 -> 0 <= V i < 16) by (intros; apply HV; lia).
    assert (P3 : Phase false false (0 + 32 * K) (0 + 32 * K + 0) 0 8 (raw 16 V (32 * K)) (t4 V (32 * K)) (bif (fun i => i <? n) 0 0 8 enc4t_upd)) by (apply (phase_if _ 0 16 8 0 8 enc4t_upd (raw 16) t4 16 16 _ V (32 * K) m_enc4t HV3); lia).
    assert (Q3 : Phase false false (0 + 32 * K) (0 + 32 * K + 0) 8 0 (t4 V (32 * K)) (raw 16 V (32 * K)) (bif (fun i => i <? n) 0 8 0 dec4t_upd)) by (apply (phase_if _ 0 8 16 8 0 dec4t_upd t4 (raw 16) 16 16 _ V (32 * K) m_dec4t HV3); lia).
    pose proof (phase_seq _ _ _ _ _ _ _ _ _ _ _ _ _ P1 P3) as PP. pose proof (phase_seq _ _ _ _ _ _ _ _ _ _ _ _ _ Q1 Q3) as QQ.
    replace (raw n V 0) with (raw (32 * K) V 0 ++ raw 16 V (32 * K)) by (rewrite Hs, raw_app by lia; reflexivity). do 4 eexists. split; [rewrite !len_app, len_t4; lia|]. split; (eapply phase_eq; [eassumption|try reflexivity..]); lia.
Qed.

(** 2 bits, in whole vectors *)
Definition lay2v (V : mem) (n : Z) : list Z :=
  rep (n / 64) 64 (g2 V) 0 ++ (if n mod 64 <? 32 then [] else q2 V (64 * (n / 64))) ++ (if n mod 32 =? 0 then [] else t2 V (32 * (n / 32))).
Theorem encode2_m128i_keeps : KeepsBits 2 4 (vectors 1) (fun n => n / 4) (fun n => n) false false false false encode2_m128i decode2_m128i.
Proof.
  apply (keeps_intro 2 4 _ _ _ false false false false
    (fun n s => bind (bloop false false (fun i => i <=? n - 64) 64 64 16 enc2_upd s) (fun s => bind (bif (fun i => i + 32 <=? n) 32 32 8 enc2q_upd s) (fun s => bif (fun i => i <? n) 0 0 4 enc2d_upd s)))
    (fun n s => bind (bloop false false (fun i => i <=? n - 64) 64 16 64 dec2_upd s) (fun s => bind (bif (fun i => i + 32 <=? n) 32 8 32 dec2q_upd s) (fun s => bif (fun i => i <? n) 0 4 0 dec2d_upd s)))).
  intros V n Hn Hd HV. unfold vectors in Hd. exists (lay2v V n). change 4 with (2 ^ 2) in HV. rewrite raw_mod by (try lia; exact HV). change (2 ^ 2) with 4 in HV.
  unfold lay2v. assert (Hd' : n mod 16 = 0) by exact Hd. set (K := n / 64) in *. assert (Hs : n = 64 * K + n mod 64) by (subst K; lia). assert (H0 : 0 <= K < 2 ^ 62) by (subst K; lia).
  assert (Hr : (n mod 64 = 0 /\ n mod 32 = 0 \/ n mod 64 = 16 /\ n mod 32 = 16) \/ (n mod 64 = 32 /\ n mod 32 = 0 \/ n mod 64 = 48 /\ n mod 32 = 16)) by (clear - Hd'; lia).
  set (J := n / 32) in *. assert (HJ : n = 32 * J + n mod 32) by (subst J; lia). clearbody K J.
  assert (HV1 : forall i, 0 <= i < 0 + 64 * K -> 0 <= V i < 4) by (intros; apply HV; lia).
  assert (P1 : Phase false false 0 (0 + 64 * K) _ _ _ _ (bloop false false (fun i => i <=? n - 64) 64 64 16 enc2_upd)) by (apply (phase_loop_len false false _ 64 64 16 enc2_upd (raw 64) g2 64 4 K 0 V 0 m_enc2); try reflexivity; intros; try lia; now apply HV1).
  assert (Q1 : Phase false false 0 (0 + 64 * K) _ _ _ _ (bloop false false (fun i => i <=? n - 64) 64 16 64 dec2_upd)) by (apply (phase_loop_len false false _ 64 16 64 dec2_upd g2 (raw 64) 64 4 K 0 V 0 m_dec2); try reflexivity; intros; try lia; now apply HV1).
  assert (L1 : len (rep K 64 (g2 V) 0) = 16 * K) by (apply len_rep; [lia|intros; apply len_g2]). rewrite raw_rep in P1, Q1 by lia.
  assert (Two : exists i', let x := (if n mod 64 <? 32 then 0 else 32) in i' = 64 * K + x /\
     Phase false false (0 + 64 * K) i' (len (raw x V (64 * K))) (len (if n mod 64 <? 32 then [] else q2 V (64 * K))) (raw x V (64 * K)) (if n mod 64 <? 32 then [] else q2 V (64 * K)) (bif (fun i => i + 32 <=? n) 32 32 8 enc2q_upd) /\
     Phase false false (0 + 64 * K) i' (len (if n mod 64 <? 32 then [] else q2 V (64 * K))) (len (raw x V (64 * K))) (if n mod 64 <? 32 then [] else q2 V (64 * K)) (raw x V (64 * K)) (bif (fun i => i + 32 <=? n) 32 8 32 dec2q_upd)).
  { destruct (n mod 64 <? 32) eqn:E.
    - exists (0 + 64 * K). cbv zeta. split; [lia|]. split; apply phase_if_not; lia.
    - assert (HV3 : forall i, 64 * K <= i < 64 * K + 32 -> 0 <= V i < 4) by (intros; apply HV; lia). cbv zeta. rewrite len_q2, len_raw by lia. eexists. split; [|split].
      2: apply (phase_if _ 32 32 8 32 8 enc2q_upd (raw 32) q2 32 4 _ V (64 * K) m_enc2q HV3); lia. 2: apply (phase_if _ 32 8 32 8 32 dec2q_upd q2 (raw 32) 32 4 _ V (64 * K) m_dec2q HV3); lia. reflexivity. }
  destruct Two as (i' & Hi' & P2 & Q2). cbv zeta in Hi', P2, Q2.
  assert (Three : exists i'' e d, 
     Phase false false i' i'' e (len (if n mod 32 =? 0 then [] else t2 V (32 * J))) (raw (n mod 32) V (32 * J)) (if n mod 32 =? 0 then [] else t2 V (32 * J)) (bif (fun i => i <? n) 0 0 4 enc2d_upd) /\
     Phase false false i' i'' (len (if n mod 32 =? 0 then [] else t2 V (32 * J))) d (if n mod 32 =? 0 then [] else t2 V (32 * J)) (raw (n mod 32) V (32 * J)) (bif (fun i => i <? n) 0 4 0 dec2d_upd)).
  { destruct (n mod 32 =? 0) eqn:E.
    - replace (n mod 32) with 0 by lia. do 3 eexists. split; apply phase_if_not; destruct (n mod 64 <? 32) eqn:E2; lia.
    - replace (n mod 32) with 16 in * by lia. assert (HV3 : forall i, 32 * J <= i < 32 * J + 16 -> 0 <= V i < 4) by (intros; apply HV; lia). rewrite len_t2. do 3 eexists. split.
      + apply (phase_if _ 0 16 4 0 4 enc2d_upd (raw 16) t2 16 4 _ V (32 * J) m_enc2d HV3); destruct (n mod 64 <? 32) eqn:E2; lia.
      + apply (phase_if _ 0 4 16 4 0 dec2d_upd t2 (raw 16) 16 4 _ V (32 * J) m_dec2d HV3); destruct (n mod 64 <? 32) eqn:E2; lia. }
  destruct Three as (i'' & e & d & P3 & Q3).
  pose proof (phase_seq _ _ _ _ _ _ _ _ _ _ _ _ _ P1 (phase_seq _ _ _ _ _ _ _ _ _ _ _ _ _ P2 P3)) as PP. pose proof (phase_seq _ _ _ _ _ _ _ _ _ _ _ _ _ Q1 (phase_seq _ _ _ _ _ _ _ _ _ _ _ _ _ Q2 Q3)) as QQ.
  clear P1 P2 P3 Q1 Q2 Q3.
  assert (LL : len (rep K 64 (g2 V) 0) + (len (if n mod 64 <? 32 then [] else q2 V (64 * K)) + len (if n mod 32 =? 0 then [] else t2 V (32 * J))) = n / 4).
  { rewrite L1. destruct Hr as [[[R1 R2] | [R1 R2]] | [[R1 R2] | [R1 R2]]]; rewrite R1, R2 in *; cbn [Z.ltb Z.eqb Z.compare Pos.compare Pos.compare_cont Pos.eqb]; rewrite ?len_q2, ?len_t2; change (len (@nil Z)) with 0; lia. }
  assert (RR : raw n V 0 = raw (64 * K) V 0 ++ raw (if n mod 64 <? 32 then 0 else 32) V (64 * K) ++ raw (n mod 32) V (32 * J)).
  { rewrite Hs at 1. rewrite raw_app by lia. f_equal. cbn [Z.add]. destruct Hr as [[[R1 R2] | [R1 R2]] | [[R1 R2] | [R1 R2]]]; rewrite R1, R2 in *; cbn [Z.ltb Z.eqb Z.compare Pos.compare Pos.compare_cont Pos.eqb]; rewrite <- ?raw_app by lia; try reflexivity.
    - change (raw 0 V (64 * K)) with (@nil Z). cbn [app]. f_equal. lia.
    - replace (32 * J) with (64 * K + 32) by lia. rewrite <- raw_app by lia. reflexivity. }
  rewrite RR. do 4 eexists. split; [rewrite !len_app; exact LL|]. split; (eapply phase_eq; [eassumption|try reflexivity..]); exact LL.
Qed.

(** 3 bits, in whole vectors: with four or five vectors left after the groups of six, the last one or
    two are read from where the three before them are *)
Definition from3 (n k : Z) : Z := if (64 <=? n mod 96) && (96 * (n / 96) + 48 <=? k) then k - 48 else k.
Theorem encode3_m128i_yields : YieldsBits from3 3 8 (vectors 1) (fun n => n * 3 / 8) (fun n => n) false false false false encode3_m128i decode3_m128i.
Proof.
  apply (yields_intro from3 3 8 _ _ _ false false false false
    (fun n s => bind (bloop false false (fun i => i <=? n - 96) 96 96 36 enc36_upd s) (fun s => bind (bif (fun i => i <=? n - 48) 48 0 18 enc33_upd s) (fun s => bloop false false (fun i => i <? n) 16 16 6 enc3t_upd s)))
    (fun n s => bind (bloop false false (fun i => i <=? n - 96) 96 36 96 dec36_upd s) (fun s => bind (bif (fun i => i <=? n - 48) 48 18 48 dec33_upd s) (fun s => bloop false false (fun i => i <? n) 16 6 16 dec3t_upd s)))).
  intros V n Hn Hd HV. unfold vectors in Hd. assert (Hd' : n mod 16 = 0) by exact Hd. 
  assert (RM : raw n (fun k => V (from3 n k) mod 2 ^ 3) 0 = raw n (fun k => V (from3 n k)) 0).
  { apply raw_ext. intros i Hi. apply Z.mod_small. apply HV. unfold from3. destruct ((64 <=? n mod 96) && (96 * (n / 96) + 48 <=? i)) eqn:E; lia. }
  rewrite RM. clear RM. unfold from3.
  set (K := n / 96) in *. set (m := n mod 96 / 16). assert (Hs : n = 96 * K + 16 * m) by (subst K m; lia). assert (Hm0 : n mod 96 = 16 * m) by (subst m; lia). assert (H0 : 0 <= K < 2 ^ 62 /\ 0 <= m < 6) by (subst K m; lia). rewrite Hm0. clearbody K m. clear Hm0 Hd.
  assert (HV1 : forall i, 0 <= i < 0 + 96 * K -> 0 <= V i < 8) by (intros; apply HV; lia).
  assert (P1 : Phase false false 0 (0 + 96 * K) _ _ _ _ (bloop false false (fun i => i <=? n - 96) 96 96 36 enc36_upd)) by (apply (phase_loop_len false false _ 96 96 36 enc36_upd (raw 96) g3 96 8 K 0 V 0 m_enc36); try discriminate; intros; try lia; now apply HV1).
  assert (Q1 : Phase false false 0 (0 + 96 * K) _ _ _ _ (bloop false false (fun i => i <=? n - 96) 96 36 96 dec36_upd)) by (apply (phase_loop_len false false _ 96 36 96 dec36_upd g3 (raw 96) 96 8 K 0 V 0 m_dec36); try discriminate; intros; try lia; now apply HV1).
  assert (L1 : len (rep K 96 (g3 V) 0) = 36 * K) by (apply len_rep; [lia|intros; apply len_g3]). rewrite raw_rep in P1, Q1 by lia.
  destruct (m <? 3) eqn:Em.
  - assert (P2 : Phase false false (0 + 96 * K) (0 + 96 * K) (len (@nil Z)) (len (@nil Z)) [] [] (bif (fun i => i <=? n - 48) 48 0 18 enc33_upd)) by (apply phase_if_not; lia).
    assert (Q2 : Phase false false (0 + 96 * K) (0 + 96 * K) (len (@nil Z)) (len (@nil Z)) [] [] (bif (fun i => i <=? n - 48) 48 18 48 dec33_upd)) by (apply phase_if_not; lia).
    assert (HV3 : forall i, 96 * K <= i < 96 * K + 16 * m -> 0 <= V i < 8) by (intros; apply HV; lia).
    assert (P3 : Phase false false (0 + 96 * K) (0 + 96 * K + 16 * m) _ _ _ _ (bloop false false (fun i => i <? n) 16 16 6 enc3t_upd)) by (apply (phase_loop_len false false _ 16 16 6 enc3t_upd (raw 16) t3 16 8 m (0 + 96 * K) V (96 * K) m_enc3t); try discriminate; intros; try lia; now apply HV3).
    assert (Q3 : Phase false false (0 + 96 * K) (0 + 96 * K + 16 * m) _ _ _ _ (bloop false false (fun i => i <? n) 16 6 16 dec3t_upd)) by (apply (phase_loop_len false false _ 16 6 16 dec3t_upd t3 (raw 16) 16 8 m (0 + 96 * K) V (96 * K) m_dec3t); try discriminate; intros; try lia; now apply HV3).
    assert (L3 : len (rep m 16 (t3 V) (96 * K)) = 6 * m) by (apply len_rep; [lia|reflexivity]). rewrite raw_rep in P3, Q3 by lia.
    pose proof (phase_seq _ _ _ _ _ _ _ _ _ _ _ _ _ P1 (phase_seq _ _ _ _ _ _ _ _ _ _ _ _ _ P2 P3)) as PP. pose proof (phase_seq _ _ _ _ _ _ _ _ _ _ _ _ _ Q1 (phase_seq _ _ _ _ _ _ _ _ _ _ _ _ _ Q2 Q3)) as QQ. clear P1 P2 P3 Q1 Q2 Q3.
    assert (RR : raw n V 0 = raw (96 * K) V 0 ++ [] ++ raw (16 * m) V (96 * K)) by (rewrite Hs at 1; rewrite raw_app by lia; reflexivity).
    replace (raw n (fun k => V (if (64 <=? 16 * m) && (96 * K + 48 <=? k) then k - 48 else k)) 0) with (raw n V 0) by (apply raw_ext; intros i Hi; f_equal; destruct ((64 <=? 16 * m) && (96 * K + 48 <=? i)) eqn:E; lia).
    rewrite RR. exists (rep K 96 (g3 V) 0 ++ [] ++ rep m 16 (t3 V) (96 * K)). do 4 eexists. split; [rewrite !len_app, L1, L3; change (len (@nil Z)) with 0; lia|]. split; (eapply phase_eq; [eassumption|try reflexivity..]); rewrite L1, L3; change (len (@nil Z)) with 0; lia.
  - set (W := fun i => V (i - 48)). set (r := m - 3) in *. assert (Hr : m = 3 + r /\ 0 <= r) by lia. clearbody r. destruct Hr as [-> Hr].
    assert (HV2 : forall i, 96 * K <= i < 96 * K + 48 -> 0 <= V i < 8) by (intros; apply HV; lia).
    assert (P2 : Phase false false (0 + 96 * K) (0 + 96 * K + 48) 0 (len (g3s V (96 * K))) (raw 48 V (96 * K)) (g3s V (96 * K)) (bif (fun i => i <=? n - 48) 48 0 18 enc33_upd)) by (apply (phase_if _ 48 48 18 0 18 enc33_upd (raw 48) g3s 48 8 _ V (96 * K) m_enc33 HV2); lia).
    assert (Q2 : Phase false false (0 + 96 * K) (0 + 96 * K + 48) (len (g3s V (96 * K))) (len (raw 48 V (96 * K))) (g3s V (96 * K)) (raw 48 V (96 * K)) (bif (fun i => i <=? n - 48) 48 18 48 dec33_upd)) by (apply (phase_if _ 48 18 48 18 48 dec33_upd g3s (raw 48) 48 8 _ V (96 * K) m_dec33 HV2); lia).
    assert (HV3 : forall i, 96 * K + 48 <= i < 96 * K + 48 + 16 * r -> 0 <= W i < 8) by (intros; apply HV; lia).
    assert (P3 : Phase false false (0 + 96 * K + 48) (0 + 96 * K + 48 + 16 * r) _ _ _ _ (bloop false false (fun i => i <? n) 16 16 6 enc3t_upd)) by (apply (phase_loop_len false false _ 16 16 6 enc3t_upd (raw 16) t3 16 8 r (0 + 96 * K + 48) W (96 * K + 48) m_enc3t); try discriminate; intros; try lia; now apply HV3).
    assert (Q3 : Phase false false (0 + 96 * K + 48) (0 + 96 * K + 48 + 16 * r) _ _ _ _ (bloop false false (fun i => i <? n) 16 6 16 dec3t_upd)) by (apply (phase_loop_len false false _ 16 6 16 dec3t_upd t3 (raw 16) 16 8 r (0 + 96 * K + 48) W (96 * K + 48) m_dec3t); try discriminate; intros; try lia; now apply HV3).
    assert (L3 : len (rep r 16 (t3 W) (96 * K + 48)) = 6 * r) by (apply len_rep; [lia|reflexivity]). rewrite raw_rep in P3, Q3 by lia.
    assert (RW : raw (16 * r) W (96 * K + 48) = raw (16 * r) V (96 * K)) by (unfold raw; apply ll_ext; intros k Hk; unfold W; f_equal; lia).
    assert (PQ : Phase false false (0 + 96 * K) (0 + 96 * K + 48 + 16 * r) (0 + len (raw (16 * r) W (96 * K + 48))) (len (g3s V (96 * K)) + len (rep r 16 (t3 W) (96 * K + 48))) (raw (16 * (3 + r)) V (96 * K)) (g3s V (96 * K) ++ rep r 16 (t3 W) (96 * K + 48))
       (fun s => bind (bif (fun i => i <=? n - 48) 48 0 18 enc33_upd s) (fun s => bloop false false (fun i => i <? n) 16 16 6 enc3t_upd s))).
    { apply (phase_bind false false _ _ _ 0 _ _ _ _ _ _ _ _ _ P2 P3); [| lia | rewrite !len_raw by lia; lia..]. rewrite RW. intros M p Hh. rewrite Z.add_0_r, !holds_raw in * by lia. split; intros k Hk; apply Hh; lia. }
    pose proof (phase_seq _ _ _ _ _ _ _ _ _ _ _ _ _ P1 PQ) as PP. pose proof (phase_seq _ _ _ _ _ _ _ _ _ _ _ _ _ Q1 (phase_seq _ _ _ _ _ _ _ _ _ _ _ _ _ Q2 Q3)) as QQ. clear P1 P2 P3 Q1 Q2 Q3 PQ.
    replace (raw n V 0) with (raw (96 * K) V 0 ++ raw (16 * (3 + r)) V (96 * K)) by (rewrite Hs; rewrite raw_app by lia; reflexivity).
    replace (raw n (fun k => V (if (64 <=? 16 * (3 + r)) && (96 * K + 48 <=? k) then k - 48 else k)) 0) with (raw (96 * K) V 0 ++ raw 48 V (96 * K) ++ raw (16 * r) W (96 * K + 48)).
    2: { replace n with (96 * K + (48 + 16 * r)) by lia. rewrite !raw_app by lia. change (0 + 96 * K) with (96 * K). f_equal; [|f_equal]; apply raw_ext; intros i Hi; cbv beta; unfold W.
      - replace (96 * K + 48 <=? i) with false by lia. rewrite andb_false_r. reflexivity.
      - replace (96 * K + 48 <=? i) with false by lia. rewrite andb_false_r. reflexivity.
      - replace (96 * K + 48 <=? i) with true by lia. replace (64 <=? 16 * (3 + r)) with true by lia. reflexivity. }
    exists (rep K 96 (g3 V) 0 ++ g3s V (96 * K) ++ rep r 16 (t3 W) (96 * K + 48)). do 4 eexists. split; [rewrite !len_app, L1, L3, len_g3s; lia|]. split; (eapply phase_eq; [eassumption|try reflexivity..]); rewrite L1, L3, len_g3s; lia.
Qed.

(** The sizes for which that is the identity *)
Theorem encode3_m128i_keeps : KeepsBits 3 8 (fun n => vectors 1 n /\ n mod 96 < 64) (fun n => n * 3 / 8) (fun n => n) false false false false encode3_m128i decode3_m128i.
Proof.
  intros M pin pout n Hn [Hd Hm] Hi Ho HA HV. destruct (encode3_m128i_yields M pin pout n Hn Hd Hi Ho HA HV) as (M1 & E1 & F1 & H). exists M1. split; [exact E1|]. split; [exact F1|].
  intros M2 p2 q0 HS Ai Ao Ha. destruct (H M2 p2 q0 HS Ai Ao Ha) as (M3 & E3 & R & F3). exists M3. split; [exact E3|]. split; [|exact F3]. intros k Hk. rewrite R by exact Hk. unfold from3. replace (64 <=? n mod 96) with false by lia. reflexivity.
Qed.

(** *** Refutations *)
Definition there (enc dec : bitfun) (arg : Z -> Z) (M : mem) (pin pout q n k : Z) : option Z :=
  match enc M pin pout n with
  | Ret (_, M1) => match dec M1 pout q (arg n) with Ret (_, M3) => Some (M3 (q + k)) | _ => None end
  | _ => None
  end.
Lemma there_yields from w lim (dom : Z -> Prop) size arg ei eo di do enc dec M pin pout q n k :
  YieldsBits from w lim dom size arg ei eo di do enc dec -> 0 <= n < 2 ^ 62 -> dom n -> pin mod 16 = 0 -> pout mod 16 = 0 -> q mod 16 = 0 -> Apart pin n pout (size n) -> Apart pout (size n) q n ->
  (forall k, 0 <= k < n -> 0 <= M (pin + k) < lim) -> 0 <= k < n -> there enc dec arg M pin pout q n k = Some (M (pin + from n k) mod 2 ^ w).
Proof.
  intros H Hn Hd A1 A2 A3 B1 B2 HV Hk. destruct (H M pin pout n Hn Hd ltac:(intros _; exact A1) ltac:(intros _; exact A2) B1 HV) as (M1 & E1 & _ & H2).
  destruct (H2 M1 pout q eq_refl ltac:(intros _; exact A2) ltac:(intros _; exact A3) B2) as (M3 & E3 & R & _). unfold there. rewrite E1, E3, R by exact Hk. reflexivity.
Qed.

(** One byte of 255, all others 0 *)
Definition lone : mem := fun a => if a =? 0 then 255 else 0.
Lemma lone_refutes w (dom : Z -> Prop) size arg ei eo di do enc dec n k : 0 <= w -> n < 512 -> dom n -> 0 <= size n <= 512 -> 0 < k < n -> there enc dec arg lone 0 512 1024 n k <> Some 0 -> ~ KeepsBits w 256 dom size arg ei eo di do enc dec.
Proof.
  intros Hw Hn Hd Hs Hk Hne H. apply Hne. rewrite (there_yields (fun _ k => k) w 256 dom size arg ei eo di do enc dec lone 0 512 1024 n k H); try assumption; try reflexivity; try lia.
  - unfold lone. replace (0 + k =? 0) with false by lia. reflexivity.
  - unfold Apart. lia.
  - unfold Apart. lia.
  - intros j Hj. unfold lone. destruct (0 + j =? 0); lia.
Qed.
Lemma encode3_3_masks ai ao : ~ KeepsBits 3 256 (vectors 3) (fun n => n * 3 / 8) (fun n => n * 3 / 8) ai false false ao (encode3_3 ai) (decode3_3 ao).
Proof. apply lone_refutes with (n := 48) (k := 16); try lia; destruct ai, ao; vm_compute; discriminate || reflexivity || (split; discriminate). Qed.
Lemma encode3_6_masks ai ao : ~ KeepsBits 3 256 (vectors 6) (fun n => n * 3 / 8) (fun n => n * 3 / 8) ai false false ao (encode3_6 ai) (decode3_6 ao).
Proof. apply lone_refutes with (n := 96) (k := 16); try lia; destruct ai, ao; vm_compute; discriminate || reflexivity || (split; discriminate). Qed.
Lemma encode4_masks a b : ~ KeepsBits 4 256 (fun _ => True) (fun n => (n + 1) / 2) (fun n => n) a a b b (encode4 a) (decode4 b).
Proof. apply lone_refutes with (n := 2) (k := 1); try lia; destruct a, b; vm_compute; discriminate || reflexivity || exact I || (split; discriminate). Qed.
Lemma encode4_m128i_masks : ~ KeepsBits 4 256 (vectors 1) (fun n => n / 2) (fun n => n) false false false false encode4_m128i decode4_m128i.
Proof. apply lone_refutes with (n := 16) (k := 8); try lia; vm_compute; discriminate || reflexivity || (split; discriminate). Qed.
Lemma encode2_masks a b : ~ KeepsBits 2 256 (vectors 4) (fun n => n / 4) (fun n => n / 4) a a b b (encode2 a) (decode2 b).
Proof. apply lone_refutes with (n := 64) (k := 16); try lia; destruct a, b; vm_compute; discriminate || reflexivity || (split; discriminate). Qed.
Lemma encode2_m128i_masks : ~ KeepsBits 2 256 (vectors 1) (fun n => n / 4) (fun n => n) false false false false encode2_m128i decode2_m128i.
Proof. apply lone_refutes with (n := 16) (k := 4); try lia; vm_compute; discriminate || reflexivity || (split; discriminate). Qed.

(** 64 bytes, of which only byte 48 is not 0 *)
Lemma encode3_m128i_loses : ~ KeepsBits 3 8 (vectors 1) (fun n => n * 3 / 8) (fun n => n) false false false false encode3_m128i decode3_m128i.
Proof.
  intros H. set (M := fun a => if a =? 48 then 5 else 0). assert (there encode3_m128i decode3_m128i (fun n => n) M 0 512 1024 64 48 = Some 5).
  { rewrite (there_yields (fun _ k => k) 3 8 (vectors 1) (fun n => n * 3 / 8) (fun n => n) false false false false encode3_m128i decode3_m128i M 0 512 1024 64 48 H); try reflexivity; try lia; try (unfold Apart; lia).
    intros k Hk. unfold M. destruct (0 + k =? 48); lia. }
  vm_compute in H0. discriminate.
Qed.
