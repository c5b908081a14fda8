(** The 8 bit codecs save what is repeated. *)
From Verif Require Import Base Simd Spec ExtModel ExtDec ExtEnc PktModel PktSpec Fmt8Spec PktDec PktEnc Rle8Model Rle8Proof MbModel MbEnc LutModel LutProof SlModel SlProof ShModel ShProof ShEnc
  SameMb SameThm SaveSpec SaveThm SaveFam Save8.

(** *** rle8_multi, rle8_packed_multi *)
Lemma mB_mono pk x y : x <= y -> y - x <= mB pk y - mB pk x.
Proof. intros H. unfold mB. destruct pk; [lia|]. pose proof (Z.div_le_mono x y 261). lia. Qed.

Lemma m_packet_len pk In i count sym last same : last <= i - count -> len (m_packet pk In i count sym last same) <= i - count - last + 11.
Proof.
  intros H. unfold m_packet. rewrite !len_app, len_slice by lia. rewrite len_m_count, len_m_range.
  repeat match goal with |- context [if ?b then _ else _] => destruct b end; lia.
Qed.

Lemma m_saves_V pk In : saves_proc 11 11 In (fun _ => True) (m_procV pk).
Proof.
  split.
  - intros i count sym last a bytes a' _ H1 H2 H3. unfold m_procV in H3. cbv zeta in H3. destruct pk.
    + destruct (_ || _) in H3; [|discriminate]. injection H3 as <- _. now apply m_packet_len.
    + destruct (_ <=? _) in H3; [|discriminate]. injection H3 as <- _. now apply m_packet_len.
  - intros i count sym last a _ H. unfold m_procV, mLONG, mSHORT. cbv zeta. destruct pk; [replace (11 <=? count) with true by lia|replace (6 <=? count) with true by lia]; discriminate.
Qed.
Lemma m_saves_S pk In : saves_proc 11 11 In (fun _ => True) (m_procS pk).
Proof.
  split.
  - intros i count sym last a bytes a' _ H1 H2 H3. unfold m_procS in H3. destruct (_ <=? _) in H3; [|discriminate]. injection H3 as <- _. now apply m_packet_len.
  - intros i count sym last a _ H. unfold m_procS, mLONG, mSHORT. destruct pk; [replace (11 <=? count) with true by lia|replace (6 <=? count) with true by lia]; discriminate.
Qed.

Theorem m_saves pk avx2 : Saves 1 17 (m_compress pk avx2 false false) (mbound pk).
Proof.
  intros In n cap out rs HIn Hn HC HR. unfold m_compress in HC. apply guard_ok in HC; [|discriminate]. destruct HC as [_ HC].
  destruct (body8 _ _ _ _ _ _ _ _) as [body|] eqn:E in HC; [|discriminate HC].
  assert (EO : out = le32 n ++ le32 (9 + len body) ++ [0] ++ body) by congruence. subst out. clear HC.
  apply (body8_saves (M8Packet pk) (mB pk) 11 11 17 In n _ _ _ _ _ _ _ _ rs) in E; try assumption.
  - rewrite !len_app, !len_le32. change (len [0]) with 1. unfold mbound.
    assert (L1 : len (m_term_none pk) <= 11) by (destruct pk; cbn; lia).
    assert (L2 : forall k, len (m_term_lits pk k) <= 11) by (intros k; destruct pk; cbn; lia).
    unfold mB in E. destruct E as [E|(last & Hlast & E)]; [destruct pk; lia|].
    specialize (L2 (n - last)). destruct pk; [lia|]. pose proof (Z.div_le_mono last n 261). lia.
  - apply mB_mono.
  - unfold mB; destruct pk; cbn; lia.
  - lia.
  - now apply m_procV_ok.
  - now apply m_procS_ok.
  - apply m_saves_V.
  - apply m_saves_S.
  - destruct avx2; lia.
  - specialize (HIn 0). unfold is_byte in *. lia.
Qed.

(** *** rle8_{3,7}symlut *)
Lemma sl_saves_8 c v : List.In c slcodecs -> slS c = 1 -> Saves (slS c) (5 * slS c + 12) (sl_compress c v false false) (slsize c).
Proof.
  intros Hc H1 In n cap out rs HIn Hn HC HR. apply slcodecs_ok in Hc. pose proof Hc as (HS & H8 & HSC). rewrite H1 in HR |- *. change (5 * 1 + 12) with 17.
  unfold sl_compress in HC. apply guard_ok in HC; [|discriminate]. destruct HC as [_ HC].
  destruct (sl_body c v In n) as [body|] eqn:E; [|discriminate]. assert (EO : out = le32 n ++ le32 (8 + len body) ++ body) by congruence.
  subst out. rewrite header_len. clear HC.
  unfold sl_body in E. replace (slS c =? 1) with true in E by lia. cbv zeta in E.
  set (proc := fun In i count sym last a => sl_proc c In i count [sym] last a) in E.
  assert (HP : proc8_ok (SlG c) (slB c) proc In).
  { intros i count sym last a bytes a' Hcnt Hl Hi Hb Hrun H. rewrite <- periodic_1 by assumption.
    eapply sl_proc_ok; try exact H; try assumption; try lia.
    - rewrite H1. reflexivity.
    - constructor; [exact Hb|constructor]. }
  assert (HSP : saves_proc 11 12 In (fun _ => True) proc).
  { split.
    - intros i count sym last a bytes a' _ A1 A2 A3. pose proof (sl_head_len c In i count [sym] last a bytes a' A1 A2 ltac:(rewrite H1; reflexivity) ltac:(lia) A3). lia.
    - intros i count sym last a _ A1. apply sl_long. lia. }
  apply (body8_saves (SlG c) (slB c) 11 12 17 In n _ _ _ _ _ _ _ _ rs) in E; try assumption.
  - apply (slsize_end c body n n); [assumption|lia|exact E].
  - apply slB_mono.
  - unfold slB, sl_loss; destruct (_ =? _); [|destruct (_ <=? _)]; cbn; lia.
  - lia.
  - destruct v; lia.
  - specialize (HIn 0). unfold is_byte in *. lia.
Qed.

(** *** rle8_{1,3,7}symlut_short and rle8_short *)
Lemma sh_saves_8 c v : List.In c shcodecs -> shS c = 1 -> shOne c = false -> Saves (shS c) (5 * shS c + 12) (sh_compress c v false false) shsize.
Proof.
  intros Hc H1 Ho In n cap out rs HIn Hn HC HR. apply shcodecs_ok in Hc. rewrite H1 in HR |- *. change (5 * 1 + 12) with 17.
  unfold sh_compress, sh_wrap in HC. apply guard_ok in HC; [|discriminate]. destruct HC as [_ HC].
  destruct (sh_body c v In n) as [body|] eqn:E; [|discriminate]. assert (EO : out = le32 n ++ le32 (8 + len body) ++ body) by congruence.
  subst out. rewrite header_len. clear HC.
  unfold sh_body in E. rewrite Ho in E. replace (shS c =? 1) with true in E by lia. cbv zeta in E.
  set (proc := fun In i count sym last a => sh_proc c In i count [sym] last a) in E.
  assert (HP : proc8_ok (ShG c 0) shB proc In).
  { apply sh_proc8_ok; try assumption. intros. split; [assumption|congruence]. }
  assert (HSP : saves_proc 12 13 In (fun _ => True) proc).
  { split.
    - intros i count sym last a bytes a' _ A1 A2 A3. pose proof (sh_head_le c In i count [sym] last a bytes a' A1 A2 ltac:(rewrite H1; reflexivity) ltac:(lia) A3). lia.
    - intros i count sym last a _ A1. apply sh_long; lia. }
  apply (body8_saves (ShG c 0) shB 12 13 17 In n _ _ _ _ _ _ _ _ rs) in E; try assumption.
  - pose proof (shsize_end c body n n (saving 17 rs) Hc ltac:(lia) E). lia.
  - apply shB_mono.
  - apply shB0.
  - lia.
  - destruct v; lia.
  - specialize (HIn 0). unfold is_byte in *. lia.
Qed.

Theorem sl_saves c v : List.In c slcodecs -> Saves (slS c) (5 * slS c + 12) (sl_compress c v false false) (slsize c).
Proof. intros Hc. destruct (Z.eq_dec (slS c) 1) as [E|E]; [now apply sl_saves_8|now apply sl_saves_multi]. Qed.

Theorem sh_saves c v : List.In c shcodecs -> shOne c = false -> Saves (shS c) (5 * shS c + 12) (sh_compress c v false false) shsize.
Proof. intros Hc Ho. destruct (Z.eq_dec (shS c) 1) as [E|E]; [now apply sh_saves_8|now apply sh_saves_multi]. Qed.
