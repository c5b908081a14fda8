(** The multi-byte codecs of the three packet families save what is repeated. *)
From Verif Require Import Base LargeSpec Simd Spec ExtModel ExtDec ExtEnc PktModel MbModel MbEnc LutModel LutProof SlModel SlProof ShModel ShProof ShEnc
  SameMb SameThm SaveSpec SaveThm SaveMb.

(** Behind the checks of the arguments. *)
Lemma guard_ok {T} (b : bool) (x y : T) (r : T) : (if b then x else y) = r -> x <> r -> b = false /\ y = r.
Proof. destruct b; [congruence|auto]. Qed.

(** From the packets to the stream. *)
Lemma header_len n (body : list Z) : len (le32 n ++ le32 (8 + len body) ++ body) = 8 + len body.
Proof. rewrite !len_app, !len_le32. lia. Qed.

(** *** rle16, rle24, rle32, rle48, rle64 *)
Lemma x_proc_ok c In : cok c -> byte_mem In -> procM_ok (fun _ _ _ _ _ => True) (xS c) (xUnb c) (fun x => x) (x_proc c) In.
Proof.
  intros Hc HIn i count sym last a bytes a' Hcnt Hmin Hmod Hl Hi Hs Hb Hrun H. unfold x_proc in H.
  destruct (packet c In (mkE i count sym last a [] false)) as [b|] eqn:E; [|discriminate]. injection H as -> ->.
  pose proof (packet_cost c In (mkE i count a' last a [] false) bytes Hc Hs Hcnt (proj2 Hl) E) as HC. cbn [e_i e_last] in HC.
  destruct (packet_count_ok c In _ bytes Hc E) as (Hsh & rf & -> & Hrf). cbn [e_i e_count e_sym e_last e_lsym] in *.
  assert (Hcok : count_ok c count) by (split; [pose proof (okS_pos _ (proj1 Hc)); unfold large_in in *; lia|exact Hmod]).
  split; [eexists; split; [rewrite app_assoc; reflexivity|exact I]|]. split; [|lia].
  apply Forall_app. split; [now apply bytes_emit_count|].
  apply Forall_app. split; [eapply bytes_range; destruct Hrf as [[-> _]| ->]; eauto|]. apply Forall_slice. exact HIn.
Qed.

Lemma packet_head c In i count sym last a bytes : cok c -> 0 <= count -> last <= i - count -> len sym = xS c ->
  packet c In (mkE i count sym last a [] false) = Some bytes -> len bytes <= i - count - last + (xS c + 10).
Proof.
  intros Hc Hcnt Hl Hs E. destruct (packet_count_ok c In _ bytes Hc E) as (Hsh & rf & -> & Hrf). cbn [e_i e_count e_sym e_last e_lsym] in *.
  rewrite !len_app, len_slice, (len_emit_count _ _ _ _ Hs) by lia.
  assert (len rf <= 5).
  { destruct Hrf as [[-> _]| ->]; unfold emit_range_short, emit_range_long; destruct (xP7 c); rewrite ?len_cons, ?len_le32, ?len_nil; lia. }
  pose proof (okS_pos _ (proj1 Hc)).
  destruct (xPack c); [destruct (stored_count c count <=? 127); destruct (eqb_bytes sym a); lia|destruct (stored_count c count <=? 255); lia].
Qed.

Lemma packet_long c In i count sym last a : cok c -> xS c + 12 <= count -> packet c In (mkE i count sym last a [] false) <> None.
Proof.
  intros Hc H. unfold packet. cbn [e_i e_count e_sym e_last e_lsym]. destruct (accept_short _ _ _ _ _); [discriminate|].
  replace (xLONG c <=? count) with true; [discriminate|]. unfold xLONG, xFULL. destruct (xPack c) eqn:E1, (xP7 c) eqn:E2; lia.
Qed.

Lemma len_term_range c : len (term_range c) <= 5.
Proof. unfold term_range. destruct (xP7 c && negb (xS c =? 16)); cbn; lia. Qed.
Lemma len_term_count_le c : cok c -> len (term_count c) <= xS c + 5.
Proof. intros Hc. rewrite len_term_count by apply Hc. destruct (xPack c); pose proof (okS_pos _ (proj1 Hc)); lia. Qed.
Lemma len_x_lits c k : cok c -> len (x_lits c k) <= xS c + 10.
Proof.
  intros Hc. pose proof (len_term_count_le c Hc). unfold x_lits. rewrite len_app. destruct (xP7 c); rewrite ?len_cons, len_le32; lia.
Qed.

Theorem ext_saves c v : List.In c xcodecs -> xS c <> 16 -> Saves (xS c) (5 * xS c + 12) (xcompress c v false false) (fun n => n + 2 * xS c + 18).
Proof.
  intros Hc H16 In n cap out rs HIn Hn HC HR. apply xcodecs_cok in Hc. pose proof (okS_pos _ (proj1 Hc)) as HS2.
  unfold xcompress in HC. apply guard_ok in HC; [|discriminate]. destruct HC as [_ HC]. cbv zeta in HC.
  pose proof (conv_body c v In n H16) as K.
  destruct (loop (enc_step c v In n) (mkE 0 0 (init_sym c In) 0 (repeat 0 (Z.to_nat (xS c))) [] false)) as [[s|]|]; [|discriminate HC|discriminate HC].
  assert (HO : out = le32 n ++ le32 (8 + len (finish c In s)) ++ finish c In s) by congruence.
  subst out. rewrite header_len. clear HC. symmetry in K.
  apply (mb_saves (fun _ _ _ _ _ => True) (x_proc c) (xS c) (xUnb c) (fun x => x) (xS c + 10) (xS c + 12) (5 * xS c + 12) In n v _ _ _ _ rs) in K.
  - pose proof (len_term_range c). pose proof (len_term_count_le c Hc). destruct K as (m & Hm & [K|(last & Hl & K)]).
    + rewrite len_app in K. lia.
    + pose proof (len_x_lits c (m - last) Hc). lia.
  - apply Hc.
  - destruct Hc as [Hc _]. unfold okS in Hc. lia.
  - exact HIn.
  - exact Hn.
  - now apply x_proc_ok.
  - intros i count sym last a bytes a' H1 H2 H3 H4. unfold x_proc in H4. destruct (packet c In (mkE i count sym last a [] false)) as [b|] eqn:E; [|discriminate].
    injection H4 as -> _. now apply (packet_head c In i count sym last a).
  - intros i count sym last a H1. unfold x_proc. pose proof (packet_long c In i count sym last a Hc H1). destruct (packet _ _ _); [discriminate|contradiction].
  - intros. unfold x_proc. now rewrite packet_none.
  - intros x y Hxy. cbv beta. lia.
  - lia.
  - lia.
  - exact HR.
Qed.

(** *** rle{16,24,32,48,64}_{3,7}symlut *)
Lemma slB_mono c x y : x <= y -> y - x <= slB c y - slB c x.
Proof.
  intros H. unfold slB, sl_loss. destruct (slS c =? 3); [|destruct (slS c <=? 4); [|lia]].
  - pose proof (Z.div_le_mono x y 68). lia.
  - pose proof (Z.div_le_mono x y 65537). lia.
Qed.

Lemma sl_head_len c In i count sym last a bytes a' : 0 <= count -> last <= i - count -> len sym = slS c -> 1 <= slS c ->
  sl_proc c In i count sym last a = Some (bytes, a') -> len bytes <= i - count - last + (slS c + 10).
Proof.
  intros H1 H2 H3 HS H4. unfold sl_proc in H4. cbv zeta in H4. destruct (_ || _) in H4; [|discriminate]. apply some_pair in H4. destruct H4 as [<- _].
  rewrite len_app, len_slice, len_sl_head by (try assumption; lia). rewrite !len_ext.
  repeat match goal with |- context [if ?b then _ else _] => destruct b end; lia.
Qed.

Lemma sl_long c In i count sym last a : slS c + 10 <= count -> sl_proc c In i count sym last a <> None.
Proof. intros H. unfold sl_proc. cbv zeta. replace (slLONG c <=? count) with true by (unfold slLONG; lia). discriminate. Qed.

Lemma slsize_end c (body : list Z) n m s : slok c -> n <= m <= n + slS c ->
  (len body + s <= slB c m + len (sl_term_none c) \/ exists last, 0 <= last <= m /\ len body + s <= slB c last + (m - last) + len (sl_term_lits c (m - last))) ->
  8 + len body + s <= slsize c n.
Proof.
  intros (_ & H8 & _) Hm HL. unfold slsize, slB, sl_loss, sl_term_none, sl_term_lits in *. rewrite !len_app, !len_le16 in HL.
  destruct HL as [HL|(last & Hlast & HL)]; [|rewrite !len_app, !len_le16, len_le32 in HL]; (destruct (slS c =? 3); [lia|]; destruct (slS c <=? 4); [|lia]).
  - assert (m / 65537 <= (n + 8) / 65537) by (apply Z.div_le_mono; lia). assert ((n + 8) / 65537 <= n / 65537 + 1) by lia. lia.
  - assert (last / 65537 <= (n + 8) / 65537) by (apply Z.div_le_mono; lia). assert ((n + 8) / 65537 <= n / 65537 + 1) by lia. lia.
Qed.

Lemma sl_saves_multi c v : List.In c slcodecs -> slS c <> 1 -> Saves (slS c) (5 * slS c + 12) (sl_compress c v false false) (slsize c).
Proof.
  intros Hc H1 In n cap out rs HIn Hn HC HR. apply slcodecs_ok in Hc. pose proof Hc as (HS & H8 & HSC). pose proof (okS1_pos _ HS) as HS2.
  unfold sl_compress in HC. apply guard_ok in HC; [|discriminate]. destruct HC as [_ HC].
  destruct (sl_body c v In n) as [body|] eqn:E; [|discriminate]. assert (EO : out = le32 n ++ le32 (8 + len body) ++ body) by congruence.
  subst out. rewrite header_len. clear HC.
  unfold sl_body in E. replace (slS c =? 1) with false in E by lia. cbv zeta in E.
  assert (HSk : okS (slS c)) by (destruct HS; [lia|assumption]).
  apply (mb_saves (SlG c) (sl_proc c) (slS c) (slUnb c) (slB c) (slS c + 10) (slS c + 10) (5 * slS c + 12) In n v _ _ _ _ rs) in E; try assumption.
  - destruct E as (m & Hm & E). now apply (slsize_end c body n m).
  - intros i count sym last a bytes a' Hcnt Hmin Hmod Hl Hi Hs Hb Hrun H. eapply sl_proc_ok; try exact H; try assumption; try tauto.
  - intros i count sym last a bytes a' A1 A2 A3 A4. apply (sl_head_len c In i count sym last a bytes a'); try assumption; lia.
  - intros. now apply sl_long.
  - intros. apply sl_none; lia.
  - apply slB_mono.
  - unfold slB, sl_loss; destruct (_ =? _); [|destruct (_ <=? _)]; cbn; lia.
  - lia.
Qed.

(** *** rle{16,24,32,48,64}_{1,3,7}symlut_short and _short *)
Lemma shB_mono x y : x <= y -> y - x <= shB y - shB x.
Proof. intros H. unfold shB. pose proof (Z.div_le_mono x y 65537). lia. Qed.

Lemma sh_head_le c In i count sym last a bytes a' : 0 <= count -> last <= i - count -> len sym = shS c -> 1 <= shS c ->
  sh_proc c In i count sym last a = Some (bytes, a') -> len bytes <= i - count - last + (shS c + 11).
Proof.
  intros H1 H2 H3 HS H4. unfold sh_proc in H4. cbv zeta in H4. destruct (_ || _) in H4; [|discriminate]. apply some_pair in H4. destruct H4 as [<- _].
  rewrite len_app, len_slice, len_sh_head by (try assumption; lia). rewrite !len_ext.
  repeat match goal with |- context [if ?b then _ else _] => destruct b end; lia.
Qed.

Lemma sh_long c In i count sym last a : 1 <= shS c -> shS c + 12 <= count -> sh_proc c In i count sym last a <> None.
Proof.
  intros HS H. unfold sh_proc. cbv zeta. replace (shLONG c <=? count) with true; [discriminate|].
  unfold shLONG. destruct (negb _); [lia|]. destruct (shOne c); lia.
Qed.

Lemma shsize_end c (body : list Z) n m s : shok c -> n <= m <= n + 8 ->
  (len body + s <= shB m + len (sh_term_none c) \/ exists last, 0 <= last <= m /\ len body + s <= shB last + (m - last) + len (sh_term_lits c (m - last))) ->
  9 + len body + s <= shsize n.
Proof.
  intros Hc Hm HL. pose proof Hc as (_ & H8 & _). unfold shsize, shB in *.
  assert (K : (n + 8) / 65537 <= n / 65537 + 1) by lia.
  destruct HL as [HL|(last & Hlast & HL)].
  - destruct (len_sh_terms c 0 Hc) as [K1 _]. assert (m / 65537 <= (n + 8) / 65537) by (apply Z.div_le_mono; lia). lia.
  - destruct (len_sh_terms c (m - last) Hc) as [_ K2]. assert (last / 65537 <= (n + 8) / 65537) by (apply Z.div_le_mono; lia). lia.
Qed.

Lemma sh_saves_multi c v : List.In c shcodecs -> shS c <> 1 -> Saves (shS c) (5 * shS c + 12) (sh_compress c v false false) shsize.
Proof.
  intros Hc H1 In n cap out rs HIn Hn HC HR. apply shcodecs_ok in Hc. pose proof Hc as (HS & H8 & HSC & HO). pose proof (okS1_pos _ HS) as HS2.
  unfold sh_compress, sh_wrap in HC. apply guard_ok in HC; [|discriminate]. destruct HC as [_ HC].
  destruct (sh_body c v In n) as [body|] eqn:E; [|discriminate]. assert (EO : out = le32 n ++ le32 (8 + len body) ++ body) by congruence.
  subst out. rewrite header_len. clear HC.
  unfold sh_body in E. destruct (shOne c) eqn:Ho; [destruct (HO eq_refl); lia|]. replace (shS c =? 1) with false in E by lia. cbv zeta in E.
  assert (HSk : okS (shS c)) by (destruct HS; [lia|assumption]).
  apply (mb_saves (ShG c 0) (sh_proc c) (shS c) (shUnb c) shB (shS c + 11) (shS c + 12) (5 * shS c + 12) In n v _ _ _ _ rs) in E; try assumption.
  - destruct E as (m & Hm & E). pose proof (shsize_end c body n m (saving (5 * shS c + 12) rs) Hc ltac:(lia) E). lia.
  - intros i count sym last a bytes a' Hcnt Hmin Hmod Hl Hi Hs Hb Hrun H. eapply sh_proc_ok; try exact H; try assumption; try tauto. congruence.
  - intros i count sym last a bytes a' A1 A2 A3 A4. apply (sh_head_le c In i count sym last a bytes a'); try assumption; lia.
  - intros. apply sh_long; [lia|assumption].
  - intros. apply sh_none; lia.
  - apply shB_mono.
  - apply shB0.
  - lia.
Qed.
