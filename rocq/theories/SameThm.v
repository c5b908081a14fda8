(** The compressed stream is the same on all machines, except for rle8_packed_multi. *)
From Verif Require Import Base Simd Spec ExtModel ExtDec ExtEnc PktModel Rle8Model MbModel LutModel LutProof SlModel ShModel.
From Verif Require Import SameMb Same8 PlatModel PlatSpec ApiModel.

Lemma iter_map {S1 S2 R1 R2} (f : S1 -> S2) (g : R1 -> R2) (step1 : S1 -> S1 + R1) (step2 : S2 -> S2 + R2) :
  (forall s, step2 (f s) = match step1 s with inl s' => inl (f s') | inr r => inr (g r) end) ->
  forall d s, iter d step2 (f s) = match iter d step1 s with inl s' => inl (f s') | inr r => inr (g r) end.
Proof.
  intros H d. induction d as [|d IH]; intros s; cbn [iter]; [apply H|]. rewrite IH. destruct (iter d step1 s); [apply IH|reflexivity].
Qed.

(** *** The extreme encoders are the generic one *)
Definition x_proc (c : xcfg) : procM (list Z) := fun In i count sym last lsym =>
  match packet c In (mkE i count sym last lsym [] false) with Some b => Some (b, sym) | None => None end.
Definition conv (s : est) : estm (list Z) := mkM (e_i s) (e_count s) (e_sym s) (e_last s) (e_lsym s) (e_out s) (e_goto s).

Lemma packet_fields c In s out g : packet c In s = packet c In (mkE (e_i s) (e_count s) (e_sym s) (e_last s) (e_lsym s) out g).
Proof. reflexivity. Qed.

Lemma conv_emit c In s : conv (emit c In s) = emitM (x_proc c) In (conv s).
Proof.
  unfold emit, emitM, x_proc, conv. cbn [m_i m_count m_sym m_last m_aux m_out m_goto]. rewrite (packet_fields c In s [] false).
  destruct (packet _ _ _); reflexivity.
Qed.
Lemma conv_next c In n s i found : conv (next_run c In n s i found) = next_runM (xS c) In n (conv s) i found.
Proof. unfold next_run, next_runM, conv. cbv zeta. destruct found; [reflexivity|]. destruct (_ && _); reflexivity. Qed.

Lemma conv_second c v In n s i count : xS c <> 16 ->
  mb_second (x_proc c) (xS c) (xUnb c) v In n (conv s) i count =
    match enc_second c v In n s i count with inl s' => inl (conv s') | inr r => inr (option_map conv r) end.
Proof.
  intros H. unfold mb_second, enc_second. replace (xS c =? 16) with false by lia.
  change (scan (mcfg (xS c) (xUnb c)) v In n i) with (scan c v In n i).
  destruct (scan c v In n i) as [[i' found]|]; [|reflexivity]. rewrite conv_next, conv_emit. reflexivity.
Qed.

Lemma conv_step c v In n s : xS c <> 16 ->
  mb_step (x_proc c) (xS c) (xUnb c) v In n (conv s) =
    match enc_step c v In n s with inl s' => inl (conv s') | inr r => inr (option_map conv r) end.
Proof.
  intros H. unfold mb_step, enc_step. cbn [conv m_i m_goto m_count m_sym m_last]. replace (xS c =? 16) with false by lia.
  destruct ((e_i s <? n) || e_goto s); [|reflexivity].
  assert (P : phase1 (mcfg (xS c) (xUnb c)) v In n (mkE (e_i s) (e_count s) (e_sym s) (e_last s) [] [] false) = phase1 c v In n s)
    by (unfold phase1; destruct v; reflexivity).
  rewrite P. destruct (phase1 c v In n s) as [[i count|i count]|]; [now apply conv_second| |reflexivity].
  change (scalar_step (mcfg (xS c) (xUnb c)) In n i count (e_sym s)) with (scalar_step c In n i count (e_sym s)).
  destruct (scalar_step c In n i count (e_sym s)) as [[i' c']|[i' c']]; [reflexivity|now apply conv_second].
Qed.

Definition x_lits (c : xcfg) (copy : Z) : list Z :=
  term_count c ++ (if xP7 c then le32 (Z.lor ((copy + 1) * 2) 1) else 0 :: le32 (copy + 1)).

Lemma conv_body c v In n : xS c <> 16 ->
  match loop (enc_step c v In n) (mkE 0 0 (init_sym c In) 0 (repeat 0 (Z.to_nat (xS c))) [] false) with
  | Some (Some s) => Some (finish c In s)
  | _ => None
  end = mb_body (x_proc c) (term_count c ++ term_range c) (x_lits c) (xS c) (xUnb c) v In n (repeat 0 (Z.to_nat (xS c))).
Proof.
  intros H. set (s0 := mkE 0 0 (init_sym c In) 0 (repeat 0 (Z.to_nat (xS c))) [] false).
  unfold mb_body. replace (mkM 0 0 (not_first (xS c) In) 0 (repeat 0 (Z.to_nat (xS c))) [] false) with (conv s0).
  2:{ unfold s0, conv, init_sym, not_first. cbn [e_i e_count e_sym e_last e_lsym e_out e_goto]. replace (xS c =? 16) with false by lia. reflexivity. }
  unfold loop. rewrite (iter_map conv (option_map conv) _ _ (fun s => conv_step c v In n s H)).
  destruct (iter 64 (enc_step c v In n) s0) as [s|[s|]]; [reflexivity| |reflexivity]. cbn [option_map].
  unfold finish, finishM, x_proc, x_lits, conv. cbn [m_i m_count m_sym m_last m_aux m_out]. rewrite (packet_fields c In s [] false).
  destruct (packet _ _ _); [reflexivity|]. cbv zeta. now rewrite <- !app_assoc.
Qed.

Lemma packet_none c In i sym last lsym : cok c -> packet c In (mkE i 0 sym last lsym [] false) = None.
Proof.
  intros Hc. pose proof (okS_pos _ (proj1 Hc)) as HS. unfold packet, accept_short, xSHORT, xMEDIUM, xLONG, xFULL. cbn [e_i e_count e_last e_sym e_lsym].
  assert (E1 : (if xPack c then 3 else xS c + 1 + 1 + 2) <=? 0 = false) by (destruct (xPack c); lia). rewrite E1.
  replace (xS c + 1 + 1 + 1 <=? 0) with false by lia.
  replace (xS c + 1 + 4 + (if xP7 c then 5 else 4) + (if xPack c then 1 else 2) <=? 0) with false by (destruct (xP7 c), (xPack c); lia).
  destruct (xPack c); cbn [andb orb]; now rewrite andb_false_r.
Qed.

Lemma ext_same c v1 v2 inNull outNull In n cap : List.In c xcodecs -> 0 <= n < 2 ^ 62 ->
  xcompress c v1 inNull outNull In n cap = xcompress c v2 inNull outNull In n cap.
Proof.
  intros Hc Hn. unfold xcompress. destruct (inNull || (n =? 0) || outNull || (cap <? rle_compress_bounds n)) eqn:G; [reflexivity|].
  assert (Hn0 : n <> 0). { intros ->. cbn in G. rewrite orb_true_r in G. discriminate. }
  apply xcodecs_cok in Hc. destruct (Z.eq_dec (xS c) 16) as [E|E].
  - assert (K : forall s, enc_step c v1 In n s = enc_step c v2 In n s).
    { intros s. unfold enc_step, enc_second. rewrite E. reflexivity. }
    cbv zeta. unfold loop. rewrite (proj1 (iter_ext_inv _ _ (fun _ => True) (fun s _ => K s) (fun _ _ _ _ => I) 64%nat _ I)). reflexivity.
  - assert (K : forall v, match loop (enc_step c v In n) (mkE 0 0 (init_sym c In) 0 (repeat 0 (Z.to_nat (xS c))) [] false) with
      | Some (Some s) => Some (finish c In s) | _ => None end =
      mb_body (x_proc c) (term_count c ++ term_range c) (x_lits c) (xS c) (xUnb c) Base_ In n (repeat 0 (Z.to_nat (xS c)))).
    { intros v. rewrite conv_body by exact E. apply mb_same; [apply Hc|exact E|lia|]. intros i sym last a. unfold x_proc. now rewrite packet_none. }
    pose proof (K v1) as K1. rewrite <- (K v2) in K1. cbv zeta.
    destruct (loop (enc_step c v1 In n) _) as [[s1|]|]; destruct (loop (enc_step c v2 In n) _) as [[s2|]|]; try discriminate K1; try reflexivity.
    injection K1 as ->. reflexivity.
Qed.

(** *** The other families *)
Lemma ext_penalty_pos a b : 0 <= ext_penalty a b.
Proof. unfold ext_penalty. repeat match goal with |- context [if ?x then _ else _] => destruct x end; lia. Qed.

Lemma sl_none c In i count sym last a : 1 <= slS c -> count <= 1 -> sl_proc c In i count sym last a = None.
Proof.
  intros HS Hc. unfold sl_proc, slLONG, slSHORT. cbv zeta. replace (2 + 4 + 4 + slS c <=? count) with false by lia. cbn [orb].
  match goal with |- (if 3 + (?p + ?q + ?r) <=? count then _ else _) = None =>
    pose proof (ext_penalty_pos (slMAXR c) (i - last - count + 2)); pose proof (ext_penalty_pos slMAXC (sl_stored c count));
    assert (0 <= r) by (destruct (_ =? _); lia); replace (3 + (p + q + r) <=? count) with false by lia end. reflexivity.
Qed.

Lemma sl_same c v1 v2 inNull outNull In n cap : List.In c slcodecs -> 0 <= n < 2 ^ 62 ->
  sl_compress c v1 inNull outNull In n cap = sl_compress c v2 inNull outNull In n cap.
Proof.
  intros Hc Hn. unfold sl_compress. destruct (inNull || (n =? 0) || outNull || (cap <? rle_compress_bounds n)) eqn:G; [reflexivity|].
  assert (Hn0 : n <> 0). { intros ->. cbn in G. rewrite orb_true_r in G. discriminate. }
  assert (HS : 1 <= slS c /\ (slS c <> 1 -> okS (slS c) /\ slS c <> 16)).
  { clear - Hc. unfold slcodecs in Hc. cbn [flat_map app List.In] in Hc. unfold okS.
    repeat (destruct Hc as [<-|Hc]; [cbn [slS]; lia|]). destruct Hc. }
  assert (E : sl_body c v1 In n = sl_body c v2 In n); [|now rewrite E].
  unfold sl_body. destruct (slS c =? 1) eqn:E1.
  - cbv zeta. apply body8_same; [lia|destruct v1; lia|destruct v2; lia|]. intros. apply sl_none; lia.
  - destruct HS as [HS1 HS2]. specialize (HS2 ltac:(lia)) as [HS2 HS3].
    assert (K : forall v, mb_body (sl_proc c) (sl_term_none c) (sl_term_lits c) (slS c) (slUnb c) v In n (lut_init (slS c) (slSC c)) =
      mb_body (sl_proc c) (sl_term_none c) (sl_term_lits c) (slS c) (slUnb c) Base_ In n (lut_init (slS c) (slSC c))).
    { intros v. apply mb_same; [exact HS2|exact HS3|lia|]. intros. apply sl_none; lia. }
    now rewrite (K v1), (K v2).
Qed.

Lemma sh_none c In i count sym last a : 1 <= shS c -> count <= 1 -> sh_proc c In i count sym last a = None.
Proof.
  intros HS Hc. unfold sh_proc. cbv zeta.
  assert (L : 11 <= shLONG c) by (unfold shLONG; destruct (negb _); [lia|]; destruct (shOne c); lia).
  assert (H : 2 <= shSHORT c) by (unfold shSHORT; destruct (_ || _); lia).
  replace (shLONG c <=? count) with false by lia. cbn [orb].
  match goal with |- (if shSHORT c + sh_penalty c ?k ?st ?r <=? count then _ else _) = None =>
    assert (0 <= sh_penalty c k st r); [|replace (shSHORT c + sh_penalty c k st r <=? count) with false by lia; reflexivity] end.
  unfold sh_penalty. pose proof (ext_penalty_pos (shMAXR c) (i - last - count + 2)). pose proof (ext_penalty_pos shMAXC (sh_stored c count)).
  repeat match goal with |- context [if ?x then _ else _] => destruct x end; lia.
Qed.

Lemma sh_same c v1 v2 inNull outNull In n cap : List.In c shcodecs -> 0 <= n < 2 ^ 62 ->
  sh_compress c v1 inNull outNull In n cap = sh_compress c v2 inNull outNull In n cap.
Proof.
  intros Hc Hn. unfold sh_compress, sh_wrap. destruct (inNull || (n =? 0) || outNull || (cap <? rle_compress_bounds n)) eqn:G; [reflexivity|].
  assert (Hn0 : n <> 0). { intros ->. cbn in G. rewrite orb_true_r in G. discriminate. }
  assert (HS : 1 <= shS c /\ (shS c <> 1 -> okS (shS c) /\ shS c <> 16)).
  { clear - Hc. unfold shcodecs in Hc. cbn [flat_map app List.In] in Hc. unfold okS.
    repeat (destruct Hc as [<-|Hc]; [cbn [shS]; lia|]). destruct Hc. }
  assert (E : sh_body c v1 In n = sh_body c v2 In n); [|now rewrite E].
  unfold sh_body. destruct (shOne c); [reflexivity|]. destruct (shS c =? 1) eqn:E1.
  - cbv zeta. apply body8_same; [lia|destruct v1; lia|destruct v2; lia|]. intros. apply sh_none; lia.
  - destruct HS as [HS1 HS2]. specialize (HS2 ltac:(lia)) as [HS2 HS3].
    assert (K : forall v, mb_body (sh_proc c) (sh_term_none c) (sh_term_lits c) (shS c) (shUnb c) v In n (lut_init (shS c) (shSC c)) =
      mb_body (sh_proc c) (sh_term_none c) (sh_term_lits c) (shS c) (shUnb c) Base_ In n (lut_init (shS c) (shSC c))).
    { intros v. apply mb_same; [exact HS2|exact HS3|lia|]. intros. apply sh_none; lia. }
    now rewrite (K v1), (K v2).
Qed.

Lemma multi_same a1 a2 inNull outNull In n cap : 0 <= n < 2 ^ 62 ->
  m_compress false a1 inNull outNull In n cap = m_compress false a2 inNull outNull In n cap.
Proof.
  intros Hn. unfold m_compress. destruct (inNull || (n =? 0) || outNull || (cap <? rle_compress_bounds n)) eqn:G; [reflexivity|].
  assert (Hn0 : n <> 0). { intros ->. cbn in G. rewrite orb_true_r in G. discriminate. }
  change (m_procV false) with (m_procS false).
  rewrite (body8_same (m_procS false) (m_term_none false) (m_term_lits false) (if a1 then 32 else 16) (if a2 then 32 else 16) In n 0); [reflexivity|lia|destruct a1; lia|destruct a2; lia|].
  intros i count sym last a H. unfold m_procS, mSHORT. replace (6 <=? count) with false by lia. reflexivity.
Qed.

(** *** Machines *)
Lemma ext_same_machines m1 m2 c inNull outNull In n cap : List.In c xcodecs -> 0 <= n < 2 ^ 62 ->
  ext_compress m1 c inNull outNull In n cap = ext_compress m2 c inNull outNull In n cap.
Proof. apply ext_same. Qed.
Lemma symlut_same_machines m1 m2 c inNull outNull In n cap : List.In c slcodecs -> 0 <= n < 2 ^ 62 ->
  symlut_compress m1 c inNull outNull In n cap = symlut_compress m2 c inNull outNull In n cap.
Proof. apply sl_same. Qed.
Lemma short_same_machines m1 m2 c inNull outNull In n cap : List.In c shcodecs -> 0 <= n < 2 ^ 62 ->
  short_compress m1 c inNull outNull In n cap = short_compress m2 c inNull outNull In n cap.
Proof. apply sh_same. Qed.
Lemma multi_same_machines m1 m2 inNull outNull In n cap : 0 <= n < 2 ^ 62 ->
  multi_compress m1 false inNull outNull In n cap = multi_compress m2 false inNull outNull In n cap.
Proof. apply multi_same. Qed.

(** A run of five bytes between the ends of the two vector loops. *)
Definition late_run : mem := fun k => if (34 <=? k) && (k <? 39) then 200 else Z.max 0 (Z.min k 60).
Lemma packed_multi_differs m1 m2 : x86_64 m1 /\ os_complete m1 -> x86_64 m2 /\ os_complete m2 ->
  on m1 Rle8_comp = Some IAvx2 -> on m2 Rle8_comp = Some ISse2 ->
  exists m1 m2 In n cap b1 b2,
  x86_64 m1 /\ os_complete m1 /\ x86_64 m2 /\ os_complete m2 /\ (forall k, is_byte (In k)) /\ 0 <= n < 2 ^ 32 /\ rle_compress_bounds n <= cap /\
  multi_compress m1 true false false In n cap = COk b1 /\ multi_compress m2 true false false In n cap = COk b2 /\ length b1 <> length b2.
Proof.
  intros [A1 A2] [B1 B2] E1 E2. exists m1, m2, late_run, 60, 400.
  unfold multi_compress. rewrite E1, E2.
  do 2 eexists. split; [exact A1|]. split; [exact A2|]. split; [exact B1|]. split; [exact B2|].
  split. { intros k. unfold is_byte, late_run. destruct (_ && _); lia. }
  split; [lia|]. split; [vm_compute; discriminate|].
  split; [vm_compute; reflexivity|]. split; [vm_compute; reflexivity|]. vm_compute. discriminate.
Qed.
