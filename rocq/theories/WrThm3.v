(** Consequences: which bytes a compressor may change, and whether it stays in its buffer. *)
From Verif Require Import Base Simd Spec ExtModel PktModel Rle8Model MbModel LutModel SlModel ShModel WrModel WrSpec WrThm WrThm2.
From Verif Require Import ExtThm Rle8Thm SlThm ShThm Props_Ext Props_Rle8 Props_Sl Props_Sh Props_Big.

(** Guards shared by the compress functions. *)
Definition guarded (comp : nullable_compressor) : Prop := exists g : mem -> Z -> cres,
  forall inNull outNull In n cap, comp inNull outNull In n cap =
    if inNull || (n =? 0) || outNull || (cap <? rle_compress_bounds n) then CRefused else g In n.

Lemma x_gd c v : guarded (xcompress c v).
Proof. eexists. intros. unfold xcompress. reflexivity. Qed.
Lemma m_gd pk avx2 : guarded (m_compress pk avx2).
Proof. eexists (fun In n => _). intros. unfold m_compress. reflexivity. Qed.
Lemma s_gd pk : guarded (s_compress pk).
Proof. eexists (fun In n => _). intros. unfold s_compress. reflexivity. Qed.
Lemma sl_gd c v : guarded (sl_compress c v).
Proof. eexists (fun In n => _). intros. unfold sl_compress. reflexivity. Qed.
Lemma sh_gd c v : guarded (sh_compress c v).
Proof. eexists (fun In n => _). intros. unfold sh_compress, sh_wrap. reflexivity. Qed.
Lemma greedy_gd c : guarded (greedy_compress c).
Proof. eexists (fun In n => _). intros. unfold greedy_compress, sh_wrap. reflexivity. Qed.

Lemma guarded_ok comp inNull outNull In n cap out : guarded comp -> comp inNull outNull In n cap = COk out ->
  inNull = false /\ outNull = false /\ n <> 0 /\ rle_compress_bounds n <= cap /\
  comp false false In n cap = COk out /\ comp false false In n (rle_compress_bounds n) = COk out.
Proof.
  intros (g & Hg) H. rewrite Hg in H. destruct (_ || _) eqn:E in H; [discriminate|].
  destruct inNull; [discriminate|]. destruct outNull; [lia|]. repeat split; try lia; rewrite Hg.
  - replace (false || (n =? 0) || false || (cap <? rle_compress_bounds n)) with false by lia. exact H.
  - replace (false || (n =? 0) || false || (rle_compress_bounds n <? rle_compress_bounds n)) with false by lia. exact H.
Qed.

(** One call, seen from the caller. *)
Lemma writes_ret f comp extra inNull In n M p outSize r M' : Writes f comp extra -> guarded comp -> 0 <= n ->
  f inNull In n M p outSize = DRet r M' ->
  (r = 0 /\ M' = M) \/
  exists out, comp false false In n outSize = COk out /\ n <> 0 /\ rle_compress_bounds n <= outSize /\ r = w32 (len out) /\
    slice M' p (len out) = out /\ forall x, x < p \/ p + len out + extra <= x -> M' x = M x.
Proof.
  intros HW HG Hn H. specialize (HW inNull In n M p outSize Hn).
  destruct (comp inNull (p =? 0) In n outSize) as [|out|] eqn:E.
  - left. split; congruence.
  - right. exists out. destruct (guarded_ok _ _ _ _ _ _ _ HG E) as (_ & _ & G3 & G4 & G5 & _).
    destruct HW as (M1 & H1 & H2 & H3). rewrite H in H1. injection H1 as -> ->.
    split; [exact G5|]. split; [exact G3|]. split; [exact G4|]. split; [reflexivity|]. split; [exact H2|exact H3].
  - congruence.
Qed.

Lemma only_result f comp extra space : Writes f comp extra -> guarded comp -> 0 <= extra ->
  WithinBound (comp false false) space -> (forall n, n <= max_in -> space n < 2 ^ 32) ->
  (forall In n cap out, comp false false In n cap = COk out -> out <> []) ->
  WritesOnlyResult f extra.
Proof.
  intros HW HG He HB HS HNE inNull In n M p outSize r M' HIn Hn H x Hx.
  destruct (writes_ret _ _ _ _ _ _ _ _ _ _ _ HW HG (proj1 Hn) H) as [[-> ->]|(out & E & Hn0 & _ & -> & _ & H3)]; [reflexivity|].
  pose proof (HB In n outSize out HIn ltac:(lia) E) as HL. pose proof (HS n ltac:(lia)) as HL2. pose proof (len_nonneg out) as H0.
  assert (EW : w32 (len out) = len out) by (unfold w32; apply Z.mod_small; lia).
  rewrite EW in Hx. apply H3. destruct Hx as [Hx|Hx]; [left; exact Hx|]. right.
  destruct (len out =? 0) eqn:EZ; [|lia].
  exfalso. apply (HNE _ _ _ _ E). apply Z.eqb_eq in EZ. unfold len in EZ. destruct out; [reflexivity|cbn [length] in EZ; lia].
Qed.

(** [WithinBound] is about lists; here is what it means for memory. *)
Lemma inside_if f comp : Writes f comp 0 -> guarded comp -> WithinBound (comp false false) rle_compress_bounds -> WritesInside f.
Proof.
  intros HW HG HB inNull In n M p outSize r M' HIn Hn Hp H x Hx.
  destruct (writes_ret _ _ _ _ _ _ _ _ _ _ _ HW HG (proj1 Hn) H) as [[_ ->]|(out & E & Hn0 & Hc & _ & _ & H3)]; [reflexivity|].
  pose proof (HB In n outSize out HIn ltac:(lia) E) as HL. apply H3. lia.
Qed.

Lemma inside_only_if f comp extra : Writes f comp extra -> guarded comp -> WritesInside f ->
  WithinBound (comp false false) rle_compress_bounds.
Proof.
  intros HW HG HI In n cap out HIn Hn E.
  destruct (guarded_ok _ _ _ _ _ _ _ HG E) as (_ & _ & _ & _ & _ & E1).
  destruct (Z_le_gt_dec (len out) (rle_compress_bounds n)) as [|Hgt]; [assumption|exfalso].
  assert (Hb : 0 <= rle_compress_bounds n) by (unfold rle_compress_bounds; destruct (n >? 2 ^ 30); lia).
  set (last := nth (Z.to_nat (len out - 1)) out 0).
  specialize (HW false In n (fun _ => last + 1) 4096 (rle_compress_bounds n) ltac:(lia)).
  change (4096 =? 0) with false in HW. rewrite E1 in HW. destruct HW as (M' & H1 & H2 & _).
  pose proof (HI false In n (fun _ => last + 1) 4096 (rle_compress_bounds n) _ _ HIn ltac:(lia) ltac:(lia) H1 (4096 + (len out - 1)) ltac:(lia)) as K.
  cbv beta in K. rewrite <- (nth_slice M' 4096 (len out)) in K by lia. rewrite H2 in K. fold last in K. lia.
Qed.

Lemma inside_iff f comp : Writes f comp 0 -> guarded comp ->
  (WritesInside f <-> WithinBound (comp false false) rle_compress_bounds).
Proof. intros HW HG. split; [apply (inside_only_if f comp 0 HW HG)|apply inside_if; assumption]. Qed.

Lemma coded_nonempty (n : Z) (l : list Z) : le32 n ++ l <> [].
Proof. discriminate. Qed.

Lemma nonempty_x c v In n cap out : xcompress c v false false In n cap = COk out -> out <> [].
Proof.
  unfold xcompress. destruct (_ || _); [discriminate|]. destruct (loop _ _) as [[st|]|]; try discriminate.
  intros H. injection H as <-. apply coded_nonempty.
Qed.
Lemma nonempty_sl c v In n cap out : sl_compress c v false false In n cap = COk out -> out <> [].
Proof.
  unfold sl_compress. destruct (_ || _); [discriminate|]. destruct (sl_body c v In n); [|discriminate].
  intros H. injection H as <-. apply coded_nonempty.
Qed.
Lemma nonempty_wrap body In n cap out : sh_wrap body false false In n cap = COk out -> out <> [].
Proof.
  unfold sh_wrap. destruct (_ || _); [discriminate|]. destruct (body In n); [|discriminate].
  intros H. injection H as <-. apply coded_nonempty.
Qed.
Lemma nonempty_m pk avx2 In n cap out : m_compress pk avx2 false false In n cap = COk out -> out <> [].
Proof.
  unfold m_compress. destruct (_ || _); [discriminate|]. destruct (body8 _ _ _ _ _ _ _ _); [|discriminate].
  intros H. injection H as <-. apply coded_nonempty.
Qed.
Lemma nonempty_s pk In n cap out : s_compress pk false false In n cap = COk out -> out <> [].
Proof.
  unfold s_compress. destruct (_ || _); [discriminate|]. destruct (approx_symbol In n); [|discriminate].
  destruct (loop _ _) as [[s1|]|]; try discriminate. destruct (loop _ _) as [s2|]; [|discriminate].
  intros H. injection H as <-. apply coded_nonempty.
Qed.

Lemma bounds_le n : rle_compress_bounds n <= Z.max 0 (n + 193).
Proof. unfold rle_compress_bounds. destruct (n >? 2 ^ 30); lia. Qed.

Theorem x_only c v : List.In c xcodecs -> WritesOnlyResult (x_write c v) 0.
Proof.
  intros Hc. apply (only_result _ (xcompress c v) 0 rle_compress_bounds); [apply x_writes|apply x_gd|lia| | |apply nonempty_x].
  - exact (C22_ext_within_bounds c v Hc).
  - intros n Hn. pose proof (bounds_le n). unfold max_in in Hn. lia.
Qed.
Theorem sl_only c v : List.In c slcodecs -> WritesOnlyResult (sl_write c v) 0.
Proof.
  intros Hc. apply (only_result _ (sl_compress c v) 0 (sl_space c)); [now apply sl_writes|apply sl_gd|lia| | |apply nonempty_sl].
  - now apply sl_within_space.
  - intros n Hn. pose proof (bounds_le n). unfold max_in in Hn. unfold sl_space, SlProof.sl_loss.
    destruct (slS c =? 3); [|destruct (slS c <=? 4)]; lia.
Qed.
Theorem sh_only c v : List.In c shcodecs -> WritesOnlyResult (sh_write c v) (sh_extra c).
Proof.
  intros Hc. apply (only_result _ (sh_compress c v) (sh_extra c) sh_space); [now apply sh_writes|apply sh_gd|apply sh_extra_nonneg| | |].
  - exact (sh_within_space c _ (She_short c v Hc)).
  - intros n Hn. pose proof (bounds_le n). unfold max_in in Hn. unfold sh_space. lia.
  - intros In n cap out. apply nonempty_wrap.
Qed.
Theorem greedy_only c : List.In c greedy_codecs -> WritesOnlyResult (greedy_write c) 0.
Proof.
  intros Hc. apply (only_result _ (greedy_compress c) 0 sh_space); [now apply greedy_writes|apply greedy_gd|lia| | |].
  - exact (sh_within_space c _ (She_greedy c Hc)).
  - intros n Hn. pose proof (bounds_le n). unfold max_in in Hn. unfold sh_space. lia.
  - intros In n cap out. apply nonempty_wrap.
Qed.
Theorem m_only undef pk avx2 : WritesOnlyResult (m_write undef pk avx2) 0.
Proof.
  apply (only_result _ (m_compress pk avx2) 0 (multi_space pk)); [apply m_writes|apply m_gd|lia|apply multi_within_space| |apply nonempty_m].
  intros n Hn. pose proof (bounds_le n). unfold max_in in Hn. unfold multi_space. destruct pk; lia.
Qed.
Theorem s_only undef pk : WritesOnlyResult (s_write undef pk) 0.
Proof.
  apply (only_result _ (s_compress pk) 0 (single_space pk)); [apply s_writes|apply s_gd|lia|apply single_within_space| |apply nonempty_s].
  intros n Hn. pose proof (bounds_le n). unfold max_in in Hn. unfold single_space. destruct pk; lia.
Qed.

Theorem x_inside c v : List.In c xcodecs -> WritesInside (x_write c v).
Proof. intros Hc. apply (inside_iff _ _ (x_writes c v) (x_gd c v)). exact (C22_ext_within_bounds c v Hc). Qed.
Theorem sl_inside_iff c v : List.In c slcodecs -> (WritesInside (sl_write c v) <-> 6 <= slS c).
Proof.
  intros Hc. rewrite (inside_iff _ _ (sl_writes c v Hc) (sl_gd c v)). exact (C22_sl_bounds_exactly c v Hc).
Qed.
Theorem sh_inside_iff c v : List.In c shcodecs -> (WritesInside (sh_write c v) <-> shS c = 8 \/ shS c = 4 /\ shUnb c = false).
Proof.
  intros Hc. rewrite <- (C22_short_bounds_exactly c v Hc). split.
  - exact (inside_only_if _ _ _ (sh_writes c v Hc) (sh_gd c v)).
  - intros HB. assert (E : sh_extra c = 0).
    { apply (C22_short_bounds_exactly c v Hc) in HB. destruct (shcodecs_S c Hc) as (_ & H6 & _ & H0).
      destruct (sh_nosym c); [apply H6; [reflexivity|lia]|apply H0; reflexivity]. }
    pose proof (sh_writes c v Hc) as HW. rewrite E in HW. exact (inside_if _ _ HW (sh_gd c v) HB).
Qed.
Theorem greedy_not_inside c : List.In c greedy_codecs -> ~ WritesInside (greedy_write c).
Proof.
  intros Hc HI. pose proof (inside_only_if _ _ _ (greedy_writes c Hc) (greedy_gd c) HI) as HB.
  destruct (C22_greedy_bounds_refuted c Hc) as (In & n & HIn & Hn & out & E & HL).
  specialize (HB In n _ out HIn Hn E). lia.
Qed.
Theorem m_inside_iff undef pk avx2 : WritesInside (m_write undef pk avx2) <-> pk = true.
Proof.
  rewrite (inside_iff _ _ (m_writes undef pk avx2) (m_gd pk avx2)). destruct pk; split; try reflexivity; try discriminate.
  - intros _. apply C22_rle8_packed_multi_within_bounds.
  - intros HB. exfalso. destruct C23_rle8_multi_bounds_refuted as (In & n & HIn & Hn & H). destruct (H avx2) as (out & E & HL).
    specialize (HB In n _ out HIn Hn E). lia.
Qed.
Theorem s_inside_iff undef pk : WritesInside (s_write undef pk) <-> pk = false.
Proof.
  rewrite (inside_iff _ _ (s_writes undef pk) (s_gd pk)). destruct pk; split; try reflexivity; try discriminate.
  - intros HB. exfalso. destruct C23_rle8_packed_single_bounds_refuted as (In & n & HIn & Hn & out & E & HL).
    specialize (HB In n _ out HIn Hn E). lia.
  - intros _. apply C22_rle8_single_within_bounds.
Qed.

(** The byte behind the result. *)
Definition changes_behind (f : wcompressor) (In : mem) (n : Z) (M : mem) (p cap : Z) : bool :=
  match f false In n M p cap with DRet r M' => negb (r =? 0) && negb (M' (p + r) =? M (p + r)) | DDiverge => false end.

Theorem sh48_behind unb v : exists In n M p cap r M', byte_mem In /\ 1 <= n <= max_in /\
  sh_write (mkSh 6 unb 0 false) v false In n M p cap = DRet r M' /\ r <> 0 /\ M' (p + r) <> M (p + r).
Proof.
  assert (K : changes_behind (sh_write (mkSh 6 unb 0 false) v) (fun _ => 0) 1 (fun _ => 170) 4096 194 = true)
    by (destruct unb, v; vm_compute; reflexivity).
  unfold changes_behind in K.
  exists (fun _ => 0), 1, (fun _ => 170), 4096, 194.
  destruct (sh_write (mkSh 6 unb 0 false) v false (fun _ => 0) 1 (fun _ => 170) 4096 194) as [r M'|]; [|discriminate].
  exists r, M'. split; [intros x; unfold is_byte; lia|]. split; [unfold max_in; lia|]. split; [reflexivity|]. lia.
Qed.
