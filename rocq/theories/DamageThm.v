(** Streams in which one byte has been changed. *)
From Verif Require Import Base Spec Spec2 Simd ExtModel ExtThm Rle8Model Rle8Thm LutModel SlModel SlThm ShModel ShThm LeModel LeSpec LeThm RmThm MzModel MzThm ArchSpec ArchThm ArchLib TruncBad DamageSpec SlProof.
From Verif Require HsModel HsThm.

Lemma len_changed out i b : 0 <= i < len out -> len (changed out i b) = len out.
Proof. intros H. unfold len, changed in *. rewrite app_length. cbn [length]. rewrite firstn_length, skipn_length. lia. Qed.
Lemma nth_changed out i b j : 0 <= i < len out -> 0 <= j ->
  nth (Z.to_nat j) (changed out i b) 0 = if j =? i then b else nth (Z.to_nat j) out 0.
Proof.
  intros H Hj. unfold len, changed in *. assert (HL : length (firstn (Z.to_nat i) out) = Z.to_nat i) by (rewrite firstn_length; lia).
  destruct (Z.eqb_spec j i) as [->|Hn].
  - rewrite app_nth2 by lia. rewrite HL. replace (Z.to_nat i - Z.to_nat i)%nat with 0%nat by lia. reflexivity.
  - destruct (Z.lt_ge_cases j i).
    + rewrite app_nth1 by lia. rewrite <- (firstn_skipn (Z.to_nat i) out) at 2. rewrite app_nth1 by lia. reflexivity.
    + rewrite app_nth2 by lia. rewrite HL. replace (Z.to_nat j - Z.to_nat i)%nat with (S (Z.to_nat j - Z.to_nat (i + 1)))%nat by lia. cbn [nth].
      rewrite <- (firstn_skipn (Z.to_nat (i + 1)) out) at 2. rewrite app_nth2; rewrite firstn_length; [|lia]. f_equal. lia.
Qed.

(** The sizes are read from bytes of the stream. *)
Lemma at_least_8 out v : (forall C p, holds C p out -> rd32 C (p + 4) = v) -> 8 <= len out.
Proof.
  intros H. destruct (Z.lt_ge_cases (len out) 8) as [Hl|]; [exfalso|assumption].
  pose (C := fun z y => if y =? 7 then z else nth (Z.to_nat y) out 0).
  assert (HC : forall z, holds (C z) 0 out) by (intros z; apply holds_intro; intros j Hj; unfold C; replace (0 + j =? 7) with false by lia; f_equal; lia).
  pose proof (H _ _ (HC 0)) as H0. pose proof (H _ _ (HC 1)) as H1. rewrite <- H0 in H1. unfold rd32, C in H1. cbn [Z.add Pos.add Pos.succ Z.eqb Pos.eqb] in H1. lia.
Qed.

(** One of the two sizes is greater than it was. *)
Lemma greater_size C pin out i b f n : f = 0 \/ f = 4 -> 8 <= len out -> 0 <= i < 8 -> nth (Z.to_nat i) out 0 < b -> holds C pin (changed out i b) ->
  (forall C' p, holds C' p out -> rd32 C' (p + f) = len out /\ rd32 C' (p + (4 - f)) = n) ->
  len out < rd32 C (pin + f) \/ n < rd32 C (pin + (4 - f)).
Proof.
  intros Hf Hl Hi Hb HC H. set (C' := fun y => nth (Z.to_nat (y - pin)) out 0).
  assert (HC' : holds C' pin out) by (apply holds_intro; intros j Hj; unfold C'; f_equal; lia).
  destruct (H C' pin HC') as [H1 H2].
  assert (HE : forall j, 0 <= j < 8 -> C (pin + j) = if j =? i then b else C' (pin + j)).
  { intros j Hj. rewrite (holds_nth _ _ _ j HC) by (rewrite len_changed; lia). rewrite nth_changed by lia. unfold C'. now replace (pin + j - pin) with j by lia. }
  assert (Hb' : C' (pin + i) < b) by (unfold C'; now replace (pin + i - pin) with i by lia).
  rewrite <- H1, <- H2. clear H1 H2. unfold rd32. rewrite <- !Z.add_assoc.
  destruct Hf as [-> | ->]; cbn -[Z.mul]; rewrite !Z.add_0_r || idtac.
  all: pose proof (HE 0 ltac:(lia)) as E0; rewrite Z.add_0_r in E0; rewrite (HE 1), (HE 2), (HE 3), (HE 4), (HE 5), (HE 6), (HE 7) by lia; rewrite E0.
  all: assert (HK : i = 0 \/ i = 1 \/ i = 2 \/ i = 3 \/ i = 4 \/ i = 5 \/ i = 6 \/ i = 7) by lia.
  all: repeat (destruct HK as [HK|HK]); subst i; cbn [Z.eqb Pos.eqb]; rewrite ?Z.add_0_r in *; lia.
Qed.

Lemma library_notices slack x : library_piece slack x -> NoticesGreaterSize x.
Proof.
  intros HL out i b C pin M pout E Hi Hb HC. pose proof (library_ok slack x HL) as (Hn & out' & E' & Hh & _). rewrite E in E'. injection E' as <-.
  destruct HL as (need & ok & HL & HIn & _ & _).
  assert (Hf : a_field x = 0 \/ a_field x = 4) by (inversion HL; lia).
  assert (H8 : 8 <= len out) by (destruct Hf as [Hf|Hf]; rewrite Hf in Hh; [apply (at_least_8 out (a_n x))|apply (at_least_8 out (len out))]; intros C' p HC'; apply (Hh C' p HC')).
  pose proof (greater_size C pin out i b (a_field x) (a_n x) Hf H8 Hi Hb HC Hh) as HR.
  destruct x as [comp dec f In n cap]; cbn [a_comp a_dec a_field a_In a_n a_cap] in *.
  inversion HL; subst; cbn -[rd32] in HR; rewrite ?Z.add_0_r in HR.
  - apply ext_decompress_args. lia.
  - apply r8_decompress_args. lia.
  - apply r8_decompress_args. lia.
  - apply sl_decompress_args. lia.
  - apply sh_decompress_args. lia.
  - apply le_dec_args. lia.
  - apply le_dec_args. lia.
  - apply rm_dec_args. lia.
  - apply mz_dec_args. lia.
  - apply HsThm.sh_dec_args. lia.
Qed.

(** *** A changed byte behind the header *)
Definition unnoticed (comp : compressor) (dec : decompressor) (n i : Z) : bool :=
  match comp (fun j => j mod 256) n 1000 with
  | COk out => (0 <=? len out - i) && (0 <? i) && forallb (fun b => (0 <=? b) && (b <? 256)) out &&
      match dec (cut_mem [] (changed out (len out - i) ((nth (Z.to_nat (len out - i)) out 0 + 1) mod 256))) 16 (len out) (fun _ => 0) 100 n with
      | DRet r M' => (r =? n) && negb (forallb (fun j => M' (100 + Z.of_nat j) =? Z.of_nat j mod 256) (seq 0 (Z.to_nat n)))
      | DDiverge => false end
  | _ => false
  end.

Lemma unnoticed_ok comp dec need (ok : mem -> Z -> Prop) n i : 1 <= n <= max_in -> need n <= 1000 -> ok (fun j => j mod 256) n ->
  unnoticed comp dec n i = true -> DamageUnnoticed comp dec need ok.
Proof.
  intros Hn Hneed Hok H. unfold unnoticed in H. destruct (comp (fun j => j mod 256) n 1000) as [ | out | ] eqn:E; [discriminate H| |discriminate H].
  apply andb_true_iff in H. destruct H as [H H3]. apply andb_true_iff in H. destruct H as [H1 H2].
  set (k := len out - i) in *. set (b := (nth (Z.to_nat k) out 0 + 1) mod 256) in *.
  destruct (dec _ 16 (len out) _ 100 n) as [r M'|] eqn:ED; [|discriminate H3]. apply andb_true_iff in H3. destruct H3 as [Hr HM].
  assert (Hb : is_byte b) by (unfold is_byte, b; lia). rewrite forallb_forall in H2.
  assert (HB : forall j, is_byte (nth j out 0)) by (intros j; destruct (nth_in_or_default j out 0) as [Hj|Hj]; [specialize (H2 _ Hj); unfold is_byte; lia|rewrite Hj; unfold is_byte; lia]).
  exists (fun j => j mod 256), n, 1000, out, k, b, (cut_mem [] (changed out k b)), (fun _ => 0), M'.
  split; [intros j; unfold is_byte; lia|]. split; [exact Hn|]. split; [exact Hok|]. split; [lia|]. split; [exact E|]. split; [lia|]. split; [exact Hb|].
  split; [pose proof (HB (Z.to_nat k)); unfold is_byte, b in *; lia|]. split; [|split; [|split]].
  - intros y. unfold cut_mem. destruct (y <? 16) eqn:Ey; [destruct (Z.to_nat (len [] + y - 16)); unfold is_byte; cbn; lia|].
    rewrite nth_changed by lia. destruct (y - 16 =? k); [exact Hb|apply HB].
  - apply holds_intro. intros j Hj. unfold cut_mem. destruct (16 + j <? 16) eqn:Ej; [lia|]. f_equal. lia.
  - rewrite ED. f_equal. lia.
  - intros HS. apply negb_true_iff in HM. assert (HT : forallb (fun j => M' (100 + Z.of_nat j) =? Z.of_nat j mod 256) (seq 0 (Z.to_nat n)) = true); [|congruence].
    apply forallb_forall. intros j Hj. apply in_seq in Hj. assert (Hjn : 0 <= Z.of_nat j < n) by lia.
    pose proof (nth_slice M' 100 n (Z.of_nat j) Hjn) as A. rewrite HS, nth_slice in A by exact Hjn. apply Z.eqb_eq. rewrite Z.add_0_l in A. congruence.
Qed.

Lemma dmg_ext c v d : List.In c xcodecs -> unnoticed (xcomp c v) (xdecompress c d) 3 1 = true.
Proof. revert c. apply (all_accept _ _ (fun c => unnoticed (xcomp c v) (xdecompress c d) 3 1)). destruct v, d; vm_compute; reflexivity. Qed.
Lemma dmg_rle8 pk avx2 d : unnoticed (m_compress pk avx2 false false) (r8_decompress pk d) 3 1 = true /\ unnoticed (s_compress pk false false) (r8_decompress pk d) 3 1 = true.
Proof. destruct pk, avx2, d; vm_compute; split; reflexivity. Qed.
Lemma dmg_sl c v l : List.In c slcodecs -> unnoticed (sl_compress c v false false) (sl_decompress c l) 3 1 = true.
Proof. revert c. apply (all_accept _ _ (fun c => unnoticed (sl_compress c v false false) (sl_decompress c l) 3 1)). destruct v, l; vm_compute; reflexivity. Qed.
Lemma dmg_sh c comp l : sh_encoder c comp -> unnoticed (comp false false) (sh_decompress c l) 3 1 = true.
Proof.
  intros [c' v Hc|c' Hc]; revert c' Hc.
  - apply (all_accept _ _ (fun c => unnoticed (sh_compress c v false false) (sh_decompress c l) 3 1)). destruct v, l; vm_compute; reflexivity.
  - apply (all_accept _ _ (fun c => unnoticed (greedy_compress c false false) (sh_decompress c l) 3 1)). destruct l; vm_compute; reflexivity.
Qed.
Lemma dmg_le L max c : L = 255 \/ L = 32 -> unnoticed (le_compress L max false false) (le_decompress L c) 3 1 = true.
Proof. intros HL. destruct c as [[|] [|]], max, HL as [-> | ->]; vm_compute; reflexivity. Qed.
Lemma dmg_rm c : unnoticed (rm_compress 1 false false) (rm_decompress c) 3 1 = true.
Proof. destruct c as [[|] [|]]; vm_compute; reflexivity. Qed.
Lemma dmg_mz : unnoticed (mz_compress (fun _ => 0) (fun _ => 0) 100 false false) mz_decompress 3 1 = true.
Proof. vm_compute. reflexivity. Qed.
Lemma dmg_hs : unnoticed (HsModel.sh_compress (fun _ => 0) 100 false false) HsModel.sh_decompress 3 8 = true.
Proof. vm_compute. reflexivity. Qed.

Lemma three_not_worth L : SomeNotWorth L (fun j => j mod 256) 3.
Proof. exists 200. split; [unfold is_byte; lia|]. intros [H _]. vm_compute in H. discriminate H. Qed.

Lemma library_unnoticed slack comp dec f need ok : library slack comp dec f need ok ->
  exists comp' need' ok', library slack comp' dec f need' ok' /\ DamageUnnoticed comp' dec need' ok'.
Proof.
  intros H. assert (H3 : 1 <= 3 <= max_in) by (unfold max_in; lia). inversion H; subst.
  - eexists _, _, _. split; [exact H|]. apply (unnoticed_ok _ _ _ _ 3 1 H3); [vm_compute; discriminate|exact I|now apply dmg_ext].
  - eexists _, _, _. split; [exact H|]. apply (unnoticed_ok _ _ _ _ 3 1 H3); [destruct pk; vm_compute; discriminate|exact I|now apply dmg_rle8].
  - eexists _, _, _. split; [exact H|]. apply (unnoticed_ok _ _ _ _ 3 1 H3); [destruct pk; vm_compute; discriminate|exact I|now apply (dmg_rle8 pk true d)].
  - eexists _, _, _. split; [exact H|]. apply (unnoticed_ok _ _ _ _ 3 1 H3); [unfold sl_space, sl_loss; destruct (_ =? _); [|destruct (_ <=? _)]; vm_compute; discriminate|exact I|now apply dmg_sl].
  - eexists _, _, _. split; [exact H|]. apply (unnoticed_ok _ _ _ _ 3 1 H3); [vm_compute; discriminate|exact I|now apply dmg_sh].
  - eexists _, _, _. split; [exact H|]. apply (unnoticed_ok _ _ _ _ 3 1 H3); [destruct H0 as [-> | ->]; vm_compute; discriminate|apply three_not_worth|now apply dmg_le].
  - eexists _, _, _. split; [exact H|]. apply (unnoticed_ok _ _ _ _ 3 1 H3); [vm_compute; discriminate|exact I|now apply dmg_le].
  - eexists _, _, _. split; [apply (L_rle8m 1); lia|]. apply (unnoticed_ok _ _ _ _ 3 1 H3); [vm_compute; discriminate|split; [lia|apply three_not_worth]|apply dmg_rm].
  - eexists _, _, _. split; [apply L_rle8_mmtf128|]. apply (unnoticed_ok _ _ _ _ 3 1 H3); [vm_compute; discriminate|exact I|apply dmg_mz].
  - eexists _, _, _. split; [apply L_rle8_sh|]. apply (unnoticed_ok _ _ _ _ 3 8 H3); [vm_compute; discriminate|exact I|apply dmg_hs].
Qed.
