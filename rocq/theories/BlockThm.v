(** Data of any size, cut into blocks. *)
From Verif Require Import Base Spec Spec2 Simd Codec ExtModel ExtThm Rle8Thm LutModel SlModel SlProof SlThm ShThm LeModel LeThm RmThm MzModel ArchSpec ArchThm ArchLib BlockSpec.
From Verif Require HsThm.

(** What suffices for a block suffices for a shorter one. *)
Lemma need_mono slack comp dec f need ok a b : library slack comp dec f need ok -> 1 <= a <= b -> b <= max_in -> need a <= need b.
Proof.
  intros H Hab Hb. inversion H; subst.
  - rewrite !bounds_193 by lia. lia.
  - unfold multi_space. destruct pk; [rewrite !bounds_193 by lia; lia|]. pose proof (Z.div_le_mono a b 261). lia.
  - unfold single_space. destruct pk; [|rewrite !bounds_193 by lia; lia]. pose proof (Z.div_le_mono a b 257). lia.
  - unfold sl_space, sl_loss. rewrite !bounds_193 by lia. pose proof (Z.div_le_mono a b 68). pose proof (Z.div_le_mono a b 65537). destruct (_ =? _); [|destruct (_ <=? _)]; lia.
  - unfold sh_space. rewrite !bounds_193 by lia. pose proof (Z.div_le_mono a b 65537). lia.
  - unfold le_size. pose proof (Z.div_le_mono a b L). lia.
  - unfold le_bounds, w32, max_in in *. rewrite !Z.mod_small by lia. lia.
  - unfold rm_space. lia.
  - lia.
  - unfold HsThm.sh_need. pose proof (Z.div_le_mono a b 128). lia.
Qed.

Lemma block_in N B i : 1 <= B -> 0 <= N -> (i < block_count N B)%nat -> Z.of_nat i * B < N.
Proof. intros HB HN Hi. unfold block_count in Hi. pose proof (Z.mul_div_le (N + B - 1) B ltac:(lia)) as H. set (q := (N + B - 1) / B) in *. assert (Hq : Z.of_nat i + 1 <= q) by lia. nia. Qed.

Lemma total_app xs ys : total (xs ++ ys) = total xs + total ys.
Proof. unfold total. induction xs as [|x xs IH]; cbn [app fold_right]; [reflexivity|]. rewrite IH. lia. Qed.

Lemma first_blocks comp dec f In N B cap k : 1 <= B -> 0 <= N -> (forall i, (i < k)%nat -> Z.of_nat i * B < N) ->
  total (map (block comp dec f In N B cap) (seq 0 k)) = Z.min (Z.of_nat k * B) N /\
  contents (map (block comp dec f In N B cap) (seq 0 k)) = slice In 0 (Z.min (Z.of_nat k * B) N).
Proof.
  intros HB HN. induction k as [|k IH]; intros Hk.
  - cbn. rewrite Z.min_l by lia. split; [reflexivity|]. now rewrite slice_0 by lia.
  - destruct IH as [IH1 IH2]; [intros i Hi; apply Hk; lia|]. pose proof (Hk k ltac:(lia)) as HkN.
    rewrite Z.min_l in IH1, IH2 by lia. rewrite seq_S, map_app, total_app, IH1. unfold contents in *. rewrite map_app, concat_app, IH2.
    cbn [plus map total fold_right concat block a_In a_n]. rewrite app_nil_r, slice_shift.
    replace (Z.min (Z.of_nat (S k) * B) N) with (Z.of_nat k * B + Z.min B (N - Z.of_nat k * B)) by lia. split; [lia|].
    rewrite slice_app by lia. now rewrite Z.add_0_l.
Qed.

Lemma blocks_all comp dec f In N B cap : 1 <= B -> 0 <= N ->
  total (blocks comp dec f In N B cap) = N /\ contents (blocks comp dec f In N B cap) = slice In 0 N.
Proof.
  intros HB HN. destruct (first_blocks comp dec f In N B cap (block_count N B) HB HN) as [H1 H2]; [intros i; now apply block_in|].
  assert (HE : Z.min (Z.of_nat (block_count N B) * B) N = N).
  { unfold block_count. assert (0 <= (N + B - 1) / B) by (apply Z.div_pos; lia). pose proof (Z.mul_succ_div_gt (N + B - 1) B ltac:(lia)). rewrite Z2Nat.id by lia. nia. }
  rewrite HE in H1, H2. split; assumption.
Qed.

Lemma decoders_blocks comp dec f In N B cap : decoders (blocks comp dec f In N B cap) = repeat (dec, f) (block_count N B).
Proof. unfold decoders, blocks. rewrite map_map. generalize 0%nat. induction (block_count N B) as [|k IH]; intros s; cbn; [reflexivity|]. now rewrite IH. Qed.

Lemma library_blocks slack comp dec f need ok In N B cap : library slack comp dec f need ok -> byte_mem In -> 0 <= N -> 1 <= B <= max_in -> need B <= cap < 2 ^ 32 ->
  (forall i, 0 <= i -> i * B < N -> ok (fun k => In (i * B + k)) (Z.min B (N - i * B))) ->
  BlocksRestored rle_decompress_additional_size comp dec f In N B cap.
Proof.
  intros HL HIn HN HB Hcap Hok. set (xs := blocks comp dec f In N B cap).
  assert (HF : Forall (fun x => exists s, library_piece s x) xs).
  { apply Forall_forall. intros x Hx. apply in_map_iff in Hx. destruct Hx as (i & <- & Hi). apply in_seq in Hi.
    pose proof (block_in N B i ltac:(lia) HN ltac:(lia)) as Hi'. exists slack, need, ok. cbn [block a_comp a_dec a_field a_In a_n a_cap].
    split; [exact HL|]. split; [intros k; apply HIn|]. split; [lia|]. split; [apply Hok; lia|].
    pose proof (need_mono slack comp dec f need ok (Z.min B (N - Z.of_nat i * B)) B HL ltac:(lia) ltac:(lia)). lia. }
  destruct (row_packs xs HF) as (bytes & Hb). exists bytes. split; [exact Hb|]. intros C pin pout outEnd M HP.
  destruct (blocks_all comp dec f In N B cap ltac:(lia) HN) as [H1 H2]. fold xs in H1, H2.
  destruct (row_in_order xs bytes C pin pout outEnd HF Hb) with (M := M) as (M' & D & S & O); [now rewrite H1|].
  rewrite H1 in S, O. rewrite H2 in S. unfold xs in D. rewrite decoders_blocks in D.
  exists M'. split; [exact D|]. split; [exact S|exact O].
Qed.

(** The headers lead to each piece of a row. *)
Lemma row_job s C : forall xs bytes pin q i x, Forall (PieceOk s) xs -> packed xs bytes -> holds C pin bytes -> nth_error xs i = Some x ->
  exists j out, nth_error (jobs (decoders xs) C pin q) i = Some j /\ a_comp x (a_In x) (a_n x) (a_cap x) = COk out /\ j_dec j = a_dec x /\
    j_size j = len out /\ holds C (j_in j) out /\ pin <= j_in j /\ j_in j + len out <= pin + len bytes.
Proof.
  intros xs. induction xs as [|y xs IH]; intros bytes pin q i x HF HP HC Hi; [destruct i; discriminate Hi|].
  inversion HF as [|? ? (_ & o & E & Hh & _) HF']; subst. inversion HP as [|? ? out rest E' HP']; subst. rewrite E in E'. injection E' as <-.
  apply holds_app in HC. destruct HC as [HC1 HC2]. destruct (Hh C pin HC1) as [S1 S2]. rewrite len_app. pose proof (len_nonneg o). pose proof (len_nonneg rest).
  destruct i as [|i]; cbn [nth_error decoders map jobs] in *.
  - injection Hi as <-. eexists _, o. split; [reflexivity|]. cbn [j_dec j_size j_in]. split; [exact E|]. split; [reflexivity|]. split; [exact S1|]. split; [exact HC1|]. lia.
  - fold (decoders xs). rewrite S1, S2. destruct (IH rest (pin + len o) (q + a_n y) i x HF' HP' HC2 Hi) as (j & o' & A1 & A2 & A3 & A4 & A5 & A6 & A7).
    exists j, o'. repeat (split; [assumption|]). lia.
Qed.

Lemma library_block slack comp dec f need ok In N B cap bytes i : library slack comp dec f need ok -> byte_mem In -> 0 <= N -> 1 <= B <= max_in -> need B <= cap < 2 ^ 32 ->
  (forall i, 0 <= i -> i * B < N -> ok (fun k => In (i * B + k)) (Z.min B (N - i * B))) ->
  packed (blocks comp dec f In N B cap) bytes -> 0 <= i -> i * B < N -> BlockRestored slack dec f In N B bytes i.
Proof.
  intros HL HIn HN HB Hcap Hok HP Hi HiN. unfold BlockRestored. set (size := Z.min B (N - i * B)). intros C pin any HC H1 H2.
  assert (HF : Forall (PieceOk slack) (blocks comp dec f In N B cap)).
  { apply Forall_forall. intros x Hx. apply library_ok. apply in_map_iff in Hx. destruct Hx as (k & <- & Hk). apply in_seq in Hk.
    pose proof (block_in N B k ltac:(lia) HN ltac:(lia)) as Hk'. exists need, ok. cbn [block a_comp a_dec a_field a_In a_n a_cap].
    split; [exact HL|]. split; [intros z; apply HIn|]. split; [lia|]. split; [apply Hok; lia|].
    pose proof (need_mono slack comp dec f need ok (Z.min B (N - Z.of_nat k * B)) B HL ltac:(lia) ltac:(lia)). lia. }
  assert (Hlt : (Z.to_nat i < block_count N B)%nat).
  { unfold block_count. pose proof (Z.mul_succ_div_gt (N + B - 1) B ltac:(lia)). set (q := (N + B - 1) / B) in *. assert (i < q) by nia. lia. }
  assert (Hn : nth_error (blocks comp dec f In N B cap) (Z.to_nat i) = Some (block comp dec f In N B cap (Z.to_nat i))).
  { unfold blocks. apply map_nth_error. rewrite (nth_error_nth' _ 0%nat) by (rewrite seq_length; lia). now rewrite seq_nth by lia. }
  destruct (row_job slack C _ bytes pin any _ _ HF HP HC Hn) as (j & out & A1 & A2 & _ & A4 & A5 & A6 & A7). rewrite decoders_blocks in A1.
  exists j. split; [exact A1|]. intros M pout outSize H3 H4 H5.
  rewrite Forall_forall in HF. destruct (HF _ (nth_error_In _ _ Hn)) as (_ & out' & E' & _ & HR).
  rewrite A2 in E'. injection E' as <-. cbn [block a_dec a_In a_n] in HR. rewrite Z2Nat.id in HR by lia. fold size in HR.
  rewrite A4. destruct (HR C (j_in j) (len out) M pout outSize A5 ltac:(lia) ltac:(lia) eq_refl H3 H4 H5) as (M' & D & S & O).
  rewrite slice_shift in S. exists M'. split; [exact D|]. split; [exact S|exact O].
Qed.
