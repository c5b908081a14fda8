(** Streams cut in the header, with memory behind them that makes up for the missing size. *)
From Verif Require Import Base Spec Spec2 Simd ExtModel ExtThm Rle8Model Rle8Thm LutModel SlModel SlThm ShModel ShThm LeModel LeThm RmThm MzModel MzThm ArchSpec ArchThm ArchLib TruncSpec.
From Verif Require HsModel HsThm.

(** [k] bytes of the stream of the bytes 0, 1, .. are left; [size] in the place of the compressed size, as far as it is missing. *)
Definition patched (k f size : Z) (out : list Z) : list Z :=
  let z := firstn (Z.to_nat f) out ++ le32 size ++ skipn (Z.to_nat (f + 4)) out in firstn (Z.to_nat k) out ++ skipn (Z.to_nat k) z.
(** The end of the stream lies in front, for rle8_sh, which reads from the end of the stream downwards. *)
Definition cut_mem (out l : list Z) : mem := fun y => if y <? 16 then nth (Z.to_nat (len out + y - 16)) out 0 else nth (Z.to_nat (y - 16)) l 0.
Definition accepts (comp : compressor) (dec : decompressor) (n k f size : Z) : bool :=
  match comp (fun j => j mod 256) n 1000 with
  | COk out => (k <? len out) && forallb (fun b => (0 <=? b) && (b <? 256)) (out ++ patched k f size out) &&
      match dec (cut_mem out (patched k f size out)) 16 k (fun _ => 0) 100 1000 with DRet r _ => r =? n | DDiverge => false end
  | _ => false
  end.

Lemma accepts_ok comp dec n k f size : 1 <= n <= max_in -> 0 < k -> accepts comp dec n k f size = true -> AcceptsCut comp dec k.
Proof.
  intros Hn Hk H. unfold accepts in H. destruct (comp (fun j => j mod 256) n 1000) as [ | out | ] eqn:E; [discriminate H| |discriminate H].
  apply andb_true_iff in H. destruct H as [H H3]. apply andb_true_iff in H. destruct H as [H1 H2].
  destruct (dec _ 16 k _ 100 1000) as [r M'|] eqn:ED; [|discriminate H3].
  exists (fun j => j mod 256), n, 1000, out, (cut_mem out (patched k f size out)), (fun _ => 0), M'.
  assert (Hlt : k < len out) by lia.
  split; [intros j; unfold is_byte; lia|]. split; [exact Hn|]. split; [exact E|]. split; [lia|]. split; [|split].
  - rewrite forallb_forall in H2. assert (HB : forall i l, (forall b, List.In b l -> List.In b (out ++ patched k f size out)) -> is_byte (nth i l 0)).
    { intros i l Hl. destruct (nth_in_or_default i l 0) as [Hi|Hi]; [specialize (H2 _ (Hl _ Hi)); unfold is_byte; lia|rewrite Hi; unfold is_byte; lia]. }
    intros y. unfold cut_mem. destruct (y <? 16); apply HB; intros b Hb; apply in_or_app; auto.
  - apply holds_intro. intros j Hj. unfold cut_mem. destruct (16 + j <? 16) eqn:Ej; [lia|]. replace (16 + j - 16) with j by lia. unfold patched. rewrite app_nth1; [reflexivity|]. unfold len in Hj. lia.
  - rewrite ED. f_equal. lia.
Qed.

Lemma all_accept (A : Type) (l : list A) (p : A -> bool) : forallb p l = true -> forall a, List.In a l -> p a = true.
Proof. intros H. now apply forallb_forall. Qed.

Lemma cut_ext c v d : List.In c xcodecs -> AcceptsCut (xcomp c v) (xdecompress c d) 4.
Proof.
  intros Hc. apply accepts_ok with (n := 1) (f := 4) (size := 4); [unfold max_in; lia|lia|]. revert c Hc. apply (all_accept _ _ (fun c => accepts (xcomp c v) (xdecompress c d) 1 4 4 4)).
  destruct v, d; vm_compute; reflexivity.
Qed.
Lemma cut_rle8 pk avx2 d : AcceptsCut (m_compress pk avx2 false false) (r8_decompress pk d) 4 /\ AcceptsCut (s_compress pk false false) (r8_decompress pk d) 4.
Proof.
  split; apply accepts_ok with (n := 1) (f := 4) (size := 4); (unfold max_in; lia) || (destruct pk, avx2, d; vm_compute; reflexivity).
Qed.
Lemma cut_sl c v l : List.In c slcodecs -> AcceptsCut (sl_compress c v false false) (sl_decompress c l) 4.
Proof.
  intros Hc. apply accepts_ok with (n := 1) (f := 4) (size := 4); [unfold max_in; lia|lia|]. revert c Hc. apply (all_accept _ _ (fun c => accepts (sl_compress c v false false) (sl_decompress c l) 1 4 4 4)).
  destruct v, l; vm_compute; reflexivity.
Qed.
Lemma cut_sh c comp l : sh_encoder c comp -> AcceptsCut (comp false false) (sh_decompress c l) 4.
Proof.
  intros [c' v Hc|c' Hc]; (apply accepts_ok with (n := 1) (f := 4) (size := 4); [unfold max_in; lia|lia|]);  revert c' Hc.
  - apply (all_accept _ _ (fun c => accepts (sh_compress c v false false) (sh_decompress c l) 1 4 4 4)). destruct v, l; vm_compute; reflexivity.
  - apply (all_accept _ _ (fun c => accepts (greedy_compress c false false) (sh_decompress c l) 1 4 4 4)). destruct l; vm_compute; reflexivity.
Qed.
Lemma cut_mz : AcceptsCut (mz_compress (fun _ => 0) (fun _ => 0) 100 false false) mz_decompress 4.
Proof. apply accepts_ok with (n := 1) (f := 4) (size := 4); [unfold max_in; lia|lia|]. vm_compute. reflexivity. Qed.
Lemma cut_hs : AcceptsCut (HsModel.sh_compress (fun _ => 0) 100 false false) HsModel.sh_decompress 4.
Proof. apply accepts_ok with (n := 1) (f := 4) (size := 0); [unfold max_in; lia|lia|]. vm_compute. reflexivity. Qed.
Lemma cut_le L max c : L = 255 \/ L = 32 -> AcceptsCut (le_compress L max false false) (le_decompress L c) 1.
Proof.
  intros HL. apply accepts_ok with (n := 108) (f := 0) (size := 1); [unfold max_in; lia|lia|]. destruct c as [[|] [|]], max, HL as [-> | ->]; vm_compute; reflexivity.
Qed.
Lemma cut_rm c : AcceptsCut (rm_compress 1 false false) (rm_decompress c) 1.
Proof. apply accepts_ok with (n := 106) (f := 0) (size := 1); [unfold max_in; lia|lia|]. destruct c as [[|] [|]]; vm_compute; reflexivity. Qed.

Lemma library_accepts_cut slack comp dec f need ok : library slack comp dec f need ok ->
  exists comp' need' ok', library slack comp' dec f need' ok' /\ AcceptsCut comp' dec (if f =? 0 then 1 else 4).
Proof.
  intros H. inversion H; subst.
  - eexists _, _, _. split; [exact H|]. now apply cut_ext.
  - eexists _, _, _. split; [exact H|]. now apply (cut_rle8 pk avx2 d).
  - eexists _, _, _. split; [exact H|]. now apply (cut_rle8 pk true d).
  - eexists _, _, _. split; [exact H|]. now apply cut_sl.
  - eexists _, _, _. split; [exact H|]. now apply cut_sh.
  - eexists _, _, _. split; [exact H|]. now apply cut_le.
  - eexists _, _, _. split; [exact H|]. now apply cut_le.
  - eexists _, _, _. split; [apply (L_rle8m 1); lia|]. apply cut_rm.
  - eexists _, _, _. split; [apply L_rle8_mmtf128|]. apply cut_mz.
  - eexists _, _, _. split; [apply L_rle8_sh|]. apply cut_hs.
Qed.
