(** Size, place and content of the output buffer. *)
From Verif Require Import Base Simd SimdProof Spec Codec ExtModel PktModel Rle8Model MbModel LutModel SlModel ShModel LeModel LeTable MtfModel MzModel MzThm CutStream HsModel HsThm CapSpec.

Lemma x_larger c v : LargerBuffer (xcompress c v false false).
Proof.
  intros In n cap cap' out _ _ Hc. unfold xcompress. cbn [orb]. rewrite !orb_false_r. destruct (n =? 0); [discriminate|]. cbn [orb].
  destruct (cap <? rle_compress_bounds n) eqn:E; [discriminate|]. replace (cap' <? rle_compress_bounds n) with false by lia. auto.
Qed.
Lemma sl_larger c v : LargerBuffer (sl_compress c v false false).
Proof.
  intros In n cap cap' out _ _ Hc. unfold sl_compress. cbn [orb]. rewrite !orb_false_r. destruct (n =? 0); [discriminate|]. cbn [orb].
  destruct (cap <? rle_compress_bounds n) eqn:E; [discriminate|]. replace (cap' <? rle_compress_bounds n) with false by lia. auto.
Qed.
Lemma wrap_larger body : LargerBuffer (sh_wrap body false false).
Proof.
  intros In n cap cap' out _ _ Hc. unfold sh_wrap. cbn [orb]. rewrite !orb_false_r. destruct (n =? 0); [discriminate|]. cbn [orb].
  destruct (cap <? rle_compress_bounds n) eqn:E; [discriminate|]. replace (cap' <? rle_compress_bounds n) with false by lia. auto.
Qed.
Lemma sh_larger c v : LargerBuffer (ShModel.sh_compress c v false false).
Proof. apply wrap_larger. Qed.
Lemma greedy_larger c : LargerBuffer (greedy_compress c false false).
Proof. apply wrap_larger. Qed.
Lemma m_larger pk avx2 : LargerBuffer (m_compress pk avx2 false false).
Proof.
  intros In n cap cap' out _ _ Hc. unfold m_compress. cbn [orb]. rewrite !orb_false_r. destruct (n =? 0); [discriminate|]. cbn [orb].
  destruct (cap <? rle_compress_bounds n) eqn:E; [discriminate|]. replace (cap' <? rle_compress_bounds n) with false by lia. auto.
Qed.
Lemma s_larger pk : LargerBuffer (s_compress pk false false).
Proof.
  intros In n cap cap' out _ _ Hc. unfold s_compress. cbn [orb]. rewrite !orb_false_r. destruct (n =? 0); [discriminate|]. cbn [orb].
  destruct (cap <? rle_compress_bounds n) eqn:E; [discriminate|]. replace (cap' <? rle_compress_bounds n) with false by lia. auto.
Qed.

Lemma le_larger L max : LargerBuffer (le_compress L max false false).
Proof.
  intros In n cap cap' out _ Hn Hc. unfold max_in in Hn. unfold le_compress. cbn [orb]. rewrite !orb_false_r. destruct (n =? 0) eqn:E0; [discriminate|]. cbn [orb]. cbv zeta.
  destruct (cap <? le_bounds n) eqn:E1; [discriminate|]. replace (cap' <? le_bounds n) with false by lia.
  pose proof (le_info_ok L max In n) as HI. generalize dependent (le_info L max In n). intros info HI.
  destruct (cap <? 32 + 256 + 1) eqn:E2; [discriminate|]. replace (cap' <? 32 + 256 + 1) with false by lia.
  pose proof (len_write_info info HI) as HL. destruct HI as (_ & HI & _). set (head := write_info info) in *.
  assert (Hb : le_bounds n = n + 297) by (unfold le_bounds, w32; rewrite Z.mod_small by lia; lia).
  unfold le_with_info. rewrite E0. cbn [orb]. unfold w32 at 1. unfold w32 at 2. rewrite !Z.mod_small by lia.
  replace (cap - (8 + len head) <? n) with false by lia. replace (cap' - (8 + len head) <? n) with false by lia. auto.
Qed.

(** rle8m: the sections without the look at the rest of the buffer. *)
Definition rm_free (info : leinfo) (In : mem) (subs sub : Z) (s : Z * Z * list Z * list Z) : (Z * Z * list Z * list Z) + cres * (Z * list Z * list Z) :=
  let '(i, index, offs, out) := s in
  if i <? subs - 1 then
    match loop (le_step 255 info (fun k => In (w32 (sub * i) + k)) sub) (0, []) with
    | None => inr (CDiverge, (index, offs, out))
    | Some body => inl (i + 1, index + len body, offs ++ le32 (w32 (index + len body)), out ++ body)
    end
  else inr (COk [], (index, offs, out)).
Lemma rm_free_iter info In subs sub cap d : forall s,
  match iter d (rm_step info In subs sub cap) s with
  | inl s' => iter d (rm_free info In subs sub) s = inl s'
  | inr (COk x, y) => iter d (rm_free info In subs sub) s = inr (COk x, y)
  | _ => True
  end.
Proof.
  induction d as [|d IH]; intros s; cbn [iter].
  - destruct s as [[[i index] offs] out]. unfold rm_step, rm_free. destruct (i <? subs - 1); [|reflexivity].
    unfold le_with_info. destruct (_ || _); [exact I|]. destruct (loop _ _); [reflexivity|exact I].
  - specialize (IH s) as K. destruct (iter d (rm_step info In subs sub cap) s) as [s'|[[|x|] y]]; try exact I; rewrite K; [apply IH|reflexivity].
Qed.
Lemma rm_free_loop info In subs sub cap s x y : loop (rm_step info In subs sub cap) s = Some (COk x, y) -> loop (rm_free info In subs sub) s = Some (COk x, y).
Proof.
  unfold loop. pose proof (rm_free_iter info In subs sub cap 64 s) as K. destruct (iter 64 (rm_step info In subs sub cap) s) as [s'|[[|x' |] y']]; try discriminate.
  intros H. assert (E : (COk x', y') = (COk x, y)) by congruence. rewrite K, E. reflexivity.
Qed.
Lemma rm_one subs : OneStream (rm_compress subs false false).
Proof.
  assert (K : forall In n cap out, rm_compress subs false false In n cap = COk out ->
    exists x index offs o body, loop (rm_free (le_info 255 false In n) In subs (n / subs)) (0, 12 + 4 * (subs - 1) + len (write_info (le_info 255 false In n)), [], []) = Some (COk x, (index, offs, o)) /\
      loop (le_step 255 (le_info 255 false In n) (fun k => In (w32 (n / subs * (subs - 1)) + k)) (w32 (n - w32 (n / subs * (subs - 1))))) (0, []) = Some body /\
      out = le32 (w32 (index + len body)) ++ le32 n ++ le32 subs ++ offs ++ write_info (le_info 255 false In n) ++ o ++ body).
  { intros In n cap out. unfold rm_compress. destruct (_ || _); [discriminate|]. cbv zeta. generalize (le_info 255 false In n). intros info. destruct (cap <? _); [discriminate|].
    set (s0 := (0, _, _, _)). destruct (loop (rm_step info In subs (n / subs) cap) s0) as [[[|x|] [[index offs] o]]|] eqn:EL; try discriminate. rewrite (rm_free_loop _ _ _ _ _ _ _ _ EL).
    unfold le_with_info. destruct (_ || _); [discriminate|]. destruct (loop (le_step _ _ _ _) _) as [body|] eqn:EB; [|discriminate]. intros H. exists x, index, offs, o, body. split; [reflexivity|]. split; [reflexivity|]. congruence. }
  intros In n cap cap' out out' _ _ H1 H2. destruct (K _ _ _ _ H1) as (x1 & i1 & f1 & o1 & b1 & A1 & B1 & ->). destruct (K _ _ _ _ H2) as (x2 & i2 & f2 & o2 & b2 & A2 & B2 & ->).
  rewrite A1 in A2. rewrite B1 in B2. assert (b1 = b2) as <- by congruence. assert (i1 = i2) as <- by congruence. assert (f1 = f2) as <- by congruence. assert (o1 = o2) as <- by congruence. reflexivity.
Qed.
(** With exactly the documented size the function writes behind the buffer; with one byte more it refuses. *)
Definition rm_pairs : mem := fun k => if k mod 3 =? 0 then 1 else 7.
Lemma rm_smaller : exists out, rm_compress 140 false false rm_pairs 420 (rm_bounds 140 420) = COk out /\ rm_bounds 140 420 + 26 = len out /\
  rm_compress 140 false false rm_pairs 420 (rm_bounds 140 420 + 1) = CRefused /\ rm_compress 140 false false rm_pairs 420 (rm_bounds 140 420 + 26) = COk out.
Proof. eexists. split; [vm_compute; reflexivity|]. split; [reflexivity|]. split; vm_compute; reflexivity. Qed.

Lemma mz_anywhere undef : (forall j, 0 <= j < 16 -> is_byte (undef j)) -> LargerBufferAnywhere (fun M pout => mz_compress undef M pout false false).
Proof.
  intros HU M pout M' pout' In n cap cap' out HIn Hn Hc H. 
  assert (HC : mz_bounds n <= cap).
  { destruct (Z_lt_ge_dec cap (mz_bounds n)) as [K|K]; [|lia]. rewrite (mz_guarded undef M pout) in H by tauto. discriminate. }
  destruct (mz_good undef M' pout' In n cap' HIn Hn ltac:(lia)) as (body & E & _). rewrite E. f_equal.
  exact (mz_memory undef M' pout' cap' M pout cap In n _ out HIn Hn HU E H).
Qed.
Lemma hs_anywhere M pout M' pout' In n cap cap' out : byte_mem In -> 1 <= n <= max_in -> sh_need n <= cap -> cap <= cap' -> HsModel.sh_compress M pout false false In n cap = COk out ->
  HsModel.sh_compress M' pout' false false In n cap' = COk out.
Proof. intros HIn Hn Hc Hc' H. rewrite <- H. symmetry. apply sh_memory; try assumption. lia. Qed.
Definition hs_bad : mem := fun k => nth (Z.to_nat k) sh_bad 0.
Lemma hs_not_one : exists out out', HsModel.sh_compress (fun _ => 0) 16 false false hs_bad 7 (sh_bounds 7) = COk out /\ HsModel.sh_compress (fun _ => 0) 16 false false hs_bad 7 (sh_need 7) = COk out' /\ out <> out'.
Proof. do 2 eexists. split; [vm_compute; reflexivity|]. split; [vm_compute; reflexivity|]. discriminate. Qed.
