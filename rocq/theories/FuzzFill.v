(** fuzz_fill_buffer stays inside its buffer, and writes what the test says. *)
From Verif Require Import Base Spec FuzzModel FuzzSpec FuzzEnum.

(** [M'] differs from [M] inside of [p, p + n) only, and is a byte memory if [M] is. *)
Definition Writes (M M' : mem) (p n : Z) : Prop :=
  (forall x, x < p \/ p + n <= x -> M' x = M x) /\ (byte_mem M -> byte_mem M').

Lemma writes_refl M p n : Writes M M p n.
Proof. split; auto. Qed.

Lemma store_byte M a l : byte_mem M -> Forall is_byte l -> byte_mem (store M a l).
Proof.
  intros HM Hl x. unfold store. destruct ((a <=? x) && (x <? a + len l)) eqn:E; [|apply HM].
  rewrite Forall_forall in Hl. apply Hl, nth_In. unfold len in E. lia.
Qed.

Lemma writes_store M M' p n a l : Writes M M' p n -> p <= a -> a + len l <= p + n -> Forall is_byte l ->
  Writes M (store M' a l) p n.
Proof.
  intros [H1 H2] Ha Hb Hl. split.
  - intros x Hx. rewrite store_out by lia. now apply H1.
  - intros HM. apply store_byte; auto.
Qed.

Lemma writes_trans M M' M'' p n q m : Writes M M' p n -> Writes M' M'' q m -> forall a c, a <= p -> p + n <= a + c -> a <= q -> q + m <= a + c ->
  Writes M M'' a c.
Proof.
  intros [H1 H2] [H3 H4] a c A B C D. split; [|auto]. intros x Hx. rewrite H3 by lia. apply H1. lia.
Qed.

Lemma fill32_ok p l g M : 0 <= l < 2 ^ 32 ->
  exists j g' M', loop (fill32 p l) (0, g, M) = Some (j, g', M') /\ l - 4 < j /\ 0 <= j /\ (l < 4 -> j = 0) /\ (4 <= l -> j <= l) /\ Writes M M' p l.
Proof.
  intros Hl.
  set (I := fun s : Z * gen * mem => let '(j, g', M') := s in 0 <= j /\ (l < 4 -> j = 0) /\ (4 <= l -> j <= l) /\ Writes M M' p l).
  destruct (loop_inv (fill32 p l) I (fun '(j, _, _) => Z.max 0 (l + 4 - j)) (fun r => I r /\ let '(j, _, _) := r in l - 4 < j) (0, g, M))
    as ([[j g'] M'] & E & HI & Hj).
  - intros [[j g'] M'] (H0 & H1 & H2 & HW). unfold fill32. destruct (j <=? l - 4) eqn:Ej.
    + unfold read_predictable. destruct (rand_predictable (g_last g')) as [v l']. split; [|lia]. unfold I.
      split; [lia|]. split; [lia|]. split; [lia|]. apply writes_store; [exact HW|lia|rewrite len_le32; lia|apply Forall_le32].
    + split; [|lia]. unfold I. tauto.
  - unfold I. split; [lia|]. split; [lia|]. split; [lia|]. apply writes_refl.
  - lia.
  - exists j, g', M'. destruct HI as (H0 & H1 & H2 & HW). tauto.
Qed.

Lemma fill8_ok p l j0 g M M0 : 0 <= l < 2 ^ 32 -> 0 <= j0 -> Writes M0 M p l ->
  exists j g' M', loop (fill8 p l) (j0, g, M) = Some (j, g', M') /\ Writes M0 M' p l.
Proof.
  intros Hl Hj0 HW0.
  set (I := fun s : Z * gen * mem => let '(j, g', M') := s in 0 <= j /\ Writes M0 M' p l).
  destruct (loop_inv (fill8 p l) I (fun '(j, _, _) => Z.max 0 (l + 1 - j)) I (j0, g, M)) as ([[j g'] M'] & E & HI).
  - intros [[j g'] M'] (H0 & HW). unfold fill8. destruct (j <? l) eqn:Ej.
    + unfold read_predictable. destruct (rand_predictable (g_last g')) as [v l']. split; [|lia]. unfold I.
      split; [lia|]. apply writes_store; [exact HW|lia|unfold len; cbn [length]; lia|]. constructor; [|constructor]. unfold is_byte, w8. lia.
    + unfold I. tauto.
  - unfold I. tauto.
  - lia.
  - exists j, g', M'. destruct HI. tauto.
Qed.

(** The bytes of a repeated symbol. *)
Definition Repeats (M : mem) (p n : Z) (sy : list Z) : Prop :=
  forall k, 0 <= k < n -> M (p + k) = nth (Z.to_nat (k mod len sy)) sy 0.

Lemma fill_symbol_ok p l sy M : 0 <= l < 2 ^ 32 -> 1 <= len sy <= 16 -> Forall is_byte sy ->
  exists j M', loop (fill_symbol p l sy) (0, M) = Some (j, M') /\ 0 <= j <= l /\ l - j < len sy /\ j mod len sy = 0 /\
    Repeats M' p j sy /\ Writes M M' p l.
Proof.
  intros Hl Hs Hb.
  set (I := fun s : Z * mem => let '(j, M') := s in 0 <= j /\ j <= l /\ j mod len sy = 0 /\ Repeats M' p j sy /\ Writes M M' p l).
  destruct (loop_inv (fill_symbol p l sy) I (fun '(j, _) => Z.max 0 (l + len sy - j)) (fun r => I r /\ let '(j, _) := r in l - j < len sy) (0, M))
    as ([j M'] & E & HI & Hj).
  - intros [j M'] (H0 & H1 & Hm & Hr & HW). unfold fill_symbol. destruct (j <=? l - len sy) eqn:Ej.
    + split; [|lia]. unfold I. split; [lia|]. split; [lia|]. split.
      { clear - Hm Hs. rewrite <- (Z.mul_1_l (len sy)) at 1. rewrite Z.mod_add by lia. exact Hm. }
      split; [|apply writes_store; [exact HW|lia|lia|exact Hb]].
      intros k Hk. destruct (Z_lt_dec k j) as [L|G].
      * rewrite store_out by lia. apply Hr. lia.
      * rewrite store_in by lia. f_equal. f_equal. replace (p + k - (p + j)) with (k - j) by lia.
        replace k with ((k - j) + (j / len sy) * len sy) at 2.
        -- rewrite Z.mod_add by lia. symmetry. apply Z.mod_small. lia.
        -- pose proof (Z.div_mod j (len sy) ltac:(lia)) as Hd. rewrite Hm in Hd. clear - Hd. set (q := j / len sy) in *. clearbody q. nia.
    + split; [|lia]. unfold I. tauto.
  - unfold I. split; [lia|]. split; [lia|]. split; [apply Z.mod_0_l; lia|]. split; [intros k Hk; lia|apply writes_refl].
  - lia.
  - exists j, M'. destruct HI as (H0 & H1 & Hm & Hr & HW). tauto.
Qed.

(** Symbols are bytes. *)
Definition SymOk (f : fstate) : Prop := forall i j, is_byte (f_sym f i j).

Definition section_size (f : fstate) (s : sub) : Z :=
  if (s_type s =? 1) && f_bound f then s_len s * f_sl f else s_len s.

Definition symbol_of (f : fstate) (s : sub) : list Z :=
  map (fun j => f_sym f (s_sym s) (Z.of_nat j)) (seq 0 (Z.to_nat (f_sl f))).

Definition sub_fits (s : sub) : Prop := 1 <= s_len s <= 65560 /\ 0 <= s_sym s < 16.

Lemma len_symbol_of f s : 0 <= f_sl f -> len (symbol_of f s) = f_sl f.
Proof. intros H. unfold symbol_of, len. rewrite map_length, seq_length. lia. Qed.

Fixpoint total (f : fstate) (l : list sub) : Z :=
  match l with [] => 0 | s :: l' => section_size f s + total f l' end.

Lemma section_size_range f s : 1 <= f_sl f <= 16 -> sub_fits s -> 1 <= section_size f s <= 1048960.
Proof. intros Hsl [Hl _]. unfold section_size. destruct ((s_type s =? 1) && f_bound f); [|lia]. clear - Hsl Hl. nia. Qed.

Lemma total_range f l : 1 <= f_sl f <= 16 -> Forall sub_fits l -> len l <= total f l <= len l * 1048960.
Proof.
  intros Hsl H. induction H as [|s l Hs _ IH]; [unfold len; cbn; lia|]. rewrite len_cons. cbn [total].
  pose proof (section_size_range f s Hsl Hs). lia.
Qed.

(** The sections lie one behind the other; those of type 1 hold their symbol. *)
Fixpoint Sections (f : fstate) (M : mem) (p : Z) (l : list sub) : Prop :=
  match l with
  | [] => True
  | s :: l' => (s_type s = 1 -> Repeats M p (section_size f s) (symbol_of f s)) /\ Sections f M (p + section_size f s) l'
  end.

Section Fill.
Variables (R : oracle).
Hypothesis HR : forall k, byte_mem (R k).

Lemma fill128_ok p l g M : 0 <= l < 2 ^ 32 ->
  exists j g' M', loop (fill128 R p l) (0, g, M) = Some (j, g', M') /\ l - 16 < j /\ 0 <= j <= l /\ Writes M M' p l.
Proof.
  intros Hl.
  set (I := fun s : Z * gen * mem => let '(j, g', M') := s in 0 <= j /\ j <= Z.max 0 (l - 12) /\ Writes M M' p l).
  destruct (loop_inv (fill128 R p l) I (fun '(j, _, _) => Z.max 0 (l + 4 - j)) (fun r => I r /\ let '(j, _, _) := r in l - 16 < j) (0, g, M))
    as ([[j g'] M'] & E & HI & Hj).
  - intros [[j g'] M'] (H0 & H1 & HW). unfold fill128. destruct (j <=? l - 16) eqn:Ej.
    + unfold read_rand. split; [|lia]. unfold I. split; [lia|]. split; [lia|].
      apply writes_store; [exact HW|lia|rewrite len_slice by lia; lia|apply Forall_slice; apply HR].
    + split; [|lia]. unfold I. tauto.
  - unfold I. split; [lia|]. split; [lia|]. apply writes_refl.
  - lia.
  - exists j, g', M'. destruct HI as (H0 & H1 & HW). split; [exact E|]. split; [lia|]. split; [lia|exact HW].
Qed.

Lemma fill_section_ok f s p g M : SymOk f -> 1 <= f_sl f <= 16 -> sub_fits s ->
  exists g' M', fill_section R f s p g M = Some (p + section_size f s, g', M') /\
    Writes M M' p (section_size f s) /\
    (s_type s = 1 -> Repeats M' p (section_size f s) (symbol_of f s)).
Proof.
  intros Hsy Hsl [Hlen Hsym]. unfold fill_section, section_size. destruct (s_type s =? 1) eqn:Et; cbn [andb].
  - replace ((s_sym s <? 0) || (symbol_count <=? s_sym s) || (max_symbol_length <? f_sl f)) with false
      by (unfold symbol_count, max_symbol_length; lia).
    fold (symbol_of f s). set (l := if f_bound f then s_len s * f_sl f else s_len s).
    assert (Hl : 1 <= l < 2 ^ 32) by (unfold l; destruct (f_bound f); [|lia]; clear - Hlen Hsl; nia).
    assert (Hb : Forall is_byte (symbol_of f s)).
    { apply Forall_map, Forall_forall. intros j _. apply Hsy. }
    pose proof (len_symbol_of f s ltac:(lia)) as Hls.
    destruct (fill_symbol_ok p l (symbol_of f s) M) as (j & M' & -> & Hj & Hj2 & Hm & Hr & HW); [lia|lia|exact Hb|].
    destruct (j <? l) eqn:Ej.
    + eexists g, _. split; [reflexivity|].
      assert (Hlf : len (firstn (Z.to_nat (l - j)) (symbol_of f s)) = l - j).
      { unfold len in *. rewrite firstn_length. lia. }
      split; [apply writes_store; [exact HW|lia|lia|]|].
      * clear - Hb. set (k := Z.to_nat (l - j)). clearbody k. revert k.
        induction Hb as [|x r Hx Hr IH]; intros [|k]; cbn [firstn]; constructor; auto.
      * intros _ k Hk. destruct (Z_lt_dec k j) as [L|G].
        -- rewrite store_out by lia. apply Hr. lia.
        -- rewrite store_in by lia. replace (p + k - (p + j)) with (k - j) by lia.
           assert (Hnf : forall (u v : nat) (r : list Z), (u < v)%nat -> nth u (firstn v r) 0 = nth u r 0).
           { clear. induction u as [|u IH]; intros [|v] [|x r] Hu; cbn [firstn nth]; try lia; try reflexivity.
             apply IH. lia. }
           rewrite Hnf by lia. f_equal. f_equal.
           replace k with ((k - j) + (j / len (symbol_of f s)) * len (symbol_of f s)) at 2.
           ++ rewrite Z.mod_add by lia. symmetry. apply Z.mod_small. lia.
           ++ pose proof (Z.div_mod j (len (symbol_of f s)) ltac:(lia)) as Hd. rewrite Hm in Hd. clear - Hd.
              set (q := j / _) in *. clearbody q. nia.
    + assert (j = l) by lia. subst j. eexists g, _. split; [reflexivity|]. split; [exact HW|]. intros _. exact Hr.
  - destruct (f_iter f).
    + destruct (fill32_ok p (s_len s) g M) as (j & g1 & M1 & -> & Hj & Hj0 & _ & _ & HW); [lia|].
      destruct (fill8_ok p (s_len s) j g1 M1 M) as (j2 & g2 & M2 & -> & HW2); [lia|lia|exact HW|].
      exists g2, M2. split; [reflexivity|]. split; [exact HW2|]. intros K. lia.
    + destruct (fill128_ok p (s_len s) g M) as (j & g1 & M1 & -> & Hj & Hj0 & HW); [lia|].
      unfold read_rand. eexists _, _. split; [reflexivity|]. split.
      * apply writes_store; [exact HW|lia|rewrite len_slice by lia; lia|apply Forall_slice; apply HR].
      * intros K. lia.
Qed.

Lemma fill_sections_ok f l : SymOk f -> 1 <= f_sl f <= 16 -> Forall sub_fits l -> forall p g M,
  exists g' M', fill_sections R f l p g M = Some (p + total f l, g', M') /\ Writes M M' p (total f l) /\ Sections f M' p l.
Proof.
  intros Hsy Hsl H. induction H as [|s l Hs Hl IH]; intros p g M; cbn [fill_sections total Sections].
  - exists g, M. rewrite Z.add_0_r. split; [reflexivity|]. split; [apply writes_refl|exact I].
  - destruct (fill_section_ok f s p g M Hsy Hsl Hs) as (g1 & M1 & -> & HW1 & HR1).
    destruct (IH (p + section_size f s) g1 M1) as (g2 & M2 & -> & HW2 & HS2).
    pose proof (section_size_range f s Hsl Hs) as Hsz. pose proof (total_range f l Hsl Hl) as Htr. pose proof (len_nonneg l).
    exists g2, M2. split; [f_equal; f_equal; f_equal; lia|]. split.
    + apply (writes_trans _ _ _ _ _ _ _ HW1 HW2); lia.
    + split; [|exact HS2]. intros K k Hk. destruct HW2 as [HW2 _]. rewrite HW2 by lia. now apply HR1.
Qed.

End Fill.
