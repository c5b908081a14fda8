(** Shared vocabulary: bytes, memories, little-endian fields, a loop combinator.
    Not a model of any particular function of /repo. *)
From Coq Require Export List ZArith Lia Bool.
From Coq Require Export ZifyBool ZifyNat.
Export ListNotations.
Open Scope Z_scope.

Ltac Zify.zify_post_hook ::= Z.div_mod_to_equations.

(** A memory maps every address to the byte stored there.  Buffers are regions
    of a memory; what lies outside of a buffer is unconstrained. *)
Definition mem := Z -> Z.

Definition is_byte (b : Z) : Prop := 0 <= b < 256.

Definition len {A} (l : list A) : Z := Z.of_nat (length l).

(** [n] consecutive bytes of [m] from address [a]. *)
Fixpoint slice_nat (m : mem) (a : Z) (n : nat) : list Z :=
  match n with
  | O => []
  | S n' => m a :: slice_nat m (a + 1) n'
  end.

Definition slice (m : mem) (a n : Z) : list Z := slice_nat m a (Z.to_nat n).

(** [m] holds the bytes [l] from address [a] on. *)
Fixpoint holds (m : mem) (a : Z) (l : list Z) : Prop :=
  match l with
  | [] => True
  | b :: l' => m a = b /\ holds m (a + 1) l'
  end.

(** Little-endian stores. *)
Definition le16 (v : Z) : list Z := [v mod 256; (v / 256) mod 256].
Definition le32 (v : Z) : list Z :=
  [v mod 256; (v / 256) mod 256; (v / 65536) mod 256; (v / 16777216) mod 256].

(** Little-endian loads. *)
Definition rd16 (m : mem) (a : Z) : Z := m a + 256 * m (a + 1).
Definition rd32 (m : mem) (a : Z) : Z :=
  m a + 256 * m (a + 1) + 65536 * m (a + 2) + 16777216 * m (a + 3).

(** Store a list of bytes. *)
Definition store (m : mem) (a : Z) (l : list Z) : mem :=
  fun x => if (a <=? x) && (x <? a + len l) then nth (Z.to_nat (x - a)) l 0 else m x.

(** 64-bit pointer arithmetic ([size_t] and pointers of x86-64). *)
Definition w64 (x : Z) : Z := x mod 2 ^ 64.
Definition w32 (x : Z) : Z := x mod 2 ^ 32.
Definition w8 (x : Z) : Z := x mod 256.

(** Loop combinator: iterate [step] until it returns [inr], at most 2^d times. *)
Fixpoint iter {S R : Type} (d : nat) (step : S -> S + R) (s : S) : S + R :=
  match d with
  | O => step s
  | Datatypes.S d' =>
      match iter d' step s with
      | inl s' => iter d' step s'
      | inr r => inr r
      end
  end.

(** [None] is "did not finish within 2^64 iterations": a distinct outcome that
    every theorem has to exclude. *)
Definition loop {S R : Type} (step : S -> S + R) (s : S) : option R :=
  match iter 64 step s with
  | inl _ => None
  | inr r => Some r
  end.

Lemma iter_inv {S R} (step : S -> S + R) (I : S -> Prop) (m : S -> Z) (Q : R -> Prop) :
  (forall s, I s -> match step s with
                    | inl s' => I s' /\ 0 <= m s' < m s
                    | inr r => Q r
                    end) ->
  forall d s, I s ->
    match iter d step s with
    | inl s' => I s' /\ 0 <= m s' <= m s - 2 ^ Z.of_nat d
    | inr r => Q r
    end.
Proof.
  intros Hstep d. induction d as [|d IH]; intros s Hs; cbn [iter].
  - specialize (Hstep s Hs). destruct (step s); [|exact Hstep].
    destruct Hstep as [Hi Hm]. split; [exact Hi|]. change (2 ^ Z.of_nat 0) with 1. lia.
  - pose proof (IH s Hs) as H1. destruct (iter d step s) as [s1|r1]; [|exact H1].
    destruct H1 as [I1 M1]. pose proof (IH s1 I1) as H2.
    destruct (iter d step s1) as [s2|r2]; [|exact H2].
    destruct H2 as [I2 M2]. split; [exact I2|].
    rewrite Nat2Z.inj_succ, Z.pow_succ_r by lia. lia.
Qed.

(** Total correctness of a loop: invariant plus a measure below 2^64. *)
(** Conversion should compare arguments of [loop] before it unfolds the fuel. *)
Global Strategy 1000 [loop iter].

Lemma loop_inv {S R} (step : S -> S + R) (I : S -> Prop) (m : S -> Z) (Q : R -> Prop) s :
  (forall s, I s -> match step s with
                    | inl s' => I s' /\ 0 <= m s' < m s
                    | inr r => Q r
                    end) ->
  I s -> m s < 2 ^ 64 ->
  exists r, loop step s = Some r /\ Q r.
Proof.
  intros Hstep Hs Hm. unfold loop.
  pose proof (iter_inv step I m Q Hstep 64%nat s Hs) as H.
  destruct (iter 64 step s) as [s'|r].
  - exfalso. destruct H as [_ H]. change (2 ^ Z.of_nat 64) with (2 ^ 64) in H. lia.
  - exists r. split; [reflexivity|exact H].
Qed.

(** ** Lists *)

Lemma len_nil {A} : len (@nil A) = 0.
Proof. reflexivity. Qed.
Lemma len_cons {A} (x : A) l : len (x :: l) = 1 + len l.
Proof. unfold len. cbn [length]. lia. Qed.
Lemma len_app {A} (a b : list A) : len (a ++ b) = len a + len b.
Proof. unfold len. rewrite app_length. lia. Qed.
Lemma len_nonneg {A} (l : list A) : 0 <= len l.
Proof. unfold len. lia. Qed.
Lemma len_le32 v : len (le32 v) = 4.
Proof. reflexivity. Qed.
Lemma len_le16 v : len (le16 v) = 2.
Proof. reflexivity. Qed.

Lemma length_slice_nat m n : forall a, length (slice_nat m a n) = n.
Proof. induction n as [|n IH]; intros a; cbn [slice_nat length]; [reflexivity|]. now rewrite IH. Qed.

Lemma len_slice m a n : 0 <= n -> len (slice m a n) = n.
Proof. intros H. unfold len, slice. rewrite length_slice_nat. lia. Qed.

Lemma len_slice_le m a n : len (slice m a n) = Z.max 0 n.
Proof. unfold len, slice. rewrite length_slice_nat. lia. Qed.

Lemma slice_nat_app m n1 : forall a n2,
  slice_nat m a (n1 + n2) = slice_nat m a n1 ++ slice_nat m (a + Z.of_nat n1) n2.
Proof.
  induction n1 as [|n1 IH]; intros a n2.
  - cbn [slice_nat Nat.add app]. f_equal. cbn. lia.
  - cbn [slice_nat Nat.add app]. f_equal. rewrite IH. f_equal. f_equal. lia.
Qed.

Lemma slice_app m a n1 n2 : 0 <= n1 -> 0 <= n2 ->
  slice m a (n1 + n2) = slice m a n1 ++ slice m (a + n1) n2.
Proof.
  intros H1 H2. unfold slice. rewrite Z2Nat.inj_add by lia. rewrite slice_nat_app.
  rewrite Z2Nat.id by lia. reflexivity.
Qed.

Lemma slice_split m a b c : a <= b -> b <= c ->
  slice m a (c - a) = slice m a (b - a) ++ slice m b (c - b).
Proof.
  intros H1 H2. replace (c - a) with ((b - a) + (c - b)) by lia.
  rewrite slice_app by lia. f_equal. f_equal. lia.
Qed.

Lemma slice_0 m a n : n <= 0 -> slice m a n = [].
Proof. intros H. unfold slice. replace (Z.to_nat n) with O by lia. reflexivity. Qed.

Lemma slice_cons m a n : 0 < n -> slice m a n = m a :: slice m (a + 1) (n - 1).
Proof.
  intros H. unfold slice. replace (Z.to_nat n) with (S (Z.to_nat (n - 1))) by lia. reflexivity.
Qed.

Lemma slice_1 m a : slice m a 1 = [m a].
Proof. reflexivity. Qed.

Lemma slice_snoc m a n : 0 <= n -> slice m a (n + 1) = slice m a n ++ [m (a + n)].
Proof. intros H. rewrite slice_app by lia. rewrite slice_1. reflexivity. Qed.

Lemma slice_nat_ext m m' n : forall a,
  (forall k, a <= k < a + Z.of_nat n -> m k = m' k) -> slice_nat m a n = slice_nat m' a n.
Proof.
  induction n as [|n IH]; intros a H; cbn [slice_nat]; [reflexivity|].
  rewrite H by lia. f_equal. apply IH. intros k Hk. apply H. lia.
Qed.

Lemma slice_ext m m' a n : (forall k, a <= k < a + n -> m k = m' k) -> slice m a n = slice m' a n.
Proof. intros H. unfold slice. apply slice_nat_ext. intros k Hk. apply H. lia. Qed.

Lemma nth_slice_nat m n : forall a k, (k < n)%nat -> nth k (slice_nat m a n) 0 = m (a + Z.of_nat k).
Proof.
  induction n as [|n IH]; intros a k Hk; [lia|]. destruct k as [|k]; cbn [slice_nat nth].
  - f_equal. lia.
  - rewrite IH by lia. f_equal. lia.
Qed.

Lemma nth_slice m a n k : 0 <= k < n -> nth (Z.to_nat k) (slice m a n) 0 = m (a + k).
Proof. intros H. unfold slice. rewrite nth_slice_nat by lia. f_equal. lia. Qed.

Lemma Forall_slice_nat (P : Z -> Prop) m n : (forall k, P (m k)) -> forall a, Forall P (slice_nat m a n).
Proof. intros H. induction n as [|n IH]; intros a; cbn [slice_nat]; constructor; auto. Qed.

Lemma Forall_slice (P : Z -> Prop) m a n : (forall k, P (m k)) -> Forall P (slice m a n).
Proof. intros H. unfold slice. now apply Forall_slice_nat. Qed.

(** ** [holds] *)

Lemma holds_app m l1 : forall a l2, holds m a (l1 ++ l2) <-> holds m a l1 /\ holds m (a + len l1) l2.
Proof.
  induction l1 as [|b l1 IH]; intros a l2; cbn [app holds].
  - rewrite len_nil, Z.add_0_r. tauto.
  - rewrite IH, len_cons. replace (a + 1 + len l1) with (a + (1 + len l1)) by lia. tauto.
Qed.

Lemma holds_nth m l : forall a k, holds m a l -> 0 <= k < len l -> m (a + k) = nth (Z.to_nat k) l 0.
Proof.
  induction l as [|b l IH]; intros a k H Hk.
  - unfold len in Hk. cbn [length] in Hk. lia.
  - rewrite len_cons in Hk. destruct H as [H1 H2]. destruct (Z.eq_dec k 0) as [->|Hne].
    + rewrite Z.add_0_r. exact H1.
    + replace (Z.to_nat k) with (S (Z.to_nat (k - 1))) by lia. cbn [nth].
      rewrite <- (IH (a + 1) (k - 1) H2) by lia. f_equal. lia.
Qed.

Lemma holds_intro m l : forall a,
  (forall k, 0 <= k < len l -> m (a + k) = nth (Z.to_nat k) l 0) -> holds m a l.
Proof.
  induction l as [|b l IH]; intros a H; cbn [holds]; [exact I|]. rewrite len_cons in H.
  pose proof (len_nonneg l). split.
  - specialize (H 0). rewrite Z.add_0_r in H. apply H. lia.
  - apply IH. intros k Hk. specialize (H (k + 1)).
    replace (Z.to_nat (k + 1)) with (S (Z.to_nat k)) in H by lia. cbn [nth] in H.
    rewrite <- H by lia. f_equal. lia.
Qed.

Lemma holds_slice m a n : holds m a (slice m a n).
Proof.
  apply holds_intro. intros k Hk. rewrite len_slice_le in Hk. rewrite nth_slice by lia. reflexivity.
Qed.

Lemma slice_of_holds m a l : holds m a l -> slice m a (len l) = l.
Proof.
  revert a. induction l as [|b l IH]; intros a H; [reflexivity|].
  pose proof (len_nonneg l). rewrite len_cons. destruct H as [H1 H2].
  rewrite slice_cons by lia. rewrite H1. f_equal. replace (1 + len l - 1) with (len l) by lia. auto.
Qed.

Lemma holds_ext m m' l : forall a,
  (forall k, a <= k < a + len l -> m' k = m k) -> holds m a l -> holds m' a l.
Proof.
  induction l as [|b l IH]; intros a H Hh; cbn [holds] in *; [exact I|].
  rewrite len_cons in H. pose proof (len_nonneg l). destruct Hh as [H1 H2]. split.
  - rewrite H by lia. exact H1.
  - apply IH; [|exact H2]. intros k Hk. apply H. lia.
Qed.

(** ** Little-endian fields *)

Lemma rd32_holds m a v l : 0 <= v < 2 ^ 32 -> holds m a (le32 v ++ l) -> rd32 m a = v.
Proof.
  intros Hv H. unfold le32 in H. cbn [app holds] in H. destruct H as (H0 & H1 & H2 & H3 & _).
  unfold rd32. rewrite H0, H1. replace (a + 2) with (a + 1 + 1) by lia. rewrite H2.
  replace (a + 3) with (a + 1 + 1 + 1) by lia. rewrite H3.
  change (2 ^ 32) with 4294967296 in Hv. lia.
Qed.

Lemma rd16_holds m a v l : 0 <= v < 65536 -> holds m a (le16 v ++ l) -> rd16 m a = v.
Proof.
  intros Hv H. unfold le16 in H. cbn [app holds] in H. destruct H as (H0 & H1 & _).
  unfold rd16. rewrite H0, H1. lia.
Qed.

Lemma rd32_range m a : (forall k, is_byte (m k)) -> 0 <= rd32 m a < 2 ^ 32.
Proof.
  intros H. unfold rd32. pose proof (H a) as A0. pose proof (H (a + 1)) as A1. pose proof (H (a + 2)) as A2.
  pose proof (H (a + 3)) as A3. unfold is_byte in *. change (2 ^ 32) with 4294967296. lia.
Qed.

Lemma w64_id x : 0 <= x < 2 ^ 64 -> w64 x = x.
Proof. intros H. unfold w64. apply Z.mod_small. exact H. Qed.
Lemma w8_id x : 0 <= x < 256 -> w8 x = x.
Proof. intros H. unfold w8. apply Z.mod_small. exact H. Qed.

Lemma Forall_le32 v : Forall is_byte (le32 v).
Proof. unfold le32, is_byte. repeat constructor; lia. Qed.
Lemma Forall_le16 v : Forall is_byte (le16 v).
Proof. unfold le16, is_byte. repeat constructor; lia. Qed.

(** ** Stores *)

Lemma store_in m a l x : a <= x < a + len l -> store m a l x = nth (Z.to_nat (x - a)) l 0.
Proof. intros H. unfold store. replace ((a <=? x) && (x <? a + len l)) with true by lia. reflexivity. Qed.
Lemma store_out m a l x : x < a \/ a + len l <= x -> store m a l x = m x.
Proof. intros H. unfold store. replace ((a <=? x) && (x <? a + len l)) with false by lia. reflexivity. Qed.

Lemma iter_ext_inv {S R} (f g : S -> S + R) (I : S -> Prop) :
  (forall s, I s -> f s = g s) -> (forall s s', I s -> f s = inl s' -> I s') ->
  forall d s, I s -> iter d f s = iter d g s /\ (forall s', iter d f s = inl s' -> I s').
Proof.
  intros Hfg Hpres d. induction d as [|d IH]; intros s Hs; cbn [iter].
  - rewrite <- (Hfg s Hs). split; [reflexivity|]. intros s' H. eapply Hpres; eauto.
  - destruct (IH s Hs) as [E1 P1]. rewrite <- E1. destruct (iter d f s) as [s1|r]; [|split; [reflexivity|discriminate]].
    specialize (P1 s1 eq_refl). apply IH. exact P1.
Qed.

Lemma loop_pres {S R} (f : S -> S + R) (I : S -> Prop) (Q : R -> Prop) s0 r :
  (forall s, I s -> match f s with inl s' => I s' | inr r => Q r end) -> I s0 -> loop f s0 = Some r -> Q r.
Proof.
  unfold loop. generalize 64%nat. intros d Hstep H0 H.
  assert (K : forall d s, I s -> match iter d f s with inl s' => I s' | inr r => Q r end).
  { clear -Hstep. induction d as [|d IH]; intros s Hs; cbn [iter]; [now apply Hstep|].
    specialize (IH s Hs) as IH1. destruct (iter d f s) as [s'|r]; [|exact IH1]. now apply IH. }
  specialize (K d s0 H0). destruct (iter d f s0) as [s'|r']; [discriminate|].
  injection H as <-. exact K.
Qed.
