(** Repetitions of 16 bytes are runs of blocks of 0. *)
From Verif Require Import Base Simd SimdProof Spec MtfModel MtfSpec MtfProof BitMtf MzModel MzThm CutSpec CutThm SaveSpec.

Lemma repeat_zero X i : 16 <= i -> X i = X (i - 16) -> cod 16 X i = 0.
Proof.
  intros Hi HX. unfold cod, lane_hist. replace (Z.to_nat (i / 16)) with (Z.to_nat (i / 16 - 1) + 1)%nat by lia.
  rewrite seq_app, map_app. cbn [seq map]. unfold mtf_table. rewrite fold_left_app. cbn [fold_left]. unfold to_front at 1.
  replace (i mod 16 + 16 * Z.of_nat (0 + Z.to_nat (i / 16 - 1))) with (i - 16) by lia. rewrite <- HX. cbn [rank]. now rewrite Z.eqb_refl.
Qed.

(** Stretches of blocks of 0, in order. *)
Fixpoint Zeros (E : mem) (from nb : Z) (zs : list (Z * Z)) : Prop :=
  match zs with
  | [] => True
  | (x, y) :: t => from <= x /\ x < y <= nb /\ (forall b, x <= b < y -> Same E b 0) /\ Zeros E y nb t
  end.
Fixpoint gain (zs : list (Z * Z)) : Z := match zs with [] => 0 | (x, y) :: t => 16 * (y - x) - 9 + gain t end.

Lemma zeros_weak E nb zs from from' : from' <= from -> Zeros E from nb zs -> Zeros E from' nb zs.
Proof. destruct zs as [|[x y] t]; cbn; [auto|]. intros H (A & B). split; [lia|exact B]. Qed.
(** Those in the run of a piece. *)
Lemma zeros_split E nb p : forall zs from, Zeros E from nb zs -> from <= p ->
  (forall x y, List.In (x, y) zs -> x < p -> y <= p) ->
  exists zs', Zeros E p nb zs' /\ gain zs <= gain zs' + 16 * (p - from) - (if Z_lt_dec (gain zs') (gain zs) then 9 else 16 * (p - from)).
Proof.
  induction zs as [|[x y] t IH]; intros from HZ Hp HY.
  - exists []. split; [exact I|]. cbn [gain]. destruct (Z_lt_dec 0 0); lia.
  - cbn [Zeros] in HZ. destruct HZ as (A1 & A2 & A3 & A4). destruct (Z_lt_ge_dec x p) as [D|D].
    + pose proof (HY x y ltac:(now left) D) as Hy. destruct (IH y A4 Hy) as (zs' & B1 & B2); [intros x' y' Hin; apply HY; now right|].
      exists zs'. split; [exact B1|]. cbn [gain]. destruct (Z_lt_dec (gain zs') (16 * (y - x) - 9 + gain t)), (Z_lt_dec (gain zs') (gain t)); lia.
    + exists ((x, y) :: t). split; [cbn [Zeros]; split; [lia|]; auto|]. destruct (Z_lt_dec _ _); lia.
Qed.

Lemma cut_gain E nb : forall l U a w c zs, 0 <= a -> Cut E U nb a l w c -> Zeros E a nb zs -> cutSize l w c + gain zs <= 16 * (nb - a) + 4.
Proof.
  assert (K : forall ok w c, Least ok w -> 0 <= c -> 1 <= copySize w c <= 16 * c + 4).
  { intros ok w c (Hw & _) Hc. unfold copySize. cbn in Hw. assert (2 <= w <= 8) by lia. assert (0 <= w * c <= 8 * c) by nia. destruct (c <? 32); lia. }
  induction l as [|[[w0 c0] r0] t IH]; intros U a w c zs Ha H HZ; cbn [Cut cutSize] in *.
  - destruct H as (A1 & A2 & A3 & A4). specialize (K _ _ _ A4 A1). destruct zs as [|[x y] zs]; [cbn [gain]; lia|].
    exfalso. cbn [Zeros] in HZ. destruct HZ as (B1 & B2 & B3 & _). apply (A3 x 0); [lia|apply B3; lia].
  - destruct H as (A1 & A2 & A3 & A4 & A5 & (v & A6 & A7) & A8). specialize (K _ _ _ A5 A1).
    (* all of them start behind the copy *)
    assert (HZ' : Zeros E (a + c0) nb zs).
    { destruct zs as [|[x y] zs]; [exact I|]. cbn [Zeros] in *. destruct HZ as (B1 & B2 & B3 & B4). split; [|auto].
      destruct (Z_lt_ge_dec x (a + c0)); [|lia]. exfalso. apply (A4 x 0); [lia|apply B3; lia]. }
    assert (HY : forall x y, List.In (x, y) zs -> x < a + c0 + r0 -> y <= a + c0 + r0).
    { assert (G : forall zs from, a + c0 <= from -> Zeros E from nb zs -> forall x y, List.In (x, y) zs -> a + c0 <= x /\ x < y <= nb /\ forall b, x <= b < y -> Same E b 0).
      { clear - A2. induction zs as [|[x0 y0] zs IH]; intros from Hf HZ x y [].
        - assert (x0 = x /\ y0 = y) as [-> ->] by (split; congruence). cbn [Zeros] in HZ. destruct HZ as (B1 & B2 & B3 & _). split; [lia|]. auto.
        - cbn [Zeros] in HZ. destruct HZ as (B1 & B2 & B3 & B4). apply (IH y0); [lia|exact B4|assumption]. }
      intros x y Hin Hx. destruct (G zs (a + c0) ltac:(lia) HZ' x y Hin) as (G1 & G2 & G3). destruct (Z_le_gt_dec y (a + c0 + r0)); [assumption|]. exfalso.
      assert (Hv : v = 0) by (apply (same_one E x); [apply A6; lia|apply G3; lia]). subst v. apply A7; [lia|]. apply G3. lia. }
    destruct (zeros_split E nb (a + c0 + r0) zs (a + c0) HZ' ltac:(lia) HY) as (zs' & B1 & B2). specialize (IH (fun _ => True) (a + c0 + r0) w c zs' ltac:(lia) A8 B1).
    destruct (Z_lt_dec (gain zs') (gain zs)), (r0 <? 128); lia.
Qed.

(** The blocks of 0 in repetitions. *)
Fixpoint blocks_of (rs : list (Z * Z)) : list (Z * Z) :=
  match rs with
  | [] => []
  | (a, b) :: t => if (a + 31) / 16 <? b / 16 then ((a + 31) / 16, b / 16) :: blocks_of t else blocks_of t
  end.
Lemma blocks_zeros X n : forall rs from, 0 <= from -> Repetitions 16 X from n rs -> Zeros (cod 16 X) (from / 16) (n / 16) (blocks_of rs) /\ saving 55 rs <= gain (blocks_of rs).
Proof.
  induction rs as [|[a b] t IH]; intros from Hf HR; cbn [blocks_of Zeros gain saving]; [split; [exact I|lia]|].
  cbn [Repetitions] in HR. destruct HR as (A1 & A2 & A3 & A4). destruct (IH b ltac:(lia) A4) as [I1 I2].
  destruct ((a + 31) / 16 <? b / 16) eqn:E.
  - cbn [Zeros gain]. split; [|lia]. split; [lia|]. split; [lia|]. split; [|exact I1]. intros k Hk i Hi. apply repeat_zero; [lia|]. rewrite <- (A3 (i - 16)) by lia. f_equal. lia.
  - split; [apply (zeros_weak _ _ _ (b / 16)); [lia|exact I1]|lia].
Qed.

Theorem mz_saves undef M pout : (forall j, 0 <= j < 16 -> is_byte (undef j)) -> Saves 16 55 (mz_compress undef M pout false false) (fun n => n + 13).
Proof.
  intros HU In n cap out rs HIn Hn HC HR. destruct (mz_size undef M pout In n cap out HIn Hn HU HC) as (l & w & c & H1 & H2). destruct (blocks_zeros In n rs 0 ltac:(lia) HR) as [Z1 Z2].
  change (0 / 16) with 0 in Z1. pose proof (cut_gain (cod 16 In) (n / 16) l _ 0 w c _ ltac:(lia) H1 Z1). lia.
Qed.
