(** The size of the streams of rle8_mmtf128_compress. *)
From Verif Require Import Base Simd SimdProof Spec MtfModel MtfSpec MtfProof BitMtf MzModel MzBits MzPack MzDec MzEnc MzThm CutSpec.

(** ** There is one way to cut *)
Lemma least_one ok w v : Least ok w -> Least ok v -> w = v.
Proof. intros (A1 & A2 & A3) (B1 & B2 & B3). pose proof (A3 v B1 B2). pose proof (B3 w A1 A2). lia. Qed.
Lemma least_iff (ok ok' : Z -> Prop) w : (forall v, ok v <-> ok' v) -> Least ok w -> Least ok' w.
Proof. intros H (A1 & A2 & A3). split; [exact A1|]. split; [now apply H|]. intros v Hv Hk. apply A3; [exact Hv|now apply H]. Qed.

Lemma same_one E b v u : Same E b v -> Same E b u -> v = u.
Proof. intros H1 H2. rewrite <- (H1 (16 * b)), <- (H2 (16 * b)) by lia. reflexivity. Qed.

Theorem cut_one E nb : forall l U a w c l2 w2 c2, Cut E U nb a l w c -> Cut E U nb a l2 w2 c2 -> l = l2 /\ w = w2 /\ c = c2.
Proof.
  induction l as [|[[w0 c0] r0] t IH]; intros U a w c [|[[w3 c3] r3] t3] w2 c2 H1 H2; cbn [Cut] in H1, H2.
  - destruct H1 as (_ & H1 & _ & L1). destruct H2 as (_ & H2 & _ & L2). assert (c = c2) as -> by lia. split; [reflexivity|]. split; [exact (least_one _ _ _ L1 L2)|reflexivity].
  - exfalso. destruct H1 as (P1 & E1 & N1 & _). destruct H2 as (P2 & P3 & P4 & _ & _ & (v & V & _) & _). apply (N1 (a + c3) v); [lia|apply V; lia].
  - exfalso. destruct H2 as (P1 & E1 & N1 & _). destruct H1 as (P2 & P3 & P4 & _ & _ & (v & V & _) & _). apply (N1 (a + c0) v); [lia|apply V; lia].
  - destruct H1 as (A1 & A2 & A3 & A4 & A5 & (v & A6 & A7) & A8). destruct H2 as (B1 & B2 & B3 & B4 & B5 & (u & B6 & B7) & B8).
    assert (c0 = c3) as ->.
    { destruct (Z.lt_trichotomy c0 c3) as [D|[D|D]]; [exfalso; apply (B4 (a + c0) v); [lia|apply A6; lia]|exact D|exfalso; apply (A4 (a + c3) u); [lia|apply B6; lia]]. }
    assert (v = u) as -> by (apply (same_one E (a + c3)); [apply A6|apply B6]; lia).
    assert (r0 = r3) as ->.
    { destruct (Z.lt_trichotomy r0 r3) as [D|[D|D]]; [exfalso; apply A7; [lia|apply B6; lia]|exact D|exfalso; apply B7; [lia|apply A6; lia]]. }
    assert (w0 = w3) as -> by exact (least_one _ _ _ A5 B5).
    destruct (IH _ _ _ _ _ _ _ A8 B8) as (-> & -> & ->). auto.
Qed.

(** ** Bits *)
Lemma mask_check2 : forallb (fun x => Bool.eqb (Z.land 240 x =? 0) (x <? 16) && Bool.eqb (Z.land 252 x =? 0) (x <? 4) && Bool.eqb (Z.land 248 x =? 0) (x <? 8)) (lanes 256) = true.
Proof. vm_compute. reflexivity. Qed.
Lemma mask_iff x : is_byte x -> (Z.land 240 x = 0 <-> x < 16) /\ (Z.land 252 x = 0 <-> x < 4) /\ (Z.land 248 x = 0 <-> x < 8).
Proof.
  intros Hx. pose proof (proj1 (forallb_forall _ _) mask_check2 x (proj2 (lanes_in 256 x) Hx)) as H. cbv beta in H. rewrite !Bool.andb_true_iff, !Bool.eqb_true_iff in H.
  destruct H as [[H1 H2] H3]. destruct (Z.ltb_spec x 16), (Z.ltb_spec x 4), (Z.ltb_spec x 8); lia.
Qed.
Lemma clear_iff m bits : clear_of m bits = true <-> forall j, 0 <= j < 16 -> Z.land m (bits j) = 0.
Proof.
  split; [apply clear_of_spec|]. intros H. unfold clear_of. apply forallb_forall. intros j Hj. apply lanes_in in Hj. rewrite H by exact Hj. reflexivity.
Qed.
Lemma pw_in m : List.In (pw m) [2; 3; 4; 8].
Proof. destruct m; cbn; tauto. Qed.

(** [P] holds of the bytes that were collected. *)
Definition Collected (bits : Z -> Z) (P : Z -> Prop) : Prop := forall m, clear_of m bits = true <-> forall x, P x -> Z.land m x = 0.
Lemma collected_least bits P : Collected bits P -> (forall x, P x -> is_byte x) -> Least (fun w => forall x, P x -> x < 2 ^ w) (pw (mode_of bits)).
Proof.
  intros HC HP. assert (K4 : clear_of 240 bits = true <-> forall x, P x -> x < 2 ^ 4).
  { rewrite (HC 240). split; intros H x Hx; specialize (H x Hx); destruct (mask_iff x (HP x Hx)) as (A & B & C); [apply A in H; lia|apply A; lia]. }
  assert (K2 : clear_of 252 bits = true <-> forall x, P x -> x < 2 ^ 2).
  { rewrite (HC 252). split; intros H x Hx; specialize (H x Hx); destruct (mask_iff x (HP x Hx)) as (A & B & C); [apply B in H; lia|apply B; lia]. }
  assert (K3 : clear_of 248 bits = true <-> forall x, P x -> x < 2 ^ 3).
  { rewrite (HC 248). split; intros H x Hx; specialize (H x Hx); destruct (mask_iff x (HP x Hx)) as (A & B & C); [apply C in H; lia|apply C; lia]. }
  assert (U : forall w w', 0 <= w <= w' -> (forall x, P x -> x < 2 ^ w) -> forall x, P x -> x < 2 ^ w').
  { intros w w' Hw H x Hx. specialize (H x Hx). pose proof (Z.pow_le_mono_r 2 w w' ltac:(lia) ltac:(lia)). lia. }
  split; [apply pw_in|]. unfold mode_of.
  destruct (clear_of 240 bits) eqn:E4; [pose proof (proj1 K4 eq_refl) as H4|].
  - destruct (clear_of 252 bits) eqn:E2; [pose proof (proj1 K2 eq_refl) as H2|].
    + cbn [pw]. split; [exact H2|]. intros v Hv _. cbn in Hv. lia.
    + destruct (clear_of 248 bits) eqn:E3; [pose proof (proj1 K3 eq_refl) as H3|].
      * cbn [pw]. split; [exact H3|]. intros v Hv Hk. cbn in Hv. assert (v <> 2); [|lia]. intros ->. apply K2 in Hk. discriminate.
      * cbn [pw]. split; [exact H4|]. intros v Hv Hk. cbn in Hv. assert (v <> 2 /\ v <> 3); [|lia]. split; intros ->; [apply K2 in Hk|apply K3 in Hk]; discriminate.
  - cbn [pw]. split; [intros x Hx; pose proof (HP x Hx) as Hb; unfold is_byte in Hb; lia|]. intros v Hv Hk. cbn in Hv.
    destruct Hv as [<-|[<-|[<-|[<-|[]]]]]; try lia; exfalso; [pose proof (proj2 K4 (U 2 4 ltac:(lia) Hk))|pose proof (proj2 K4 (U 3 4 ltac:(lia) Hk))|pose proof (proj2 K4 Hk)]; discriminate.
Qed.
Lemma collected_more bits out P : Collected bits P -> Collected (vec 16 (vor bits out)) (fun x => P x \/ exists j, 0 <= j < 16 /\ x = out j).
Proof.
  intros HC m. rewrite clear_iff. split.
  - intros H x Hx. assert (K1 : forall j, 0 <= j < 16 -> Z.land m (bits j) = 0 /\ Z.land m (out j) = 0).
    { intros j Hj. specialize (H j Hj). rewrite vec_at in H by exact Hj. unfold vor in H. rewrite Z.land_lor_distr_r in H. now apply Z.lor_eq_0_iff in H. }
    destruct Hx as [Hx|(j & Hj & ->)]; [|apply K1; exact Hj]. apply (proj1 (HC m)); [|exact Hx]. apply clear_iff. intros j Hj. apply K1. exact Hj.
  - intros H j Hj. rewrite vec_at by exact Hj. unfold vor. rewrite Z.land_lor_distr_r. apply Z.lor_eq_0_iff. split; [|apply H; right; exists j; auto].
    revert j Hj. apply clear_iff. apply (proj2 (HC m)). intros x Hx. apply H. now left.
Qed.
Lemma collected_one out : Collected out (fun x => exists j, 0 <= j < 16 /\ x = out j).
Proof. intros m. rewrite clear_iff. split; [intros H x (j & Hj & ->); auto|intros H j Hj; apply H; exists j; auto]. Qed.
Lemma collected_ext bits P Q : (forall x, P x <-> Q x) -> Collected bits P -> Collected bits Q.
Proof. intros H HC m. rewrite (HC m). split; intros K x Hx; apply K; now apply H. Qed.

Lemma blen_exact m c : 0 <= c -> blen m c = 2 * pw m * c.
Proof. intros Hc. unfold blen. destruct m; cbn [padv ptadv pg pw]; pose proof (Z.div_mod c 4 ltac:(lia)); pose proof (Z.div_mod c 6 ltac:(lia)); pose proof (Z.div_mod c 2 ltac:(lia)); try (rewrite Z.div_1_r, Z.mod_1_r); lia. Qed.
Lemma len_copy_exact m E x c : 0 <= c -> len (copy_bytes m E x c) = copySize (pw m) c.
Proof. intros Hc. unfold copy_bytes, copySize. rewrite len_app, len_hdr, len_body by exact Hc. rewrite blen_exact by exact Hc. reflexivity. Qed.
Lemma len_run_exact r s : len (run_bytes r s) = (if r <? 128 then 1 else 4) + 1.
Proof. unfold run_bytes. destruct (r <? 128); reflexivity. Qed.

(** ** The pieces so far *)
Fixpoint Pre (E : mem) (U : Z -> Prop) (nb a : Z) (l : list (Z * Z * Z)) (b : Z) : Prop :=
  match l with
  | [] => a = b
  | (w, c, r) :: t => 0 <= c /\ 1 <= r /\ a + c + r <= nb /\ (forall b v, a <= b < a + c -> ~ Same E b v) /\ Least (fun w => Covers E a c w /\ U w) w /\
      (exists v, (forall b, a + c <= b < a + c + r -> Same E b v) /\ (a + c + r < nb -> ~ Same E (a + c + r) v)) /\
      Pre E (fun _ => True) nb (a + c + r) t b
  end.
Definition rest (U : Z -> Prop) (l : list (Z * Z * Z)) : Z -> Prop := match l with [] => U | _ => fun _ => True end.
Fixpoint preSize (l : list (Z * Z * Z)) : Z :=
  match l with [] => 0 | (w, c, r) :: t => copySize w c + (if r <? 128 then 1 else 4) + 1 + preSize t end.

Lemma pre_cut E nb : forall l U a b t w c, Pre E U nb a l b -> Cut E (rest U l) nb b t w c -> Cut E U nb a (l ++ t) w c.
Proof.
  induction l as [|[[w0 c0] r0] l IH]; intros U a b t w c HP HC; cbn [Pre app rest Cut] in *; [now subst b|].
  destruct HP as (A1 & A2 & A3 & A4 & A5 & A6 & A7). do 6 (split; [assumption|]). apply (IH _ _ b); [exact A7|]. destruct l; exact HC.
Qed.
Lemma pre_snoc E nb : forall l U a b w c r, Pre E U nb a l b -> Pre E (rest U l) nb b [(w, c, r)] (b + c + r) -> Pre E U nb a (l ++ [(w, c, r)]) (b + c + r).
Proof.
  induction l as [|[[w0 c0] r0] l IH]; intros U a b w c r HP HC; cbn [Pre app rest] in *; [now subst b|].
  destruct HP as (A1 & A2 & A3 & A4 & A5 & A6 & A7). do 6 (split; [assumption|]). apply (IH _ _ b); [exact A7|]. destruct l; exact HC.
Qed.
Lemma size_app : forall l t w c, cutSize (l ++ t) w c = preSize l + cutSize t w c.
Proof. induction l as [|[[w0 c0] r0] l IH]; intros t w c; cbn [app cutSize preSize]; [lia|]. rewrite IH. lia. Qed.
Lemma presize_snoc : forall l w c r, preSize (l ++ [(w, c, r)]) = preSize l + copySize w c + (if r <? 128 then 1 else 4) + 1.
Proof. induction l as [|[[w0 c0] r0] l IH]; intros w c r; cbn [app preSize]; [lia|]. rewrite IH. lia. Qed.
Lemma rest_snoc U l x : rest U (l ++ [x]) = fun _ => True.
Proof. destruct l; reflexivity. Qed.

Section Size.
  Variables (X : mem) (n : Z) (undef : Z -> Z).
  Hypothesis HX : byte_mem X.
  Hypothesis Hn : 1 <= n <= 2 ^ 30.
  Hypothesis HU : forall j, 0 <= j < 16 -> is_byte (undef j).
  Variables (M1 : mem) (base : Z).
  Notation E := (cod 16 X).
  Definition first (w : Z) : Prop := forall j, 0 <= j < 16 -> undef j < 2 ^ w.
  Definition collect (a b : Z) (l : list (Z * Z * Z)) (x : Z) : Prop := (exists i, 16 * a <= i < 16 * b /\ x = E i) \/ (l = [] /\ exists j, 0 <= j < 16 /\ x = undef j).
  Definition SInv (b : Z) (s : mzst) : Prop :=
    if z_copying s then exists l a, Pre E first (n / 16) 0 l a /\ a + z_count s = b /\ 0 <= a /\ 0 <= z_count s /\ z_last s = base + preSize l /\
      (forall b' v, a <= b' < b -> ~ Same E b' v) /\ Collected (z_bits s) (collect a b l)
    else exists l a w c, Pre E first (n / 16) 0 l a /\ 0 <= a /\ 0 <= c /\ 1 <= z_count s /\ a + c + z_count s = b /\ z_last s = base + preSize l + copySize w c /\
      (forall b' v, a <= b' < a + c -> ~ Same E b' v) /\ Least (fun w => Covers E a c w /\ rest first l w) w /\
      (forall b', a + c <= b' < b -> Same E b' (z_symbol s)).

  Lemma collect_byte a b l x : 0 <= a -> 16 * b <= n -> collect a b l x -> is_byte x.
  Proof. intros Ha Hb [(i & Hi & ->)|(_ & j & Hj & ->)]; [apply (Eb X n HX); lia|apply HU; exact Hj]. Qed.
  Lemma collect_least a b l bits : 0 <= a <= b -> 16 * b <= n -> Collected bits (collect a b l) -> Least (fun w => Covers E a (b - a) w /\ rest first l w) (pw (mode_of bits)).
  Proof.
    intros Ha Hb HC. apply collected_least in HC; [|intros x Hx; exact (collect_byte a b l x ltac:(lia) Hb Hx)]. revert HC. apply least_iff. intros v. split.
    - intros H. split; [intros i Hi; apply H; left; exists i; split; [lia|reflexivity]|]. destruct l; [|exact I]. intros j Hj. apply H. right. split; [reflexivity|]. exists j. auto.
    - intros [H1 H2] x [(i & Hi & ->)|(-> & j & Hj & ->)]; [apply H1; lia|apply H2; exact Hj].
  Qed.

  (** The end of a copy. *)
  Lemma copy_end b s : z_copying s = true -> EInv X n M1 base b s -> SInv b s ->
    exists l a M', Pre E first (n / 16) 0 l a /\ 0 <= a /\ 0 <= z_count s /\ a + z_count s = b /\ (forall b' v, a <= b' < b -> ~ Same E b' v) /\
      Least (fun w => Covers E a (z_count s) w /\ rest first l w) (pw (mode_of (z_bits s))) /\
      copy_header (z_bits s) (z_mem s) (z_last s) (z_out s) (z_count s) = Some (base + preSize l + copySize (pw (mode_of (z_bits s))) (z_count s), M').
  Proof.
    intros Hcp (Hb & Hbn & _ & _ & _ & _ & HI) HS. rewrite Hcp in HI. unfold SInv in HS. rewrite Hcp in HS.
    destruct HI as (segs & HV & Hc & Hb' & Hl & Hs & Ho & HM & HB). pose proof (tot0 X n HX segs HV) as Ht.
    pose proof (bits_fits X n HX (total segs) (z_count s) (z_bits s) ltac:(lia) ltac:(lia) ltac:(lia) HB) as HF.
    destruct (copy_header_ok (z_bits s) (z_mem s) (z_last s) (z_count s) E (16 * total segs) ltac:(lia) HM) as (M' & E1 & _ & _).
    { intros i Hi. apply HF. lia. }
    destruct HS as (l & a & S1 & S2 & S3 & S4 & S5 & S6 & S7). exists l, a, M'. do 5 (split; [assumption|]). split.
    - replace (z_count s) with (b - a) by lia. apply collect_least; [lia|lia|exact S7].
    - rewrite Ho, E1. rewrite len_copy_exact by exact Hc. rewrite S5. reflexivity.
  Qed.

  Lemma uniform_same out b : (forall j, 0 <= j < 16 -> out j = E (16 * b + j)) -> uniform out = true -> Same E b (out 0).
  Proof. intros Eo Eu i Hi. rewrite <- (uniform_spec out Eu (i - 16 * b) ltac:(lia)), Eo by lia. f_equal. lia. Qed.
  Lemma not_uniform out b v : (forall j, 0 <= j < 16 -> out j = E (16 * b + j)) -> uniform out = false -> ~ Same E b v.
  Proof.
    intros Eo Eu HS. assert (uniform out = true); [|congruence]. unfold uniform. apply forallb_forall. intros j Hj. apply lanes_in in Hj. rewrite !Eo by lia. rewrite !HS by lia. apply Z.eqb_refl.
  Qed.
  Lemma not_run out b v : (forall j, 0 <= j < 16 -> out j = E (16 * b + j)) -> forallb (fun j => v =? out j) (lanes 16) = false -> ~ Same E b v.
  Proof.
    intros Eo Eu HS. assert (forallb (fun j => v =? out j) (lanes 16) = true); [|congruence]. apply forallb_forall. intros j Hj. apply lanes_in in Hj. rewrite Eo by lia. rewrite HS by lia. apply Z.eqb_refl.
  Qed.
  Lemma least_none a (U : Z -> Prop) : (forall w, U w) -> Least (fun w => Covers E a 0 w /\ U w) 2.
  Proof. intros HU'. split; [cbn; tauto|]. split; [split; [intros i Hi; lia|apply HU']|]. intros v Hv _. cbn in Hv. lia. Qed.

  Lemma step_size b s s' : EInv X n M1 base b s -> SInv b s -> mz_step X s = inl s' -> SInv (b + 1) s'.
  Proof.
    intros HI HS. pose proof HI as (Hb & Hbn & Hin & Hrem & HH & HO & Hst). unfold mz_step. rewrite Hrem. destruct (n - 16 * b <? 16) eqn:Er; [discriminate|].
    assert (Hnb : b < n / 16) by lia.
    destruct (enc_block X n ltac:(intros; apply HX) b (z_hist s) (load X (z_in s)) Hb ltac:(lia) HH) as (out & H' & E1 & Eo & H1).
    { intros j Hj. rewrite load_at by exact Hj. rewrite Hin. reflexivity. }
    rewrite E1. destruct (z_copying s) eqn:Ecp.
    - destruct (uniform out) eqn:Eu.
      + destruct (copy_end b s Ecp HI HS) as (l & a & M' & S1 & S2 & S3 & S4 & S5 & S6 & S7). rewrite S7. intros K. apply (f_equal (fun r => match r with inl x => x | inr _ => s end)) in K. cbv beta iota in K. subst s'.
        unfold SInv. cbn [z_copying z_count z_last z_symbol]. exists l, a, (pw (mode_of (z_bits s))), (z_count s). do 3 (split; [assumption|]). split; [lia|]. split; [lia|]. split; [reflexivity|].
        split; [intros b' v Hb'; apply S5; lia|]. split; [exact S6|]. intros b' Hb'. assert (b' = b) as -> by lia. apply uniform_same; assumption.
      + intros K. apply (f_equal (fun r => match r with inl x => x | inr _ => s end)) in K. cbv beta iota in K. subst s'. unfold SInv in *. rewrite Ecp in HS. cbn [z_copying z_count z_last z_bits].
        destruct HS as (l & a & S1 & S2 & S3 & S4 & S5 & S6 & S7). exists l, a. split; [exact S1|]. split; [lia|]. split; [exact S3|]. split; [lia|]. split; [exact S5|]. split.
        * intros b' v Hb'. destruct (Z.eq_dec b' b) as [->|Ne]; [apply (not_uniform out); assumption|apply S6; lia].
        * apply (collected_more _ out) in S7. revert S7. apply collected_ext. intros x. unfold collect. split.
          -- intros [[(i & Hi & ->)|K]|(j & Hj & ->)]; [left; exists i; split; [lia|reflexivity]|right; exact K|left; exists (16 * b + j); split; [lia|apply Eo; exact Hj]].
          -- intros [(i & Hi & ->)|K]; [|left; right; exact K]. destruct (Z_lt_ge_dec i (16 * b)); [left; left; exists i; split; [lia|reflexivity]|].
             right. exists (i - 16 * b). split; [lia|]. rewrite Eo by lia. f_equal. lia.
    - unfold SInv in HS. rewrite Ecp in HS. destruct HS as (l & a & w & c & S1 & S2 & S3 & S4 & S5 & S6 & S7 & S8 & S9).
      destruct (forallb (fun j => z_symbol s =? out j) (lanes 16)) eqn:Es.
      + intros K. apply (f_equal (fun r => match r with inl x => x | inr _ => s end)) in K. cbv beta iota in K. subst s'. unfold SInv. cbn [z_copying z_count z_last z_symbol].
        exists l, a, w, c. do 3 (split; [assumption|]). split; [lia|]. split; [lia|]. do 3 (split; [assumption|]). intros b' Hb'. destruct (Z.eq_dec b' b) as [->|Ne]; [|apply S9; lia].
        intros i Hi. rewrite forallb_forall in Es. specialize (Es (i - 16 * b) ltac:(apply lanes_in; lia)). rewrite Eo in Es by lia. replace (16 * b + (i - 16 * b)) with i in Es by lia. lia.
      + destruct (run_header_ok (z_mem s) (z_last s) (z_count s) (z_symbol s) ltac:(lia)) as (M' & E2 & _ & _). rewrite E2, len_run_exact.
        assert (HP : Pre E first (n / 16) 0 (l ++ [(w, c, z_count s)]) b).
        { replace b with (a + c + z_count s) by lia. apply pre_snoc; [exact S1|]. cbn [Pre]. split; [exact S3|]. split; [exact S4|]. split; [lia|]. split; [exact S7|]. split; [exact S8|]. split; [|reflexivity].
          exists (z_symbol s). split; [intros b' Hb'; apply S9; lia|]. intros _. replace (a + c + z_count s) with b by lia. apply (not_run out); assumption. }
        assert (HZ : z_last s + ((if z_count s <? 128 then 1 else 4) + 1) = base + preSize (l ++ [(w, c, z_count s)])) by (rewrite presize_snoc; lia).
        destruct (uniform out) eqn:Eu.
        * intros K. apply (f_equal (fun r => match r with inl x => x | inr _ => s end)) in K. cbv beta iota in K. subst s'. unfold SInv. cbn [z_copying z_count z_last z_symbol].
          exists (l ++ [(w, c, z_count s)]), b, 2, 0. split; [exact HP|]. split; [exact Hb|]. split; [lia|]. split; [lia|]. split; [lia|]. split; [unfold copySize; cbn; lia|].
          split; [intros b' v Hb'; lia|]. split; [apply least_none; rewrite rest_snoc; auto|]. intros b' Hb'. assert (b' = b) as -> by lia. apply uniform_same; assumption.
        * intros K. apply (f_equal (fun r => match r with inl x => x | inr _ => s end)) in K. cbv beta iota in K. subst s'. unfold SInv. cbn [z_copying z_count z_last z_bits].
          exists (l ++ [(w, c, z_count s)]), b. split; [exact HP|]. split; [lia|]. split; [exact Hb|]. split; [lia|]. split; [exact HZ|]. split.
          -- intros b' v Hb'. assert (b' = b) as -> by lia. apply (not_uniform out); assumption.
          -- refine (collected_ext _ _ _ _ (collected_one out)). intros x. unfold collect. split.
             ++ intros (j & Hj & ->). left. exists (16 * b + j). split; [lia|apply Eo; exact Hj].
             ++ intros [(i & Hi & ->)|(K & _)]; [|destruct l; discriminate]. exists (i - 16 * b). split; [lia|]. rewrite Eo by lia. f_equal. lia.
  Qed.

  Lemma finish_size s q M : EInv X n M1 base (n / 16) s -> SInv (n / 16) s -> mz_finish s = Some (q, M) ->
    exists l w c, Cut E first (n / 16) 0 l w c /\ q = base + cutSize l w c + 1.
  Proof.
    intros HI HS. unfold mz_finish. destruct (z_copying s) eqn:Ecp.
    - destruct (copy_end _ s Ecp HI HS) as (l & a & M' & S1 & S2 & S3 & S4 & S5 & S6 & S7). rewrite S7. intros K. assert (q = base + preSize l + copySize (pw (mode_of (z_bits s))) (z_count s) + 1) as -> by congruence.
      exists (l ++ []), (pw (mode_of (z_bits s))), (z_count s). split.
      + apply (pre_cut _ _ l _ _ a); [exact S1|]. cbn [Cut]. split; [exact S3|]. split; [exact S4|]. split; [intros b v Hb; apply S5; lia|exact S6].
      + rewrite size_app. cbn [cutSize]. lia.
    - unfold SInv in HS. rewrite Ecp in HS. destruct HS as (l & a & w & c & S1 & S2 & S3 & S4 & S5 & S6 & S7 & S8 & S9).
      destruct (run_header_ok (z_mem s) (z_last s) (z_count s) (z_symbol s) ltac:(lia)) as (M' & E2 & _ & _). rewrite E2, len_run_exact. intros K.
      assert (q = z_last s + ((if z_count s <? 128 then 1 else 4) + 1) + 2) as -> by congruence.
      exists (l ++ [(w, c, z_count s)]), 2, 0. split.
      + apply (pre_cut _ _ l _ _ a); [exact S1|]. cbn [Cut]. split; [exact S3|]. split; [exact S4|]. split; [lia|]. split; [exact S7|]. split; [exact S8|]. split.
        * exists (z_symbol s). split; [intros b' Hb'; apply S9; lia|lia].
        * split; [lia|]. split; [lia|]. split; [intros b' v Hb'; lia|]. apply least_none. auto.
      + rewrite size_app. cbn [cutSize]. unfold copySize at 2. cbn. lia.
  Qed.

  Lemma steps_both s : EInv X n M1 base 0 s -> SInv 0 s -> exists s', loop (mz_step X) s = Some (Some s') /\ EInv X n M1 base (n / 16) s' /\ SInv (n / 16) s'.
  Proof.
    intros H0 H1. destruct (loop_inv (mz_step X) (fun s => exists b, EInv X n M1 base b s /\ SInv b s) z_rem (fun r => exists s', r = Some s' /\ EInv X n M1 base (n / 16) s' /\ SInv (n / 16) s') s) as (r & E1 & s' & -> & E2).
    - intros s1 (b & HI & HS). pose proof (step_ok X n HX ltac:(lia) M1 base b s1 HI) as K. pose proof HI as (Hb & Hbn & _ & Hrem & _). destruct (n - 16 * b <? 16) eqn:Er.
      + rewrite K. exists s1. split; [reflexivity|]. replace (n / 16) with b by lia. auto.
      + destruct K as (s' & Es & K). rewrite Es. split; [exists (b + 1); split; [exact K|exact (step_size b s1 s' HI HS Es)]|]. destruct K as (_ & ? & _ & K & _). lia.
    - exists 0. auto.
    - destruct H0 as (_ & _ & _ & -> & _). lia.
    - exists s'. auto.
  Qed.
End Size.

Lemma mz_run_size undef X n M pout r M' : byte_mem X -> 1 <= n <= max_in -> (forall j, 0 <= j < 16 -> is_byte (undef j)) -> mz_run undef X n M pout = Some (r, M') ->
  exists l w c, Cut (cod 16 X) (fun w => forall j, 0 <= j < 16 -> undef j < 2 ^ w) (n / 16) 0 l w c /\ r = w32 (8 + cutSize l w c + 1 + n mod 16).
Proof.
  intros HX Hn HU. unfold max_in in Hn. unfold mz_run. set (M1 := put32 M pout n). set (base := pout + 8).
  destruct (steps_both X n undef HX Hn HU M1 base (mkMz n 0 (base + 4) M1 hist0 0 0 true undef base)) as (s & E1 & HI & HS).
  { unfold EInv. cbn [z_in z_rem z_hist z_mem z_copying]. split; [lia|]. split; [lia|]. split; [lia|]. split; [lia|]. split; [intros k j Hk Hj; unfold hist0; now rewrite tab_0|]. split; [intros x Hx; reflexivity|].
    exists []. cbn [z_count z_last z_mem z_out z_bits total stream Valid]. cbn zeta. change (len (@nil Z)) with 0. split; [exact I|]. split; [lia|]. split; [lia|]. split; [lia|]. split; [exact I|]. split; [lia|]. split; [intros; lia|apply bits_nil]. }
  { unfold SInv. cbn [z_copying z_count z_last z_bits]. exists [], 0. split; [reflexivity|]. split; [lia|]. split; [lia|]. split; [lia|]. split; [cbn; lia|]. split; [intros b' v Hb'; lia|].
    refine (collected_ext _ _ _ _ (collected_one undef)). intros x. unfold collect. split; [intros H; right; auto|intros [(i & Hi & _)|[_ H]]; [lia|exact H]]. }
  cbn zeta. rewrite E1. destruct (mz_finish s) as [[q M2]|] eqn:EF; [|discriminate].
  destruct (finish_size X n undef HX Hn HU M1 base s q M2 HI HS EF) as (l & w & c & HC & Eq).
  destruct HI as (_ & _ & Hin & Hrem & HH & _). rewrite Hin, Hrem.
  destruct (last_ok X n HX (z_hist s) (n / 16) ltac:(lia) HH (Z.to_nat (n - 16 * (n / 16))) q M2 ltac:(lia) ltac:(lia)) as (M3 & E3 & _ & _). rewrite Z2Nat.id in * by lia. rewrite E3.
  intros K. exists l, w, c. split; [exact HC|]. assert (r = w32 (q + (n - 16 * (n / 16)) - pout)) as -> by congruence. f_equal. unfold base in Eq. lia.
Qed.

Lemma cut_size E nb : forall l U a w c, Cut E U nb a l w c -> 0 <= cutSize l w c <= 16 * (nb - a) + 4.
Proof.
  assert (K : forall ok w c, Least ok w -> 0 <= c -> 1 <= copySize w c <= 16 * c + 4).
  { intros ok w c (Hw & _) Hc. unfold copySize. cbn in Hw. assert (2 <= w <= 8) by lia. assert (0 <= w * c <= 8 * c) by nia. destruct (c <? 32); lia. }
  induction l as [|[[w0 c0] r0] t IH]; intros U a w c H; cbn [Cut cutSize] in *.
  - destruct H as (A1 & A2 & _ & A3). specialize (K _ _ _ A3 A1). lia.
  - destruct H as (A1 & A2 & A3 & _ & A4 & _ & A5). specialize (K _ _ _ A4 A1). specialize (IH _ _ _ _ A5). destruct (r0 <? 128); lia.
Qed.

Theorem mz_size undef M pout In n cap out : byte_mem In -> 1 <= n <= max_in -> (forall j, 0 <= j < 16 -> is_byte (undef j)) ->
  mz_compress undef M pout false false In n cap = COk out ->
  exists l w c, Cut (cod 16 In) (fun w => forall j, 0 <= j < 16 -> undef j < 2 ^ w) (n / 16) 0 l w c /\ len out = 8 + cutSize l w c + 1 + n mod 16.
Proof.
  intros HIn Hn HU. unfold mz_compress. destruct (_ || _); [discriminate|]. destruct (mz_run undef In n M pout) as [[r M']|] eqn:E; [|discriminate].
  intros K. assert (EO : out = slice M' pout r) by congruence. destruct (mz_run_size undef In n M pout r M' HIn Hn HU E) as (l & w & c & HC & Hr). exists l, w, c. split; [exact HC|].
  pose proof (cut_size _ _ _ _ _ _ _ HC) as HZ. unfold max_in in Hn. unfold w32 in Hr. rewrite Z.mod_small in Hr by lia. rewrite EO, len_slice by lia. exact Hr.
Qed.
(** With nothing collected before. *)
Theorem mz_size_0 undef M pout In n cap out : byte_mem In -> 1 <= n <= max_in -> (forall j, 0 <= j < 16 -> undef j = 0) ->
  mz_compress undef M pout false false In n cap = COk out ->
  exists l w c, Cut (cod 16 In) (fun _ => True) (n / 16) 0 l w c /\ len out = 8 + cutSize l w c + 1 + n mod 16.
Proof.
  intros HIn Hn HU HC. destruct (mz_size undef M pout In n cap out HIn Hn ltac:(intros j Hj; rewrite HU by exact Hj; unfold is_byte; lia) HC) as (l & w & c & H1 & H2).
  exists l, w, c. split; [|exact H2]. revert H1. assert (G : forall (U V : Z -> Prop), (forall w, List.In w [2; 3; 4; 8] -> U w) -> (forall w, V w) -> Cut (cod 16 In) U (n / 16) 0 l w c -> Cut (cod 16 In) V (n / 16) 0 l w c).
  { intros U V HU' HV. assert (GL : forall P w, Least (fun w => P w /\ U w) w -> Least (fun w => P w /\ V w) w).
    { intros P w' (A1 & A2 & A3). split; [exact A1|]. split; [split; [apply A2|apply HV]|]. intros v Hv Hp. apply A3; [exact Hv|]. split; [apply Hp|apply HU'; exact Hv]. }
    destruct l as [|[[w0 c0] r0] t]; cbn [Cut].
    - intros (A1 & A2 & A3 & A4). do 3 (split; [assumption|]). apply GL. exact A4.
    - intros (A1 & A2 & A3 & A4 & A5 & A6). do 4 (split; [assumption|]). split; [apply GL; exact A5|exact A6]. }
  apply G; [|auto]. intros v Hv j Hj. rewrite HU by exact Hj. apply Z.pow_pos_nonneg; cbn in Hv; lia.
Qed.
