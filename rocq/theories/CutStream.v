(** The bytes of the streams of rle8_mmtf128_compress are those of the pieces of [Cut]. *)
From Verif Require Import Base Simd SimdProof Spec MtfModel MtfSpec MtfProof BitMtf MzModel MzBits MzPack MzDec MzEnc MzThm CutSpec CutThm.

(** The number of bits is written; an empty piece between two runs is written as one of 8 bits. *)
Definition pieceMode (begin : bool) (w c : Z) : pmode :=
  if negb begin && (c =? 0) then Raw else if w =? 2 then P2 else if w =? 3 then P3 else if w =? 4 then P4 else Raw.
Fixpoint cutBytes (E : mem) (begin : bool) (a : Z) (l : list (Z * Z * Z)) : list Z :=
  match l with
  | [] => []
  | (w, c, r) :: t => copy_bytes (pieceMode begin w c) E (16 * a) c ++ run_bytes r (E (16 * (a + c))) ++ cutBytes E false (a + c + r) t
  end.
Definition isNil {A} (l : list A) : bool := match l with [] => true | _ => false end.
Fixpoint blocks (l : list (Z * Z * Z)) : Z := match l with [] => 0 | (_, c, r) :: t => c + r + blocks t end.

Lemma mode_back begin m c : begin = true \/ c <> 0 -> pieceMode begin (pw m) c = m.
Proof. intros H. unfold pieceMode. replace (negb begin && (c =? 0)) with false by (destruct H as [->|H]; [reflexivity|]; destruct begin; cbn; lia). destruct m; reflexivity. Qed.
Lemma cutbytes_snoc E w c r : forall l begin a, cutBytes E begin a (l ++ [(w, c, r)]) =
  cutBytes E begin a l ++ copy_bytes (pieceMode (begin && isNil l) w c) E (16 * (a + blocks l)) c ++ run_bytes r (E (16 * (a + blocks l + c))).
Proof.
  induction l as [|[[w0 c0] r0] t IH]; intros begin a; cbn [app cutBytes blocks isNil].
  - rewrite andb_true_r, Z.add_0_r, app_nil_r. reflexivity.
  - rewrite IH, <- !app_assoc. cbn [andb]. rewrite andb_false_r. do 3 f_equal.
    replace (a + c0 + r0 + blocks t) with (a + (c0 + r0 + blocks t)) by lia. reflexivity.
Qed.
Lemma pre_blocks E nb : forall l U a b, Pre E U nb a l b -> a + blocks l = b.
Proof. induction l as [|[[w0 c0] r0] t IH]; intros U a b H; cbn [Pre blocks] in *; [lia|]. destruct H as (_ & _ & _ & _ & _ & _ & H). apply IH in H. lia. Qed.

Section Stream.
  Variables (X : mem) (n : Z) (undef : Z -> Z).
  Hypothesis HX : byte_mem X.
  Hypothesis Hn : 1 <= n <= 2 ^ 30.
  Hypothesis HU : forall j, 0 <= j < 16 -> is_byte (undef j).
  Variables (M1 : mem) (base : Z).
  Notation E := (cod 16 X).
  Notation first := (first undef).
  Notation collect := (collect X undef).
  Notation bytes l := (cutBytes E true 0 l).
  Notation copy l w c a := (copy_bytes (pieceMode (isNil l) w c) E (16 * a) c).

  Definition BInv (b : Z) (s : mzst) : Prop :=
    if z_copying s then exists l a, Pre E first (n / 16) 0 l a /\ a + z_count s = b /\ 0 <= a /\ 0 <= z_count s /\ (l = [] \/ z_count s <> 0) /\
      z_last s = base + len (bytes l) /\ holds (z_mem s) base (bytes l) /\
      (forall b' v, a <= b' < b -> ~ Same E b' v) /\ Collected (z_bits s) (collect a b l)
    else exists l a w c, Pre E first (n / 16) 0 l a /\ 0 <= a /\ 0 <= c /\ 1 <= z_count s /\ a + c + z_count s = b /\
      z_last s = base + len (bytes l ++ copy l w c a) /\ holds (z_mem s) base (bytes l ++ copy l w c a) /\
      (forall b' v, a <= b' < a + c -> ~ Same E b' v) /\ Least (fun w => Covers E a c w /\ rest first l w) w /\
      (forall b', a + c <= b' < b -> Same E b' (z_symbol s)).

  Lemma copy_end_b b s : z_copying s = true -> EInv X n M1 base b s -> BInv b s ->
    exists l a M', Pre E first (n / 16) 0 l a /\ 0 <= a /\ 0 <= z_count s /\ a + z_count s = b /\ (forall b' v, a <= b' < b -> ~ Same E b' v) /\
      Least (fun w => Covers E a (z_count s) w /\ rest first l w) (pw (mode_of (z_bits s))) /\
      copy_header (z_bits s) (z_mem s) (z_last s) (z_out s) (z_count s) = Some (base + len (bytes l ++ copy l (pw (mode_of (z_bits s))) (z_count s) a), M') /\
      holds M' base (bytes l ++ copy l (pw (mode_of (z_bits s))) (z_count s) a).
  Proof.
    intros Hcp (Hb & Hbn & _ & _ & _ & _ & HI) HS. rewrite Hcp in HI. unfold BInv in HS. rewrite Hcp in HS.
    destruct HI as (segs & HV & Hc & Hb' & Hl & Hs & Ho & HM & HB). pose proof (tot0 X n HX segs HV) as Ht.
    pose proof (bits_fits X n HX (total segs) (z_count s) (z_bits s) ltac:(lia) ltac:(lia) ltac:(lia) HB) as HF.
    destruct (copy_header_ok (z_bits s) (z_mem s) (z_last s) (z_count s) E (16 * total segs) ltac:(lia) HM) as (M' & E1 & E2 & E3).
    { intros i Hi. apply HF. lia. }
    destruct HS as (l & a & S1 & S2 & S3 & S4 & S5 & S6 & S7 & S8 & S9). exists l, a, M'. do 5 (split; [assumption|]).
    assert (total segs = a) as Ha by lia. rewrite Ha in *.
    assert (Hm : pieceMode (isNil l) (pw (mode_of (z_bits s))) (z_count s) = mode_of (z_bits s)) by (apply mode_back; destruct S5 as [->|S5]; [left; reflexivity|right; exact S5]).
    rewrite Hm. split; [|split].
    - replace (z_count s) with (b - a) by lia. apply (collect_least X n undef HX HU); [lia|lia|exact S9].
    - rewrite Ho, E1. rewrite len_app. do 2 f_equal. lia.
    - apply holds_app. split; [|rewrite <- S6; exact E2]. apply (holds_keep (z_mem s)); [exact S7|]. intros x Hx. apply E3. lia.
  Qed.

  Lemma run_end_b b s : z_copying s = false -> 0 <= b -> 16 * b <= n -> BInv b s -> exists l' M',
    run_header (z_mem s) (z_last s) (z_count s) (z_symbol s) = (base + len (bytes l'), M') /\ holds M' base (bytes l') /\ l' <> [] /\
    exists l a w c, l' = l ++ [(w, c, z_count s)] /\ Pre E first (n / 16) 0 l a /\ 0 <= a /\ 0 <= c /\ 1 <= z_count s /\ a + c + z_count s = b /\
      (forall b' v, a <= b' < a + c -> ~ Same E b' v) /\ Least (fun w => Covers E a c w /\ rest first l w) w /\ (forall b', a + c <= b' < b -> Same E b' (z_symbol s)).
  Proof.
    intros Hcp Hb Hbn HS. unfold BInv in HS. rewrite Hcp in HS. destruct HS as (l & a & w & c & S1 & S2 & S3 & S4 & S5 & S6 & S7 & S8 & S9 & S10).
    destruct (run_header_ok (z_mem s) (z_last s) (z_count s) (z_symbol s) ltac:(lia)) as (M' & E1 & E2 & E3).
    pose proof (pre_blocks _ _ _ _ _ _ S1) as Hbl. rewrite Z.add_0_l in Hbl.
    assert (Hbytes : bytes (l ++ [(w, c, z_count s)]) = (bytes l ++ copy l w c a) ++ run_bytes (z_count s) (z_symbol s)).
    { rewrite cutbytes_snoc. cbn [andb]. rewrite Z.add_0_l, Hbl, <- app_assoc. rewrite (S10 (a + c)) by lia. reflexivity. }
    exists (l ++ [(w, c, z_count s)]), M'. rewrite Hbytes. split; [rewrite E1, (len_app (bytes l ++ _)); f_equal; lia|]. split; [|split].
    - apply holds_app. split; [|rewrite <- S6; exact E2]. apply (holds_keep (z_mem s)); [exact S7|]. intros x Hx. apply E3. lia.
    - destruct l; discriminate.
    - exists l, a, w, c. auto 12.
  Qed.

  Lemma step_bytes b s s' : EInv X n M1 base b s -> BInv b s -> mz_step X s = inl s' -> BInv (b + 1) s'.
  Proof.
    intros HI HS. pose proof HI as (Hb & Hbn & Hin & Hrem & HH & HO & Hst). unfold mz_step. rewrite Hrem. destruct (n - 16 * b <? 16) eqn:Er; [discriminate|].
    assert (Hnb : b < n / 16) by lia.
    destruct (enc_block X n ltac:(intros; apply HX) b (z_hist s) (load X (z_in s)) Hb ltac:(lia) HH) as (out & H' & E1 & Eo & H1).
    { intros j Hj. rewrite load_at by exact Hj. rewrite Hin. reflexivity. }
    rewrite E1. destruct (z_copying s) eqn:Ecp.
    - destruct (uniform out) eqn:Eu.
      + destruct (copy_end_b b s Ecp HI HS) as (l & a & M' & S1 & S2 & S3 & S4 & S5 & S6 & S7 & S8). rewrite S7. intros K. apply (f_equal (fun r => match r with inl x => x | inr _ => s end)) in K. cbv beta iota in K. subst s'.
        unfold BInv. cbn [z_copying z_count z_last z_symbol z_mem]. exists l, a, (pw (mode_of (z_bits s))), (z_count s). do 3 (split; [assumption|]). split; [lia|]. split; [lia|]. split; [reflexivity|]. split; [exact S8|].
        split; [intros b' v Hb'; apply S5; lia|]. split; [exact S6|]. intros b' Hb'. assert (b' = b) as -> by lia. apply (uniform_same X undef HU); assumption.
      + intros K. apply (f_equal (fun r => match r with inl x => x | inr _ => s end)) in K. cbv beta iota in K. subst s'. unfold BInv in *. rewrite Ecp in HS. cbn [z_copying z_count z_last z_bits z_mem].
        destruct HS as (l & a & S1 & S2 & S3 & S4 & S5 & S6 & S7 & S8 & S9). exists l, a. split; [exact S1|]. split; [lia|]. split; [exact S3|]. split; [lia|]. split; [right; lia|]. split; [exact S6|]. split; [|split].
        * destruct Hst as (segs & HV & Hc & Hb' & Hl & Hs & Hq & HM & HB). apply (holds_keep (z_mem s)); [exact S7|]. intros x Hx. apply vstore_out. lia.
        * intros b' v Hb'. destruct (Z.eq_dec b' b) as [->|Ne]; [apply (not_uniform X undef HU out); assumption|apply S8; lia].
        * apply (collected_more _ out) in S9. revert S9. apply collected_ext. intros x. unfold CutThm.collect. split.
          -- intros [[(i & Hi & ->)|K]|(j & Hj & ->)]; [left; exists i; split; [lia|reflexivity]|right; exact K|left; exists (16 * b + j); split; [lia|apply Eo; exact Hj]].
          -- intros [(i & Hi & ->)|K]; [|left; right; exact K]. destruct (Z_lt_ge_dec i (16 * b)); [left; left; exists i; split; [lia|reflexivity]|].
             right. exists (i - 16 * b). split; [lia|]. rewrite Eo by lia. f_equal. lia.
    - destruct (forallb (fun j => z_symbol s =? out j) (lanes 16)) eqn:Es.
      + unfold BInv in HS. rewrite Ecp in HS. destruct HS as (l & a & w & c & S1 & S2 & S3 & S4 & S5 & S6 & S7 & S8 & S9 & S10).
        intros K. apply (f_equal (fun r => match r with inl x => x | inr _ => s end)) in K. cbv beta iota in K. subst s'. unfold BInv. cbn [z_copying z_count z_last z_symbol z_mem].
        exists l, a, w, c. do 3 (split; [assumption|]). split; [lia|]. split; [lia|]. do 4 (split; [assumption|]). intros b' Hb'. destruct (Z.eq_dec b' b) as [->|Ne]; [|apply S10; lia].
        intros i Hi. rewrite forallb_forall in Es. specialize (Es (i - 16 * b) ltac:(apply lanes_in; lia)). rewrite Eo in Es by lia. replace (16 * b + (i - 16 * b)) with i in Es by lia. lia.
      + destruct (run_end_b b s Ecp Hb Hbn HS) as (l' & M' & R1 & R2 & R3 & l & a & w & c & El & S1 & S2 & S3 & S4 & S5 & S8 & S9 & S10). rewrite R1.
        assert (HP : Pre E first (n / 16) 0 l' b).
        { rewrite El. replace b with (a + c + z_count s) by lia. apply pre_snoc; [exact S1|]. cbn [Pre]. split; [exact S3|]. split; [exact S4|]. split; [lia|]. split; [exact S8|]. split; [exact S9|]. split; [|reflexivity].
          exists (z_symbol s). split; [intros b' Hb'; apply S10; lia|]. intros _. replace (a + c + z_count s) with b by lia. apply (not_run X undef HU out); assumption. }
        assert (HN : isNil l' = false) by (destruct l'; [congruence|reflexivity]).
        assert (HRest : rest first l' = fun _ => True) by (rewrite El; apply rest_snoc).
        destruct (uniform out) eqn:Eu.
        * intros K. apply (f_equal (fun r => match r with inl x => x | inr _ => s end)) in K. cbv beta iota in K. subst s'. unfold BInv. cbn [z_copying z_count z_last z_symbol z_mem].
          exists l', b, 2, 0. split; [exact HP|]. split; [exact Hb|]. split; [lia|]. split; [lia|]. split; [lia|]. rewrite HN. change (copy_bytes (pieceMode false 2 0) E (16 * b) 0) with [0]. rewrite len_app. change (len [0]) with 1.
          split; [lia|]. split.
          -- apply holds_app. split; [apply (holds_keep M'); [exact R2|]; intros x Hx; rewrite put8_at; replace (x =? base + len (bytes l')) with false by lia; reflexivity|]. cbn [holds]. rewrite put8_at, Z.eqb_refl. auto.
          -- split; [intros b' v Hb'; lia|]. split; [apply (least_none X n undef Hn HU); rewrite HRest; auto|]. intros b' Hb'. assert (b' = b) as -> by lia. apply (uniform_same X undef HU); assumption.
        * intros K. apply (f_equal (fun r => match r with inl x => x | inr _ => s end)) in K. cbv beta iota in K. subst s'. unfold BInv. cbn [z_copying z_count z_last z_bits z_mem].
          exists l', b. split; [exact HP|]. split; [lia|]. split; [exact Hb|]. split; [lia|]. split; [right; lia|]. split; [reflexivity|]. split; [|split].
          -- apply (holds_keep M'); [exact R2|]. intros x Hx. apply vstore_out. lia.
          -- intros b' v Hb'. assert (b' = b) as -> by lia. apply (not_uniform X undef HU out); assumption.
          -- refine (collected_ext _ _ _ _ (collected_one out)). intros x. unfold CutThm.collect. split.
             ++ intros (j & Hj & ->). left. exists (16 * b + j). split; [lia|apply Eo; exact Hj].
             ++ intros [(i & Hi & ->)|(K & _)]; [|congruence]. exists (i - 16 * b). split; [lia|]. rewrite Eo by lia. f_equal. lia.
  Qed.

  (** The pieces up to the end and the last copy, with the byte that ends the stream. *)
  Definition endBytes (l : list (Z * Z * Z)) (w c : Z) : list Z := bytes l ++ copy l w c (n / 16 - c) ++ [0].

  Lemma finish_bytes s q M : EInv X n M1 base (n / 16) s -> BInv (n / 16) s -> mz_finish s = Some (q, M) ->
    exists l w c, Cut E first (n / 16) 0 l w c /\ q = base + len (endBytes l w c) /\ holds M base (endBytes l w c).
  Proof.
    intros HI HS. unfold mz_finish. destruct (z_copying s) eqn:Ecp.
    - destruct (copy_end_b _ s Ecp HI HS) as (l & a & M' & S1 & S2 & S3 & S4 & S5 & S6 & S7 & S8). rewrite S7. intros K.
      exists l, (pw (mode_of (z_bits s))), (z_count s). unfold endBytes. replace (n / 16 - z_count s) with a by lia. split; [|].
      + replace l with (l ++ []) by apply app_nil_r. apply (pre_cut _ _ l _ _ a); [exact S1|]. cbn [Cut]. split; [exact S3|]. split; [exact S4|]. split; [intros b v Hb; apply S5; lia|exact S6].
      + rewrite app_assoc. set (B := bytes l ++ _) in *. assert (q = base + len B + 1) as -> by congruence. assert (M = put8 M' (base + len B) 0) as -> by congruence. rewrite len_app. change (len [0]) with 1. split; [lia|].
        apply holds_app. split; [apply (holds_keep M'); [exact S8|]; intros x Hx; rewrite put8_at; replace (x =? base + len B) with false by lia; reflexivity|]. cbn [holds]. rewrite put8_at, Z.eqb_refl. auto.
    - pose proof HI as (Hb & Hbn & _). destruct (run_end_b _ s Ecp Hb Hbn HS) as (l' & M' & R1 & R2 & R3 & l & a & w & c & El & S1 & S2 & S3 & S4 & S5 & S8 & S9 & S10). rewrite R1. intros K.
      exists l', 2, 0. split.
      + rewrite El. apply (pre_cut _ _ l _ _ a); [exact S1|]. cbn [Cut]. split; [exact S3|]. split; [exact S4|]. split; [lia|]. split; [exact S8|]. split; [exact S9|]. split.
        * exists (z_symbol s). split; [intros b' Hb'; apply S10; lia|lia].
        * split; [lia|]. split; [lia|]. split; [intros b' v Hb'; lia|]. apply (least_none X n undef Hn HU). auto.
      + unfold endBytes. assert (HN : isNil l' = false) by (destruct l'; [congruence|reflexivity]). rewrite HN. change (copy_bytes (pieceMode false 2 0) E (16 * (n / 16 - 0)) 0) with [0]. cbn [app].
        set (B := bytes l') in *. assert (q = base + len B + 2) as -> by congruence. assert (M = put8 (put8 M' (base + len B) 0) (base + len B + 1) 0) as -> by congruence. rewrite len_app. change (len [0; 0]) with 2. split; [lia|].
        apply holds_app. split; [apply (holds_keep M'); [exact R2|]; intros x Hx; rewrite !put8_at; replace (x =? base + len B) with false by lia; replace (x =? base + len B + 1) with false by lia; reflexivity|].
        cbn [holds]. rewrite !put8_at, !Z.eqb_refl. replace (base + len B =? base + len B + 1) with false by lia. auto.
  Qed.

  Lemma steps_bytes s : EInv X n M1 base 0 s -> BInv 0 s -> exists s', loop (mz_step X) s = Some (Some s') /\ EInv X n M1 base (n / 16) s' /\ BInv (n / 16) s'.
  Proof.
    intros H0 H1. destruct (loop_inv (mz_step X) (fun s => exists b, EInv X n M1 base b s /\ BInv b s) z_rem (fun r => exists s', r = Some s' /\ EInv X n M1 base (n / 16) s' /\ BInv (n / 16) s') s) as (r & E1 & s' & -> & E2).
    - intros s1 (b & HI & HS). pose proof (step_ok X n HX ltac:(lia) M1 base b s1 HI) as K. pose proof HI as (Hb & Hbn & _ & Hrem & _). destruct (n - 16 * b <? 16) eqn:Er.
      + rewrite K. exists s1. split; [reflexivity|]. replace (n / 16) with b by lia. auto.
      + destruct K as (s' & Es & K). rewrite Es. split; [exists (b + 1); split; [exact K|exact (step_bytes b s1 s' HI HS Es)]|]. destruct K as (_ & ? & _ & K & _). lia.
    - exists 0. auto.
    - destruct H0 as (_ & _ & _ & -> & _). lia.
    - exists s'. auto.
  Qed.
End Stream.

Theorem mz_run_bytes undef X n M pout r M' : byte_mem X -> 1 <= n <= max_in -> (forall j, 0 <= j < 16 -> is_byte (undef j)) -> mz_run undef X n M pout = Some (r, M') ->
  exists l w c, Cut (cod 16 X) (fun w => forall j, 0 <= j < 16 -> undef j < 2 ^ w) (n / 16) 0 l w c /\
    let out := endBytes X n l w c ++ slice (cod 16 X) (16 * (n / 16)) (n mod 16) in
    r = 8 + len out /\ holds M' pout (le32 n ++ le32 r ++ out).
Proof.
  intros HX Hn HU HR0. pose proof (mz_writes undef X n M pout r M' HX Hn HR0) as (Hr13 & _). revert HR0. unfold max_in in Hn. unfold mz_run. set (M1 := put32 M pout n). set (base := pout + 8).
  destruct (steps_bytes X n undef HX Hn HU M1 base (mkMz n 0 (base + 4) M1 hist0 0 0 true undef base)) as (s & E1 & HI & HS).
  { unfold EInv. cbn [z_in z_rem z_hist z_mem z_copying]. split; [lia|]. split; [lia|]. split; [lia|]. split; [lia|]. split; [intros k j Hk Hj; unfold hist0; now rewrite tab_0|]. split; [intros x Hx; reflexivity|].
    exists []. cbn [z_count z_last z_mem z_out z_bits total stream Valid]. cbn zeta. change (len (@nil Z)) with 0. split; [exact I|]. split; [lia|]. split; [lia|]. split; [lia|]. split; [exact I|]. split; [lia|]. split; [intros; lia|apply bits_nil]. }
  { unfold BInv. cbn [z_copying z_count z_last z_bits z_mem]. exists [], 0. split; [reflexivity|]. split; [lia|]. split; [lia|]. split; [lia|]. split; [left; reflexivity|]. split; [cbn [cutBytes]; change (len (@nil Z)) with 0; lia|]. split; [exact I|]. split; [intros b' v Hb'; lia|].
    refine (collected_ext _ _ _ _ (collected_one undef)). intros x. unfold collect. split; [intros H; right; auto|intros [(i & Hi & _)|[_ H]]; [lia|exact H]]. }
  cbn zeta. rewrite E1. destruct (mz_finish s) as [[q M2]|] eqn:EF; [|discriminate].
  destruct (finish_bytes X n undef HX Hn HU M1 base s q M2 HI HS EF) as (l & w & c & HC & Eq & Hh).
  destruct (MzEnc.finish_ok X n HX ltac:(lia) M1 base s HI) as (segs & m2 & c2 & M2' & HV & Hc2 & Ht & HF & EF' & _ & HO).
  assert (M2' = M2) as -> by congruence. assert (Eq2 : base + len (stream X 0 segs ++ copy_bytes m2 (cod 16 X) (16 * total segs) c2 ++ [0]) = q) by congruence.
  assert (Hq : base <= q <= base + 5 + 16 * (n / 16)).
  { pose proof (slen X n HX segs HV). pose proof (len_copy X m2 (16 * total segs) c2 Hc2). rewrite !len_app in Eq2. change (len [0]) with 1 in Eq2. lia. }
  destruct HI as (_ & _ & Hin & Hrem & HH & _). rewrite Hin, Hrem.
  destruct (last_ok X n HX (z_hist s) (n / 16) ltac:(lia) HH (Z.to_nat (n - 16 * (n / 16))) q M2 ltac:(lia) ltac:(lia)) as (M3 & E3 & A1 & A2). rewrite Z2Nat.id in * by lia. rewrite E3.
  intros K. assert (Hr : r = w32 (q + (n - 16 * (n / 16)) - pout)) by congruence. assert (HM' : M' = put32 M3 (pout + 4) r) by congruence.
  exists l, w, c. split; [exact HC|]. set (B := endBytes X n l w c) in *. replace (n mod 16) with (n - 16 * (n / 16)) by lia.
  assert (Hr2 : r = 8 + len (B ++ slice (cod 16 X) (16 * (n / 16)) (n - 16 * (n / 16)))).
  { rewrite len_app, len_slice by lia. rewrite Hr. unfold w32. rewrite Z.mod_small by (unfold base in *; lia). unfold base in Eq. lia. }
  split; [exact Hr2|]. rewrite HM'. rewrite len_app, len_slice in Hr2 by lia. apply holds_app. rewrite len_le32. split.
  - apply (holds_keep M1); [apply holds_store|]. rewrite len_le32. intros a Ha. unfold put32 at 1. rewrite store_out by (rewrite ?len_le32; lia). rewrite A2 by (unfold base in *; lia). apply HO. unfold base. lia.
  - apply holds_app. rewrite len_le32. split; [apply holds_store|]. replace (pout + 4 + 4) with base by (unfold base; lia).
    apply (holds_keep M3).
    + apply holds_app. split; [apply (holds_keep M2); [exact Hh|]; intros a Ha; apply A2; lia|]. rewrite <- Eq. apply holds_intro. intros k Hk. rewrite len_slice in Hk by lia. rewrite nth_slice by lia. now apply A1.
    + intros a Ha. unfold put32. apply store_out. rewrite len_le32. unfold base in *. lia.
Qed.

Theorem mz_stream undef M pout In n cap out : byte_mem In -> 1 <= n <= max_in -> (forall j, 0 <= j < 16 -> is_byte (undef j)) ->
  mz_compress undef M pout false false In n cap = COk out ->
  exists l w c, Cut (cod 16 In) (fun w => forall j, 0 <= j < 16 -> undef j < 2 ^ w) (n / 16) 0 l w c /\
    out = le32 n ++ le32 (len out) ++ endBytes In n l w c ++ slice (cod 16 In) (16 * (n / 16)) (n mod 16).
Proof.
  intros HIn Hn HU HC. unfold mz_compress in HC. destruct (false || _ || _ || _); [discriminate|]. destruct (mz_run undef In n M pout) as [[r M']|] eqn:E; [|discriminate].
  destruct (mz_run_bytes undef In n M pout r M' HIn Hn HU E) as (l & w & c & HK & Hr & Hh). assert (HO : out = slice M' pout r) by congruence. exists l, w, c. split; [exact HK|].
  set (B := endBytes In n l w c ++ _) in *. cbv zeta in Hr, Hh. fold B in Hr, Hh. pose proof (len_nonneg B). assert (HL : len out = r) by (rewrite HO; apply len_slice; lia). rewrite HL.
  pose proof (slice_of_holds _ _ _ Hh) as HS. rewrite !len_app, !len_le32 in HS. replace (4 + (4 + len B)) with r in HS by lia. congruence.
Qed.
(** Neither the place nor the content nor the size of the output buffer matter. *)
Theorem mz_memory undef M1 pout1 cap1 M2 pout2 cap2 In n out1 out2 : byte_mem In -> 1 <= n <= max_in -> (forall j, 0 <= j < 16 -> is_byte (undef j)) ->
  mz_compress undef M1 pout1 false false In n cap1 = COk out1 -> mz_compress undef M2 pout2 false false In n cap2 = COk out2 -> out1 = out2.
Proof.
  intros HIn Hn HU H1 H2. destruct (mz_stream undef M1 pout1 In n cap1 out1 HIn Hn HU H1) as (l1 & w1 & c1 & K1 & O1). destruct (mz_stream undef M2 pout2 In n cap2 out2 HIn Hn HU H2) as (l2 & w2 & c2 & K2 & O2).
  destruct (cut_one _ _ _ _ _ _ _ _ _ _ K1 K2) as (-> & -> & ->).
  assert (HL : len out1 = len out2) by (rewrite O1, O2, !len_app, !len_le32; lia). rewrite O1, O2, HL. reflexivity.
Qed.
