(** The 8 bit encoders save what is repeated. *)
From Verif Require Import Base LargeSpec Simd Spec ExtModel ExtDec ExtEnc PktModel PktEnc SaveSpec SaveThm.

Section Save8.
  Context {A : Type} (P : A -> list Z -> list Z -> list Z -> A -> Prop) (B : Z -> Z) (H T k : Z) (In : mem) (n : Z).
  Hypothesis HIn : byte_mem In.
  Hypothesis Hn : 1 <= n <= max_in.
  Hypothesis HB : forall x y, x <= y -> y - x <= B y - B x.
  Hypothesis Hk : H + 2 <= k /\ T + 2 <= k /\ 0 <= H /\ 2 <= T.
  Variable a0 : A.
  Variable rs : list (Z * Z).
  Hypothesis HR : Repetitions 1 In 0 n rs.
  Hypothesis HL : AllLong k rs.

  (** Small headers, no long run refused; for the symbols [Q]. *)
  Definition saves_proc (Q : Z -> Prop) (proc : proc8 A) : Prop :=
    (forall i count sym last a bytes a', Q sym -> 0 <= count -> last <= i - count -> proc In i count sym last a = Some (bytes, a') -> len bytes <= i - count - last + H) /\
    (forall i count sym last a, Q sym -> T <= count -> proc In i count sym last a <> None).

  Definition Bk8 (s : est8 A) : Prop := Booked B 1 k rs (last8 s) (len (out8 s)) (i8 s - count8 s).
  Definition SInv8 (s : est8 A) : Prop := Inv8 P B In n a0 s /\ 0 <= i8 s /\ (count8 s = 0 -> i8 s = 0) /\ Bk8 s.

  Lemma emit8_cut Q proc s p' : proc8_ok P B proc In -> saves_proc Q proc -> Q (sym8 s) -> Inv8 P B In n a0 s -> Bk8 s ->
    (forall a b, List.In (a, b) rs -> i8 s <= b - 1 -> i8 s - count8 s <= a + 1 -> p' <= a + 1) ->
    Booked B 1 k rs (last8 (emit8 proc In s)) (len (out8 (emit8 proc In s))) p'.
  Proof.
    intros HP [HH HT] HQ [[O1 O2 O3 O4] [R1 R2 R3 R4 R5]] HBk Hp.
    apply (Booked_cut B H T 1 k 1 In n HB) with (last := last8 s) (o := len (out8 s)) (p := i8 s - count8 s) (x := i8 s);
      [lia|exact HR|exact HL|exact HBk|exact R2|lia| |exact Hp].
    unfold emit8. destruct (proc In (i8 s) (count8 s) (sym8 s) (last8 s) (aux8 s)) as [[bytes a']|] eqn:E; cbn [last8 out8].
    - right. rewrite len_app. pose proof (HH _ _ _ _ _ _ _ HQ R1 R2 E). pose proof (max_large n ltac:(lia)).
      destruct (HP _ _ _ _ _ _ _ R1 (conj O1 R2) ltac:(lia) R3 R5 E) as (_ & _ & Hc). repeat split; lia.
    - left. repeat split. destruct (Z_lt_ge_dec (i8 s - (i8 s - count8 s)) T) as [|G]; [assumption|].
      exfalso. apply (HT (i8 s) (count8 s) (sym8 s) (last8 s) (aux8 s)); [exact HQ|lia|exact E].
  Qed.

  (** A run does not end inside a repetition. *)
  Lemma run_end a b x count sym : List.In (a, b) rs -> run8 In x count sym -> 0 <= count -> (count = 0 -> x = 0) -> In x <> sym -> x <= b - 1 -> x <= a.
  Proof.
    intros Hin Hrun Hc H0 Hx Hb. destruct (Z_le_gt_dec x a) as [|G]; [assumption|]. exfalso. apply Hx.
    destruct (Repetitions_in 1 In n a b rs 0 ltac:(lia) HR Hin) as (HRep & Ha & Hbn).
    rewrite <- (Hrun (x - 1)) by lia. replace x with (x - 1 + 1) at 1 by lia. apply HRep; lia.
  Qed.

  Lemma scan8_cut W i0 : 2 <= W -> 0 <= i0 < n ->
    exists i, loop (scan8_step W In n) i0 = Some i /\ i0 <= i < n /\
      forall a b, List.In (a, b) rs -> i0 <= a -> i <= a.
  Proof.
    intros HW Hi0.
    apply (loop_inv (scan8_step W In n) (fun i => i0 <= i < n /\ forall a b, List.In (a, b) rs -> i0 <= a -> i <= a) (fun i => Z.max 0 (n - i))
      (fun i => i0 <= i < n /\ forall a b, List.In (a, b) rs -> i0 <= a -> i <= a)); [|split; [lia|intros; lia]|unfold max_in in Hn; lia].
    intros i [Hi Hc]. unfold scan8_step. destruct (i <? n - W) eqn:E; [|split; assumption].
    destruct (lead_spec (fun j => negb (In (i + j) =? In (i + j + 1))) (W - 1)) as (L1 & L2 & _); [lia|].
    set (d := lead _ (W - 1)) in *.
    assert (Hc' : forall a b, List.In (a, b) rs -> i0 <= a -> i + d <= a).
    { intros a b Hin Ha. specialize (Hc a b Hin Ha). destruct (Z_le_gt_dec (i + d) a) as [|G]; [assumption|]. exfalso.
      destruct (Repetitions_in 1 In n a b rs 0 ltac:(lia) HR Hin) as (HRep & Ha' & Hbn).
      pose proof HL as HL'. unfold AllLong in HL'. rewrite Forall_forall in HL'. specialize (HL' _ Hin). cbn [fst snd] in HL'.
      specialize (L2 (a - i) ltac:(lia)). cbv beta in L2. replace (i + (a - i)) with a in L2 by lia. rewrite HRep in L2 by lia. rewrite Z.eqb_refl in L2. discriminate. }
    destruct (d =? W - 1) eqn:Ed; [|split; [lia|exact Hc']].
    replace (W - 1) with d by lia. split; [split; [lia|exact Hc']|lia].
  Qed.

  Lemma simd8_saves proc W s0 : proc8_ok P B proc In -> saves_proc (fun _ => True) proc -> 2 <= W -> SInv8 s0 ->
    exists s1, loop (simd8_step proc W In n) s0 = Some (Some s1) /\ SInv8 s1.
  Proof.
    intros HP HSP HW HS0.
    destruct (loop_inv (simd8_step proc W In n) SInv8 (fun s => Z.max 0 (n - i8 s))
      (fun r => exists s1, r = Some s1 /\ SInv8 s1) s0) as (r & HLp & s1 & -> & H1).
    - intros s HSs. pose proof HSs as (HI & Hi & Hz & HBk). unfold simd8_step. destruct (i8 s <? n - W) eqn:E; [|exists s; split; [reflexivity|exact HSs]].
      set (f := fun j : Z => In (i8 s + j) =? sym8 s).
      destruct (lead_spec f W) as (L1 & L2 & L3); [lia|]. cbv zeta.
      set (s' := mk8 (i8 s + lead f W) (count8 s + lead f W) (sym8 s) (last8 s) (aux8 s) (out8 s)).
      assert (Hgrow : Inv8 P B In n a0 s').
      { destruct HI as [HO [R1 R2 R3 R4 R5]]. split; [exact HO|]. constructor; cbn; try lia; try assumption.
        intros j Hj. destruct (Z_lt_ge_dec j (i8 s)) as [Hj2|Hj2]; [apply R5; lia|].
        specialize (L2 (j - i8 s) ltac:(lia)). unfold f in L2. apply Z.eqb_eq in L2. rewrite <- L2. f_equal. lia. }
      assert (HBk' : Bk8 s').
      { unfold Bk8, s' in *. cbn [last8 out8 i8 count8]. replace (i8 s + lead f W - (count8 s + lead f W)) with (i8 s - count8 s) by lia. exact HBk. }
      assert (Hz' : count8 s' = 0 -> i8 s' = 0). { cbn [s' i8 count8]. destruct HI as [_ [R1 _ _ _ _]]. intros. specialize (Hz ltac:(lia)). lia. }
      destruct (lead f W =? W) eqn:EL.
      + apply Z.eqb_eq in EL. replace W with (lead f W) by exact EL. split; [|cbn [i8]; rewrite EL; lia]. fold s'.
        split; [exact Hgrow|]. split; [cbn [s' i8]; lia|]. split; [exact Hz'|exact HBk'].
      + specialize (L3 ltac:(lia)). unfold f in L3. apply Z.eqb_neq in L3. fold f in L3.
        assert (HEnd : forall a b, List.In (a, b) rs -> i8 s' <= b - 1 -> i8 s' <= a).
        { intros a b Hin Hb. destruct Hgrow as [_ [R1 R2 R3 R4 R5]]. apply (run_end a b (i8 s') (count8 s') (sym8 s')); assumption. }
        set (s1 := if any f W || (1 <? count8 s) then emit8 proc In s' else s).
        assert (Hs1 : (forall p', (forall a b, List.In (a, b) rs -> i8 s' <= b - 1 -> p' <= a + 1) -> Booked B 1 k rs (last8 s1) (len (out8 s1)) p') /\
          i8 s1 = i8 s' /\ OInv8 P B In a0 (last8 s1) (aux8 s1) (out8 s1) /\ last8 s1 <= i8 s1).
        { unfold s1. destruct (any f W || (1 <? count8 s)) eqn:EA.
          - pose proof (emit8_ok P (fun _ _ _ => True) B proc In n a0 s' HP (max_large n (proj2 Hn)) Hgrow) as K. cbv zeta in K. destruct K as (K1 & K2 & K3 & K4).
            split; [|split; [exact K3|split; [exact K1|lia]]]. intros p' Hp'. apply (emit8_cut (fun _ => True)); try assumption; try exact I. intros a b Hin Hb _. now apply (Hp' a b).
          - apply orb_false_iff in EA. destruct EA as [EA1 EA2].
            assert (E0 : lead f W = 0). { destruct (Z.eq_dec (lead f W) 0) as [|N]; [assumption|]. specialize (L2 0 ltac:(lia)). rewrite (any_false f W EA1 0) in L2 by lia. discriminate. }
            destruct HI as [HO [R1 R2 R3 R4 R5]]. cbn [s' i8]. split; [|split; [lia|split; [exact HO|lia]]].
            intros p' Hp'. apply (Booked_cut B H T 1 k 1 In n HB) with (last := last8 s) (o := len (out8 s)) (p := i8 s - count8 s) (x := i8 s);
              [lia|exact HR|exact HL|exact HBk|exact R2|lia|left; repeat split; lia|].
            intros a b Hin Hb _. apply (Hp' a b Hin). cbn [s' i8]. lia. }
        destruct Hs1 as (B1 & B2 & B3 & B4).
        destruct (scan8_cut W (i8 s1)) as (i' & -> & Hi' & Hcut); [lia|rewrite B2; cbn [s' i8]; lia|].
        split; [|cbn [i8]; rewrite B2 in Hi'; cbn [s' i8] in Hi'; lia]. split; [|split; [cbn [i8]; rewrite B2 in Hi'; cbn [s' i8] in Hi'; lia|split; [cbn [count8]; lia|]]].
        * split; [exact B3|]. constructor; cbn; try lia; [apply HIn|]. intros j Hj. f_equal. lia.
        * unfold Bk8. cbn [last8 out8 i8 count8]. apply B1. intros a b Hin Hb. specialize (HEnd a b Hin Hb). specialize (Hcut a b Hin ltac:(lia)). lia.
    - exact HS0.
    - destruct HS0 as (_ & Hi & _). unfold max_in in Hn. lia.
    - exists s1. split; assumption.
  Qed.

  Lemma scalar8_saves proc s0 : proc8_ok P B proc In -> saves_proc (fun _ => True) proc -> SInv8 s0 ->
    exists s1, loop (scalar8_step false proc In n) s0 = Some s1 /\ SInv8 s1 /\ i8 s1 = n.
  Proof.
    intros HP HSP HS0.
    destruct (loop_inv (scalar8_step false proc In n) SInv8 (fun s => Z.max 0 (n - i8 s))
      (fun s1 => SInv8 s1 /\ i8 s1 = n) s0) as (s1 & HLp & H1).
    - intros s HSs. pose proof HSs as (HI & Hi & Hz & HBk). unfold scalar8_step. destruct (i8 s <? n) eqn:E.
      2:{ split; [exact HSs|]. destruct HI as [_ [_ _ _ R4 _]]. lia. }
      pose proof HI as [HO [R1 R2 R3 R4 R5]].
      destruct (In (i8 s) =? sym8 s) eqn:E2.
      + split; [|cbn; lia]. split; [|split; [cbn; lia|split; [cbn; lia|]]].
        * split; [exact HO|]. constructor; cbn; try lia; try assumption. intros j Hj. destruct (Z.eq_dec j (i8 s)) as [->|]; [lia|apply R5; lia].
        * unfold Bk8 in *. cbn [last8 out8 i8 count8]. replace (i8 s + 1 - (count8 s + 1)) with (i8 s - count8 s) by lia. exact HBk.
      + apply Z.eqb_neq in E2. pose proof (emit8_ok P (fun _ _ _ => True) B proc In n a0 s HP (max_large n (proj2 Hn)) HI) as K. cbv zeta in K. destruct K as (K1 & K2 & K3 & K4).
        split; [|cbn; lia]. split; [|split; [cbn; lia|split; [cbn; lia|]]].
        * split; [exact K1|]. constructor; cbn; try lia; [apply HIn|]. intros j Hj. f_equal. lia.
        * unfold Bk8. cbn [last8 out8 i8 count8]. apply (emit8_cut (fun _ => True)); try assumption; try exact I. intros a b Hin Hb _.
          pose proof (run_end a b (i8 s) (count8 s) (sym8 s) Hin R5 R1 Hz E2 Hb). lia.
    - exact HS0.
    - destruct HS0 as (_ & Hi & _). unfold max_in in Hn. lia.
    - exists s1. split; assumption.
  Qed.

  Lemma finish8_saves Q proc tn tls s : proc8_ok P B proc In -> saves_proc Q proc -> Q (sym8 s) -> Inv8 P B In n a0 s -> Bk8 s -> i8 s = n ->
    len (finish8 proc tn tls In s) + saving k rs <= B n + len tn \/
    exists last, 0 <= last <= n /\ len (finish8 proc tn tls In s) + saving k rs <= B last + (n - last) + len (tls (n - last)).
  Proof.
    intros HP [HH HT] HQ HI HBk Hi. pose proof HI as [[O1 O2 O3 O4] [R1 R2 R3 R4 R5]]. unfold finish8.
    destruct (proc In (i8 s) (count8 s) (sym8 s) (last8 s) (aux8 s)) as [[bytes a']|] eqn:E.
    - left. destruct (Booked_end B H T 1 k 1 In n HB ltac:(lia) rs (last8 s) (len (out8 s)) (i8 s - count8 s) (i8 s) (len (out8 s ++ bytes)) HR HL HBk ltac:(lia) ltac:(lia) ltac:(lia)) as [_ HK].
      rewrite app_assoc, len_app. pose proof (HH _ _ _ _ _ _ _ HQ R1 R2 E) as E2.
      pose proof (max_large n ltac:(lia)). destruct (HP _ _ _ _ _ _ _ R1 (conj O1 R2) ltac:(lia) R3 R5 E) as (_ & _ & E3).
      rewrite (len_app (out8 s) bytes) in *. assert (len (out8 s) + len bytes + saving k rs <= B (i8 s)) by (apply HK; split; lia). rewrite Hi in *. lia.
    - right. exists (last8 s). split; [lia|].
      destruct (Booked_end B H T 1 k 1 In n HB ltac:(lia) rs (last8 s) (len (out8 s)) (i8 s - count8 s) (i8 s) (len (out8 s)) HR HL HBk ltac:(lia) ltac:(lia) ltac:(lia)) as [HK _].
      rewrite !len_app, len_slice by lia.
      assert (i8 s - (i8 s - count8 s) < T).
      { destruct (Z_lt_ge_dec (i8 s - (i8 s - count8 s)) T) as [|G]; [assumption|]. exfalso.
        apply (HT (i8 s) (count8 s) (sym8 s) (last8 s) (aux8 s)); [exact HQ|lia|exact E]. }
      assert (len (out8 s) + saving k rs <= B (last8 s)) by (apply HK; split; lia). rewrite Hi. lia.
  Qed.
End Save8.

Lemma body8_saves {A} P B H T k In n (procV procS : proc8 A) tn tls W a0 sym0 body rs :
  byte_mem In -> 1 <= n <= max_in -> (forall x y, x <= y -> y - x <= B y - B x) -> 0 <= B 0 ->
  H + 2 <= k /\ T + 2 <= k /\ 0 <= H /\ 2 <= T ->
  proc8_ok P B procV In -> proc8_ok P B procS In -> saves_proc H T In (fun _ => True) procV -> saves_proc H T In (fun _ => True) procS ->
  2 <= W -> is_byte sym0 -> Repetitions 1 In 0 n rs ->
  body8 procV procS tn tls W In n (mk8 0 0 sym0 0 a0 []) = Some body ->
  len body + saving k rs <= B n + len tn \/
  exists last, 0 <= last <= n /\ len body + saving k rs <= B last + (n - last) + len (tls (n - last)).
Proof.
  intros HIn Hn HB HB0 Hk HPV HPS HSV HSS HW Hs0 HR. rewrite <- (saving_long k rs).
  apply (Repetitions_long 1 In k) in HR.
  assert (HL : AllLong k (filter (long k) rs)).
  { apply Forall_forall. intros [a b] Hin. apply filter_In in Hin. destruct Hin as [_ Hin]. unfold long in Hin. cbn [fst snd] in *. lia. }
  unfold body8.
  assert (HI0 : SInv8 P B k In n a0 (filter (long k) rs) (mk8 0 0 sym0 0 a0 [])).
  { split; [split; constructor; cbn; try lia; try assumption; try constructor; intros j Hj; lia|]. split; [cbn; lia|]. split; [cbn; lia|].
    unfold Bk8. cbn [last8 out8 i8 count8]. apply (Booked_init B H T 1 k 1 In n); try assumption. lia. }
  destruct (simd8_saves P B H T k In n HIn Hn HB Hk a0 _ HR HL procV W _ HPV HSV HW HI0) as (s1 & -> & HI1).
  destruct (scalar8_saves P B H T k In n HIn Hn HB Hk a0 _ HR HL procS _ HPS HSS HI1) as (s2 & -> & HI2 & Hi2).
  intros [= <-]. destruct HI2 as (I1 & _ & _ & I4). eapply (finish8_saves P B H T k In n) with (Q := fun _ => True); try eassumption; exact I.
Qed.
