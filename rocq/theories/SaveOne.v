(** The single symbol codecs save what is repeated of their symbol. *)
From Verif Require Import LargeSpec Base Simd Spec ExtModel ExtDec ExtEnc PktModel PktSpec Fmt8Spec PktDec PktEnc Rle8Model Rle8Proof Rle8Single MbModel MbEnc LutModel SlModel SlProof ShModel ShProof ShEnc
  SaveSpec SaveThm SaveMb SaveFam Save8.

Section One.
  Variables (k sym : Z) (In : mem) (n : Z).
  Hypothesis HIn : byte_mem In.
  Hypothesis Hn : 1 <= n <= max_in.
  Let HnL : n <= large_in := max_large n (proj2 Hn).
  Hypothesis Hk : 17 <= k.
  Variable rs : list (Z * Z).
  Hypothesis HR : Repetitions 1 In 0 n rs.
  Hypothesis HL : AllLong k rs.
  Hypothesis HSym : forall a b x, List.In (a, b) rs -> a <= x < b -> In x = sym.

  Lemma RepO a b : List.In (a, b) rs -> 0 <= a /\ a + k < b /\ b <= n.
  Proof.
    intros Hin. destruct (Repetitions_in 1 In n a b rs 0 ltac:(lia) HR Hin) as (H1 & H2 & H3).
    pose proof HL as HL'. unfold AllLong in HL'. rewrite Forall_forall in HL'. specialize (HL' _ Hin). cbn [fst snd] in HL'. lia.
  Qed.

  Lemma outside a b x : List.In (a, b) rs -> In x <> sym -> x <= b - 1 -> x < a.
  Proof. intros Hin Hx Hb. destruct (Z_lt_ge_dec x a) as [|G]; [assumption|]. exfalso. apply Hx. apply (HSym a b); [exact Hin|lia]. Qed.

  Lemma sscan_cut lim i0 i found : 0 <= i0 < n -> loop (sscan_step lim sym In n) i0 = Some (i, found) ->
    forall a b, List.In (a, b) rs -> i0 <= a -> i <= a.
  Proof.
    intros Hi0 HLp a b Hab Ha. destruct (RepO a b Hab) as (H0 & H1 & H2).
    destruct (loop_inv (sscan_step lim sym In n) (fun i => i0 <= i <= a) (fun i => Z.max 0 (n - i)) (fun '(i, _) => i <= a) i0) as ([i' found'] & HLp' & HQ).
    - clear i found HLp. intros i Hi. unfold sscan_step. destruct (i <? n - 16) eqn:E; [|lia].
      set (f := fun j : Z => In (i + j) =? sym).
      change (In (i + 15) =? sym) with (f 15). change (lead (fun j => negb (In (i + j) =? sym)) 16) with (lead (fun j => negb (f j)) 16).
      assert (Hf : forall j, a - i <= j < b - i -> f j = true).
      { intros j Hj. unfold f. apply Z.eqb_eq. apply (HSym a b); [exact Hab|lia]. }
      destruct (negb (any f 16) || (negb (f 15) && (popcnt f 16 <? lim))) eqn:ES.
      + destruct (Z_lt_ge_dec a (i + 16)) as [G|G]; [|lia]. exfalso. rewrite (Hf 15) in ES by lia. cbn [negb andb] in ES. rewrite orb_false_r in ES.
        apply negb_true_iff in ES. pose proof (any_false f 16 ES (a - i) ltac:(lia)) as K. rewrite Hf in K by lia. discriminate.
      + destruct (lead_spec (fun j => negb (f j)) 16) as (L1 & L2 & L3); [lia|].
        destruct (Z_le_gt_dec (i + lead (fun j => negb (f j)) 16) a) as [|G]; [assumption|]. exfalso.
        specialize (L2 (a - i) ltac:(lia)). cbv beta in L2. rewrite Hf in L2 by lia. discriminate.
    - lia.
    - unfold max_in in Hn. lia.
    - rewrite HLp in HLp'. injection HLp' as <- _. exact HQ.
  Qed.

  Section Any.
    Context {A : Type} (P : A -> list Z -> list Z -> list Z -> A -> Prop) (B : Z -> Z) (H T : Z).
    Hypothesis HB : forall x y, x <= y -> y - x <= B y - B x.
    Hypothesis HkT : H + 2 <= k /\ T + 2 <= k /\ 0 <= H /\ 2 <= T.
    Variable a0 : A.
    Variable proc : proc8 A.
    Hypothesis HP : proc8_ok P B proc In.
    Hypothesis HSP : saves_proc H T In (fun s => s = sym) proc.

    Definition OInvO (s : est8 A) : Prop := Inv8 P B In n a0 s /\ 0 <= i8 s /\ sym8 s = sym /\ Bk8 B k rs s.

    Lemma scalar_one s0 : OInvO s0 -> exists s1, loop (scalar8_step true proc In n) s0 = Some s1 /\ OInvO s1 /\ i8 s1 = n.
    Proof.
      intros HS0.
      destruct (loop_inv (scalar8_step true proc In n) OInvO (fun s => Z.max 0 (n - i8 s)) (fun s1 => OInvO s1 /\ i8 s1 = n) s0) as (s1 & HLp & H1).
      - intros s HSs. pose proof HSs as (HI & Hi & Hsy & HBk). unfold scalar8_step. destruct (i8 s <? n) eqn:E.
        2:{ split; [exact HSs|]. destruct HI as [_ [_ _ _ R4 _]]. lia. }
        pose proof HI as [HO [R1 R2 R3 R4 R5]].
        destruct (In (i8 s) =? sym8 s) eqn:E2.
        + split; [|cbn; lia]. split; [|split; [cbn; lia|split; [exact Hsy|]]].
          * split; [exact HO|]. constructor; cbn; try lia; try assumption. intros j Hj. destruct (Z.eq_dec j (i8 s)) as [->|]; [lia|apply R5; lia].
          * unfold Bk8 in *. cbn [last8 out8 i8 count8]. replace (i8 s + 1 - (count8 s + 1)) with (i8 s - count8 s) by lia. exact HBk.
        + apply Z.eqb_neq in E2. rewrite Hsy in E2. pose proof (emit8_ok P (fun _ _ _ => True) B proc In n a0 s HP (max_large n (proj2 Hn)) HI) as K. cbv zeta in K. destruct K as (K1 & K2 & K3 & K4).
          split; [|cbn; lia]. split; [|split; [cbn; lia|split; [exact Hsy|]]].
          * split; [exact K1|]. constructor; cbn; try lia; try assumption. intros j Hj. lia.
          * unfold Bk8. cbn [last8 out8 i8 count8]. apply (emit8_cut P B H T k In n Hn HB HkT a0 rs HR HL (fun s => s = sym)); try assumption.
            intros a b Hin Hb _. pose proof (outside a b (i8 s) Hin E2 Hb). lia.
      - exact HS0.
      - destruct HS0 as (_ & Hi & _). unfold max_in in Hn. lia.
      - exists s1. split; assumption.
    Qed.

    Lemma finish_one tn tls s : OInvO s -> i8 s = n ->
      len (finish8 proc tn tls In s) + saving k rs <= B n + len tn \/
      exists last, 0 <= last <= n /\ len (finish8 proc tn tls In s) + saving k rs <= B last + (n - last) + len (tls (n - last)).
    Proof.
      intros (HI & _ & Hsy & HBk) Hi. apply (finish8_saves P B H T k In n Hn HB HkT a0 rs HR HL (fun s => s = sym)); assumption.
    Qed.
  End Any.

  Section Sh.
    Context (P : list (list Z) -> list Z -> list Z -> list Z -> list (list Z) -> Prop) (B : Z -> Z) (H T : Z).
    Hypothesis HB : forall x y, x <= y -> y - x <= B y - B x.
    Hypothesis HkT : H + 2 <= k /\ T + 2 <= k /\ 0 <= H /\ 2 <= T.
    Variable a0 : list (list Z).
    Variable proc : proc8 (list (list Z)).
    Hypothesis HP : proc8_ok P B proc In.
    Hypothesis HSP : saves_proc H T In (fun s => s = sym) proc.
    Notation OInvO := (OInvO P B a0).

    Lemma sh_one s0 : OInvO s0 -> exists s1, loop (sh_single_step proc In n) s0 = Some (Some s1) /\ OInvO s1.
    Proof.
      intros HS0.
      destruct (loop_inv (sh_single_step proc In n) OInvO (fun s => Z.max 0 (n - i8 s)) (fun r => exists s1, r = Some s1 /\ OInvO s1) s0) as (r & HLp & s1 & -> & H1).
      - intros s HSs. pose proof HSs as (HI & Hi & Hsy & HBk). unfold sh_single_step. cbv zeta. destruct (i8 s <? n - 16) eqn:E; [|exists s; split; [reflexivity|exact HSs]].
        rewrite Hsy. set (f := fun j : Z => In (i8 s + j) =? sym).
        destruct (lead_spec f 16) as (L1 & L2 & L3); [lia|].
        set (s' := mk8 (i8 s + lead f 16) (count8 s + lead f 16) sym (last8 s) (aux8 s) (out8 s)).
        assert (Hgrow : Inv8 P B In n a0 s').
        { destruct HI as [HO [R1 R2 R3 R4 R5]]. rewrite Hsy in R3, R5. split; [exact HO|]. constructor; cbn [s' i8 count8 sym8 last8 aux8 out8]; try lia; try assumption.
          intros j Hj. destruct (Z_lt_ge_dec j (i8 s)) as [Hj2|Hj2]; [apply R5; lia|].
          specialize (L2 (j - i8 s) ltac:(lia)). unfold f in L2. apply Z.eqb_eq in L2. rewrite <- L2. f_equal. lia. }
        assert (HBk' : Bk8 B k rs s').
        { unfold Bk8, s' in *. cbn [last8 out8 i8 count8]. replace (i8 s + lead f 16 - (count8 s + lead f 16)) with (i8 s - count8 s) by lia. exact HBk. }
        destruct (lead f 16 =? 16) eqn:EL.
        + apply Z.eqb_eq in EL. split; [|cbn [i8]; lia]. unfold s' in Hgrow, HBk'. rewrite EL in Hgrow, HBk'.
          split; [exact Hgrow|]. split; [cbn [i8]; lia|]. split; [reflexivity|exact HBk'].
        + specialize (L3 ltac:(lia)). assert (HX : In (i8 s') <> sym) by (cbn [s' i8]; unfold f in L3; fold f in L3; lia). 
          set (s1 := if any f 16 || (1 <? count8 s) then emit8 proc In s' else s).
          assert (Hs1 : (forall p', (forall a b, List.In (a, b) rs -> i8 s' < a -> p' <= a + 1) -> Booked B 1 k rs (last8 s1) (len (out8 s1)) p') /\
            i8 s1 = i8 s' /\ OInv8 P B In a0 (last8 s1) (aux8 s1) (out8 s1) /\ last8 s1 <= i8 s1 /\ sym8 s1 = sym).
          { unfold s1. destruct (any f 16 || (1 <? count8 s)) eqn:EA.
            - pose proof (emit8_ok P (fun _ _ _ => True) B proc In n a0 s' HP (max_large n (proj2 Hn)) Hgrow) as K. cbv zeta in K. destruct K as (K1 & K2 & K3 & K4).
              split; [|split; [exact K3|split; [exact K1|split; [lia|exact K4]]]]. intros p' Hp'.
              apply (emit8_cut P B H T k In n Hn HB HkT a0 rs HR HL (fun s => s = sym)); try assumption; [reflexivity|]. intros a b Hin Hb _. apply (Hp' a b Hin). now apply (outside a b).
            - apply orb_false_iff in EA. destruct EA as [EA1 EA2].
              assert (E0 : lead f 16 = 0). { destruct (Z.eq_dec (lead f 16) 0) as [|N]; [assumption|]. specialize (L2 0 ltac:(lia)). rewrite (any_false f 16 EA1 0) in L2 by lia. discriminate. }
              destruct HI as [HO [R1 R2 R3 R4 R5]]. cbn [s' i8]. split; [|split; [lia|split; [exact HO|split; [lia|exact Hsy]]]].
              intros p' Hp'. apply (Booked_cut B H T 1 k 1 In n HB) with (last := last8 s) (o := len (out8 s)) (p := i8 s - count8 s) (x := i8 s);
                [lia|exact HR|exact HL|exact HBk|exact R2|lia|left; repeat split; lia|].
              intros a b Hin Hb _. apply (Hp' a b Hin). cbn [s' i8] in *. replace (i8 s + lead f 16) with (i8 s) in * by lia. now apply (outside a b). }
          destruct Hs1 as (B1 & B2 & B3 & B4 & B5).
          assert (Hx1 : 0 <= i8 s1 < n) by (rewrite B2; cbn [s' i8]; lia).
          destruct (sscan_ok 2 sym In n (i8 s1)) as (i' & found & HSc & Hi' & Hf & _); [lia|exact Hx1|lia|].
          rewrite HSc. pose proof (sscan_cut 2 (i8 s1) i' found Hx1 HSc) as Hcut.
          split; [|cbn [i8]; rewrite B2 in Hi'; cbn [s' i8] in Hi'; lia]. split; [|split; [cbn [i8]; lia|split; [exact B5|]]].
          * destruct Hgrow as [_ [_ _ R3 _ _]]. split; [exact B3|]. rewrite B5. constructor; cbn; try (destruct found; lia); [exact R3|].
            intros j Hj. destruct found; [|lia]. rewrite <- (Hf eq_refl). f_equal. lia.
          * unfold Bk8. cbn [last8 out8 i8 count8]. apply B1. intros a b Hin Hb. specialize (Hcut a b Hin ltac:(lia)). destruct found; lia.
      - exact HS0.
      - destruct HS0 as (_ & Hi & _). unfold max_in in Hn. lia.
      - exists s1. split; assumption.
    Qed.
  End Sh.

  (** rle8_single: packets may cost two bytes more than they stand for, paid by a run behind. *)
  Section Rle8.
    Variable pk : bool.
    Notation SH := (sSHORT pk).
    Notation SInv := (SInv_ pk sym In n).
    Notation debt := (debt_ pk sym In n).

    Definition sD (x : Z) : Z := if pk then sB true x else x.
    Definition BkS (i0 last w : Z) (out : list Z) (p : Z) : Prop :=
      exists D, (D = 0 \/ pk = false /\ D = 2 /\ debt i0 last w) /\ Booked sD 1 k rs last (len out - D) p.

    Lemma sD_mono x y : x <= y -> y - x <= sD y - sD x.
    Proof. intros Hx. unfold sD, sB. destruct pk; lia. Qed.
    Lemma HkS : 10 + 2 * 1 <= k /\ 10 + 2 * 1 <= k /\ 1 <= 1 /\ 0 <= 10.
    Proof. lia. Qed.

    Lemma s_decide_cut s s1 :
      SInv s -> BkS (ss_i s - ss_count s) (ss_last s) (ss_w s) (ss_out s) (ss_i s - ss_count s) ->
      ss_i s < n -> In (ss_i s) <> sym -> ss_i s - ss_count s < n - 16 -> s_decide pk sym In n s = Some s1 ->
      forall p', (forall a b, List.In (a, b) rs -> ss_i s1 <= a -> p' <= a + 1) ->
      BkS (ss_i s1) (ss_last s1) (ss_w s1) (ss_out s1) p'.
    Proof.
      intros [HO Hc Hl Hi Hr Hcost Hw] (D & HD & HBk) Hin Hne H16 HDec p' Hp'. pose proof (sSHORT_pos pk) as HSH.
      pose proof HO as [O1 _ O3 _]. unfold s_decide in HDec. cbv zeta in HDec. set (i := ss_i s) in *. set (count := ss_count s) in *. set (last := ss_last s) in *.
      set (w := ss_w s) in *. set (first := ss_first s) in *. set (out := ss_out s) in *.
      (* the run ends at i *)
      assert (Hcut : forall o' last', (forall a b, List.In (a, b) rs -> i <= a -> p' <= a + 1) ->
        (o' = len out - D /\ last' = last /\ count < 10 \/ last' = i /\ o' <= len out - D + (i - count - last) + 10 /\ o' - (len out - D) + sD last <= sD i) ->
        Booked sD 1 k rs last' o' p').
      { intros o' last' HP Ho. apply (Booked_cut sD 10 10 1 k 1 In n sD_mono HkS) with (last := last) (o := len out - D) (p := i - count) (x := i);
          [exact HR|exact HL|exact HBk|lia|lia|replace (i - (i - count)) with count by lia; exact Ho|].
        intros a b Hab Hb _. pose proof (outside a b i Hab Hne Hb). apply (HP a b Hab). lia. }
      destruct (SH <=? count) eqn:E1.
      2:{ assert (s1 = s) by congruence. subst s1. fold i last w out in Hp' |- *. exists D. split.
          - destruct HD as [HD|(Hpk & HD & Hw0 & a & c & D1 & D2 & D3 & D4 & D5)]; [now left|right]. split; [exact Hpk|]. split; [exact HD|].
            split; [exact Hw0|]. exists a, c. repeat (split; [assumption|]). split; [|split; assumption].
            destruct (Z_lt_ge_dec a i) as [K|K]; [|lia]. exfalso. destruct (Z_lt_ge_dec i (a + c)) as [K2|K2]; [apply Hne; apply D1; lia|lia].
          - apply Hcut; [exact Hp'|]. left. lia. }
      destruct (i - last - count + 1 <=? 255) eqn:E2.
      { assert (ES : s1 = mkS i count i (out ++ s_packet_short pk In i count last) 0 first) by congruence. subst s1. cbn [ss_last ss_out ss_i ss_w ss_first] in *.
        exists 0. split; [now left|]. rewrite Z.sub_0_r. apply Hcut; [exact Hp'|]. right. split; [reflexivity|].
        assert (Hlen : len (s_packet_short pk In i count last) = (if count - SH + 1 <=? 255 then 1 else 5) + 1 + (i - count - last)).
        { unfold s_packet_short. rewrite !len_app, len_s_count, len_slice by lia. change (len [w8 (i - last - count + 1)]) with 1. lia. }
        rewrite len_app, Hlen. assert (HD2 : D = 0 \/ pk = false /\ D = 2) by tauto. clear HDec Hcut Hp'.
        unfold sD, sB. destruct (count - SH + 1 <=? 255) eqn:E3; destruct pk; cbn [sSHORT] in *; destruct HD2 as [->|(Hpk & ->)]; try discriminate; lia. }
      assert (HD0 : D = 0).
      { destruct HD as [HD|(_ & _ & _ & a & c & _ & _ & D3 & _ & D5)]; [exact HD|]. lia. }
      subst D. rewrite Z.sub_0_r in *.
      destruct (s_accept_long pk count) eqn:E3.
      { assert (ES : s1 = mkS i count i (out ++ s_packet_long pk In i count last) 0 first) by congruence. subst s1. cbn [ss_last ss_out ss_i ss_w ss_first] in *.
        exists 0. split; [now left|]. rewrite Z.sub_0_r. apply Hcut; [exact Hp'|]. right. split; [reflexivity|].
        assert (Hlen : len (s_packet_long pk In i count last) = (if count - SH + 1 <=? 255 then 1 else 5) + 5 + (i - count - last)).
        { unfold s_packet_long. rewrite !len_app, len_s_count, len_slice, len_cons, len_le32 by lia. lia. }
        assert (Hlen2 : (if count - SH + 1 <=? 255 then 1 else 5) + 5 <= count).
        { unfold s_accept_long, sMEDIUM in E3. destruct (count - sSHORT pk + 1 <=? 255) eqn:E4; destruct pk; cbn [sSHORT sLONG andb] in *; lia. }
        rewrite len_app, Hlen. pose proof (sD_mono last i ltac:(lia)). destruct (count - SH + 1 <=? 255); lia. }
      assert (Hc10 : count < 10). { unfold s_accept_long in E3. destruct pk; cbn [sLONG] in E3; lia. }
      destruct ((w + 1 =? 1) || (255 <? w64 (i - first))) eqn:E4.
      { assert (ES : s1 = mkS i count last out 1 (i - count)) by congruence. subst s1. cbn [ss_last ss_out ss_i ss_w ss_first] in *.
        exists 0. split; [now left|]. rewrite Z.sub_0_r. apply Hcut; [exact Hp'|]. left. lia. }
      apply orb_false_iff in E4. destruct E4 as [E4 E5].
      destruct Hw as [Hw1 Hw2]. destruct (Hw2 ltac:(lia)) as (c1 & W1 & W2 & W3 & W4 & W5).
      destruct (2 <? w + 1) eqn:E6.
      - destruct (W5 ltac:(lia)) as (a2 & c2 & V1 & V2 & V3 & V4 & V5).
        rewrite (recount_ok pk sym In n (max_large1 n Hn) first c1 W1) in HDec by lia.
        assert (ES : s1 = mkS (first + c1) c1 (first + c1) (out ++ s_packet_wasted pk In (first + c1) c1 last) 0 first) by congruence.
        subst s1. cbn [ss_last ss_out ss_i ss_w ss_first] in *. destruct W1 as (W1a & W1b & W1c & W1d).
        assert (Hlen : len (s_packet_wasted pk In (first + c1) c1 last) = 6 + (first - last)).
        { unfold s_packet_wasted. rewrite !len_app, len_slice, !len_cons, len_le32 by lia. change (len (@nil Z)) with 0. lia. }
        destruct HBk as (done & rest & ER & HS & Hp).
        exists (if pk then 0 else 2). split.
        + destruct pk; [now left|right]. split; [reflexivity|]. split; [reflexivity|]. split; [reflexivity|]. exists a2, c2. repeat (split; [assumption|]). lia.
        + exists done, rest. split; [exact ER|]. split.
          * rewrite len_app, Hlen. unfold sD, sB in *. destruct pk; cbn [sSHORT] in *; lia.
          * destruct rest as [|[a b] rest]; [exact I|].
            assert (Hab : List.In (a, b) rs) by (rewrite ER; apply in_or_app; right; now left).
            apply (Hp' a b Hab). destruct (Z_le_gt_dec (first + c1) a) as [|G]; [assumption|]. exfalso. apply W1b. apply (HSym a b); [exact Hab|].
            destruct (RepO a b Hab) as (_ & K & _). lia.
      - assert (ES : s1 = mkS i count last out (w + 1) first) by congruence. subst s1. cbn [ss_last ss_out ss_i ss_w ss_first] in *.
        exists 0. split; [now left|]. rewrite Z.sub_0_r. apply Hcut; [exact Hp'|]. left. lia.
    Qed.

    Definition SBk (s : sst) : Prop := SInv s /\ BkS (ss_i s - ss_count s) (ss_last s) (ss_w s) (ss_out s) (ss_i s - ss_count s).

    Lemma single_step_cut s : SBk s ->
      match single_step pk sym In n s with
      | inl s' => SBk s' /\ 0 <= smeasure n s' < smeasure n s
      | inr r => exists s', r = Some s' /\ SBk s'
      end.
    Proof.
      intros [HI HBk]. pose proof (single_step_ok pk sym In n HIn (max_large1 n Hn) s HI) as HOK.
      enough (K : match single_step pk sym In n s with
        | inl s' => BkS (ss_i s' - ss_count s') (ss_last s') (ss_w s') (ss_out s') (ss_i s' - ss_count s')
        | inr r => forall s', r = Some s' -> BkS (ss_i s' - ss_count s') (ss_last s') (ss_w s') (ss_out s') (ss_i s' - ss_count s') end).
      { destruct (single_step pk sym In n s) as [s'|r].
        - destruct HOK as [H1 H2]. split; [split; assumption|exact H2].
        - destruct HOK as (s' & Hr & Hs'). exists s'. split; [exact Hr|]. split; [exact Hs'|]. now apply K. }
      clear HOK. pose proof HI as [HO Hc Hl Hi Hr Hcost Hw]. pose proof (sSHORT_pos pk) as HSH. unfold single_step.
      destruct (ss_i s <? n - 16) eqn:E; [|intros s' [= <-]; exact HBk].
      set (f := fun j : Z => In (ss_i s + j) =? sym).
      destruct (lead_spec f 16) as (L1 & L2 & L3); [lia|].
      pose proof HO as [O1 _ _ _].
      set (s' := mkS (ss_i s + lead f 16) (ss_count s + lead f 16) (ss_last s) (ss_out s) (ss_w s) (ss_first s)).
      assert (Hd : ss_i s' - ss_count s' = ss_i s - ss_count s) by (cbn [s' ss_i ss_count]; lia).
      assert (Hgrow : SInv s').
      { constructor; rewrite ?Hd; cbn [s' ss_i ss_count ss_last ss_out ss_w ss_first]; try assumption; try lia.
        intros k' Hk'. destruct (Z_lt_ge_dec k' (ss_i s)) as [Hk2|Hk2]; [apply Hr; lia|].
        specialize (L2 (k' - ss_i s) ltac:(lia)). unfold f in L2. apply Z.eqb_eq in L2. rewrite <- L2. f_equal. lia. }
      assert (HBk' : BkS (ss_i s' - ss_count s') (ss_last s') (ss_w s') (ss_out s') (ss_i s' - ss_count s')) by (rewrite Hd; exact HBk).
      destruct (lead f 16 =? 16) eqn:EL.
      { apply Z.eqb_eq in EL. unfold s' in HBk'. rewrite EL in HBk'. exact HBk'. }
      specialize (L3 ltac:(lia)). change (In (ss_i s + lead f 16) =? sym = false) in L3. apply Z.eqb_neq in L3.
      assert (Hmid : exists s1, (if any f 16 || (1 <? ss_count s) then s_decide pk sym In n s' else Some s) = Some s1 /\
        0 <= ss_i s1 < n /\ (forall p', (forall a b, List.In (a, b) rs -> ss_i s1 <= a -> p' <= a + 1) ->
          BkS (ss_i s1) (ss_last s1) (ss_w s1) (ss_out s1) p')).
      { destruct (any f 16 || (1 <? ss_count s)) eqn:EA.
        - destruct (s_decide_ok pk sym In n HIn (max_large1 n Hn) s' Hgrow) as (s1 & Hs1 & _ & _ & P3 & _); try (cbn [s' ss_i ss_count]; lia).
          exists s1. split; [exact Hs1|]. split; [exact P3|]. apply (s_decide_cut s'); try assumption; cbn [s' ss_i ss_count]; lia.
        - apply orb_false_iff in EA. destruct EA as [EA1 EA2]. exists s. split; [reflexivity|]. split; [lia|]. intros p' Hp'.
          pose proof (any_false f 16 EA1 0 ltac:(lia)) as K3. unfold f in K3. rewrite Z.add_0_r in K3. apply Z.eqb_neq in K3.
          destruct HBk as (D & HD & HBk). exists D. split.
          + destruct HD as [HD|(Hpk & HD & Hw0 & a & c & D1 & D2 & D3 & D4 & D5)]; [now left|right]. split; [exact Hpk|]. split; [exact HD|].
            split; [exact Hw0|]. exists a, c. repeat (split; [assumption|]). split; [|split; assumption].
            destruct (Z_lt_ge_dec a (ss_i s)) as [K2|K2]; [|lia]. exfalso. apply K3. apply D1. lia.
          + apply (Booked_cut sD 10 10 1 k 1 In n sD_mono HkS) with (last := ss_last s) (o := len (ss_out s) - D) (p := ss_i s - ss_count s) (x := ss_i s);
              [exact HR|exact HL|exact HBk|lia|lia|left; repeat split; lia|].
            intros a b Hab Hb _. pose proof (outside a b (ss_i s) Hab K3 Hb). apply (Hp' a b Hab). lia. }
      destruct Hmid as (s1 & -> & P3 & P4).
      destruct (sscan_ok SH sym In n (ss_i s1)) as (i' & found & HLp & Hi' & Hfound & Hpass); try lia.
      rewrite HLp. pose proof (sscan_cut SH (ss_i s1) i' found P3 HLp) as Hcut. cbn [ss_i ss_count ss_last ss_out ss_w ss_first].
      assert (Hpos : i' + 1 - (if found then 1 else 0) = if found then i' else i' + 1) by (destruct found; lia). rewrite Hpos.
      destruct (P4 (if found then i' else i' + 1)) as (D & HD & HB').
      { intros a b Hab Ha. specialize (Hcut a b Hab Ha). destruct found; lia. }
      exists D. split; [|exact HB']. destruct HD as [HD|(Hpk & HD & Hw0 & a & c & D1 & D2 & D3 & D4 & D5)]; [now left|right].
      split; [exact Hpk|]. split; [exact HD|]. split; [exact Hw0|]. exists a, c. destruct (Hpass a c D1 D2 D3 D4) as [-> Hia]. repeat (split; [assumption|]). assumption.
    Qed.

    Lemma single_loop_cut : exists s1, loop (single_step pk sym In n) (mkS 0 0 0 [] 0 0) = Some (Some s1) /\ SBk s1.
    Proof.
      destruct (loop_inv (single_step pk sym In n) SBk (smeasure n) (fun r => exists s', r = Some s' /\ SBk s') (mkS 0 0 0 [] 0 0))
        as (r & HLp & s1 & -> & H1).
      - intros s Hs. now apply single_step_cut.
      - split.
        + constructor; cbn; try lia.
          * constructor; cbn; try lia; try constructor. unfold sB. destruct pk; cbn; lia.
          * intros j Hj. lia.
          * intros _. left. reflexivity.
          * split; [left; reflexivity|lia].
        + exists 0. split; [now left|]. cbn [ss_i ss_count ss_last ss_out]. apply (Booked_init sD 10 10 1 k 1 In n sD_mono HkS rs); [|exact HR]. unfold sD, sB. destruct pk; cbn; lia.
      - unfold smeasure. cbn. unfold max_in in Hn. nia.
      - exists s1. split; [exact HLp|exact H1].
    Qed.

    Lemma s_saves_proc : saves_proc 10 10 In (fun s => s = sym) (s_procR pk sym).
    Proof.
      pose proof (sSHORT_pos pk) as HSH. split.
      - intros i count sy last a bytes a' -> Hc Hl HE. unfold s_procR in HE. rewrite Z.eqb_refl in HE. unfold s_procS in HE.
        destruct (_ && _) eqn:E; [injection HE as <- <-; unfold s_packet_short; rewrite !len_app, len_s_count, len_slice by lia; change (len [w8 (i - last - count + 1)]) with 1; clear - Hl; destruct (_ <=? _); lia|].
        destruct (sLONG pk <=? count) eqn:E2; [|discriminate]. injection HE as <- <-. unfold s_packet_long. rewrite !len_app, len_s_count, len_slice, len_cons, len_le32 by lia. clear - Hl. destruct (_ <=? _); lia.
      - intros i count sy last a -> Hl HE. unfold s_procR in HE. rewrite Z.eqb_refl in HE. unfold s_procS in HE.
        destruct (_ && _) eqn:E; [discriminate|]. destruct (sLONG pk <=? count) eqn:E2; [discriminate|]. destruct pk; cbn [sLONG] in E2; lia.
    Qed.
  End Rle8.
End One.

(** *** rle8_single, rle8_packed_single *)
Theorem s_saves pk : SavesSymbol 9 17 (s_compress pk false false) (sbound pk).
Proof.
  intros In n cap out rs HIn Hn HC HR HSym0.
  unfold s_compress in HC. apply guard_ok in HC; [|discriminate]. destruct HC as [_ HC].
  destruct (approx_symbol_ok In n (max_large1 n Hn)) as (sym & HA & Hsym). rewrite HA in HC.
  rewrite <- (saving_long 17). set (rs' := filter (long 17) rs).
  assert (HR' : Repetitions 1 In 0 n rs') by (now apply Repetitions_long).
  assert (HL : AllLong 17 rs') by apply AllLong_filter.
  destruct (loop (single_step pk sym In n) (mkS 0 0 0 [] 0 0)) as [[s1|]|] eqn:E1; try discriminate.
  destruct (loop (scalar8_step true (s_procS pk) In n) (mk8 (ss_i s1) (ss_count s1) sym (ss_last s1) tt (ss_out s1))) as [s2|] eqn:E2; [|discriminate].
  set (body := finish8 (s_procS pk) s_term_none s_term_lits In s2) in *.
  assert (EO : out = le32 n ++ le32 (10 + len body) ++ [1] ++ [sym] ++ body) by congruence. subst out. clear HC.
  assert (HSym : forall a b x, List.In (a, b) rs' -> a <= x < b -> In x = sym).
  { intros a b x Hab Hx. apply filter_In in Hab. destruct Hab as [Hab _]. apply (HSym0 a b x Hab Hx). }
  clear HSym0.
  destruct (single_loop_cut 17 sym In n HIn Hn ltac:(lia) rs' HR' HL HSym pk) as (s1' & E1' & HI & D & HD & HBk).
  rewrite E1 in E1'. assert (s1' = s1) by congruence. subst s1'. clear E1'.
  pose proof HI as [HO Hc Hl Hi Hr Hcost Hw].
  pose proof (s_proc8_ok pk sym In HIn) as HP.
  assert (HBm : forall x y, x <= y -> y - x <= sB pk y - sB pk x) by (intros x y Hx; unfold sB; destruct pk; lia).
  assert (HS1 : OInvO 17 sym In n rs' (S8Packet pk sym) (sB pk) tt (mk8 (ss_i s1) (ss_count s1) sym (ss_last s1) tt (ss_out s1))).
  { split; [|split; [cbn; lia|split; [reflexivity|]]].
    - split; [exact HO|]. constructor; cbn; try assumption; lia.
    - unfold Bk8. cbn [last8 out8 i8 count8]. destruct HBk as (done & rest & ER & HS & Hp). exists done, rest. split; [exact ER|]. split; [|exact Hp].
      unfold sD, sB in *. assert (HD2 : D = 0 \/ pk = false /\ D = 2) by tauto. clear - HS HD2. destruct pk; destruct HD2 as [->|[Hpk ->]]; try discriminate; lia. }
  destruct (scalar_one 17 sym In n Hn rs' HR' HL HSym (S8Packet pk sym) (sB pk) 10 10 HBm ltac:(lia) tt (s_procR pk sym) HP (s_saves_proc sym In rs' HSym pk) _ HS1) as (s2' & E2' & HS2 & Hi2).
  rewrite scalar_loop_restrict in E2' by reflexivity. rewrite E2 in E2'. assert (s2' = s2) by congruence. subst s2'. clear E2'.
  pose proof (finish_one 17 sym In n Hn rs' HR' HL (S8Packet pk sym) (sB pk) 10 10 HBm ltac:(lia) tt (s_procR pk sym) HP (s_saves_proc sym In rs' HSym pk) s_term_none s_term_lits s2 HS2 Hi2) as HF.
  assert (Hfin : finish8 (s_procR pk sym) s_term_none s_term_lits In s2 = body).
  { destruct HS2 as (_ & _ & Hs2 & _). unfold body, finish8, s_procR. rewrite Hs2, Z.eqb_refl. reflexivity. }
  rewrite Hfin in HF. rewrite !len_app, !len_le32. change (len [1]) with 1. change (len [sym]) with 1.
  change (len s_term_none) with 10 in HF. assert (L2 : forall j, len (s_term_lits j) = 10) by (intros j; reflexivity).
  unfold sbound, sB in *. destruct HF as [HF|(last & Hlast & HF)]; [|rewrite L2 in HF]; destruct pk; lia.
Qed.

(** *** rle8_short_single *)
Theorem sh_saves_one c v : List.In c shcodecs -> shOne c = true -> SavesSymbol 8 17 (sh_compress c v false false) shsize.
Proof.
  intros Hc0 Ho In n cap out rs HIn Hn HC HR HSym0. apply shcodecs_ok in Hc0. rename Hc0 into Hc. pose proof Hc as (_ & _ & _ & H1). destruct (H1 Ho) as [E1 E0].
  unfold sh_compress, sh_wrap in HC. apply guard_ok in HC; [|discriminate]. destruct HC as [_ HC].
  unfold sh_body in HC. rewrite Ho in HC. unfold sh_body_single in HC. cbv zeta in HC.
  set (proc := fun In i count sym last a => sh_proc c In i count [sym] last a) in HC.
  destruct (approx_symbol_ok In n (max_large1 n Hn)) as (sym & HA & Hsym). rewrite HA in HC.
  rewrite <- (saving_long 17). set (rs' := filter (long 17) rs).
  assert (HR' : Repetitions 1 In 0 n rs') by (now apply Repetitions_long).
  assert (HL : AllLong 17 rs') by apply AllLong_filter.
  destruct (loop (sh_single_step proc In n) (mk8 0 0 sym 0 [] [])) as [[s1|]|] eqn:EL1; try discriminate.
  destruct (loop (scalar8_step true proc In n) s1) as [s2|] eqn:EL2; [|discriminate].
  set (body := finish8 proc (sh_term_none c) (sh_term_lits c) In s2) in *.
  assert (EO : out = le32 n ++ le32 (8 + len (sym :: body)) ++ sym :: body) by congruence. subst out. clear HC.
  assert (HSym : forall a b x, List.In (a, b) rs' -> a <= x < b -> In x = sym).
  { intros a b x Hab Hx. apply filter_In in Hab. destruct Hab as [Hab _]. apply (HSym0 a b x Hab Hx). }
  clear HSym0.
  assert (HP : proc8_ok (ShG c sym) shB (procR proc sym) In).
  { apply sh_proc8_ok; try assumption. unfold procR, proc. intros In0 i count sym1 last a bytes a' H.
    destruct (sym1 =? sym) eqn:E; [|discriminate]. split; [exact H|]. intros _. lia. }
  assert (HSP : saves_proc 12 13 In (fun s => s = sym) (procR proc sym)).
  { split.
    - intros i count sy last a bytes a' -> A1 A2 A3. unfold procR in A3. rewrite Z.eqb_refl in A3.
      pose proof (sh_head_le c In i count [sym] last a bytes a' A1 A2 ltac:(rewrite E1; reflexivity) ltac:(lia) A3). lia.
    - intros i count sy last a -> A1. unfold procR. rewrite Z.eqb_refl. apply sh_long; lia. }
  assert (HS0 : OInvO 17 sym In n rs' (ShG c sym) shB [] (mk8 0 0 sym 0 [] [])).
  { split; [|split; [cbn; lia|split; [reflexivity|]]].
    - split; constructor; cbn; try lia; try assumption; try constructor. intros j Hj. lia.
    - unfold Bk8. cbn. apply (Booked_init shB 12 13 1 17 1 In n shB_mono ltac:(lia) rs'); [apply shB0|exact HR']. }
  destruct (sh_one 17 sym In n Hn ltac:(lia) rs' HR' HL HSym (ShG c sym) shB 12 13 shB_mono ltac:(lia) [] (procR proc sym) HP HSP _ HS0) as (s1' & EL1' & HS1).
  rewrite single_restr in EL1' by reflexivity. rewrite EL1 in EL1'. assert (s1' = s1) by congruence. subst s1'. clear EL1'.
  destruct (scalar_one 17 sym In n Hn rs' HR' HL HSym (ShG c sym) shB 12 13 shB_mono ltac:(lia) [] (procR proc sym) HP HSP _ HS1) as (s2' & EL2' & HS2 & Hi2).
  rewrite scalar_restr in EL2' by apply HS1. rewrite EL2 in EL2'. assert (s2' = s2) by congruence. subst s2'. clear EL2'.
  pose proof (finish_one 17 sym In n Hn rs' HR' HL (ShG c sym) shB 12 13 shB_mono ltac:(lia) [] (procR proc sym) HP HSP (sh_term_none c) (sh_term_lits c) s2 HS2 Hi2) as HF.
  rewrite finish_restr in HF by apply HS2. fold body in HF.
  pose proof (shsize_end c body n n (saving 17 rs') Hc ltac:(lia) HF) as HE. rewrite !len_app, !len_le32, len_cons. lia.
Qed.
