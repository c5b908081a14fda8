(** The 128 bit encoders save what is repeated. *)
From Verif Require Import LargeSpec Base Simd Spec ExtModel ExtDec ExtEnc PktModel MbModel MbEnc LutModel SlModel SlProof ShModel ShProof SameThm SaveSpec SaveThm SaveMb SaveFam.

Lemma highest_is f m : 0 <= highest_nat f m -> f (highest_nat f m) = true.
Proof. induction m as [|m IH]; cbn [highest_nat]; [lia|]. destruct (f (Z.of_nat m)) eqn:E; [intros _; exact E|exact IH]. Qed.

Lemma packet_fields c In st : packet c In st = packet c In (mkE (e_i st) (e_count st) (e_sym st) (e_last st) (e_lsym st) [] false).
Proof. reflexivity. Qed.

Section Save128.
  Variables (c : xcfg) (In : mem) (n : Z) (v : simd).
  Hypothesis Hc : cok c.
  Hypothesis H16 : xS c = 16.
  Hypothesis HIn : byte_mem In.
  Hypothesis Hn : 1 <= n <= max_in.
  Let HnL : n <= large_in := max_large n (proj2 Hn).
  Variable rs : list (Z * Z).
  Hypothesis HR : Repetitions 16 In 0 n rs.
  Hypothesis HL : AllLong 92 rs.

  Notation B := (fun x : Z => x).
  Notation Bkd := (Booked (fun x => x) 32 92 rs).
  Definition Zero (s : est) : Prop := e_count s = 0 -> forall a b, List.In (a, b) rs -> e_i s <= b - 32 -> e_i s <= a.
  Definition SInvX (s : est) : Prop := EInv c In n s /\ Zero s /\ Bkd (e_last s) (len (e_out s)) (e_i s - e_count s).

  Lemma HBid : forall x y, x <= y -> y - x <= B y - B x. Proof. intros x y H. cbv beta. lia. Qed.

  Lemma Rep128 a b : List.In (a, b) rs -> Repeats 16 In a b /\ 0 <= a /\ a + 92 < b /\ b <= n.
  Proof.
    intros Hin. destruct (Repetitions_in 16 In n a b rs 0 ltac:(lia) HR Hin) as (H1 & H2 & H3).
    pose proof HL as HL'. unfold AllLong in HL'. rewrite Forall_forall in HL'. specialize (HL' _ Hin). cbn [fst snd] in HL'.
    split; [exact H1|]. lia.
  Qed.

  Lemma emit_bookX st : RInv c In n (e_i st) (e_count st) (e_sym st) (e_last st) ->
    let st' := emit c In st in
    (len (e_out st') = len (e_out st) /\ e_last st' = e_last st /\ e_i st - (e_i st - e_count st) < 28 \/
     e_last st' = e_i st /\ len (e_out st') <= len (e_out st) + (e_i st - e_count st - e_last st) + 26 /\ len (e_out st') - len (e_out st) + e_last st <= e_i st).
  Proof.
    intros [R1 R2 R3 R4 R5 R6 R7]. cbv zeta. unfold emit.
    destruct (packet c In st) as [bytes|] eqn:E; cbn [e_out e_last].
    - right. rewrite len_app. pose proof (packet_cost c In st bytes Hc R3 R1 R2 E). rewrite packet_fields in E.
      pose proof (packet_head c In _ _ _ _ _ bytes Hc R1 R2 R3 E). repeat split; lia.
    - left. repeat split; try lia. destruct (Z_lt_ge_dec (e_i st - (e_i st - e_count st)) 28) as [|G]; [assumption|].
      exfalso. rewrite packet_fields in E. revert E. apply packet_long; [exact Hc|lia].
  Qed.

  (** Where a run may end. *)
  Lemma match_book st x cnt : SInvX st -> e_i st < n -> loop (match_step128 c In n (e_sym st)) (e_i st, e_count st) = Some (Second x cnt) ->
    x - cnt = e_i st - e_count st /\ forall a b, List.In (a, b) rs -> x <= b - 32 -> x <= a + 32.
  Proof.
    intros (HE & HZ & _) Hin HLp. pose proof HE as (HO & HRi & Hm & Hi0 & _). pose proof HRi as [R1 R2 R3 R4 R5 R6 R7]. rewrite H16 in *.
    destruct (loop_inv (match_step128 c In n (e_sym st))
      (fun '(i, count) => (i - count = e_i st - e_count st /\ e_count st <= count) /\ e_i st <= i /\ run 16 In i count (e_sym st) /\ count mod 16 = 0)
      (fun '(i, _) => Z.max 0 (n - i))
      (fun a => match a with
        | Second i count => i - count = e_i st - e_count st /\ forall a b, List.In (a, b) rs -> i <= b - 32 -> i <= a + 32
        | Fall _ _ => True
        end) (e_i st, e_count st)) as (r & HLp' & HQ).
    - intros [i count] ((K1 & K2) & K3 & K4 & K5). unfold match_step128.
      destruct (i <? n - 16) eqn:E.
      2:{ split; [exact K1|]. intros a b Hab Hb. destruct (Rep128 a b Hab) as (_ & _ & _ & Hbn). lia. }
      set (f := fun j : Z => In (i + j) =? symbyte (e_sym st) j).
      destruct (lead_spec f 16) as (L1 & L2 & L3); [lia|].
      destruct (lead f 16 =? 16) eqn:EL.
      + split; [|clear - E; lia]. split; [lia|]. split; [lia|]. split.
        * apply run_ext; try assumption; try lia. intros j Hj. specialize (L2 j ltac:(lia)). unfold f in L2. apply Z.eqb_eq in L2. rewrite L2. f_equal. now rewrite Z.mod_small.
        * rewrite mod_add0 by (try assumption; lia). reflexivity.
      + specialize (L3 ltac:(lia)). unfold f in L3. apply Z.eqb_neq in L3. fold f in L3.
        assert (HC : forall a b, List.In (a, b) rs -> i <= b - 32 -> i < a + 16).
        { intros a b Hab Hb. destruct (Rep128 a b Hab) as (HRep & Ha & Hab2 & Hbn).
          destruct (Z.eq_dec count 0) as [E0|E0].
          - assert (e_count st = 0) as Ec by lia. pose proof (HZ Ec a b Hab ltac:(lia)). lia.
          - destruct (Z_lt_ge_dec i (a + 16)) as [|G]; [assumption|]. exfalso. apply L3.
            assert (16 <= count). { destruct (Z_lt_ge_dec count 16) as [G2|G2]; [|lia]. rewrite Z.mod_small in K5; lia. }
            set (d := lead f 16) in *. replace (i + d) with (i + d - 16 + 16) by lia. rewrite HRep by lia.
            replace (i + d - 16) with (i - count + (count - 16 + d)) by lia. rewrite K4 by lia. f_equal.
            rewrite mod_add0; [apply Z.mod_small; lia|lia|]. rewrite Zminus_mod, K5. reflexivity. }
        destruct (xUnb c); (split; [lia|]); intros a b Hab Hb; specialize (HC a b Hab ltac:(lia)); lia.
    - repeat split; try lia; assumption.
    - unfold max_in in Hn. lia.
    - rewrite HLp in HLp'. injection HLp' as <-. exact HQ.
  Qed.

  Lemma scan_book x i found : loop (scan_step128 In n) x = Some (i, found) -> 0 <= x <= n ->
    forall a b, List.In (a, b) rs -> x <= b - 32 -> x <= i <= Z.max x a /\ (found = false -> i + 16 <= n /\ (a <= i -> load In 16 (i + 16) = load In 16 i)).
  Proof.
    intros HLp Hx a b Hab Hb. destruct (Rep128 a b Hab) as (HRep & Ha & Hab2 & Hbn).
    assert (HM : forall i, a <= i -> i <= b - 32 -> forall j, 0 <= j < 16 -> In (i + j) = In (i + 16 + j)).
    { intros i0 Hi1 Hi2 j Hj. replace (i0 + 16 + j) with (i0 + j + 16) by lia. symmetry. apply HRep; lia. }
    destruct (loop_inv (scan_step128 In n) (fun i => x <= i <= Z.max x a) (fun i => Z.max 0 (n - i))
      (fun '(i, found) => x <= i <= Z.max x a /\ (found = false -> i + 16 <= n /\ (a <= i -> load In 16 (i + 16) = load In 16 i))) x) as ([i' found'] & HLp' & HQ).
    - clear i found HLp. intros i Hi. unfold scan_step128. destruct (i <? n - 32) eqn:E.
      2:{ split; [lia|]. intros _. split; [lia|]. intros Hai. apply load_periodic_eq; [lia|]. intros j Hj. symmetry. apply HM; lia. }
      set (f := fun j : Z => In (i + j) =? In (i + 16 + j)).
      destruct (lead_spec f 16) as (L1 & L2 & L3); [lia|].
      destruct (lead f 16 =? 16) eqn:EL; [split; [lia|discriminate]|]. specialize (L3 ltac:(lia)).
      assert (Hia : i < a).
      { destruct (Z_lt_ge_dec i a) as [|G]; [assumption|]. exfalso. assert (f (lead f 16) = true) by (apply Z.eqb_eq; apply HM; lia). congruence. }
      change (In (i + 15) =? In (i + 16 + 15)) with (f 15). change (fun j : Z => negb (In (i + j) =? In (i + 16 + j))) with (fun j : Z => negb (f j)).
      assert (HF : forall j, 0 <= j < 16 -> f j = false -> i + j + 1 <= a).
      { intros j Hj Hf. destruct (Z_le_gt_dec (i + j + 1) a) as [|G]; [assumption|]. exfalso. unfold f in Hf. apply Z.eqb_neq in Hf. apply Hf.
        replace (i + 16 + j) with (i + j + 16) by lia. symmetry. apply HRep; lia. }
      destruct (f 15) eqn:E15; cbn [negb].
      + assert (lead f 16 <> 15) by (intros K; rewrite K in L3; congruence).
        pose proof (highest_nat_spec (fun j => negb (f j)) 16 (Z.to_nat (lead f 16))) as HH.
        rewrite Z2Nat.id in HH by lia. cbv beta in HH. rewrite L3 in HH. specialize (HH ltac:(lia) eq_refl).
        change (Z.of_nat 16) with 16 in HH. pose proof (highest_is (fun j => negb (f j)) 16 ltac:(lia)) as HI. cbv beta in HI.
        set (h := highest_nat (fun j => negb (f j)) 16) in *. apply negb_true_iff in HI. specialize (HF h ltac:(lia) HI). lia.
      + specialize (HF 15 ltac:(lia) E15). lia.
    - lia.
    - unfold max_in in Hn. lia.
    - rewrite HLp in HLp'. injection HLp' as <- <-. exact HQ.
  Qed.

  Lemma step_bookX s : SInvX s ->
    match enc_step c v In n s with
    | inl s' => SInvX s' /\ 0 <= Z.max 0 (n - e_i s') < Z.max 0 (n - e_i s)
    | inr r => exists s', r = Some s' /\ SInvX s' /\ n <= e_i s'
    end.
  Proof.
    intros HS. pose proof HS as (HE & HZ & HBk). pose proof (enc_step_ok c v In n s Hc HIn (max_large1 n Hn) HE) as HK.
    pose proof HE as (HO & HRi & Hm & Hi0 & Hg). unfold enc_step in *. replace (xS c =? 16) with true in * by lia.
    destruct ((e_i s <? n) || e_goto s) eqn:Ei.
    2:{ exists s. split; [reflexivity|]. split; [exact HS|]. destruct HK as (s' & [= <-] & _ & HK). exact HK. }
    assert (Hin : e_i s < n). { destruct (e_goto s); [auto|lia]. }
    destruct (match128_ok c In n s Hc H16 ltac:(lia) ltac:(lia) Hm HRi) as (r & HLp & Hr).
    rewrite HLp in *. destruct r as [x cnt|x cnt]; [|contradiction]. destruct Hr as [Hx HRx].
    destruct (match_book s x cnt HS Hin HLp) as [X1 X2].
    unfold enc_second in *. replace (xS c =? 16) with true in * by lia. cbv zeta in *.
    destruct (scan128_ok In n x) as (i & found & HLs & Hi & Hf); [lia|lia|]. rewrite HLs in *.
    destruct HK as [HK1 HK2]. split; [|exact HK2]. split; [exact HK1|].
    pose proof (scan_book x i found HLs ltac:(lia)) as HSc.
    pose proof (emit_bookX (mkE x cnt (e_sym s) (e_last s) (e_lsym s) (e_out s) false) HRx) as HEm. cbv zeta in HEm. cbn [e_i e_count e_last e_out] in HEm.
    set (st1 := emit _ _ _) in *. rewrite <- X1 in HBk.
    assert (HCut : forall p', (forall a b, List.In (a, b) rs -> x <= b - 32 -> p' <= a + 32) -> Bkd (e_last st1) (len (e_out st1)) p').
    { intros p' Hp'. destruct HRx as [Q1 Q2 Q3 Q4 Q5 Q6 Q7].
      apply (Booked_cut B 26 28 32 92 16 In n HBid) with (last := e_last s) (o := len (e_out s)) (p := x - cnt) (x := x); [lia|exact HR|exact HL|exact HBk|exact Q2|lia|exact HEm|].
      intros a b Hab Hb _. now apply (Hp' a b). }
    unfold next_run. rewrite H16. destruct found.
    - split; [intros K; cbn in K; lia|]. cbn [e_last e_out e_i e_count]. apply HCut. intros a b Hab Hb.
      destruct (HSc a b Hab Hb) as [K _]. specialize (X2 a b Hab Hb). lia.
    - assert (HP : forall p', p' = i \/ p' = i + 1 /\ (i + 16 <=? n) && eqb_bytes (load In 16 (i + 16)) (load In 16 i) = false -> Bkd (e_last st1) (len (e_out st1)) p').
      { intros p' Hp'. apply HCut. intros a b Hab Hb. destruct (HSc a b Hab Hb) as [K1 K2]. specialize (X2 a b Hab Hb).
        destruct Hp' as [->|[-> Hp']]; [lia|]. destruct (K2 eq_refl) as [K3 K4].
        destruct (Z_lt_ge_dec i a) as [G|G]; [lia|]. exfalso. replace (i + 16 <=? n) with true in Hp' by lia. cbn [andb] in Hp'.
        rewrite (K4 ltac:(lia)), (proj2 (eqb_bytes_eq _ _) eq_refl) in Hp'. discriminate. }
      destruct ((i + 16 <=? n) && eqb_bytes (load In 16 (i + 16)) (load In 16 i)) eqn:E; cbn [e_last e_out e_i e_count].
      + split; [intros K; cbn in K; lia|]. apply HP. lia.
      + split; [|apply HP; right; split; [lia|reflexivity]]. intros _ a b Hab Hb. cbn [e_i] in *.
        destruct (Z_lt_ge_dec i a) as [G|G]; [lia|]. exfalso.
        destruct (Rep128 a b Hab) as (HRep & Ha & Hab2 & Hbn). replace (i + 16 <=? n) with true in E by lia. cbn [andb] in E.
        assert (EQ : load In 16 (i + 16) = load In 16 i).
        { apply load_periodic_eq; [lia|]. intros j Hj. replace (i + 16 + j) with (i + j + 16) by lia. apply HRep; lia. }
        rewrite EQ, (proj2 (eqb_bytes_eq _ _) eq_refl) in E. discriminate.
  Qed.

  Lemma finish_bookX s : SInvX s -> n <= e_i s -> len (finish c In s) + saving 92 rs <= n + 42.
  Proof.
    intros (HE & _ & HBk) Hi. pose proof HE as (HO & HRi & Hm & Hi0 & _).
    assert (Hl0 : 0 <= e_last s) by apply HO. pose proof HRi as [R1 R2 R3 R4 R5 R6 R7]. pose proof R3 as R3'. rewrite H16 in R3.
    pose proof (len_term_range c). pose proof (len_term_count_le c Hc). unfold finish.
    destruct (packet c In s) as [bytes|] eqn:E.
    - pose proof (packet_cost c In s bytes Hc R3' R1 R2 E) as E3. pose proof E as E'. rewrite packet_fields in E'.
      pose proof (packet_head c In _ _ _ _ _ bytes Hc R1 R2 R3' E') as E2.
      destruct (Booked_end B 26 28 32 92 16 In n HBid ltac:(lia) rs (e_last s) (len (e_out s)) (e_i s - e_count s) (e_i s) (len (e_out s ++ bytes)) HR HL HBk ltac:(lia) ltac:(lia) Hi) as [_ HK].
      rewrite !len_app. rewrite (len_app (e_out s) bytes) in *. assert (len (e_out s) + len bytes + saving 92 rs <= e_i s) by (apply HK; split; lia). lia.
    - destruct (Booked_end B 26 28 32 92 16 In n HBid ltac:(lia) rs (e_last s) (len (e_out s)) (e_i s - e_count s) (e_i s) (len (e_out s)) HR HL HBk ltac:(lia) ltac:(lia) Hi) as [HK _].
      rewrite !len_app, len_slice by lia.
      assert (e_i s - (e_i s - e_count s) < 28).
      { destruct (Z_lt_ge_dec (e_i s - (e_i s - e_count s)) 28) as [|G]; [assumption|]. exfalso. rewrite packet_fields in E. revert E. apply packet_long; [exact Hc|lia]. }
      assert (len (e_out s) + saving 92 rs <= e_last s) by (apply HK; split; lia).
      destruct (xP7 c); rewrite ?len_cons, len_le32; lia.
  Qed.
End Save128.

Lemma ext_saves_128 c v : List.In c xcodecs -> xS c = 16 -> Saves (xS c) (5 * xS c + 12) (xcompress c v false false) (fun n => n + 2 * xS c + 18).
Proof.
  intros Hc H16 In n cap out rs HIn Hn HC HR. apply xcodecs_cok in Hc. rewrite H16 in HR |- *. change (5 * 16 + 12) with 92.
  unfold xcompress in HC. apply guard_ok in HC; [|discriminate]. destruct HC as [_ HC]. cbv zeta in HC.
  rewrite <- (saving_long 92 rs). apply (Repetitions_long 16 In 92) in HR. pose proof (AllLong_filter 92 rs) as HL. set (rs' := filter (long 92) rs) in *.
  destruct (loop_inv (enc_step c v In n) (SInvX c In n rs') (fun st => Z.max 0 (n - e_i st))
    (fun r => exists st', r = Some st' /\ SInvX c In n rs' st' /\ n <= e_i st')
    (mkE 0 0 (init_sym c In) 0 (repeat 0 (Z.to_nat (xS c))) [] false)) as (r & HLp & st & -> & HE & Hi).
  - intros s. apply (step_bookX c In n v Hc H16 HIn Hn rs' HR HL s).
  - split; [apply init_ok; try assumption; lia|]. split.
    + intros _ a b Hab _. cbn [e_i]. destruct (Repetitions_in 16 In n a b rs' 0 ltac:(lia) HR Hab) as (_ & Ha & _). lia.
    + cbn [e_last e_out e_i e_count]. apply (Booked_init (fun x => x) 26 28 32 92 16 In n); try assumption; lia.
  - cbn [e_i]. unfold max_in in Hn. lia.
  - rewrite HLp in HC. assert (HO : out = le32 n ++ le32 (8 + len (finish c In st)) ++ finish c In st) by congruence.
    subst out. rewrite header_len. pose proof (finish_bookX c In n Hc H16 rs' HR HL st HE Hi). lia.
Qed.
