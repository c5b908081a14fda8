(** Correctness of the 8 bit search loops, for any packet decision whose packets are
    understood by the decoder. *)
From Verif Require Import Base Simd SimdProof Spec LargeSpec ExtModel ExtDec ExtEnc PktModel PktSpec PktDec.

Lemma any_false f W : any f W = false -> forall j, 0 <= j < W -> f j = false.
Proof.
  unfold any. intros H j Hj. destruct (f j) eqn:E; [|reflexivity]. exfalso.
  assert (K : existsb (fun k => f (Z.of_nat k)) (seq 0 (Z.to_nat W)) = true).
  { apply existsb_exists. exists (Z.to_nat j). split; [apply in_seq; lia|]. now rewrite Z2Nat.id by lia. }
  congruence.
Qed.

(** [count] bytes [sym] before [i]. *)
Definition run8 (In : mem) (i count sym : Z) : Prop := forall k, i - count <= k < i -> In k = sym.

Lemma run8_slice In i count sym : 0 <= count -> run8 In i count sym ->
  slice In (i - count) count = repeat sym (Z.to_nat count).
Proof.
  intros Hc H. unfold slice. assert (K : forall m a, (forall k, a <= k < a + Z.of_nat m -> In k = sym) -> slice_nat In a m = repeat sym m).
  { clear. induction m as [|m IH]; intros a H; cbn [slice_nat repeat]; [reflexivity|]. f_equal; [apply H; lia|].
    apply IH. intros k Hk. apply H. lia. }
  apply K. intros k Hk. apply H. lia.
Qed.

  Lemma scan8_ok W In n i0 : 2 <= W -> 0 <= i0 < n -> n <= large_in ->
    exists i, loop (scan8_step W In n) i0 = Some i /\ i0 <= i < n.
  Proof.
    intros HW Hi Hn. destruct (loop_inv (scan8_step W In n) (fun i => i0 <= i < n) (fun i => Z.max 0 (n - i))
      (fun i => i0 <= i < n) i0) as (i & HL & HQ).
    - intros i Hinv. unfold scan8_step. destruct (i <? n - W) eqn:E; [|lia].
      destruct (lead_spec (fun j => negb (In (i + j) =? In (i + j + 1))) (W - 1)) as (H1 & _ & _); [lia|].
      destruct (lead _ (W - 1) =? W - 1); lia.
    - lia.
    - unfold large_in in Hn. lia.
    - exists i. split; assumption.
  Qed.

Section Enc8.
  Context {A : Type} (P : A -> list Z -> list Z -> list Z -> A -> Prop) (Tm : A -> list Z -> list Z -> Prop).
  (** [B x]: bound on the size of the packets for the first [x] bytes. *)
  Variable B : Z -> Z.

  (** What a packet decision has to guarantee. *)
  Definition proc8_ok (proc : proc8 A) (In : mem) : Prop :=
    forall i count sym last a bytes a',
      0 <= count -> 0 <= last <= i - count -> i <= large_in -> is_byte sym -> run8 In i count sym ->
      proc In i count sym last a = Some (bytes, a') ->
      (exists h, bytes = h ++ slice In last (i - count - last) /\
        P a h (slice In last (i - count - last)) (repeat sym (Z.to_nat count)) a') /\
      Forall is_byte bytes /\ len bytes + B last <= B i.

  Record OInv8 (In : mem) (a0 : A) (last : Z) (a : A) (out : list Z) : Prop := {
    o8_last : 0 <= last;
    o8_ser : Serial P a0 out (slice In 0 last) a;
    o8_cost : len out <= B last;
    o8_bytes : Forall is_byte out }.

  Record RInv8 (In : mem) (n i count sym last : Z) : Prop := {
    r8_count : 0 <= count;
    r8_last : last <= i - count;
    r8_sym : is_byte sym;
    r8_i : i <= n;
    r8_run : run8 In i count sym }.

  Definition Inv8 (In : mem) (n : Z) (a0 : A) (s : est8 A) : Prop :=
    OInv8 In a0 (last8 s) (aux8 s) (out8 s) /\ RInv8 In n (i8 s) (count8 s) (sym8 s) (last8 s).

  Lemma packet8_ok proc In n a0 s bytes a' :
    proc8_ok proc In -> n <= large_in -> Inv8 In n a0 s ->
    proc In (i8 s) (count8 s) (sym8 s) (last8 s) (aux8 s) = Some (bytes, a') ->
    OInv8 In a0 (i8 s) a' (out8 s ++ bytes).
  Proof.
    intros HP Hn [[O1 O2 O3 O4] [R1 R2 R3 R4 R5]] HE.
    destruct (HP _ _ _ _ _ _ _ R1 (conj O1 R2) ltac:(lia) R3 R5 HE) as ((h & -> & HPkt) & Hb & Hc).
    constructor.
    - lia.
    - replace (slice In 0 (i8 s)) with (slice In 0 (last8 s) ++ slice In (last8 s) (i8 s - count8 s - last8 s) ++ repeat (sym8 s) (Z.to_nat (count8 s))).
      + eapply Serial_snoc; eassumption.
      + rewrite <- (run8_slice In (i8 s)) by assumption.
        assert (K : slice In 0 (last8 s + ((i8 s - count8 s - last8 s) + count8 s)) =
          slice In 0 (last8 s) ++ slice In (last8 s) (i8 s - count8 s - last8 s) ++ slice In (i8 s - count8 s) (count8 s)).
        { rewrite slice_app by lia. rewrite Z.add_0_l. rewrite slice_app by lia. f_equal. f_equal. f_equal. lia. }
        rewrite <- K. f_equal. lia.
    - rewrite len_app. lia.
    - apply Forall_app. split; assumption.
  Qed.

  Lemma emit8_ok proc In n a0 s :
    proc8_ok proc In -> n <= large_in -> Inv8 In n a0 s ->
    let s' := emit8 proc In s in
    OInv8 In a0 (last8 s') (aux8 s') (out8 s') /\ last8 s <= last8 s' <= i8 s /\ i8 s' = i8 s /\ sym8 s' = sym8 s.
  Proof.
    intros HP Hn HI. cbv zeta. unfold emit8. pose proof HI as [HO HR].
    destruct (proc In (i8 s) (count8 s) (sym8 s) (last8 s) (aux8 s)) as [[bytes a']|] eqn:E; cbn.
    - pose proof (packet8_ok _ _ _ _ _ _ _ HP Hn HI E). destruct HR. split; [assumption|]. lia.
    - destruct HR. split; [assumption|]. lia.
  Qed.

  Lemma simd8_ok proc W In n a0 s0 :
    proc8_ok proc In -> 2 <= W -> byte_mem In -> 1 <= n <= large_in -> Inv8 In n a0 s0 -> 0 <= i8 s0 ->
    exists s1, loop (simd8_step proc W In n) s0 = Some (Some s1) /\ Inv8 In n a0 s1 /\ 0 <= i8 s1.
  Proof.
    intros HP HW HIn Hn HI0 Hi0.
    destruct (loop_inv (simd8_step proc W In n) (fun s => Inv8 In n a0 s /\ 0 <= i8 s) (fun s => Z.max 0 (n - i8 s))
      (fun r => exists s1, r = Some s1 /\ Inv8 In n a0 s1 /\ 0 <= i8 s1) s0) as (r & HL & s1 & -> & H1 & H2).
    - intros s [HI Hi]. unfold simd8_step. destruct (i8 s <? n - W) eqn:E; [|exists s; split; [reflexivity|split; assumption]].
      set (f := fun j : Z => In (i8 s + j) =? sym8 s).
      destruct (lead_spec f W) as (L1 & L2 & L3); [lia|].
      assert (Hgrow : Inv8 In n a0 (mk8 (i8 s + lead f W) (count8 s + lead f W) (sym8 s) (last8 s) (aux8 s) (out8 s))).
      { destruct HI as [HO [R1 R2 R3 R4 R5]]. split; [exact HO|]. constructor; cbn; try lia; try assumption.
        intros k Hk. destruct (Z_lt_ge_dec k (i8 s)) as [Hk2|Hk2]; [apply R5; lia|].
        specialize (L2 (k - i8 s) ltac:(lia)). unfold f in L2. apply Z.eqb_eq in L2. rewrite <- L2. f_equal. lia. }
      destruct (lead f W =? W) eqn:EL.
      + apply Z.eqb_eq in EL. rewrite EL in Hgrow. split; [split; [exact Hgrow|cbn; lia]|cbn; lia].
      + set (s1 := if any f W || (1 <? count8 s) then _ else s).
        assert (Hs1 : OInv8 In a0 (last8 s1) (aux8 s1) (out8 s1) /\ last8 s1 <= i8 s1 /\ i8 s <= i8 s1 <= i8 s + W).
        { unfold s1. destruct (any f W || (1 <? count8 s)).
          - pose proof (emit8_ok proc In n a0 _ HP (proj2 Hn) Hgrow) as K. cbv zeta in K. cbn [i8 last8 sym8] in K.
            destruct K as (K1 & K2 & K3 & K4). split; [exact K1|]. rewrite K3. lia.
          - destruct HI as [HO [R1 R2 R3 R4 R5]]. split; [exact HO|]. lia. }
        destruct Hs1 as (HO1 & Hl1 & Hi1).
        destruct (scan8_ok W In n (i8 s1)) as (i' & -> & Hi'); try lia.
        split; [|cbn; lia]. split; [|cbn; lia]. split; [exact HO1|].
        constructor; cbn; try lia; [apply HIn|]. intros k Hk. f_equal. lia.
    - split; assumption.
    - unfold large_in in Hn. lia.
    - exists s1. split; [exact HL|]. split; assumption.
  Qed.

  Lemma scalar8_ok single proc In n a0 s0 :
    proc8_ok proc In -> byte_mem In -> 1 <= n <= large_in -> Inv8 In n a0 s0 -> 0 <= i8 s0 ->
    exists s1, loop (scalar8_step single proc In n) s0 = Some s1 /\ Inv8 In n a0 s1 /\ i8 s1 = n.
  Proof.
    intros HP HIn Hn HI0 Hi0.
    destruct (loop_inv (scalar8_step single proc In n) (fun s => Inv8 In n a0 s /\ 0 <= i8 s) (fun s => Z.max 0 (n - i8 s))
      (fun s1 => Inv8 In n a0 s1 /\ i8 s1 = n) s0) as (s1 & HL & H1).
    - intros s [HI Hi]. unfold scalar8_step. destruct (i8 s <? n) eqn:E.
      2:{ split; [exact HI|]. destruct HI as [_ [_ _ _ R4 _]]. lia. }
      pose proof HI as [HO [R1 R2 R3 R4 R5]].
      destruct (In (i8 s) =? sym8 s) eqn:E2.
      + split; [|cbn; lia]. split; [|cbn; lia]. split; [exact HO|]. constructor; cbn; try lia; try assumption.
        intros k Hk. destruct (Z.eq_dec k (i8 s)) as [->|]; [lia|apply R5; lia].
      + pose proof (emit8_ok proc In n a0 s HP (proj2 Hn) HI) as K. cbv zeta in K. destruct K as (K1 & K2 & K3 & K4).
        destruct single; (split; [|cbn; lia]); (split; [|cbn; lia]); (split; [exact K1|]); constructor; cbn; try lia; try assumption.
        * intros k Hk. lia.
        * apply HIn.
        * intros k Hk. f_equal. lia.
    - split; assumption.
    - unfold large_in in Hn. lia.
    - exists s1. split; assumption.
  Qed.

  Lemma finish8_ok proc tn tls In n a0 s :
    proc8_ok proc In -> byte_mem In -> 1 <= n <= large_in -> Inv8 In n a0 s -> i8 s = n ->
    (forall a, Tm a tn []) -> Forall is_byte tn ->
    (forall a lits, len lits <= large_in -> exists tb, tb = tls (len lits) ++ lits /\ Tm a tb lits) ->
    (forall k, Forall is_byte (tls k)) ->
    StreamP P Tm 0 a0 (finish8 proc tn tls In s) In n /\
    (len (finish8 proc tn tls In s) <= B n + len tn \/
     exists last, 0 <= last <= n /\ len (finish8 proc tn tls In s) <= B last + (n - last) + len (tls (n - last))).
  Proof.
    intros HP HIn Hn HI Hi Htn Htnb Htl Htlb. unfold finish8. pose proof HI as [[O1 O2 O3 O4] [R1 R2 R3 R4 R5]].
    destruct (proc In (i8 s) (count8 s) (sym8 s) (last8 s) (aux8 s)) as [[bytes a']|] eqn:E.
    - pose proof (packet8_ok _ _ _ _ _ _ _ HP (proj2 Hn) HI E) as [P1 P2 P3 P4]. rewrite Hi in *. rewrite app_assoc. split.
      + exists (out8 s ++ bytes), (slice In 0 n), a', tn, [], n. split; [reflexivity|]. split; [exact P2|].
        split; [apply Htn|]. split; [apply app_nil_r|]. split; [lia|]. apply Forall_app. split; assumption.
      + left. rewrite !len_app in *. lia.
    - rewrite Hi in *.
      assert (Hls : len (slice In (last8 s) (n - last8 s)) = n - last8 s) by (apply len_slice; lia). split.
      + exists (out8 s), (slice In 0 (last8 s)), (aux8 s), (tls (n - last8 s) ++ slice In (last8 s) (n - last8 s)), (slice In (last8 s) (n - last8 s)), n.
        split; [reflexivity|]. split; [exact O2|]. split.
        { destruct (Htl (aux8 s) (slice In (last8 s) (n - last8 s))) as (tb & Htb & HT); [lia|].
          rewrite Hls in Htb. rewrite <- Htb. exact HT. }
        split.
        { replace n with (last8 s + (n - last8 s)) at 2 by lia. rewrite slice_app by lia. now rewrite Z.add_0_l. }
        split; [lia|]. apply Forall_app. split; [exact O4|]. apply Forall_app. split; [apply Htlb|]. apply Forall_slice. exact HIn.
      + right. exists (last8 s). split; [lia|]. rewrite !len_app, Hls. lia.
  Qed.

  Lemma body8_ok procV procS tn tls W In n a0 sym0 :
    proc8_ok procV In -> proc8_ok procS In -> 2 <= W -> byte_mem In -> 1 <= n <= large_in -> is_byte sym0 -> 0 <= B 0 ->
    (forall a, Tm a tn []) -> Forall is_byte tn ->
    (forall a lits, len lits <= large_in -> exists tb, tb = tls (len lits) ++ lits /\ Tm a tb lits) ->
    (forall k, Forall is_byte (tls k)) ->
    exists body, body8 procV procS tn tls W In n (mk8 0 0 sym0 0 a0 []) = Some body /\
      StreamP P Tm 0 a0 body In n /\
      (len body <= B n + len tn \/
       exists last, 0 <= last <= n /\ len body <= B last + (n - last) + len (tls (n - last))).
  Proof.
    intros HPV HPS HW HIn Hn Hs0 HB0 H1 H2 H3 H4. unfold body8.
    assert (HI0 : Inv8 In n a0 (mk8 0 0 sym0 0 a0 [])).
    { split; constructor; cbn; try lia; try assumption; try constructor. intros k Hk. lia. }
    destruct (simd8_ok procV W In n a0 _ HPV HW HIn Hn HI0 ltac:(cbn; lia)) as (s1 & -> & HI1 & Hi1).
    destruct (scalar8_ok false procS In n a0 _ HPS HIn Hn HI1 Hi1) as (s2 & -> & HI2 & Hi2).
    eexists. split; [reflexivity|]. now apply finish8_ok.
  Qed.
End Enc8.
