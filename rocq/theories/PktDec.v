(** Correctness of packet decoders in general: what a packet has to satisfy, and the decode
    loop on a sequence of such packets. *)
From Verif Require Import Base Simd SimdProof Spec ExtModel ExtDec PktModel PktSpec.

Section Ser.
  Context {A : Type} (P : A -> list Z -> list Z -> list Z -> A -> Prop) (E : A -> list Z -> list Z -> Prop).

  Lemma Serial_snoc a bytes meaning a1 h lits run a2 :
    Serial P a bytes meaning a1 -> P a1 h lits run a2 ->
    Serial P a (bytes ++ h ++ lits) (meaning ++ lits ++ run) a2.
  Proof.
    intros H HP. induction H as [a|a h0 lits0 run0 a0 bytes meaning a1 HP0 H IH].
    - cbn [app]. replace (h ++ lits) with (h ++ lits ++ []) by now rewrite app_nil_r.
      replace (lits ++ run) with (lits ++ run ++ []) by now rewrite app_nil_r.
      econstructor; eauto. constructor.
    - rewrite <- !app_assoc. econstructor; eauto.
  Qed.

  (** [body] is a stream read in state [a] that stands for [In] at least up to [n], and for at most
      [ex] bytes more. *)
  Definition StreamP (ex : Z) (a : A) (body : list Z) (In : mem) (n : Z) : Prop :=
    exists bytes meaning a1 tb tl m,
      body = bytes ++ tb /\ Serial P a bytes meaning a1 /\ E a1 tb tl /\
      meaning ++ tl = slice In 0 m /\ n <= m <= n + ex /\ Forall is_byte body.
End Ser.

Lemma StreamP_mono {A} (P P' : A -> list Z -> list Z -> list Z -> A -> Prop) (E E' : A -> list Z -> list Z -> Prop) ex ex' a body In n :
  (forall a h lits run a', P a h lits run a' -> P' a h lits run a') -> (forall a e lits, E a e lits -> E' a e lits) -> ex <= ex' ->
  StreamP P E ex a body In n -> StreamP P' E' ex' a body In n.
Proof.
  intros HP HE Hex (bytes & meaning & a1 & tb & tl & m & H1 & H2 & H3 & H4 & H5 & H6). exists bytes, meaning, a1, tb, tl, m.
  split; [exact H1|]. split; [|split; [now apply HE|split; [exact H4|split; [lia|exact H6]]]].
  clear - H2 HP. induction H2; [constructor|]. econstructor; eauto.
Qed.

Lemma StreamP_body {A} (P : A -> list Z -> list Z -> list Z -> A -> Prop) E ex a body In n :
  StreamP P E ex a body In n -> exists m, n <= m <= n + ex /\ Body P E a body (slice In 0 m).
Proof.
  intros (bytes & meaning & a1 & tb & tl & m & H1 & H2 & H3 & H4 & H5 & H6). exists m. split; [exact H5|].
  exists bytes, meaning, a1, tb, tl. repeat (split; [assumption|]). symmetry. exact H4.
Qed.
Lemma StreamP_bytes {A} (P : A -> list Z -> list Z -> list Z -> A -> Prop) E ex a body In n :
  StreamP P E ex a body In n -> Forall is_byte body.
Proof. intros (bytes & meaning & a1 & tb & tl & m & H1 & H2 & H3 & H4 & H5 & H6). exact H6. Qed.

(** A grammar whose packets need and keep a condition [W] on the state. *)
Definition guarded {A} (W : A -> Prop) (P : A -> list Z -> list Z -> list Z -> A -> Prop) : A -> list Z -> list Z -> list Z -> A -> Prop :=
  fun a h lits run a' => W a -> P a h lits run a' /\ W a'.
Definition guarded_end {A} (W : A -> Prop) (E : A -> list Z -> list Z -> Prop) : A -> list Z -> list Z -> Prop :=
  fun a e lits => W a -> E a e lits.

Lemma StreamP_guarded {A} (W : A -> Prop) P E ex a body In n :
  W a -> StreamP (guarded W P) (guarded_end W E) ex a body In n -> StreamP P E ex a body In n.
Proof.
  intros HW (bytes & meaning & a1 & tb & tl & m & H1 & H2 & H3 & H4 & H5 & H6). exists bytes, meaning, a1, tb, tl, m.
  assert (K : Serial P a bytes meaning a1 /\ W a1).
  { clear - H2 HW. induction H2 as [a|a h lits run a' bytes meaning a1 HP H IH]; [split; [constructor|exact HW]|].
    destruct (HP HW) as [HP1 HW1]. destruct (IH HW1) as [IH1 IH2]. split; [econstructor; eassumption|exact IH2]. }
  destruct K as [K1 K2]. split; [exact H1|]. split; [exact K1|]. split; [now apply H3|]. now repeat split.
Qed.

Section Pkt.
  (** [D]: decoder implementations; [T]: decoder registers; [A]: what the encoder knows of them. *)
  Context {D T A : Type} (parse : D -> mem -> Z -> T -> pres T)
    (fill : D -> T -> mem -> Z -> Z -> option (Z * mem)) (W : D -> Z) (R : T -> A -> Prop).

  (** Header bytes [h] read in state [a] announce [len lits] literals, then the bytes [run]. *)
  Definition Pkt (a : A) (h lits run : list Z) (a' : A) : Prop :=
    0 < len run /\
    forall d C p reg, R reg a -> holds C p h ->
    exists reg' cnt,
      parse d C p reg = PGo (p + len h) reg' (len lits) cnt /\ cnt <> 0 /\ R reg' a' /\
      forall M q, 0 < q -> q + len run + 128 < 2 ^ 64 ->
        exists M', fill d reg' M q cnt = Some (q + len run, M') /\
          slice M' q (len run) = run /\ (forall x, x < q \/ q + len run + 96 <= x -> M' x = M x).

  Notation GSer := (Serial Pkt).

  Inductive GTerm (a : A) : list Z -> list Z -> Prop :=
  | GTerm_stop tb : (forall d C p reg, R reg a -> holds C p tb -> parse d C p reg = PStop) -> GTerm a tb []
  | GTerm_lits h lits :
      (forall d C p reg, R reg a -> holds C p h -> exists reg', parse d C p reg = PGo (p + len h) reg' (len lits) 0) ->
      GTerm a (h ++ lits) lits.

  Hypothesis HW : forall d, 0 < W d <= 64.

  Lemma copy_lits_g d C p3 M q lits rest :
    holds C p3 (lits ++ rest) -> 0 < p3 -> 0 < q -> p3 + len lits < 2 ^ 64 -> q + len lits < 2 ^ 64 ->
    exists M4, memcpyW (W d) C p3 M q (len lits) = Some (p3 + len lits, q + len lits, M4) /\
      slice M4 q (len lits) = lits /\ (forall x, x < q \/ q + len lits + 64 <= x -> M4 x = M x).
  Proof.
    intros H Hp Hq Hp2 Hq2. pose proof (len_nonneg lits). apply holds_app in H. destruct H as [H _].
    specialize (HW d).
    destruct (memcpyW_spec (W d) C p3 M q (len lits)) as (M4 & HM & H1 & H2); try lia.
    exists M4. split; [exact HM|]. split.
    - transitivity (slice C p3 (len lits)); [|now apply slice_of_holds].
      apply slice_map_shift. intros k Hk. rewrite H1 by lia. f_equal. lia.
    - intros x Hx. apply H2. lia.
  Qed.

  Lemma gdec_loop_ok d C p0 reg0 M0 q0 a bytes meaning a1 tb tl total :
    R reg0 a -> GSer a bytes meaning a1 -> GTerm a1 tb tl -> total = meaning ++ tl ->
    holds C p0 (bytes ++ tb) ->
    0 < p0 -> 0 < q0 -> p0 + len (bytes ++ tb) + 128 < 2 ^ 64 -> q0 + len total + 128 < 2 ^ 64 ->
    exists M', loop (pkt_step (parse d) (fill d) (W d) C) (p0, q0, reg0, M0) = Some (Some M') /\
      slice M' q0 (len total) = total /\
      (forall x, x < q0 \/ q0 + len total + 96 <= x -> M' x = M0 x).
  Proof.
    intros Hreg0 HSer HTerm Htot Hh Hp0 Hq0 HpB HqB.
    destruct (loop_inv (pkt_step (parse d) (fill d) (W d) C)
      (fun '(p, q, reg, M) => exists a bytes meaning,
         R reg a /\ GSer a bytes meaning a1 /\
         holds C p (bytes ++ tb) /\ 0 < p /\ p + len (bytes ++ tb) + 128 < 2 ^ 64 /\
         q0 <= q /\ total = slice M q0 (q - q0) ++ meaning ++ tl /\
         (forall x, x < q0 \/ q0 + len total + 96 <= x -> M x = M0 x))
      (fun '(_, q, _, _) => Z.max 0 (q0 + len total + 1 - q))
      (fun r => exists M', r = Some M' /\ slice M' q0 (len total) = total /\
         (forall x, x < q0 \/ q0 + len total + 96 <= x -> M' x = M0 x))
      (p0, q0, reg0, M0)) as (r & HL & M' & -> & H1 & H2).
    - clear reg0 Hreg0 a bytes meaning HSer Hh p0 Hp0 HpB Htot.
      intros [[[p q] reg] M] (a & bytes & meaning & Hreg & HSer & Hh & Hp & HpB & Hq & Htot & Hout).
      assert (Hlt : len total = (q - q0) + len meaning + len tl).
      { rewrite Htot at 1. rewrite !len_app, len_slice by lia. lia. }
      pose proof (len_nonneg meaning). pose proof (len_nonneg tl).
      unfold pkt_step. destruct HSer as [a|a h lits run a' bytes meaning a2 HP HSer].
      + (* end marker *)
        cbn [app] in *. destruct HTerm as [tb HT|h tl HT].
        * rewrite (HT d C p reg Hreg Hh). exists M. split; [reflexivity|]. split; [|exact Hout].
          change (@len Z []) with 0 in Hlt. rewrite !app_nil_r in Htot. rewrite Htot at 2. f_equal. lia.
        * apply holds_app in Hh. destruct Hh as [Hh1 Hh2].
          destruct (HT d C p reg Hreg Hh1) as (reg' & ->).
          rewrite len_app in HpB. pose proof (len_nonneg h). change (@len Z []) with 0 in Hlt.
          destruct (copy_lits_g d C (p + len h) M q tl []) as (M4 & HM4 & Hs4 & Hout4); try lia.
          { rewrite app_nil_r. exact Hh2. }
          rewrite HM4. cbn [Z.eqb]. exists M4. split; [reflexivity|]. split.
          -- rewrite Htot at 2. replace (len total) with ((q - q0) + len tl) by lia. rewrite slice_app by lia.
             f_equal.
             ++ apply slice_ext. intros k Hk. apply Hout4. lia.
             ++ replace (q0 + (q - q0)) with q by lia. exact Hs4.
          -- intros x Hx. rewrite Hout4; [apply Hout; lia|]. lia.
      + (* packet *)
        destruct HP as [Hrun HP].
        rewrite <- !app_assoc in Hh. rewrite <- !app_assoc in HpB. rewrite !len_app in HpB.
        apply holds_app in Hh. destruct Hh as [Hh1 Hh].
        destruct (HP d C p reg Hreg Hh1) as (reg' & cnt & -> & Hcnt & Hreg' & Hfill).
        rewrite !len_app in Hlt.
        pose proof (len_nonneg h). pose proof (len_nonneg lits). pose proof (len_nonneg bytes).
        pose proof (len_nonneg tb). pose proof (len_nonneg meaning).
        destruct (copy_lits_g d C (p + len h) M q lits (bytes ++ tb)) as (M4 & HM4 & Hs4 & Hout4); try lia.
        { exact Hh. }
        rewrite HM4. replace (cnt =? 0) with false by lia.
        destruct (Hfill M4 (q + len lits)) as (M5 & HM5 & Hin5 & Hout5); try lia.
        rewrite HM5. split; [|lia].
        exists a', bytes, meaning. split; [exact Hreg'|]. split; [exact HSer|].
        apply holds_app in Hh. split; [apply Hh|]. split; [lia|]. split; [rewrite len_app; lia|]. split; [lia|]. split.
        * rewrite Htot at 1. rewrite <- !app_assoc.
          replace (q + len lits + len run - q0) with ((q - q0) + (len lits + len run)) by lia.
          rewrite slice_app by lia. rewrite (slice_app _ (q0 + (q - q0))) by lia.
          rewrite <- !app_assoc. f_equal.
          { apply slice_ext. intros k Hk. rewrite Hout5 by lia. rewrite Hout4 by lia. reflexivity. }
          replace (q0 + (q - q0)) with q by lia. f_equal.
          { rewrite <- Hs4 at 1. apply slice_ext. intros k Hk. rewrite Hout5 by lia. reflexivity. }
          f_equal. symmetry. exact Hin5.
        * intros x Hx. rewrite Hout5 by lia. rewrite Hout4 by lia. apply Hout. lia.
    - exists a, bytes, meaning. repeat split; try assumption; try lia.
      rewrite slice_0 by lia. exact Htot.
    - lia.
    - exists M'. split; [exact HL|]. split; [exact H1|exact H2].
  Qed.

  Notation Stream := (StreamP Pkt GTerm 16).

  Lemma stream_dec d C p reg M q a body In n :
    Stream a body In n -> R reg a -> holds C p body -> 0 <= n ->
    0 < p -> 0 < q -> p + len body + 128 < 2 ^ 64 -> q + n + 256 < 2 ^ 64 ->
    exists M', loop (pkt_step (parse d) (fill d) (W d) C) (p, q, reg, M) = Some (Some M') /\
      slice M' q n = slice In 0 n /\
      (forall x, x < q \/ q + n + 112 <= x -> M' x = M x).
  Proof.
    intros (bytes & meaning & a1 & tb & tl & m & -> & HS & HT & Hm & Hmn & _) HR Hh Hn Hp Hq HpB HqB.
    assert (Htot : len (meaning ++ tl) = m) by (rewrite Hm; apply len_slice; lia).
    destruct (gdec_loop_ok d C p reg M q a bytes meaning a1 tb tl (meaning ++ tl)) as (M' & HL & H1 & H2);
      try assumption; try lia; try reflexivity.
    exists M'. split; [exact HL|]. rewrite Htot in H1, H2. rewrite Hm in H1. split.
    - replace m with (n + (m - n)) in H1 by lia. rewrite !slice_app in H1 by lia.
      assert (K : forall (a b c d : list Z), len a = len c -> a ++ b = c ++ d -> a = c).
      { clear. unfold len. induction a as [|x a IH]; intros b [|y c] d Hl H; cbn [length app] in *; try lia; [reflexivity|].
        injection H as -> H. f_equal. eapply IH; [|exact H]. lia. }
      eapply K; [|exact H1]. rewrite !len_slice by lia. reflexivity.
    - intros x Hx. apply H2. lia.
  Qed.
End Pkt.
Notation Stream parse fill R := (StreamP (Pkt parse fill R) (GTerm parse R) 16).
