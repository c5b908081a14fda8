(** The low entropy decoders restore every well formed packet stream, writing nothing but the output. *)
From Verif Require Import Base Simd SimdProof Spec ExtModel ExtEnc PktModel Rle8Model LeModel LeTable.

Section Ser.
  Variables (L : Z) (rle : Z -> bool) (stc : Z -> Z).

  (** [Ser s o]: the packets [s] stand for the bytes [o]. *)
  Inductive Ser : list Z -> list Z -> Prop :=
  | Ser_nil : Ser [] []
  | Ser_lit b s o : is_byte b -> rle b = false -> Ser s o -> Ser (b :: s) (b :: o)
  | Ser_run b c s o : is_byte b -> is_byte c -> rle b = true -> 0 <= stc c < L -> Ser s o ->
      Ser (b :: c :: s) (b :: repeat b (Z.to_nat (stc c)) ++ o).

  Lemma ser_app s1 o1 s2 o2 : Ser s1 o1 -> Ser s2 o2 -> Ser (s1 ++ s2) (o1 ++ o2).
  Proof.
    intros H1 H2. induction H1 as [|b s o Hb Hr H IH|b c s o Hb Hc Hr Hs H IH]; cbn [app]; [exact H2|now constructor|].
    rewrite <- app_assoc. now constructor.
  Qed.

  Lemma ser_len s o : Ser s o -> len s <= 2 * len o.
  Proof.
    induction 1 as [|b s o Hb Hr H IH|b c s o Hb Hc Hr Hs H IH]; repeat rewrite len_cons; rewrite ?len_app.
    - unfold len. cbn. lia.
    - lia.
    - assert (HR : len (repeat b (Z.to_nat (stc c))) = stc c) by (unfold len; rewrite repeat_length; lia).
      rewrite HR. lia.
  Qed.

  Lemma ser_bytes s o : Ser s o -> Forall is_byte s /\ Forall is_byte o.
  Proof.
    induction 1 as [|b s o Hb Hr H [I1 I2]|b c s o Hb Hc Hr Hs H [I1 I2]]; split; auto.
    constructor; [exact Hb|]. apply Forall_app. split; [|exact I2]. apply Forall_forall. intros x Hx. apply repeat_spec in Hx. now subst.
  Qed.

  (** [k] leading bytes that are not run length coded are copied. *)
  Lemma ser_lits C k : forall p s o, Ser s o -> holds C p s -> Z.of_nat k <= len s ->
    (forall j, 0 <= j < Z.of_nat k -> rle (C (p + j)) = false) ->
    exists s2 o2, s = slice C p (Z.of_nat k) ++ s2 /\ o = slice C p (Z.of_nat k) ++ o2 /\ Ser s2 o2.
  Proof.
    induction k as [|k IH]; intros p s o HS Hh Hk Hr.
    - exists s, o. rewrite slice_0 by lia. auto.
    - destruct HS as [|b s o Hb Hrb HS|b c s o Hb Hc Hrb Hst HS].
      + unfold len in Hk. cbn [length] in Hk. lia.
      + destruct Hh as [Hh1 Hh2]. rewrite len_cons in Hk.
        destruct (IH (p + 1) s o HS Hh2) as (s2 & o2 & E1 & E2 & E3); [lia|intros j Hj; replace (p + 1 + j) with (p + (1 + j)) by lia; apply Hr; lia|].
        exists s2, o2. rewrite slice_cons by lia. replace (Z.of_nat (S k) - 1) with (Z.of_nat k) by lia. rewrite Hh1. cbn [app].
        split; [now rewrite E1|]. split; [now rewrite E2|exact E3].
      + exfalso. destruct Hh as [Hh1 _]. specialize (Hr 0 ltac:(lia)). rewrite Z.add_0_r in Hr. congruence.
  Qed.

  Lemma ser_none s o : (forall b, is_byte b -> rle b = false) -> Ser s o -> s = o.
  Proof. intros H. induction 1 as [|b s o Hb Hr HS IH|b c s o Hb Hc Hr Hs HS IH]; [reflexivity|now rewrite IH|]. rewrite H in Hr by exact Hb. discriminate. Qed.
End Ser.

Lemma ser_ext L rle rle' stc stc' s o : (forall b, is_byte b -> rle b = rle' b) -> (forall b, is_byte b -> stc b = stc' b) ->
  Ser L rle stc s o -> Ser L rle' stc' s o.
Proof.
  intros H1 H2. induction 1 as [|b s o Hb Hr HS IH|b c s o Hb Hc Hr Hs HS IH].
  - constructor.
  - constructor; [exact Hb|rewrite <- (H1 b Hb); exact Hr|exact IH].
  - rewrite (H2 c Hc) in *. constructor; [exact Hb|exact Hc|rewrite <- (H1 b Hb); exact Hr|exact Hs|exact IH].
Qed.

(** *** Fills *)

Lemma slice_const M q b k : 0 <= k -> (forall x, q <= x < q + k -> M x = b) -> slice M q k = repeat b (Z.to_nat k).
Proof.
  intros Hk H. unfold slice. assert (Hz : Z.of_nat (Z.to_nat k) = k) by lia. revert H. rewrite <- Hz. generalize (Z.to_nat k). clear. intros n.
  rewrite Nat2Z.id. revert q. induction n as [|n IH]; intros q H; [reflexivity|]. cbn [slice_nat repeat]. rewrite H by lia. f_equal. apply IH. intros; apply H; lia.
Qed.

Definition FillOk (L : Z) (fill : Z -> mem -> Z -> Z -> option mem) : Prop :=
  forall b M q count, 0 <= count < L -> 0 <= q -> q + count < 2 ^ 64 ->
  exists M', fill b M q count = Some M' /\
    (forall x, q <= x < q + count -> M' x = b) /\ (forall x, x < q \/ q + count + 32 <= x -> M' x = M x).

Lemma le_fillV_ok W : W = 16 \/ W = 32 -> FillOk 255 (le_fillV W).
Proof.
  intros HW b M q count Hc Hq Hw. unfold le_fillV. destruct (count =? 0) eqn:E.
  - exists M. split; [reflexivity|]. split; [intros; lia|reflexivity].
  - destruct (memsetW_spec W b M q count) as (M' & E1 & E2 & E3); [lia|lia|lia|lia|]. rewrite E1. exists M'. split; [reflexivity|].
    split; [exact E2|]. intros x Hx. apply E3. lia.
Qed.

Lemma les_fillV_ok m W : W = 16 \/ W = 32 -> FillOk 32 (les_fillV m W).
Proof.
  intros HW b M q count Hc Hq Hw. unfold les_fillV. destruct (m && (W =? 16) && (count =? 0)) eqn:E.
  - exists M. split; [reflexivity|]. split; [intros; lia|reflexivity].
  - destruct (W =? 16); (eexists; split; [reflexivity|]); split; intros x Hx.
    + destruct (Z_lt_ge_dec x (q + 16)); [rewrite vstore_out by lia; rewrite vstore_in by lia|rewrite vstore_in by lia]; reflexivity.
    + rewrite !vstore_out by lia. reflexivity.
    + rewrite vstore_in by lia. reflexivity.
    + rewrite vstore_out by lia. reflexivity.
Qed.

Lemma le_fillS_ok b M q count : 0 <= count < 256 -> 0 <= q ->
  exists M', le_fillS b M q count = Some (q + count, M') /\
    (forall x, q <= x < q + count -> M' x = b) /\ (forall x, x < q \/ q + count <= x -> M' x = M x).
Proof.
  intros Hc Hq. unfold le_fillS. destruct (count <? 16) eqn:E.
  - eexists. split; [reflexivity|]. split; intros x Hx; [apply vstore_in with (v := fun _ => b)|apply vstore_out]; lia.
  - set (st := if q mod 16 =? 0 then _ else _).
    assert (Hst : let '(q1, rem, M1) := st in al_ok 16 q1 = true /\ q <= q1 /\ q1 + rem = q + count /\ 0 <= rem < 256 /\
             (forall x, q <= x < q1 -> M1 x = b) /\ (forall x, x < q \/ q + count <= x -> M1 x = M x)).
    { unfold st. destruct (q mod 16 =? 0) eqn:Em.
      - split; [exact Em|]. split; [lia|]. split; [lia|]. split; [lia|]. split; [intros; lia|reflexivity].
      - split; [now apply al_round|]. split; [lia|]. split; [lia|]. split; [lia|]. split; intros x Hx; [rewrite vstore_in by lia; reflexivity|rewrite vstore_out by lia; reflexivity]. }
    destruct st as [[q1 rem] M1]. destruct Hst as (S0 & S1 & S2 & S3 & S4 & S5).
    destruct (loop_inv (fillS_step b)
      (fun '(q', r, N) => al_ok 16 q' = true /\ q <= q' /\ q' + r = q + count /\ 0 <= r < 256 /\
             (forall x, q <= x < q' -> N x = b) /\ (forall x, x < q \/ q + count <= x -> N x = M x))
      (fun '(q', r, N) => r)
      (fun res => exists q' r N, res = Some (q', r, N) /\ q <= q' /\ q' + r = q + count /\ 0 <= r < 16 /\
             (forall x, q <= x < q' -> N x = b) /\ (forall x, x < q \/ q + count <= x -> N x = M x)) (q1, rem, M1)) as (? & HL & q2 & rem2 & M2 & -> & HQ).
    + intros [[q' r] N] (I0 & I1 & I2 & I3 & I4 & I5). unfold fillS_step. destruct (15 <? r) eqn:Er.
      * rewrite I0. split; [|lia]. split; [apply al_next; [lia|exact I0]|]. split; [lia|]. split; [lia|]. split; [lia|]. split; intros x Hx.
        -- destruct (Z_lt_ge_dec x q') as [Hlt|Hge]; [rewrite vstore_out by lia; apply I4; lia|now rewrite vstore_in by lia].
        -- rewrite vstore_out by lia. now apply I5.
      * exists q', r, N. split; [reflexivity|]. split; [lia|]. split; [lia|]. split; [lia|]. split; assumption.
    + split; [exact S0|]. split; [lia|]. split; [lia|]. split; [lia|]. split; assumption.
    + lia.
    + rewrite HL. destruct HQ as (Q1 & Q2 & Q3 & Q4 & Q5). destruct (rem2 =? 0) eqn:Er.
      * exists M2. split; [f_equal; f_equal; lia|]. split; [intros x Hx; apply Q4; lia|exact Q5].
      * eexists. split; [f_equal; f_equal; lia|]. split; intros x Hx.
        -- destruct (Z_lt_ge_dec x (q2 - (16 - rem2))) as [Hlt|Hge]; [rewrite vstore_out by lia; apply Q4; lia|now rewrite vstore_in by lia].
        -- rewrite vstore_out by lia. now apply Q5.
Qed.

(** *** The loops *)

Section Loops.
  Variables (L : Z) (rle : Z -> bool) (stc : Z -> Z) (C : mem) (p0 pEnd q0 : Z) (full : list Z) (M0 : mem).
  Hypothesis HL : 1 <= L <= 256.
  Hypothesis Hq0 : 0 <= q0.
  Hypothesis Hp0 : 0 <= p0.
  Hypothesis Hp64 : pEnd < 2 ^ 64.
  Hypothesis Hq64 : q0 + len full + 1024 < 2 ^ 64.

  Definition DInv (st : Z * Z * mem) : Prop :=
    let '(p, q, M) := st in
    exists s o, Ser L rle stc s o /\ holds C p s /\ p0 <= p /\ p + len s = pEnd /\ q0 <= q /\
      slice M q0 (q - q0) ++ o = full /\ (forall x, x < q0 \/ q0 + len full <= x -> M x = M0 x).

  (** One more decoded part. *)
  Lemma dinv_step p q M s1 s2 o1 o2 M' :
    holds C p (s1 ++ s2) -> p0 <= p -> p + len (s1 ++ s2) = pEnd -> q0 <= q -> slice M q0 (q - q0) ++ o1 ++ o2 = full ->
    (forall x, x < q0 \/ q0 + len full <= x -> M x = M0 x) ->
    Ser L rle stc s2 o2 -> slice M' q (len o1) = o1 ->
    (forall x, x < q \/ q + len o1 + len o2 <= x -> M' x = M x) ->
    DInv (p + len s1, q + len o1, M').
  Proof.
    intros Hh Hpp Hp Hq Hf HM HS Ho Hout. exists s2, o2. apply holds_app in Hh. destruct Hh as [_ Hh].
    rewrite len_app in Hp. pose proof (len_nonneg o1). pose proof (len_nonneg s1).
    assert (Hlf : len full = q - q0 + len o1 + len o2) by (rewrite <- Hf, !len_app, len_slice by lia; lia).
    split; [exact HS|]. split; [exact Hh|]. split; [lia|]. split; [lia|]. split; [lia|]. split.
    - replace (q + len o1 - q0) with ((q - q0) + len o1) by lia. rewrite slice_app by lia. replace (q0 + (q - q0)) with q by lia.
      rewrite Ho, <- app_assoc, <- Hf. f_equal. apply slice_ext. intros k Hk. apply Hout. lia.
    - intros x Hx. rewrite Hout by lia. apply HM. exact Hx.
  Qed.

  Lemma dinv_size p q M : DInv (p, q, M) -> p0 <= p <= pEnd /\ q0 <= q <= q0 + len full /\ pEnd - p <= 2 * (q0 + len full - q).
  Proof.
    intros (s & o & HS & Hh & Hpp & Hp & Hq & Hf & _). pose proof (len_nonneg s). pose proof (len_nonneg o). apply ser_len in HS.
    assert (Hlf : len full = q - q0 + len o) by (rewrite <- Hf, len_app, len_slice by lia; lia). lia.
  Qed.

  Lemma simd_loop W hit fill p q M : W = 16 \/ W = 32 -> FillOk L fill ->
    (forall b, is_byte b -> hit b = rle b) -> DInv (p, q, M) ->
    exists s, loop (le_simd_step W hit fill stc C (pEnd - 256)) (p, q, M) = Some (Some s) /\ DInv s.
  Proof.
    intros HW HF Hhit HD. pose proof (dinv_size _ _ _ HD) as HD0.
    destruct (loop_inv (le_simd_step W hit fill stc C (pEnd - 256)) DInv (fun '(p, q, M) => Z.max 0 (pEnd - p))
                (fun r => match r with Some s => DInv s | None => False end) (p, q, M)) as ([s|] & HLp & HQ); [| |lia| |contradiction].
    - clear p q M HD HD0. intros [[p q] M] HD. unfold le_simd_step. destruct (p <? pEnd - 256) eqn:Ep; [|exact HD].
      pose proof (dinv_size _ _ _ HD) as Hsz. destruct HD as (s & o & HS & Hh & Hpp & Hp & Hq & Hf & HM).
      destruct (lead_spec (fun j => negb (hit (C (p + j)))) W) as (L1 & L2 & L3); [lia|].
      set (idx := lead (fun j => negb (hit (C (p + j)))) W) in *.
      assert (HB : forall j, 0 <= j < len s -> is_byte (C (p + j))).
      { intros j Hj. rewrite (holds_nth _ _ _ _ Hh Hj). apply ser_bytes in HS. destruct HS as [HS _].
        rewrite Forall_forall in HS. apply HS. apply nth_In. unfold len in Hj. lia. }
      destruct (ser_lits L rle stc C (Z.to_nat idx) p s o HS Hh) as (s2 & o2 & E1 & E2 & HS2); [lia| |].
      { intros j Hj. rewrite Z2Nat.id in Hj by lia. specialize (L2 j Hj). rewrite Hhit in L2 by (apply HB; lia). now destruct (rle (C (p + j))). }
      rewrite Z2Nat.id in E1, E2 by lia.
      assert (Hls : len (slice C p idx) = idx) by (apply len_slice; lia).
      assert (Hlo : len full = q - q0 + len o) by (rewrite <- Hf, len_app, len_slice by lia; lia).
      destruct (idx =? W) eqn:Ei.
      + split; [|lia]. assert (idx = W) by lia.
        assert (HD2 : DInv (p + len (slice C p idx), q + len (slice C p idx), vcopy W C p M q)).
        { apply dinv_step with (M := M) (s2 := s2) (o2 := o2); rewrite <- ?E1, <- ?E2; auto.
          - rewrite Hls. rewrite (slice_ext _ (fun x => C (p + (x - q)))) by (intros k Hk; apply vcopy_in; lia).
            apply nth_ext with (d := 0) (d' := 0); [pose proof Hls; unfold len in *; pose proof (len_slice (fun x => C (p + (x - q))) q idx ltac:(lia)); unfold len in *; lia|].
            intros k Hk. rewrite <- (Nat2Z.id k). assert (Hk' : 0 <= Z.of_nat k < idx) by (pose proof (len_slice (fun x => C (p + (x - q))) q idx ltac:(lia)); unfold len in *; lia).
            rewrite !nth_slice by lia. f_equal. lia.
          - intros x Hx. apply vcopy_out. rewrite E2, len_app in Hlo. lia. }
        rewrite Hls, H in HD2. exact HD2.
      + (* a packet *)
        assert (Hidx : idx < W) by lia. specialize (L3 Hidx).
        rewrite Hhit in L3 by (apply HB; lia).
        assert (Hh2 : holds C (p + idx) s2). { rewrite E1 in Hh. apply holds_app in Hh. destruct Hh as [_ Hh]. now rewrite Hls in Hh. }
        assert (Hl2 : len s = idx + len s2) by (rewrite E1, len_app; lia).
        destruct HS2 as [|b s2 o2 Hb Hrb HS2|b c s2 o2 Hb Hc Hrb Hst HS2].
        * unfold len at 2 in Hl2. cbn [length] in Hl2. lia.
        * exfalso. destruct Hh2 as [Hh2 _]. rewrite Hh2, Hrb in L3. discriminate.
        * destruct Hh2 as (Hb2 & Hc2 & Hh2). rewrite Hb2, Hc2.
          assert (HR : len (repeat b (Z.to_nat (stc c))) = stc c) by (unfold len; rewrite repeat_length; lia).
          pose proof (ser_len L rle stc s2 o2 HS2) as HL2.
          rewrite !len_cons in Hl2. rewrite E2 in Hlo. rewrite len_app, len_cons, len_app in Hlo.
          destruct (HF b (vcopy W C p M q) (q + idx + 1) (stc c)) as (M2 & F1 & F2 & F3); [lia|lia|lia|].
          rewrite F1. split; [|lia].
          assert (HD2 : DInv (p + len (slice C p idx ++ [b; c]), q + len (slice C p idx ++ b :: repeat b (Z.to_nat (stc c))), M2)).
          { apply dinv_step with (M := M) (s2 := s2) (o2 := o2).
            - rewrite <- app_assoc. cbn [app]. rewrite <- E1. exact Hh.
            - exact Hpp.
            - rewrite <- app_assoc. cbn [app]. rewrite <- E1. exact Hp.
            - exact Hq.
            - rewrite <- app_assoc. cbn [app]. rewrite <- E2. exact Hf.
            - exact HM.
            - exact HS2.
            - rewrite len_app, len_cons, HR, Hls. rewrite slice_app by lia. f_equal.
              + rewrite (slice_ext _ (fun x => C (p + (x - q)))) by (intros k Hk; rewrite F3 by lia; apply vcopy_in; lia).
                apply nth_ext with (d := 0) (d' := 0); [pose proof Hls; unfold len in *; pose proof (len_slice (fun x => C (p + (x - q))) q idx ltac:(lia)); unfold len in *; lia|].
                intros k Hk. rewrite <- (Nat2Z.id k). assert (Hk' : 0 <= Z.of_nat k < idx) by (pose proof (len_slice (fun x => C (p + (x - q))) q idx ltac:(lia)); unfold len in *; lia).
                rewrite !nth_slice by lia. f_equal. lia.
              + change (b :: repeat b (Z.to_nat (stc c))) with (repeat b (S (Z.to_nat (stc c)))).
                rewrite (slice_const _ _ b); [f_equal; lia|lia|]. intros x Hx. destruct (Z.eq_dec x (q + idx)) as [->|Hne]; [|apply F2; lia].
                rewrite F3, vcopy_in by lia. rewrite <- Hb2. f_equal. lia.
            - intros x Hx. rewrite len_app, len_cons, HR, Hls in Hx. rewrite F3 by lia. apply vcopy_out. lia. }
          rewrite !len_app, Hls in HD2. change (len [b; c]) with 2 in HD2. rewrite len_cons, HR in HD2.
          replace (p + idx + 1 + 1) with (p + (idx + 2)) by lia. replace (q + idx + 1 + stc c) with (q + (idx + (1 + stc c))) by lia. exact HD2.
    - exact HD.
    - exists s. split; [exact HLp|exact HQ].
  Qed.

  Lemma tail_loop p q M : DInv (p, q, M) ->
    exists p' q' M', loop (le_tail_step rle stc C pEnd) (p, q, M) = Some (Some (p', q', M')) /\
      slice M' q0 (len full) = full /\ (forall x, x < q0 \/ q0 + len full <= x -> M' x = M0 x).
  Proof.
    intros HD. pose proof (dinv_size _ _ _ HD) as HD0.
    destruct (loop_inv (le_tail_step rle stc C pEnd) DInv (fun '(p, q, M) => Z.max 0 (pEnd - p))
                (fun r => match r with Some (p', q', M') => slice M' q0 (len full) = full /\ (forall x, x < q0 \/ q0 + len full <= x -> M' x = M0 x) | None => False end) (p, q, M))
      as ([[[p' q'] M']|] & HLp & HQ); [| |lia| |contradiction].
    - clear p q M HD HD0. intros [[p q] M] HD. unfold le_tail_step.
      pose proof (dinv_size _ _ _ HD) as Hsz. destruct HD as (s & o & HS & Hh & Hpp & Hp & Hq & Hf & HM).
      assert (Hlo : len full = q - q0 + len o) by (rewrite <- Hf, len_app, len_slice by lia; lia).
      destruct (p <? pEnd) eqn:Ep.
      + destruct HS as [|b s o Hb Hrb HS|b c s o Hb Hc Hrb Hst HS].
        * change (len (@nil Z)) with 0 in Hp. lia.
        * pose proof Hh as (Hb2 & _). rewrite Hb2, Hrb. split; [|lia]. rewrite len_cons in *. pose proof (len_nonneg o).
          change (DInv (p + len [b], q + len [b], vstore 1 (fun _ => b) M q)).
          apply dinv_step with (M := M) (s2 := s) (o2 := o); auto.
          -- cbn [app]. rewrite len_cons. exact Hp.
          -- change (len [b]) with 1. rewrite slice_1. now rewrite vstore_in by lia.
          -- intros x Hx. apply vstore_out. change (len [b]) with 1 in Hx. lia.
        * pose proof Hh as (Hb2 & Hc2 & _). rewrite Hc2, Hb2, Hrb.
          assert (HR : len (repeat b (Z.to_nat (stc c))) = stc c) by (unfold len; rewrite repeat_length; lia).
          rewrite !len_cons in *. rewrite len_app in Hlo. pose proof (len_nonneg o). pose proof (len_nonneg s).
          destruct (le_fillS_ok b (vstore 1 (fun _ => b) M q) (q + 1) (stc c)) as (M2 & F1 & F2 & F3); [lia|lia|].
          rewrite F1. split; [|lia].
          replace (p + 2) with (p + len [b; c]) by reflexivity.
          replace (q + 1 + stc c) with (q + len (b :: repeat b (Z.to_nat (stc c)))) by (rewrite len_cons, HR; lia).
          apply dinv_step with (M := M) (s2 := s) (o2 := o); auto.
          -- cbn [app]. rewrite !len_cons. exact Hp.
          -- rewrite len_cons, HR. change (b :: repeat b (Z.to_nat (stc c))) with (repeat b (S (Z.to_nat (stc c)))).
             rewrite (slice_const _ _ b); [f_equal; lia|lia|]. intros x Hx. destruct (Z.eq_dec x q) as [->|Hne]; [|apply F2; lia].
             now rewrite F3, vstore_in by lia.
          -- intros x Hx. rewrite len_cons, HR in Hx. rewrite F3 by lia. apply vstore_out. lia.
      + split; [|exact HM]. assert (Hs : s = []). { destruct s; [reflexivity|]. rewrite len_cons in Hp. pose proof (len_nonneg s). lia. }
        assert (Ho : o = []) by (subst s; now inversion HS). rewrite Ho, app_nil_r in Hf. rewrite Ho in Hlo. change (len (@nil Z)) with 0 in Hlo. rewrite <- Hf at 2. f_equal. lia.
    - exact HD.
    - exists p', q', M'. split; [exact HLp|exact HQ].
  Qed.
End Loops.

Lemma filter_len_le (f : Z -> bool) l : len (filter f l) <= len l.
Proof. induction l as [|x l IH]; cbn [filter]; [unfold len; lia|]. destruct (f x); rewrite ?len_cons; lia. Qed.

Lemma rle_count_lt (rle : Z -> bool) : (exists b, is_byte b /\ rle b = false) -> 0 <= len (filter rle range256) < 256.
Proof.
  intros (b & Hb & Hr). pose proof (len_nonneg (filter rle range256)). split; [lia|].
  assert (G : forall l, List.In b l -> len (filter rle l) < len l).
  { induction l as [|x l IH]; intros Hin; [destruct Hin|]. cbn [filter]. rewrite len_cons. pose proof (filter_len_le rle l).
    destruct Hin as [->|Hin]; [rewrite Hr; lia|]. specialize (IH Hin). destruct (rle x); rewrite ?len_cons; lia. }
  rewrite <- len_range256. apply G. now apply in_range256.
Qed.

(** rle8_low_entropy(_short)_decompress_with_info. *)
Theorem le_decode_ok L c rle stc C p s o M q : (L = 255 \/ L = 32) ->
  (exists b, is_byte b /\ rle b = false) ->
  Ser L rle stc s o -> holds C p s -> 0 <= p -> p + len s < 2 ^ 64 -> 0 <= q -> q + len o + 1024 < 2 ^ 64 ->
  exists M', le_decode L c rle stc C p (p + len s) M q (len o) = DRet (len o) M' /\
    slice M' q (len o) = o /\ (forall x, x < q \/ q + len o <= x -> M' x = M x).
Proof.
  intros HL Hex HS Hh Hp Hp64 Hq Hq64. unfold le_decode.
  pose proof (rle_count_lt rle Hex) as Hc. rewrite w8_id by lia.
  destruct (len (filter rle range256) =? 0) eqn:E0.
  - assert (Hno : forall b, is_byte b -> rle b = false).
    { intros b Hb. destruct (rle b) eqn:Eb; [|reflexivity]. exfalso.
      assert (Hin : List.In b (filter rle range256)) by (apply filter_In; split; [now apply in_range256|exact Eb]).
      destruct (filter rle range256) as [|y l]; [destruct Hin|]. rewrite len_cons in E0. pose proof (len_nonneg l). lia. }
    apply ser_none in HS; [|exact Hno]. subst o. eexists. split; [reflexivity|]. split.
    + rewrite <- (slice_of_holds _ _ _ Hh) at 3. pose proof (len_nonneg s).
      assert (HH : holds (vcopy (len s) C p M q) q s).
      { apply holds_intro. intros k Hk. rewrite vcopy_in by lia. replace (p + (q + k - q)) with (p + k) by lia. now apply holds_nth. }
      rewrite (slice_of_holds _ _ _ HH), (slice_of_holds _ _ _ Hh). reflexivity.
    + intros x Hx. apply vcopy_out. lia.
  - set (multi := negb (len (filter rle range256) =? 1)).
    set (W := if (if multi then cpu_avx c else cpu_avx2 c) then 32 else 16).
    assert (HW : W = 16 \/ W = 32) by (unfold W; destruct (if multi then _ else _); auto).
    set (hit := if multi then rle else Z.eqb (hd 0 (filter rle range256))).
    set (fill := if L =? 255 then le_fillV W else les_fillV multi W).
    assert (HF : FillOk L fill).
    { unfold fill. destruct HL as [-> | ->]; [apply le_fillV_ok; exact HW|apply les_fillV_ok; exact HW]. }
    assert (Hhit : forall b, is_byte b -> hit b = rle b).
    { intros b Hb. unfold hit, multi. destruct (len (filter rle range256) =? 1) eqn:E1; cbn [negb]; [|reflexivity].
      destruct (filter rle range256) as [|y l] eqn:Ef; [change (len (@nil Z)) with 0 in E1; lia|].
      destruct l as [|z l]; [|rewrite !len_cons in E1; pose proof (len_nonneg l); lia]. cbn [hd].
      assert (Hy : forall x, List.In x [y] <-> is_byte x /\ rle x = true) by (intros x; rewrite <- Ef, filter_In, in_range256; tauto).
      destruct (rle b) eqn:Eb.
      - assert (Hin : List.In b [y]) by (apply Hy; auto). destruct Hin as [->|[]]. lia.
      - destruct (y =? b) eqn:Eyb; [|reflexivity]. exfalso. assert (y = b) by lia. subst y. destruct (proj1 (Hy b)) as [_ H]; [now left|congruence]. }
    assert (HD : DInv L rle stc C p (p + len s) q o M (p, q, M)).
    { exists s, o. split; [exact HS|]. split; [exact Hh|]. split; [lia|]. split; [reflexivity|]. split; [lia|]. split; [replace (q - q) with 0 by lia; reflexivity|reflexivity]. }
    assert (H1 : exists st, loop (le_simd_step W hit fill stc C (p + len s - 256)) (p, q, M) = Some (Some st) /\ DInv L rle stc C p (p + len s) q o M st)
      by (apply simd_loop; auto; lia).
    destruct H1 as ([[p1 q1] M1] & E1 & HD1). rewrite E1.
    assert (H2 : exists p' q' M', loop (le_tail_step rle stc C (p + len s)) (p1, q1, M1) = Some (Some (p', q', M')) /\
      slice M' q (len o) = o /\ (forall x, x < q \/ q + len o <= x -> M' x = M x))
      by (eapply tail_loop; try exact HD1; auto; lia).
    destruct H2 as (p2 & q2 & M2 & E2 & F1 & F2). rewrite E2. exists M2. auto.
Qed.
