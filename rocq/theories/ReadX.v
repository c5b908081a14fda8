(** The decoders of the extreme multi-byte codecs read at most one vector behind a stream. *)
From Verif Require Import Base Simd SimdProof Spec PktSpec FmtSpec ExtModel ExtDec ExtEnc PktModel Codec ExtThm FmtThm LutModel LutProof WrThm ReadSpec ReadThm ReadFam.

Lemma dec_count_local c C1 C2 p reg p1 r cnt : cok c -> dec_count c C1 p reg = (p1, r, cnt) -> agree C1 C2 p (p1 + 2) ->
  dec_count c C2 p reg = (p1, r, cnt) /\ p <= p1.
Proof.
  intros [HS _] E HA. assert (HR : 0 < xS c /\ rawS (xS c) <= xS c + 2).
  { split; [apply okS_pos in HS; lia|]. unfold okS in HS. unfold rawS. destruct (xS c =? 3) eqn:E3; [|destruct (xS c =? 6) eqn:E6]; lia. }
  clear HS. unfold dec_count in *. destruct (xPack c).
  - assert (L : p < p1) by (destruct (Z.land (C1 p) 127 =? 0), (negb (Z.land (C1 p) 128 =? 0)); injection E; lia).
    split; [|lia]. loc HA. destruct (Z.land (C1 p) 127 =? 0); cbn iota beta in *.
    + assert (L4 : p + 5 <= p1) by (destruct (negb (Z.land (C1 p) 128 =? 0)); injection E; lia).
      rewrite (rd32_local C1 C2) by (eapply agree_sub; [exact HA|lia|lia]).
      destruct (negb (Z.land (C1 p) 128 =? 0)); [exact E|]. rewrite <- E. injection E as Ep _ _.
      rewrite (slice_local C1 C2) by (eapply agree_sub; [exact HA|lia|lia]). reflexivity.
    + destruct (negb (Z.land (C1 p) 128 =? 0)); [exact E|]. rewrite <- E. injection E as Ep _ _.
      rewrite (slice_local C1 C2) by (eapply agree_sub; [exact HA|lia|lia]). reflexivity.
  - assert (L : p + xS c + 1 <= p1 /\ (C1 (p + xS c) =? 0 = true -> p + xS c + 1 + 4 <= p1)) by (destruct (C1 (p + xS c) =? 0); injection E; lia).
    split; [|lia]. destruct L as [L1 L2]. loc HA. rewrite (slice_local C1 C2) by (eapply agree_sub; [exact HA|lia|lia]).
    destruct (C1 (p + xS c) =? 0); [|exact E]. specialize (L2 eq_refl). rewrite (rd32_local C1 C2) by (eapply agree_sub; [exact HA|lia|lia]). exact E.
Qed.

Lemma wire_loop_local c d C1 C2 p0 reg0 M1 M2 q0 last bytes data e tl :
  fok c -> regok (xS c) reg0 last -> Packets (wire_of c) last bytes data -> EndMark (wire_of c) e tl ->
  holds C1 p0 (bytes ++ e) -> agree C1 C2 p0 (p0 + len (bytes ++ e) + dcopyW d) ->
  0 < p0 -> 0 < q0 -> p0 + len (bytes ++ e) + 128 < 2 ^ 64 -> q0 + len (data ++ tl) + 128 < 2 ^ 64 -> same M1 M2 ->
  sameres (loop (dec_step c d C1) (p0, q0, reg0, M1)) (loop (dec_step c d C2) (p0, q0, reg0, M2)).
Proof.
  intros Hf Hreg0 HSer HTerm Hh HA Hp0 Hq0 HpB HqB HM. pose proof Hf as [Hc HP7].
  assert (HW : 16 <= dcopyW d <= 32) by (destruct (dcopyW_pos d); lia).
  set (pe := p0 + len (bytes ++ e)) in *. set (qe := q0 + len (data ++ tl)) in *.
  assert (K : match loop (dec_step c d C1) (p0, q0, reg0, M1), loop (dec_step c d C2) (p0, q0, reg0, M2) with
    | Some a, Some b => match a, b with Some M1, Some M2 => same M1 M2 | None, None => True | _, _ => False end
    | None, None => True | _, _ => False end).
  2:{ destruct (loop (dec_step c d C1) (p0, q0, reg0, M1)) as [[?|]|], (loop (dec_step c d C2) (p0, q0, reg0, M2)) as [[?|]|]; cbn; auto. }
  apply (loop_rel _ _ (fun s t => let '(p, q, reg, N1) := s in let '(p', q', reg', N2) := t in
    p = p' /\ q = q' /\ reg = reg' /\ same N1 N2 /\ p0 <= p /\ q0 <= q /\
    exists last bytes data, regok (xS c) reg last /\ Packets (wire_of c) last bytes data /\ holds C1 p (bytes ++ e) /\
      p + len (bytes ++ e) = pe /\ q + len (data ++ tl) = qe)
    (fun a b => match a, b with Some M1, Some M2 => same M1 M2 | None, None => True | _, _ => False end)).
  2:{ repeat (split; [first [reflexivity|assumption|lia]|]). exists last, bytes, data. repeat (split; [first [assumption|reflexivity]|]). reflexivity. }
  clear last reg0 Hreg0 HSer Hh HM M1 M2. clearbody pe qe. clear bytes data.
  intros [[[p q] reg] N1] [[[p' q'] reg'] N2] (<- & <- & <- & HM & Hp & Hq & last & bytes & data & Hreg & HSer & Hh & Epe & Eqe).
  unfold dec_step. destruct HSer as [last|last sym v cf lf lits bytes data Hlen Hcf Hlf HSer].
  - cbn [app] in *.
    assert (Hh2 : holds C2 p e) by (apply (agree_holds C1); [exact Hh|]; eapply agree_sub; [exact HA|lia|lia]).
    destruct HTerm as [zc lf tl Hzc Hlf|zc Hzc HB|zc Hzc HB|zc Hzc HB H16];
      destruct (zero_count_dec c C1 p reg zc _ Hc Hzc Hh) as (r1 & ->); destruct (zero_count_dec c C2 p reg zc _ Hc Hzc Hh2) as (r2 & ->);
      apply holds_app in Hh; destruct Hh as [_ Hh]; apply holds_app in Hh2; destruct Hh2 as [_ Hh2]; rewrite len_app in Epe; pose proof (len_nonneg zc).
    + destruct (lit_field_dec c C1 _ (len tl) lf tl Hf Hlf Hh) as [-> _]. destruct (lit_field_dec c C2 _ (len tl) lf tl Hf Hlf Hh2) as [-> _].
      rewrite len_app in Epe. pose proof (len_nonneg lf). pose proof (len_nonneg tl). rewrite w64_id by lia. replace (len tl + 1 - 1) with (len tl) by lia.
      pose proof (memcpyW_local (dcopyW d) C1 C2 (p + len zc + len lf) N1 N2 q (len tl)) as K.
      specialize (K ltac:(lia) ltac:(lia) ltac:(lia) ltac:(lia) ltac:(lia) ltac:(lia) ltac:(eapply agree_sub; [exact HA|lia|lia]) HM).
      unfold same3 in K. destruct (memcpyW (dcopyW d) C1 (p + len zc + len lf) N1 q (len tl)) as [[[? ?] ?]|],
        (memcpyW (dcopyW d) C2 (p + len zc + len lf) N2 q (len tl)) as [[[? ?] ?]|]; try contradiction; [|exact Logic.I].
      cbn [Z.eqb]. apply K.
    + cbn [wire_of wByte wPacked] in HB. unfold dec_range. rewrite HP7, HB.
      cbn [holds] in Hh, Hh2. destruct Hh as [Hh Hr], Hh2 as [Hh2 Hr2]. rewrite Hh, Hh2. cbn [Z.eqb].
      rewrite (rd32_holds C1 _ 0 []) by (try (rewrite app_nil_r; exact Hr); lia).
      rewrite (rd32_holds C2 _ 0 []) by (try (rewrite app_nil_r; exact Hr2); lia). cbn [Z.eqb]. exact HM.
    + cbn [wire_of wByte wPacked] in HB. unfold dec_range. rewrite HP7, HB.
      rewrite (rd32_holds C1 _ 1 []) by (try (rewrite app_nil_r; exact Hh); lia).
      rewrite (rd32_holds C2 _ 1 []) by (try (rewrite app_nil_r; exact Hh2); lia).
      unfold le32 in Hh, Hh2. cbn [app holds] in Hh, Hh2. destruct Hh as [Hh _], Hh2 as [Hh2 _]. rewrite Hh, Hh2.
      change (Z.land (1 mod 256) 1 =? 1) with true. cbn iota. change (1 / 2 =? 0) with true. cbn iota. exact HM.
    + cbn [wire_of wByte wPacked] in HB. unfold dec_range. rewrite HP7, HB.
      cbn [holds] in Hh, Hh2. destruct Hh as [Hh _], Hh2 as [Hh2 _]. rewrite Hh, Hh2. change (Z.land 0 1 =? 1) with false. cbn iota.
      change (0 / 2) with 0. rewrite len_cons in Epe. pose proof (len_nonneg (le32 0)). rewrite len_le32 in Epe. change (len (@nil Z)) with 0 in Eqe.
      pose proof (memcpyW_wrap_local (dcopyW d) C1 C2 (p + len zc + 1) N1 N2 q) as K.
      specialize (K ltac:(lia) ltac:(lia) ltac:(lia) ltac:(lia) ltac:(eapply agree_sub; [exact HA|lia|lia]) HM).
      unfold same3 in K. destruct (memcpyW (dcopyW d) C1 (p + len zc + 1) N1 q (w64 (0 - 1))) as [[[? ?] ?]|],
        (memcpyW (dcopyW d) C2 (p + len zc + 1) N2 q (w64 (0 - 1))) as [[[? ?] ?]|]; try contradiction; [|exact Logic.I].
      cbn [Z.eqb]. apply K.
  - cbn [wire_of wS] in Hlen. repeat rewrite <- app_assoc in Hh. repeat rewrite len_app in Epe. repeat rewrite len_app in Eqe.
    pose proof (len_nonneg cf). pose proof (len_nonneg lf). pose proof (len_nonneg lits). pose proof (len_nonneg bytes). pose proof (len_nonneg e).
    pose proof (len_nonneg data). pose proof (len_nonneg tl).
    destruct (count_field_dec c C1 p reg last sym v cf _ Hc Hlen Hreg Hcf Hh) as (reg1 & E1 & Hreg1 & Hv).
    destruct (dec_count_local c C1 C2 p reg _ _ _ Hc E1) as [-> _]; [eapply agree_sub; [exact HA|lia|lia]|]. rewrite E1.
    apply holds_app in Hh. destruct Hh as [_ Hh].
    assert (Hh2 : holds C2 (p + len cf) (lf ++ lits ++ bytes ++ e)).
    { apply (agree_holds C1); [exact Hh|]. rewrite !len_app. eapply agree_sub; [exact HA|lia|lia]. }
    destruct (lit_field_dec c C1 _ (len lits) lf _ Hf Hlf Hh) as [-> _]. destruct (lit_field_dec c C2 _ (len lits) lf _ Hf Hlf Hh2) as [-> _].
    apply holds_app in Hh. destruct Hh as [_ Hh]. rewrite w64_id by lia. replace (len lits + 1 - 1) with (len lits) by lia.
    pose proof (wRun_nonneg c v Hc ltac:(lia)) as Hcp. pose proof (len_periodic sym _ Hcp) as Hlper. rewrite repetition_periodic, Hlper in Eqe.
    pose proof (memcpyW_local (dcopyW d) C1 C2 (p + len cf + len lf) N1 N2 q (len lits)) as K.
    specialize (K ltac:(lia) ltac:(lia) ltac:(lia) ltac:(lia) ltac:(lia) ltac:(lia) ltac:(eapply agree_sub; [exact HA|lia|lia]) HM).
    destruct (memcpyW_spec (dcopyW d) C1 (p + len cf + len lf) N1 q (len lits)) as (M4 & HM4 & _); try lia.
    unfold same3 in K. rewrite HM4 in K |- *.
    destruct (memcpyW (dcopyW d) C2 (p + len cf + len lf) N2 q (len lits)) as [[[p4 q4] M4']|]; [|contradiction].
    destruct K as (<- & <- & K). replace (v =? 0) with false by lia. rewrite wRun_decoded.
    destruct (dfill_spec (xS c) d reg1 M4 (q + len lits) (wRun (wire_of c) v)) as (M5 & HM5 & _); try lia.
    { apply Hc. } { apply Hreg1. }
    pose proof (dfill_same (xS c) d reg1 M4 M4' (q + len lits) (wRun (wire_of c) v) K) as K2. unfold same2 in K2. rewrite HM5 in K2 |- *.
    destruct (dfill (xS c) d reg1 M4' (q + len lits) (wRun (wire_of c) v)) as [[q5 M5']|]; [|contradiction]. destruct K2 as (<- & K2).
    repeat (split; [first [reflexivity|assumption|lia]|]). exists sym, bytes, data.
    apply holds_app in Hh. split; [exact Hreg1|]. split; [exact HSer|]. split; [apply Hh|]. rewrite !len_app. lia.
Qed.

Lemma wire_reads c d n out data : List.In c xcodecs -> WireStream (wire_of c) n out data -> StreamUpTo (dcopyW d) (xdecompress c d) n (len data) out.
Proof.
  intros Hin HSt C1 C2 pin inSize M pout cap Hh HA Hpin Hpin2 Hins Hpout Hpout2 Hcap.
  assert (HW : 16 <= dcopyW d <= 32) by (destruct (dcopyW_pos d); lia).
  assert (Hh2 : holds C2 pin out) by (apply (agree_holds C1); [exact Hh|]; intros x Hx; apply HA; lia).
  destruct (wire_restores_in c d n out data Hin HSt C1 pin inSize M pout cap) as (M1 & E1 & _); try assumption.
  destruct (wire_restores_in c d n out data Hin HSt C2 pin inSize M pout cap) as (M2 & E2 & _); try assumption.
  exists M1, M2. split; [exact E1|]. split; [exact E2|]. pose proof (xcodecs_fok c Hin) as Hf. pose proof (proj1 (proj1 Hf)) as HS.
  destruct HSt as (ps & e & d1 & d2 & HP & HE & -> & Hn & Hnd & Hlen & ->).
  rewrite !len_app, !len_le32 in *. pose proof (len_nonneg ps). pose proof (len_nonneg e). unfold xdecompress in E1, E2.
  rewrite <- len_app in Hh, Hh2, Hlen.
  destruct (head_two C1 pin n (ps ++ e) ltac:(lia) ltac:(lia) Hh) as (A1 & A2 & A3). destruct (head_two C2 pin n (ps ++ e) ltac:(lia) ltac:(lia) Hh2) as (B1 & B2 & _).
  rewrite A1, A2 in E1. rewrite B1, B2 in E2. rewrite len_app in *.
  replace ((pin =? 0) || (pout =? 0) || (inSize =? 0) || (cap =? 0)) with false in E1, E2 by lia.
  replace ((cap <? n) || (inSize <? 8 + (len ps + len e))) with false in E1, E2 by lia.
  eapply same_end; [exact E1|exact E2|].
  apply (wire_loop_local c d C1 C2 (pin + 8) _ M M pout (repeat 0 (Z.to_nat (xS c))) ps d1 e d2); try assumption; try (rewrite ?len_app; lia).
  - now apply regok_zero.
  - rewrite len_app. intros x Hx. apply HA. lia.
  - now intros x.
Qed.
