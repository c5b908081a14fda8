(** The decoders of the 8 bit, symlut, short and extreme codecs read at most one vector behind a stream. *)
From Verif Require Import Base Simd SimdProof Spec PktSpec FmtSpec Fmt8Spec LutSpec ExtModel ExtDec ExtEnc PktModel PktDec PktEnc Codec
  Rle8Model Rle8Proof Rle8Single Rle8Thm MbModel MbEnc LutModel LutProof SlModel SlProof SlThm ShModel ShProof ShEnc ShThm FmtThm Fmt2Thm WrThm ReadSpec ReadThm.

Lemma body_local {D T A} (parse : D -> mem -> Z -> T -> pres T) (fill : D -> T -> mem -> Z -> Z -> option (Z * mem)) (W : D -> Z) (R : T -> A -> Prop)
    (P : A -> list Z -> list Z -> list Z -> A -> Prop) (E : A -> list Z -> list Z -> Prop) d C1 C2 p reg M q a body data :
  (forall d, 16 <= W d <= 64) ->
  (forall d C1 C2 p reg p1 reg1 off cnt, parse d C1 p reg = PGo p1 reg1 off cnt -> agree C1 C2 p (p1 + 2) -> parse d C2 p reg = PGo p1 reg1 off cnt) ->
  (forall d reg M1 M2 q cnt, same M1 M2 -> same2 (fill d reg M1 q cnt) (fill d reg M2 q cnt)) ->
  (forall a h lits run a', P a h lits run a' -> Pkt parse fill R a h lits run a') -> (forall a e lits, E a e lits -> GTerm parse R a e lits) ->
  Body P E a body data -> R reg a -> holds C1 p body -> agree C1 C2 p (p + len body + W d) ->
  0 < p -> 0 < q -> p + len body + 128 < 2 ^ 64 -> q + len data + 128 < 2 ^ 64 ->
  sameres (loop (pkt_step (parse d) (fill d) (W d) C1) (p, q, reg, M)) (loop (pkt_step (parse d) (fill d) (W d) C2) (p, q, reg, M)).
Proof.
  intros HW HP HF HPk HE (bytes & d1 & a1 & e & d2 & HS & HT & -> & ->) HR Hh HA Hp Hq Hp2 Hq2.
  apply (pkt_loop_local parse fill W R HW HP HF d C1 C2 p reg M M q a bytes d1 a1 e d2); try assumption; [|now apply HE|now intros x].
  clear - HS HPk. induction HS; [constructor|]. econstructor; eauto.
Qed.

Lemma same_end (L1 L2 : option (option mem)) n M1 M2 :
  (match L1 with Some (Some M') => DRet n M' | _ => DDiverge end) = DRet n M1 ->
  (match L2 with Some (Some M') => DRet n M' | _ => DDiverge end) = DRet n M2 -> sameres L1 L2 -> same M1 M2.
Proof. destruct L1 as [[?|]|], L2 as [[?|]|]; intros H1 H2 H; try discriminate. injection H1 as <-. injection H2 as <-. exact H. Qed.

(** *** Headers *)

Ltac loc H := rewrite <- ?H by lia.

Lemma read_ext_local C1 C2 p f p2 v : read_ext C1 p f = (p2, v) -> agree C1 C2 p p2 -> read_ext C2 p f = (p2, v) /\ p <= p2.
Proof.
  unfold read_ext. intros E HA. destruct (f =? 0); [|destruct (f =? 1)]; injection E as <- <-; (split; [|lia]);
    rewrite ?(rd32_local C1 C2), ?(rd16_local C1 C2); auto.
Qed.

Lemma dec_sym_local S SC C1 C2 p k regs p1 r : rawS S <= S + 2 -> 0 <= S -> dec_sym S SC C1 p k regs = (p1, r) -> agree C1 C2 p (p1 + 2) ->
  dec_sym S SC C2 p k regs = (p1, r) /\ p <= p1.
Proof.
  unfold dec_sym, load. intros HS HS0 E HA. destruct (k =? SC); injection E as <- <-; (split; [|lia]); [|reflexivity].
  rewrite (slice_local C1 C2); [reflexivity|]. eapply agree_sub; [exact HA|lia|lia].
Qed.

Lemma m_parse_local pk C1 C2 p reg p1 reg1 off cnt :
  m_parse pk C1 p reg = PGo p1 reg1 off cnt -> agree C1 C2 p (p1 + 2) -> m_parse pk C2 p reg = PGo p1 reg1 off cnt.
Proof.
  unfold m_parse. intros E HA.
  destruct (m_dec_count pk C1 p reg) as [[p2 sym2] cnt2] eqn:Ec. destruct (m_dec_range pk C1 p2) as [[p3 o] st] eqn:Er.
  destruct st; [discriminate|]. injection E as -> -> <- ->.
  assert (Hr : m_dec_range pk C2 p2 = (p1, o, false) /\ p2 <= p1).
  { assert (L : p <= p2).
    { clear - Ec. unfold m_dec_count in Ec. destruct pk.
      - destruct (Z.land (C1 p) 127 =? 0), (negb (Z.land (C1 p) 128 =? 0)); injection Ec; lia.
      - destruct (C1 (p + 1) =? 0); injection Ec; lia. }
    assert (L2 : p2 < p1). { clear - Er. unfold m_dec_range in Er. destruct pk; destruct (_ =? _) in Er; injection Er; lia. }
    split; [|lia]. rewrite <- Er. unfold m_dec_range in *. loc HA. destruct pk.
    - destruct (Z.land (C1 p2) 1 =? 1); [|reflexivity]. injection Er as Ep _ _. rewrite (rd32_local C1 C2); [reflexivity|]. eapply agree_sub; [exact HA|lia|lia].
    - destruct (C1 p2 =? 0); [|reflexivity]. injection Er as Ep _ _. rewrite (rd32_local C1 C2); [reflexivity|]. eapply agree_sub; [exact HA|lia|lia]. }
  destruct Hr as [Hr L].
  assert (Hc : m_dec_count pk C2 p reg = (p2, reg1, cnt)).
  { rewrite <- Ec. clear Er Hr. unfold m_dec_count in *. destruct pk.
    - assert (L3 : p < p2) by (destruct (Z.land (C1 p) 127 =? 0), (negb (Z.land (C1 p) 128 =? 0)); injection Ec; lia).
      loc HA. destruct (Z.land (C1 p) 127 =? 0); cbn iota beta in *.
      + assert (L4 : p + 5 <= p2) by (destruct (negb (Z.land (C1 p) 128 =? 0)); injection Ec; lia).
        rewrite (rd32_local C1 C2) by (eapply agree_sub; [exact HA|lia|lia]).
        destruct (negb (Z.land (C1 p) 128 =? 0)); [reflexivity|]. injection Ec as Ep _ _. loc HA. reflexivity.
      + destruct (negb (Z.land (C1 p) 128 =? 0)); [reflexivity|]. injection Ec as Ep _ _. loc HA. reflexivity.
    - assert (L3 : p + 2 <= p2) by (destruct (C1 (p + 1) =? 0); injection Ec; lia). loc HA.
      destruct (C1 (p + 1) =? 0); [|reflexivity]. injection Ec as Ep _ _. rewrite (rd32_local C1 C2) by (eapply agree_sub; [exact HA|lia|lia]). reflexivity. }
  rewrite Hc, Hr. reflexivity.
Qed.

Lemma s_parse_local C1 C2 p reg p1 reg1 off cnt :
  s_parse C1 p reg = PGo p1 reg1 off cnt -> agree C1 C2 p (p1 + 2) -> s_parse C2 p reg = PGo p1 reg1 off cnt.
Proof.
  unfold s_parse. intros E HA.
  destruct (if C1 p =? 0 then (p + 1 + 4, rd32 C1 (p + 1)) else (p + 1, C1 p)) as [p2 c2] eqn:Ec.
  assert (L2 : p2 < p1 /\ (C1 p2 =? 0 = true -> p2 + 5 <= p1)).
  { clear - E. destruct (C1 p2 =? 0); [destruct (rd32 C1 (p2 + 1) =? 0); [discriminate|]|]; injection E as <- <- <- <-; lia. }
  assert (L1 : p < p2 /\ (C1 p =? 0 = true -> p2 = p + 1 + 4)) by (clear - Ec; destruct (C1 p =? 0); injection Ec as <- <-; lia).
  replace (if C2 p =? 0 then (p + 1 + 4, rd32 C2 (p + 1)) else (p + 1, C2 p)) with (p2, c2).
  2:{ rewrite <- Ec. loc HA. destruct (C1 p =? 0); [|reflexivity]. destruct L1 as [_ L1]. specialize (L1 eq_refl).
      rewrite (rd32_local C1 C2) by (eapply agree_sub; [exact HA|lia|lia]). reflexivity. }
  loc HA. destruct (C1 p2 =? 0); [|exact E]. destruct L2 as [_ L2]. specialize (L2 eq_refl).
  rewrite (rd32_local C1 C2) by (eapply agree_sub; [exact HA|lia|lia]). exact E.
Qed.

Lemma sl_parse_local c l C1 C2 p reg p1 reg1 off cnt : rawS (slS c) <= slS c + 2 -> 0 <= slS c ->
  sl_parse c l C1 p reg = PGo p1 reg1 off cnt -> agree C1 C2 p (p1 + 2) -> sl_parse c l C2 p reg = PGo p1 reg1 off cnt.
Proof.
  unfold sl_parse. intros HS HS0 E HA. set (v := rd16 C1 p) in *.
  destruct (dec_sym (slS c) (slSC c) C1 (p + 2) (Z.shiftr v (7 + slRB c)) reg) as [q1 r1] eqn:E1.
  destruct (read_ext C1 q1 (Z.land (Z.shiftr v (slRB c)) slMAXC)) as [q2 c2] eqn:E2.
  destruct (read_ext C1 q2 (Z.land v (slMAXR c))) as [q3 o3] eqn:E3.
  assert (K : q3 = p1) by (repeat match type of E with context [if ?b then _ else _] => destruct b end; try discriminate; now injection E).
  subst q3.
  assert (M1 : p + 2 <= q1) by (clear - E1 HS0; unfold dec_sym in E1; destruct (_ =? _) in E1; injection E1; lia).
  assert (M2 : q1 <= q2) by (clear - E2; unfold read_ext in E2; destruct (_ =? _) in E2; [|destruct (_ =? _) in E2]; injection E2; lia).
  assert (M3 : q2 <= p1) by (clear - E3; unfold read_ext in E3; destruct (_ =? _) in E3; [|destruct (_ =? _) in E3]; injection E3; lia).
  rewrite (rd16_local C1 C2) by (eapply agree_sub; [exact HA|lia|lia]). fold v.
  destruct (dec_sym_local _ _ C1 C2 _ _ _ _ _ HS HS0 E1) as [-> _]; [eapply agree_sub; [exact HA|lia|lia]|].
  destruct (read_ext_local C1 C2 _ _ _ _ E2) as [-> _]; [eapply agree_sub; [exact HA|lia|lia]|].
  destruct (read_ext_local C1 C2 _ _ _ _ E3) as [-> _]; [eapply agree_sub; [exact HA|lia|lia]|]. exact E.
Qed.

Lemma sh_sym_local c C1 C2 p k regs p1 r : rawS (shS c) <= shS c + 2 -> 0 <= shS c -> sh_sym c C1 p k regs = (p1, r) -> agree C1 C2 p (p1 + 2) ->
  sh_sym c C2 p k regs = (p1, r).
Proof.
  unfold sh_sym. intros HS HS0 E HA. destruct (shOne c); [exact E|]. now destruct (dec_sym_local _ _ C1 C2 _ _ _ _ _ HS HS0 E HA).
Qed.

Lemma sh_parse_local c l C1 C2 p reg p1 reg1 off cnt : rawS (shS c) <= shS c + 2 -> 0 <= shS c ->
  sh_parse c l C1 p reg = PGo p1 reg1 off cnt -> agree C1 C2 p (p1 + 2) -> sh_parse c l C2 p reg = PGo p1 reg1 off cnt.
Proof.
  unfold sh_parse. intros HS HS0 E HA. set (b1 := C1 p) in *.
  assert (MS : forall q k q' r, sh_sym c C1 q k reg = (q', r) -> q <= q').
  { clear - HS0. intros q k q' r H. unfold sh_sym, dec_sym in H. destruct (shOne c); [injection H; lia|]. destruct (_ =? _) in H; injection H; lia. }
  assert (ME : forall q f q' v, read_ext C1 q f = (q', v) -> q <= q').
  { clear. intros q f q' v H. unfold read_ext in H. destruct (_ =? _) in H; [|destruct (_ =? _) in H]; injection H; lia. }
  destruct (Z.land (Z.shiftr b1 (shRP c)) (shINVALID c) =? shINVALID c) eqn:EI.
  - set (cf := Z.lor (Z.shiftr (C1 (p + 1)) (shRB c - 8)) (Z.shiftl (Z.land b1 (shMAXPR c)) (8 - (shRB c - 8)))) in *.
    set (off0 := Z.lor (C1 (p + 2)) (Z.shiftl (Z.land (C1 (p + 1)) (2 ^ (shRB c - 8) - 1)) 8)) in *.
    destruct (read_ext C1 (p + 3) cf) as [q1 c1] eqn:E1. destruct (read_ext C1 q1 off0) as [q2 o2] eqn:E2.
    destruct ((off0 =? 1) && (o2 =? 0)) eqn:ES; [discriminate|].
    destruct (sh_sym c C1 q2 (Z.shiftr b1 (shCP c + shRP c)) reg) as [q3 r3] eqn:E3. injection E as -> -> <- <-.
    pose proof (ME _ _ _ _ E1). pose proof (ME _ _ _ _ E2). pose proof (MS _ _ _ _ E3).
    loc HA. fold b1. rewrite EI. fold cf. fold off0.
    destruct (read_ext_local C1 C2 _ _ _ _ E1) as [-> _]; [eapply agree_sub; [exact HA|lia|lia]|].
    destruct (read_ext_local C1 C2 _ _ _ _ E2) as [-> _]; [eapply agree_sub; [exact HA|lia|lia]|]. rewrite ES.
    rewrite (sh_sym_local c C1 C2 _ _ _ _ _ HS HS0 E3); [reflexivity|eapply agree_sub; [exact HA|lia|lia]].
  - destruct (sh_sym c C1 (p + 1) (Z.shiftr b1 (shCP c + shRP c)) reg) as [q3 r3] eqn:E3. injection E as -> -> <- <-.
    pose proof (MS _ _ _ _ E3). loc HA. fold b1. rewrite EI.
    rewrite (sh_sym_local c C1 C2 _ _ _ _ _ HS HS0 E3); [reflexivity|eapply agree_sub; [exact HA|lia|lia]].
Qed.

(** *** The functions *)

Lemma d8W_16 d : 16 <= d8W d <= 64.
Proof. destruct d; cbn; lia. Qed.
Lemma lvl_copyW_16 S l : 16 <= lvl_copyW S l <= 64.
Proof. destruct l; cbn; try lia. destruct (S =? 1); lia. Qed.
Lemma rawS_2 S : okS1 S -> rawS S <= S + 2 /\ 0 <= S.
Proof. intros H. split; [|pose proof (okS1_pos S H); lia]. unfold okS1, okS in H. unfold rawS. destruct (S =? 3) eqn:E3; [|destruct (S =? 6) eqn:E6]; lia. Qed.

Lemma m8_reads pk d n out data : M8Stream pk n out data -> StreamUpTo (d8W d) (r8_decompress pk d) n (len data) out.
Proof.
  intros HSt C1 C2 pin inSize M pout cap Hh HA Hpin Hpin2 Hin Hpout Hpout2 Hcap. pose proof (d8W_16 d).
  assert (Hh2 : holds C2 pin out) by (apply (agree_holds C1); [exact Hh|]; intros x Hx; apply HA; lia).
  destruct (m8_accepts pk d n out data HSt C1 pin inSize M pout cap) as (M1 & E1 & _); try assumption.
  destruct (m8_accepts pk d n out data HSt C2 pin inSize M pout cap) as (M2 & E2 & _); try assumption.
  exists M1, M2. split; [exact E1|]. split; [exact E2|].
  destruct HSt as (body & -> & Hn & Hd & Hlen & HB).
  rewrite !len_app, !len_le32 in *. change (len [0]) with 1 in *. pose proof (len_nonneg body).
  unfold r8_decompress in E1, E2.
  assert (HR : forall C, holds C pin (le32 n ++ le32 (9 + len body) ++ [0] ++ body) ->
    rd32 C pin = n /\ rd32 C (pin + 4) = 9 + len body /\ C (pin + 8) = 0 /\ holds C (pin + 9) body).
  { clear - Hn Hlen H0. intros C Hh. rewrite (rd32_holds C pin n _) by (try exact Hh; lia). split; [reflexivity|].
    apply holds_app in Hh. destruct Hh as [_ Hh]. rewrite len_le32 in Hh.
    rewrite (rd32_holds C (pin + 4) (9 + len body) _) by (try exact Hh; lia). split; [reflexivity|].
    apply holds_app in Hh. destruct Hh as [_ Hh]. rewrite len_le32 in Hh.
    cbn [app holds] in Hh. destruct Hh as [Hmode Hh]. replace (pin + 4 + 4) with (pin + 8) in * by lia.
    split; [exact Hmode|]. now replace (pin + 8 + 1) with (pin + 9) in Hh by lia. }
  destruct (HR C1 Hh) as (A1 & A2 & A3 & A4). destruct (HR C2 Hh2) as (B1 & B2 & B3 & _). rewrite A1, A2, A3 in E1. rewrite B1, B2, B3 in E2.
  replace ((pin =? 0) || (pout =? 0) || (inSize =? 0) || (cap =? 0)) with false in E1, E2 by lia.
  replace ((cap <? n) || (inSize <? 9 + len body)) with false in E1, E2 by lia. cbn [Z.eqb] in E1, E2.
  eapply same_end; [exact E1|exact E2|].
  apply (body_local (fun _ : d8 => m_parse pk) (m_fill pk) d8W eq _ _ d C1 C2 (pin + 9) 0 M pout 0 body data d8W_16
    (fun _ => m_parse_local pk) (fun d reg M1 M2 q cnt => memsetW_same (d8W d) reg M1 M2 q _) (M8Packet_pkt pk) (M8End_term pk) HB); try assumption; try lia; try reflexivity.
  intros x Hx. apply HA. lia.
Qed.

Lemma s8_reads pk d n out data : S8Stream pk n out data -> StreamUpTo (d8W d) (r8_decompress pk d) n (len data) out.
Proof.
  intros HSt C1 C2 pin inSize M pout cap Hh HA Hpin Hpin2 Hin Hpout Hpout2 Hcap. pose proof (d8W_16 d).
  assert (Hh2 : holds C2 pin out) by (apply (agree_holds C1); [exact Hh|]; intros x Hx; apply HA; lia).
  destruct (s8_accepts pk d n out data HSt C1 pin inSize M pout cap) as (M1 & E1 & _); try assumption.
  destruct (s8_accepts pk d n out data HSt C2 pin inSize M pout cap) as (M2 & E2 & _); try assumption.
  exists M1, M2. split; [exact E1|]. split; [exact E2|].
  destruct HSt as (sym & body & -> & Hn & Hd & Hlen & Hsym & HB).
  rewrite !len_app, !len_le32 in *. change (len [1; sym]) with 2 in *. pose proof (len_nonneg body).
  unfold r8_decompress in E1, E2.
  assert (HR : forall C, holds C pin (le32 n ++ le32 (10 + len body) ++ [1; sym] ++ body) ->
    rd32 C pin = n /\ rd32 C (pin + 4) = 10 + len body /\ C (pin + 8) = 1 /\ C (pin + 9) = sym /\ holds C (pin + 10) body).
  { clear - Hn Hlen H0. intros C Hh. rewrite (rd32_holds C pin n _) by (try exact Hh; lia). split; [reflexivity|].
    apply holds_app in Hh. destruct Hh as [_ Hh]. rewrite len_le32 in Hh.
    rewrite (rd32_holds C (pin + 4) (10 + len body) _) by (try exact Hh; lia). split; [reflexivity|].
    apply holds_app in Hh. destruct Hh as [_ Hh]. rewrite len_le32 in Hh.
    cbn [app holds] in Hh. destruct Hh as (Hmode & Hs & Hh). replace (pin + 4 + 4) with (pin + 8) in * by lia.
    split; [exact Hmode|]. replace (pin + 8 + 1) with (pin + 9) in * by lia. split; [exact Hs|]. now replace (pin + 9 + 1) with (pin + 10) in Hh by lia. }
  destruct (HR C1 Hh) as (A1 & A2 & A3 & A4 & A5). destruct (HR C2 Hh2) as (B1 & B2 & B3 & B4 & _).
  rewrite A1, A2, A3, A4 in E1. rewrite B1, B2, B3, B4 in E2.
  replace ((pin =? 0) || (pout =? 0) || (inSize =? 0) || (cap =? 0)) with false in E1, E2 by lia.
  replace ((cap <? n) || (inSize <? 10 + len body)) with false in E1, E2 by lia. cbn [Z.eqb] in E1, E2.
  eapply same_end; [exact E1|exact E2|].
  apply (body_local (fun _ : d8 => s_parse) (s_fill pk) d8W (SR sym) _ _ d C1 C2 (pin + 10) sym M pout tt body data d8W_16
    (fun _ => s_parse_local) (fun d reg M1 M2 q cnt => memsetW_same (d8W d) reg M1 M2 q _) (S8Packet_pkt pk sym) (S8End_term sym) HB); try assumption; try lia; try reflexivity.
  intros x Hx. apply HA. lia.
Qed.

Lemma head_two C pin n body : 0 <= n < 2 ^ 32 -> 8 + len body < 2 ^ 32 -> holds C pin (le32 n ++ le32 (8 + len body) ++ body) ->
  rd32 C pin = n /\ rd32 C (pin + 4) = 8 + len body /\ holds C (pin + 8) body.
Proof.
  intros Hn Hlen Hh. pose proof (len_nonneg body). rewrite (rd32_holds C pin n _) by (try exact Hh; lia). split; [reflexivity|].
  apply holds_app in Hh. destruct Hh as [_ Hh]. rewrite len_le32 in Hh.
  rewrite (rd32_holds C (pin + 4) (8 + len body) _) by (try exact Hh; lia). split; [reflexivity|].
  apply holds_app in Hh. destruct Hh as [_ Hh]. rewrite len_le32 in Hh. now replace (pin + 4 + 4) with (pin + 8) in Hh by lia.
Qed.

Lemma lut_reads c l n out data : List.In c slcodecs -> LutStream (slw c) n out data -> StreamUpTo (lvl_copyW (slS c) l) (sl_decompress c l) n (len data) out.
Proof.
  intros Hc HSt C1 C2 pin inSize M pout cap Hh HA Hpin Hpin2 Hin Hpout Hpout2 Hcap. pose proof (lvl_copyW_16 (slS c) l).
  assert (Hh2 : holds C2 pin out) by (apply (agree_holds C1); [exact Hh|]; intros x Hx; apply HA; lia).
  destruct (lut_accepts c l n out data Hc HSt C1 pin inSize M pout cap) as (M1 & E1 & _); try assumption.
  destruct (lut_accepts c l n out data Hc HSt C2 pin inSize M pout cap) as (M2 & E2 & _); try assumption.
  exists M1, M2. split; [exact E1|]. split; [exact E2|]. apply slcodecs_ok in Hc.
  destruct HSt as (body & -> & Hn & Hd & Hlen & HB). cbn [lwS lwSC slw] in HB. rewrite first_table_init in HB.
  rewrite !len_app, !len_le32 in *. pose proof (len_nonneg body). unfold sl_decompress in E1, E2.
  destruct (head_two C1 pin n body ltac:(lia) ltac:(lia) Hh) as (A1 & A2 & A3). destruct (head_two C2 pin n body ltac:(lia) ltac:(lia) Hh2) as (B1 & B2 & _).
  rewrite A1, A2 in E1. rewrite B1, B2 in E2.
  replace ((pin =? 0) || (pout =? 0) || (inSize =? 0) || (cap =? 0)) with false in E1, E2 by lia.
  replace ((cap <? n) || (inSize <? 8 + len body)) with false in E1, E2 by lia.
  eapply same_end; [exact E1|exact E2|]. destruct (rawS_2 _ (proj1 Hc)) as [R1 R2].
  apply (body_local (sl_parse c) (sl_fill c) (lvl_copyW (slS c)) (Rlut (slS c) (slSC c)) _ _ l C1 C2 (pin + 8) (reg_init (slS c) (slSC c)) M pout _ body data
    (lvl_copyW_16 (slS c)) (fun l C1 C2 p reg p1 reg1 off cnt => sl_parse_local c l C1 C2 p reg p1 reg1 off cnt R1 R2)
    (fun l reg M1 M2 q cnt => lvl_fill_same (slS c) l _ M1 M2 q _)
    (fun a h lits run a' H => LutPacket_pkt c a h lits run a' Hc H) (fun a e lits H => LutEnd_term c a e lits Hc H) HB); try assumption; try lia.
  - destruct Hc as (HS1 & _ & HSC). pose proof (okS1_pos _ HS1). apply lut_init_ok; lia.
  - intros x Hx. apply HA. lia.
Qed.

Lemma short_reads c l n out data : List.In c shcodecs -> ShortStream (shw c) n out data -> StreamUpTo (lvl_copyW (shS c) l) (sh_decompress c l) n (len data) out.
Proof.
  intros Hc HSt C1 C2 pin inSize M pout cap Hh HA Hpin Hpin2 Hin Hpout Hpout2 Hcap. pose proof (lvl_copyW_16 (shS c) l).
  assert (Hh2 : holds C2 pin out) by (apply (agree_holds C1); [exact Hh|]; intros x Hx; apply HA; lia).
  destruct (short_accepts c l n out data Hc HSt C1 pin inSize M pout cap) as (M1 & E1 & _); try assumption.
  destruct (short_accepts c l n out data Hc HSt C2 pin inSize M pout cap) as (M2 & E2 & _); try assumption.
  exists M1, M2. split; [exact E1|]. split; [exact E2|]. apply shcodecs_ok in Hc.
  destruct HSt as (sym0 & body & HB). cbv zeta in HB. cbn [swOne swS swSC shw] in HB.
  set (inner := if shOne c then sym0 :: body else body) in *. destruct HB as (-> & Hn & Hd & Hlen & Hsym & HB). rewrite first_table_init in HB.
  rewrite !len_app, !len_le32 in *. pose proof (len_nonneg inner). unfold sh_decompress in E1, E2.
  destruct (head_two C1 pin n inner ltac:(lia) ltac:(lia) Hh) as (A1 & A2 & A3). destruct (head_two C2 pin n inner ltac:(lia) ltac:(lia) Hh2) as (B1 & B2 & B3).
  rewrite A1, A2 in E1. rewrite B1, B2 in E2.
  replace ((pin =? 0) || (pout =? 0) || (inSize =? 0) || (cap =? 0)) with false in E1, E2 by lia.
  replace ((cap <? n) || (inSize <? 8 + len inner)) with false in E1, E2 by lia. cbv zeta in E1, E2.
  destruct (rawS_2 _ (proj1 Hc)) as [R1 R2].
  assert (HD : forall p reg, Rsh c sym0 reg (lut_init (shS c) (shSC c)) -> holds C1 p body -> 0 < p -> p + len body + 128 < 2 ^ 64 ->
    agree C1 C2 p (p + len body + lvl_copyW (shS c) l) ->
    sameres (loop (pkt_step (sh_parse c l) (sh_fill c l) (lvl_copyW (shS c) l) C1) (p, pout, reg, M))
      (loop (pkt_step (sh_parse c l) (sh_fill c l) (lvl_copyW (shS c) l) C2) (p, pout, reg, M))).
  { intros p reg HR Hp1 Hp2 Hp3 HAp.
    apply (body_local (sh_parse c) (sh_fill c) (lvl_copyW (shS c)) (Rsh c sym0) _ _ l C1 C2 p reg M pout _ body data
      (lvl_copyW_16 (shS c)) (fun l C1 C2 p reg p1 reg1 off cnt => sh_parse_local c l C1 C2 p reg p1 reg1 off cnt R1 R2)
      (fun l reg M1 M2 q cnt => lvl_fill_same (shS c) l _ M1 M2 q _)
      (fun a h lits run a' H => ShortPacket_pkt c sym0 a h lits run a' Hc H) (fun a e lits H => ShortEnd_term c sym0 a e lits Hc H) HB); try assumption; lia. }
  unfold Rsh in HD. subst inner. destruct (shOne c) eqn:Ho.
  - cbn [holds] in A3, B3. destruct A3 as [A3 A4], B3 as [B3 B4]. rewrite A3 in E1. rewrite B3 in E2. rewrite len_cons in *. replace (pin + 8 + 1) with (pin + 9) in * by lia.
    eapply same_end; [exact E1|exact E2|]. apply HD; try assumption; try lia; try reflexivity. intros x Hx. apply HA. lia.
  - eapply same_end; [exact E1|exact E2|]. apply HD; try assumption; try lia; [|intros x Hx; apply HA; lia].
    destruct Hc as (HS1 & _ & HSC & _). pose proof (okS1_pos _ HS1). apply lut_init_ok; lia.
Qed.
