(** The size of the packets of the low entropy encoders: at most n + n / L + 4 bytes. *)
From Coq Require Import Permutation.
From Verif Require Import Base Spec LargeSpec Simd SimdProof Spec ExtModel ExtEnc PktModel Rle8Model LeModel LeTable LeDec LeEnc.

Definition zsum (f : Z -> Z) (l : list Z) : Z := fold_right (fun x a => f x + a) 0 l.

Lemma zsum_upd f b v l : NoDup l -> zsum (upd f b v) l = zsum f l + (if existsb (Z.eqb b) l then v - f b else 0).
Proof.
  induction 1 as [|a l Ha HND IH]; cbn [zsum fold_right existsb]; [lia|]. fold (zsum (upd f b v) l). fold (zsum f l). rewrite IH.
  unfold upd at 1. destruct (a =? b) eqn:E.
  - assert (a = b) by lia. subst a. rewrite Z.eqb_refl. cbn [orb].
    destruct (existsb (Z.eqb b) l) eqn:Ex; [|lia]. exfalso. apply existsb_exists in Ex. destruct Ex as (y & Hy & Hby). assert (y = b) by lia. now subst.
  - replace (b =? a) with false by lia. cbn [orb]. lia.
Qed.

Lemma zsum_upd_in f b v : is_byte b -> zsum (upd f b v) range256 = zsum f range256 + (v - f b).
Proof.
  intros Hb. rewrite zsum_upd by apply NoDup_range256. replace (existsb (Z.eqb b) range256) with true; [reflexivity|].
  symmetry. apply existsb_exists. exists b. split; [now apply in_range256|lia].
Qed.
Lemma zsum_upd_out f b v : ~ is_byte b -> zsum (upd f b v) range256 = zsum f range256.
Proof.
  intros Hb. rewrite zsum_upd by apply NoDup_range256. destruct (existsb (Z.eqb b) range256) eqn:E; [|lia].
  exfalso. apply existsb_exists in E. destruct E as (y & Hy & Hby). apply in_range256 in Hy. assert (y = b) by lia. now subst.
Qed.
Lemma zsum_le f g l : (forall x, List.In x l -> f x <= g x) -> zsum f l <= zsum g l.
Proof. induction l as [|a l IH]; intros H; cbn [zsum fold_right]; [lia|]. fold (zsum f l) (zsum g l). pose proof (H a (or_introl eq_refl)). assert (zsum f l <= zsum g l) by (apply IH; intros; apply H; now right). lia. Qed.
Lemma zsum_zero l : zsum (fun _ => 0) l = 0.
Proof. induction l as [|a l IH]; cbn [zsum fold_right]; [reflexivity|]. fold (zsum (fun _ => 0) l). lia. Qed.
Lemma zsum_nonneg f l : (forall x, List.In x l -> 0 <= f x) -> 0 <= zsum f l.
Proof. intros H. rewrite <- (zsum_zero l). now apply zsum_le. Qed.
Lemma zsum_elem f l b : (forall x, List.In x l -> 0 <= f x) -> List.In b l -> f b <= zsum f l.
Proof.
  induction l as [|a l IH]; [intros _ []|]. intros H [->|Hin]; cbn [zsum fold_right]; fold (zsum f l).
  - assert (0 <= zsum f l) by (apply zsum_nonneg; intros; apply H; now right). lia.
  - assert (f b <= zsum f l) by (apply IH; [intros; apply H; now right|exact Hin]). pose proof (H a (or_introl eq_refl)). lia.
Qed.

(** The statistics without wrapping and with a start that belongs to no byte value. *)
Definition gstep (L : Z) (s : Z * Z * (Z -> Z) * (Z -> Z)) (b : Z) : Z * Z * (Z -> Z) * (Z -> Z) :=
  let '(last, count, prob, pcount) := s in
  if b =? last then (last, count + 1, prob, pcount)
  else (b, 1, upd prob last (prob last + count), upd pcount last (pcount last + (count / L + 1))).
Definition gI (L : Z) (In : mem) (i : Z) := fold_left (gstep L) (slice In 0 i) (-1, 0, fun _ => 0, fun _ => 0).

Lemma gI_snoc L In i : 0 <= i -> gI L In (i + 1) = gstep L (gI L In i) (In i).
Proof. intros H. unfold gI. rewrite slice_snoc, fold_left_app by lia. reflexivity. Qed.

Lemma gI_inv L In : 2 <= L -> (forall k, is_byte (In k)) -> forall i, 0 <= i ->
  let '(last, count, prob, pcount) := gI L In i in
  (i = 0 -> last = -1 /\ count = 0) /\ (1 <= i -> last = In (i - 1) /\ 1 <= count) /\
  (forall b, is_byte b -> 0 <= pcount b <= prob b) /\ zsum prob range256 + count = i.
Proof.
  intros HL HIn. apply natlike_ind.
  - unfold gI. rewrite slice_0 by lia. cbn [fold_left]. split; [lia|]. split; [lia|]. split; [intros; lia|]. rewrite zsum_zero. lia.
  - intros i Hi IH. unfold Z.succ. rewrite gI_snoc by lia. destruct (gI L In i) as [[[last count] prob] pcount].
    destruct IH as (I1 & I2 & I3 & I4). unfold gstep. destruct (In i =? last) eqn:E.
    + split; [lia|]. split; [intros _; replace (i + 1 - 1) with i by lia; split; [lia|]|split; [exact I3|lia]].
      destruct (Z.eq_dec i 0) as [->|Hne]; [|lia]. destruct (I1 eq_refl) as [H1 _]. specialize (HIn 0). unfold is_byte in HIn. lia.
    + split; [lia|]. split; [intros _; replace (i + 1 - 1) with i by lia; lia|].
      destruct (Z.eq_dec i 0) as [->|Hne].
      * destruct (I1 eq_refl) as [-> ->]. split.
        -- intros b Hb. unfold upd. replace (b =? -1) with false by (unfold is_byte in Hb; lia). now apply I3.
        -- rewrite zsum_upd_out by (unfold is_byte; lia). lia.
      * destruct (I2 ltac:(lia)) as [H1 H2]. assert (Hlb : is_byte last) by (rewrite H1; apply HIn). split.
        -- intros b Hb. specialize (I3 b Hb) as I3b. unfold upd. destruct (b =? last) eqn:Eb; [|exact I3b]. assert (Ebl : b = last) by lia. rewrite Ebl in *.
           assert (0 <= count / L + 1 <= count); [|lia]. split; [assert (0 <= count / L) by (apply Z.div_pos; lia); lia|].
           destruct (Z.eq_dec count 1) as [->|Hc]; [rewrite Z.div_small by lia; lia|].
           assert (count / L <= count / 2) by (apply Z.div_le_compat_l; lia). lia.
        -- rewrite zsum_upd_in by exact Hlb. lia.
Qed.

Lemma gI_bounds L In i : 2 <= L -> (forall k, is_byte (In k)) -> 0 <= i ->
  let '(last, count, prob, pcount) := gI L In i in
  0 <= count <= i /\ forall b, is_byte b -> 0 <= pcount b <= prob b /\ prob b + count <= i.
Proof.
  intros HL HIn Hi. pose proof (gI_inv L In HL HIn i Hi) as H. destruct (gI L In i) as [[[last count] prob] pcount].
  destruct H as (I1 & I2 & I3 & I4).
  assert (Hn : forall x, List.In x range256 -> 0 <= prob x) by (intros x Hx; apply in_range256 in Hx; specialize (I3 x Hx); lia).
  pose proof (zsum_nonneg prob range256 Hn). split.
  - destruct (Z.eq_dec i 0) as [->|]; [destruct (I1 eq_refl); lia|]. destruct (I2 ltac:(lia)); lia.
  - intros b Hb. specialize (I3 b Hb) as I3b. assert (prob b <= zsum prob range256) by (apply zsum_elem; [exact Hn|now apply in_range256]). lia.
Qed.

Lemma gI_hist L In : 2 <= L -> (forall k, is_byte (In k)) -> forall i, 1 <= i < 2 ^ 32 - 1 ->
  let '(last, count, prob, pcount) := gI L In i in
  let '(last', count', prob', pcount') := histI L In i in
  last' = last /\ count' = count /\ forall b, is_byte b -> prob' b = prob b /\ pcount' b = pcount b.
Proof.
  intros HL HIn i Hi. assert (H1 : 1 <= i) by lia. revert Hi. pattern i. apply Zlt_lower_bound_ind with (z := 1); [|exact H1]. clear i H1.
  intros i IH H1 Hi. destruct (Z.eq_dec i 1) as [->|Hne].
  - destruct (hist_first L In HL) as (prob & pcount & -> & P1 & P2). change (gI L In 1) with (gstep L (-1, 0, fun _ => 0, fun _ => 0) (In 0)).
    unfold gstep. replace (In 0 =? -1) with false by (specialize (HIn 0); unfold is_byte in HIn; lia).
    split; [reflexivity|]. split; [reflexivity|]. intros b Hb. rewrite P1, P2. unfold upd. replace (b =? -1) with false by (unfold is_byte in Hb; lia). auto.
  - specialize (IH (i - 1) ltac:(lia) ltac:(lia)).
    assert (Hs : histI L In i = hist_step L (histI L In (i - 1)) (In (i - 1))) by (rewrite <- histI_snoc by lia; f_equal; lia).
    assert (Hg : gI L In i = gstep L (gI L In (i - 1)) (In (i - 1))) by (rewrite <- gI_snoc by lia; f_equal; lia).
    rewrite Hs, Hg. clear Hs Hg. pose proof (gI_bounds L In (i - 1) HL HIn ltac:(lia)) as HB. pose proof (gI_inv L In HL HIn (i - 1) ltac:(lia)) as HV.
    destruct (gI L In (i - 1)) as [[[last count] prob] pcount], (histI L In (i - 1)) as [[[last' count'] prob'] pcount'].
    destruct IH as (-> & -> & I3). destruct HB as [B1 B2]. destruct HV as (_ & V2 & _). destruct (V2 ltac:(lia)) as [V3 V4].
    unfold gstep, hist_step. destruct (In (i - 1) =? last) eqn:E.
    + split; [reflexivity|]. split; [apply w32_id; lia|exact I3].
    + split; [reflexivity|]. split; [reflexivity|]. intros b Hb. unfold upd. destruct (b =? last) eqn:Eb; [|now apply I3].
      assert (Ebl : b = last) by lia. rewrite <- Ebl. destruct (I3 b Hb) as [-> ->]. destruct (B2 b Hb) as [B3 B4]. 
      assert (0 <= count / L + 1 <= count). { split; [assert (0 <= count / L) by (apply Z.div_pos; lia); lia|].
        destruct (Z.eq_dec count 1) as [->|Hc]; [rewrite Z.div_small by lia; lia|]. assert (count / L <= count / 2) by (apply Z.div_le_compat_l; lia). lia. }
      rewrite !w32_id by lia. auto.
Qed.

(** A run of equal bytes. *)
Lemma gI_run L In x i : 0 <= i -> forall m, 0 <= m -> (forall k, i <= k <= i + m -> In k = x) ->
  gI L In (i + 1 + m) =
  let '(last, count, prob, pcount) := gI L In i in
  if x =? last then (last, count + 1 + m, prob, pcount)
  else (x, 1 + m, upd prob last (prob last + count), upd pcount last (pcount last + (count / L + 1))).
Proof.
  intros Hi. apply (natlike_ind (fun m => (forall k, i <= k <= i + m -> In k = x) -> gI L In (i + 1 + m) = _)).
  - intros H. rewrite Z.add_0_r, gI_snoc by lia. destruct (gI L In i) as [[[last count] prob] pcount]. unfold gstep. rewrite (H i) by lia.
    destruct (x =? last); [now rewrite Z.add_0_r|reflexivity].
  - intros m Hm IH H. unfold Z.succ in *. replace (i + 1 + (m + 1)) with (i + 1 + m + 1) by lia. rewrite gI_snoc by lia. rewrite IH by (intros; apply H; lia).
    rewrite (H (i + 1 + m)) by lia. destruct (gI L In i) as [[[last count] prob] pcount]. unfold gstep.
    destruct (x =? last) eqn:E; [rewrite E; now replace (count + 1 + (m + 1)) with (count + 1 + m + 1) by lia|].
    rewrite Z.eqb_refl. now replace (1 + (m + 1)) with (1 + m + 1) by lia.
Qed.

Section Size.
  Variables (L : Z) (info : leinfo) (In : mem) (n : Z).
  Hypothesis HL : L = 255 \/ L = 32.
  Hypothesis HIn : forall k, is_byte (In k).

  (** Packets [u] of the run of [count] bytes that ends before [i]. *)
  Definition Upart (last count u i : Z) : Prop :=
    count = u * L \/ (i < n /\ In i <> last /\ u <= count / L + 1) \/ (i = n - 1 /\ u <= count / L + 1) \/ (i = n /\ u <= count / L + 2).

  (** [cost b]: the bytes spent on packets of the value [b]. *)
  Definition SInv (s : Z * list Z) : Prop :=
    let '(i, out) := s in
    0 <= i <= n /\ exists cost u, len out = zsum cost range256 /\ 0 <= u /\
      let '(last, count, prob, pcount) := gI L In i in
      (li_rle info last = true -> Upart last count u i) /\
      forall b, is_byte b -> cost b <= if b =? last then (if li_rle info b then 2 * (pcount b + u) else prob b + count)
                                       else (if li_rle info b then 2 * pcount b else prob b).

  Lemma sinv_step i out : SInv (i, out) ->
    match le_step L info In n (i, out) with inl s' => SInv s' | inr r => i = n /\ r = out end.
  Proof.
    intros (Hi & cost & u & Hlen & Hu & H). unfold le_step. destruct (i <? n) eqn:Ei; [|split; [lia|reflexivity]].
    assert (HL2 : 2 <= L) by lia.
    pose proof (gI_inv L In HL2 HIn i ltac:(lia)) as HV. 
    set (b := In i). assert (Hb : is_byte b) by apply HIn.
    destruct (li_rle info b) eqn:Er.
    - set (range := if i <? n - 256 then L else w8 (Z.min (n - i - 1) L)).
      assert (Hr : (range = L /\ L <= n - i - 1) \/ (range = n - i - 1 /\ range <= L)).
      { unfold range. destruct (i <? n - 256) eqn:Et; [lia|]. unfold w8. rewrite Z.mod_small by lia. lia. }
      set (f := fun j => In (1 + j + i) =? b).
      assert (Hc : 0 <= lead f (range - 1) /\ lead f (range - 1) <= Z.max 0 (range - 1) /\ (forall k, 0 <= k < lead f (range - 1) -> In (1 + k + i) = b) /\
                   (lead f (range - 1) < range - 1 -> In (1 + lead f (range - 1) + i) <> b)).
      { destruct (Z_le_gt_dec 0 (range - 1)) as [H1|H1].
        - destruct (lead_spec f (range - 1) H1) as (L1 & L2 & L3). split; [lia|]. split; [lia|]. split; [intros k Hk; specialize (L2 k Hk); unfold f in L2; lia|].
          intros Hk. specialize (L3 Hk). unfold f at 1 in L3. lia.
        - unfold lead. replace (Z.to_nat (range - 1)) with O by lia. cbn [lead_nat]. split; [lia|]. split; [lia|]. split; intros; lia. }
      set (c := lead f (range - 1)) in *. destruct Hc as (C1 & C2 & C3 & C4).
      assert (Hrun : forall k, i <= k <= i + c -> In k = b).
      { intros k Hk. destruct (Z.eq_dec k i) as [->|Hne]; [reflexivity|]. rewrite <- (C3 (k - i - 1)) by lia. f_equal. lia. }
      assert (Hend : c + 1 = L \/ (i + c + 1 < n /\ In (i + c + 1) <> b) \/ i + c + 1 = n - 1 \/ i + c + 1 = n).
      { destruct (Z_lt_ge_dec c (range - 1)) as [Hlt|Hge].
        - right. left. split; [lia|]. specialize (C4 Hlt). replace (i + c + 1) with (1 + c + i) by lia. exact C4.
        - lia. }
      split; [lia|]. exists (upd cost b (cost b + 2)). exists (if b =? fst (fst (fst (gI L In i))) then u + 1 else 1).
      split; [rewrite len_app, zsum_upd_in by exact Hb; change (len [b; tab 0 (li_syms info) c]) with 2; lia|].
      split; [destruct (b =? _); lia|].
      replace (i + c + 1) with (i + 1 + c) by lia. rewrite (gI_run L In b i ltac:(lia) c C1 Hrun).
      destruct (gI L In i) as [[[last count] prob] pcount]. cbn [fst].
      destruct HV as (V1 & V2 & V3 & _). destruct H as [HU HC].
      destruct (b =? last) eqn:Eb.
      + assert (Ebl : b = last) by lia. assert (1 <= i) by (destruct (Z.eq_dec i 0) as [E0|]; [destruct (V1 E0); unfold is_byte in Hb; lia|lia]).
        rewrite <- Ebl in *. specialize (HU Er). split.
        * intros _. unfold Upart in *. replace (i + 1 + c) with (i + c + 1) by lia.
          destruct HU as [HU|[HU|[HU|HU]]]; [|exfalso; destruct HU as (_ & HU & _); now apply HU| |destruct HU as [HU _]; clear - HU Ei; lia].
          -- destruct Hend as [He|[He|[He|He]]].
             ++ left. clear - HU He. nia.
             ++ right. left. split; [tauto|]. split; [tauto|]. clear - HL HU He C1 C2 Hr. destruct HL as [-> | ->]; lia.
             ++ right. right. left. split; [exact He|]. clear - HL HU C1. destruct HL as [-> | ->]; lia.
             ++ right. right. right. split; [exact He|]. clear - HL HU C1. destruct HL as [-> | ->]; lia.
          -- right. right. right. destruct HU as [HU HU']. split; [clear - HU C1 C2 Hr; lia|]. clear - HL HU' C1. destruct HL as [-> | ->]; lia.
        * intros b' Hb'. specialize (HC b' Hb'). unfold upd. destruct (b' =? b) eqn:Ebb.
          -- pose proof (proj1 (Z.eqb_eq _ _) Ebb) as Hbb. rewrite Hbb, Er in *. lia.
          -- exact HC.
      + split.
        * intros _. unfold Upart. replace (i + 1 + c) with (i + c + 1) by lia. destruct Hend as [He|[He|[He|He]]].
          -- left. clear - He. lia.
          -- right. left. split; [tauto|]. split; [tauto|]. clear - HL C1. destruct HL as [-> | ->]; lia.
          -- right. right. left. split; [exact He|]. clear - HL C1. destruct HL as [-> | ->]; lia.
          -- right. right. right. split; [exact He|]. clear - HL C1. destruct HL as [-> | ->]; lia.
        * intros b' Hb'. specialize (HC b' Hb'). unfold upd. destruct (b' =? b) eqn:Ebb.
          -- pose proof (proj1 (Z.eqb_eq _ _) Ebb) as Hbb. rewrite Hbb in *. rewrite Eb, Er in HC. rewrite ?Z.eqb_refl, ?Er, ?Eb. clear - HC. lia.
          -- destruct (b' =? last) eqn:Ebl; [|exact HC]. pose proof (proj1 (Z.eqb_eq _ _) Ebl) as Ebl'. rewrite <- Ebl' in *. destruct (li_rle info b'); [|exact HC].
             assert (Hu1 : u <= count / L + 1); [|clear - HC Hu1; lia]. specialize (HU eq_refl). unfold Upart in HU. destruct HU as [HU|[HU|[HU|HU]]]; [|apply HU|apply HU|exfalso; clear - HU Ei; lia]. clear - HL HU. destruct HL as [-> | ->]; lia.
    - split; [lia|]. exists (upd cost b (cost b + 1)), u.
      split; [rewrite len_app, zsum_upd_in by exact Hb; change (len [b]) with 1; lia|]. split; [exact Hu|].
      rewrite <- (Z.add_0_r (i + 1)). rewrite (gI_run L In b i ltac:(lia) 0 ltac:(lia)) by (intros k Hk; replace k with i by lia; reflexivity).
      destruct (gI L In i) as [[[last count] prob] pcount]. destruct HV as (V1 & V2 & V3 & _). destruct H as [HU HC].
      destruct (b =? last) eqn:Eb.
      + assert (Ebl : b = last) by lia. rewrite <- Ebl in *. split; [congruence|].
        intros b' Hb'. specialize (HC b' Hb'). unfold upd. destruct (b' =? b) eqn:Ebb; [|exact HC].
        pose proof (proj1 (Z.eqb_eq _ _) Ebb) as Hbb. rewrite Hbb, Er in *. lia.
      + split; [congruence|]. intros b' Hb'. specialize (HC b' Hb'). unfold upd. destruct (b' =? b) eqn:Ebb.
        * pose proof (proj1 (Z.eqb_eq _ _) Ebb) as Hbb. rewrite Hbb in *. rewrite Eb, Er in HC. rewrite ?Z.eqb_refl, ?Er, ?Eb. clear - HC. lia.
        * destruct (b' =? last) eqn:Ebl; [|exact HC]. pose proof (proj1 (Z.eqb_eq _ _) Ebl) as Ebl'. rewrite <- Ebl' in *. destruct (li_rle info b'); [|exact HC].
          assert (Hu1 : u <= count / L + 1); [|clear - HC Hu1; lia]. specialize (HU eq_refl). unfold Upart in HU. destruct HU as [HU|[HU|[HU|HU]]]; [|apply HU|apply HU|exfalso; clear - HU Ei; lia]. clear - HL HU. destruct HL as [-> | ->]; lia.
  Qed.

  Lemma le_body_inv outSize body : 1 <= n -> le_with_info L info In n outSize = Some (Some body) -> SInv (n, body).
  Proof.
    intros Hn. unfold le_with_info. destruct (_ || _); [discriminate|]. intros H. injection H as H.
    refine (loop_pres (le_step L info In n) SInv (fun r => SInv (n, r)) (0, []) body _ _ H).
    - intros [i out] Hs. pose proof (sinv_step i out Hs) as H1. destruct (le_step L info In n (i, out)) as [s'|r]; [exact H1|].
      destruct H1 as [-> ->]. exact Hs.
    - split; [lia|]. exists (fun _ => 0), 0. split; [rewrite zsum_zero; reflexivity|]. split; [lia|]. unfold gI. rewrite slice_0 by lia. cbn [fold_left].
      split; [intros _; left; lia|]. intros b Hb. destruct (b =? -1), (li_rle info b); lia.
  Qed.

  (** [K] bytes of input per packet. *)
  Definition Pays (K : Z) : Prop := forall b, is_byte b -> li_rle info b = true ->
    let '(last, count, prob, pcount) := gI L In n in
    K * (pcount b + (if b =? last then 1 else 0)) <= prob b + (if b =? last then count else 0).

  Lemma le_body_size_gen K e outSize body : 2 <= K -> Pays K -> 0 <= e ->
    (forall pc pr c, 0 <= pc <= pr -> 1 <= c -> pr + c <= n -> K * (pc + 1) <= pr + c -> 2 * (pc + (c / L + 2)) <= pr + c + e) ->
    1 <= n -> le_with_info L info In n outSize = Some (Some body) -> len body <= n + e.
  Proof.
    intros HK Hrle He Hfin Hn H. apply le_body_inv in H; [|exact Hn].
    destruct H as (_ & cost & u & -> & Hu & HC). assert (HL2 : 2 <= L) by lia. unfold Pays in Hrle.
    pose proof (gI_inv L In HL2 HIn n ltac:(lia)) as HV. pose proof (gI_bounds L In n HL2 HIn ltac:(lia)) as HB.
    destruct (gI L In n) as [[[last count] prob] pcount]. destruct HV as (_ & V2 & V3 & V4). destruct HC as [HU HC]. destruct HB as [B1 B2].
    destruct (V2 Hn) as [V5 V6]. assert (Hlb : is_byte last) by (rewrite V5; apply HIn).
    assert (Hle : zsum cost range256 <= zsum (upd prob last (prob last + count + e)) range256).
    { apply zsum_le. intros b Hb. apply in_range256 in Hb. specialize (HC b Hb). specialize (Hrle b Hb). specialize (B2 b Hb). destruct B2 as [B3 B4].
      unfold upd. destruct (b =? last) eqn:E.
      - assert (Ebl : b = last) by lia. rewrite Ebl in *. destruct (li_rle info last) eqn:Er.
        + specialize (Hrle eq_refl). specialize (HU eq_refl).
          assert (Hul : u <= count / L + 2). { unfold Upart in HU. destruct HU as [HU|[HU|[HU|HU]]]; [|clear - HU; lia|clear - HU; lia|apply HU]. clear - HL HU. destruct HL as [-> | ->]; lia. }
          specialize (Hfin (pcount last) (prob last) count B3 V6 B4 Hrle). clear - HC Hfin Hul. lia.
        + clear - HC He. lia.
      - destruct (li_rle info b); [|lia]. specialize (Hrle eq_refl). clear - Hrle HC HK B3. nia. }
    rewrite zsum_upd_in in Hle by exact Hlb. lia.
  Qed.

  Lemma le_body_size outSize body : Pays 2 -> 1 <= n -> le_with_info L info In n outSize = Some (Some body) -> len body <= n + n / L + 4.
  Proof.
    intros HP Hn H. rewrite <- Z.add_assoc. eapply (le_body_size_gen 2); try eassumption; [lia| |].
    - assert (0 <= n / L) by (apply Z.div_pos; lia). lia.
    - clear - HL. intros pc pr c H1 H2 H3 H4. destruct HL as [-> | ->]; lia.
  Qed.
  Lemma le_body_size_max outSize body : Pays 3 -> 1 <= n -> le_with_info L info In n outSize = Some (Some body) -> len body <= n + 1.
  Proof.
    intros HP Hn H. eapply (le_body_size_gen 3); try eassumption; [lia|lia|].
    clear - HL. intros pc pr c H1 H2 H3 H4. destruct HL as [-> | ->]; lia.
  Qed.
End Size.

(** The statistics decide for run length coding only if it pays off. *)
Lemma le_info_pays_large L max In n : 2 <= L -> (forall k, is_byte (In k)) -> 1 <= n <= large_in ->
  Pays L (le_info L max In n) In n (if max then 3 else 2).
Proof.
  intros HL HIn Hn b Hb. unfold large_in in Hn. unfold le_info. rewrite hist_eq.
  pose proof (gI_hist L In HL HIn n ltac:(lia)) as HG. pose proof (gI_bounds L In n HL HIn ltac:(lia)) as HB.
  destruct (gI L In n) as [[[last count] prob] pcount]. destruct (histI L In n) as [[[last' count'] prob'] pcount'].
  destruct HG as (-> & -> & HG). destruct (HG b Hb) as [G1 G2]. destruct HB as [B1 B2]. destruct (B2 b Hb) as [B3 B4].
  destruct (le_table _) as [syms cnt]. cbn [li_rle]. set (pr := upd prob' last _). set (pc := upd pcount' last _).
  assert (Epr : pr b = prob b + (if b =? last then count else 0)).
  { unfold pr, upd. destruct (b =? last) eqn:E; [|lia]. assert (E' : b = last) by lia. rewrite <- E', G1. apply w32_id. lia. }
  assert (Epc : pc b = pcount b + (if b =? last then 1 else 0)).
  { unfold pc, upd. destruct (b =? last) eqn:E; [|lia]. assert (E' : b = last) by lia. rewrite <- E', G2. apply w32_id. lia. }
  rewrite <- Epr, <- Epc. intros H. rewrite tab_range in H by exact Hb.
  assert (Hd : 0 < pc b /\ (if max then 3 else 2) <= pr b / pc b).
  { destruct max.
    - revert H. unfold approx_best.
      assert (G : forall l s, (fst s > 0 -> 0 < tab 0 (map pc range256) (snd s) /\ 3 <= tab 0 (map pr range256) (snd s) / tab 0 (map pc range256) (snd s)) ->
         let r := fold_left (fun '(best, idx) k => let s := Z.of_nat k in
           if (0 <? tab 0 (map pc range256) s) && (2 <? tab 0 (map pr range256) s / tab 0 (map pc range256) s) then
             let saved := w32 (tab 0 (map pr range256) s - w32 (tab 0 (map pc range256) s * 2)) in
             if best <? saved then (saved, s) else (best, idx) else (best, idx)) l s in
         fst r > 0 -> 0 < tab 0 (map pc range256) (snd r) /\ 3 <= tab 0 (map pr range256) (snd r) / tab 0 (map pc range256) (snd r)).
      { induction l as [|k l IH]; intros [best idx] Hs; cbn [fold_left]; [exact Hs|]. apply IH. cbv zeta.
        destruct ((0 <? tab 0 (map pc range256) (Z.of_nat k)) && (2 <? tab 0 (map pr range256) (Z.of_nat k) / tab 0 (map pc range256) (Z.of_nat k))) eqn:E; [|exact Hs].
        destruct (best <? _); [|exact Hs]. cbn [fst snd]. intros _. apply andb_prop in E. lia. }
      specialize (G (seq 0 256) (0, 0)). cbv zeta in G. destruct (fold_left _ (seq 0 256) (0, 0)) as [best idx]. cbn [fst snd] in G.
      intros H. apply andb_prop in H. destruct H as [H1 H2]. assert (E : idx = b) by lia. rewrite E in G.
      specialize (G ltac:(lia) ltac:(lia)). rewrite !tab_range in G by exact Hb. exact G.
    - rewrite !tab_range in H by exact Hb. apply andb_prop in H. lia. }
  destruct Hd as [D1 D2]. pose proof (Z.mul_div_le (pr b) (pc b) D1). clear - D1 D2 H0. destruct max; nia.
Qed.
Lemma le_info_pays L max In n : 2 <= L -> (forall k, is_byte (In k)) -> 1 <= n <= max_in ->
  Pays L (le_info L max In n) In n (if max then 3 else 2).
Proof. intros HL HIn Hn. apply le_info_pays_large; [exact HL|exact HIn|now apply max_large1]. Qed.
