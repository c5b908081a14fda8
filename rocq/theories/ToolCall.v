(** Calls of matching functions on one memory. *)
From Coq Require Import Permutation.
From Verif Require Import Base Spec Spec2 Simd ExtModel Rle8Model LutModel SlModel MtfSpec MtfModel MtfThm MzModel LeModel PlatModel ApiModel.
From Verif Require Import ExtThm Rle8Thm SlThm ShThm MzThm LeEnc LeTable LeSize LeThm ToolLib.
From Verif Require ShModel HsModel HsThm.
Open Scope Z_scope.

(** *** Specification *)

(** Three buffers that do not overlap: the file, the compressed and the decompressed data with the additional
    size; addresses of user space. *)
Definition apart (p k q l : Z) : Prop := p + k <= q \/ q + l <= p.
Definition Layout (n cap pU pK pD : Z) : Prop :=
  0 < pU /\ 0 < pK /\ 0 < pD /\ pU + n <= 2 ^ 47 /\ pK + cap <= 2 ^ 47 /\ pD + n + 128 <= 2 ^ 47 /\
  apart pU n pK cap /\ apart pU n pD (n + 128) /\ apart pK cap pD (n + 128).

(** [comp] and [dec] restore the [n] bytes [file]: compressing succeeds and writes into its buffer only; if the
    compressed bytes are still there, decompressing restores the file and writes into its buffer only. *)
Definition Serves (comp dec : call) (n cap : Z) (file : mem) : Prop :=
  forall M pU pK pD, Layout n cap pU pK pD -> (forall k, 0 <= k < n -> M (pU + k) = file k) ->
  exists r M1, comp M pU n pK cap = CRet r M1 /\ 0 < r <= cap /\ (forall x, x < pK \/ pK + cap <= x -> M1 x = M x) /\
    forall M2, (forall x, pK <= x < pK + r -> M2 x = M1 x) ->
    exists M3, dec M2 pK r pD cap = CRet n M3 /\ (forall k, 0 <= k < n -> M3 (pD + k) = file k) /\
      (forall x, x < pD \/ pD + n + 128 <= x -> M3 x = M2 x).

(** *** Lists *)
Lemma bytes_at_bytes M p : byte_mem (bytes_at M p).
Proof. intros k. unfold bytes_at, is_byte, w8. pose proof (Z.mod_pos_bound (M (p + k)) 256 ltac:(lia)). lia. Qed.
Lemma bytes_at_file M p n file : (forall k, is_byte (file k)) -> (forall k, 0 <= k < n -> M (p + k) = file k) ->
  forall k, 0 <= k < n -> bytes_at M p k = file k.
Proof. intros HF H k Hk. unfold bytes_at. rewrite H by exact Hk. apply Z.mod_small. apply HF. Qed.
Lemma slice_at M p n file l : slice M p n = l -> l = slice file 0 n -> forall k, 0 <= k < n -> M (p + k) = file k.
Proof. intros <- E k Hk. rewrite <- (nth_slice M p n k Hk), E, nth_slice by exact Hk. now rewrite Z.add_0_l. Qed.

Lemma list_serves comp dec slack n cap file :
  (forall k, is_byte (file k)) -> 1 <= n <= max_in -> n <= cap < 2 ^ 32 -> 0 <= slack <= 128 ->
  (forall In, byte_mem In -> (forall k, 0 <= k < n -> In k = file k) ->
     exists out, comp false false In n cap = COk out /\ 0 < len out <= cap /\ RestoresI false dec slack out In n) ->
  Serves (call_list comp) (call_dec dec) n cap file.
Proof.
  intros HF Hn Hcap Hs H M pU pK pD (L1 & L2 & L3 & L4 & L5 & L6 & L7 & L8 & L9) HU. unfold max_in in Hn.
  destruct (H (bytes_at M pU) (bytes_at_bytes M pU) (bytes_at_file M pU n file HF HU)) as (out & E & Hl & HR).
  exists (len out), (store M pK out). unfold call_list. replace (pU =? 0) with false by lia. replace (pK =? 0) with false by lia. rewrite E.
  assert (Ew : w32 (len out) = len out) by (unfold w32; apply Z.mod_small; lia). split; [now rewrite Ew|]. split; [exact Hl|].
  split; [intros x Hx; apply store_out; lia|]. intros M2 H2.
  assert (HH : holds M2 pK out).
  { apply holds_intro. intros k Hk. rewrite H2 by lia. rewrite store_in by lia. f_equal. lia. }
  destruct (HR M2 pK (len out) M2 pD cap HH) as (M3 & E3 & E4 & E5); try lia; [cbn [InSize]; lia|].
  exists M3. unfold call_dec. rewrite E3. split; [reflexivity|]. split; [|intros x Hx; apply E5; lia].
  intros k Hk. rewrite (slice_at M3 pD n (bytes_at M pU) _ E4 eq_refl k Hk). exact (bytes_at_file M pU n file HF HU k Hk).
Qed.

Lemma restores_I dec slack out In n : Restores dec slack out In n -> RestoresI false dec slack out In n.
Proof. intros H C pin inSize M pout cap H1 H2 H3 H4 H5 H6 H7. exact (H C pin inSize M pout cap H1 H2 H3 H4 H5 H6 H7). Qed.
Lemma header_pos comp In n cap out : HeaderSizes comp -> byte_mem In -> 1 <= n <= max_in -> comp In n cap = COk out -> 0 < len out.
Proof. intros H H1 H2 H3. destruct (H In n cap out H1 H2 H3) as (rest & E). rewrite E, !len_app, !len_le32. pose proof (len_nonneg rest). lia. Qed.

Lemma rt_serves (comp : nullable_compressor) dec bound (decs : decompressor -> Prop) slack n cap file :
  RoundTrip (comp false false) bound decs slack -> HeaderSizes (comp false false) -> decs dec -> 0 <= slack <= 128 ->
  (forall k, is_byte (file k)) -> 1 <= n <= max_in -> n <= cap < 2 ^ 32 -> bound n <= cap ->
  Serves (call_list comp) (call_dec dec) n cap file.
Proof.
  intros HR HH Hd Hs HF Hn Hcap Hb. apply (list_serves comp dec slack); auto. intros In HIn _.
  destruct (HR In n cap HIn Hn Hb) as (out & E & _ & Hl & K). exists out. split; [exact E|].
  split; [pose proof (header_pos _ _ _ _ _ HH HIn Hn E); lia|]. now apply restores_I, K.
Qed.

(** *** Few values: low entropy *)
Lemma hist_absent L In x : 2 <= L -> forall i, 1 <= i -> (forall k, 0 <= k < i -> In k <> x) ->
  let '(last, count, prob, pcount) := histI L In i in last <> x /\ pcount x = 0.
Proof.
  intros HL i Hi. pattern i. apply Zlt_lower_bound_ind with (z := 1); [|exact Hi]. clear i Hi. intros i IH Hi HA.
  destruct (Z.eq_dec i 1) as [->|Hne].
  - destruct (hist_first L In HL) as (prob & pcount & -> & _ & P). split; [apply HA; lia|apply P].
  - specialize (IH (i - 1) ltac:(lia) ltac:(intros k Hk; apply HA; lia)). replace i with (i - 1 + 1) by lia. rewrite histI_snoc by lia.
    destruct (histI L In (i - 1)) as [[[last count] prob] pcount]. destruct IH as [I1 I2]. unfold hist_step.
    destruct (In (i - 1) =? last) eqn:E; [now split|]. split; [apply HA; lia|]. unfold upd. replace (x =? last) with false by lia. exact I2.
Qed.
Lemma len_filter_split {X} (f g : X -> bool) (H : forall x, g x = negb (f x)) l : len (filter f l) + len (filter g l) = len l.
Proof. induction l as [|a l IH]; [reflexivity|]. cbn [filter]. rewrite H. destruct (f a); cbn [negb]; rewrite !len_cons; lia. Qed.
Lemma count_few L max In n vs : 2 <= L -> byte_mem In -> 1 <= n <= max_in -> (forall k, 0 <= k < n -> List.In (In k) vs) ->
  exists d, li_count (le_info L max In n) = w8 d /\ 1 <= d <= len vs.
Proof.
  intros HL HIn Hn HV. unfold max_in in Hn. unfold le_info. rewrite hist_eq. pose proof (fun x => hist_absent L In x HL n ltac:(lia)) as HA.
  pose proof (gI_hist L In HL HIn n ltac:(lia)) as HG. pose proof (gI_bounds L In n HL HIn ltac:(lia)) as HB. pose proof (gI_inv L In HL HIn n ltac:(lia)) as HI.
  destruct (histI L In n) as [[[last count] prob] pcount]. destruct (gI L In n) as [[[last' count'] prob'] pcount'].
  destruct HG as (-> & -> & HG). destruct HB as [HB0 HB]. destruct HI as (_ & HI & _). destruct (HI ltac:(lia)) as [HI1 _]. clear HI.
  assert (Hlb : is_byte last') by (rewrite HI1; apply HIn).
  set (pr := upd prob last' _). set (pc := upd pcount last' _). unfold le_table. cbn [li_count]. eexists. split; [reflexivity|].
  set (pc' := tab 0 (map pc range256)).
  assert (HS := len_filter_split (fun i => pc' i =? 0) (fun i => negb (pc' i =? 0)) (fun x => eq_refl) range256). rewrite len_range256 in HS.
  assert (HU : len (filter (fun i => negb (pc' i =? 0)) range256) <= len vs).
  { unfold len. apply inj_le. apply NoDup_incl_length.
    - apply NoDup_filter. apply NoDup_range256.
    - intros x Hx. apply filter_In in Hx. destruct Hx as [Hx Hp]. apply in_range256 in Hx.
      destruct (in_dec Z.eq_dec x vs) as [K|K]; [exact K|]. exfalso.
      destruct (HA x ltac:(intros k Hk E; apply K; rewrite <- E; now apply HV)) as [K1 K2].
      unfold pc' in Hp. rewrite tab_range in Hp by exact Hx. unfold pc, upd in Hp. replace (x =? last') with false in Hp by lia. rewrite K2 in Hp. discriminate. }
  assert (HP : List.In last' (filter (fun i => negb (pc' i =? 0)) range256)).
  { apply filter_In. split; [now apply in_range256|]. unfold pc'. rewrite tab_range by exact Hlb. unfold pc, upd. rewrite Z.eqb_refl.
    destruct (HG last' Hlb) as [_ ->]. destruct (HB last' Hlb) as [HB1 HB2]. unfold w32. rewrite Z.mod_small by lia. lia. }
  apply in_split in HP. destruct HP as (l1 & l2 & HP). rewrite HP, len_app, len_cons in HS, HU. pose proof (len_nonneg l1). pose proof (len_nonneg l2). lia.
Qed.
Lemma few_lonely In n vs : (forall k, 0 <= k < n -> List.In (In k) vs) -> len vs < 256 -> SomeLonely In n.
Proof.
  intros HV Hl. destruct (existsb (fun b => negb (existsb (Z.eqb b) vs)) range256) eqn:E.
  - apply existsb_exists in E. destruct E as (b & Hb & E). exists b. split; [now apply in_range256|]. intros k Hk [K _].
    assert (K2 : existsb (Z.eqb b) vs = true); [|rewrite K2 in E; discriminate]. apply existsb_exists. exists b. split; [rewrite <- K; apply HV; lia|apply Z.eqb_refl].
  - exfalso. assert (HI : incl range256 vs).
    { intros b Hb. destruct (existsb (Z.eqb b) vs) eqn:K.
      - apply existsb_exists in K. destruct K as (y & Hy & Ey). apply Z.eqb_eq in Ey. now subst y.
      - exfalso. assert (X : existsb (fun b => negb (existsb (Z.eqb b) vs)) range256 = true); [|congruence]. apply existsb_exists. exists b. split; [exact Hb|]. now rewrite K. }
    pose proof (NoDup_incl_length NoDup_range256 HI) as HL. rewrite length_range256 in HL. unfold len in Hl. lia.
Qed.

Lemma le_few L max In n cap vs : (L = 255 \/ L = 32) -> byte_mem In -> 1 <= n <= max_in -> n + 297 <= cap < 2 ^ 32 ->
  (forall k, 0 <= k < n -> List.In (In k) vs) -> len vs + n / 32 <= 251 ->
  exists out, le_compress L max false false In n cap = COk out /\ 0 < len out <= cap /\ forall dec, le_decs L dec -> RestoresI false dec 0 out In n.
Proof.
  intros HL HIn Hn Hcap HV Hvs. assert (HL2 : 2 <= L) by lia.
  destruct (le_total L max Always HL In n cap HIn Hn I ltac:(rewrite le_bounds_eq by lia; lia)) as (out & E). exists out. split; [exact E|].
  destruct (le_ok L max HL In n cap out HIn Hn E) as (O1 & O2 & O3 & O4). destruct (count_few L max In n vs HL2 HIn Hn HV) as (d & Ed & Hd).
  assert (Hd2 : d < 256) by (assert (0 <= n / 32) by (apply Z.div_pos; lia); lia).
  split.
  - destruct O3 as (rest & E3). split; [rewrite E3, !len_app, !len_le32; pose proof (len_nonneg rest); lia|].
    revert E. unfold le_compress. rewrite le_bounds_eq by lia. destruct (_ || _); [discriminate|].
    set (info := le_info L max In n) in *. assert (HI : InfoOk info) by apply le_info_ok. destruct (cap <? 32 + 256 + 1); [discriminate|].
    destruct (le_with_info L info In n (w32 (cap - (8 + len (write_info info))))) as [[body|]|] eqn:E; try discriminate.
    destruct (w32 (len body) =? 0); [discriminate|]. intros H.
    assert (HO : out = le32 (8 + len (write_info info) + len body) ++ le32 n ++ write_info info ++ body)
      by (symmetry; exact (f_equal (fun r => match r with COk o => o | _ => [] end) H)). clear H.
    assert (Hb : len body <= n + n / L + 4) by (exact (le_body_len L max In n _ body HL HIn Hn E)).
    assert (HnL : n / L <= n / 32) by (clear - HL Hn; destruct HL as [-> | ->]; [apply Z.div_le_compat_l; lia|lia]).
    rewrite HO, !len_app, !len_le32, len_write_info by exact HI. rewrite Ed. unfold le_written, w8.
    rewrite Z.mod_small by lia. replace (d =? 0) with false by lia. lia.
  - apply O4. destruct max; [exact I|]. apply (lonely_not_worth L In n HL HIn Hn). apply (few_lonely In n vs HV). lia.
Qed.

(** *** Transformations *)
Lemma x_serves f g P n cap file : Computes f P -> UndoneBy f g -> (forall k, is_byte (file k)) -> 1 <= n <= cap ->
  Serves (call_x f) (call_x g) n cap file.
Proof.
  intros HC HU HF Hn M pU pK pD (L1 & L2 & L3 & L4 & L5 & L6 & L7 & L8 & L9) HM. unfold apart in *.
  assert (A : XArgs M pU n pK cap).
  { unfold XArgs, forward_ok. repeat split; try lia; rewrite HM by lia; apply HF. }
  destruct (HC M pU n pK cap A) as (M1 & E1 & _ & HB & HO). exists n, M1. unfold call_x. rewrite E1. split; [reflexivity|]. split; [lia|].
  split; [intros x Hx; apply HO; lia|]. intros M2 H2.
  destruct (HU M pU n pK cap M1 A E1 M2 pK pD cap) as (M3 & E3 & E4 & E5).
  { intros i Hi. apply H2. lia. }
  { unfold XArgs, forward_ok. repeat split; try lia; rewrite H2 by lia; apply HB; lia. }
  rewrite E3. exists M3. split; [reflexivity|]. split; [|intros x Hx; apply E5; lia]. intros k Hk. rewrite E4 by lia. now apply HM.
Qed.

(** *** Functions modelled on the memory *)
Lemma run_serves run dec n cap file : (forall k, is_byte (file k)) -> 1 <= n <= max_in -> n <= cap < 2 ^ 32 -> mz_bounds n <= cap ->
  (forall In M pout, byte_mem In ->
     exists r M', run In n cap M pout = Some (r, M') /\ 0 < r <= cap /\ (forall x, x < pout \/ pout + cap <= x -> M' x = M x) /\ Restores dec 0 (slice M' pout r) In n) ->
  Serves (call_run run) (call_dec dec) n cap file.
Proof.
  intros HF Hn Hcap Hb H M pU pK pD (L1 & L2 & L3 & L4 & L5 & L6 & L7 & L8 & L9) HU. unfold max_in in Hn.
  destruct (H (bytes_at M pU) M pK (bytes_at_bytes M pU)) as (r & M1 & E & Hr & HO & HR).
  exists r, M1. unfold call_run. replace ((pU =? 0) || (n =? 0) || (pK =? 0) || (cap <? mz_bounds n)) with false by lia. rewrite E.
  split; [reflexivity|]. split; [exact Hr|]. split; [exact HO|]. intros M2 H2.
  assert (HH : holds M2 pK (slice M1 pK r)).
  { apply holds_intro. intros k Hk. rewrite len_slice in Hk by lia. rewrite H2 by lia. now rewrite nth_slice by lia. }
  destruct (HR M2 pK r M2 pD cap HH) as (M3 & E3 & E4 & E5); rewrite ?len_slice by lia; try lia.
  exists M3. unfold call_dec. rewrite E3. split; [reflexivity|]. split; [|intros x Hx; apply E5; lia].
  intros k Hk. rewrite (slice_at M3 pD n (bytes_at M pU) _ E4 eq_refl k Hk). exact (bytes_at_file M pU n file HF HU k Hk).
Qed.
Lemma slice_pos M p r out : slice M p r = out -> 0 < len out -> r = len out.
Proof. intros <- H. unfold len in *. unfold slice in *. rewrite length_slice_nat in *. lia. Qed.

Lemma mz_serves undef n cap file : (forall k, is_byte (file k)) -> 1 <= n <= max_in -> n + 13 <= cap < 2 ^ 32 ->
  Serves (call_run (fun In n _ M pout => mz_run undef In n M pout)) (call_dec mz_decompress) n cap file.
Proof.
  intros HF Hn Hcap. pose proof (mz_bounds_small n Hn) as Hb. apply run_serves; auto; try lia. intros In M pout HIn.
  assert (Hb13 : n + 13 <= cap) by lia. destruct (mz_round_trip undef M pout In n cap HIn Hn Hb13) as (out & E & _ & Hl & HR).
  pose proof (header_pos _ _ _ _ _ (mz_header undef M pout) HIn Hn E) as Hpos. unfold mz_compress in E.
  replace (false || (n =? 0) || false || (cap <? mz_bounds n)) with false in E by lia.
  destruct (mz_run undef In n M pout) as [[r M']|] eqn:ER; [|discriminate].
  assert (EO : slice M' pout r = out) by (injection E; auto).
  pose proof (slice_pos _ _ _ _ EO Hpos) as Er. destruct (mz_writes undef In n M pout r M' HIn Hn ER) as [W1 W2].
  exists r, M'. split; [reflexivity|]. split; [lia|]. split; [intros x Hx; apply W2; lia|]. rewrite EO. apply HR. reflexivity.
Qed.
Lemma hs_serves n cap file : (forall k, is_byte (file k)) -> 1 <= n <= max_in -> HsThm.sh_need n <= cap < 2 ^ 32 ->
  Serves (call_run HsModel.sh_run) (call_dec HsModel.sh_decompress) n cap file.
Proof.
  intros HF Hn Hcap. pose proof (mz_bounds_small n Hn) as Hb.
  assert (Hneed : n + 19 <= HsThm.sh_need n) by (unfold HsThm.sh_need; assert (0 <= n / 128) by (apply Z.div_pos; lia); lia).
  apply run_serves; auto; try lia. intros In M pout HIn.
  assert (Hbs : HsThm.sh_need n <= cap) by lia. destruct (HsThm.sh_round_trip M pout In n cap HIn Hn Hbs) as (out & E & _ & Hl & HR).
  pose proof (header_pos _ _ _ _ _ (HsThm.sh_header M pout) HIn Hn E) as Hpos. unfold HsModel.sh_compress in E.
  replace (false || (n =? 0) || false || (cap <? mz_bounds n)) with false in E by lia.
  destruct (HsModel.sh_run In n cap M pout) as [[r M']|] eqn:ER; [|discriminate].
  assert (EO : slice M' pout r = out) by (injection E; auto).
  pose proof (slice_pos _ _ _ _ EO Hpos) as Er. destruct (HsThm.sh_writes In n cap M pout r M' HIn Hn ltac:(lia) ER) as [W1 W2].
  exists r, M'. split; [reflexivity|]. split; [lia|]. split; [intros x Hx; apply W2; lia|]. rewrite EO. apply HR. reflexivity.
Qed.
