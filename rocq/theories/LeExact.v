(** The low entropy codecs restore the input exactly if some byte value is not worth it. *)
From Coq Require Import Permutation.
From Verif Require Import Base Simd SimdProof Spec Spec2 ExtModel ExtEnc PktModel Rle8Model LeModel LeSpec LeTable LeDec LeEnc LeSize LeWorth LeThm.

Lemma all_rle_count rle : (forall b, is_byte b -> rle b = true) -> w8 (len (filter rle range256)) = 0.
Proof.
  intros H. assert (E : filter rle range256 = range256).
  { assert (K : forall l, (forall x, List.In x l -> is_byte x) -> filter rle l = l).
    { induction l as [|a l IH]; intros Hl; cbn [filter]; [reflexivity|]. rewrite (H a) by (apply Hl; now left). f_equal. apply IH. intros x Hx. apply Hl. now right. }
    apply K. intros x Hx. now apply in_range256. }
  rewrite E, len_range256. reflexivity.
Qed.

(** *** The packets if all values are run length coded *)
Section Parse.
  Variables (L : Z) (info : leinfo) (In : mem) (n : Z).
  Hypothesis HL : L = 255 \/ L = 32.
  Hypothesis HIn : forall k, is_byte (In k).
  Hypothesis Hall : forall b, is_byte b -> li_rle info b = true.

  Definition cnt (i : Z) : Z := lead (fun j => In (1 + j + i) =? In i) ((if i <? n - 256 then L else w8 (Z.min (n - i - 1) L)) - 1).
  Fixpoint pos (k : nat) : Z := match k with O => 0 | S k' => pos k' + cnt (pos k') + 1 end.

  Lemma cnt_nonneg i : 0 <= cnt i.
  Proof. unfold cnt, lead. destruct (lead_nat_spec (fun j => In (1 + j + i) =? In i) (Z.to_nat ((if i <? n - 256 then L else w8 (Z.min (n - i - 1) L)) - 1)) 0) as (H & _). lia. Qed.

  Lemma cnt_spec i : i < n - 256 -> 0 <= cnt i <= L - 1 /\ (forall k, i <= k <= i + cnt i -> In k = In i) /\ (cnt i < L - 1 -> In (i + cnt i + 1) <> In i).
  Proof.
    intros Hi. unfold cnt. replace (i <? n - 256) with true by lia.
    destruct (lead_spec (fun j => In (1 + j + i) =? In i) (L - 1) ltac:(lia)) as (H1 & H2 & H3). split; [exact H1|]. split.
    - intros k Hk. destruct (Z.eq_dec k i) as [->|Hne]; [reflexivity|]. specialize (H2 (k - i - 1) ltac:(lia)). replace (1 + (k - i - 1) + i) with k in H2 by lia. lia.
    - intros H. specialize (H3 H). replace (i + lead (fun j => In (1 + j + i) =? In i) (L - 1) + 1) with (1 + lead (fun j => In (1 + j + i) =? In i) (L - 1) + i) by lia. lia.
  Qed.

  Definition Parsed (out : list Z) (k : nat) : Prop := len out = 2 * Z.of_nat k /\
    forall j, (j < k)%nat -> nth (2 * j) out 0 = In (pos j) /\ nth (2 * j + 1) out 0 = tab 0 (li_syms info) (cnt (pos j)).

  Lemma parse o body : n < 2 ^ 32 -> le_with_info L info In n o = Some (Some body) -> exists k, Parsed body k.
  Proof.
    intros Hn. unfold le_with_info. destruct (_ || _); [discriminate|]. intros E0. assert (E : loop (le_step L info In n) (0, []) = Some body) by congruence. clear E0.
    destruct (loop_inv (le_step L info In n) (fun '(i, out) => exists k, i = pos k /\ Parsed out k) (fun '(i, out) => Z.max 0 (n - i)) (fun out => exists k, Parsed out k) (0, [])) as (r & Er & HQ).
    - intros [i out] (k & -> & P1 & P2). unfold le_step. destruct (pos k <? n) eqn:Ei; [|exists k; split; assumption].
      rewrite Hall by apply HIn. fold (cnt (pos k)). pose proof (cnt_nonneg (pos k)). split; [|lia].
      exists (S k). split; [reflexivity|]. assert (Hlo : length out = (2 * k)%nat) by (unfold len in P1; lia). split; [rewrite len_app; change (len _) with 2 at 2; lia|].
      intros j Hj. destruct (Nat.eq_dec j k) as [->|Hne].
      + rewrite !app_nth2, Hlo by lia. replace (2 * k - 2 * k)%nat with 0%nat by lia. replace (2 * k + 1 - 2 * k)%nat with 1%nat by lia. split; reflexivity.
      + rewrite !app_nth1 by lia. apply P2. lia.
    - exists 0%nat. split; [reflexivity|]. split; [reflexivity|]. intros j Hj. lia.
    - lia.
    - rewrite E in Er. injection Er as ->. exact HQ.
  Qed.

  (** *** They are not the data *)
  Variable v : Z -> Z.
  Hypothesis Hv : forall x y, 0 <= x < 256 -> 0 <= y < 256 -> v x = v y -> x = y.
  Hypothesis H512 : 512 <= n.
  Hypothesis Hfix : forall k, 2 * Z.of_nat k + 1 < n -> In (2 * Z.of_nat k) = In (pos k) /\ In (2 * Z.of_nat k + 1) = v (cnt (pos k)).

  Lemma run_on k0 : pos k0 = 2 * Z.of_nat k0 -> (k0 <= 1)%nat -> cnt (pos k0) = L - 1 -> v (L - 1) = In (pos k0) ->
    forall k, (k0 <= k)%nat -> pos k < n - 256 -> pos k = pos k0 + L * Z.of_nat (k - k0) /\ cnt (pos k) = L - 1 /\ forall x, pos k0 <= x < pos k + L -> In x = In (pos k0).
  Proof.
    intros Hk0 H01 Hc Hval k Hk. induction Hk as [|k Hk IH]; intros Hp.
    - rewrite Nat.sub_diag. split; [lia|]. split; [exact Hc|]. intros x Hx. destruct (cnt_spec (pos k0) Hp) as (_ & H & _). apply H. lia.
    - cbn [pos] in Hp. pose proof (cnt_nonneg (pos k)). specialize (IH ltac:(lia)). destruct IH as (I1 & I2 & I3).
      assert (E : pos (S k) = pos k0 + L * Z.of_nat (S k - k0)) by (cbn [pos]; rewrite I2; replace (S k - k0)%nat with (S (k - k0))%nat by lia; lia).
      assert (Hps : pos (S k) < n - 256) by (cbn [pos]; exact Hp).
      assert (Hb : 2 * Z.of_nat (S k) + 1 < pos (S k)) by (rewrite E, Hk0; lia).
      assert (Hps2 : pos (S k) = pos k + L) by (cbn [pos]; lia).
      destruct (Hfix (S k) ltac:(lia)) as [F1 F2]. rewrite (I3 (2 * Z.of_nat (S k))) in F1 by lia. rewrite (I3 (2 * Z.of_nat (S k) + 1)), <- Hval in F2 by lia.
      destruct (cnt_spec (pos (S k)) Hps) as (C1 & C2 & _).
      apply Hv in F2; [|lia|lia]. split; [exact E|]. split; [lia|]. intros x Hx.
      destruct (Z_lt_ge_dec x (pos (S k))) as [Hlt|Hge]; [apply I3; lia|]. rewrite (C2 x) by lia. symmetry. exact F1.
  Qed.

  Lemma run_whole k0 : pos k0 = 2 * Z.of_nat k0 -> (k0 <= 1)%nat -> cnt (pos k0) = L - 1 -> v (L - 1) = In (pos k0) ->
    forall x, pos k0 <= x < n - 256 -> In x = In (pos k0).
  Proof.
    intros Hk0 H01 Hc Hval x Hx. set (k := (k0 + Z.to_nat ((x - pos k0) / L))%nat).
    pose proof (Z.div_mod (x - pos k0) L ltac:(lia)). pose proof (Z.mod_pos_bound (x - pos k0) L ltac:(lia)).
    assert (Hd : 0 <= (x - pos k0) / L) by (apply Z.div_pos; lia).
    assert (K : forall j, (j <= Z.to_nat ((x - pos k0) / L))%nat -> pos (k0 + j) = pos k0 + L * Z.of_nat j).
    { induction j as [|j IH]; intros Hj; [rewrite Nat.add_0_r; lia|]. replace (k0 + S j)%nat with (S (k0 + j)) by lia.
      assert (HLj : L * Z.of_nat (S j) <= L * ((x - pos k0) / L)) by (apply Z.mul_le_mono_nonneg_l; lia).
      destruct (run_on k0 Hk0 H01 Hc Hval (k0 + j)%nat ltac:(lia)) as (R1 & R2 & _); [rewrite (IH ltac:(lia)); lia|].
      cbn [pos]. rewrite R2, (IH ltac:(lia)). lia. }
    pose proof (K (Z.to_nat ((x - pos k0) / L)) ltac:(lia)) as Kx. fold k in Kx. rewrite Z2Nat.id in Kx by lia.
    destruct (run_on k0 Hk0 H01 Hc Hval k ltac:(unfold k; lia) ltac:(lia)) as (_ & _ & R3). apply R3. lia.
  Qed.

  (** All of the data but the last 256 bytes consists of one or two values. *)
  Lemma almost_constant : exists a b, forall x, 0 <= x < n - 256 -> In x = a \/ In x = b.
  Proof.
    pose proof (Hfix 0 ltac:(lia)) as [_ A1]. pose proof (Hfix 1 ltac:(lia)) as [A2 A3]. pose proof (Hfix 2 ltac:(lia)) as [A4 A5]. pose proof (Hfix 3 ltac:(lia)) as [A6 A7].
    change (2 * Z.of_nat 0 + 1) with 1 in *. change (2 * Z.of_nat 1) with 2 in *. change (2 * Z.of_nat 2) with 4 in *. change (2 * Z.of_nat 3) with 6 in *.
    change (2 + 1) with 3 in *. change (4 + 1) with 5 in *. change (6 + 1) with 7 in *.
    destruct (cnt_spec 0 ltac:(lia)) as (B1 & B2 & B3). cbn [pos] in *. set (c0 := cnt 0) in *. rewrite !Z.add_0_l in *.
    assert (Hc : c0 = 0 \/ c0 = 1 \/ 2 <= c0) by lia. destruct Hc as [Hc|[Hc|Hc]].
    - exfalso. rewrite Hc in *. change (0 + 1) with 1 in *. specialize (B3 ltac:(lia)). destruct (cnt_spec 1 ltac:(lia)) as (C1 & C2 & C3). set (c1 := cnt 1) in *.
      assert (H1 : c1 <> 0) by (intros H; rewrite H in *; specialize (C3 ltac:(lia)); change (1 + 0 + 1) with 2 in C3; congruence).
      destruct (Z.eq_dec c1 1) as [H2|H2].
      + rewrite H2 in *. change (1 + 1 + 1) with 3 in *. destruct (cnt_spec 3 ltac:(lia)) as (D1 & D2 & D3). set (c2 := cnt 3) in *.
        assert (K1 : c2 <> 0) by (intros H; rewrite H in *; specialize (D3 ltac:(lia)); change (3 + 0 + 1) with 4 in D3; congruence).
        destruct (Z.eq_dec c2 1) as [K2|K2].
        * rewrite K2 in *. specialize (D3 ltac:(lia)). change (3 + 1 + 1) with 5 in D3. congruence.
        * rewrite <- (D2 5 ltac:(lia)), A5 in A3. apply Hv in A3; lia.
      + rewrite <- (C2 3 ltac:(lia)), A3 in A1. apply Hv in A1; lia.
    - rewrite Hc in *. change (1 + 1) with 2 in *. specialize (B3 ltac:(lia)). pose proof (B2 1 ltac:(lia)) as B4.
      destruct (cnt_spec 2 ltac:(lia)) as (C1 & C2 & C3). set (c1 := cnt 2) in *.
      destruct (Z.eq_dec c1 0) as [H0|H0].
      + rewrite H0 in *. change (2 + 0 + 1) with 3 in *. specialize (C3 ltac:(lia)). destruct (cnt_spec 3 ltac:(lia)) as (D1 & D2 & D3). set (c2 := cnt 3) in *.
        assert (K0 : c2 <> 0) by (intros H; rewrite H in *; specialize (D3 ltac:(lia)); change (3 + 0 + 1) with 4 in D3; congruence).
        destruct (Z.eq_dec c2 1) as [K1|K1].
        * rewrite K1 in *. change (3 + 1 + 1) with 5 in *. specialize (D3 ltac:(lia)). destruct (cnt_spec 5 ltac:(lia)) as (E1 & E2 & E3). set (c3 := cnt 5) in *.
          assert (J0 : c3 <> 0) by (intros H; rewrite H in *; specialize (E3 ltac:(lia)); change (5 + 0 + 1) with 6 in E3; congruence).
          destruct (Z.eq_dec c3 1) as [J1|J1].
          -- rewrite J1 in *. specialize (E3 ltac:(lia)). change (5 + 1 + 1) with 7 in E3. congruence.
          -- rewrite <- (E2 7 ltac:(lia)), A7 in A5. apply Hv in A5; lia.
        * rewrite <- (D2 5 ltac:(lia)), A5 in A3. apply Hv in A3; lia.
      + destruct (Z.eq_dec c1 1) as [H1|H1].
        * rewrite H1 in *. pose proof (C2 3 ltac:(lia)). congruence.
        * assert (Hcut : c1 = L - 1).
          { destruct (Z.eq_dec c1 (L - 1)) as [K|K]; [exact K|]. exfalso. specialize (C3 ltac:(lia)). rewrite (C2 4 ltac:(lia)) in A4. congruence. }
          exists (In 0), (In 2). intros x Hx. destruct (Z_lt_ge_dec x 2) as [Hx2|Hx2]; [left; apply B2; lia|]. right.
          assert (Hp1 : pos 1 = 2) by (cbn [pos]; fold c0; lia). rewrite <- Hp1. apply (run_whole 1); rewrite ?Hp1; try lia; try exact Hcut.
          rewrite <- Hcut, <- A3. apply C2. lia.
    - assert (Hcut : c0 = L - 1).
      { destruct (Z.eq_dec c0 (L - 1)) as [K|K]; [exact K|]. exfalso. specialize (B3 ltac:(lia)). rewrite (B2 2 ltac:(lia)) in A2. congruence. }
      exists (In 0), (In 0). intros x Hx. left. change (In 0) with (In (pos 0)). apply (run_whole 0); cbn [pos]; try lia; try exact Hcut. rewrite <- Hcut, <- A1. apply B2. lia.
  Qed.
End Parse.

(** *** All values worth it *)
Lemma worth_two L In n b : 2 <= L -> (forall k, is_byte (In k)) -> 0 <= n -> is_byte b -> Worth L In n b -> 2 <= occ In n b.
Proof. intros HL HIn Hn Hb [W1 W2]. pose proof (pieces_pos L In n b HL HIn Hn Hb W1). lia. Qed.

Lemma zsum_drop f a : (forall x, 0 <= f x <= 2) -> zsum f range256 - 2 <= zsum (upd f a 0) range256.
Proof.
  intros Hf. destruct (Z_le_gt_dec 0 a) as [H0|H0]; [destruct (Z_lt_ge_dec a 256) as [H1|H1]|].
  - rewrite zsum_upd_in by (unfold is_byte; lia). specialize (Hf a). lia.
  - rewrite zsum_upd_out by (unfold is_byte; lia). lia.
  - rewrite zsum_upd_out by (unfold is_byte; lia). lia.
Qed.

Lemma worth_n L In n : 2 <= L -> (forall k, is_byte (In k)) -> 0 <= n -> (forall b, is_byte b -> Worth L In n b) -> 512 <= n.
Proof.
  intros HL HIn Hn HW. rewrite <- (occ_sum In n HIn Hn). replace 512 with (zsum (fun _ => 2) range256) by (rewrite zsum_const, len_range256; reflexivity).
  apply zsum_le. intros b Hb. apply in_range256 in Hb. now apply worth_two with (L := L); [| | | |apply HW].
Qed.

Lemma occ_app In m n b : 0 <= m <= n -> occ In n b = occ In m b + occ (fun k => In (m + k)) (n - m) b.
Proof.
  intros H. unfold occ. replace n with (m + (n - m)) at 1 by lia. rewrite slice_app, filter_app, len_app by lia. f_equal. f_equal. f_equal. rewrite Z.add_0_l.
  clear H. generalize (n - m). intros k. destruct (Z_le_gt_dec k 0) as [Hk|Hk]; [now rewrite !slice_0 by lia|].
  assert (K : forall j, 0 <= j -> slice In m j = slice (fun x => In (m + x)) 0 j).
  { apply natlike_ind; [now rewrite !slice_0 by lia|]. intros j Hj IH. unfold Z.succ. rewrite !slice_snoc, IH by lia. reflexivity. }
  apply K. lia.
Qed.
Lemma occ_nonneg In n b : 0 <= occ In n b.
Proof. apply len_nonneg. Qed.
Lemma occ_none In n b : (forall x, 0 <= x < n -> In x <> b) -> occ In n b = 0.
Proof.
  intros H. destruct (Z_le_gt_dec n 0) as [Hn|Hn]; [unfold occ; now rewrite slice_0 by lia|]. assert (Hn' : 0 <= n) by lia. clear Hn. revert H. pattern n. apply natlike_ind; [|clear n Hn'|exact Hn'].
  - intros _. unfold occ. now rewrite slice_0 by lia.
  - intros n Hn IH H. unfold Z.succ in *. rewrite occ_snoc, IH by (try (intros; apply H); lia). specialize (H n ltac:(lia)). destruct (b =? In n) eqn:E; lia.
Qed.

Lemma worth_not_constant L In n : 2 <= L -> (forall k, is_byte (In k)) -> 0 <= n -> (forall b, is_byte b -> Worth L In n b) ->
  ~ exists a b, forall x, 0 <= x < n - 256 -> In x = a \/ In x = b.
Proof.
  intros HL HIn Hn HW (a & c & Hac). pose proof (worth_n L In n HL HIn Hn HW) as H512. set (In' := fun k => In (n - 256 + k)).
  assert (Hs : zsum (occ In' 256) range256 = 256) by (apply occ_sum; [intros k; apply HIn|lia]).
  assert (Hg : zsum (upd (upd (fun _ => 2) a 0) c 0) range256 <= zsum (occ In' 256) range256).
  { apply zsum_le. intros b Hb. apply in_range256 in Hb. pose proof (occ_nonneg In' 256 b) as H0.
    unfold upd. destruct (b =? c) eqn:Ec; [exact H0|]. destruct (b =? a) eqn:Ea; [exact H0|].
    pose proof (worth_two L In n b HL HIn Hn Hb (HW b Hb)) as H2. rewrite (occ_app In (n - 256) n b) in H2 by lia.
    rewrite (occ_none In (n - 256) b) in H2 by (intros x Hx; specialize (Hac x Hx); lia). replace (n - (n - 256)) with 256 in H2 by lia. rewrite Z.add_0_l in H2. exact H2. }
  pose proof (zsum_drop (upd (fun _ => 2) a 0) c) as D1. pose proof (zsum_drop (fun _ => 2) a) as D2. rewrite zsum_const, len_range256 in D2.
  specialize (D1 ltac:(intros x; unfold upd; destruct (x =? a); lia)). specialize (D2 ltac:(intros; lia)). lia.
Qed.

(** *** The decoders copy *)
Section Copy.
  Variables (L : Z) (In : mem) (n cap : Z) (out : list Z).
  Hypothesis HL : L = 255 \/ L = 32.
  Hypothesis HIn : forall k, is_byte (In k).
  Hypothesis Hn : 1 <= n <= max_in.
  Hypothesis HW : forall b, is_byte b -> Worth L In n b.
  Let info := le_info L false In n.

  Lemma compress_shape : le_compress L false false false In n cap = COk out -> exists body o,
    le_with_info L info In n o = Some (Some body) /\ out = le32 (8 + len (write_info info) + len body) ++ le32 n ++ write_info info ++ body /\
    8 + len (write_info info) + len body < 2 ^ 32.
  Proof.
    unfold le_compress. cbn [orb]. destruct (_ || _); [discriminate|]. fold info. destruct (cap <? 32 + 256 + 1); [discriminate|].
    destruct (le_with_info L info In n (w32 (cap - (8 + len (write_info info))))) as [[body|]|] eqn:E; try discriminate.
    destruct (w32 (len body) =? 0); [discriminate|]. intros H. exists body. eexists. split; [exact E|]. split; [symmetry; exact (f_equal (fun r => match r with COk o => o | _ => [] end) H)|].
    pose proof (le_body_len L false In n _ body HL HIn Hn E). rewrite (len_write_info info (le_info_ok L false In n)). destruct (le_info_ok L false In n) as (_ & Hw & _). fold info in Hw.
    unfold max_in in Hn. clear - HL H0 Hn Hw. destruct HL as [-> | ->]; lia.
  Qed.

  Lemma copies body c C pin inSize M pout outSize :
    out = le32 (8 + len (write_info info) + len body) ++ le32 n ++ write_info info ++ body -> 8 + len (write_info info) + len body < 2 ^ 32 ->
    holds C pin out -> 0 < pin -> len out <= inSize -> 0 < pout -> n <= outSize ->
    le_decompress L c C pin inSize M pout outSize = DRet n (vcopy n C (pin + 8 + len (write_info info)) M pout).
  Proof.
    intros HO Hsz Hh Hp Hin Hq Hcap. unfold max_in in Hn. rewrite HO in Hin, Hh. clear HO. assert (HI : InfoOk info) by apply le_info_ok.
    assert (Hall : forall b, is_byte b -> li_rle info b = true) by (intros b Hb; apply rle_iff_worth; auto; unfold max_in; lia).
    clearbody info. set (head := write_info info) in *. pose proof (len_nonneg body). pose proof (len_nonneg head). rewrite !len_app, !len_le32 in *.
    unfold le_decompress. replace ((pin =? 0) || (pout =? 0) || (inSize =? 0) || (outSize =? 0)) with false by lia.
    rewrite (rd32_holds C pin (8 + len head + len body) _) by (try exact Hh; lia).
    apply holds_app in Hh. destruct Hh as [_ Hh]. rewrite len_le32 in Hh.
    rewrite (rd32_holds C (pin + 4) n _) by (try exact Hh; lia).
    apply holds_app in Hh. destruct Hh as [_ Hh]. rewrite len_le32 in Hh. replace (pin + 4 + 4) with (pin + 8) in Hh by lia.
    replace ((outSize <? n) || (inSize <? 8 + len head + len body)) with false by lia.
    destruct (read_write_info info C (pin + 8) body HI Hh) as (rle & stc' & E & R1 & R2). rewrite E. fold head.
    unfold le_decode. rewrite all_rle_count; [reflexivity|]. intros b Hb. rewrite R1 by exact Hb. now apply Hall.
  Qed.

  Lemma not_restored c : le_compress L false false false In n cap = COk out -> ~ RestoresI false (le_decompress L c) 0 out In n.
  Proof.
    intros HC HR. destruct (compress_shape HC) as (body & o & E & HO & Hsz). set (head := write_info info) in *.
    assert (Hl : len out = 8 + len head + len body) by (rewrite HO, !len_app, !len_le32; lia). pose proof (len_nonneg body). pose proof (len_nonneg head).
    assert (HN : n <= 2 ^ 30) by (unfold max_in in Hn; lia).
    (* the copied bytes are the data, whatever follows the stream *)
    assert (K : forall d k, 0 <= k < n -> nth (Z.to_nat k) body d = In k).
    { intros d k Hk. set (C := fun a => nth (Z.to_nat (a - 16)) out d).
      assert (Hh : holds C 16 out).
      { apply holds_intro. intros j Hj. unfold C. replace (16 + j - 16) with j by lia. apply nth_indep. unfold len in Hj. lia. }
      destruct (HR C 16 (len out) (fun _ => 0) 16 n) as (M' & E1 & E2 & _); [exact Hh|lia|lia|cbn [InSize]; lia|lia|lia|lia|].
      rewrite (copies body c C 16 (len out) (fun _ => 0) 16 n HO Hsz Hh) in E1 by lia. assert (EM : M' = vcopy n C (16 + 8 + len (write_info info)) (fun _ => 0) 16) by congruence. clear E1. rewrite EM in E2. clear EM M'.
      pose proof (f_equal (fun l => nth (Z.to_nat k) l 0) E2) as En. cbn beta in En. rewrite !nth_slice in En by lia. rewrite vcopy_in in En by lia. rewrite Z.add_0_l in En. rewrite <- En.
      unfold C. rewrite HO. replace (Z.to_nat (16 + 8 + len (write_info info) + (16 + k - 16) - 16)) with (4 + (4 + (length (write_info info) + Z.to_nat k)))%nat by (unfold len; lia).
      rewrite app_nth2 by (cbn; lia). rewrite app_nth2 by (cbn; lia). rewrite app_nth2 by (cbn [length le32]; unfold le32; cbn; lia). f_equal. cbn; lia. }
    assert (Hb : n <= len body).
    { destruct (Z_le_gt_dec n (len body)) as [Hb|Hb]; [exact Hb|]. exfalso. pose proof (K 0 (n - 1) ltac:(lia)) as K0. pose proof (K 1 (n - 1) ltac:(lia)) as K1.
      rewrite nth_overflow in K0, K1 by (unfold len in *; lia). lia. }
    assert (HI : InfoOk info) by apply le_info_ok. destruct (syms_inverse info HI) as (stc & Hstc).
    assert (HL2 : 2 <= L) by lia.
    assert (Hall : forall b, is_byte b -> li_rle info b = true) by (intros b Hbb; apply rle_iff_worth; auto).
    destruct (parse L info In n HIn Hall o body ltac:(lia) E) as (N & P1 & P2).
    apply (worth_not_constant L In n HL2 HIn ltac:(lia) HW).
    apply (almost_constant L info In n HL HIn Hall (tab 0 (li_syms info))).
    - intros x y Hx Hy Exy. pose proof (Hstc x Hx) as S1. pose proof (Hstc y Hy) as S2. congruence.
    - exact (worth_n L In n HL2 HIn ltac:(lia) HW).
    - intros k Hk. destruct (P2 k ltac:(lia)) as [Q1 Q2]. rewrite <- Q1, <- Q2. rewrite <- (K 0 (2 * Z.of_nat k)), <- (K 0 (2 * Z.of_nat k + 1)) by lia.
      split; f_equal; lia.
  Qed.
End Copy.

(** Exactly. *)
Theorem le_restores_iff L In n cap out c : L = 255 \/ L = 32 -> byte_mem In -> 1 <= n <= max_in -> le_compress L false false false In n cap = COk out ->
  RestoresI false (le_decompress L c) 0 out In n <-> SomeNotWorth L In n.
Proof.
  intros HL HIn Hn HC. split.
  - intros HR. destruct (existsb (fun b => negb (li_rle (le_info L false In n) b)) range256) eqn:Ex.
    + apply existsb_exists in Ex. destruct Ex as (b & Hb & Hr). apply in_range256 in Hb. exists b. split; [exact Hb|]. intros K. apply (rle_iff_worth L In n b) in K; auto; [|lia]. rewrite K in Hr. discriminate.
    + exfalso. apply (not_restored L In n cap out HL HIn Hn) with (c := c); [|exact HC|exact HR]. intros b Hb. apply (rle_iff_worth L In n b); auto; [lia|].
      destruct (li_rle (le_info L false In n) b) eqn:Er; [reflexivity|]. exfalso. assert (X : existsb (fun b => negb (li_rle (le_info L false In n) b)) range256 = true); [|congruence].
      apply existsb_exists. exists b. split; [now apply in_range256|]. now rewrite Er.
  - intros HP. destruct (le_ok L false HL In n cap out HIn Hn HC) as (_ & _ & _ & O4). apply O4; [exact HP|now exists c].
Qed.

(** The decoders stay inside the buffer in any case. *)
Theorem le_inside_always L max c : L = 255 \/ L = 32 -> StaysInsideI false Always (le_compress L max false false) (le_decompress L c) 0.
Proof.
  intros HL In n cap out C pin inSize M pout outSize HIn Hn _ HC Hh Hp Hp64 Hin Hq Hq64 Hcap.
  destruct max; [exact (le_inside L true c HL In n cap out C pin inSize M pout outSize HIn Hn I HC Hh Hp Hp64 Hin Hq Hq64 Hcap)|].
  destruct (existsb (fun b => negb (li_rle (le_info L false In n) b)) range256) eqn:Ex.
  - apply (le_inside L false c HL In n cap out C pin inSize M pout outSize HIn Hn); auto. apply existsb_exists in Ex. destruct Ex as (b & Hb & Hr). apply in_range256 in Hb.
    exists b. split; [exact Hb|]. intros K. apply (rle_iff_worth L In n b) in K; auto; [|lia]. rewrite K in Hr. discriminate.
  - assert (HW : forall b, is_byte b -> Worth L In n b).
    { intros b Hb. apply (rle_iff_worth L In n b); auto; [lia|].
      destruct (li_rle (le_info L false In n) b) eqn:Er; [reflexivity|]. exfalso. assert (X : existsb (fun b => negb (li_rle (le_info L false In n) b)) range256 = true); [|congruence].
      apply existsb_exists. exists b. split; [now apply in_range256|]. now rewrite Er. }
    destruct (compress_shape L In n cap out HL HIn Hn HC) as (body & o & E & HO & Hsz). cbn [InSize] in Hin.
    exists n. eexists. split; [apply (copies L In n out HL HIn Hn HW body c C pin inSize M pout outSize); auto; lia|].
    intros x Hx. apply vcopy_out. lia.
Qed.
