(** rle8_mmtf128: from the correctness of the two directions to the statements of Spec.v. *)
From Verif Require Import Base LargeSpec Simd SimdProof Spec Spec2 Codec ExtModel MtfModel MtfSpec MtfProof BitMtf MzModel MzBits MzPack MzDec MzEnc.

(** *** The stream consists of bytes *)
Lemma rep_bytes K d f x : 0 <= K -> (forall i, 0 <= i < K -> Forall is_byte (f (x + d * i))) -> Forall is_byte (rep K d f x).
Proof. intros HK H. unfold rep. apply Forall_flat_map, Forall_forall. intros i Hi. apply lanes_in in Hi. now apply H. Qed.
Ltac bytes_ll := apply Forall_ll; intros k Hk; unfold is_byte.
Lemma play_bytes m E x : (forall i, x <= i < x + 16 * pg m -> 0 <= E i < 2 ^ pw m) -> Forall is_byte (play m E x).
Proof.
  intros H. destruct m; cbn [pg pw play] in *.
  - bytes_ll. specialize (H (x + k) ltac:(lia)). lia.
  - bytes_ll. pose proof (H (x + k) ltac:(lia)). pose proof (H (x + 16 + k) ltac:(lia)). pose proof (H (x + 32 + k) ltac:(lia)). pose proof (H (x + 48 + k) ltac:(lia)). lia.
  - unfold g3. assert (K : forall y, x <= y <= x + 48 -> Forall is_byte (g3half E y)).
    { intros y Hy. bytes_ll. pose proof (H (y + k) ltac:(lia)). pose proof (H (y + 16 + k) ltac:(lia)). lia. }
    apply Forall_app. split; [apply K; lia|]. apply Forall_app. split; [apply K; lia|]. repeat constructor; apply mm8_byte.
  - bytes_ll. pose proof (H (x + k) ltac:(lia)). pose proof (H (x + 16 + k) ltac:(lia)). lia.
Qed.
Lemma ptlay_bytes m E x : (forall i, x <= i < x + 16 -> 0 <= E i < 2 ^ pw m) -> Forall is_byte (ptlay m E x).
Proof.
  intros H. destruct m; cbn [pg pw ptlay] in *.
  - bytes_ll. specialize (H (x + k) ltac:(lia)). lia.
  - bytes_ll. pose proof (H (x + k) ltac:(lia)). pose proof (H (x + 4 + k) ltac:(lia)). pose proof (H (x + 8 + k) ltac:(lia)). pose proof (H (x + 12 + k) ltac:(lia)). lia.
  - unfold t3. repeat constructor; apply mm8_byte.
  - bytes_ll. pose proof (H (x + k) ltac:(lia)). pose proof (H (x + 8 + k) ltac:(lia)). lia.
Qed.
Lemma copy_bytes_bytes m E x c : 0 <= c -> (forall i, x <= i < x + 16 * c -> 0 <= E i < 2 ^ pw m) -> Forall is_byte (copy_bytes m E x c).
Proof.
  intros Hc H. unfold copy_bytes, hdr, body. destruct (pg_split m c Hc) as (G1 & G2 & G3). pose proof (pg_pos m) as Gp. pose proof (mbits_lt m). set (K := c / pg m) in *. set (R := c mod pg m) in *. set (g := pg m) in *.
  apply Forall_app. split; [destruct (c <? 32) eqn:Ec; [constructor; [unfold is_byte; lia|constructor]|apply Forall_le32]|]. apply Forall_app. split; apply rep_bytes; try lia; intros i Hi.
  - apply play_bytes. fold g. intros k Hk. apply H. assert (g * i + g <= g * K) by nia. assert (0 <= g * i) by nia. nia.
  - apply ptlay_bytes. intros k Hk. apply H. assert (0 <= g * K) by nia. lia.
Qed.
Lemma stream_bytes X n segs : byte_mem X -> forall a, 0 <= a -> 16 * (a + total segs) <= n -> Valid X a segs -> Forall is_byte (stream X a segs).
Proof.
  intros HX. induction segs as [|[[m c] r] t IH]; intros a Ha Hn HV; cbn [stream total Valid] in *; [constructor|]. destruct HV as (A & B & C & D & F).
  assert (Ht : 0 <= total t) by (apply (total_nonneg X n) in F; [exact F|intros; apply HX]).
  apply Forall_app. split; [apply copy_bytes_bytes; [exact A|]; intros i Hi; apply C; lia|]. apply Forall_app. split; [|apply IH; [lia|lia|exact F]].
  unfold run_bytes. apply Forall_app. split; [destruct (r <? 128) eqn:Er; [constructor; [unfold is_byte; lia|constructor]|apply Forall_le32]|]. constructor; [|constructor]. apply (E_byte X n); [intros; apply HX|lia].
Qed.
Lemma mz_body_bytes X n segs m c : byte_mem X -> Valid X 0 segs -> 0 <= c -> 16 * (total segs + c) <= n -> Fits X m (total segs) c ->
  Forall is_byte (mz_body X segs m c (n - 16 * (total segs + c))).
Proof.
  intros HX HV Hc Hn HF. assert (Ht : 0 <= total segs) by (apply (total_nonneg X n) in HV; [exact HV|intros; apply HX]). unfold mz_body.
  apply Forall_app. split; [apply (stream_bytes X n); try assumption; lia|]. apply Forall_app. split; [apply copy_bytes_bytes; [exact Hc|]; intros i Hi; apply HF; lia|].
  apply Forall_app. split; [constructor; [unfold is_byte; lia|constructor]|]. apply Forall_forall. intros y Hy. apply In_nth with (d := 0) in Hy. destruct Hy as (k & Hk & <-).
  assert (Hl : Z.of_nat k < n - 16 * (total segs + c)) by (pose proof (len_slice (cod 16 X) (16 * (total segs + c)) (n - 16 * (total segs + c)) ltac:(lia)) as L; unfold len in L; lia).
  rewrite <- (Nat2Z.id k), nth_slice by lia. apply (E_byte X n); [intros; apply HX|lia].
Qed.

(** *** The codec *)
Definition mzdecs (dec : decompressor) : Prop := dec = mz_decompress.

Theorem mz_good_large undef M pout : GoodTo (mz_compress undef M pout) mzdecs 0 (fun n => n + 13) mz_bounds large_in.
Proof.
  intros X n cap HX Hn Hcap. destruct (mz_run_ok undef X n M pout HX Hn) as (segs & m & c & M' & HV & Hc & Ht & HF & E & Hh & Hle & _).
  set (b := mz_body X segs m c (n - 16 * (total segs + c))) in *. exists b. unfold large_in in *. pose proof (len_nonneg b). split; [|split; [|split]].
  - unfold mz_compress. replace (false || (n =? 0) || false || (cap <? mz_bounds n)) with false by (cbn [orb]; rewrite orb_false_r; lia). rewrite E. f_equal.
    replace (8 + len b) with (len (le32 n ++ le32 (8 + len b) ++ b)) at 1 by (rewrite !len_app, !len_le32; lia). now apply slice_of_holds.
  - apply (mz_body_bytes X n); try assumption. lia.
  - exact Hle.
  - intros dec ->. apply mz_decode_ok; unfold large_in; try assumption; try lia. fold b. lia.
Qed.
Theorem mz_good undef M pout : Good (mz_compress undef M pout) mzdecs 0 (fun n => n + 13) mz_bounds.
Proof. apply large_good, mz_good_large. Qed.
Theorem mz_guarded undef M pout : Guarded (mz_compress undef M pout) mz_bounds.
Proof.
  intros inNull outNull X n cap H. unfold mz_compress. replace (inNull || (n =? 0) || outNull || (cap <? mz_bounds n)) with true; [reflexivity|].
  symmetry. destruct inNull; [reflexivity|]. destruct outNull; [rewrite orb_true_r; reflexivity|]. cbn [orb]. rewrite orb_false_r. lia.
Qed.
Lemma mz_bounds_small n : 1 <= n <= max_in -> mz_bounds n = n + 8.
Proof. unfold mz_bounds, max_in, w32. intros H. rewrite Z.mod_small by lia. replace (2 ^ 30 <? n) with false by lia. reflexivity. Qed.

Theorem mz_round_trip undef M pout : RoundTrip (mz_compress undef M pout false false) (fun n => n + 13) mzdecs 0.
Proof. refine (codec_round_trip _ _ _ _ _ (mz_good undef M pout) _ _). intros n Hn. rewrite mz_bounds_small by exact Hn. lia. Qed.
Theorem mz_within undef M pout : WithinBound (mz_compress undef M pout false false) (fun n => n + 13).
Proof. refine (codec_within _ _ _ _ _ (mz_good undef M pout) (mz_guarded undef M pout) _ _). intros. lia. Qed.
Theorem mz_header undef M pout : HeaderSizes (mz_compress undef M pout false false).
Proof. exact (codec_header _ _ _ _ _ (mz_good undef M pout) (mz_guarded undef M pout)). Qed.
Theorem mz_args undef M pout : CompressArgs (mz_compress undef M pout) mz_bounds.
Proof. exact (codec_args _ _ _ _ _ (mz_good undef M pout) (mz_guarded undef M pout)). Qed.
Theorem mz_dec_args : DecompressArgs mz_decompress.
Proof.
  intros C pin inSize M pout outSize H. unfold mz_decompress. destruct ((pin =? 0) || (pout =? 0) || (inSize =? 0) || (outSize =? 0)) eqn:E; [reflexivity|].
  replace ((outSize <? rd32 C pin) || (inSize <? rd32 C (pin + 4))) with true; [reflexivity|]. lia.
Qed.
Theorem mz_truncated undef M pout : RejectsTruncated (mz_compress undef M pout false false) mz_decompress.
Proof. refine (codec_truncated _ _ _ _ _ (mz_good undef M pout) (mz_guarded undef M pout) _ _ mz_dec_args). unfold max_in. intros. lia. Qed.
Theorem mz_inside undef M pout : StaysInside (mz_compress undef M pout false false) mz_decompress 0.
Proof. exact (codec_inside _ _ _ _ _ (mz_good undef M pout) (mz_guarded undef M pout) _ eq_refl). Qed.

(** The compressor writes nothing outside of [n + 13] bytes. *)
Theorem mz_writes undef In n M pout r M' : byte_mem In -> 1 <= n <= max_in -> mz_run undef In n M pout = Some (r, M') ->
  r <= n + 13 /\ forall x, x < pout \/ pout + n + 13 <= x -> M' x = M x.
Proof.
  intros HX Hn E. destruct (mz_run_ok undef In n M pout HX (max_large1 n Hn)) as (segs & m & c & M2 & _ & _ & _ & _ & E' & _ & Hle & HO). rewrite E in E'. injection E' as -> ->. split; [exact Hle|exact HO].
Qed.

(** Nothing but the input is read. *)
Theorem mz_input_only undef M pout : InputOnly (mz_compress undef M pout false false).
Proof.
  intros In1 In2 n cap Hn Heq. unfold mz_compress. cbn [orb]. destruct (n =? 0) eqn:E0; cbn [orb]; [reflexivity|]. destruct (cap <? mz_bounds n); cbv iota; [reflexivity|].
  assert (EQ : mz_run undef In1 n M pout = mz_run undef In2 n M pout); [|rewrite EQ; reflexivity]. unfold mz_run. cbn zeta. set (s0 := mkMz _ _ _ _ _ _ _ _ _ _).
  set (Iv := fun s => 0 <= z_in s /\ z_in s + z_rem s = n /\ 0 <= z_rem s).
  assert (Hl : forall s, Iv s -> mz_step In1 s = mz_step In2 s /\ match mz_step In1 s with inl s' => Iv s' | inr (Some s') => Iv s' | inr None => True end).
  { intros s (A & B & C). assert (Ld : z_rem s <? 16 = false -> load In1 (z_in s) = load In2 (z_in s)).
    { intros H. unfold load, vec. replace (map (fun j => In1 (z_in s + j)) (lanes 16)) with (map (fun j => In2 (z_in s + j)) (lanes 16)); [reflexivity|]. apply map_ext_in. intros j Hj. apply lanes_in in Hj. symmetry. apply Heq. lia. }
    unfold mz_step. destruct (z_rem s <? 16) eqn:Er; [split; [reflexivity|unfold Iv; auto]|]. rewrite <- (Ld eq_refl). split; [reflexivity|].
    destruct (menc_vec 16 (load In1 (z_in s)) (z_hist s)) as [[out H]|]; [|exact I]. destruct (z_copying s); [destruct (uniform out); [destruct (copy_header _ _ _ _ _) as [[q M2]|]; [|exact I]|]|destruct (forallb _ _); [|destruct (run_header _ _ _ _) as [q M2]; destruct (uniform out)]]; unfold Iv; cbn [z_in z_rem]; lia. }
  assert (I0 : Iv s0) by (unfold Iv, s0; cbn [z_in z_rem]; lia).
  assert (EL : loop (mz_step In1) s0 = loop (mz_step In2) s0).
  { unfold loop. destruct (iter_ext_inv (mz_step In1) (mz_step In2) Iv) with (d := 64%nat) (s := s0) as [E _]; [intros s Hs; apply Hl, Hs|intros s s' Hs Es; specialize (Hl s Hs); rewrite Es in Hl; apply Hl|exact I0|]. now rewrite E. }
  rewrite EL. assert (HQ : forall s, loop (mz_step In1) s0 = Some (Some s) -> Iv s).
  { intros s Es. pose proof (loop_pres (mz_step In1) Iv (fun r => match r with Some s => Iv s | None => True end) s0 (Some s)) as P. cbv beta iota in P. apply P; [|exact I0|exact Es].
    intros s1 H1. specialize (Hl s1 H1) as [_ Hl]. destruct (mz_step In1 s1) as [s2|[s2|]]; exact Hl. }
  rewrite EL in HQ. destruct (loop (mz_step In2) s0) as [[s|]|]; [|reflexivity|reflexivity]. destruct (HQ s eq_refl) as (A & B & C). destruct (mz_finish s) as [[q M2]|]; [|reflexivity].
  assert (EF : forall t q M, Z.of_nat t <= z_rem s -> fold_left (mz_last In1 (z_hist s)) (lanes (Z.of_nat t)) (z_in s, q, M) = fold_left (mz_last In2 (z_hist s)) (lanes (Z.of_nat t)) (z_in s, q, M) /\
    fst (fst (fold_left (mz_last In2 (z_hist s)) (lanes (Z.of_nat t)) (z_in s, q, M))) = z_in s + Z.of_nat t).
  { induction t as [|t IH]; intros q0 M0 Ht; [change (lanes (Z.of_nat 0)) with (@nil Z); cbn [fold_left fst]; split; [reflexivity|lia]|]. rewrite Nat2Z.inj_succ, <- Z.add_1_r, lanes_S, !fold_left_app by lia. destruct (IH q0 M0 ltac:(lia)) as [-> E2].
    destruct (fold_left (mz_last In2 (z_hist s)) (lanes (Z.of_nat t)) (z_in s, q0, M0)) as [[p q1] M3]. cbn [fst] in E2. cbn [fold_left]. unfold mz_last. rewrite (Heq p) by lia. split; [reflexivity|]. destruct (find_row _ _ _); cbn [fst]; lia. }
  specialize (EF (Z.to_nat (z_rem s)) q M2). rewrite Z2Nat.id in EF by exact C. destruct (EF ltac:(lia)) as [-> _]. reflexivity.
Qed.

(** *** Bit packing *)
(** The blocks the decoder unpacks: whole groups, then single blocks (l.719-1145). *)
Definition un (m : pmode) : mem -> Z -> list (Z -> Z) := match m with Raw => unraw | P2 => un2 | P3 => un3 | P4 => un4 end.
Definition unt (m : pmode) : mem -> Z -> list (Z -> Z) := match m with Raw => unraw | P2 => un2_tail | P3 => un3_tail | P4 => un4_tail end.
Definition unpacked (m : pmode) (C : mem) (p c : Z) : list (Z -> Z) :=
  flat_map (fun i => un m C (p + padv m * i)) (lanes (c / pg m)) ++ flat_map (fun i => unt m C (p + padv m * (c / pg m) + ptadv m * i)) (lanes (c mod pg m)).

Lemma un_reads m : Reads (un m) (play m) (pg m) (pw m).
Proof. destruct m; [apply reads_raw|apply reads_2|apply reads_3|apply reads_4]. Qed.
Lemma unt_reads m : Reads (unt m) (ptlay m) 1 (pw m).
Proof. destruct m; [apply reads_raw|apply reads_2t|apply reads_3t|apply reads_4t]. Qed.

Lemma reads_rep u lay g w adv C E K x p : Reads u lay g w -> (forall y, len (lay E y) = adv) -> 0 < g <= 6 -> 0 <= K -> holds C p (rep K (16 * g) (lay E) x) ->
  (forall i, x <= i < x + 16 * (g * K) -> 0 <= E i < 2 ^ w) ->
  len (flat_map (fun i => u C (p + adv * i)) (lanes K)) = g * K /\
  forall m j, 0 <= m < g * K -> 0 <= j < 16 -> nth (Z.to_nat m) (flat_map (fun i => u C (p + adv * i)) (lanes K)) (fun _ => 0) j = E (x + 16 * m + j).
Proof.
  intros HR Hadv Hg HK. pattern K. apply natlike_ind; [| |exact HK]; clear K HK.
  - intros _ _. rewrite Z.mul_0_r. split; [reflexivity|]. intros; lia.
  - intros K HK IH. unfold Z.succ. rewrite rep_S by exact HK. intros Hh HE. apply holds_app in Hh as [Hh1 Hh2]. rewrite (len_rep K (16 * g) (lay E) x adv) in Hh2 by (try exact HK; exact Hadv).
    destruct IH as [L IH]; [exact Hh1|intros i Hi; apply HE; lia|]. rewrite lanes_S, flat_map_app by exact HK. cbn [flat_map]. rewrite app_nil_r.
    destruct (HR C _ E _ Hh2) as [L2 R2]; [intros i Hi; apply HE; replace (16 * (g * (K + 1))) with (16 * g * K + 16 * g) by lia; assert (0 <= g * K) by nia; lia|].
    split; [rewrite len_app; rewrite L; lia|]. intros m j Hm Hj. unfold len in L. destruct (Z_lt_ge_dec m (g * K)) as [Hlt|Hge].
    + rewrite app_nth1 by lia. now apply IH.
    + rewrite app_nth2 by lia. match goal with |- nth ?k _ _ _ = _ => replace k with (Z.to_nat (m - g * K)) by lia end. rewrite R2 by lia. f_equal. lia.
Qed.

(** Packing [c] blocks in place, to the same place or to lower addresses, and unpacking. *)
Theorem pack_lossless m M p q c : 0 <= c < 2 ^ 40 -> q <= p -> (forall i, 0 <= i < 16 * c -> 0 <= M (p + i) < 2 ^ pw m) ->
  exists q' M', packs m M p q (c * 16) = Some (q', M') /\ q' = q + len (body m M p c) /\ q' <= q + 16 * c /\
    len (unpacked m M' q c) = c /\ forall i j, 0 <= i < c -> 0 <= j < 16 -> nth (Z.to_nat i) (unpacked m M' q c) (fun _ => 0) j = M (p + 16 * i + j).
Proof.
  intros Hc Hq HM. assert (HM' : forall i, p <= i < p + 16 * c -> 0 <= M i < 2 ^ pw m) by (intros i Hi; replace i with (p + (i - p)) by lia; apply HM; lia).
  destruct (packs_ok m M p q M p c Hc Hq ltac:(reflexivity) HM') as (M' & E1 & Hh & _). pose proof (blen_le m c ltac:(lia)) as Hb. rewrite len_body by lia.
  exists (q + blen m c), M'. split; [exact E1|]. split; [reflexivity|]. split; [lia|]. destruct (pg_split m c ltac:(lia)) as (G1 & G2 & G3). pose proof (pg_pos m) as Gp.
  unfold body in Hh. apply holds_app in Hh as [H1 H2]. destruct (pupd_ok m) as [La _]. destruct (ptupd_ok m) as [Lt _].
  rewrite (len_rep _ _ _ _ (padv m)) in H2 by (try lia; intros; apply La). 
  assert (N1 : 0 <= pg m * (c / pg m)) by nia.
  destruct (reads_rep (un m) (play m) (pg m) (pw m) (padv m) M' M (c / pg m) p q (un_reads m) ltac:(intros; apply La) Gp ltac:(lia) H1) as [A1 A2]; [intros i Hi; apply HM'; lia|].
  destruct (reads_rep (unt m) (ptlay m) 1 (pw m) (ptadv m) M' M (c mod pg m) (p + 16 * pg m * (c / pg m)) (q + padv m * (c / pg m)) (unt_reads m) ltac:(intros; apply Lt) ltac:(lia) ltac:(lia) ltac:(replace (16 * 1) with 16 by lia; exact H2)) as [B1 B2]; [intros i Hi; apply HM'; lia|].
  unfold unpacked. rewrite len_app, A1, B1. split; [lia|]. intros i j Hi Hj. unfold len in A1. destruct (Z_lt_ge_dec i (pg m * (c / pg m))) as [Hlt|Hge].
  - rewrite app_nth1 by lia. now apply A2.
  - rewrite app_nth2 by lia. match goal with |- nth ?k _ _ _ = _ => replace k with (Z.to_nat (i - pg m * (c / pg m))) by (clear - A1 Hge; lia) end. rewrite B2 by lia. f_equal. lia.
Qed.

(** These are the blocks the decoder works on. *)
Lemma dloop_blocks g adv u C rem p st : 0 < g <= 6 -> 0 <= rem < 2 ^ 60 ->
  dloop g adv u C (rem, p, st) = Some (rem mod g, p + adv * (rem / g), fold_left dblock (flat_map (fun i => u C (p + adv * i)) (lanes (rem / g))) st).
Proof.
  intros Hg Hrem. unfold dloop. assert (Hdiv : rem = g * (rem / g) + rem mod g /\ 0 <= rem mod g < g) by (split; [apply Z.div_mod; lia|apply Z.mod_pos_bound; lia]).
  set (K := rem / g) in *. set (R := rem mod g) in *. assert (HK : 0 <= K) by nia.
  set (F := fun k => (rem - g * k, p + adv * k, fold_left dblock (flat_map (fun i => u C (p + adv * i)) (lanes k)) st)).
  destruct (loop_inv (dgroup g adv u C) (fun s => exists k, 0 <= k <= K /\ s = F k) (fun '(r, _, _) => r) (fun r => r = F K) (rem, p, st)) as (r & E1 & ->).
  - intros s (k & Hk & ->). unfold F. unfold dgroup. destruct (g <=? rem - g * k) eqn:Eg.
    + assert (k < K) by nia. split; [|lia]. exists (k + 1). split; [lia|]. unfold F. rewrite lanes_S, flat_map_app, fold_left_app by lia. cbn [flat_map]. rewrite app_nil_r. repeat first [lia | reflexivity | f_equal].
    + assert (k = K) by nia. subst k. reflexivity.
  - exists 0. split; [lia|]. unfold F. change (lanes 0) with (@nil Z). cbn [flat_map fold_left]. repeat first [lia | reflexivity | f_equal].
  - lia.
  - rewrite E1. unfold F. do 3 f_equal. lia.
Qed.
Theorem dcopy_unpacked C p m c st : 0 <= c < 2 ^ 29 -> holds C p (hdr m c) ->
  dcopy C p st = Some (p + len (hdr m c) + blen m c, fold_left dblock (unpacked m C (p + len (hdr m c)) c) st).
Proof.
  intros Hc Hh.
  assert (Hb : Z.land (C p) 6 = mbits m /\ (if Z.land (C p) 1 =? 0 then (C p / 2 ^ 3, p + 1) else (rd32 C p / 2 ^ 3, p + 4)) = (c, p + len (hdr m c))).
  { pose proof (mbits_lt m) as Hm. assert (He : mbits m mod 2 = 0) by (destruct m; reflexivity). unfold hdr in *. destruct (c <? 32) eqn:Ec.
    - destruct Hh as [Hh _]. rewrite Hh. destruct (byte_fields (8 * c + mbits m)) as [F1 F2]; [unfold is_byte; lia|]. rewrite F1, F2. replace ((8 * c + mbits m) mod 2 =? 0) with true by lia. change (len [_]) with 1. split; [lia|]. f_equal. lia.
    - rewrite <- (app_nil_r (le32 _)) in Hh. rewrite (rd32_holds C p (8 * c + 1 + mbits m) [] ltac:(lia) Hh). rewrite app_nil_r in Hh. unfold le32 in Hh. destruct Hh as [Hh _]. rewrite Hh. destruct (byte_fields ((8 * c + 1 + mbits m) mod 256)) as [F1 F2]; [unfold is_byte; lia|].
      rewrite F1, F2. replace ((8 * c + 1 + mbits m) mod 256 mod 2 =? 0) with false by lia. rewrite len_le32. split; [lia|]. f_equal. lia. }
  destruct Hb as [Hb6 Hb1]. unfold dcopy. cbn zeta. rewrite Hb6, Hb1. set (p0 := p + len (hdr m c)).
  destruct m; cbn [mbits]; [change (0 =? 0) with true|change (6 =? 0) with false; change (6 =? 6) with true|change (4 =? 0) with false; change (4 =? 6) with false; change (4 =? 4) with true|change (2 =? 0) with false; change (2 =? 6) with false; change (2 =? 4) with false]; cbn iota;
    unfold unpacked, blen; cbn [pg padv ptadv un unt].
  - rewrite dloop_blocks by lia. rewrite Z.div_1_r, Z.mod_1_r. change (lanes 0) with (@nil Z). cbn [flat_map]. rewrite app_nil_r. do 2 f_equal. lia.
  - rewrite dloop_blocks by lia. rewrite dloop_blocks by lia. rewrite Z.div_1_r, fold_left_app. do 2 f_equal. lia.
  - rewrite dloop_blocks by lia. rewrite dloop_blocks by lia. rewrite Z.div_1_r, fold_left_app. do 2 f_equal. lia.
  - rewrite dloop_blocks by lia. rewrite fold_left_app. destruct (c mod 2 =? 0) eqn:E2.
    + replace (c mod 2) with 0 by lia. change (lanes 0) with (@nil Z). cbn [flat_map fold_left]. do 2 f_equal. lia.
    + replace (c mod 2) with 1 by lia. change (lanes 1) with [0]. cbn [flat_map]. rewrite app_nil_r, Z.mul_0_r, Z.add_0_r. do 2 f_equal. lia.
Qed.

(** *** rle8_mmtf128_compress_bounds is too small, and the accumulator matters *)
Lemma total_0 X segs : forall a, Valid X a segs -> total segs = 0 -> segs = [].
Proof.
  assert (K : forall segs a, Valid X a segs -> 0 <= total segs) by (clear; induction segs as [|[[m c] r] t IH]; intros a H; cbn [total]; [lia|]; destruct H as (A & B & _ & _ & H); apply IH in H; lia).
  destruct segs as [|[[m c] r] t]; intros a H Ht; [reflexivity|]. cbn [total Valid] in *. destruct H as (A & B & _ & _ & H). apply K in H. lia.
Qed.
Theorem mz_bounds_exceeded undef M pout : exists In n out, byte_mem In /\ 1 <= n <= max_in /\
  mz_compress undef M pout false false In n (mz_bounds n) = COk out /\ mz_bounds n < len out.
Proof.
  assert (HX : byte_mem (fun _ => 0)) by (intros k; unfold is_byte; lia).
  destruct (mz_run_ok undef (fun _ => 0) 1 M pout HX ltac:(unfold large_in; lia)) as (segs & m & c & M' & HV & Hc & Ht & HF & E & Hh & _). change (1 / 16) with 0 in Ht.
  assert (Ht0 : 0 <= total segs) by exact (total_nonneg (fun _ => 0) 1 (fun i _ => HX i) segs 0 HV). assert (c = 0) by lia. assert (Es : segs = []) by (apply (total_0 _ segs 0 HV); lia). subst segs c.
  assert (Lb : len (mz_body (fun _ => 0) [] m 0 (1 - 16 * (total [] + 0))) = 3) by (destruct m; reflexivity). rewrite Lb in E.
  exists (fun _ => 0), 1, (slice M' pout 11). split; [exact HX|]. split; [unfold max_in; lia|]. split; [|rewrite len_slice by lia; reflexivity].
  unfold mz_compress. change (false || (1 =? 0) || false || (mz_bounds 1 <? mz_bounds 1)) with false. rewrite E. reflexivity.
Qed.
Theorem mz_undefined : exists undef1 undef2 In n cap out1 out2, byte_mem undef1 /\ byte_mem undef2 /\ byte_mem In /\ 1 <= n <= max_in /\ n + 13 <= cap /\
  mz_compress undef1 (fun _ => 0) 16 false false In n cap = COk out1 /\ mz_compress undef2 (fun _ => 0) 16 false false In n cap = COk out2 /\ out1 <> out2.
Proof.
  set (o := fun u => match mz_compress (fun _ => u) (fun _ => 0) 16 false false (fun _ => 0) 16 29 with COk l => l | _ => [] end).
  exists (fun _ => 0), (fun _ => 255), (fun _ => 0), 16, 29, (o 0), (o 255). split; [intros k; unfold is_byte; lia|]. split; [intros k; unfold is_byte; lia|]. split; [intros k; unfold is_byte; lia|]. split; [unfold max_in; lia|]. split; [lia|].
  split; [vm_compute; reflexivity|]. split; [vm_compute; reflexivity|]. vm_compute. discriminate.
Qed.
