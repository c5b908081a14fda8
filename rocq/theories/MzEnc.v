(** rle8_mmtf128_compress produces a stream the decoder restores. *)
From Verif Require Import Base LargeSpec Simd SimdProof Spec MtfModel MtfSpec MtfProof BitMtf MzModel MzBits MzPack MzDec.

Lemma clear_of_spec m bits : clear_of m bits = true -> forall j, 0 <= j < 16 -> Z.land m (bits j) = 0.
Proof. intros H j Hj. unfold clear_of in H. rewrite forallb_forall in H. specialize (H j (proj2 (lanes_in 16 j) Hj)). lia. Qed.
Lemma uniform_spec v : uniform v = true -> forall j, 0 <= j < 16 -> v j = v 0.
Proof. intros H j Hj. unfold uniform in H. rewrite forallb_forall in H. specialize (H j (proj2 (lanes_in 16 j) Hj)). lia. Qed.

Lemma mask_check : forallb (fun x => (negb (Z.land 240 x =? 0) || (x <? 16)) && (negb (Z.land 252 x =? 0) || (x <? 4)) && (negb (Z.land 248 x =? 0) || (x <? 8))) (lanes 256) = true.
Proof. vm_compute. reflexivity. Qed.
Lemma mask_bound x : is_byte x -> (Z.land 240 x = 0 -> x < 16) /\ (Z.land 252 x = 0 -> x < 4) /\ (Z.land 248 x = 0 -> x < 8).
Proof.
  intros Hx. pose proof (proj1 (forallb_forall _ _) mask_check x (proj2 (lanes_in 256 x) Hx)) as H. cbv beta in H. rewrite !Bool.andb_true_iff, !Bool.orb_true_iff, !Bool.negb_true_iff in H. lia.
Qed.

Lemma run_header_ok M h r s : 1 <= r < 2 ^ 30 ->
  exists M', run_header M h r s = (h + len (run_bytes r s), M') /\ holds M' h (run_bytes r s) /\ forall a, a < h \/ h + len (run_bytes r s) <= a -> M' a = M a.
Proof.
  intros Hr. unfold run_header, run_bytes. destruct (r <? 128) eqn:Er.
  - eexists. split; [reflexivity|]. split.
    + cbn [app holds]. rewrite !put8_at, !Z.eqb_refl. replace (h =? h + 1) with false by lia. unfold w8. split; [lia|]. split; [reflexivity|exact I].
    + change (len ([2 * r] ++ [s])) with 2. intros a Ha. rewrite !put8_at. replace (a =? h + 1) with false by lia. replace (a =? h) with false by lia. reflexivity.
  - eexists. split; [reflexivity|]. rewrite len_app, len_le32. change (len [s]) with 1. split.
    + apply holds_app. rewrite len_le32. split.
      * apply (holds_keep (put32 M h (2 * r + 1))); [apply holds_store|]. rewrite len_le32. intros a Ha. rewrite put8_at. replace (a =? h + 4) with false by lia.
        unfold w32. rewrite (Z.mod_small r) by lia. rewrite Z.mod_small by lia. replace (Z.lor (r * 2) 1) with (2 * r + 1); [reflexivity|].
        rewrite Z.lor_comm. replace (2 * r + 1) with (1 + 2 ^ 1 * r) by lia. rewrite cat_lor by lia. rewrite Z.shiftl_mul_pow2 by lia. f_equal; lia.
      * cbn [holds]. rewrite put8_at, Z.eqb_refl. auto.
    + intros a Ha. rewrite put8_at. replace (a =? h + 4) with false by lia. unfold put32. apply store_out. rewrite len_le32. lia.
Qed.

Section Enc.
  Variables (X : mem) (n : Z).
  Hypothesis HX : byte_mem X.
  Hypothesis Hn : 1 <= n <= 2 ^ 31 - 20.
  Notation E := (cod 16 X).

  Lemma Eb i : 0 <= i < n -> is_byte (E i).
  Proof. apply E_byte. intros; apply HX. Qed.

  Lemma stream_app s1 : forall a s2, stream X a (s1 ++ s2) = stream X a s1 ++ stream X (a + total s1) s2.
  Proof.
    induction s1 as [|[[m c] r] t IH]; intros a s2; cbn [app stream total]; [now rewrite Z.add_0_r|]. rewrite IH, <- !app_assoc. do 4 f_equal. lia.
  Qed.
  Lemma total_app s1 s2 : total (s1 ++ s2) = total s1 + total s2.
  Proof. induction s1 as [|[[m c] r] t IH]; cbn [app total]; lia. Qed.
  Lemma valid_app s1 : forall a s2, Valid X a s1 -> Valid X (a + total s1) s2 -> Valid X a (s1 ++ s2).
  Proof.
    induction s1 as [|[[m c] r] t IH]; intros a s2 H1 H2; cbn [app Valid total] in *; [now rewrite Z.add_0_r in H2|]. destruct H1 as (A & B & C & D & F).
    split; [exact A|]. split; [exact B|]. split; [exact C|]. split; [exact D|]. apply IH; [exact F|]. now replace (a + c + r + total t) with (a + (c + r + total t)) by lia.
  Qed.

  (** The bits collected for a copy. *)
  Definition Bits (a c : Z) (bits : Z -> Z) : Prop := forall m i, clear_of m bits = true -> 16 * a <= i < 16 * (a + c) -> Z.land m (E i) = 0.
  Lemma bits_fits a c bits : 0 <= a -> 0 <= c -> 16 * (a + c) <= n -> Bits a c bits -> Fits X (mode_of bits) a c.
  Proof.
    intros Ha Hc Hle HB i Hi. pose proof (Eb i ltac:(lia)) as Hb. destruct (mask_bound _ Hb) as (K1 & K2 & K3). unfold is_byte in Hb. unfold mode_of.
    destruct (clear_of 240 bits) eqn:E1; [|cbn [pw]; lia]. destruct (clear_of 252 bits) eqn:E2; [specialize (K2 (HB _ _ E2 Hi)); cbn [pw]; lia|].
    destruct (clear_of 248 bits) eqn:E3; [specialize (K3 (HB _ _ E3 Hi)); cbn [pw]; lia|]. specialize (K1 (HB _ _ E1 Hi)). cbn [pw]. lia.
  Qed.
  Lemma bits_more a c bits out : 0 <= c -> (forall j, 0 <= j < 16 -> out j = E (16 * (a + c) + j)) -> Bits a c bits -> Bits a (c + 1) (vec 16 (vor bits out)).
  Proof.
    intros Hc Ho HB m i Hm Hi. pose proof (clear_of_spec _ _ Hm) as K.
    assert (K1 : forall j, 0 <= j < 16 -> Z.land m (bits j) = 0 /\ Z.land m (out j) = 0).
    { intros j Hj. specialize (K j Hj). rewrite vec_at in K by exact Hj. unfold vor in K. rewrite Z.land_lor_distr_r in K. now apply Z.lor_eq_0_iff in K. }
    destruct (Z_lt_ge_dec i (16 * (a + c))) as [Hlt|Hge].
    - apply HB; [|lia]. unfold clear_of. apply forallb_forall. intros j Hj. apply lanes_in in Hj. destruct (K1 j Hj) as [-> _]. reflexivity.
    - destruct (K1 (i - 16 * (a + c)) ltac:(lia)) as [_ K2]. rewrite Ho in K2 by lia. now replace (16 * (a + c) + (i - 16 * (a + c))) with i in K2 by lia.
  Qed.
  Lemma bits_one a out : (forall j, 0 <= j < 16 -> out j = E (16 * a + j)) -> Bits a 1 out.
  Proof.
    intros Ho m i Hm Hi. pose proof (clear_of_spec _ _ Hm (i - 16 * a) ltac:(lia)) as K. rewrite Ho in K by lia. now replace (16 * a + (i - 16 * a)) with i in K by lia.
  Qed.
  Lemma bits_nil a bits : Bits a 0 bits.
  Proof. intros m i _ Hi. lia. Qed.

  (** State after [b] blocks; the stream starts at [base], [M1] is the memory before. *)
  Variables (M1 : mem) (base : Z).
  Definition Outside (b : Z) (M : mem) : Prop := forall x, x < base \/ base + 4 + 16 * b <= x -> M x = M1 x.
  Definition Copying (b : Z) (s : mzst) : Prop := exists segs, let a := total segs in let c := z_count s in
    Valid X 0 segs /\ 0 <= c /\ b = a + c /\ z_last s = base + len (stream X 0 segs) /\ holds (z_mem s) base (stream X 0 segs) /\ z_out s = z_last s + 4 + 16 * c /\
    (forall j, 0 <= j < 16 * c -> z_mem s (z_last s + 4 + j) = E (16 * a + j)) /\ Bits a c (z_bits s).
  Definition Running (b : Z) (s : mzst) : Prop := exists segs m c, let a := total segs in let r := z_count s in
    Valid X 0 segs /\ 0 <= c /\ 1 <= r /\ b = a + c + r /\ Fits X m a c /\ z_last s = base + len (stream X 0 segs ++ copy_bytes m E (16 * a) c) /\
    holds (z_mem s) base (stream X 0 segs ++ copy_bytes m E (16 * a) c) /\ z_symbol s = E (16 * (a + c)) /\ Const X (a + c) r (z_symbol s).
  Definition EInv (b : Z) (s : mzst) : Prop :=
    0 <= b /\ 16 * b <= n /\ z_in s = 16 * b /\ z_rem s = n - 16 * b /\ Hist 16 X b (z_hist s) /\ Outside b (z_mem s) /\ if z_copying s then Copying b s else Running b s.

  Lemma tot0 segs : Valid X 0 segs -> 0 <= total segs.
  Proof. apply (total_nonneg X n). intros; apply HX. Qed.
  Lemma slen segs : Valid X 0 segs -> 0 <= len (stream X 0 segs) <= 16 * total segs.
  Proof. intros HV. split; [apply len_nonneg|]. apply (stream_le X n); [intros; apply HX|exact HV]. Qed.
  Lemma len_copy m x c : 0 <= c -> 0 <= len (copy_bytes m E x c) <= 4 + 16 * c.
  Proof. intros Hc. unfold copy_bytes. rewrite len_app, len_hdr, len_body by lia. pose proof (blen_le m c Hc). destruct (c <? 32); lia. Qed.
  Lemma len_run r s : 2 <= len (run_bytes r s) <= 5.
  Proof. unfold run_bytes. destruct (r <? 128); cbn; lia. Qed.

  (** Closing a copy. *)
  Lemma close_copy b s : z_copying s = true -> EInv b s -> exists segs M', let a := total segs in let c := z_count s in let m := mode_of (z_bits s) in
    Valid X 0 segs /\ 0 <= c /\ b = a + c /\ Fits X m a c /\ Outside b M' /\
    copy_header (z_bits s) (z_mem s) (z_last s) (z_out s) c = Some (base + len (stream X 0 segs ++ copy_bytes m E (16 * a) c), M') /\
    holds M' base (stream X 0 segs ++ copy_bytes m E (16 * a) c).
  Proof.
    intros Hcp (Hb & Hbn & _ & _ & _ & HO & HI). rewrite Hcp in HI. destruct HI as (segs & HV & Hc & Hb' & Hl & Hs & Ho & HM & HB). pose proof (tot0 _ HV). pose proof (slen _ HV) as Hsl.
    pose proof (bits_fits (total segs) (z_count s) (z_bits s) ltac:(lia) ltac:(lia) ltac:(lia) HB) as HF.
    destruct (copy_header_ok (z_bits s) (z_mem s) (z_last s) (z_count s) E (16 * total segs) ltac:(lia) HM) as (M' & E1 & E2 & E3).
    { intros i Hi. apply HF. lia. }
    exists segs, M'. cbn zeta. split; [exact HV|]. split; [exact Hc|]. split; [exact Hb'|]. split; [exact HF|]. split; [|split].
    - intros x Hx. rewrite E3 by lia. apply HO. lia.
    - rewrite Ho, E1. rewrite len_app. do 2 f_equal. lia.
    - apply holds_app. split; [|now rewrite <- Hl]. apply (holds_keep (z_mem s)); [exact Hs|]. intros x Hx. apply E3. lia.
  Qed.
  (** Closing a run. *)
  Lemma close_run b s : z_copying s = false -> EInv b s -> exists segs M',
    Valid X 0 segs /\ b = total segs /\ Outside b M' /\ len (stream X 0 segs) + 7 <= 16 * b /\
    run_header (z_mem s) (z_last s) (z_count s) (z_symbol s) = (base + len (stream X 0 segs), M') /\ holds M' base (stream X 0 segs).
  Proof.
    intros Hcp (Hb & Hbn & _ & _ & _ & HO & HI). rewrite Hcp in HI. destruct HI as (segs & m & c & HV & Hc & Hr & Hb' & HF & Hl & Hs & Hsym & HC). pose proof (tot0 _ HV). pose proof (slen _ HV) as Hsl.
    destruct (run_header_ok (z_mem s) (z_last s) (z_count s) (z_symbol s) ltac:(lia)) as (M' & E1 & E2 & E3).
    pose proof (len_run (z_count s) (z_symbol s)) as Hrl. pose proof (len_copy m (16 * total segs) c Hc) as Hcl.
    exists (segs ++ [(m, c, z_count s)]), M'. rewrite stream_app, total_app. cbn [total stream]. rewrite Z.add_0_l, app_nil_r, <- Hsym.
    assert (HV' : Valid X 0 (segs ++ [(m, c, z_count s)])).
    { apply valid_app; [exact HV|]. rewrite Z.add_0_l. cbn [Valid]. rewrite <- Hsym. auto. }
    split; [exact HV'|]. split; [lia|]. rewrite app_assoc, len_app. split; [|split; [|split]].
    - rewrite len_app in Hl. intros x Hx. rewrite E3 by lia. apply HO. lia.
    - rewrite len_app. lia.
    - rewrite E1. f_equal. lia.
    - apply holds_app. split; [|now rewrite <- Hl]. apply (holds_keep (z_mem s)); [exact Hs|]. intros x Hx. apply E3. lia.
  Qed.

  Lemma step_ok b s : EInv b s -> if n - 16 * b <? 16 then mz_step X s = inr (Some s) else exists s', mz_step X s = inl s' /\ EInv (b + 1) s'.
  Proof.
    intros HI. pose proof HI as (Hb & Hbn & Hin & Hrem & HH & HO & Hst). unfold mz_step. rewrite Hrem. destruct (n - 16 * b <? 16) eqn:Er; [reflexivity|].
    destruct (enc_block X n ltac:(intros; apply HX) b (z_hist s) (load X (z_in s)) Hb ltac:(lia) HH) as (out & H' & E1 & Eo & H1).
    { intros j Hj. rewrite load_at by exact Hj. rewrite Hin. reflexivity. }
    rewrite E1. rewrite Hin. replace (16 * b + 16) with (16 * (b + 1)) by lia.
    destruct (z_copying s) eqn:Ecp.
    - destruct (uniform out) eqn:Eu.
      + destruct (close_copy b s Ecp HI) as (segs & M' & HV & Hc & Hb' & HF & HO' & E2 & E3). rewrite E2. eexists. split; [reflexivity|].
        unfold EInv. cbn [z_in z_rem z_hist z_mem z_copying]. split; [lia|]. split; [lia|]. split; [reflexivity|]. split; [lia|]. split; [exact H1|]. split; [intros x Hx; apply HO'; lia|].
        exists segs, (mode_of (z_bits s)), (z_count s). cbn [z_count z_last z_mem z_symbol]. cbn zeta. split; [exact HV|]. split; [exact Hc|]. split; [lia|]. split; [lia|]. split; [exact HF|]. split; [reflexivity|]. split; [exact E3|].
        assert (E0 : out 0 = E (16 * (total segs + z_count s))) by (rewrite Eo by lia; f_equal; lia). split; [exact E0|].
        intros i Hi. rewrite <- (uniform_spec out Eu (i - 16 * b) ltac:(lia)), Eo by lia. f_equal. lia.
      + eexists. split; [reflexivity|]. destruct Hst as (segs & HV & Hc & Hb' & Hl & Hs & Hq & HM & HB). pose proof (tot0 _ HV). pose proof (slen _ HV) as Hsl.
        unfold EInv. cbn [z_in z_rem z_hist z_mem z_copying]. split; [lia|]. split; [lia|]. split; [reflexivity|]. split; [lia|]. split; [exact H1|]. split; [intros x Hx; rewrite vstore_out by lia; apply HO; lia|].
        exists segs. cbn [z_count z_last z_mem z_out z_bits]. cbn zeta. split; [exact HV|]. split; [lia|]. split; [lia|]. split; [exact Hl|].
        split; [apply (holds_keep (z_mem s)); [exact Hs|]; intros x Hx; apply vstore_out; lia|]. split; [lia|]. split.
        * intros j Hj. destruct (Z_lt_ge_dec j (16 * z_count s)); [rewrite vstore_out by lia; now apply HM|]. rewrite vstore_in by lia. rewrite Eo by lia. f_equal. lia.
        * apply bits_more; [exact Hc| |exact HB]. intros j Hj. rewrite Eo by exact Hj. f_equal. lia.
    - destruct (forallb (fun j => z_symbol s =? out j) (lanes 16)) eqn:Es.
      + eexists. split; [reflexivity|]. destruct Hst as (segs & m & c & HV & Hc & Hr & Hb' & HF & Hl & Hs & Hsym & HC).
        unfold EInv. cbn [z_in z_rem z_hist z_mem z_copying]. split; [lia|]. split; [lia|]. split; [reflexivity|]. split; [lia|]. split; [exact H1|]. split; [intros x Hx; apply HO; lia|].
        exists segs, m, c. cbn [z_count z_last z_mem z_symbol]. cbn zeta. split; [exact HV|]. split; [exact Hc|]. split; [lia|]. split; [lia|]. split; [exact HF|]. split; [exact Hl|]. split; [exact Hs|]. split; [exact Hsym|].
        intros i Hi. destruct (Z_lt_ge_dec i (16 * b)); [apply HC; lia|]. rewrite forallb_forall in Es. specialize (Es (i - 16 * b) ltac:(apply lanes_in; lia)). rewrite Eo in Es by lia. replace (16 * b + (i - 16 * b)) with i in Es by lia. lia.
      + destruct (close_run b s Ecp HI) as (segs & M' & HV & Hb' & HO' & Hlen & E2 & E3). pose proof (slen _ HV) as Hsl. rewrite E2. set (q := base + len (stream X 0 segs)) in *. destruct (uniform out) eqn:Eu.
        * eexists. split; [reflexivity|].
          assert (HO2 : Outside (b + 1) (put8 M' q 0)) by (intros x Hx; rewrite put8_at; replace (x =? q) with false by lia; apply HO'; lia).
          unfold EInv. cbn [z_in z_rem z_hist z_mem z_copying]. split; [lia|]. split; [lia|]. split; [reflexivity|]. split; [lia|]. split; [exact H1|]. split; [exact HO2|].
          exists segs, Raw, 0. cbn [z_count z_last z_mem z_symbol]. cbn zeta. split; [exact HV|]. split; [lia|]. split; [lia|]. split; [lia|]. split; [intros i Hi; lia|].
          change (copy_bytes Raw E (16 * total segs) 0) with [0]. rewrite len_app. change (len [0]) with 1. split; [unfold q; lia|]. split.
          -- apply holds_app. split; [apply (holds_keep M'); [exact E3|]; intros x Hx; rewrite put8_at; replace (x =? q) with false by lia; reflexivity|]. fold q. cbn [holds]. rewrite put8_at, Z.eqb_refl. auto.
          -- assert (E0 : out 0 = E (16 * (total segs + 0))) by (rewrite Eo by lia; f_equal; lia). split; [exact E0|].
             intros i Hi. rewrite <- (uniform_spec out Eu (i - 16 * b) ltac:(lia)), Eo by lia. f_equal. lia.
        * eexists. split; [reflexivity|].
          unfold EInv. cbn [z_in z_rem z_hist z_mem z_copying]. split; [lia|]. split; [lia|]. split; [reflexivity|]. split; [lia|]. split; [exact H1|]. split; [intros x Hx; rewrite vstore_out by lia; apply HO'; lia|].
          exists segs. cbn [z_count z_last z_mem z_out z_bits]. cbn zeta. split; [exact HV|]. split; [lia|]. split; [lia|]. split; [reflexivity|].
          split; [apply (holds_keep M'); [exact E3|]; intros x Hx; apply vstore_out; lia|]. split; [lia|]. split.
          -- intros j Hj. rewrite vstore_in by lia. rewrite Eo by lia. f_equal. lia.
          -- apply bits_one. intros j Hj. rewrite Eo by exact Hj. f_equal. lia.
  Qed.

  Lemma steps_ok s : EInv 0 s -> exists s', loop (mz_step X) s = Some (Some s') /\ EInv (n / 16) s'.
  Proof.
    intros H0. destruct (loop_inv (mz_step X) (fun s => exists b, EInv b s) z_rem (fun r => exists s', r = Some s' /\ EInv (n / 16) s') s) as (r & E1 & s' & -> & E2).
    - intros s1 (b & HI). pose proof (step_ok b s1 HI) as K. pose proof HI as (Hb & Hbn & _ & Hrem & _). destruct (n - 16 * b <? 16) eqn:Er.
      + rewrite K. exists s1. split; [reflexivity|]. replace (n / 16) with b by lia. exact HI.
      + destruct K as (s' & -> & K). split; [exists (b + 1); exact K|]. destruct K as (_ & ? & _ & K & _). lia.
    - now exists 0.
    - destruct H0 as (_ & _ & _ & -> & _). lia.
    - exists s'. auto.
  Qed.

  Lemma finish_ok s : EInv (n / 16) s -> exists segs m c M', Valid X 0 segs /\ 0 <= c /\ total segs + c = n / 16 /\ Fits X m (total segs) c /\
    mz_finish s = Some (base + len (stream X 0 segs ++ copy_bytes m E (16 * total segs) c ++ [0]), M') /\
    holds M' base (stream X 0 segs ++ copy_bytes m E (16 * total segs) c ++ [0]) /\ forall x, x < base \/ base + 5 + 16 * (n / 16) <= x -> M' x = M1 x.
  Proof.
    intros HI. unfold mz_finish. destruct (z_copying s) eqn:Ecp.
    - destruct (close_copy _ s Ecp HI) as (segs & M' & HV & Hc & Hb' & HF & HO' & E2 & E3). pose proof (slen _ HV) as Hsl. pose proof (len_copy (mode_of (z_bits s)) (16 * total segs) _ Hc) as Hcl.
      pose proof (len_app (stream X 0 segs) (copy_bytes (mode_of (z_bits s)) E (16 * total segs) (z_count s))) as La.
      set (l := stream X 0 segs ++ copy_bytes (mode_of (z_bits s)) E (16 * total segs) (z_count s)) in *. cbn zeta in E2. fold l in E2. rewrite E2.
      eexists segs, (mode_of (z_bits s)), (z_count s), _. split; [exact HV|]. split; [exact Hc|]. split; [lia|]. split; [exact HF|]. rewrite app_assoc. fold l. rewrite (len_app l). change (len [0]) with 1. split; [rewrite Z.add_assoc; reflexivity|]. split.
      + apply holds_app. split; [apply (holds_keep M'); [exact E3|]; intros x Hx; rewrite put8_at; replace (x =? base + len l) with false by lia; reflexivity|]. cbn [holds]. rewrite put8_at, Z.eqb_refl. auto.
      + intros x Hx. rewrite put8_at. replace (x =? base + len l) with false by lia. apply HO'. lia.
    - destruct (close_run _ s Ecp HI) as (segs & M' & HV & Hb' & HO' & Hlen & E2 & E3). pose proof (slen _ HV) as Hsl. rewrite E2.
      eexists segs, Raw, 0, _. split; [exact HV|]. split; [lia|]. split; [lia|]. split; [intros i Hi; lia|]. change (copy_bytes Raw E (16 * total segs) 0) with [0]. rewrite len_app. change (len ([0] ++ [0])) with 2. split; [rewrite Z.add_assoc; reflexivity|]. split.
      + apply holds_app. split; [apply (holds_keep M'); [exact E3|]; intros x Hx; rewrite !put8_at; replace (x =? base + len (stream X 0 segs) + 1) with false by lia; replace (x =? base + len (stream X 0 segs)) with false by lia; reflexivity|].
        cbn [app holds]. rewrite !put8_at, !Z.eqb_refl. replace (base + len (stream X 0 segs) =? base + len (stream X 0 segs) + 1) with false by lia. auto.
      + intros x Hx. rewrite !put8_at. replace (x =? base + len (stream X 0 segs) + 1) with false by lia. replace (x =? base + len (stream X 0 segs)) with false by lia. apply HO'. lia.
  Qed.

  Lemma last_ok H a : 0 <= a -> Hist 16 X a H -> forall t q M, 16 * a + Z.of_nat t <= n -> Z.of_nat t <= 16 ->
    exists M', fold_left (mz_last X H) (lanes (Z.of_nat t)) (16 * a, q, M) = (16 * a + Z.of_nat t, q + Z.of_nat t, M') /\
      (forall i, 0 <= i < Z.of_nat t -> M' (q + i) = E (16 * a + i)) /\ forall x, x < q \/ q + Z.of_nat t <= x -> M' x = M x.
  Proof.
    intros Ha HH t q M. induction t as [|t IH]; intros Hle Ht.
    - exists M. rewrite !Z.add_0_r. split; [reflexivity|]. split; [lia|reflexivity].
    - destruct IH as (M2 & E1 & A1 & A2); [lia|lia|]. rewrite Nat2Z.inj_succ, <- Z.add_1_r, lanes_S, fold_left_app by lia. rewrite E1. cbn [fold_left mz_last]. set (j := Z.of_nat t) in *.
      assert (HT : TabOk (tab 16 X a j)) by (apply (tabs X n); [intros; apply HX|lia|lia|lia]). pose proof (HX (16 * a + j)) as Hxb. destruct (rank_in _ _ HT Hxb) as [K1 K2].
      pose proof (cod_at 16 X a j ltac:(lia) Ha) as Hcod. 
      assert (Hf : find_row 256 0 (fun d => H d j =? X (16 * a + j)) = Some (E (16 * a + j))).
      { rewrite Hcod. apply find_row_ok.
        - unfold is_byte in K1. lia.
        - intros k Hk. unfold is_byte in K1. apply Z.eqb_neq. rewrite HH by (unfold is_byte; lia). intros Ek. pose proof (rank_nth k _ HT ltac:(unfold is_byte; lia)) as R. rewrite Ek in R. lia.
        - rewrite HH by (try exact K1; lia). rewrite K2. apply Z.eqb_refl. }
      rewrite Hf. pose proof (Eb (16 * a + j) ltac:(lia)) as HEb. unfold is_byte in HEb. rewrite w8_id by exact HEb.
      exists (put8 M2 (q + j) (E (16 * a + j))). split; [repeat first [lia | reflexivity | f_equal]|]. split.
      + intros i Hi. rewrite put8_at. destruct (q + i =? q + j) eqn:Ei; [f_equal; lia|]. apply A1. lia.
      + intros x Hx. rewrite put8_at. replace (x =? q + j) with false by lia. apply A2. lia.
  Qed.
End Enc.

Theorem mz_run_ok undef X n M pout : byte_mem X -> 1 <= n <= large_in -> exists segs m c M', Valid X 0 segs /\ 0 <= c /\ total segs + c = n / 16 /\ Fits X m (total segs) c /\
  let b := mz_body X segs m c (n - 16 * (total segs + c)) in
  mz_run undef X n M pout = Some (8 + len b, M') /\ holds M' pout (le32 n ++ le32 (8 + len b) ++ b) /\ 8 + len b <= n + 13 /\ forall x, x < pout \/ pout + n + 13 <= x -> M' x = M x.
Proof.
  intros HX Hn. unfold large_in in Hn. unfold mz_run. set (M1 := put32 M pout n). set (base := pout + 8).
  destruct (steps_ok X n HX Hn M1 base (mkMz n 0 (base + 4) M1 hist0 0 0 true undef base)) as (s & E1 & HI).
  { unfold EInv. cbn [z_in z_rem z_hist z_mem z_copying]. split; [lia|]. split; [lia|]. split; [lia|]. split; [lia|]. split; [intros k j Hk Hj; unfold hist0; now rewrite tab_0|]. split; [intros x Hx; reflexivity|].
    exists []. cbn [z_count z_last z_mem z_out z_bits total stream Valid]. cbn zeta. change (len (@nil Z)) with 0. split; [exact I|]. split; [lia|]. split; [lia|]. split; [lia|]. split; [exact I|]. split; [lia|]. split; [intros; lia|apply bits_nil]. }
  cbn zeta. rewrite E1. destruct (finish_ok X n HX Hn M1 base s HI) as (segs & m & c & M2 & HV & Hc & Ht & HF & E2 & Hh & HO). rewrite E2.
  destruct HI as (_ & _ & Hin & Hrem & HH & _). rewrite Hin, Hrem. pose proof (tot0 X n HX segs HV) as Ht0. pose proof (slen X n HX segs HV) as Hsl. pose proof (len_copy X m (16 * total segs) c Hc) as Hcl.
  set (l := stream X 0 segs ++ copy_bytes m (cod 16 X) (16 * total segs) c ++ [0]) in *.
  assert (Ll : 1 <= len l <= 5 + 16 * (n / 16)) by (unfold l; rewrite !len_app; change (len [0]) with 1; lia).
  destruct (last_ok X n HX (z_hist s) (n / 16) ltac:(lia) HH (Z.to_nat (n - 16 * (n / 16))) (base + len l) M2 ltac:(lia) ltac:(lia)) as (M3 & E3 & A1 & A2). rewrite Z2Nat.id in * by lia. rewrite E3.
  assert (Lb : len (mz_body X segs m c (n - 16 * (total segs + c))) = len l + (n - 16 * (n / 16))).
  { unfold mz_body. rewrite !app_assoc, len_app, <- !app_assoc. fold l. rewrite Ht, len_slice by lia. reflexivity. }
  assert (Hr : w32 (base + len l + (n - 16 * (n / 16)) - pout) = 8 + len (mz_body X segs m c (n - 16 * (total segs + c)))) by (unfold base; unfold w32; rewrite Z.mod_small by lia; lia).
  rewrite Hr. exists segs, m, c. eexists. split; [exact HV|]. split; [exact Hc|]. split; [exact Ht|]. split; [exact HF|]. split; [reflexivity|]. split; [|split].
  - apply holds_app. rewrite len_le32. split.
    + apply (holds_keep M1); [apply holds_store|]. rewrite len_le32. intros a Ha. unfold put32 at 1. rewrite store_out by lia. rewrite A2 by lia. apply HO. lia.
    + apply holds_app. rewrite len_le32. split; [apply holds_store|]. replace (pout + 4 + 4) with base by lia.
      assert (HB : holds M3 base (mz_body X segs m c (n - 16 * (total segs + c)))).
      { unfold mz_body. rewrite !app_assoc. apply holds_app. rewrite <- !app_assoc. fold l. split; [apply (holds_keep M2); [exact Hh|]; intros a Ha; apply A2; lia|]. rewrite Ht. apply holds_intro. intros k Hk. rewrite len_slice in Hk by lia. rewrite nth_slice by lia. now apply A1. }
      apply (holds_keep M3); [exact HB|]. intros a Ha. unfold put32. apply store_out. rewrite len_le32. lia.
  - lia.
  - intros x Hx. unfold put32. rewrite store_out by (rewrite len_le32; lia). rewrite A2 by lia. rewrite HO by lia. unfold M1, put32. apply store_out. rewrite len_le32. lia.
Qed.
