(** Which codecs the tool runs: CodecMatchesArgs against the names. *)
From Coq Require Import String Ascii.
From Verif Require Import Base Spec PlatModel ToolTable ToolArgs ToolSpec.
Open Scope string_scope.
Open Scope Z_scope.

Lemma all_codecs_complete c : List.In c all_codecs.
Proof. apply (nth_error_In _ (Z.to_nat (codec_value c))). destruct c; reflexivity. Qed.

Lemma forall_codec (f : codec_t -> bool) : forallb f all_codecs = true -> forall c, f c = true.
Proof. intros H c. rewrite forallb_forall in H. apply H, all_codecs_complete. Qed.

Lemma codec_values : map codec_value all_codecs = map Z.of_nat (seq 0 121).
Proof. vm_compute. reflexivity. Qed.

Lemma strings_nodup (l : list string) : (fix go l := match l with [] => true | x :: r => negb (existsb (String.eqb x) r) && go r end) l = true -> NoDup l.
Proof.
  induction l as [|x r IH]; intros H; [constructor|]. apply andb_true_iff in H. destruct H as [H1 H2]. constructor; [|now apply IH].
  intros K. apply negb_true_iff in H1. assert (existsb (String.eqb x) r = true); [|congruence].
  apply existsb_exists. exists x. split; [exact K|]. apply String.eqb_refl.
Qed.
Lemma names_nodup : NoDup (map codec_name all_codecs).
Proof. apply strings_nodup. vm_compute. reflexivity. Qed.
Lemma codecs_nodup : NoDup all_codecs.
Proof. exact (NoDup_map_inv _ _ names_nodup). Qed.

(** *** The blocks *)
Definition opt_eqb (a b : option Z) : bool := match a, b with Some x, Some y => x =? y | None, None => true | _, _ => false end.
Lemma opt_eqb_eq a b : opt_eqb a b = true -> a = b.
Proof. destruct a, b; cbn; try discriminate; auto. intros H. apply Z.eqb_eq in H. congruence. Qed.

Lemma alignment_fits a c : match_alignment a c = true <-> fits (codec_name c) (OByte (a_byte a)).
Proof.
  assert (H : match_alignment a c = has (if a_byte a then "(Byte)" else "(Symbol)") (codec_name c)).
  { unfold match_alignment. generalize (a_byte a). intros b. apply Bool.eqb_prop.
    revert c. apply forall_codec. destruct b; vm_compute; reflexivity. }
  rewrite H. reflexivity.
Qed.
Lemma single_fits a c : match_single a c = true <-> fits (codec_name c) (OSingle (a_single a)).
Proof.
  assert (H : match_single a c = match single_of (codec_name c) with Some x => Bool.eqb (a_single a) x | None => false end).
  { unfold match_single. generalize (a_single a). intros b. apply Bool.eqb_prop.
    revert c. apply forall_codec. destruct b; vm_compute; reflexivity. }
  rewrite H. cbn [fits]. destruct (single_of (codec_name c)); [rewrite Bool.eqb_true_iff|]; split; congruence.
Qed.
Lemma packed_fits a c : match_packed a c = true <-> fits (codec_name c) (OPacked (a_packed a)).
Proof.
  assert (H : match_packed a c = Bool.eqb (a_packed a) (has "Packed" (codec_name c))).
  { unfold match_packed. generalize (a_packed a). intros b. apply Bool.eqb_prop.
    revert c. apply forall_codec. destruct b; vm_compute; reflexivity. }
  rewrite H, Bool.eqb_true_iff. cbn [fits]. split; congruence.
Qed.
Lemma short_fits a c : match_short a c = true <-> fits (codec_name c) (OShort (a_short a)).
Proof.
  assert (H : match_short a c = Bool.eqb (a_short a) (has "Short" (codec_name c))).
  { unfold match_short. generalize (a_short a). intros b. apply Bool.eqb_prop.
    revert c. apply forall_codec. destruct b; vm_compute; reflexivity. }
  rewrite H, Bool.eqb_true_iff. cbn [fits]. split; congruence.
Qed.
Lemma greedy_fits a c : match_greedy a c = true <-> fits (codec_name c) (OGreedy (a_greedy a)).
Proof.
  assert (H : match_greedy a c = Bool.eqb (a_greedy a) (has "Grdy" (codec_name c))).
  { unfold match_greedy. generalize (a_greedy a). intros b. apply Bool.eqb_prop.
    revert c. apply forall_codec. destruct b; vm_compute; reflexivity. }
  rewrite H, Bool.eqb_true_iff. cbn [fits]. split; congruence.
Qed.

Lemma lut_fits a c : match_lut a c = true <-> fits (codec_name c) (OLut (a_lut a)).
Proof.
  assert (H : match_lut a c = (a_lut a =? lut_of (codec_name c))) by (destruct a, c; reflexivity).
  rewrite H, Z.eqb_eq. cbn [fits]. split; congruence.
Qed.
Lemma bits_fits a c : match_bits a c = true <-> fits (codec_name c) (OSize (a_bits a)).
Proof.
  assert (H : match_bits a c = match bits_of (codec_name c) with Some k => a_bits a =? k | None => false end) by (destruct a, c; reflexivity).
  rewrite H. cbn [fits]. destruct (bits_of (codec_name c)); [rewrite Z.eqb_eq|]; split; congruence.
Qed.

Definition modes (a : args) (m : mode) : bool :=
  match m with MExtreme => a_extreme a | MLowEntropy => a_lowEntropy a | MMmtf => a_mmtf a | MSh => a_sh a | MRleMmtf => a_rleMmtf a end.
Lemma mode_fits a c : match_mode a c = true <-> forall m, modes a m = true -> fits (codec_name c) (OMode m).
Proof.
  assert (H : match_mode a c =
    match mode_of (codec_name c) with
    | Some MExtreme => negb (a_lowEntropy a) && negb (a_mmtf a) && negb (a_sh a) && negb (a_rleMmtf a)
    | Some MLowEntropy => negb (a_extreme a) && negb (a_mmtf a) && negb (a_sh a) && negb (a_rleMmtf a)
    | Some MMmtf => negb (a_extreme a) && negb (a_lowEntropy a) && negb (a_sh a) && negb (a_rleMmtf a)
    | Some MSh => negb (a_extreme a) && negb (a_lowEntropy a) && negb (a_mmtf a) && negb (a_rleMmtf a)
    | Some MRleMmtf => negb (a_extreme a) && negb (a_lowEntropy a) && negb (a_mmtf a) && negb (a_sh a)
    | None => negb (a_extreme a) && negb (a_lowEntropy a) && negb (a_mmtf a) && negb (a_sh a) && negb (a_rleMmtf a)
    end).
  { unfold match_mode. generalize (a_extreme a) (a_lowEntropy a) (a_mmtf a) (a_sh a) (a_rleMmtf a). intros e l m s r.
    apply Bool.eqb_prop. revert c. apply forall_codec. destruct e, l, m, s, r; vm_compute; reflexivity. }
  rewrite H. clear H. unfold fits, modes. destruct (mode_of (codec_name c)) as [[]|].
  all: rewrite ?andb_true_iff, ?negb_true_iff; split.
  all: try (intros K m Hm; destruct m; [..]; try reflexivity; exfalso; intuition congruence).
  all: intros K; pose proof (K MExtreme) as K1; pose proof (K MLowEntropy) as K2; pose proof (K MMmtf) as K3; pose proof (K MSh) as K4; pose proof (K MRleMmtf) as K5.
  all: clear K; cbn in K1, K2, K3, K4, K5.
  all: repeat split; match goal with |- ?x = false => destruct x eqn:E; [|reflexivity] end; intuition discriminate.
Qed.

(** What CodecMatchesArgs tells. *)
Record Asked (a : args) (name : string) : Prop := mkAsked
  { ask_mode : a_hasMode a = true -> forall m, modes a m = true -> fits name (OMode m);
    ask_alignment : a_hasAlignment a = true -> fits name (OByte (a_byte a));
    ask_single : a_hasSingle a = true -> fits name (OSingle (a_single a));
    ask_packed : a_hasPacked a = true -> fits name (OPacked (a_packed a));
    ask_short : a_hasShort a = true -> fits name (OShort (a_short a));
    ask_greedy : a_hasGreedy a = true -> fits name (OGreedy (a_greedy a));
    ask_lut : a_hasLut a = true -> fits name (OLut (a_lut a));
    ask_bits : a_hasBits a = true -> fits name (OSize (a_bits a)) }.

Lemma block (h : bool) (b : bool) (P : Prop) : (b = true <-> P) -> (h && negb b = false <-> (h = true -> P)).
Proof. destruct h, b; cbn; intuition congruence. Qed.

Lemma if_chain (x : bool) (r : bool) : (if x then false else r) = true <-> x = false /\ r = true.
Proof. destruct x; intuition congruence. Qed.

Lemma matches_asked a c : codec_matches_args a c = true <-> Asked a (codec_name c).
Proof.
  unfold codec_matches_args. rewrite !if_chain.
  rewrite (block _ _ _ (mode_fits a c)), (block _ _ _ (alignment_fits a c)), (block _ _ _ (single_fits a c)), (block _ _ _ (packed_fits a c)),
    (block _ _ _ (short_fits a c)), (block _ _ _ (greedy_fits a c)), (block _ _ _ (lut_fits a c)), (block _ _ _ (bits_fits a c)).
  split; [intros (H1 & H2 & H3 & H4 & H5 & H6 & H7 & H8 & _); constructor; assumption|intros []; repeat (split; [assumption|]); reflexivity].
Qed.

Lemma selected_asked a c : List.In c (selected a) <-> Asked a (codec_name c).
Proof.
  unfold selected. rewrite filter_In. rewrite <- matches_asked. split.
  - intros [_ H]. destruct (codec_matches_args a c) eqn:E; [reflexivity|]. destruct (match_benchmarks a) eqn:F; [discriminate|].
    rewrite <- E. clear E H. revert F. unfold match_benchmarks, codec_matches_args.
    destruct (a_hasMode a), (a_hasAlignment a), (a_hasSingle a), (a_hasPacked a), (a_hasShort a), (a_hasGreedy a), (a_hasLut a), (a_hasBits a); cbn; congruence.
  - intros H. split; [apply all_codecs_complete|]. rewrite H. now rewrite andb_false_r.
Qed.

(** *** One option more *)
Definition Tidy (a : args) : Prop := a_hasMode a = false -> forall m, modes a m = false.

Ltac asks :=
  split;
  [ intros [K1 K2 K3 K4 K5 K6 K7 K8]; split;
    [constructor; first [exact K1|exact K2|exact K3|exact K4|exact K5|exact K6|exact K7|exact K8|intros; congruence]
    |first [exact (K2 eq_refl)|exact (K3 eq_refl)|exact (K4 eq_refl)|exact (K5 eq_refl)|exact (K6 eq_refl)|exact (K7 eq_refl)|exact (K8 eq_refl)]]
  | intros [[K1 K2 K3 K4 K5 K6 K7 K8] Kf]; constructor;
    first [exact K1|exact K2|exact K3|exact K4|exact K5|exact K6|exact K7|exact K8|exact (fun _ => Kf)] ].

Lemma asked_single a b name : a_hasSingle a = false -> Asked (set_single a b) name <-> Asked a name /\ fits name (OSingle b).
Proof. intros H. asks. Qed.
Lemma asked_short a b name : a_hasShort a = false -> Asked (set_short a b) name <-> Asked a name /\ fits name (OShort b).
Proof. intros H. asks. Qed.
Lemma asked_short_again a name : a_hasShort a = true -> a_short a = true -> Asked (set_short a true) name <-> Asked a name /\ fits name (OShort true).
Proof. intros H H'. destruct a; cbn in H, H'; subst; asks. Qed.
Lemma asked_greedy a b name : a_hasGreedy a = false -> Asked (set_greedy a b) name <-> Asked a name /\ fits name (OGreedy b).
Proof. intros H. asks. Qed.
Lemma asked_alignment a b name : a_hasAlignment a = false -> Asked (set_alignment a b) name <-> Asked a name /\ fits name (OByte b).
Proof. intros H. asks. Qed.
Lemma asked_packed a b name : a_hasPacked a = false -> Asked (set_packed a b) name <-> Asked a name /\ fits name (OPacked b).
Proof. intros H. asks. Qed.
Lemma asked_lut a k name : a_hasLut a = false -> Asked (set_lut a k) name <-> Asked a name /\ fits name (OLut k).
Proof. intros H. asks. Qed.
Lemma asked_bits a k name : a_hasBits a = false -> Asked (set_bits a k) name <-> Asked a name /\ fits name (OSize k).
Proof. intros H. asks. Qed.

Definition mode_eqb (a b : mode) : bool :=
  match a, b with MExtreme, MExtreme | MLowEntropy, MLowEntropy | MMmtf, MMmtf | MSh, MSh | MRleMmtf, MRleMmtf => true | _, _ => false end.
Definition add_mode (a : args) (m : mode) : args :=
  set_mode a (mode_eqb m MExtreme) (mode_eqb m MLowEntropy) (mode_eqb m MSh) (mode_eqb m MRleMmtf) (mode_eqb m MMmtf).
Lemma modes_add a m m' : modes (add_mode a m) m' = modes a m' || mode_eqb m m'.
Proof. destruct m, m'; reflexivity. Qed.
Lemma asked_mode a m name : Tidy a -> Asked (add_mode a m) name <-> Asked a name /\ fits name (OMode m).
Proof.
  intros T. split.
  - intros [K1 K2 K3 K4 K5 K6 K7 K8]. split; [constructor; auto|].
    + intros H m' Hm'. apply K1; [reflexivity|]. rewrite modes_add, Hm'. reflexivity.
    + apply K1; [reflexivity|]. rewrite modes_add. destruct m; cbn; now rewrite orb_true_r.
  - intros [[K1 K2 K3 K4 K5 K6 K7 K8] Hf]. constructor; auto. intros _ m' Hm'. rewrite modes_add in Hm'. apply orb_true_iff in Hm'.
    destruct Hm' as [Hm'|Hm'].
    + destruct (a_hasMode a) eqn:E; [auto|]. rewrite (T E) in Hm'. discriminate.
    + destruct m, m'; try discriminate; exact Hf.
Qed.
