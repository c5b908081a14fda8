(** The command line: options in their canonical spelling. *)
From Coq Require Import String Ascii.
From Verif Require Import Base Spec PlatModel ToolTable ToolArgs ToolSpec ToolSel.
Open Scope string_scope.
Open Scope Z_scope.

(** *** Numbers *)
Lemma digit_char d : 0 <= d <= 9 -> exists c, digit d = String c "" /\ Z.of_nat (nat_of_ascii c) = 48 + d.
Proof.
  intros H. unfold digit. eexists. split; [reflexivity|]. rewrite nat_ascii_embedding by lia. lia.
Qed.
Lemma digits_app d r v : 0 <= d <= 9 -> digits (digit d ++ r) v = digits r (10 * v + d).
Proof.
  intros H. destruct (digit_char d H) as (c & -> & Hc). cbn [append digits]. rewrite Hc. replace (48 + d - 48) with d by lia.
  replace ((0 <=? d) && (d <=? 9)) with true by lia. reflexivity.
Qed.

Lemma decimal_head f : forall k acc, 0 <= k -> exists d r, 0 <= d <= 9 /\ decimal_from (S f) k acc = digit d ++ r.
Proof.
  induction f as [|f IH]; intros k acc Hk; cbn [decimal_from].
  - pose proof (Z.mod_pos_bound k 10 ltac:(lia)). exists (k mod 10), acc. split; [lia|]. destruct (k <? 10); reflexivity.
  - destruct (k <? 10).
    + pose proof (Z.mod_pos_bound k 10 ltac:(lia)). exists (k mod 10), acc. split; [lia|reflexivity].
    + exact (IH (k / 10) (digit (k mod 10) ++ acc) ltac:(apply Z.div_pos; lia)).
Qed.

Lemma digits_decimal f : forall k acc v, 0 <= k < 10 ^ Z.of_nat f -> (0 < f)%nat ->
  exists e, digits (decimal_from f k acc) v = digits acc (v * e + k).
Proof.
  induction f as [|f IH]; intros k acc v Hk Hf; [lia|]. cbn [decimal_from]. pose proof (Z.mod_pos_bound k 10 ltac:(lia)) as Hm.
  pose proof (Z.div_mod k 10 ltac:(lia)) as Hd.
  destruct (k <? 10) eqn:E.
  - exists 10. rewrite digits_app by lia. f_equal. rewrite Z.mod_small by lia. lia.
  - destruct f as [|f]; [cbn in Hk; lia|].
    destruct (IH (k / 10) (digit (k mod 10) ++ acc) v) as (e & He); [|lia|].
    + split; [apply Z.div_pos; lia|]. apply Z.div_lt_upper_bound; [lia|]. rewrite Nat2Z.inj_succ, Z.pow_succ_r in Hk by lia. lia.
    + exists (e * 10). rewrite He, digits_app by lia. f_equal. rewrite Z.mul_add_distr_l. lia.
Qed.

Lemma strtol_decimal k : 0 <= k < 2 ^ 31 -> strtol (decimal k) = k.
Proof.
  intros Hk. unfold strtol, decimal. destruct (decimal_head 19 k "" ltac:(lia)) as (d & r & Hd & E).
  destruct (digits_decimal 20 k "" 0) as (e & He); [split; [lia|]; change (10 ^ Z.of_nat 20) with 100000000000000000000; lia|lia|].
  destruct (digit_char d Hd) as (c & Ec & Hc).
  assert (Es : decimal_from 20 k "" = String c r) by (rewrite E, Ec; reflexivity). rewrite Es in *.
  cbn [skip_blanks]. unfold is_blank. rewrite Hc. replace ((48 + d =? 32) || (9 <=? 48 + d) && (48 + d <=? 13)) with false by lia.
  replace ((c =? "-")%char) with false.
  2:{ symmetry. apply Ascii.eqb_neq. intros ->. vm_compute (Z.of_nat (nat_of_ascii "-")) in Hc. lia. }
  replace ((c =? "+")%char) with false.
  2:{ symmetry. apply Ascii.eqb_neq. intros ->. vm_compute (Z.of_nat (nat_of_ascii "+")) in Hc. lia. }
  rewrite He. cbn [digits]. lia.
Qed.
Lemma atoi_decimal k : 0 <= k < 2 ^ 31 -> atoi (decimal k) = k.
Proof. intros Hk. unfold atoi. rewrite strtol_decimal by exact Hk. unfold to_int. rewrite Z.mod_small by lia. replace (k <? 2 ^ 31) with true by lia. reflexivity. Qed.

Lemma size_decimal k : offered (OSize k) -> size_value (decimal k) = Some k.
Proof. unfold offered. cbn [List.In]. intros H. repeat (destruct H as [<-|H]; [vm_compute; reflexivity|]). contradiction. Qed.
Lemma lut_decimal k : offered (OLut k) -> lut_value (decimal k) = Some k.
Proof. unfold offered. cbn [List.In]. intros H. repeat (destruct H as [<-|H]; [vm_compute; reflexivity|]). contradiction. Qed.

(** *** One option *)
Definition with_runs (s : settings) (r : Z) : settings :=
  if r =? 0 then mkSettings (s_args s) 1 (s_minSeconds s) (s_analyze s) true (s_test s) (s_fuzz s) (s_fuzzIterative s) (s_stdDev s) (s_flags s)
  else mkSettings (s_args s) r (s_minSeconds s) (s_analyze s) (s_noDelays s) (s_test s) (s_fuzz s) (s_fuzzIterative s) (s_stdDev s) (s_flags s).
Definition with_time (s : settings) (k : Z) : settings :=
  mkSettings (s_args s) (s_runs s) k (s_analyze s) (s_noDelays s) (s_test s) (s_fuzz s) (s_fuzzIterative s) (s_stdDev s) (s_flags s).
Definition with_flags (s : settings) (st : flags) : settings :=
  mkSettings (s_args s) (s_runs s) (s_minSeconds s) (s_analyze s) (s_noDelays s) (s_test s) (s_fuzz s) (s_fuzzIterative s) (s_stdDev s) st.
Definition once (h : bool) (s : settings) (a : args) : option settings := if h then None else Some (set_args s a).

Definition apply (m : machine) (o : choice) (s : settings) : option settings :=
  let a := s_args s in
  match o with
  | OTest => Some (mkSettings a (s_runs s) (s_minSeconds s) (s_analyze s) true true (s_fuzz s) (s_fuzzIterative s) (s_stdDev s) (s_flags s))
  | OStdDev => Some (mkSettings a (s_runs s) (s_minSeconds s) (s_analyze s) (s_noDelays s) (s_test s) (s_fuzz s) (s_fuzzIterative s) true (s_flags s))
  | OAnalyze => Some (mkSettings a (s_runs s) (s_minSeconds s) true (s_noDelays s) (s_test s) (s_fuzz s) (s_fuzzIterative s) (s_stdDev s) (s_flags s))
  | OFuzz b => Some (mkSettings a (s_runs s) (s_minSeconds s) (s_analyze s) (s_noDelays s) (s_test s) true b (s_stdDev s) (s_flags s))
  | OMaxSimd x => option_map (with_flags s) (limit_simd simd_steps x (detect m (s_flags s)))
  | ORuns k => let r := atoi (decimal k) in if r <? 0 then None else Some (with_runs s r)
  | OMinTime k => let r := atoi (decimal k) in if r <? 0 then None else Some (with_time s r)
  | OMode md => Some (set_args s (add_mode a md))
  | OLowEntropyShort => Some (set_args s (set_short (add_mode a MLowEntropy) true))
  | OSingle b => once (a_hasSingle a) s (set_single a b)
  | OShort b => once (a_hasShort a) s (set_short a b)
  | OGreedy b => once (a_hasGreedy a) s (set_greedy a b)
  | OByte b => once (a_hasAlignment a) s (set_alignment a b)
  | OPacked b => once (a_hasPacked a) s (set_packed a b)
  | OSize k => match size_value (decimal k) with Some v => once (a_hasBits a) s (set_bits a v) | None => None end
  | OLut k => match lut_value (decimal k) with Some v => once (a_hasLut a) s (set_lut a v) | None => None end
  end.

(** An option without a value, an option with one. *)
Lemma parse_flag m o rest s r :
  (forall x, parse_option m o x s = match r with Some s' => Some (s', false) | None => None end) ->
  parse m (o :: rest) s = match r with Some s' => parse m rest s' | None => None end.
Proof. intros H. destruct rest as [|x rest]; cbn [parse]; rewrite H; destruct r; reflexivity. Qed.
Lemma parse_value m o x rest s r :
  parse_option m o (Some x) s = match r with Some s' => Some (s', true) | None => None end ->
  parse m (o :: x :: rest) s = match r with Some s' => parse m rest s' | None => None end.
Proof. intros H. cbn [parse]. rewrite H. destruct r; reflexivity. Qed.

Lemma parse_choice m o rest s :
  parse m (spell o ++ rest) s = match apply m o s with Some s' => parse m rest s' | None => None end.
Proof.
  destruct o; cbn [spell].
  all: try (destruct iterative); try (destruct b); try (destruct m0).
  all: cbn [app].
  all: match goal with
       | |- parse _ (_ :: _ :: _) _ = match ?r with _ => _ end => apply (parse_value _ _ _ _ _ r)
       | |- parse _ (_ :: _) _ = match ?r with _ => _ end => apply (parse_flag _ _ _ _ r); intros ?
       end.
  all: unfold parse_option; cbn [String.eqb Ascii.eqb Bool.eqb]; cbn [apply]; unfold once, with_runs, option_map.
  all: try reflexivity.
  all: try (destruct (limit_simd simd_steps _ _); reflexivity).
  all: try (lazymatch goal with |- context [size_value _] => fail | |- context [lut_value _] => fail | _ => idtac end;
            match goal with |- context [if ?b then None else _] => destruct b end; try (match goal with |- context [if ?b then Some _ else _] => destruct b end); reflexivity).
  all: match goal with |- context [size_value ?x] => destruct (size_value x) | |- context [lut_value ?x] => destruct (lut_value x) end.
  all: match goal with |- context [if ?b then None else _] => destruct b end; reflexivity.
Qed.

(** All of them. *)
Fixpoint apply_all (m : machine) (l : list choice) (s : settings) : option settings :=
  match l with [] => Some s | o :: r => match apply m o s with Some s' => apply_all m r s' | None => None end end.
Lemma parse_spelled m l : forall rest s,
  parse m (spelled l ++ rest) s = match apply_all m l s with Some s' => parse m rest s' | None => None end.
Proof.
  induction l as [|o l IH]; intros rest s; [reflexivity|]. unfold spelled in *. cbn [map List.concat apply_all].
  rewrite <- app_assoc, parse_choice. destruct (apply m o s); [apply IH|reflexivity].
Qed.
Lemma parse_exact m l s : parse m (spelled l) s = apply_all m l s.
Proof. rewrite <- (app_nil_r (spelled l)), parse_spelled. destruct (apply_all m l s); reflexivity. Qed.

Lemma command_spelled m file l :
  command_line m (file :: spelled l) =
  match apply_all m l (initial all_off) with Some s => if valid_args (s_args s) then Some (file, s) else None | None => None end.
Proof. unfold command_line. rewrite parse_exact. reflexivity. Qed.
