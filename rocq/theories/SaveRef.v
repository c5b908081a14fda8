(** The statements of C60 put together; repetitions that the single symbol codecs do not save. *)
From Verif Require Import Base Simd Spec ExtModel PktModel Rle8Model Rle8Proof Rle8Single MbModel LutModel SlModel SlProof ShModel ShProof ShEnc SaveSpec SaveFam SaveFam8 SaveX128 SaveGr SaveOne.

Lemma ext_saves_all c v : List.In c xcodecs -> Saves (xS c) (5 * xS c + 12) (xcompress c v false false) (fun n => n + 2 * xS c + 18).
Proof. intros Hc. destruct (Z.eq_dec (xS c) 16) as [E|E]; [now apply ext_saves_128|now apply ext_saves]. Qed.

(** 200 zeros and 200 ones. *)
Definition two_runs : mem := fun i => if i <? 200 then 0 else 1.
Lemma two_runs_bytes : byte_mem two_runs.
Proof. intros i. unfold two_runs, is_byte. destruct (i <? 200); lia. Qed.
Lemma two_runs_reps : Repetitions 1 two_runs 0 400 [(0, 200); (200, 400)].
Proof.
  cbn. unfold Repeats, two_runs. repeat split; try lia; intros x H1 H2.
  - replace (x + 1 <? 200) with true by lia. replace (x <? 200) with true by lia. reflexivity.
  - replace (x + 1 <? 200) with false by lia. replace (x <? 200) with false by lia. reflexivity.
Qed.

Definition clen (r : cres) : Z := match r with COk out => len out | _ => 0 end.
Lemma not_saves (comp : mem -> Z -> Z -> cres) size : 200 < clen (comp two_runs 400 10000) -> size 400 <= 500 -> ~ Saves 1 17 comp size.
Proof.
  intros H1 H2 K. destruct (comp two_runs 400 10000) as [|out|] eqn:E; cbn [clen] in H1; try lia.
  pose proof (K two_runs 400 10000 out _ two_runs_bytes ltac:(unfold max_in; lia) E two_runs_reps) as L. cbn [saving] in L. lia.
Qed.

Lemma s_not_saves pk : ~ Saves 1 17 (s_compress pk false false) (sbound pk).
Proof. apply not_saves; destruct pk; vm_compute; congruence. Qed.
Lemma sh_one_not_saves c v : List.In c shcodecs -> shOne c = true -> ~ Saves 1 17 (sh_compress c v false false) shsize.
Proof.
  intros Hc Ho. assert (c = mkSh 1 false 0 true).
  { cbn in Hc. repeat (destruct Hc as [Hc|Hc]; [subst c; try discriminate; reflexivity|]). destruct Hc. }
  subst c. apply not_saves; destruct v; vm_compute; congruence.
Qed.
