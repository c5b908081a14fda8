(** The size of the streams of rle8_mmtf128_compress.  [undef] is the content of the register of _mm_undefined_si128. *)
From Verif Require Import Base Simd Spec MtfModel MtfSpec MtfProof MzModel MzThm CutSpec CutThm SaveSpec CutSave.

(** C67: the first stretch must also have the bits of the undefined register; missing: that it need not. *)
Theorem C67_rle8_mmtf128_size_partial : forall undef M pout In n cap out, byte_mem In -> 1 <= n <= max_in -> (forall j, 0 <= j < 16 -> is_byte (undef j)) ->
  mz_compress undef M pout false false In n cap = COk out ->
  exists l w c, Cut (fun i => rank (In i) (mtf_table (lane_hist 16 In i))) (fun w => forall j, 0 <= j < 16 -> undef j < 2 ^ w) (n / 16) 0 l w c /\
    len out = 8 + cutSize l w c + 1 + n mod 16.
Proof. exact mz_size. Qed.
Print Assumptions C67_rle8_mmtf128_size_partial.
Theorem C67_rle8_mmtf128_size_zero : forall undef M pout In n cap out, byte_mem In -> 1 <= n <= max_in -> (forall j, 0 <= j < 16 -> undef j = 0) ->
  mz_compress undef M pout false false In n cap = COk out ->
  exists l w c, Cut (fun i => rank (In i) (mtf_table (lane_hist 16 In i))) (fun _ => True) (n / 16) 0 l w c /\
    len out = 8 + cutSize l w c + 1 + n mod 16.
Proof. exact mz_size_0. Qed.
Print Assumptions C67_rle8_mmtf128_size_zero.
(** There is only one way to cut, hence only one such size. *)
Theorem C67_one_cut : forall E nb l U a w c l2 w2 c2, Cut E U nb a l w c -> Cut E U nb a l2 w2 c2 -> l = l2 /\ w = w2 /\ c = c2.
Proof. exact cut_one. Qed.
Print Assumptions C67_one_cut.

Definition one1 : mem := fun x => if x =? 1 then 1 else 0.
Example one1_byte : byte_mem one1.
Proof. intros x. unfold one1, is_byte. destruct (x =? 1); lia. Qed.
Lemma one1_cut : Cut (fun i => rank (one1 i) (mtf_table (lane_hist 16 one1 i))) (fun _ => True) (16 / 16) 0 [] 2 1.
Proof.
  assert (K : forallb (fun i => rank (one1 i) (mtf_table (lane_hist 16 one1 i)) <? 4) (lanes 16) = true) by (vm_compute; reflexivity). rewrite forallb_forall in K.
  cbn [Cut]. split; [lia|]. split; [reflexivity|]. split.
  - intros b v Hb HS. assert (b = 0) as -> by lia. pose proof (HS 0 ltac:(lia)) as H0. pose proof (HS 1 ltac:(lia)) as H1. rewrite <- H0 in H1. vm_compute in H1. discriminate.
  - split; [cbn; tauto|]. split; [split; [|exact I]|intros v Hv _; cbn in Hv; lia]. intros i Hi. specialize (K i ltac:(apply lanes_in; lia)). lia.
Qed.
Theorem C67_rle8_mmtf128_size_refuted : exists undef M pout In n cap out l w c, byte_mem In /\ 1 <= n <= max_in /\ (forall j, 0 <= j < 16 -> is_byte (undef j)) /\
  mz_compress undef M pout false false In n cap = COk out /\
  Cut (fun i => rank (In i) (mtf_table (lane_hist 16 In i))) (fun _ => True) (n / 16) 0 l w c /\ 8 + cutSize l w c + 1 + n mod 16 < len out.
Proof.
  destruct (mz_compress (fun _ => 255) (fun _ => 0) 16 false false one1 16 29) as [|out|] eqn:E; try (vm_compute in E; discriminate).
  exists (fun _ => 255), (fun _ => 0), 16, one1, 16, 29, out, [], 2, 1. split; [exact one1_byte|]. split; [unfold max_in; lia|]. split; [intros; unfold is_byte; lia|]. split; [exact E|]. split; [exact one1_cut|].
  assert (L : len (match mz_compress (fun _ => 255) (fun _ => 0) 16 false false one1 16 29 with COk o => o | _ => [] end) = 26) by (vm_compute; reflexivity). rewrite E in L. rewrite L. reflexivity.
Qed.
Print Assumptions C67_rle8_mmtf128_size_refuted.

(** C60 *)
Theorem C60_rle8_mmtf128_saves : forall undef M pout, (forall j, 0 <= j < 16 -> is_byte (undef j)) -> Saves 16 55 (mz_compress undef M pout false false) (fun n => n + 13).
Proof. exact mz_saves. Qed.
Print Assumptions C60_rle8_mmtf128_saves.

(** 100 times the same byte: an empty copy, a run of six blocks, four bytes. *)
Example C67_example : exists out, mz_compress (fun _ => 0) (fun _ => 0) 16 false false (fun _ => 0) 100 200 = COk out /\ len out = 8 + cutSize [(2, 0, 6)] 2 0 + 1 + 4 /\
  Cut (fun i => rank 0 (mtf_table (lane_hist 16 (fun _ => 0) i))) (fun _ => True) (100 / 16) 0 [(2, 0, 6)] 2 0.
Proof.
  eexists. split; [vm_compute; reflexivity|]. split; [reflexivity|]. cbn [Cut].
  assert (L : forall a, Least (fun w => Covers (fun i => rank 0 (mtf_table (lane_hist 16 (fun _ => 0) i))) a 0 w /\ True) 2).
  { intros a. split; [cbn; tauto|]. split; [split; [intros i Hi; lia|exact I]|]. intros v Hv _. cbn in Hv. lia. }
  split; [lia|]. split; [lia|]. split; [vm_compute; discriminate|]. split; [intros; lia|]. split; [apply L|]. split.
  - exists 0. split; [|intros H; vm_compute in H; discriminate]. assert (K : forallb (fun i => rank 0 (mtf_table (lane_hist 16 (fun _ => 0) i)) =? 0) (lanes 96) = true) by (vm_compute; reflexivity).
    rewrite forallb_forall in K. intros b Hb i Hi. specialize (K i ltac:(apply lanes_in; lia)). lia.
  - split; [lia|]. split; [reflexivity|]. split; [intros; lia|apply L].
Qed.
Example C60_rle8_mmtf128_example : Repetitions 16 one1 0 300 [(2, 300)] /\ exists out, mz_compress (fun _ => 0) (fun _ => 0) 16 false false one1 300 400 = COk out /\ len out = 33.
Proof.
  split; [|eexists; split; [vm_compute; reflexivity|reflexivity]]. cbn. split; [lia|]. split; [lia|]. split; [|exact I]. intros x Hx _. unfold one1. replace (x =? 1) with false by lia. replace (x + 16 =? 1) with false by lia. reflexivity.
Qed.
