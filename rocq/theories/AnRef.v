(** The statistics of --analyze: what is not so. *)
From Verif Require Import Base Spec AnModel AnSpec AnTrack AnThm AnThm2 AnRec AnRead.

Definition fileOf (l : list Z) : mem := fun k => nth (Z.to_nat k) l 0.
Lemma fileOf_byte l : Forall is_byte l -> byte_mem (fileOf l).
Proof.
  intros H k. unfold fileOf. destruct (Nat.lt_ge_cases (Z.to_nat k) (length l)) as [L|L].
  - rewrite Forall_forall in H. apply H. apply nth_In. exact L.
  - rewrite nth_overflow by exact L. unfold is_byte. lia.
Qed.
Ltac bytes_ok := apply fileOf_byte; repeat constructor; unfold is_byte; lia.

(** More bytes in runs and gaps than the file has. *)
Lemma partition_bad : exists z In size j, byte_mem In /\ 1 <= size < 2 ^ 32 /\ 1 <= j <= 16 /\
  let t := an_free (analyze z In size) j in size < k_runs t + k_empty t.
Proof.
  exists 0, (fileOf [0; 0; 0; 0; 1; 2; 1; 2; 3; 4; 3; 4; 5; 6; 5; 6; 9; 9]), 16, 2.
  split; [bytes_ok|]. split; [lia|]. split; [lia|]. vm_compute. reflexivity.
Qed.

(** No run appears in the row of its magnitude. *)
Lemma magnitudes_never z In size j runs : 0 <= size < 2 ^ 32 -> 1 <= j <= 16 -> Enumerates (Run In j 1 size) runs -> runs <> [] ->
  ~ ByMagnitude 0 (k_runBits (an_free (analyze z In size) j)) (runLengths j runs).
Proof.
  intros Hs Hj HE Hne [HM _]. destruct (free_counted z In size j Hs Hj) as (runs' & gaps & H1 & _ & _ & [[_ HZ] _] & _).
  destruct runs as [|[i k] runs]; [congruence|]. assert (HR : Run In j 1 size (i, k)) by (apply HE; left; reflexivity).
  destruct HR as (Hk & ((P1 & _) & (P2 & _) & _)). set (n := k + j - 1). assert (Hn : 1 <= n < 2 ^ 32) by (unfold n; lia).
  pose proof (Z.log2_spec n ltac:(lia)) as HL. unfold Z.succ in HL. pose proof (Z.log2_nonneg n).
  assert (Z.log2 n < 32) by (apply Z.log2_lt_pow2; lia).
  specialize (HM (Z.log2 n) ltac:(lia)). rewrite HZ in HM by lia. unfold runLengths in HM. cbn [map snd] in HM. fold n in HM.
  rewrite number_total in HM. unfold total in HM. cbn [fold_right] in HM. fold (@total Z) in HM.
  replace (2 ^ Z.log2 n <=? n) with true in HM by lia. replace (n <? 2 ^ (Z.log2 n + 1)) with true in HM by lia. cbn [andb] in HM.
  match type of HM with 0 = 1 + ?S => assert (0 <= S); [|lia] end. clear.
  induction (map _ runs) as [|x l IH]; cbn [fold_right]; [lia|]. destruct (_ && _); lia.
Qed.

Definition sample : mem := fileOf [0; 1; 2; 2; 3].
Lemma sample_run : Run sample 1 1 5 (3, 1).
Proof.
  split; [lia|]. split; [split; [lia|reflexivity]|]. split; [split; [lia|reflexivity]|]. split; [|split].
  - intros q Hq k Hk. replace q with 0 by lia. replace k with 0 by lia. reflexivity.
  - intros (_ & K). specialize (K 0 ltac:(lia)). discriminate.
  - intros (_ & K). specialize (K 0 ltac:(lia)). discriminate.
Qed.
Lemma sample_gap : Gap sample 1 1 5 (1, 2).
Proof.
  split; [lia|]. split; [split; [lia|reflexivity]|]. split; [split; [lia|reflexivity]|]. split; [|split].
  - intros q Hq K. assert (q = 0 \/ q = 1) as [->| ->] by lia; specialize (K 0 ltac:(lia)); discriminate.
  - intros ((K & _) & _). lia.
  - intros (_ & K). apply K. intros k Hk. replace k with 0 by lia. reflexivity.
Qed.

Lemma table_bad : exists z In size i k g, byte_mem In /\ 1 <= size < 2 ^ 32 /\
  Run In 1 1 size (i, k) /\ Gap In 1 1 size (g, i - g) /\ i + k < size /\ k_bits (an_free (analyze z In size) 1) (entry (i - g) k) = 0.
Proof.
  exists 0, sample, 5, 3, 1, 1. split; [bytes_ok|]. split; [lia|]. split; [apply sample_run|]. split; [apply sample_gap|]. split; [lia|].
  vm_compute. reflexivity.
Qed.

Lemma undef_bad : exists z In size j, byte_mem In /\ 1 <= size < 2 ^ 32 /\ 1 <= j <= 16 /\ k_undef (an_free (analyze z In size) j) = true.
Proof. exists 0, (fileOf [0; 0; 1]), 3, 1. split; [bytes_ok|]. split; [lia|]. split; [lia|]. reflexivity. Qed.

Lemma behind_bad : forall j, 2 <= j <= 16 -> exists z In In' size, byte_mem In /\ byte_mem In' /\ 1 <= size < 2 ^ 32 /\
  AgreeBelow (size + j - 2) In In' /\ size <= size + j - 2 /\ k_count (an_free (analyze z In size) j) <> k_count (an_free (analyze z In' size) j).
Proof.
  intros j Hj. exists 0, (oneAt (j + 1 + j - 2)), (oneAt (j + 1 + j - 1)), (j + 1).
  split; [intros k; unfold oneAt, is_byte; destruct (_ =? _); lia|]. split; [intros k; unfold oneAt, is_byte; destruct (_ =? _); lia|].
  split; [lia|]. split; [intros k Hk; unfold oneAt; replace (k =? j + 1 + j - 2) with false by lia; replace (k =? j + 1 + j - 1) with false by lia; reflexivity|].
  split; [lia|]. apply behind_matters. lia.
Qed.

(** ** The theorems about both halves, one by one *)

Lemma runs_ok : forall z In size j, 0 <= size < 2 ^ 32 -> 1 <= j <= 16 ->
  exists runs gaps, Enumerates (Run In j 1 size) runs /\ Enumerates (Gap In j 1 size) gaps /\
    Counted j runs gaps (an_free (analyze z In size) j).
Proof. intros z In size j H1 H2. destruct (free_counted z In size j H1 H2) as (r & g & A & B & C & _). exists r, g. auto. Qed.
Lemma aligned_runs_ok : forall z In size j, 0 <= size < 2 ^ 32 -> 1 <= j <= 16 ->
  exists runs gaps, Enumerates (Run In j j size) runs /\ Enumerates (Gap In j j size) gaps /\
    Counted 1 runs gaps (an_aligned (analyze z In size) j).
Proof. intros z In size j H1 H2. destruct (aligned_counted z In size j H1 H2) as (r & g & A & B & C & _). exists r, g. auto. Qed.
Lemma sum_ok : forall z In size j, 0 <= size < 2 ^ 32 -> 1 <= j <= 16 ->
  let t := an_free (analyze z In size) j in k_runs t + k_empty t = Z.max 0 (size - j) + (j - 1) * k_count t.
Proof. intros z In size j H1 H2. destruct (free_counted z In size j H1 H2) as (r & g & _ & _ & _ & _ & _ & H). exact H. Qed.
Lemma aligned_sum_ok : forall z In size j, 0 <= size < 2 ^ 32 -> 1 <= j <= 16 ->
  let t := an_aligned (analyze z In size) j in k_runs t + k_empty t = Z.max 0 ((size - 1) / j).
Proof. intros z In size j H1 H2. destruct (aligned_counted z In size j H1 H2) as (r & g & _ & _ & _ & _ & _ & H). exact H. Qed.
Lemma magnitudes_ok : forall z In size j, 0 <= size < 2 ^ 32 -> 1 <= j <= 16 ->
  exists runs gaps, Enumerates (Run In j 1 size) runs /\ Enumerates (Gap In j 1 size) gaps /\
    Magnitudes 32 j runs gaps (an_free (analyze z In size) j).
Proof. intros z In size j H1 H2. destruct (free_counted z In size j H1 H2) as (r & g & A & B & _ & C & _). exists r, g. auto. Qed.
Lemma aligned_magnitudes_ok : forall z In size j, 0 <= size < 2 ^ 32 -> 1 <= j <= 16 ->
  exists runs gaps, Enumerates (Run In j j size) runs /\ Enumerates (Gap In j j size) gaps /\
    Magnitudes 32 1 runs gaps (an_aligned (analyze z In size) j).
Proof. intros z In size j H1 H2. destruct (aligned_counted z In size j H1 H2) as (r & g & A & B & _ & C & _). exists r, g. auto. Qed.
Lemma undefined_iff_ok : forall z In size j, 0 <= size < 2 ^ 32 -> 1 <= j <= 16 ->
  (k_undef (an_free (analyze z In size) j) = true <->
   (Place j 1 size j /\ RepeatsAt In j j) /\ exists i, Place j 1 size i /\ ~ RepeatsAt In j i).
Proof. intros z In size j H1 H2. destruct (free_counted z In size j H1 H2) as (r & g & _ & _ & _ & _ & H & _). exact H. Qed.
Lemma aligned_undefined_iff_ok : forall z In size j, 0 <= size < 2 ^ 32 -> 1 <= j <= 16 ->
  (k_undef (an_aligned (analyze z In size) j) = true <->
   (Place j j size j /\ RepeatsAt In j j) /\ exists i, Place j j size i /\ ~ RepeatsAt In j i).
Proof. intros z In size j H1 H2. destruct (aligned_counted z In size j H1 H2) as (r & g & _ & _ & _ & _ & H & _). exact H. Qed.
