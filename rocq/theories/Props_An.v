(** C62, C63, C64: the statistics of --analyze. *)
From Coq Require Import Sorted.
From Verif Require Import Base Spec AnModel AnSpec AnTrack AnThm AnThm2 AnRec AnRead AnRef AnDiff.

(** C62: the runs and gaps at any position ([an_free]) and at multiples of the symbol length ([an_aligned]).
    [z] is what __builtin_clz returns for 0. *)
Theorem C62_runs : forall z In size j, 0 <= size < 2 ^ 32 -> 1 <= j <= 16 ->
  exists runs gaps, Enumerates (Run In j 1 size) runs /\ Enumerates (Gap In j 1 size) gaps /\
    Counted j runs gaps (an_free (analyze z In size) j).
Proof. exact runs_ok. Qed.
Print Assumptions C62_runs.
Theorem C62_aligned_runs : forall z In size j, 0 <= size < 2 ^ 32 -> 1 <= j <= 16 ->
  exists runs gaps, Enumerates (Run In j j size) runs /\ Enumerates (Gap In j j size) gaps /\
    Counted 1 runs gaps (an_aligned (analyze z In size) j).
Proof. exact aligned_runs_ok. Qed.
Print Assumptions C62_aligned_runs.

(** "Bytes" and "Bytes Distinct" add up; the share of the file never exceeds 100 %. *)
Theorem C62_sum : forall z In size j, 0 <= size < 2 ^ 32 -> 1 <= j <= 16 ->
  let t := an_free (analyze z In size) j in k_runs t + k_empty t = Z.max 0 (size - j) + (j - 1) * k_count t.
Proof. exact sum_ok. Qed.
Print Assumptions C62_sum.
Theorem C62_aligned_sum : forall z In size j, 0 <= size < 2 ^ 32 -> 1 <= j <= 16 ->
  let t := an_aligned (analyze z In size) j in k_runs t + k_empty t = Z.max 0 ((size - 1) / j).
Proof. exact aligned_sum_ok. Qed.
Print Assumptions C62_aligned_sum.
Theorem C62_share : forall z In size j, 1 <= size < 2 ^ 32 -> 1 <= j <= 16 ->
  let t := an_free (analyze z In size) j in 0 <= k_runs t <= size - 1.
Proof. exact free_share. Qed.
Print Assumptions C62_share.
Theorem C62_sum_within_file_refuted : exists z In size j, byte_mem In /\ 1 <= size < 2 ^ 32 /\ 1 <= j <= 16 /\
  let t := an_free (analyze z In size) j in size < k_runs t + k_empty t.
Proof. exact partition_bad. Qed.
Print Assumptions C62_sum_within_file_refuted.

Theorem C62_histogram : forall z In size c, 0 <= size -> an_hist (analyze z In size) c = number (Z.eqb c) (slice In 0 size).
Proof. exact hist_ok. Qed.
Print Assumptions C62_histogram.
Theorem C62_run_histogram : forall z In size c, 0 <= size < 2 ^ 32 ->
  exists runs, Enumerates (Run In 1 1 size) runs /\ an_runHist (analyze z In size) c = number (fun x => In (fst x) =? c) runs.
Proof. exact run_hist_ok. Qed.
Print Assumptions C62_run_histogram.

(** "References": how many other symbols were used since the last use of the symbol of a run. *)
Theorem C62_recurring : forall z In size j, 0 <= size -> 1 <= j <= 16 -> RecurOk In j 1 size (an_free (analyze z In size) j).
Proof. exact free_recur. Qed.
Print Assumptions C62_recurring.
Theorem C62_aligned_recurring : forall z In size j, 0 <= size -> 1 <= j <= 16 -> RecurOk In j j size (an_aligned (analyze z In size) j).
Proof. exact aligned_recur. Qed.
Print Assumptions C62_aligned_recurring.

(** The table of differences: every run that ends is counted in the entry for its difference to the run before. *)
Theorem C62_differences : forall z In size j, 0 <= size < 2 ^ 32 -> 1 <= j <= 16 -> DiffOk In j 1 size j (an_free (analyze z In size) j).
Proof. exact free_diff. Qed.
Print Assumptions C62_differences.
Theorem C62_aligned_differences : forall z In size j, 0 <= size < 2 ^ 32 -> 1 <= j <= 16 -> DiffOk In j j size 1 (an_aligned (analyze z In size) j).
Proof. exact aligned_diff. Qed.
Print Assumptions C62_aligned_differences.

(** A file of 12 bytes: 7 7 7 5 5 1 2 1 2 1 7 7.  Runs of bytes: 7 7, 5 and 7 (the first byte of a stretch is not a repetition);
    of pairs: 1 2 1 behind 1 2. *)
Definition demo : mem := fileOf [7; 7; 7; 5; 5; 1; 2; 1; 2; 1; 7; 7; 0; 0].
Example C62_demo_bytes : let t := an_free (analyze 0 demo 12) 1 in
  k_count t = 3 /\ k_runs t = 4 /\ k_empty t = 7 /\ k_runExact t 0 = 2 /\ k_runExact t 1 = 1 /\ k_emptyExact t 0 = 1 /\ k_emptyExact t 5 = 1 /\
  an_runHist (analyze 0 demo 12) 7 = 2 /\ an_hist (analyze 0 demo 12) 7 = 5 /\ k_recur t 1 = 1 /\ k_recur t 0 = 0.
Proof. vm_compute. repeat split. Qed.
Example C62_demo_pairs : let t := an_free (analyze 0 demo 12) 2 in
  k_count t = 1 /\ k_runs t = 3 /\ k_empty t = 8 /\ k_runExact t 2 = 1.
Proof. vm_compute. repeat split. Qed.
Example C62_demo_aligned : let t := an_aligned (analyze 0 demo 12) 2 in k_count t = 1 /\ k_runs t = 1 /\ k_empty t = 4.
Proof. vm_compute. repeat split. Qed.
Example C62_demo_differences : let t := an_free (analyze 0 demo 12) 1 in
  k_diff t (diffEntry 0 2) = 1 /\ k_diff t (diffEntry (-1) (-1)) = 1 /\ k_diff t (diffEntry 0 0) = 0.
Proof. vm_compute. repeat split. Qed.
Example C62_demo_run : Run demo 1 1 12 (1, 2).
Proof.
  split; [lia|]. split; [split; [lia|reflexivity]|]. split; [split; [lia|reflexivity]|]. split; [|split].
  - intros q Hq k Hk. assert (q = 0 \/ q = 1) as [->| ->] by lia; replace k with 0 by lia; reflexivity.
  - intros ((K & _) & _). lia.
  - intros (_ & K). specialize (K 0 ltac:(lia)). discriminate.
Qed.

(** C63: the magnitudes.  Every stretch is counted 32 rows too far down, so that no run is ever in the row of its magnitude. *)
Theorem C63_magnitudes_partial : forall z In size j, 0 <= size < 2 ^ 32 -> 1 <= j <= 16 ->
  exists runs gaps, Enumerates (Run In j 1 size) runs /\ Enumerates (Gap In j 1 size) gaps /\
    Magnitudes 32 j runs gaps (an_free (analyze z In size) j).
Proof. exact magnitudes_ok. Qed.
Print Assumptions C63_magnitudes_partial.
Theorem C63_aligned_magnitudes_partial : forall z In size j, 0 <= size < 2 ^ 32 -> 1 <= j <= 16 ->
  exists runs gaps, Enumerates (Run In j j size) runs /\ Enumerates (Gap In j j size) gaps /\
    Magnitudes 32 1 runs gaps (an_aligned (analyze z In size) j).
Proof. exact aligned_magnitudes_ok. Qed.
Print Assumptions C63_aligned_magnitudes_partial.
Theorem C63_magnitudes_never : forall z In size j runs, 0 <= size < 2 ^ 32 -> 1 <= j <= 16 -> Enumerates (Run In j 1 size) runs -> runs <> [] ->
  ~ ByMagnitude 0 (k_runBits (an_free (analyze z In size) j)) (runLengths j runs).
Proof. exact magnitudes_never. Qed.
Print Assumptions C63_magnitudes_never.

(** The table of magnitudes of gaps against those of runs: unless the undefined case of C64 occurs, every run is counted in the
    last entry. *)
Theorem C63_table_partial : forall z In size j, 0 <= size < 2 ^ 32 -> 1 <= j <= 16 -> let t := an_free (analyze z In size) j in
  k_undef t = false -> (forall x, x <> 255 -> k_bits t x = 0) /\ k_count t - 1 <= k_bits t 255 <= k_count t.
Proof. exact free_bits. Qed.
Print Assumptions C63_table_partial.
Theorem C63_aligned_table_partial : forall z In size j, 0 <= size < 2 ^ 32 -> 1 <= j <= 16 -> let t := an_aligned (analyze z In size) j in
  k_undef t = false -> (forall x, x <> 255 -> k_bits t x = 0) /\ k_count t - 1 <= k_bits t 255 <= k_count t.
Proof. exact aligned_bits. Qed.
Print Assumptions C63_aligned_table_partial.
Theorem C63_table_refuted : exists z In size i k g, byte_mem In /\ 1 <= size < 2 ^ 32 /\
  Run In 1 1 size (i, k) /\ Gap In 1 1 size (g, i - g) /\ i + k < size /\ k_bits (an_free (analyze z In size) 1) (entry (i - g) k) = 0.
Proof. exact table_bad. Qed.
Print Assumptions C63_table_refuted.
Example C63_demo : let t := an_free (analyze 0 demo 12) 1 in k_runBits t 32 = 2 /\ k_runBits t 33 = 1 /\ k_runBits t 0 = 0 /\ k_runBits t 1 = 0.
Proof. vm_compute. repeat split. Qed.
Example C63_sample : let t := an_free (analyze 0 sample 5) 1 in k_undef t = false /\ k_bits t 255 = 1 /\ entry 2 1 = 0.
Proof. vm_compute. repeat split. Qed.

(** C64: __builtin_clz(0) is executed exactly if the file begins with a run that ends. *)
Theorem C64_undefined_iff : forall z In size j, 0 <= size < 2 ^ 32 -> 1 <= j <= 16 ->
  (k_undef (an_free (analyze z In size) j) = true <->
   (Place j 1 size j /\ RepeatsAt In j j) /\ exists i, Place j 1 size i /\ ~ RepeatsAt In j i).
Proof. exact undefined_iff_ok. Qed.
Print Assumptions C64_undefined_iff.
Theorem C64_aligned_undefined_iff : forall z In size j, 0 <= size < 2 ^ 32 -> 1 <= j <= 16 ->
  (k_undef (an_aligned (analyze z In size) j) = true <->
   (Place j j size j /\ RepeatsAt In j j) /\ exists i, Place j j size i /\ ~ RepeatsAt In j i).
Proof. exact aligned_undefined_iff_ok. Qed.
Print Assumptions C64_aligned_undefined_iff.
Theorem C64_defined_refuted : exists z In size j, byte_mem In /\ 1 <= size < 2 ^ 32 /\ 1 <= j <= 16 /\
  k_undef (an_free (analyze z In size) j) = true.
Proof. exact undef_bad. Qed.
Print Assumptions C64_defined_refuted.

(** No entry outside of a table is ever written; the tables by length and magnitude are in C62 and C63, recurring symbols in C62. *)
Theorem C64_tables : forall z In size j, 0 <= size -> 1 <= j <= 16 -> let t := an_free (analyze z In size) j in
  (forall x, k_bits t x <> 0 -> 0 <= x < 16 * 16) /\ (forall x, k_diff t x <> 0 -> 0 <= x < 32 * 32).
Proof. exact free_bounded. Qed.
Print Assumptions C64_tables.
Theorem C64_aligned_tables : forall z In size j, 0 <= size -> 1 <= j <= 16 -> let t := an_aligned (analyze z In size) j in
  (forall x, k_bits t x <> 0 -> 0 <= x < 16 * 16) /\ (forall x, k_diff t x <> 0 -> 0 <= x < 32 * 32).
Proof. exact aligned_bounded. Qed.
Print Assumptions C64_aligned_tables.

(** The figures for symbols of [j] bytes depend on the file and the [j - 1] bytes behind it, and on the last of these, too;
    the buffer of the file ends with the file. *)
Theorem C64_reads_partial : forall z In In' size j, 0 <= size -> 1 <= j <= 16 -> AgreeBelow (size + j - 1) In In' ->
  SameFigures (an_free (analyze z In size) j) (an_free (analyze z In' size) j).
Proof. exact free_reads. Qed.
Print Assumptions C64_reads_partial.
Theorem C64_aligned_reads_partial : forall z In In' size j, 0 <= size -> 1 <= j <= 16 -> AgreeBelow (size + j - 1) In In' ->
  SameFigures (an_aligned (analyze z In size) j) (an_aligned (analyze z In' size) j).
Proof. exact aligned_reads. Qed.
Print Assumptions C64_aligned_reads_partial.
Theorem C64_file_alone_refuted : forall j, 2 <= j <= 16 -> exists z In In' size, byte_mem In /\ byte_mem In' /\ 1 <= size < 2 ^ 32 /\
  AgreeBelow (size + j - 2) In In' /\ size <= size + j - 2 /\ k_count (an_free (analyze z In size) j) <> k_count (an_free (analyze z In' size) j).
Proof. exact behind_bad. Qed.
Print Assumptions C64_file_alone_refuted.
Example C64_demo_undefined : k_undef (an_free (analyze 0 demo 12) 1) = true /\ k_undef (an_free (analyze 0 demo 12) 2) = false /\
  k_undef (an_aligned (analyze 0 demo 12) 2) = false.
Proof. vm_compute. repeat split. Qed.
Example C64_demo_agree : AgreeBelow (12 + 2 - 1) demo (fileOf [7; 7; 7; 5; 5; 1; 2; 1; 2; 1; 7; 7; 0; 9]) /\ demo 13 <> 9.
Proof.
  split; [|discriminate]. intros k Hk. assert (k = 0 \/ k = 1 \/ k = 2 \/ k = 3 \/ k = 4 \/ k = 5 \/ k = 6 \/ k = 7 \/ k = 8 \/ k = 9 \/ k = 10 \/ k = 11 \/ k = 12) as H by lia.
  repeat (destruct H as [->|H]; [reflexivity|]). subst k. reflexivity.
Qed.
