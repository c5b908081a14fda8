(** What the statistics of --analyze are supposed to be, without reference to the way they are computed. *)
From Coq Require Import Sorted.
From Verif Require Import Base Spec AnModel.

(** The [j] bytes at [i] are the [j] bytes in front of them. *)
Definition RepeatsAt (In : mem) (j i : Z) : Prop := forall k, 0 <= k < j -> In (i + k) = In (i - j + k).

(** The places looked at: from [j] on, [s] apart, below the size of the file. *)
Definition Place (j s size i : Z) : Prop := j <= i < size /\ (i - j) mod s = 0.

(** [k] consecutive places from [i] on that are [Q], and that cannot be extended. *)
Definition Stretch (Q : Z -> Prop) (j s size : Z) (x : Z * Z) : Prop :=
  let '(i, k) := x in
  1 <= k /\ Place j s size i /\ Place j s size (i + (k - 1) * s) /\ (forall q, 0 <= q < k -> Q (i + q * s)) /\
  ~ (Place j s size (i - s) /\ Q (i - s)) /\ ~ (Place j s size (i + k * s) /\ Q (i + k * s)).
Definition Run (In : mem) (j s size : Z) : Z * Z -> Prop := Stretch (RepeatsAt In j) j s size.
Definition Gap (In : mem) (j s size : Z) : Z * Z -> Prop := Stretch (fun i => ~ RepeatsAt In j i) j s size.

(** [l] enumerates [P]. *)
Definition Enumerates {X} (P : X -> Prop) (l : list X) : Prop := NoDup l /\ forall x, List.In x l <-> P x.

Definition total {X} (f : X -> Z) (l : list X) : Z := fold_right (fun x s => f x + s) 0 l.
Definition number {X} (f : X -> bool) (l : list X) : Z := len (filter f l).

(** A table of the numbers of stretches with the given lengths.
    By length: entry [n - 1] for the length [n], up to 64 bytes.
    By magnitude: entry [off + b] for the lengths from 2^b to 2^(b+1) - 1; nothing else is counted. *)
Definition ByLength (exact : Z -> Z) (lengths : list Z) : Prop :=
  (forall n, 1 <= n <= 64 -> exact (n - 1) = number (Z.eqb n) lengths) /\
  (forall x, x < 0 \/ 64 <= x -> exact x = 0).
Definition ByMagnitude (off : Z) (bits : Z -> Z) (lengths : list Z) : Prop :=
  (forall b, 0 <= b < 32 -> bits (off + b) = number (fun n => (2 ^ b <=? n) && (n <? 2 ^ (b + 1))) lengths) /\
  (forall x, x < off \/ off + 32 <= x -> bits x = 0).

(** The length of a run of [k] places: [k + first - 1]; that of a gap: [k]. *)
Definition runLengths (first : Z) (runs : list (Z * Z)) : list Z := map (fun x => snd x + first - 1) runs.
Record Counted (first : Z) (runs gaps : list (Z * Z)) (t : track) : Prop := mkCounted
  { ct_count : k_count t = len runs;
    ct_runs : k_runs t = total (fun n => n) (runLengths first runs);
    ct_empty : k_empty t = total (fun n => n) (map snd gaps);
    ct_runExact : ByLength (k_runExact t) (runLengths first runs);
    ct_emptyExact : ByLength (k_emptyExact t) (map snd gaps) }.
Definition Magnitudes (off first : Z) (runs gaps : list (Z * Z)) (t : track) : Prop :=
  ByMagnitude off (k_runBits t) (runLengths first runs) /\ ByMagnitude off (k_emptyBits t) (map snd gaps).

(** The symbol [w] was used last [r] other symbols ago; [h]: the symbols used, the last one first. *)
Definition Recent (h : list (list Z)) (w : list Z) (r : Z) : Prop :=
  exists h1 h2 d, h = h1 ++ w :: h2 /\ ~ List.In w h1 /\ Enumerates (fun x => List.In x h1) d /\ r = len d.

(** The symbols of the runs that begin at [before], the last one first; all zeros counts as used before the first. *)
Definition used (In : mem) (j : Z) (before : list Z) : list (list Z) :=
  rev (map (fun i => slice In i j) before) ++ [repeat 0 (Z.to_nat j)].

(** Of the runs that begin at [firsts], in the order of the file, those at [hits] have a symbol used [r] other symbols ago. *)
Definition Recurring (In : mem) (j : Z) (firsts : list Z) (r : Z) (hits : list Z) : Prop :=
  Enumerates (fun i => exists before after, firsts = before ++ i :: after /\ Recent (used In j before) (slice In i j) r) hits.

(** The figures about recurring symbols: [t] counts, for each [r], the runs whose symbol was used [r] other symbols ago. *)
Definition RecurOk (In : mem) (j s size : Z) (t : track) : Prop :=
  exists firsts, StronglySorted Z.lt firsts /\ (forall i, List.In i firsts <-> exists k, Run In j s size (i, k)) /\
    (forall r, 0 <= r < 16 -> exists hits, Recurring In j firsts r hits /\ k_recur t r = len hits) /\
    (forall r, r < 0 \/ 16 <= r -> k_recur t r = 0).

(** Two memories agree on the first [n] bytes. *)
Definition AgreeBelow (n : Z) (In In' : mem) : Prop := forall k, 0 <= k < n -> In k = In' k.

(** Everything that is printed of one half of byRLE[j - 1]. *)
Definition SameFigures (t t' : track) : Prop :=
  k_count t = k_count t' /\ k_runs t = k_runs t' /\ k_empty t = k_empty t' /\
  (forall x, k_runBits t x = k_runBits t' x) /\ (forall x, k_runExact t x = k_runExact t' x) /\
  (forall x, k_emptyBits t x = k_emptyBits t' x) /\ (forall x, k_emptyExact t x = k_emptyExact t' x) /\
  (forall x, k_recur t x = k_recur t' x) /\ (forall x, k_bits t x = k_bits t' x) /\ (forall x, k_diff t x = k_diff t' x).

(** The entry of the table of magnitudes meant for a run of [run] bytes behind a gap of [gap] bytes: 16 rows and 16 columns. *)
Definition entry (gap run : Z) : Z := Z.max 0 (Z.min 15 (Z.log2 gap - 1)) * 16 + Z.max 0 (Z.min 15 (Z.log2 run - 1)).

(** The entry of the table of differences meant for a run: row, how much longer the gap in front of it is than the run before;
    column, how much longer the run is than the run before; a missing run has length 0.  32 rows and 32 columns, 0 at 15. *)
Definition Differences (In : mem) (j s size first : Z) (x : Z * Z) (gap run : Z) : Prop :=
  let '(i, k) := x in
  (exists i' k', Run In j s size (i', k') /\ i' + k' * s <= i /\ (forall p, Place j s size p -> i' + k' * s <= p < i -> ~ RepeatsAt In j p) /\
     gap * s = i - (i' + k' * s) - (k' + first - 1) * s /\ run = (k + first - 1) - (k' + first - 1)) \/
  ((forall p, Place j s size p -> p < i -> ~ RepeatsAt In j p) /\ gap * s = i - j /\ run = k + first - 1).
Definition diffEntry (gap run : Z) : Z := Z.max 0 (Z.min 31 (gap + 15)) * 32 + Z.max 0 (Z.min 31 (run + 15)).
(** [t] counts, for each entry, the runs meant for it that end before the file does. *)
Definition DiffOk (In : mem) (j s size first : Z) (t : track) : Prop :=
  forall c, exists hits, k_diff t c = len hits /\
    Enumerates (fun x => Run In j s size x /\ Place j s size (fst x + snd x * s) /\
      exists gap run, Differences In j s size first x gap run /\ c = diffEntry gap run) hits.
