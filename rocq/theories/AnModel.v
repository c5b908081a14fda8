(** Model of AnalyzeData, src/main.c l.1246-1688: what the option --analyze counts.  The counters are
    size_t and bounded by sixteen times the size of the file; they are integers here.  What is printed from them
    (l.1567-1688) is divisions and text and is left out. *)
From Verif Require Import Base Spec.

(** [63 - __builtin_clz(x)], a uint32_t, e.g. l.1329 (the branch of other compilers than MSVC).
    __builtin_clz takes the lower 32 bits; its result for 0 is undefined, here [z]. *)
Definition bit_index (z x : Z) : Z := if w32 x =? 0 then w32 (63 - z) else 63 - (31 - Z.log2 (w32 x)).
Definition bit_undef (x : Z) : bool := w32 x =? 0.

Definition bump (f : Z -> Z) (i : Z) : Z -> Z := fun x => if x =? i then f x + 1 else f x.
Definition clamp (lo hi x : Z) : Z := Z.max lo (Z.min x hi).

(** One half of rle_data_t, l.1251-1273: the members without or with "aligned" in front of their names.
    [k_undef]: __builtin_clz(0) was executed. *)
Record track := mkTrack
  { k_runBits : Z -> Z; k_runExact : Z -> Z; k_emptyBits : Z -> Z; k_emptyExact : Z -> Z;
    k_last : Z -> Z -> Z; k_recur : Z -> Z;
    k_count : Z; k_runs : Z; k_empty : Z; k_cur : Z; k_non : Z; k_lastLen : Z; k_lastNon : Z; k_lastDiff : Z;
    k_bits : Z -> Z; k_diff : Z -> Z; k_undef : bool }.

(** memset, l.1279. *)
Definition track0 : track :=
  mkTrack (fun _ => 0) (fun _ => 0) (fun _ => 0) (fun _ => 0) (fun _ _ => 0) (fun _ => 0)
    0 0 0 0 0 0 0 0 (fun _ => 0) (fun _ => 0) false.

(** memcmp of [j] bytes is 0. *)
Definition equal_bytes (a b : Z -> Z) (j : Z) : bool := forallb (fun k => a (Z.of_nat k) =? b (Z.of_nat k)) (seq 0 (Z.to_nat j)).

(** recurringIndex: the first of the rows [r..15] that holds the symbol, or 16; l.1303-1312. *)
Fixpoint find_row (L : Z -> Z -> Z) (sym : Z -> Z) (j : Z) (r : Z) (fuel : nat) : Z :=
  match fuel with
  | O => r
  | S k => if equal_bytes (L r) sym j then r else find_row L sym j (r + 1) k
  end.
(** memcpy of [j] bytes into row [r]. *)
Definition set_row (L : Z -> Z -> Z) (r : Z) (b : Z -> Z) (j : Z) : Z -> Z -> Z :=
  fun x y => if (x =? r) && (0 <=? y) && (y <? j) then b y else L x y.
(** The loop l.1315-1316, [k] counting down to 1. *)
Fixpoint shift_rows (L : Z -> Z -> Z) (j : Z) (k : nat) : Z -> Z -> Z :=
  match k with
  | O => L
  | S k' => shift_rows (set_row L (Z.of_nat k) (L (Z.of_nat k')) j) j k'
  end.
Definition use_symbol (L : Z -> Z -> Z) (R : Z -> Z) (sym : Z -> Z) (j : Z) : (Z -> Z -> Z) * (Z -> Z) :=
  let r := find_row L sym j 0 16 in
  let R' := if r <? 16 then bump R r else R in
  let L' := if r =? 0 then L else shift_rows L j (Z.to_nat (Z.min r 15)) in
  (set_row L' 0 sym j, R').

Definition exact (f : Z -> Z) (n : Z) : Z -> Z := if n <=? 64 then bump f (n - 1) else f.

(** A gap ends because a run begins, l.1323-1342. *)
Definition end_gap (z : Z) (t : track) : track :=
  if k_non t =? 0 then t
  else
    mkTrack (k_runBits t) (k_runExact t) (bump (k_emptyBits t) (bit_index z (k_non t))) (exact (k_emptyExact t) (k_non t))
      (k_last t) (k_recur t) (k_count t) (k_runs t) (k_empty t + k_non t) (k_cur t) 0 (k_lastLen t) (k_non t)
      (k_non t - k_lastLen t) (k_bits t) (k_diff t) (k_undef t || bit_undef (k_non t)).

(** A run ends, l.1353-1386.  lastNonLengthBits is a uint32_t, it is converted to int64_t before 1 is subtracted. *)
Definition end_run (z : Z) (t : track) : track :=
  if k_cur t =? 0 then t
  else
    let index := bit_index z (k_cur t) in
    let nonBits := bit_index z (k_lastNon t) in
    mkTrack (bump (k_runBits t) index) (exact (k_runExact t) (k_cur t)) (k_emptyBits t) (k_emptyExact t)
      (k_last t) (k_recur t) (k_count t + 1) (k_runs t + k_cur t) (k_empty t) 0 (k_non t) (k_cur t) (k_lastNon t) (k_lastDiff t)
      (bump (k_bits t) (clamp 0 15 (nonBits - 1) * 16 + clamp 0 15 (index - 1)))
      (bump (k_diff t) (clamp 0 31 (k_lastDiff t + 15) * 32 + clamp 0 31 (k_cur t - k_lastLen t + 15)))
      (k_undef t || bit_undef (k_cur t) || bit_undef (k_lastNon t)).

Definition set_cur (t : track) (c : Z) : track :=
  mkTrack (k_runBits t) (k_runExact t) (k_emptyBits t) (k_emptyExact t) (k_last t) (k_recur t) (k_count t) (k_runs t) (k_empty t)
    c (k_non t) (k_lastLen t) (k_lastNon t) (k_lastDiff t) (k_bits t) (k_diff t) (k_undef t).
Definition set_non (t : track) (c : Z) : track :=
  mkTrack (k_runBits t) (k_runExact t) (k_emptyBits t) (k_emptyExact t) (k_last t) (k_recur t) (k_count t) (k_runs t) (k_empty t)
    (k_cur t) c (k_lastLen t) (k_lastNon t) (k_lastDiff t) (k_bits t) (k_diff t) (k_undef t).
Definition set_symbols (t : track) (L : Z -> Z -> Z) (R : Z -> Z) : track :=
  mkTrack (k_runBits t) (k_runExact t) (k_emptyBits t) (k_emptyExact t) L R (k_count t) (k_runs t) (k_empty t)
    (k_cur t) (k_non t) (k_lastLen t) (k_lastNon t) (k_lastDiff t) (k_bits t) (k_diff t) (k_undef t).

(** One position, l.1299-1389 with [first = j], and l.1393-1480 with [first = 1] (the two differ in the names of the
    members, in l.1344/l.1435 and in rle8hist, l.1320-1321, for which see [an_step]). *)
Definition track_step (z j first : Z) (m : bool) (sym : Z -> Z) (t : track) : track :=
  if m then
    if k_cur t =? 0 then
      let '(L, R) := use_symbol (k_last t) (k_recur t) sym j in
      set_cur (end_gap z (set_symbols t L R)) first
    else set_cur t (k_cur t + 1)
  else
    let t' := end_run z t in set_non t' (k_non t' + 1).

(** The end of the file, l.1498-1531 = l.1533-1564. *)
Definition track_end (z : Z) (t : track) : track :=
  if negb (k_non t =? 0) then
    mkTrack (k_runBits t) (k_runExact t) (bump (k_emptyBits t) (bit_index z (k_non t))) (exact (k_emptyExact t) (k_non t))
      (k_last t) (k_recur t) (k_count t) (k_runs t) (k_empty t + k_non t) (k_cur t) (k_non t) (k_lastLen t) (k_lastNon t)
      (k_lastDiff t) (k_bits t) (k_diff t) (k_undef t || bit_undef (k_non t))
  else if negb (k_cur t =? 0) then
    mkTrack (bump (k_runBits t) (bit_index z (k_cur t))) (exact (k_runExact t) (k_cur t)) (k_emptyBits t) (k_emptyExact t)
      (k_last t) (k_recur t) (k_count t + 1) (k_runs t + k_cur t) (k_empty t) (k_cur t) (k_non t) (k_lastLen t) (k_lastNon t)
      (k_lastDiff t) (k_bits t) (k_diff t) (k_undef t || bit_undef (k_cur t))
  else t.

(** hist, rle8hist, and byRLE[j - 1] in two halves. *)
Record analysis := mkAnalysis { an_hist : Z -> Z; an_runHist : Z -> Z; an_free : Z -> track; an_aligned : Z -> track }.
Definition an_start : analysis := mkAnalysis (fun _ => 0) (fun _ => 0) (fun _ => track0) (fun _ => track0).

(** l.1295. *)
Definition matches (In : mem) (i j : Z) : bool := equal_bytes (fun k => In (i + k)) (fun k => In (i - j + k)) j.

(** One iteration of the loop l.1286-1490.  The inner loop treats j = 1 to 16 one after the other; the
    iteration for j changes byRLE[j - 1] only, so that all are done at once here. *)
Definition an_step (z : Z) (In : mem) (a : analysis) (i : Z) : analysis :=
  mkAnalysis (bump (an_hist a) (In i))
    (if (1 <=? i) && matches In i 1 && (k_cur (an_free a 1) =? 0) then bump (an_runHist a) (In i) else an_runHist a)
    (fun j => if i <? j then an_free a j else track_step z j j (matches In i j) (fun k => In (i + k)) (an_free a j))
    (fun j => if i <? j then an_aligned a j
              else if i mod j =? 0 then track_step z j 1 (matches In i j) (fun k => In (i + k)) (an_aligned a j)
              else an_aligned a j).

(** The loop and l.1494-1565. *)
Definition an_loop (z : Z) (In : mem) (size : Z) : analysis :=
  fold_left (fun a i => an_step z In a (Z.of_nat i)) (seq 0 (Z.to_nat size)) an_start.
Definition analyze (z : Z) (In : mem) (size : Z) : analysis :=
  let a := an_loop z In size in
  mkAnalysis (an_hist a) (an_runHist a) (fun j => track_end z (an_free a j)) (fun j => track_end z (an_aligned a j)).
