(** C47, C48, C49: the fuzzer (rle_fuzz.c). *)
From Verif Require Import Base Spec FuzzModel FuzzSpec FuzzEnum FuzzFill FuzzEq FuzzThm FuzzRun.

(** C47: if the fuzzer ends without a trap, every codec has restored every input that was generated.  False: there is a
    pair of functions that damages the first byte of every input of more than 32 bytes, and with which
    "hsrlekit --fuzz-iterative" (six sections, main.c l.760) ends successfully, whatever the memory held before. *)
Theorem C47_fuzz_refuted : exists c : cfun * decompressor, writes_bytes c /\
  forall R g U pU K pK D pD, (forall k, byte_mem (R k)) -> byte_mem U -> byte_mem K -> byte_mem D ->
  fuzz R [c] g 6 true U pU K pK D pD = Some FzTrue /\
  forall t, planned 6 t -> (exists l, List.In l (t_lengths t) /\ 32 < l) ->
    exists k z n g' U' D2,
      after (fuzz_step R [c] pU pK pD (fuzz_cap 6)) (first_state g 6 true U K D) k z /\ test_of (z_f z) = t /\
      fill_buffer R (z_f z) pU (z_g z) (z_U z) = Some (n, g', U') /\
      tested c U' pU n (fuzz_cap 6) pK pD (fst (z_KD z)) (snd (z_KD z)) D2 /\ 1 <= n /\ D2 pD <> U' pU.
Proof. exact (ex_intro _ bad_codec (conj bad_writes_bytes fuzz_refuted)). Qed.
Print Assumptions C47_fuzz_refuted.

(** What a successful run shows instead: for every planned test every codec returned the right size, and the data
    restored agrees with the input in the highest bit of every byte and in the last 1 to 32 bytes. *)
Theorem C47_fuzz_partial : forall R cs g c U pU K pK D pD, (forall k, byte_mem (R k)) -> Forall writes_bytes cs -> 1 <= c <= 2 ^ 40 ->
  byte_mem U -> byte_mem K -> byte_mem D -> fuzz R cs g c true U pU K pK D pD = Some FzTrue ->
  forall t, planned c t -> exists k z n g' U',
    after (fuzz_step R cs pU pK pD (fuzz_cap c)) (first_state g c true U K D) k z /\ test_of (z_f z) = t /\
    fill_buffer R (z_f z) pU (z_g z) (z_U z) = Some (n, g', U') /\
    laid U' pU (t_symbol t) (t_bound t) (t_start t) (t_lengths t) n /\
    forall pre x post, cs = pre ++ x :: post -> exists K1 D1 D2,
      fuzz_codecs pre U' pU n (fuzz_cap c) pK pD (z_KD z) = Some (Some (K1, D1)) /\
      tested x U' pU n (fuzz_cap c) pK pD K1 D1 D2 /\ looks_same U' pU D2 pD n.
Proof. exact fuzz_passed. Qed.
Print Assumptions C47_fuzz_partial.

(** In both modes, for every round that does not end in a trap. *)
Theorem C47_round_partial : forall R cs pU pK pD cap, (forall k, byte_mem (R k)) -> Forall writes_bytes cs ->
  forall g c (it : bool) U K D k z, (if it then 1 else 2) <= c <= 2 ^ 40 -> byte_mem U -> byte_mem K -> byte_mem D ->
  after (fuzz_step R cs pU pK pD cap) (first_state g c it U K D) k z ->
  (exists z', fuzz_step R cs pU pK pD cap z = inl z') \/ fuzz_step R cs pU pK pD cap z = inr (Some FzTrue) ->
  exists n g' U', fill_buffer R (z_f z) pU (z_g z) (z_U z) = Some (n, g', U') /\
    forall pre x post, cs = pre ++ x :: post -> exists K1 D1 D2,
      fuzz_codecs pre U' pU n cap pK pD (z_KD z) = Some (Some (K1, D1)) /\
      tested x U' pU n cap pK pD K1 D1 D2 /\ looks_same U' pU D2 pD n.
Proof. exact round_passed. Qed.
Print Assumptions C47_round_partial.

(** MemoryEquals itself, for all memories. *)
Theorem C47_memory_equals : forall A a B b n, byte_mem A -> byte_mem B -> 0 <= n < 2 ^ 62 ->
  (memory_equals A a B b n = Some true <-> looks_same A a B b n).
Proof. exact (fun A a B b n HA HB Hn => conj (proj2 (equals_true A a B b n HA HB Hn)) (proj1 (equals_true A a B b n HA HB Hn))). Qed.
Print Assumptions C47_memory_equals.
Theorem C47_memory_equals_refuted : exists A B, byte_mem A /\ byte_mem B /\ memory_equals A 0 B 0 33 = Some true /\ A 0 <> B 0.
Proof. exact equals_refuted. Qed.
Print Assumptions C47_memory_equals_refuted.

(** No false alarm: if all codecs are correct for inputs of up to c * 1048960 bytes, iterative mode ends successfully. *)
Theorem C47_no_false_alarm : forall R cs pU pK pD c, (forall k, byte_mem (R k)) -> 1 <= c <= 6 ->
  Forall (passes (fun A a B b n => same_range A a B b 0 n) (c * 1048960) (fuzz_cap c)) cs ->
  forall g U K D, byte_mem U -> byte_mem K -> byte_mem D -> fuzz R cs g c true U pU K pK D pD = Some FzTrue.
Proof. exact fuzz_no_alarm. Qed.
Print Assumptions C47_no_false_alarm.

Definition ex_mem (l : list Z) : mem := fun x => nth (Z.to_nat x) l 0.
Example C47_example : memory_equals (ex_mem (7 :: repeat 3 40)) 0 (ex_mem (6 :: repeat 2 20 ++ repeat 3 20)) 0 41 = Some true /\
  memory_equals (ex_mem (7 :: repeat 3 40)) 0 (ex_mem (7 :: repeat 3 39 ++ [2])) 0 41 = Some false /\
  memory_equals (ex_mem (7 :: repeat 3 40)) 0 (ex_mem (128 :: repeat 3 40)) 0 41 = Some false.
Proof. vm_compute. auto. Qed.
Example C47_example_run : fuzz (fun _ _ => 0) [copy_codec] (mkGen rand_start 0) 6 true (fun _ => 0) 0 (fun _ => 0) 0 (fun _ => 0) 0 = Some FzTrue.
Proof.
  apply C47_no_false_alarm; try (intros; intros x; unfold is_byte; lia); [lia|]. constructor; [|constructor]. apply copy_passes.
Qed.
Example C47_example_planned : planned 6 (mkTest 5 true 1 [280; 33; 1; 768; 65560; 8101]).
Proof.
  unfold planned. cbn [t_symbol t_bound t_start t_lengths]. split; [lia|]. split; [lia|]. split; [lia|]. split; [reflexivity|].
  apply Forall_forall. intros x Hx.
  assert (H : forallb (fun l => existsb (Z.eqb l) tested_lengths) [280; 33; 1; 768; 65560; 8101] = true) by (vm_compute; reflexivity).
  rewrite forallb_forall in H. specialize (H x Hx). apply existsb_exists in H. destruct H as (y & Hy & E). apply Z.eqb_eq in E. now subst.
Qed.

(** C48: fuzz_fill_buffer never leaves the buffer whose size fuzz_sub_state_get_required_buffer_capacity computed, in any
    state that is reached in iterative (c >= 1) or random (c >= 2) mode; it writes between 1 and that many bytes, and
    the sections that shall repeat a symbol do. *)
Theorem C48_fill_inside : forall R cs pU pK pD cap, (forall k, byte_mem (R k)) ->
  forall g c (it : bool) U K D k z, (if it then 1 else 2) <= c -> byte_mem U ->
  after (fuzz_step R cs pU pK pD cap) (first_state g c it U K D) k z ->
  exists n g' U', fill_buffer R (z_f z) pU (z_g z) (z_U z) = Some (n, g', U') /\
    1 <= n <= c * 1048960 /\ buffer_capacity (z_f z) = c * 1048960 /\
    (forall x, x < pU \/ pU + n <= x -> U' x = z_U z x) /\
    exists lengths, 1 <= len lengths <= c /\
      laid U' pU (f_sl (z_f z)) (f_bound (z_f z)) (f_start (z_f z)) lengths n.
Proof. exact fill_inside. Qed.
Print Assumptions C48_fill_inside.

Example C48_example :
  let f := state_of (fun i j => 100 + j) 2 (mkPos 3 true 1 [1; 4]) in
  match fill_buffer (fun _ _ => 0) f 10 (mkGen rand_start 0) (fun _ => 0) with
  | Some (n, _, M) => (n, slice M 10 6, forallb (fun x => M x =? 0) [8; 9; 21; 22])
  | None => (0, [], false)
  end = (11, [100; 101; 102; 100; 101; 102], true).
Proof. vm_compute. reflexivity. Qed.

(** C49: a successful run of iterative mode does every planned test exactly once; the k-th round exists for
    k < planned_count only, and does a planned test. *)
Theorem C49_all_tests_once : forall R cs g c U pU K pK D pD, (forall k, byte_mem (R k)) -> 1 <= c -> byte_mem U ->
  fuzz R cs g c true U pU K pK D pD = Some FzTrue -> forall t, planned c t ->
  exists! k, exists z, after (fuzz_step R cs pU pK pD (fuzz_cap c)) (first_state g c true U K D) k z /\ test_of (z_f z) = t.
Proof. exact fuzz_all_tests. Qed.
Print Assumptions C49_all_tests_once.

Theorem C49_only_planned : forall R cs pU pK pD cap, (forall k, byte_mem (R k)) -> forall g c U K D k z, 1 <= c -> byte_mem U ->
  after (fuzz_step R cs pU pK pD cap) (first_state g c true U K D) k z ->
  0 <= k < planned_count c /\ planned c (test_of (z_f z)) /\
  exists n g' U', fill_buffer R (z_f z) pU (z_g z) (z_U z) = Some (n, g', U') /\
    laid U' pU (f_sl (z_f z)) (f_bound (z_f z)) (f_start (z_f z)) (map s_len (f_subs (z_f z))) n.
Proof. exact iter_filled. Qed.
Print Assumptions C49_only_planned.

(** The run ends, without a limit on the fuel of the model for up to six sections: at most planned_count rounds. *)
Theorem C49_ends : forall R cs pU pK pD cap, (forall k, byte_mem (R k)) -> forall g c U K D k z, 1 <= c ->
  after (fuzz_step R cs pU pK pD cap) (first_state g c true U K D) k z -> fuzz_step R cs pU pK pD cap z = inr (Some FzTrue) ->
  k + 1 = planned_count c.
Proof. exact ended. Qed.
Print Assumptions C49_ends.

(** Random mode never ends by itself. *)
Theorem C49_random_goes_on : forall R cs pU pK pD cap, (forall k, byte_mem (R k)) -> forall g c U K D k z, 2 <= c -> byte_mem U ->
  after (fuzz_step R cs pU pK pD cap) (first_state g c false U K D) k z -> fuzz_step R cs pU pK pD cap z <> inr (Some FzTrue).
Proof. exact random_goes_on. Qed.
Print Assumptions C49_random_goes_on.

Example C49_example : planned_count 6 = 119960957027108798 /\ len tested_lengths = 353.
Proof. vm_compute. auto. Qed.
Example C49_example_next : map (fun f => test_of (snd (increment f))) [state_of (fun _ _ => 0) 2 (mkPos 1 false 0 [0; 352]); state_of (fun _ _ => 0) 2 (mkPos 7 true 1 [352; 352])]
  = [mkTest 1 false 0 [2; 1]; mkTest 8 false 0 [1; 1]].
Proof. vm_compute. reflexivity. Qed.
