(** C74: which tests can come up in random mode. *)
From Verif Require Import Base Spec FuzzModel FuzzSpec FuzzThm FuzzRun FuzzRandSpec FuzzRand.

(** After the first round only tests within [possible] come up, whatever the random numbers are. *)
Theorem C74_random_only_possible : forall R cs pU pK pD cap, (forall k, byte_mem (R k)) -> forall g c U K D k z, 2 <= c -> byte_mem U ->
  after (fuzz_step R cs pU pK pD cap) (first_state g c false U K D) k z -> 1 <= k -> possible c (drawn (z_f z)).
Proof. exact random_possible. Qed.
Print Assumptions C74_random_only_possible.

(** From every state that a run reaches, each of these tests can be the next: the random numbers read so far stay as they
    are, only later ones are chosen. *)
Theorem C74_random_reaches_all_partial : forall R cs pU pK pD cap, (forall k, byte_mem (R k)) -> forall g c U K D k z z', 2 <= c < 2 ^ 32 -> byte_mem U ->
  after (fuzz_step R cs pU pK pD cap) (first_state g c false U K D) k z -> fuzz_step R cs pU pK pD cap z = inl z' ->
  forall t, possible c t -> exists R', (forall j, byte_mem (R' j)) /\ (forall j, j < g_count (z_g z) -> R' j = R j) /\
  exists z2, fuzz_step R' cs pU pK pD cap z = inl z2 /\ drawn (z_f z2) = t.
Proof. exact random_reaches. Qed.
Print Assumptions C74_random_reaches_all_partial.

(** A test with a length that the limits promise and that never comes up, however many sections, codecs and rounds. *)
Theorem C74_random_all_refuted : exists t, (forall c, 1 <= c -> wanted c t) /\ forall R cs pU pK pD cap, (forall k, byte_mem (R k)) ->
  forall g c U K D k z, 2 <= c -> byte_mem U ->
  after (fuzz_step R cs pU pK pD cap) (first_state g c false U K D) k z -> drawn (z_f z) <> t.
Proof. exact random_all_refuted. Qed.
Print Assumptions C74_random_all_refuted.

(** After the first round no test uses all sections. *)
Theorem C74_random_sections_refuted : forall R cs pU pK pD cap, (forall k, byte_mem (R k)) -> forall g c U K D k z, 2 <= c -> byte_mem U ->
  after (fuzz_step R cs pU pK pD cap) (first_state g c false U K D) k z -> 1 <= k -> len (rt_sections (drawn (z_f z))) < c.
Proof. exact random_sections_refuted. Qed.
Print Assumptions C74_random_sections_refuted.

(** The first round of random mode, and the test it goes on with if all vectors are 13, 0, 0, ... *)
Definition ex_R : oracle := fun _ i => if i =? 0 then 13 else 0.
Example C74_example : match fuzz_step ex_R [copy_codec] 0 0 0 100 (first_state (mkGen rand_start 0) 8 false (fun _ => 0) (fun _ => 0) (fun _ => 0)) with
  | inl z => drawn (z_f z) = mkRT 14 true (map (fun k => mkRS ((1 + k) mod 2) 13 14) [0; 1; 2; 3; 4; 5; 6])
  | inr _ => False
  end.
Proof. vm_compute. reflexivity. Qed.
Example C74_example_possible : possible 8 (mkRT 3 true [mkRS 1 5 65530; mkRS 0 2 1; mkRS 1 0 8191]) /\
  possible 8 (mkRT 16 false [mkRS 0 15 768; mkRS 1 0 279]).
Proof.
  assert (R1 : forall l, 1 <= l <= 279 -> in_ranges [(1, 279); (768, 8191); (65528, 65559)] l) by (intros l Hl; exists (1, 279); cbn; split; [auto|lia]).
  assert (R2 : forall l, 768 <= l <= 8191 -> in_ranges [(1, 279); (768, 8191); (65528, 65559)] l) by (intros l Hl; exists (768, 8191); cbn; split; [auto|lia]).
  assert (R3 : forall l, 65528 <= l <= 65559 -> in_ranges [(1, 279); (768, 8191); (65528, 65559)] l) by (intros l Hl; exists (65528, 65559); cbn; split; [auto|lia]).
  split; (split; [cbn; lia|]; split; [cbn; lia|]; split; [cbn; auto|]);
    repeat (constructor; [split; [cbn; lia|cbn [rs_length]; first [apply R1; lia|apply R2; lia|apply R3; lia]]|]); constructor.
Qed.
