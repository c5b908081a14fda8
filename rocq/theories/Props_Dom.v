(** Properties of the choices the encoders make: the symbol of the encoders with one symbol, and the values that the low entropy
    encoders code.  [pk]: packed; [c] with [shOne c = true]: rle8_short_single. *)
From Verif Require Import Base Simd Spec Spec2 ExtModel PktModel Rle8Model LeModel LeSpec LutModel SlModel ShModel SaveSpec DomSpec DomThm DomSave DomBad LeBest.

(** C65: missing: the value 0 of an input that begins with another value. *)
Theorem C65_rle8_single_takes_run_partial : forall pk, TakesRun (fun In v => v <> 0 \/ In 0 = 0) 9 (s_compress pk false false)
  (fun n => n + 22 + (if pk then 4 * (n / 257) else 0)).
Proof. exact s_takes. Qed.
Print Assumptions C65_rle8_single_takes_run_partial.
Theorem C65_short_single_takes_run_partial : forall c v, List.In c shcodecs -> shOne c = true ->
  TakesRun (fun In v => v <> 0 \/ In 0 = 0) 8 (sh_compress c v false false) (fun n => n + n / 65537 + 36).
Proof. exact sh_takes. Qed.
Print Assumptions C65_short_single_takes_run_partial.
(** The value 0: another symbol is chosen, the stream is longer than the run. *)
Theorem C65_rle8_single_takes_run_refuted : forall pk, exists In n cap out a k, byte_mem In /\ 1 <= n <= max_in /\ MostlyRun In n 0 a k /\
  s_compress pk false false In n cap = COk out /\ nth 9 out 0 <> 0 /\ k < len out.
Proof.
  intros pk. destruct (zeros_single pk) as (out & H1 & H2 & H3). exists zeros, 421, 1000, out, 21, 400.
  split; [exact zeros_byte|]. split; [unfold max_in; lia|]. split; [exact zeros_mostly|]. split; [exact H1|]. split; [rewrite H2; discriminate|exact H3].
Qed.
Print Assumptions C65_rle8_single_takes_run_refuted.
Theorem C65_short_single_takes_run_refuted : forall c v, List.In c shcodecs -> shOne c = true -> exists In n cap out a k, byte_mem In /\ 1 <= n <= max_in /\ MostlyRun In n 0 a k /\
  sh_compress c v false false In n cap = COk out /\ nth 8 out 0 <> 0 /\ k < len out.
Proof.
  intros c v Hc Ho. destruct (zeros_short c v Hc Ho) as (out & H1 & H2 & H3). exists zeros, 421, 1000, out, 21, 400.
  split; [exact zeros_byte|]. split; [unfold max_in; lia|]. split; [exact zeros_mostly|]. split; [exact H1|]. split; [rewrite H2; discriminate|exact H3].
Qed.
Print Assumptions C65_short_single_takes_run_refuted.

(** C66 *)
Theorem C66_low_entropy_codes_worth : forall L In n cap out b, L = 255 \/ L = 32 -> byte_mem In -> 1 <= n <= max_in ->
  le_compress L false false false In n cap = COk out -> is_byte b -> (Coded out b <-> Worth L In n b).
Proof. exact le_codes_worth. Qed.
Print Assumptions C66_low_entropy_codes_worth.
Theorem C66_only_max_frequency_codes_best : forall L In n cap out b, L = 255 \/ L = 32 -> byte_mem In -> 1 <= n <= max_in ->
  le_compress L true false false In n cap = COk out -> is_byte b -> (Coded out b <-> Best L In n b).
Proof. exact le_codes_best. Qed.
Print Assumptions C66_only_max_frequency_codes_best.
(** Exactly one value if any pays off, else none. *)
Theorem C66_best_unique : forall L In n a b, is_byte a -> is_byte b -> Best L In n a -> Best L In n b -> a = b.
Proof. exact best_one. Qed.
Print Assumptions C66_best_unique.
Theorem C66_best_exists : forall L In n, (exists u, is_byte u /\ PaysOff L In n u) -> exists b, is_byte b /\ Best L In n b.
Proof. exact best_exists. Qed.
Print Assumptions C66_best_exists.
Theorem C66_table_order : forall L max In n cap out, L = 255 \/ L = 32 -> byte_mem In -> 1 <= n <= max_in -> le_compress L max false false In n cap = COk out ->
  forall i j, 0 <= i < j -> j < tableSize out ->
    is_byte (tableEntry out i) /\ tableEntry out i <> tableEntry out j /\ pieces L In n (tableEntry out j) <= pieces L In n (tableEntry out i).
Proof. exact le_table_order. Qed.
Print Assumptions C66_table_order.
(** A run at the end is counted as one piece: there is a shorter stream that codes another value and is decoded to the same input. *)
Theorem C66_only_max_frequency_shortest_refuted : forall L, L = 255 \/ L = 32 -> exists In n cap out v r, byte_mem In /\ 1 <= n <= max_in /\
  le_compress L true false false In n cap = COk out /\ (forall b, is_byte b -> (Coded r b <-> b = v)) /\
  (forall c, RestoresI false (le_decompress L c) 0 r In n) /\ len r < len out.
Proof.
  intros L HL. destruct (late_facts L HL) as (H1 & _ & H2 & H3 & H4). exists (late (L - 1)), (late_n (L - 1)), (late_n (L - 1) + 297), (coded_out (le_compress L true false false (late (L - 1)) (late_n (L - 1)) (late_n (L - 1) + 297))), 1, (other_stream L (late (L - 1)) (late_n (L - 1))).
  assert (Hn : 1 <= late_n (L - 1) <= max_in) by (unfold late_n, max_in; destruct HL as [-> | ->]; lia).
  split; [apply late_byte|]. split; [exact Hn|]. split; [exact H1|]. split; [apply codes_only_ok; exact H2|].
  split; [intros c; apply other_restores; [exact HL|apply late_byte|exact Hn|exact H4]|exact H3].
Qed.
Print Assumptions C66_only_max_frequency_shortest_refuted.

(** Examples: a run of 100 times 7 behind five other bytes. *)
Definition run7 : mem := fun x => if x <? 5 then x mod 256 else 7.
Example run7_byte : byte_mem run7.
Proof. intros x. unfold run7, is_byte. destruct (x <? 5); [pose proof (Z.mod_pos_bound x 256 ltac:(lia))|]; lia. Qed.
Example run7_mostly : MostlyRun run7 105 7 5 100.
Proof. split; [|lia]. split; [lia|]. split; [lia|]. intros x Hx. unfold run7. replace (x <? 5) with false by lia. reflexivity. Qed.
Example C65_example : exists out, s_compress true false false run7 105 400 = COk out /\ nth 9 out 0 = 7 /\ len out = 27.
Proof. eexists. split; [vm_compute; reflexivity|]. split; reflexivity. Qed.
Example C65_short_example : exists out, sh_compress (mkSh 1 false 0 true) Avx2 false false run7 105 400 = COk out /\ nth 8 out 0 = 7 /\ len out = 24.
Proof. eexists. split; [vm_compute; reflexivity|]. split; reflexivity. Qed.
Example C66_example : exists out, le_compress 255 false false false run7 105 500 = COk out /\ Coded out 7 /\ ~ Coded out 3 /\ tableSize out = 6 /\ tableEntry out 0 = 0.
Proof. eexists. split; [vm_compute; reflexivity|]. split; [reflexivity|]. split; [intros H; discriminate H|]. split; reflexivity. Qed.
Example C66_best_example : Best 255 run7 105 7 /\ ~ Best 255 run7 105 3.
Proof.
  destruct (le_compress 255 true false false run7 105 500) as [|out|] eqn:E; try (vm_compute in E; discriminate).
  split; [apply (le_codes_best 255 run7 105 500 out 7)|intros H; apply (le_codes_best 255 run7 105 500 out 3) in H]; try exact E; try (left; reflexivity); try exact run7_byte; try (unfold max_in; lia); try (unfold is_byte; lia).
  - vm_compute in E. injection E as <-. reflexivity.
  - vm_compute in E. injection E as <-. discriminate H.
Qed.
