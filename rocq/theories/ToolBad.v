(** What a successful --test does not show. *)
From Coq Require Import String Ascii.
From Verif Require Import Base Spec PlatModel ToolTable ToolArgs ToolSpec ToolThm ToolLib ToolRun ToolTab ToolCall ToolOk.
Open Scope string_scope.
Open Scope Z_scope.

Definition a_world (f : list Z) : world :=
  mkWorld (Some (fun k => nth (Z.to_nat k) f 0, len f)) true true (fun _ => 0) 4096 8192 12288 (fun _ _ => 0%nat) (fun _ => 0) (fun _ _ => None).
Definition exit_code (r : result) : option Z := match r with Exit c _ => Some c | _ => None end.

(** *** A decompressor that does nothing *)
Definition copier : call := fun M pin k pout _ => CRet k (memory_copy M pout pin k).
Definition idle : call := fun M _ _ _ _ => CRet 1 M.
(** The decompressor of the first codec of the list works, the others do nothing. *)
Definition idle_library : library := fun c => Some (copier, if codec_value c =? codec_value LowEntropy then copier else idle).

Lemma idle_tame w n file : 1 <= n -> Layout n (buffer_size n) (w_U w) (w_K w) (w_D w) -> Tame idle_library w n file.
Proof.
  intros Hn HL c comp dec E M r M1 HM EC. assert (E1 : comp = copier) by (unfold idle_library in E; congruence). subst comp. unfold copier in EC.
  assert (Er : r = n) by congruence. assert (EM : M1 = memory_copy M (w_K w) (w_U w) n) by congruence. subst r M1. pose proof (buffer_at_least n).
  split; [lia|]. split; [intros x Hx; unfold memory_copy; apply store_out; rewrite len_slice by lia; lia|].
  intros M2 r' M3 _ ED x Hx. unfold idle_library in E. destruct (codec_value c =? codec_value LowEntropy); injection E as <-.
  - unfold copier in ED. assert (EM : M3 = memory_copy M2 (w_D w) (w_K w) n) by congruence. subst M3. unfold memory_copy. apply store_out. rewrite len_slice by lia. lia.
  - unfold idle in ED. congruence.
Qed.

Lemma stale_refuted : exists L m w argv f s file n M', command_line m argv = Some (f, s) /\ s_fuzz s = false /\ s_test s = true /\
  w_file w = Some (file, n) /\ w_alloc w = true /\ w_read w = true /\ (forall k, is_byte (file k)) /\ 1 <= n < 2 ^ 32 /\
  Layout n (buffer_size n) (w_U w) (w_K w) (w_D w) /\ Tame (L (detect m (s_flags s))) w n file /\ main_with L m w argv = Exit 0 M' /\
  exists c comp dec, List.In c (selected (s_args s)) /\ L (detect m (s_flags s)) c = Some (comp, dec) /\ forall M pin k pout cap, dec M pin k pout cap = CRet 1 M.
Proof.
  pose (l := [OTest; ORuns 1; OMode MLowEntropy]). pose (argv := "x" :: spelled l). pose (w := a_world [1; 2; 3; 3; 3]).
  assert (H : (match command_line some_machine argv with
               | Some (_, s) => negb (s_fuzz s) && s_test s && existsb (fun c => codec_value c =? codec_value LowEntropySingle) (selected (s_args s))
               | None => false end) && (match exit_code (main_with (fun _ => idle_library) some_machine w argv) with Some c => c =? 0 | None => false end) = true)
    by (vm_compute; reflexivity).
  apply andb_prop in H. destruct H as [H1 H2]. destruct (command_line some_machine argv) as [[f s]|] eqn:EC; [|discriminate].
  destruct (main_with (fun _ => idle_library) some_machine w argv) as [code M'| |] eqn:EM; try discriminate. cbn [exit_code] in H2. apply Z.eqb_eq in H2. subst code.
  apply andb_prop in H1. destruct H1 as [H1 H3]. apply andb_prop in H1. destruct H1 as [H1 H4].
  assert (HL : Layout 5 (buffer_size 5) (w_U w) (w_K w) (w_D w)).
  { change (buffer_size 5) with 302. unfold Layout, apart, w, a_world. cbn [w_U w_K w_D]. lia. }
  exists (fun _ => idle_library), some_machine, w, argv, f, s, (fun k => nth (Z.to_nat k) [1; 2; 3; 3; 3] 0), 5, M'.
  split; [exact EC|]. split; [destruct (s_fuzz s); [discriminate|reflexivity]|]. split; [exact H4|]. split; [reflexivity|]. split; [reflexivity|]. split; [reflexivity|].
  split; [intros k; assert (HB : Forall is_byte [1; 2; 3; 3; 3]) by (repeat constructor; unfold is_byte; lia); destruct (Nat.lt_ge_cases (Z.to_nat k) 5) as [K|K];
          [apply (proj1 (Forall_forall _ _) HB), nth_In; exact K|rewrite nth_overflow by exact K; unfold is_byte; lia]|].
  split; [lia|]. split; [exact HL|]. split; [apply idle_tame; [lia|exact HL]|]. split; [exact EM|].
  apply existsb_exists in H3. destruct H3 as (c & Hc & E3). exists c, copier, idle. split; [exact Hc|]. apply Z.eqb_eq in E3.
  split; [unfold idle_library; rewrite E3; reflexivity|reflexivity].
Qed.

(** *** A file that cannot be read *)
Lemma unread_refuted : exists m w argv f s, command_line m argv = Some (f, s) /\ s_fuzz s = false /\ s_test s = true /\ w_file w = None /\
  exit_code (main m w argv) = Some 0.
Proof.
  pose (w := mkWorld None true true (fun _ => 0) 4096 8192 12288 (fun _ _ => 0%nat) (fun _ => 0) (fun _ _ => None)).
  destruct (command_line some_machine ("x" :: spelled [OTest])) as [[f s]|] eqn:E; [|vm_compute in E; discriminate].
  exists some_machine, w, ("x" :: spelled [OTest]), f, s. split; [exact E|].
  assert (H : (match command_line some_machine ("x" :: spelled [OTest]) with Some (_, s) => negb (s_fuzz s) && s_test s | None => false end) = true) by (vm_compute; reflexivity).
  rewrite E in H. apply andb_prop in H. destruct H as [H1 H2]. split; [destruct (s_fuzz s); [discriminate|reflexivity]|]. split; [exact H2|]. split; [reflexivity|].
  vm_compute. reflexivity.
Qed.

(** *** A file that the low entropy codec does not restore *)
Definition twice : list Z := flat_map (fun k => [Z.of_nat k; Z.of_nat k]) (seq 0 256).
Lemma pass_refuted : exists m w argv f s file n, command_line m argv = Some (f, s) /\ s_fuzz s = false /\
  w_file w = Some (file, n) /\ w_alloc w = true /\ w_read w = true /\ (forall k, is_byte (file k)) /\ 1 <= n <= 6938 /\
  Layout n (n + 297) (w_U w) (w_K w) (w_D w) /\ exit_code (main m w argv) = Some (-1).
Proof.
  pose (argv := "x" :: spelled [OTest; ORuns 1; OMode MLowEntropy]). 
  destruct (command_line some_machine argv) as [[f s]|] eqn:E; [|vm_compute in E; discriminate].
  exists some_machine, (a_world twice), argv, f, s, (fun k => nth (Z.to_nat k) twice 0), 512. split; [exact E|].
  assert (H : (match command_line some_machine argv with Some (_, s) => negb (s_fuzz s) | None => false end) = true) by (vm_compute; reflexivity).
  rewrite E in H. split; [destruct (s_fuzz s); [discriminate|reflexivity]|]. split; [unfold a_world; cbn [w_file]; reflexivity|]. split; [reflexivity|]. split; [reflexivity|].
  split.
  - intros k. assert (HB : forallb (fun b => (0 <=? b) && (b <? 256)) twice = true) by (vm_compute; reflexivity). rewrite forallb_forall in HB.
    destruct (Nat.lt_ge_cases (Z.to_nat k) (List.length twice)) as [K|K].
    + specialize (HB _ (nth_In _ 0 K)). unfold is_byte. lia.
    + rewrite nth_overflow by exact K. unfold is_byte. lia.
  - split; [lia|]. split; [unfold Layout, apart, a_world; cbn [w_U w_K w_D]; lia|]. unfold argv. vm_compute. reflexivity.
Qed.
