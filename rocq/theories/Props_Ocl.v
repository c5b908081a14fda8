(** Properties of the OpenCL decompressor of rle8m. *)
From Verif Require Import Base Simd Spec Spec2 ExtModel PktModel Rle8Model LeModel LeThm RmThm MtfModel OclModel OclThm.

(** C14: group [g] only writes slice [g] of the output buffer, and once each of the groups has
    made [2 * n] steps, in whatever order, the buffer holds the input; whether the host picks
    rle8_decompress or rle8_decompress_single. *)
Theorem C14_groups_any_order : forall subs In n cap out C pin sched G,
  1 <= subs <= 2 ^ 28 -> byte_mem In -> 1 <= n <= max_in -> rm_compress subs false false In n cap = COk out -> holds C pin out ->
  Forall (fun g => 0 <= g < subs) sched ->
  let G' := snd (ocl_launch C pin (sub_offsets C pin subs (ocl_index C pin) (len out)) sched G) in
  (forall x, (forall g, List.In g sched -> ~ in_slice n subs g x) -> G' x = G x) /\
  (Fair subs (2 * n) sched -> slice G' 0 n = slice In 0 n).
Proof. exact ocl_any_order. Qed.
Print Assumptions C14_groups_any_order.

(** C14, C35: if the last initialisation allocated enough, rle8m_opencl_decompress restores the
    input whatever calls were made before, and leaves the host in such a state. *)
Theorem C35_decompress_partial : forall subs In n cap out e h C pin inSize M pout outSize,
  1 <= subs <= 2 ^ 28 -> byte_mem In -> 1 <= n <= max_in -> rm_compress subs false false In n cap = COk out ->
  Reach h -> Allocated h (len out) n subs -> v_run e = true -> Fair subs (2 * n) (v_sched e) ->
  holds C pin out -> 0 < pin -> 0 < pout -> len out <= inSize -> n <= outSize ->
  exists M' h', ocl_decompress e h C pin inSize M pout outSize = Some (n, M', h') /\ slice M' pout n = slice In 0 n /\
    (forall x, x < pout \/ pout + n <= x -> M' x = M x) /\
    Reach h' /\ h_init h' = true /\ h_in h' = h_in h /\ h_out h' = h_out h /\ h_max h' = h_max h.
Proof. exact ocl_decompress_ok. Qed.
Print Assumptions C35_decompress_partial.

(** C35: false of the code.  Without rle8m_opencl_init, every stream is written through NULL. *)
Theorem C35_first_call_refuted : forall subs In n cap out e C pin inSize M pout outSize,
  1 <= subs <= 2 ^ 28 -> byte_mem In -> 1 <= n <= max_in -> rm_compress subs false false In n cap = COk out ->
  holds C pin out -> 0 < pin -> 0 < pout -> len out <= inSize -> n <= outSize ->
  ocl_decompress e host0 C pin inSize M pout outSize = None.
Proof. exact ocl_first_call. Qed.
Print Assumptions C35_first_call_refuted.
Theorem C35_overrun_refuted : forall subs In n cap out e h C pin inSize M pout outSize,
  1 <= subs <= 2 ^ 28 -> byte_mem In -> 1 <= n <= max_in -> rm_compress subs false false In n cap = COk out ->
  Reach h -> h_init h = true -> h_max h < subs -> holds C pin out -> 0 < pin -> 0 < pout -> len out <= inSize -> n <= outSize ->
  ocl_decompress e h C pin inSize M pout outSize = None.
Proof. exact ocl_overrun. Qed.
Print Assumptions C35_overrun_refuted.
(** A stream larger than the initialisation allowed for: wrong bytes, reported as success. *)
Theorem C35_stale_offsets_refuted : exists In n out h e C pin M pout M' h',
  byte_mem In /\ 1 <= n <= max_in /\ rm_compress 1 false false In n 1000 = COk out /\
  Reach h /\ h_init h = true /\ 1 <= h_max h /\ v_init e = IWorks /\ v_run e = true /\ Fair 1 (2 * n) (v_sched e) /\ holds C pin out /\ 0 < pin /\ 0 < pout /\
  ocl_decompress e h C pin (len out) M pout n = Some (n, M', h') /\ slice M' pout n <> slice In 0 n.
Proof. exact ocl_stale. Qed.
Print Assumptions C35_stale_offsets_refuted.

(** C28 *)
Theorem C28_opencl_decompress_args : forall e h C pin inSize M pout outSize,
  pin = 0 \/ pout = 0 \/ inSize = 0 \/ outSize = 0 \/ outSize < rd32 C (pin + 4) \/ inSize < rd32 C pin ->
  ocl_decompress e h C pin inSize M pout outSize = Some (0, M, h).
Proof. exact ocl_args. Qed.
Print Assumptions C28_opencl_decompress_args.

(** C40: false of the code: after a successful initialisation a second one that finds no
    platform frees pPlatforms twice.  The first call of a program is safe. *)
Theorem C40_init_double_free_refuted : forall offs a b c, exists h,
  ocl_init IWorks offs host0 a b c = Some (true, h) /\ Reach h /\ ocl_init INoPlatform offs h (a + 1) b c = None.
Proof. exact ocl_double_free. Qed.
Print Assumptions C40_init_double_free_refuted.
Theorem C40_first_init_partial : forall e offs a b c, exists ok h,
  ocl_init e offs host0 a b c = Some (ok, h) /\ (ok = false -> h_init h = false) /\ (ok = true -> Allocated h a b c).
Proof. exact ocl_first_init. Qed.
Print Assumptions C40_first_init_partial.

(** Samples: three sections, one after the other, in turn, and the last one first; with several
    and with one run length coded symbol. *)
Definition ocl_data1 : mem := fun k => if k mod 10 <? 4 then 5 else if k mod 10 =? 4 then 77 else if k mod 10 <? 8 then 6 else (k / 10) mod 50.
Definition ocl_data2 : mem := fun k => if k mod 10 <? 6 then 5 else k mod 251.
Definition ocl_test (In : mem) (sched : list Z) : bool :=
  match rm_compress 3 false false In 17 1000 with
  | COk out =>
      let C := fun a => nth (Z.to_nat (a - 16)) out 0 in
      let G := snd (ocl_launch C 16 (sub_offsets C 16 3 (ocl_index C 16) (len out)) sched (fun _ => 170)) in
      forallb (fun k => G k =? In k) (lanes 17) && (G 17 =? 170)
  | _ => false
  end.
Definition scheds : list (list Z) :=
  [repeat 0 34 ++ repeat 1 34 ++ repeat 2 34; concat (repeat [0; 1; 2] 34); repeat 2 34 ++ concat (repeat [1; 0; 1] 34)].
Example ocl_fair : Forall (Fair 3 34) scheds.
Proof.
  assert (H : forallb (fun l => forallb (fun g => (0 <=? g) && (g <? 3)) l && forallb (fun g => 34 <=? Z.of_nat (count_occ Z.eq_dec l g)) [0; 1; 2]) scheds = true) by (vm_compute; reflexivity).
  apply Forall_forall. intros l Hl. rewrite forallb_forall in H. specialize (H l Hl). apply andb_prop in H. destruct H as [H1 H2]. rewrite forallb_forall in H1, H2. split.
  - apply Forall_forall. intros g Hg. specialize (H1 g Hg). lia.
  - intros g Hg. assert (Hi : List.In g [0; 1; 2]) by (cbn; lia). specialize (H2 g Hi). lia.
Qed.
Example ocl_samples : forallb (fun s => ocl_test ocl_data1 s && ocl_test ocl_data2 s) scheds = true.
Proof. vm_compute. reflexivity. Qed.
