(** C80: streams can be compressed again. *)
From Verif Require Import Base Spec Spec2 Simd ExtModel Rle8Model Rle8Thm LutModel LeModel LeSpec MzModel ArchSpec ArchLib StackThm.
From Verif Require HsModel HsThm.

(** Whatever the codecs, data compressed by a stack of them is restored by their decompressors in reverse order, each of which gets the
    buffer and the size that the one before it has left. *)
Theorem C80_unstacks : forall xs bs d bytes C p, Forall (fun x => exists s, library_piece s x) xs -> Forall2 fits xs bs -> stacked d xs bytes ->
  holds C p bytes -> 0 < p -> p + len bytes + 1024 < 2 ^ 64 ->
  exists C' q, unstack (combine (map a_dec xs) bs) C p (len bytes) = Some (C', q, len d) /\ slice C' q (len d) = d /\
    0 < q /\ q + len d + 1024 < 2 ^ 64.
Proof. exact unstacks. Qed.
Print Assumptions C80_unstacks.

(** And every codec can be put on a stack: it accepts what the stage below it has written. *)
Theorem C80_stack_grows : forall slack comp dec f need ok d xs bytes cap, library slack comp dec f need ok -> stacked d xs bytes -> Forall is_byte bytes ->
  1 <= len bytes <= max_in -> ok (at0 bytes) (len bytes) -> need (len bytes) <= cap < 2 ^ 32 ->
  exists bytes', let x := mkPiece comp dec f (at0 bytes) (len bytes) cap in
    library_piece slack x /\ stacked d (xs ++ [x]) bytes' /\ Forall is_byte bytes' /\ len bytes' <= cap.
Proof. exact stack_grows. Qed.
Print Assumptions C80_stack_grows.

(** *** Example: rle8_mmtf128, then rle8_multi, then rle8_low_entropy_compress_only_max_frequency. *)
Definition ex_data : list Z := slice (fun k => k / 32) 0 256.
Definition ex_out (c : cres) : list Z := match c with COk o => o | _ => [] end.
Definition ex_1 : piece := mkPiece (mz_compress (fun _ => 0) (fun _ => 0) 1 false false) mz_decompress 4 (at0 ex_data) 256 1000.
Definition ex_s1 : list Z := Eval vm_compute in ex_out (a_comp ex_1 (a_In ex_1) 256 1000).
Definition ex_2 : piece := mkPiece (m_compress false true false false) (r8_decompress false D8Sse) 4 (at0 ex_s1) (len ex_s1) 1000.
Definition ex_s2 : list Z := Eval vm_compute in ex_out (a_comp ex_2 (a_In ex_2) (a_n ex_2) 1000).
Definition ex_3 : piece := mkPiece (le_compress 255 true false false) (le_decompress 255 (mkCpu true true)) 0 (at0 ex_s2) (len ex_s2) 1000.
Definition ex_s3 : list Z := Eval vm_compute in ex_out (a_comp ex_3 (a_In ex_3) (a_n ex_3) 1000).
Definition ex_buf : buffer := mkBuffer (fun _ => 7) 1 1000.
Example C80_example : stacked ex_data [ex_1; ex_2; ex_3] ex_s3 /\ (len ex_data, len ex_s1, len ex_s2, len ex_s3) = (256, 55, 75, 127).
Proof.
  split; [|vm_compute; reflexivity].
  apply (stacked_cons ex_data ex_1 _ ex_s1); [reflexivity|apply at0_holds|vm_compute; reflexivity|].
  apply (stacked_cons ex_s1 ex_2 _ ex_s2); [reflexivity|apply at0_holds|vm_compute; reflexivity|].
  apply (stacked_cons ex_s2 ex_3 _ ex_s3); [reflexivity|apply at0_holds|vm_compute; reflexivity|]. apply stacked_nil.
Qed.
Example C80_example_back : match unstack (combine (map a_dec [ex_1; ex_2; ex_3]) [ex_buf; ex_buf; ex_buf]) (at0 (0 :: ex_s3)) 1 (len ex_s3) with
  | Some (M, q, r) => r = 256 /\ slice M q r = ex_data | None => False end.
Proof. vm_compute. auto. Qed.
Example C80_example_valid : Forall (fun x => exists s, library_piece s x) [ex_1; ex_2; ex_3] /\ Forall2 fits [ex_1; ex_2; ex_3] [ex_buf; ex_buf; ex_buf].
Proof.
  assert (HB : forall l, forallb (fun b => (0 <=? b) && (b <? 256)) l = true -> byte_mem (at0 l)).
  { intros l H. apply at0_bytes. rewrite Forall_forall. intros b Hb. rewrite forallb_forall in H. specialize (H b Hb). unfold is_byte. lia. }
  split; [apply Forall_cons; [|apply Forall_cons; [|apply Forall_cons; [|apply Forall_nil]]]|].
  - exists 0, (fun n => n + 13), Always. split; [apply L_rle8_mmtf128|]. split; [now apply HB|]. split; [cbn; unfold max_in; lia|]. split; [exact I|]. cbn. lia.
  - exists 128, (multi_space false), Always. split; [apply (L_rle8_multi false true D8Sse)|]. split; [now apply HB|]. split; [vm_compute; split; intros H; discriminate H|]. split; [exact I|]. vm_compute. split; [intros H; discriminate H|reflexivity].
  - exists 0, le_bounds, Always. split; [apply (L_only_max_frequency 255 (mkCpu true true)); auto|]. split; [now apply HB|]. split; [vm_compute; split; intros H; discriminate H|]. split; [exact I|]. vm_compute. split; [intros H; discriminate H|reflexivity].
  - assert (HF : forall x, a_n x <= 1000 -> fits x ex_buf) by (intros x Hx; unfold fits; cbn [b_at b_size ex_buf]; lia).
    repeat (apply Forall2_cons; [apply HF; vm_compute; intros H; discriminate H|]). apply Forall2_nil.
Qed.
