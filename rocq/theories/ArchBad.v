(** Streams in a row whose outputs must not be restored in another order. *)
From Verif Require Import Base Spec Spec2 Simd ExtModel ExtThm ArchSpec ArchThm ArchLib.
From Coq Require Import Permutation.

Definition bad_codec : xcfg := mkX 2 true false false.
Definition bad_1 : piece := mkPiece (xcomp bad_codec Sse2) (xdecompress bad_codec DSse) 4 (fun _ => 5) 1 400.
Definition bad_2 : piece := mkPiece (xcomp bad_codec Sse2) (xdecompress bad_codec DSse) 4 (fun k => 1 + k mod 200) 20 400.
Definition bytes_of (r : cres) : list Z := match r with COk b => b | _ => [] end.
Definition bad_bytes : list Z := Eval vm_compute in
  bytes_of (a_comp bad_1 (a_In bad_1) 1 400) ++ bytes_of (a_comp bad_2 (a_In bad_2) 20 400).
Definition bad_C : mem := fun k => nth (Z.to_nat (k - 16)) bad_bytes 0.
Definition bad_jobs : list job := rev (jobs (decoders [bad_1; bad_2]) bad_C 16 100).

Lemma bad_packed : packed [bad_1; bad_2] bad_bytes.
Proof.
  assert (E : bad_bytes = bytes_of (a_comp bad_1 (a_In bad_1) 1 400) ++ bytes_of (a_comp bad_2 (a_In bad_2) 20 400) ++ []) by (vm_compute; reflexivity).
  rewrite E. constructor; [vm_compute; reflexivity|]. constructor; [vm_compute; reflexivity|constructor].
Qed.
Lemma bad_library : Forall (library_piece 128) [bad_1; bad_2].
Proof.
  constructor; [|constructor; [|constructor]]; exists rle_compress_bounds, Always; (split; [apply L_ext; vm_compute; tauto|]).
  - cbn [bad_1 a_In a_n a_cap]. split; [intros k; unfold is_byte; lia|]. split; [unfold max_in; lia|]. split; [exact I|]. vm_compute. split; [intros H; discriminate H|reflexivity].
  - cbn [bad_2 a_In a_n a_cap]. split; [intros k; unfold is_byte; lia|]. split; [unfold max_in; lia|]. split; [exact I|]. vm_compute. split; [intros H; discriminate H|reflexivity].
Qed.

Lemma row_any_order_refuted : exists xs bytes C pin pout outEnd js, Forall (library_piece 128) xs /\ packed xs bytes /\
  placed C bytes pin pout (total xs) outEnd /\ Permutation (jobs (decoders xs) C pin pout) js /\
  ~ Unpacks xs C js pout outEnd rle_decompress_additional_size.
Proof.
  exists [bad_1; bad_2], bad_bytes, bad_C, 16, 100, 300, bad_jobs.
  split; [exact bad_library|]. split; [exact bad_packed|]. split; [|split].
  - split; [vm_compute; repeat split|]. change (total [bad_1; bad_2]) with 21. change (len bad_bytes) with (Z.of_nat (length bad_bytes)).
    assert (E : (length bad_bytes <= 1000)%nat) by (vm_compute; lia). lia.
  - apply Permutation_rev.
  - intros H. destruct (H (fun _ => 0)) as (M' & E & Hs & _).
    assert (K : match do_jobs bad_jobs bad_C 300 (fun _ => 0) with
                | Some M => if list_eq_dec Z.eq_dec (slice M 100 21) (contents [bad_1; bad_2]) then false else true
                | None => true end = true) by (vm_compute; reflexivity).
    rewrite E in K. change (total [bad_1; bad_2]) with 21 in Hs. rewrite Hs in K. destruct (list_eq_dec Z.eq_dec _ _) as [_|N]; [discriminate K|]. now apply N.
Qed.
