(** C83: data of any size, compressed in blocks. *)
From Verif Require Import Base Spec Spec2 Simd ExtModel ExtThm LeModel LeSpec LeThm ArchSpec ArchLib BlockSpec BlockThm.

(** Any codec of the library, data of any size, blocks of any size up to 2^30: a buffer that suffices for a whole block suffices for
    all of them, and the blocks are restored one behind the other, also when the data is larger than 2 or 4 GiB.  Condition for
    the codecs that need one: no block is one of those that the format can not hold (C10, C12, C13). *)
Theorem C83_blocks_restored : forall slack comp dec f need ok In N B cap, library slack comp dec f need ok -> byte_mem In -> 0 <= N ->
  1 <= B <= max_in -> need B <= cap < 2 ^ 32 -> (forall i, 0 <= i -> i * B < N -> ok (fun k => In (i * B + k)) (Z.min B (N - i * B))) ->
  BlocksRestored rle_decompress_additional_size comp dec f In N B cap.
Proof. exact library_blocks. Qed.
Print Assumptions C83_blocks_restored.

(** Random access: every block can be restored by itself, found by the headers in front of it. *)
Theorem C83_each_block_restored : forall slack comp dec f need ok In N B cap bytes i, library slack comp dec f need ok -> byte_mem In -> 0 <= N ->
  1 <= B <= max_in -> need B <= cap < 2 ^ 32 -> (forall i, 0 <= i -> i * B < N -> ok (fun k => In (i * B + k)) (Z.min B (N - i * B))) ->
  packed (blocks comp dec f In N B cap) bytes -> 0 <= i -> i * B < N -> BlockRestored slack dec f In N B bytes i.
Proof. exact library_block. Qed.
Print Assumptions C83_each_block_restored.

(** *** Examples *)
Definition ex_x : xcfg := mkX 4 true true true.
(** 100 GiB in blocks of 1 GiB. *)
Example C83_large : BlocksRestored 128 (xcomp ex_x Avx2) (xdecompress ex_x DSse) 4 (fun k => k mod 7) (100 * 2 ^ 30 + 5) (2 ^ 30) (2 ^ 30 + 193).
Proof.
  apply (C83_blocks_restored 128 _ _ _ rle_compress_bounds Always); [apply L_ext; vm_compute; tauto|intros k; unfold is_byte; lia|lia|unfold max_in; lia|rewrite Codec.bounds_193 by (unfold max_in; lia); lia|intros; exact I].
Qed.
Example C83_large_count : block_count (100 * 2 ^ 30 + 5) (2 ^ 30) = 101%nat.
Proof. vm_compute. reflexivity. Qed.
(** 40 bytes in blocks of 16, computed. *)
Example C83_small :
  let xs := blocks (xcomp ex_x Avx2) (xdecompress ex_x DSse) 4 (fun k => k / 20) 40 16 300 in
  let streams := map (fun x => match a_comp x (a_In x) (a_n x) (a_cap x) with COk out => out | _ => [] end) xs in
  map a_n xs = [16; 16; 8] /\ map len streams = [19; 27; 23] /\
  match do_jobs (jobs (repeat (xdecompress ex_x DSse, 4) 3) (fun y => nth (Z.to_nat (y - 16)) (concat streams) 0) 16 100) (fun y => nth (Z.to_nat (y - 16)) (concat streams) 0) 140 (fun _ => 77) with
  | Some M' => slice M' 100 40 = slice (fun k => k / 20) 0 40
  | None => False end.
Proof. vm_compute. repeat split; reflexivity. Qed.
(** The last of these blocks by itself. *)
Example C83_third :
  let xs := blocks (xcomp ex_x Avx2) (xdecompress ex_x DSse) 4 (fun k => k / 20) 40 16 300 in
  let bytes := concat (map (fun x => match a_comp x (a_In x) (a_n x) (a_cap x) with COk out => out | _ => [] end) xs) in
  match nth_error (jobs (repeat (xdecompress ex_x DSse, 4) 3) (fun y => nth (Z.to_nat (y - 16)) bytes 0) 16 100) 2 with
  | Some j => j_in j = 62 /\ j_size j = 23 /\
      match xdecompress ex_x DSse (fun y => nth (Z.to_nat (y - 16)) bytes 0) (j_in j) (j_size j) (fun _ => 77) 500 8 with
      | DRet r M' => r = 8 /\ slice M' 499 9 = [77; 1; 1; 1; 1; 1; 1; 1; 1]
      | DDiverge => False end
  | None => False end.
Proof. vm_compute. repeat split; reflexivity. Qed.
