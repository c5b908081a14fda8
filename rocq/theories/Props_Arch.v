(** C75: streams stored one behind the other. *)
From Verif Require Import Base Spec Spec2 Simd ExtModel ExtThm Rle8Model Rle8Thm LeModel LeThm MzModel ArchSpec ArchThm ArchLib ArchBad.
From Coq Require Import Permutation.

(** Any number of pieces, each compressed by any codec of the library, have streams; stored in a row anywhere, with anything
    behind them, they are found by their headers and restored one behind the other. *)
Theorem C75_row_in_order : forall xs, Forall (fun x => exists s, library_piece s x) xs -> exists bytes, packed xs bytes /\
  forall C pin pout outEnd, placed C bytes pin pout (total xs) outEnd ->
  Unpacks xs C (jobs (decoders xs) C pin pout) pout outEnd rle_decompress_additional_size.
Proof. exact (fun xs H => match row_packs xs H with ex_intro _ b Hb => ex_intro _ b (conj Hb (fun C pin pout outEnd HP => row_in_order xs b C pin pout outEnd H Hb HP)) end). Qed.
Print Assumptions C75_row_in_order.

(** The low entropy codecs, rle8m, rle8_mmtf128 and rle8_sh may be restored in any order. *)
Theorem C75_row_any_order_partial : forall xs bytes C pin pout outEnd js, Forall (library_piece 0) xs -> packed xs bytes ->
  placed C bytes pin pout (total xs) outEnd -> Permutation (jobs (decoders xs) C pin pout) js -> Unpacks xs C js pout outEnd 0.
Proof. exact row_any_order. Qed.
Print Assumptions C75_row_any_order_partial.

(** The others may not: a later call for an earlier piece writes behind its output, over the piece that follows. *)
Theorem C75_row_any_order_refuted : exists xs bytes C pin pout outEnd js, Forall (library_piece 128) xs /\ packed xs bytes /\
  placed C bytes pin pout (total xs) outEnd /\ Permutation (jobs (decoders xs) C pin pout) js /\
  ~ Unpacks xs C js pout outEnd rle_decompress_additional_size.
Proof. exact row_any_order_refuted. Qed.
Print Assumptions C75_row_any_order_refuted.

(** Three pieces of different codecs. *)
Definition ex_pieces : list piece :=
  [mkPiece (xcomp (mkX 4 true true true) Avx2) (xdecompress (mkX 4 true true true) DSse) 4 (fun k => if k <? 7 then 3 else 200) 40 400;
   mkPiece (mz_compress (fun _ => 77) (fun _ => 9) 50 false false) mz_decompress 4 (fun _ => 1) 33 400;
   mkPiece (le_compress 255 true false false) (le_decompress 255 (mkCpu true false)) 0 (fun k => if k <? 20 then 8 else 9) 25 400].
Example C75_example : Forall (fun x => exists s, library_piece s x) ex_pieces.
Proof.
  repeat constructor.
  - exists 128, rle_compress_bounds, Always. split; [apply L_ext; vm_compute; tauto|]. cbn [a_In a_n a_cap].
    split; [intros k; unfold is_byte; destruct (k <? 7); lia|]. split; [unfold max_in; lia|]. split; [exact I|]. vm_compute. split; [intros H; discriminate H|reflexivity].
  - exists 0, (fun n => n + 13), Always. split; [apply L_rle8_mmtf128|]. cbn [a_In a_n a_cap].
    split; [intros k; unfold is_byte; lia|]. split; [unfold max_in; lia|]. split; [exact I|]. lia.
  - exists 0, le_bounds, Always. split; [apply L_only_max_frequency; auto|]. cbn [a_In a_n a_cap].
    split; [intros k; unfold is_byte; destruct (k <? 20); lia|]. split; [unfold max_in; lia|]. split; [exact I|]. vm_compute. split; [intros H; discriminate H|reflexivity].
Qed.
Example C75_example_bad_jobs : map (fun j => (j_in j, j_size j, j_out j)) bad_jobs = [(37, 40, 101); (16, 21, 100)].
Proof. vm_compute. reflexivity. Qed.
