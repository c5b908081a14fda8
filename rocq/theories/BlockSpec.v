(** Data of any size, cut into blocks that are compressed one after the other: what a program does with a file that is
    larger than the compressors take. *)
From Verif Require Import Base Spec ArchSpec.

(** The data: [N] bytes of [In]; blocks of [B] bytes, the last one may be shorter; one output buffer of [cap] bytes for all. *)
Definition block_count (N B : Z) : nat := Z.to_nat ((N + B - 1) / B).
Definition block (comp : compressor) (dec : decompressor) (f : Z) (In : mem) (N B cap : Z) (i : nat) : piece :=
  mkPiece comp dec f (fun k => In (Z.of_nat i * B + k)) (Z.min B (N - Z.of_nat i * B)) cap.
Definition blocks comp dec f In N B cap : list piece := map (block comp dec f In N B cap) (seq 0 (block_count N B)).

(** All blocks can be compressed; the streams in a row, wherever they lie, are found by their headers, and as many calls of the
    decompressor as there are blocks restore the data. *)
Definition BlocksRestored (slack : Z) (comp : compressor) (dec : decompressor) (f : Z) (In : mem) (N B cap : Z) : Prop :=
  exists bytes, packed (blocks comp dec f In N B cap) bytes /\
  forall C pin pout outEnd M, placed C bytes pin pout N outEnd ->
  exists M', do_jobs (jobs (repeat (dec, f) (block_count N B)) C pin pout) C outEnd M = Some M' /\ slice M' pout N = slice In 0 N /\
    forall x, x < pout \/ pout + N + slack <= x -> M' x = M x.

(** Every block by itself: the headers lead to its stream, and the decompressor called for it alone restores it anywhere. *)
Definition BlockRestored (slack : Z) (dec : decompressor) (f : Z) (In : mem) (N B : Z) (bytes : list Z) (i : Z) : Prop :=
  let size := Z.min B (N - i * B) in
  forall C pin any, holds C pin bytes -> 0 < pin -> pin + len bytes + 1024 < 2 ^ 64 ->
  exists j, nth_error (jobs (repeat (dec, f) (block_count N B)) C pin any) (Z.to_nat i) = Some j /\
  forall M pout outSize, 0 < pout -> pout + size + 1024 < 2 ^ 64 -> size <= outSize ->
  exists M', dec C (j_in j) (j_size j) M pout outSize = DRet size M' /\ slice M' pout size = slice In (i * B) size /\
    forall x, x < pout \/ pout + size + slack <= x -> M' x = M x.
