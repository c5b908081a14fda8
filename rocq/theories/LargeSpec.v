(** Inputs of more than 1 GiB: [rle_compress_bounds] (src/rle8_extreme_cpu.c:22-28) reports 0 for
    them, so that no size of the output buffer makes the compressors refuse them. *)
From Verif Require Import Base Spec.

(** The largest size for which no field of the formats overflows: the shortest ones, the literal
    lengths of the byte_packed formats and of rle8_packed_multi, have 31 bits, count one too many,
    and the last literals may lie up to one symbol (16 bytes) behind the end of the input. *)
Definition large_in : Z := 2 ^ 31 - 20.

Lemma max_large n : n <= max_in -> n <= large_in.
Proof. unfold max_in, large_in. lia. Qed.
Lemma max_large1 n : 1 <= n <= max_in -> 1 <= n <= large_in.
Proof. unfold max_in, large_in. lia. Qed.

(** Whatever [comp] makes of an input of at most [most] bytes, given a buffer of [space] bytes,
    fits into the buffer and is restored by each of the decompressors. *)
Definition RestoredUpTo (most : Z) (space : Z -> Z) (comp : compressor) (decs : decompressor -> Prop) (slack : Z) : Prop :=
  forall In n cap, byte_mem In -> 1 <= n <= most -> space n <= cap ->
    exists out, comp In n cap = COk out /\ len out <= cap /\ len out < 2 ^ 32 /\
      forall dec, decs dec -> Restores dec slack out In n.
