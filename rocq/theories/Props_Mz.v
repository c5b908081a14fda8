(** Properties of rle8_mmtf128.  [undef] is the content of the accumulator currentBitMask, which
    the code does not initialise; [M] and [pout] are the content of the memory and the address of
    the output buffer before the call. *)
From Verif Require Import Base Simd Spec Spec2 ExtModel MtfModel MzModel MzBits MzPack MzDec MzEnc MzThm.

(** C19 *)
Theorem C19_rle8_mmtf128_round_trip : forall undef M pout,
  RoundTrip (mz_compress undef M pout false false) (fun n => n + 13) mzdecs 0.
Proof. exact mz_round_trip. Qed.
Print Assumptions C19_rle8_mmtf128_round_trip.

(** C21: the decoder writes nothing behind the output. *)
Theorem C21_rle8_mmtf128_stays_inside : forall undef M pout, StaysInside (mz_compress undef M pout false false) mz_decompress 0.
Proof. exact mz_inside. Qed.
Print Assumptions C21_rle8_mmtf128_stays_inside.

(** C24: false of the code; [n + 13] bytes are enough. *)
Theorem C24_rle8_mmtf128_bounds_refuted : forall undef M pout, exists In n out, byte_mem In /\ 1 <= n <= max_in /\
  mz_compress undef M pout false false In n (mz_bounds n) = COk out /\ mz_bounds n < len out.
Proof. exact mz_bounds_exceeded. Qed.
Print Assumptions C24_rle8_mmtf128_bounds_refuted.
Theorem C24_rle8_mmtf128_size : forall undef M pout, WithinBound (mz_compress undef M pout false false) (fun n => n + 13).
Proof. exact mz_within. Qed.
Print Assumptions C24_rle8_mmtf128_size.
Theorem C24_rle8_mmtf128_writes : forall undef In n M pout r M',
  byte_mem In -> 1 <= n <= max_in -> mz_run undef In n M pout = Some (r, M') ->
  r <= n + 13 /\ forall x, x < pout \/ pout + n + 13 <= x -> M' x = M x.
Proof. exact mz_writes. Qed.
Print Assumptions C24_rle8_mmtf128_writes.

(** C28 *)
Theorem C28_rle8_mmtf128_compress_args : forall undef M pout, CompressArgs (mz_compress undef M pout) mz_bounds.
Proof. exact mz_args. Qed.
Print Assumptions C28_rle8_mmtf128_compress_args.
Theorem C28_rle8_mmtf128_decompress_args : DecompressArgs mz_decompress.
Proof. exact mz_dec_args. Qed.
Print Assumptions C28_rle8_mmtf128_decompress_args.

(** C29 *)
Theorem C29_rle8_mmtf128_header : forall undef M pout, HeaderSizes (mz_compress undef M pout false false).
Proof. exact mz_header. Qed.
Print Assumptions C29_rle8_mmtf128_header.
Theorem C29_rle8_mmtf128_truncated : forall undef M pout, RejectsTruncated (mz_compress undef M pout false false) mz_decompress.
Proof. exact mz_truncated. Qed.
Print Assumptions C29_rle8_mmtf128_truncated.

(** C30: only the input bytes are read, but the stream depends on the accumulator. *)
Theorem C30_rle8_mmtf128_input_only : forall undef M pout, InputOnly (mz_compress undef M pout false false).
Proof. exact mz_input_only. Qed.
Print Assumptions C30_rle8_mmtf128_input_only.
Theorem C30_rle8_mmtf128_undefined_refuted : exists undef1 undef2 In n cap out1 out2, byte_mem undef1 /\ byte_mem undef2 /\ byte_mem In /\ 1 <= n <= max_in /\ n + 13 <= cap /\
  mz_compress undef1 (fun _ => 0) 16 false false In n cap = COk out1 /\ mz_compress undef2 (fun _ => 0) 16 false false In n cap = COk out2 /\ out1 <> out2.
Proof. exact mz_undefined. Qed.
Print Assumptions C30_rle8_mmtf128_undefined_refuted.

(** C36: [packs] packs [c] blocks of 16 values at [p] to [q], in place or to lower addresses;
    [unpacked] are the blocks the decoder sees. *)
Theorem C36_packing_lossless : forall m M p q c,
  0 <= c < 2 ^ 40 -> q <= p -> (forall i, 0 <= i < 16 * c -> 0 <= M (p + i) < 2 ^ pw m) ->
  exists q' M', packs m M p q (c * 16) = Some (q', M') /\ q' = q + len (body m M p c) /\ q' <= q + 16 * c /\
    len (unpacked m M' q c) = c /\ forall i j, 0 <= i < c -> 0 <= j < 16 -> nth (Z.to_nat i) (unpacked m M' q c) (fun _ => 0) j = M (p + 16 * i + j).
Proof. exact pack_lossless. Qed.
Print Assumptions C36_packing_lossless.
Theorem C36_decoder_unpacks : forall C p m c st, 0 <= c < 2 ^ 29 -> holds C p (hdr m c) ->
  dcopy C p st = Some (p + len (hdr m c) + blen m c, fold_left dblock (unpacked m C (p + len (hdr m c)) c) st).
Proof. exact dcopy_unpacked. Qed.
Print Assumptions C36_decoder_unpacks.

(** Samples. *)
Definition mz_data : mem := fun k => if k <? 48 then k mod 5 else if k <? 112 then 7 else if k <? 150 then (k * k) mod 251 else 0.
Lemma mz_data_byte : byte_mem mz_data.
Proof. intros k. unfold mz_data, is_byte. destruct (k <? 48); [lia|]. destruct (k <? 112); [lia|]. destruct (k <? 150); lia. Qed.
Definition mz_test (undef : Z) (n : Z) : option (Z * bool) :=
  match mz_compress (fun _ => undef) (fun _ => 170) 16 false false mz_data n (n + 13) with
  | COk out =>
      match mz_decompress (fun a => nth (Z.to_nat (a - 16)) out 0) 16 (len out) (fun _ => 0) 16 n with
      | DRet r M => Some (len out, (r =? n) && forallb (fun k => M (16 + k) =? mz_data k) (lanes n))
      | _ => None
      end
  | _ => None
  end.
Example mz_samples : map (fun n => (mz_test 0 n, mz_test 255 n)) [1; 16; 17; 200] =
  [(Some (11, true), Some (11, true)); (Some (16, true), Some (26, true)); (Some (17, true), Some (27, true)); (Some (109, true), Some (139, true))].
Proof. vm_compute. reflexivity. Qed.
(** The hypotheses of the packing theorem: five blocks of values below 4, packed three bytes down. *)
Definition pack_data : mem := fun a => (a * a) mod 4.
Example pack_values : forall i, 0 <= i < 16 * 5 -> 0 <= pack_data (20 + i) < 2 ^ pw P2.
Proof. intros i _. unfold pack_data. cbn [pw]. lia. Qed.
Example pack_sample : match pack2 pack_data 20 17 80 with
  | Some (q, M) => (q, forallb (fun i => forallb (fun j => nth (Z.to_nat i) (unpacked P2 M 17 5) (fun _ => 0) j =? pack_data (20 + 16 * i + j)) (lanes 16)) (lanes 5))
  | None => (0, false) end = (37, true).
Proof. vm_compute. reflexivity. Qed.
