(** Properties of rle8_sh.  [M] and [pout] are the content of the memory and the address of the
    output buffer before the call; [sh_need n] is [n + n / 128 + 19]. *)
From Verif Require Import Base Simd Spec Spec2 ExtModel MtfModel MzModel HsModel HsThm.

(** C20: false at the documented size, true with [sh_need n] bytes. *)
Theorem C20_rle8_sh_round_trip : forall M pout, RoundTrip (sh_compress M pout false false) sh_need shdecs 0.
Proof. exact sh_round_trip. Qed.
Print Assumptions C20_rle8_sh_round_trip.
Theorem C20_rle8_sh_corrupted_refuted : exists In n out C pin M pout M', byte_mem In /\ 1 <= n <= max_in /\
  sh_compress (fun _ => 0) 16 false false In n (sh_bounds n) = COk out /\ holds C pin out /\ 0 < pin /\ 0 < pout /\
  sh_decompress C pin (len out) M pout n = DRet n M' /\ slice M' pout n <> slice In 0 n.
Proof. exact sh_corrupted. Qed.
Print Assumptions C20_rle8_sh_corrupted_refuted.

(** C21: the decoder writes nothing behind the output. *)
Theorem C21_rle8_sh_stays_inside : forall M pout In n cap out C pin inSize M1 pout1 outSize,
  byte_mem In -> 1 <= n <= max_in -> sh_need n <= cap -> sh_compress M pout false false In n cap = COk out ->
  holds C pin out -> 0 < pin -> pin + len out + 1024 < 2 ^ 64 -> len out <= inSize -> 0 < pout1 -> pout1 + n + 1024 < 2 ^ 64 -> n <= outSize ->
  exists M', sh_decompress C pin inSize M1 pout1 outSize = DRet n M' /\ forall x, x < pout1 \/ pout1 + n <= x -> M' x = M1 x.
Proof. exact sh_inside. Qed.
Print Assumptions C21_rle8_sh_stays_inside.

(** C25: false of the code; [sh_need n] bytes are enough. *)
Theorem C25_rle8_sh_bounds_refuted : forall M pout, exists In n r M', byte_mem In /\ 1 <= n <= max_in /\
  sh_run In n (sh_bounds n) M pout = Some (r, M') /\ sh_compress M pout false false In n (sh_bounds n) = COk (slice M' pout r) /\ sh_bounds n < r.
Proof. exact sh_bounds_exceeded. Qed.
Print Assumptions C25_rle8_sh_bounds_refuted.
Theorem C25_rle8_sh_size : forall M pout, WithinBound (sh_compress M pout false false) (fun n => n + n / 128 + 19).
Proof. exact sh_within. Qed.
Print Assumptions C25_rle8_sh_size.
Theorem C25_rle8_sh_writes : forall In n cap M pout r M',
  byte_mem In -> 1 <= n <= max_in -> sh_need n <= cap -> sh_run In n cap M pout = Some (r, M') ->
  r <= cap /\ forall x, x < pout \/ pout + cap <= x -> M' x = M x.
Proof. exact sh_writes. Qed.
Print Assumptions C25_rle8_sh_writes.

(** C27 *)
Theorem C27_rle8_sh_oversize_refuted : forall M pout In n cap, 2 ^ 30 < n -> 0 <= cap -> sh_compress M pout false false In n cap <> CRefused.
Proof. exact sh_oversize. Qed.
Print Assumptions C27_rle8_sh_oversize_refuted.

(** C28 *)
Theorem C28_rle8_sh_compress_args : forall M pout, CompressArgs (sh_compress M pout) mz_bounds.
Proof. exact sh_args. Qed.
Print Assumptions C28_rle8_sh_compress_args.
Theorem C28_rle8_sh_decompress_args : DecompressArgs sh_decompress.
Proof. exact sh_dec_args. Qed.
Print Assumptions C28_rle8_sh_decompress_args.

(** C29 *)
Theorem C29_rle8_sh_header : forall M pout, HeaderSizes (sh_compress M pout false false).
Proof. exact sh_header. Qed.
Print Assumptions C29_rle8_sh_header.
Theorem C29_rle8_sh_truncated : forall M pout, RejectsTruncated (sh_compress M pout false false) sh_decompress.
Proof. exact sh_truncated. Qed.
Print Assumptions C29_rle8_sh_truncated.

(** C30: only the input bytes matter; with [sh_need n] bytes neither the capacity nor the memory does. *)
Theorem C30_rle8_sh_input_only : forall M pout In1 In2 n cap, byte_mem In1 -> 0 <= n <= max_in -> (forall k, 0 <= k < n -> In1 k = In2 k) ->
  sh_compress M pout false false In1 n cap = sh_compress M pout false false In2 n cap.
Proof. exact sh_input_only. Qed.
Print Assumptions C30_rle8_sh_input_only.
Theorem C30_rle8_sh_memory : forall M1 pout1 cap1 M2 pout2 cap2 In n, byte_mem In -> 1 <= n <= max_in -> sh_need n <= cap1 -> sh_need n <= cap2 ->
  sh_compress M1 pout1 false false In n cap1 = sh_compress M2 pout2 false false In n cap2.
Proof. exact sh_memory. Qed.
Print Assumptions C30_rle8_sh_memory.

(** C33: a stream of 115 bytes with a one-byte output buffer writes 100 bytes. *)
Theorem C33_rle8_sh_hostile_refuted : exists C M pout outSize, (forall a, is_byte (C a)) /\
  match sh_decompress C 4096 115 M pout outSize with DRet r M' => r = 1 /\ outSize = 1 /\ M' (pout + 99) <> M (pout + 99) | DDiverge => False end.
Proof. exact sh_hostile. Qed.
Print Assumptions C33_rle8_sh_hostile_refuted.

(** Samples. *)
Definition sh_data : mem := fun k =>
  if k <? 40 then k * k mod 7 + 125 else if k <? 60 then 9 else if k <? 300 then (if k mod 2 =? 0 then 9 else k * k mod 251 )
  else if k <? 350 then 9 else k * k mod 251.
Lemma sh_data_byte : byte_mem sh_data.
Proof. intros k. unfold sh_data, is_byte. destruct (k <? 40); [lia|]. destruct (k <? 60); [lia|]. destruct (k <? 300); [destruct (k mod 2 =? 0); lia|]. destruct (k <? 350); lia. Qed.
Definition sh_test (n : Z) : option (Z * bool) :=
  match sh_compress (fun _ => 170) 16 false false sh_data n (sh_need n) with
  | COk out =>
      match sh_decompress (fun a => nth (Z.to_nat (a - 16)) out 0) 16 (len out) (fun _ => 0) 16 n with
      | DRet r M => Some (len out, (r =? n) && forallb (fun k => M (16 + k) =? sh_data k) (lanes n))
      | _ => None
      end
  | _ => None
  end.
Example sh_samples : map sh_test [1; 2; 60; 345; 700] = [Some (15, true); Some (15, true); Some (75, true); Some (215, true); Some (570, true)].
Proof. vm_compute. reflexivity. Qed.
