(** Properties of the low entropy codecs: [L] is 255 for rle8_low_entropy, 32 for
    rle8_low_entropy_short; [max] selects the _only_max_frequency compressors; [c] ranges over the
    processor features the decoders look at.  rle8m_compress with [subs] sections. *)
From Verif Require Import Base Simd Spec Spec2 ExtModel PktModel Rle8Model LeModel LeSpec LeTable LeEnc LeWorth LeThm LeExact RmThm LeBad ExtThm.

(** C10: holds if run length coding is not worth it for some byte value (the rule is in LeSpec.v), fails in every other
    case. *)
Theorem C10_low_entropy_round_trip_partial :
  RoundTripI false (SomeNotWorth 255) (le_compress 255 false false false) (le_size 255) (le_decs 255) 0.
Proof. exact (le_round_trip 255 false (or_introl eq_refl)). Qed.
Print Assumptions C10_low_entropy_round_trip_partial.
(** Exactly then, for both codecs. *)
Theorem C10_low_entropy_restores_iff : forall L In n cap out c, L = 255 \/ L = 32 -> byte_mem In -> 1 <= n <= max_in ->
  le_compress L false false false In n cap = COk out ->
  RestoresI false (le_decompress L c) 0 out In n <-> SomeNotWorth L In n.
Proof. exact le_restores_iff. Qed.
Print Assumptions C10_low_entropy_restores_iff.
(** In particular if some byte value never occurs twice in a row. *)
Theorem C10_low_entropy_lonely : forall L In n, L = 255 \/ L = 32 -> byte_mem In -> 1 <= n <= max_in -> SomeLonely In n -> SomeNotWorth L In n.
Proof. exact lonely_not_worth. Qed.
Print Assumptions C10_low_entropy_lonely.
(** The values with the bit set in the table are the ones that are worth it. *)
Theorem C10_low_entropy_flags : forall L In n b, 2 <= L -> byte_mem In -> 1 <= n <= max_in -> is_byte b ->
  li_rle (le_info L false In n) b = true <-> Worth L In n b.
Proof. exact rle_iff_worth. Qed.
Print Assumptions C10_low_entropy_flags.
(** In particular for all inputs shorter than 512 bytes. *)
Theorem C10_low_entropy_round_trip_small_partial : forall L In n cap,
  L = 255 \/ L = 32 -> byte_mem In -> 1 <= n < 512 -> le_size L n <= cap < 2 ^ 32 ->
  exists out, le_compress L false false false In n cap = COk out /\ forall dec, le_decs L dec -> RestoresI false dec 0 out In n.
Proof. exact le_round_trip_small. Qed.
Print Assumptions C10_low_entropy_round_trip_small_partial.
Theorem C10_low_entropy_round_trip_refuted : exists In n cap, byte_mem In /\ 1 <= n <= max_in /\ le_bounds n <= cap /\
  forall c, List.In c cpus -> exists out, le_compress 255 false false false In n cap = COk out /\
    ~ RestoresI false (le_decompress 255 c) 0 out In n.
Proof. exists twice, 512, 809. split; [exact twice_byte|]. split; [unfold max_in; lia|]. split; [now vm_compute|]. intros c Hc. exact (wrong3_refutes false _ _ (twice_255 c Hc)). Qed.
Print Assumptions C10_low_entropy_round_trip_refuted.

(** C11 *)
Theorem C11_only_max_frequency_round_trip : forall L, L = 255 \/ L = 32 ->
  RoundTripI false Always (le_compress L true false false) le_bounds (le_decs L) 0.
Proof. exact le_round_trip_max. Qed.
Print Assumptions C11_only_max_frequency_round_trip.

(** C12 *)
Theorem C12_low_entropy_short_round_trip_partial :
  RoundTripI false (SomeNotWorth 32) (le_compress 32 false false false) (le_size 32) (le_decs 32) 0.
Proof. exact (le_round_trip 32 false (or_intror eq_refl)). Qed.
Print Assumptions C12_low_entropy_short_round_trip_partial.
Theorem C12_low_entropy_short_round_trip_refuted : exists In n cap, byte_mem In /\ 1 <= n <= max_in /\ le_bounds n <= cap /\
  forall c, List.In c cpus -> exists out, le_compress 32 false false false In n cap = COk out /\
    ~ RestoresI false (le_decompress 32 c) 0 out In n.
Proof. exists twice, 512, 809. split; [exact twice_byte|]. split; [unfold max_in; lia|]. split; [now vm_compute|]. intros c Hc. exact (wrong3_refutes false _ _ (twice_32 c Hc)). Qed.
Print Assumptions C12_low_entropy_short_round_trip_refuted.

(** C13: the size of the stream has to be passed to decompress exactly (C38). *)
Theorem C13_rle8m_round_trip_partial : forall subs, 1 <= subs <= 2 ^ 28 ->
  RoundTripI true (rm_cond subs) (rm_compress subs false false) (fun n => rm_space subs n + 1) rm_decs 0.
Proof. exact rm_round_trip. Qed.
Print Assumptions C13_rle8m_round_trip_partial.
Theorem C13_rle8m_round_trip_refuted : exists In n cap, byte_mem In /\ 1 <= n <= max_in /\ rm_space 1 n < cap /\
  forall c, List.In c cpus -> exists out, rm_compress 1 false false In n cap = COk out /\
    ~ RestoresI true (rm_decompress c) 0 out In n.
Proof. exists twice, 512, 2000. split; [exact twice_byte|]. split; [unfold max_in; lia|]. split; [now vm_compute|]. intros c Hc. exact (wrong3_refutes true _ _ (twice_rm c Hc)). Qed.
Print Assumptions C13_rle8m_round_trip_refuted.

(** C21: these decoders write nothing behind the output. *)
Theorem C21_low_entropy_stays_inside : forall L max c, L = 255 \/ L = 32 ->
  StaysInsideI false Always (le_compress L max false false) (le_decompress L c) 0.
Proof. exact le_inside_always. Qed.
Print Assumptions C21_low_entropy_stays_inside.
Theorem C21_rle8m_stays_inside : forall subs c, 1 <= subs <= 2 ^ 28 ->
  StaysInsideI true (rm_cond subs) (rm_compress subs false false) (rm_decompress c) 0.
Proof. exact rm_inside. Qed.
Print Assumptions C21_rle8m_stays_inside.

(** C26: holds for _only_max_frequency, is false otherwise; [le_size] and [rm_space] are right. *)
Theorem C26_only_max_frequency_within_bounds : forall L, L = 255 \/ L = 32 ->
  WithinBound (le_compress L true false false) le_bounds.
Proof. exact le_max_within. Qed.
Print Assumptions C26_only_max_frequency_within_bounds.
Theorem C26_low_entropy_bounds_refuted : exists In n out, byte_mem In /\ 1 <= n <= max_in /\
  le_compress 255 false false false In n (le_bounds n) = COk out /\ le_bounds n < len out.
Proof. destruct (too_long_ok _ _ tail255_long) as (out & H). exists tail255, 771, out. split; [exact tail255_byte|]. split; [unfold max_in; lia|]. exact H. Qed.
Print Assumptions C26_low_entropy_bounds_refuted.
Theorem C26_low_entropy_short_bounds_refuted : exists In n out, byte_mem In /\ 1 <= n <= max_in /\
  le_compress 32 false false false In n (le_bounds n) = COk out /\ le_bounds n < len out.
Proof. destruct (too_long_ok _ _ tail32_long) as (out & H). exists tail32, 547, out. split; [exact tail32_byte|]. split; [unfold max_in; lia|]. exact H. Qed.
Print Assumptions C26_low_entropy_short_bounds_refuted.
Theorem C26_rle8m_bounds_refuted : exists In n out, byte_mem In /\ 1 <= n <= max_in /\
  rm_compress 1 false false In n (rm_bounds 1 n) = COk out /\ rm_bounds 1 n < len out.
Proof. destruct (too_long_ok _ _ tailrm_long) as (out & H). exists tail255, 771, out. split; [exact tail255_byte|]. split; [unfold max_in; lia|]. exact H. Qed.
Print Assumptions C26_rle8m_bounds_refuted.
Theorem C26_low_entropy_size : forall L max, L = 255 \/ L = 32 ->
  WithinBound (le_compress L max false false) (le_size L).
Proof. exact le_within. Qed.
Print Assumptions C26_low_entropy_size.
Theorem C26_rle8m_size : forall subs, 1 <= subs <= 2 ^ 28 -> WithinBound (rm_compress subs false false) (rm_space subs).
Proof. exact rm_within. Qed.
Print Assumptions C26_rle8m_size.

(** C28 *)
Theorem C28_low_entropy_compress_args : forall L max, L = 255 \/ L = 32 -> CompressArgsI (le_compress L max) le_bounds.
Proof. exact le_args. Qed.
Print Assumptions C28_low_entropy_compress_args.
Theorem C28_rle8m_compress_args : forall subs inNull outNull In n cap,
  0 <= n -> inNull = true \/ outNull = true \/ n = 0 \/ cap < rm_bounds subs n \/ subs = 0 \/ n < subs ->
  rm_compress subs inNull outNull In n cap = CRefused.
Proof. exact rm_args. Qed.
Print Assumptions C28_rle8m_compress_args.
Theorem C28_low_entropy_decompress_args : forall L c, DecompressArgsI (le_decompress L c).
Proof. exact le_dec_args. Qed.
Print Assumptions C28_low_entropy_decompress_args.
Theorem C28_rle8m_decompress_args : forall c, DecompressArgsI (rm_decompress c).
Proof. exact rm_dec_args. Qed.
Print Assumptions C28_rle8m_decompress_args.

(** C29 *)
Theorem C29_low_entropy_header : forall L max, L = 255 \/ L = 32 -> HeaderSizesI (le_compress L max false false).
Proof. exact le_header. Qed.
Print Assumptions C29_low_entropy_header.
(** rle8_low_entropy_decompressed_size, which rle8_low_entropy_short and rle8m share. *)
Theorem C29_low_entropy_decompressed_size : forall L max In n cap out C pin inSize,
  L = 255 \/ L = 32 -> byte_mem In -> 1 <= n <= max_in -> le_compress L max false false In n cap = COk out ->
  holds C pin out -> 0 < pin -> len out <= inSize -> le_decompressed_size C pin inSize = n.
Proof. exact le_decompressed_size_ok. Qed.
Print Assumptions C29_low_entropy_decompressed_size.
Theorem C29_low_entropy_truncated : forall L max c, L = 255 \/ L = 32 ->
  RejectsTruncated (le_compress L max false false) (le_decompress L c).
Proof. exact (fun L max c HL => le_truncated L max HL c). Qed.
Print Assumptions C29_low_entropy_truncated.
Theorem C29_rle8m_header : forall subs, 1 <= subs <= 2 ^ 28 -> HeaderSizesI (rm_compress subs false false).
Proof. exact rm_header. Qed.
Print Assumptions C29_rle8m_header.
Theorem C29_rle8m_truncated : forall subs c, 1 <= subs <= 2 ^ 28 ->
  RejectsTruncated (rm_compress subs false false) (rm_decompress c).
Proof. exact rm_truncated. Qed.
Print Assumptions C29_rle8m_truncated.

(** C30: holds for this family. *)
Theorem C30_low_entropy_input_only : forall L max, L = 255 \/ L = 32 -> InputOnly (le_compress L max false false).
Proof. exact le_input_only. Qed.
Print Assumptions C30_low_entropy_input_only.
Theorem C30_rle8m_input_only : forall subs, 0 <= subs -> InputOnly (rm_compress subs false false).
Proof. exact rm_input_only. Qed.
Print Assumptions C30_rle8m_input_only.

(** C32 *)
Theorem C32_low_entropy_decoders_agree : forall L max, L = 255 \/ L = 32 ->
  DecodersAgreeI false (le_cond L max) (le_compress L max false false) (le_decs L).
Proof. exact le_agree. Qed.
Print Assumptions C32_low_entropy_decoders_agree.
Theorem C32_rle8m_decoders_agree : forall subs, 1 <= subs <= 2 ^ 28 ->
  DecodersAgreeI true (rm_cond subs) (rm_compress subs false false) rm_decs.
Proof. exact rm_agree. Qed.
Print Assumptions C32_rle8m_decoders_agree.

(** C34: what the decoder reads from the table inverts what the encoder writes with it: run length
    [k] is written as the byte [tab 0 (li_syms info) k] and read as [stc] of that byte. *)
Theorem C34_table_bijection : forall L max In n C p rest,
  let info := le_info L max In n in
  holds C p (write_info info ++ rest) ->
  exists rle stc, read_info C p = (rle, stc, len (write_info info)) /\
    (forall b, is_byte b -> rle b = li_rle info b) /\
    (forall k, 0 <= k < 256 -> is_byte (tab 0 (li_syms info) k) /\ stc (tab 0 (li_syms info) k) = k) /\
    (forall b, is_byte b -> 0 <= stc b < 256 /\ tab 0 (li_syms info) (stc b) = b).
Proof. exact le_table_bijection. Qed.
Print Assumptions C34_table_bijection.

(** C38: a byte behind the stream is written behind the output. *)
Theorem C38_rle8m_surplus_input_refuted : exists In n cap out, byte_mem In /\ 1 <= n <= max_in /\
  rm_compress 1 false false In n cap = COk out /\
  forall c, List.In c cpus -> exists C pin M pout r M',
    holds C pin out /\ rm_decompress c C pin (len out + 1) M pout n = DRet r M' /\ M' (pout + n) <> M (pout + n).
Proof. exact rm_surplus. Qed.
Print Assumptions C38_rle8m_surplus_input_refuted.

(** Sample inputs: compressed, decompressed, compared. *)
Definition runs3 : mem := fun k => if k mod 20 <? 9 then 5 else if k mod 20 =? 9 then 77 else (k / 20) mod 50.
Example runs3_lonely : SomeLonely runs3 200.
Proof. exists 77. split; [unfold is_byte; lia|]. intros k Hk [H1 H2]. unfold runs3 in *. destruct (k mod 20 <? 9) eqn:E1; [lia|]. destruct (k mod 20 =? 9) eqn:E2; destruct ((k + 1) mod 20 <? 9) eqn:E3; destruct ((k + 1) mod 20 =? 9) eqn:E4; lia. Qed.
(** Every value occurs in a row, but the run and the single byte of 0 are not worth it. *)
Definition twice_and : mem := fun k => if k <? 512 then twice k else 0.
Example twice_and_not_worth : SomeNotWorth 255 twice_and 513 /\ SomeNotWorth 32 twice_and 513.
Proof. split; exists 0; (split; [unfold is_byte; lia|]); intros [_ H]; vm_compute in H; apply H; reflexivity. Qed.
Example twice_worth : forallb (fun b => (0 <? occ twice 512 b) && (2 * pieces 255 twice 512 b <=? occ twice 512 b)) (slice (fun k => k) 0 256) = true.
Proof. vm_compute. reflexivity. Qed.
Definition le_test (comp : compressor) (dec : cpu -> decompressor) : bool :=
  match comp runs3 200 2000 with
  | COk out => forallb (fun c => match dec c (store (fun _ => 0) 1001 out) 1001 (len out) (fun _ => 0) 100003 200 with
      | DRet r M' => (r =? 200) && eqb_bytes (slice M' 100003 200) (slice runs3 0 200) | _ => false end) cpus
  | _ => false
  end.
Example C10_example : le_test (le_compress 255 false false false) (le_decompress 255) = true. Proof. vm_compute. reflexivity. Qed.
Example C11_example : le_test (le_compress 255 true false false) (le_decompress 255) && le_test (le_compress 32 true false false) (le_decompress 32) = true. Proof. vm_compute. reflexivity. Qed.
Example C12_example : le_test (le_compress 32 false false false) (le_decompress 32) = true. Proof. vm_compute. reflexivity. Qed.
Example C13_example : le_test (rm_compress 3 false false) rm_decompress = true. Proof. vm_compute. reflexivity. Qed.
