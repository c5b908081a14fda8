(** C78: streams tell their inputs apart.  C79: they do not tell their codecs apart. *)
From Verif Require Import Base Spec Spec2 Simd ExtModel ExtThm Rle8Model Rle8Thm LutModel LeModel LeThm MzModel LargeSpec ArchSpec ArchLib TellThm TellLe TellBad TellKind.

(** Two inputs, compressed by any implementations whose streams are for the same decompressor: if one stream is the other one
    or the beginning of it, the streams and the inputs are the same. *)
Theorem C78_stream_tells : forall s t x y out rest, library_piece s x -> library_piece t y -> a_dec x = a_dec y -> a_field x = a_field y ->
  a_comp x (a_In x) (a_n x) (a_cap x) = COk out -> a_comp y (a_In y) (a_n y) (a_cap y) = COk (out ++ rest) -> len out < 2 ^ 63 ->
  rest = [] /\ slice (a_In x) 0 (a_n x) = slice (a_In y) 0 (a_n y).
Proof. exact stream_tells. Qed.
Print Assumptions C78_stream_tells.

(** For the low entropy codecs this holds of all inputs, also of those that the decompressors cannot restore (C10). *)
Theorem C78_low_entropy_tells : forall L max max' In In' n n' cap cap' out rest, L = 255 \/ L = 32 -> byte_mem In -> byte_mem In' ->
  1 <= n <= large_in -> 1 <= n' <= large_in ->
  le_compress L max false false In n cap = COk out -> le_compress L max' false false In' n' cap' = COk (out ++ rest) ->
  rest = [] /\ slice In 0 n = slice In' 0 n'.
Proof. exact low_entropy_tells. Qed.
Print Assumptions C78_low_entropy_tells.

(** Two rows of streams of any codecs, the same ones in both. *)
Theorem C78_row_tells : forall xs ys b rest, Forall (fun x => exists s, library_piece s x) xs -> Forall (fun y => exists s, library_piece s y) ys ->
  decoders xs = decoders ys -> packed xs b -> packed ys (b ++ rest) -> len b < 2 ^ 63 ->
  rest = [] /\ map (fun x => slice (a_In x) 0 (a_n x)) xs = map (fun y => slice (a_In y) 0 (a_n y)) ys.
Proof. exact row_tells. Qed.
Print Assumptions C78_row_tells.

(** With the decompressor of another codec, success may be reported although the input is not restored. *)
Theorem C79_wrong_codec_refuted : forall S v d, List.In S xsizes -> exists In n cap out C M M', byte_mem In /\ 1 <= n <= max_in /\
  xcomp (mkX S false false false) v In n cap = COk out /\ holds C 1 out /\
  xdecompress (mkX S true false false) d C 1 (len out) M 1 n = DRet n M' /\ slice M' 1 n <> slice In 0 n.
Proof. exact wrong_codec_refuted. Qed.
Print Assumptions C79_wrong_codec_refuted.

(** What is noticed: the low entropy codecs and rle8m store the two sizes the other way round than all other codecs.  A stream that is
    shorter than its input is refused by every decompressor of the other kind, and nothing is written. *)
Theorem C79_other_kind_refused_partial : forall slack slack' x comp dec f need ok out C pin M pout outSize, library_piece slack x ->
  library slack' comp dec f need ok -> f <> a_field x -> a_comp x (a_In x) (a_n x) (a_cap x) = COk out -> len out < a_n x -> holds C pin out ->
  dec C pin (len out) M pout outSize = DRet 0 M.
Proof. exact other_kind_refused. Qed.
Print Assumptions C79_other_kind_refused_partial.

(** What does no harm: streams of rle8_low_entropy_short are restored by rle8_low_entropy_decompress too ... *)
Theorem C79_short_by_low_entropy_partial : forall max In n cap out c, byte_mem In -> 1 <= n <= large_in -> le_cond 32 max In n ->
  le_compress 32 max false false In n cap = COk out -> RestoresI false (le_decompress 255 c) 0 out In n.
Proof. exact short_by_normal. Qed.
Print Assumptions C79_short_by_low_entropy_partial.

(** ... but not the other way round. *)
Theorem C79_low_entropy_by_short_refuted : forall max c, exists In n cap out C M M', byte_mem In /\ 1 <= n <= max_in /\ le_cond 255 max In n /\
  le_compress 255 max false false In n cap = COk out /\ holds C 1 out /\
  le_decompress 32 c C 1 (len out) M 1 n = DRet n M' /\ slice M' 1 n <> slice In 0 n.
Proof. exact normal_by_short_refuted. Qed.
Print Assumptions C79_low_entropy_by_short_refuted.

(** *** Examples *)
(** Two encoders for the same decompressor: rle8_multi and rle8_single. *)
Definition ex_multi : piece := mkPiece (m_compress false false false false) (r8_decompress false D8Sse) 4 (fun k => (k / 16) mod 256) 48 1000.
Definition ex_single : piece := mkPiece (s_compress false false false) (r8_decompress false D8Sse) 4 (fun k => (k / 16) mod 256) 48 1000.
Example C78_example : library_piece 128 ex_multi /\ library_piece 128 ex_single /\ a_dec ex_multi = a_dec ex_single /\
  match a_comp ex_multi (a_In ex_multi) 48 1000, a_comp ex_single (a_In ex_single) 48 1000 with
  | COk o1, COk o2 => (len o1, len o2) = (29, 54)
  | _, _ => False end.
Proof.
  assert (HB : byte_mem (fun k => (k / 16) mod 256)) by (intros k; unfold is_byte; lia).
  split; [|split; [|split]].
  - exists (multi_space false), Always. split; [apply (L_rle8_multi false false D8Sse)|]. split; [exact HB|]. split; [cbn; unfold max_in; lia|]. split; [exact I|]. vm_compute. split; [intros H; discriminate H|reflexivity].
  - exists (single_space false), Always. split; [apply (L_rle8_single false D8Sse)|]. split; [exact HB|]. split; [cbn; unfold max_in; lia|]. split; [exact I|]. vm_compute. split; [intros H; discriminate H|reflexivity].
  - reflexivity.
  - vm_compute. reflexivity.
Qed.
(** C79: the stream of 64 bytes that begin with a run of 48, as rle32_sym. *)
Example C79_example : match xcomp (mkX 4 false false false) Avx2 run48 64 400 with
  | COk out => len out < 64 /\ match xdecompress (mkX 4 false false false) DAvx (at1 out) 1 (len out) (fun _ => 0) 1 64 with
      | DRet r M => r = 64 /\ slice M 1 64 = slice run48 0 64 | DDiverge => False end
  | _ => False end.
Proof. vm_compute. repeat split. Qed.
Example C78_low_entropy_example : match le_compress 255 false false false (fun k => (k / 16) mod 256) 48 1000, le_compress 255 true false false (fun k => (k / 16) mod 256) 48 1000 with
  | COk o1, COk o2 => len o1 < len o2
  | _, _ => False end.
Proof. vm_compute. reflexivity. Qed.
(** C79: a stream of rle8_multi that is shorter than its input, given to rle8_low_entropy_decompress; a stream of the short codec that
    the other one restores, both at work. *)
Example C79_other_kind_example : match m_compress false false false false (fun k => k / 40) 160 1000 with
  | COk out => len out < 160 /\ match le_decompress 255 (mkCpu true true) (at1 out) 1 (len out) (fun _ => 7) 1 1000 with DRet r M => r = 0 /\ M 1 = 7 | DDiverge => False end
  | _ => False end.
Proof. vm_compute. repeat split. Qed.
Example C79_short_example : match le_compress 32 true false false (fun k => if k <? 300 then 5 else k mod 7) 320 1000 with
  | COk out => len out < 320 /\ match le_decompress 255 (mkCpu true true) (at1 out) 1 (len out) (fun _ => 7) 1 1000 with
      | DRet r M => r = 320 /\ slice M 1 320 = slice (fun k => if k <? 300 then 5 else k mod 7) 0 320 | DDiverge => False end
  | _ => False end.
Proof. vm_compute. repeat split. Qed.
