(** The decoders take linear time. *)
From Verif Require Import Base Simd Spec ExtModel PktModel MbModel Rle8Model LutModel SlModel ShModel ShThm LeModel.
From Verif Require Import CostModel DcostModel DcostSpec DcostThm DcostLe.

(** C73: on the streams of the compressors (of every SIMD level) all loops of a decompressor together, those of
    the copies and fills included, are passed at most [4 n + 66] times for [n] bytes of output, for every
    implementation of the decoder, wherever the buffers lie and whatever the memory holds elsewhere. *)
Theorem C73_ext_linear : forall c v d, List.In c xcodecs ->
  LinearDecode (xcompress c v false false) rle_compress_bounds (xdec_passes c d) 4 66.
Proof. exact ext_linear_decode. Qed.
Print Assumptions C73_ext_linear.
Theorem C73_rle8_multi_linear : forall pk v d, LinearDecode (m_compress pk v false false) rle_compress_bounds (r8_dec_passes pk d) 4 66.
Proof. exact m8_linear_decode. Qed.
Print Assumptions C73_rle8_multi_linear.
Theorem C73_rle8_single_linear : forall pk d, LinearDecode (s_compress pk false false) rle_compress_bounds (r8_dec_passes pk d) 4 66.
Proof. exact s8_linear_decode. Qed.
Print Assumptions C73_rle8_single_linear.
Theorem C73_sl_linear : forall c v l, List.In c slcodecs -> LinearDecode (sl_compress c v false false) rle_compress_bounds (sl_dec_passes c l) 4 66.
Proof. exact sl_linear_decode. Qed.
Print Assumptions C73_sl_linear.
Theorem C73_short_linear : forall c v l, List.In c shcodecs -> LinearDecode (sh_compress c v false false) rle_compress_bounds (sh_dec_passes c l) 4 66.
Proof. intros c v l Hc. exact (sh_linear_decode c (sh_compress c v) l (She_short c v Hc)). Qed.
Print Assumptions C73_short_linear.
Theorem C73_greedy_linear : forall c l, List.In c greedy_codecs -> LinearDecode (greedy_compress c false false) rle_compress_bounds (sh_dec_passes c l) 4 66.
Proof. intros c l Hc. exact (sh_linear_decode c (greedy_compress c) l (She_greedy c Hc)). Qed.
Print Assumptions C73_greedy_linear.

(** The low entropy decoders: on any bytes, at most [18 s + 2] passes where [s] is the size in the header. *)
Theorem C73_low_entropy_linear : forall L c, LinearDecodeAny (le_dec_passes L c) 18 2.
Proof. exact le_linear_decode. Qed.
Print Assumptions C73_low_entropy_linear.

(** *** Examples *)

Definition wave_mem (k : Z) : Z := if k mod 103 <? 60 then 7 else 50 + k mod 103.
(** Size of the stream and passes, for a stream at 4099 decoded to 99991. *)
Definition at_ (a : Z) (l : list Z) : mem := fun x => if (a <=? x) && (x <? a + len l) then nth (Z.to_nat (x - a)) l 0 else 205.
Definition dcost (r : cres) (count : mem -> Z -> mem -> Z -> option Z) : option (Z * Z) :=
  match r with COk out => match count (at_ 4099 out) 4099 (fun _ => 0) 99991 with Some k => Some (len out, k) | None => None end | _ => None end.
Example decode_passes :
  (map (fun c => dcost (xcompress c Sse2 false false wave_mem 1000 1193) (xdec_passes c DSse)) [mkX 2 false false false; mkX 3 true true true; mkX 16 false true false],
   dcost (m_compress true false false false wave_mem 1000 1193) (r8_dec_passes true D8Sse),
   dcost (s_compress false false false wave_mem 1000 1193) (r8_dec_passes false D8Sse),
   dcost (sl_compress (mkSl 6 true 7) Sse2 false false wave_mem 1000 1193) (sl_dec_passes (mkSl 6 true 7) LAvx2),
   dcost (sh_compress (mkSh 3 true 7 false) Sse2 false false wave_mem 1000 1193) (sh_dec_passes (mkSh 3 true 7 false) LSse)) =
  ([Some (460, 94); Some (440, 75); Some (574, 94)], Some (439, 92), Some (440, 92), Some (442, 52), Some (450, 74)).
Proof. vm_compute. reflexivity. Qed.
Definition le_stream : list Z := le32 1444 ++ le32 59000 ++ [128] ++ repeat 0 31%nat ++ [3; 60; 5; 9] ++ concat (repeat [7; 200; 1; 2; 3; 7; 90] 200).
Example decode_passes_le : map (fun c => le_dec_passes 255 c (at_ 4099 le_stream) 4099 (fun _ => 0) 99991) cpus = [Some 4467; Some 4467; Some 2981; Some 2981].
Proof. vm_compute. reflexivity. Qed.
