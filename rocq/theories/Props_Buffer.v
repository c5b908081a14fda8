(** The stream and the buffer it is written to. *)
From Verif Require Import Base Simd Spec ExtModel PktModel Rle8Model MbModel LutModel SlModel ShModel LeModel MtfModel MzModel HsModel HsThm CapSpec CapThm.

(** C69 *)
Theorem C69_ext_larger_buffer : forall c v, LargerBuffer (xcompress c v false false).
Proof. exact x_larger. Qed.
Print Assumptions C69_ext_larger_buffer.
Theorem C69_sl_larger_buffer : forall c v, LargerBuffer (sl_compress c v false false).
Proof. exact sl_larger. Qed.
Print Assumptions C69_sl_larger_buffer.
Theorem C69_short_larger_buffer : forall c v, LargerBuffer (ShModel.sh_compress c v false false).
Proof. exact sh_larger. Qed.
Print Assumptions C69_short_larger_buffer.
Theorem C69_greedy_larger_buffer : forall c, LargerBuffer (greedy_compress c false false).
Proof. exact greedy_larger. Qed.
Print Assumptions C69_greedy_larger_buffer.
Theorem C69_rle8_multi_larger_buffer : forall pk avx2, LargerBuffer (m_compress pk avx2 false false).
Proof. exact m_larger. Qed.
Print Assumptions C69_rle8_multi_larger_buffer.
Theorem C69_rle8_single_larger_buffer : forall pk, LargerBuffer (s_compress pk false false).
Proof. exact s_larger. Qed.
Print Assumptions C69_rle8_single_larger_buffer.
Theorem C69_low_entropy_larger_buffer : forall L max, LargerBuffer (le_compress L max false false).
Proof. exact le_larger. Qed.
Print Assumptions C69_low_entropy_larger_buffer.
(** Also wherever the buffer is and whatever it holds. *)
Theorem C69_rle8_mmtf128_larger_buffer : forall undef, (forall j, 0 <= j < 16 -> is_byte (undef j)) -> LargerBufferAnywhere (fun M pout => mz_compress undef M pout false false).
Proof. exact mz_anywhere. Qed.
Print Assumptions C69_rle8_mmtf128_larger_buffer.

(** rle8m: the stream is always the same; missing: that a larger buffer is accepted, which is false. *)
Theorem C69_rle8m_one_stream_partial : forall subs, OneStream (rm_compress subs false false).
Proof. exact rm_one. Qed.
Print Assumptions C69_rle8m_one_stream_partial.
(** With the documented size the function returns more bytes than the buffer has; with one byte more it refuses. *)
Theorem C69_rle8m_larger_buffer_refuted : exists subs In n out, byte_mem In /\ 1 <= n <= max_in /\
  rm_compress subs false false In n (rm_bounds subs n) = COk out /\ rm_bounds subs n < len out /\ rm_compress subs false false In n (rm_bounds subs n + 1) = CRefused.
Proof.
  destruct rm_smaller as (out & H1 & H2 & H3 & _). exists 140, rm_pairs, 420, out. split; [intros k; unfold rm_pairs, is_byte; destruct (_ =? 0); lia|]. split; [unfold max_in; lia|]. split; [exact H1|]. split; [lia|exact H3].
Qed.
Print Assumptions C69_rle8m_larger_buffer_refuted.

(** rle8_sh: from [n + n / 128 + 19] bytes on; missing: smaller buffers that are accepted, for which it is false. *)
Theorem C69_rle8_sh_larger_buffer_partial : forall M pout M' pout' In n cap cap' out, byte_mem In -> 1 <= n <= max_in -> n + n / 128 + 19 <= cap -> cap <= cap' ->
  HsModel.sh_compress M pout false false In n cap = COk out -> HsModel.sh_compress M' pout' false false In n cap' = COk out.
Proof. exact hs_anywhere. Qed.
Print Assumptions C69_rle8_sh_larger_buffer_partial.
Theorem C69_rle8_sh_larger_buffer_refuted : exists In n out out', byte_mem In /\ 1 <= n <= max_in /\
  HsModel.sh_compress (fun _ => 0) 16 false false In n (sh_bounds n) = COk out /\ HsModel.sh_compress (fun _ => 0) 16 false false In n (sh_need n) = COk out' /\ out <> out'.
Proof.
  destruct hs_not_one as (out & out' & H1 & H2 & H3). exists hs_bad, 7, out, out'. split.
  - intros k. unfold hs_bad. assert (F : Forall is_byte sh_bad) by (repeat constructor; unfold is_byte; lia). rewrite Forall_forall in F.
    destruct (nth_in_or_default (Z.to_nat k) sh_bad 0) as [H|H]; [apply F; exact H|rewrite H; unfold is_byte; lia].
  - split; [unfold max_in; lia|]. auto.
Qed.
Print Assumptions C69_rle8_sh_larger_buffer_refuted.

(** Samples: 300 bytes into 700 bytes and into ten times as much. *)
Definition buf_data : mem := fun k => if k mod 60 <? 40 then 5 else k * k mod 251.
Definition buf_same (comp : mem -> Z -> Z -> cres) (cap : Z) : bool :=
  match comp buf_data 300 cap, comp buf_data 300 (10 * cap) with COk a, COk b => (0 <? len a) && (len a =? len b) && forallb (fun '(x, y) => x =? y) (combine a b) | _, _ => false end.
Example C69_samples : forallb (fun comp => buf_same comp 700)
  [xcompress (mkX 4 false true false) Sse2 false false; sl_compress (mkSl 6 true 3) Base_ false false; ShModel.sh_compress (mkSh 2 true 3 false) Avx2 false false; greedy_compress (mkSh 2 true 3 false) false false;
   m_compress true true false false; s_compress false false false; le_compress 255 false false false; le_compress 32 true false false; rm_compress 3 false false;
   mz_compress (fun _ => 9) (fun _ => 0) 16 false false; HsModel.sh_compress (fun _ => 0) 16 false false] = true.
Proof. vm_compute. reflexivity. Qed.
