(** The codecs of the library as pieces of a row of streams. *)
From Verif Require Import Base Spec Spec2 Simd ExtModel ExtThm Rle8Model Rle8Thm LutModel SlModel SlThm ShModel ShThm LeModel LeSpec LeThm RmThm MzModel MzThm ArchSpec ArchThm.
From Verif Require HsModel HsThm.
From Coq Require Import Permutation.

(** Codecs: bytes that may be written behind the output, compressor and decompressor (every implementation of one
    with every implementation of the other), the place of the compressed size, the buffer that compression
    needs, and the inputs that the format can hold (C10, C12, C13). *)
Inductive library : Z -> compressor -> decompressor -> Z -> (Z -> Z) -> (mem -> Z -> Prop) -> Prop :=
| L_ext c v d : List.In c xcodecs -> library 128 (xcomp c v) (xdecompress c d) 4 rle_compress_bounds Always
| L_rle8_multi pk avx2 d : library 128 (m_compress pk avx2 false false) (r8_decompress pk d) 4 (multi_space pk) Always
| L_rle8_single pk d : library 128 (s_compress pk false false) (r8_decompress pk d) 4 (single_space pk) Always
| L_symlut c v l : List.In c slcodecs -> library 128 (sl_compress c v false false) (sl_decompress c l) 4 (sl_space c) Always
| L_short c comp l : sh_encoder c comp -> library 128 (comp false false) (sh_decompress c l) 4 sh_space Always
| L_low_entropy L c : L = 255 \/ L = 32 -> library 0 (le_compress L false false false) (le_decompress L c) 0 (le_size L) (SomeNotWorth L)
| L_only_max_frequency L c : L = 255 \/ L = 32 -> library 0 (le_compress L true false false) (le_decompress L c) 0 le_bounds Always
| L_rle8m subs c : 1 <= subs <= 2 ^ 28 ->
    library 0 (rm_compress subs false false) (rm_decompress c) 0 (fun n => rm_space subs n + 1) (rm_cond subs)
| L_rle8_mmtf128 undef M pout : library 0 (mz_compress undef M pout false false) mz_decompress 4 (fun n => n + 13) Always
| L_rle8_sh M pout : library 0 (HsModel.sh_compress M pout false false) HsModel.sh_decompress 4 HsThm.sh_need Always.

(** A valid call of a compressor of the library. *)
Definition library_piece (slack : Z) (x : piece) : Prop :=
  exists need ok, library slack (a_comp x) (a_dec x) (a_field x) need ok /\
  byte_mem (a_In x) /\ 1 <= a_n x <= max_in /\ ok (a_In x) (a_n x) /\ need (a_n x) <= a_cap x < 2 ^ 32.

Lemma library_ok slack x : library_piece slack x -> PieceOk slack x.
Proof.
  destruct x as [comp dec f In n cap]. intros (need & ok & HL & H1 & H2 & H3 & H4). cbn [a_comp a_dec a_field a_In a_n a_cap] in *.
  inversion HL; subst.
  - eapply piece_of_rt; [now apply ext_round_trip|now apply ext_header|eexists; reflexivity|assumption..].
  - eapply piece_of_rt; [apply multi_rt|apply multi_header|eexists; reflexivity|assumption..].
  - eapply piece_of_rt; [apply single_rt|apply single_header|eexists; reflexivity|assumption..].
  - eapply piece_of_rt; [now apply sl_rt|now apply sl_header|eexists; reflexivity|assumption..].
  - eapply piece_of_rt; [eapply sh_rt; eassumption|eapply sh_header; eassumption|eexists; reflexivity|assumption..].
  - eapply piece_of_rtI; [now apply (le_round_trip L false)|now apply le_header|eexists; reflexivity|assumption..].
  - eapply piece_of_rtI; [now apply le_round_trip_max|now apply le_header|eexists; reflexivity|assumption..].
  - eapply piece_of_rtI; [now apply rm_round_trip|now apply rm_header|eexists; reflexivity|assumption..].
  - eapply piece_of_rt; [apply mz_round_trip|apply mz_header|reflexivity|assumption..].
  - eapply piece_of_rt; [apply HsThm.sh_round_trip|apply HsThm.sh_header|reflexivity|assumption..].
Qed.

Lemma row_packs xs : Forall (fun x => exists s, library_piece s x) xs -> exists bytes, packed xs bytes.
Proof.
  intros H. apply (packed_exists 128). revert H. apply Forall_impl. intros x (s & Hx). pose proof Hx as (need & ok & HL & _).
  apply (piece_slack s); [inversion HL; lia|now apply library_ok].
Qed.
Lemma row_in_order xs bytes C pin pout outEnd : Forall (fun x => exists s, library_piece s x) xs -> packed xs bytes ->
  placed C bytes pin pout (total xs) outEnd -> Unpacks xs C (jobs (decoders xs) C pin pout) pout outEnd rle_decompress_additional_size.
Proof.
  intros H. apply in_order; [unfold rle_decompress_additional_size; lia|]. revert H. apply Forall_impl. intros x (s & Hx). pose proof Hx as (need & ok & HL & _).
  apply (piece_slack s); [unfold rle_decompress_additional_size; inversion HL; lia|now apply library_ok].
Qed.
Lemma row_any_order xs bytes C pin pout outEnd js : Forall (library_piece 0) xs -> packed xs bytes ->
  placed C bytes pin pout (total xs) outEnd -> Permutation (jobs (decoders xs) C pin pout) js -> Unpacks xs C js pout outEnd 0.
Proof. intros H. apply any_order. revert H. apply Forall_impl. exact (library_ok 0). Qed.
