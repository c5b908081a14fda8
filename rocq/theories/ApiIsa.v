(** The public functions run implementations that the machine can execute. *)
From Verif Require Import Base Spec Simd ExtModel Rle8Model LutModel SlModel ShModel LeModel PlatModel PlatSpec PlatThm ApiModel IsaSpec.

Section M.
Variable m : machine.
Hypothesis (Hx : x86_64 m) (Ho : os_complete m).

Lemma ex_sse2 : executes m ISse2.
Proof. destruct Hx as (_ & _ & H & _). exact H. Qed.
Lemma ex_avx2 : executes m IAvx2 -> executes m IAvx.
Proof. intros [H _]. exact H. Qed.
Lemma on_ex s i : on m s = Some i -> executes m i.
Proof. exact (chosen_executes m s i Hx Ho). Qed.

Lemma enc_ex s : executes m (simd_isa (enc_impl (on m s))).
Proof. destruct (on m s) as [i|] eqn:E; [|exact I]. apply on_ex in E. destruct i; try exact E; exact I. Qed.

Lemma ext_compress_ex c : exists v, ext_compress m c = xcompress c v /\ executes m (simd_isa v).
Proof. unfold ext_compress. eexists. split; [apply eq_refl|]. apply enc_ex. Qed.
Lemma symlut_compress_ex c : exists v, symlut_compress m c = sl_compress c v /\ executes m (simd_isa v).
Proof. unfold symlut_compress. eexists. split; [apply eq_refl|]. apply enc_ex. Qed.
Lemma short_compress_ex c : exists v, short_compress m c = sh_compress c v /\ executes m (simd_isa v).
Proof. unfold short_compress. eexists. split; [apply eq_refl|]. apply enc_ex. Qed.
Lemma multi_compress_ex pk : exists avx2 : bool, multi_compress m pk = m_compress pk avx2 /\ executes m (if avx2 then IAvx2 else ISse2).
Proof.
  unfold multi_compress. eexists. split; [apply eq_refl|]. destruct (on m Rle8_comp) as [[]|] eqn:E; try apply ex_sse2. now apply on_ex in E.
Qed.

Lemma ext_decompress_ex c : exists v, ext_decompress m c = xdecompress c v /\ executes m (dsimd_isa (xS c) v).
Proof.
  unfold ext_decompress. eexists. split; [apply eq_refl|]. unfold odd_size, dsimd_isa. destruct ((xS c =? 3) || (xS c =? 6)).
  - destruct (on m Rle24_dec) as [i|] eqn:E; [|apply ex_sse2]. pose proof (on_ex _ _ E) as K.
    destruct i; try exact K; try apply ex_sse2. exfalso. unfold on, choose in E. set (st := detect m all_off) in E. destruct (st FAvx2), (st FSsse3); discriminate.
  - destruct (on m _) as [i|] eqn:E; [|apply ex_sse2]. apply on_ex in E. destruct i; try exact E; try apply ex_sse2. now apply ex_avx2.
Qed.
Lemma rle8_decompress_ex pk : exists v, rle8_decompress m pk = r8_decompress pk v /\ executes m (d8_isa v).
Proof.
  unfold rle8_decompress. eexists. split; [apply eq_refl|]. destruct (on m Rle8_dec) as [i|] eqn:E; [|apply ex_sse2]. apply on_ex in E. destruct i; try exact E; apply ex_sse2.
Qed.
Lemma lut_ex s : executes m (lvl_isa (lut_impl (on m s))).
Proof. destruct (on m s) as [i|] eqn:E; [|apply ex_sse2]. apply on_ex in E. destruct i; try exact E; apply ex_sse2. Qed.
Lemma symlut_decompress_ex c : exists v, symlut_decompress m c = sl_decompress c v /\ executes m (lvl_isa v).
Proof. unfold symlut_decompress. eexists. split; [apply eq_refl|]. apply lut_ex. Qed.
Lemma short_decompress_ex c : exists v, short_decompress m c = sh_decompress c v /\ executes m (lvl_isa v).
Proof. unfold short_decompress. eexists. split; [apply eq_refl|]. apply lut_ex. Qed.
Lemma low_entropy_decompress_ex L : exists v, low_entropy_decompress m L = le_decompress L v /\ Forall (executes m) (cpu_isas v).
Proof.
  unfold low_entropy_decompress. eexists. split; [apply eq_refl|]. unfold cpu_isas. cbn [cpu_avx cpu_avx2]. constructor; [apply ex_sse2|]. apply Forall_app. split.
  - destruct (on m Le_dec_multi) as [[]|] eqn:E; constructor; [|constructor]. now apply on_ex in E.
  - destruct (on m Le_dec_single) as [[]|] eqn:E; constructor; [|constructor]. now apply on_ex in E.
Qed.
End M.

Lemma calls_ex m : x86_64 m -> os_complete m ->
  (forall c, (exists v, ext_compress m c = xcompress c v /\ executes m (simd_isa v)) /\
             (exists v, ext_decompress m c = xdecompress c v /\ executes m (dsimd_isa (xS c) v))) /\
  (forall pk, (exists avx2 : bool, multi_compress m pk = m_compress pk avx2 /\ executes m (if avx2 then IAvx2 else ISse2)) /\
              (exists v, rle8_decompress m pk = r8_decompress pk v /\ executes m (d8_isa v))) /\
  (forall c, (exists v, symlut_compress m c = sl_compress c v /\ executes m (simd_isa v)) /\
             (exists v, symlut_decompress m c = sl_decompress c v /\ executes m (lvl_isa v))) /\
  (forall c, (exists v, short_compress m c = sh_compress c v /\ executes m (simd_isa v)) /\
             (exists v, short_decompress m c = sh_decompress c v /\ executes m (lvl_isa v))) /\
  (forall L, exists v, low_entropy_decompress m L = le_decompress L v /\ Forall (executes m) (cpu_isas v)).
Proof.
  intros Hx Ho. repeat split.
  - now apply ext_compress_ex.
  - now apply ext_decompress_ex.
  - now apply multi_compress_ex.
  - now apply rle8_decompress_ex.
  - now apply symlut_compress_ex.
  - now apply symlut_decompress_ex.
  - now apply short_compress_ex.
  - now apply short_decompress_ex.
  - now apply low_entropy_decompress_ex.
Qed.
