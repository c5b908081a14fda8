(** Streams whose header announces less compressed bytes than they have: the decoders read them all. *)
From Verif Require Import Base Simd SimdProof Spec Spec2 ExtModel ExtDec PktModel Rle8Model MbModel LutModel SlModel ShModel LeModel MtfModel MtfProof MzModel MzPack HosSpec.
From Verif Require HsModel.
From Verif Require Import HosThm.

(** 400 bytes without runs; the second input differs in byte 300. *)
Definition lit (b : Z) : mem := fun x => if x =? 300 then b else (x * 7) mod 256.
(** The stream with the size of the compressed data, at offset [o], changed to 8. *)
Definition cut (comp : compressor) (o : nat) (b : Z) : list Z :=
  match comp (lit b) 400 2000 with COk out => firstn o out ++ le32 8 ++ skipn (o + 4) out | _ => [] end.
Definition bytesb (s : list Z) : bool := forallb (fun b => (0 <=? b) && (b <? 256)) s.
Definition differsN (N : Z) (dec : decompressor) (s1 s2 : list Z) : bool :=
  bytesb s1 && bytesb s2 && (200 <? len s1) && (200 <? len s2) && eqb_bytes (firstn 148 s1) (firstn 148 s2) &&
  match dec (store zero 1000 s1) 1000 N zero 5000 500, dec (store zero 1000 s2) 1000 N zero 5000 500 with
  | DRet _ M1, DRet _ M2 => negb (M1 5300 =? M2 5300)
  | _, _ => false
  end.
Definition differs := differsN 8.

Lemma store_bytes s : bytesb s = true -> byte_mem (store zero 1000 s).
Proof.
  intros HB k. unfold store. destruct ((1000 <=? k) && (k <? 1000 + len s)) eqn:Ek; [|unfold is_byte, zero; lia].
  unfold bytesb in HB. rewrite forallb_forall in HB. specialize (HB (nth (Z.to_nat (k - 1000)) s 0)). unfold is_byte.
  cut (List.In (nth (Z.to_nat (k - 1000)) s 0) s); [intros Q; specialize (HB Q); lia|]. apply nth_In. unfold len in Ek. lia.
Qed.

Lemma differs_not N dec s1 s2 : 0 <= N <= 20 -> differsN N dec s1 s2 = true -> ~ StreamOnly 128 dec.
Proof.
  intros HN H K. unfold differsN in H. apply andb_prop in H. destruct H as [H H6]. apply andb_prop in H. destruct H as [H H5]. apply andb_prop in H. destruct H as [H H4].
  apply andb_prop in H. destruct H as [H H3]. apply andb_prop in H. destruct H as [H1 H2].
  destruct (dec (store zero 1000 s1) 1000 N zero 5000 500) as [r1 M1|] eqn:E1; [|discriminate].
  destruct (dec (store zero 1000 s2) 1000 N zero 5000 500) as [r2 M2|] eqn:E2; [|discriminate].
  destruct (K (store zero 1000 s1) (store zero 1000 s2) 1000 N zero 5000 500 r1 M1 r2 M2) as [_ Q]; try assumption; try lia; try now apply store_bytes.
  - intros x Hx. unfold store. replace ((1000 <=? x) && (x <? 1000 + len s1)) with true by lia. replace ((1000 <=? x) && (x <? 1000 + len s2)) with true by lia.
    apply eqb_bytes_eq in H5. assert (Hn : (Z.to_nat (x - 1000) < 148)%nat) by lia.
    rewrite <- (firstn_skipn 148 s1), <- (firstn_skipn 148 s2), H5.
    assert (HL : (Z.to_nat (x - 1000) < length (firstn 148 s2))%nat) by (rewrite firstn_length; unfold len in H4; lia).
    now rewrite !app_nth1 by exact HL.
  - rewrite Q in H6. rewrite Z.eqb_refl in H6. discriminate.
Qed.

Lemma ext_overread c d : List.In c xcodecs -> ~ StreamOnly 128 (xdecompress c d).
Proof.
  intros Hc. apply (differs_not 8 _ (cut (xcompress c Sse2 false false) 4 1) (cut (xcompress c Sse2 false false) 4 3)); [lia|].
  assert (H : forallb (fun c => let s1 := cut (xcompress c Sse2 false false) 4 1 in let s2 := cut (xcompress c Sse2 false false) 4 3 in forallb (fun d => differs (xdecompress c d) s1 s2) dsimds) xcodecs = true)
    by (vm_compute; reflexivity).
  rewrite forallb_forall in H. specialize (H c Hc). cbv zeta in H. rewrite forallb_forall in H. apply H. destruct d; cbn; tauto.
Qed.

Lemma r8_overread pk d : ~ StreamOnly 128 (r8_decompress pk d).
Proof. apply (differs_not 8 _ (cut (m_compress pk false false false) 4 1) (cut (m_compress pk false false false) 4 3)); [lia|]. destruct pk, d; vm_compute; reflexivity. Qed.

Lemma sl_overread c l : List.In c slcodecs -> ~ StreamOnly 128 (sl_decompress c l).
Proof.
  intros Hc. apply (differs_not 8 _ (cut (sl_compress c Sse2 false false) 4 1) (cut (sl_compress c Sse2 false false) 4 3)); [lia|].
  assert (H : forallb (fun c => let s1 := cut (sl_compress c Sse2 false false) 4 1 in let s2 := cut (sl_compress c Sse2 false false) 4 3 in forallb (fun d => differs (sl_decompress c d) s1 s2) lvls) slcodecs = true)
    by (vm_compute; reflexivity).
  rewrite forallb_forall in H. specialize (H c Hc). cbv zeta in H. rewrite forallb_forall in H. apply H. destruct l; cbn; tauto.
Qed.

Lemma sh_overread c l : List.In c shcodecs -> ~ StreamOnly 128 (sh_decompress c l).
Proof.
  intros Hc. apply (differs_not 8 _ (cut (sh_compress c Sse2 false false) 4 1) (cut (sh_compress c Sse2 false false) 4 3)); [lia|].
  assert (H : forallb (fun c => let s1 := cut (sh_compress c Sse2 false false) 4 1 in let s2 := cut (sh_compress c Sse2 false false) 4 3 in forallb (fun d => differs (sh_decompress c d) s1 s2) lvls) shcodecs = true)
    by (vm_compute; reflexivity).
  rewrite forallb_forall in H. specialize (H c Hc). cbv zeta in H. rewrite forallb_forall in H. apply H. destruct l; cbn; tauto.
Qed.

(** The low entropy decoders copy the announced number of bytes if no value is run length encoded. *)
Definition le_cut (b : Z) : list Z := le32 8 ++ le32 400 ++ repeat 0 32 ++ [1; 0] ++ slice (lit b) 0 400.
Lemma le_overread L c : ~ StreamOnly 128 (le_decompress L c).
Proof. apply (differs_not 8 _ (le_cut 1) (le_cut 3)); [lia|]. destruct c as [[] []]; vm_compute; reflexivity. Qed.
Definition rm_cut (b : Z) : list Z := le32 8 ++ le32 400 ++ le32 1 ++ repeat 0 32 ++ [1; 0] ++ slice (lit b) 0 400.
Lemma rm_overread c : ~ StreamOnly 128 (rm_decompress c).
Proof. apply (differs_not 8 _ (rm_cut 1) (rm_cut 3)); [lia|]. destruct c as [[] []]; vm_compute; reflexivity. Qed.

Lemma mz_overread : ~ StreamOnly 128 mz_decompress.
Proof. apply (differs_not 8 _ (cut (mz_compress zero zero 16 false false) 4 1) (cut (mz_compress zero zero 16 false false) 4 3)); [lia|]. vm_compute. reflexivity. Qed.

(** The header of rle8_sh is read backwards: two copies, of 400 bytes and of none. *)
Definition hs_cut (b : Z) : list Z := le32 400 ++ le32 20 ++ le32 393 ++ slice (lit b) 0 6 ++ [31; 191] ++ slice (lit b) 8 392 ++ le32 0.
Lemma hs_overread : ~ StreamOnly 128 HsModel.sh_decompress.
Proof. apply (differs_not 20 _ (hs_cut 1) (hs_cut 3)); [lia|]. vm_compute. reflexivity. Qed.
