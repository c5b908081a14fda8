(** Inputs on which the low entropy codecs fail. *)
From Verif Require Import Base Simd Spec Spec2 LeModel LeTable LeThm RmThm.
Local Transparent range256.

(** Every byte value twice: all 256 values are run length coded, and their number is counted in a
    byte by the decoder. *)
Definition twice : mem := fun k => (k / 2) mod 256.
Lemma twice_byte : byte_mem twice.
Proof. intros k. unfold twice, is_byte. pose proof (Z.mod_pos_bound (k / 2) 256 ltac:(lia)). lia. Qed.

(** A stream at address 16. *)
Definition at16 (l : list Z) : mem := fun a => nth (Z.to_nat (a - 16)) l 0.
Lemma at16_holds l : holds (at16 l) 16 l.
Proof. apply holds_intro. intros k Hk. unfold at16. f_equal. lia. Qed.

(** The byte at position 3 of what [dec] makes of the stream. *)
Definition wrong3 (r : cres) (dec : decompressor) : bool :=
  match r with
  | COk out => (len out <? 10000) &&
      match dec (at16 out) 16 (len out) (fun _ => 0) 16 512 with DRet _ M => negb (M 18 =? twice 2) || negb (M 19 =? twice 3) || negb (M 17 =? twice 1) | _ => true end
  | _ => false
  end.

Lemma wrong3_refutes exact r dec : wrong3 r dec = true -> exists out, r = COk out /\ ~ RestoresI exact dec 0 out twice 512.
Proof.
  unfold wrong3. destruct r as [|out|]; try discriminate. intros H. apply andb_prop in H. destruct H as [Hl H]. exists out. split; [reflexivity|]. intros HR.
  destruct (HR (at16 out) 16 (len out) (fun _ => 0) 16 512) as (M & E & Es & _); try lia.
  - apply at16_holds.
  - destruct exact; cbn [InSize]; lia.
  - rewrite E in H.
    assert (K : forall k, 0 <= k < 512 -> M (16 + k) = twice k).
    { intros k Hk. pose proof (f_equal (fun l => nth (Z.to_nat k) l 0) Es) as En. cbn beta in En. rewrite !nth_slice in En by lia. exact En. }
    pose proof (K 1 ltac:(lia)) as K1. pose proof (K 2 ltac:(lia)) as K2. pose proof (K 3 ltac:(lia)) as K3.
    change (16 + 1) with 17 in K1. change (16 + 2) with 18 in K2. change (16 + 3) with 19 in K3. lia.
Qed.

Lemma twice_255 c : List.In c cpus -> wrong3 (le_compress 255 false false false twice 512 809) (le_decompress 255 c) = true.
Proof. intros H. cbn [List.In cpus] in H. repeat (destruct H as [<-|H]; [lazy; reflexivity|]). destruct H. Qed.
Lemma twice_32 c : List.In c cpus -> wrong3 (le_compress 32 false false false twice 512 809) (le_decompress 32 c) = true.
Proof. intros H. cbn [List.In cpus] in H. repeat (destruct H as [<-|H]; [lazy; reflexivity|]). destruct H. Qed.
Lemma twice_rm c : List.In c cpus -> wrong3 (rm_compress 1 false false twice 512 2000) (rm_decompress c) = true.
Proof. intros H. cbn [List.In cpus] in H. repeat (destruct H as [<-|H]; [lazy; reflexivity|]). destruct H. Qed.

(** All values occur, one of them (7) as single bytes and in a run at the end. *)
Definition tail255 : mem := fun k => if (0 <=? k) && (k <? 512) then (if Z.even k then 7 else if k / 2 =? 7 then 8 else k / 2) else 7.
Definition tail32 : mem := fun k => if (0 <=? k) && (k <? 512) then (if Z.even k && (448 <=? k) then 7 else k / 2) else 7.
Lemma tail255_byte : byte_mem tail255.
Proof. intros k. unfold tail255, is_byte. destruct ((0 <=? k) && (k <? 512)) eqn:E; [|lia]. destruct (Z.even k); [lia|]. destruct (k / 2 =? 7); lia. Qed.
Lemma tail32_byte : byte_mem tail32.
Proof. intros k. unfold tail32, is_byte. destruct ((0 <=? k) && (k <? 512)) eqn:E; [|lia]. destruct (Z.even k && (448 <=? k)); lia. Qed.

Definition too_long (r : cres) (bound : Z) : bool := match r with COk out => bound <? len out | _ => false end.
Lemma too_long_ok r bound : too_long r bound = true -> exists out, r = COk out /\ bound < len out.
Proof. unfold too_long. destruct r as [|out|]; try discriminate. intros H. exists out. split; [reflexivity|lia]. Qed.

Lemma tail255_long : too_long (le_compress 255 false false false tail255 771 (le_bounds 771)) (le_bounds 771) = true.
Proof. lazy. reflexivity. Qed.
Lemma tail32_long : too_long (le_compress 32 false false false tail32 547 (le_bounds 547)) (le_bounds 547) = true.
Proof. lazy. reflexivity. Qed.
Lemma tailrm_long : too_long (rm_compress 1 false false tail255 771 (rm_bounds 1 771)) (rm_bounds 1 771) = true.
Proof. lazy. reflexivity. Qed.

(** The byte behind the output that rle8m_decompress writes if the stream is followed by a 9. *)
Definition ones : mem := fun _ => 1.
Lemma ones_byte : byte_mem ones.
Proof. intros k. unfold ones, is_byte. lia. Qed.
Definition spills (c : cpu) : bool :=
  match rm_compress 1 false false ones 6 1000 with
  | COk out => (len out <? 10000) && match rm_decompress c (at16 (out ++ [9])) 16 (len out + 1) (fun _ => 0) 16 6 with DRet _ M => M 22 =? 9 | _ => false end
  | _ => false
  end.
Lemma spills_all c : List.In c cpus -> spills c = true.
Proof. intros H. cbn [List.In cpus] in H. repeat (destruct H as [<-|H]; [lazy; reflexivity|]). destruct H. Qed.
Lemma rm_surplus : exists In n cap out, byte_mem In /\ 1 <= n <= max_in /\
  rm_compress 1 false false In n cap = COk out /\
  forall c, List.In c cpus -> exists C pin M pout r M',
    holds C pin out /\ rm_decompress c C pin (len out + 1) M pout n = DRet r M' /\ M' (pout + n) <> M (pout + n).
Proof.
  destruct (rm_compress 1 false false ones 6 1000) as [|out|] eqn:E.
  - exfalso. pose proof (spills_all (mkCpu false false) ltac:(left; reflexivity)) as H. unfold spills in H. rewrite E in H. discriminate.
  - exists ones, 6, 1000, out. split; [exact ones_byte|]. split; [unfold max_in; lia|]. split; [exact E|]. intros c Hc.
    pose proof (spills_all c Hc) as H. unfold spills in H. rewrite E in H. apply andb_prop in H. destruct H as [_ H].
    destruct (rm_decompress c (at16 (out ++ [9])) 16 (len out + 1) (fun _ => 0) 16 6) as [r M'|] eqn:Ed; [|discriminate].
    exists (at16 (out ++ [9])), 16, (fun _ => 0), 16, r, M'. split; [exact (proj1 (proj1 (holds_app _ _ _ _) (at16_holds (out ++ [9]))))|]. split; [exact Ed|].
    change (16 + 6) with 22. lia.
  - exfalso. pose proof (spills_all (mkCpu false false) ltac:(left; reflexivity)) as H. unfold spills in H. rewrite E in H. discriminate.
Qed.
