(** The own streams of the codecs that write nothing behind the output; how tight the bounds of LeRead.v are. *)
From Verif Require Import Base Simd Spec Spec2 ExtModel ExtEnc Rle8Model LeModel LeTable LeSpec LeWorth LeThm LeExact RmThm LeBad LeHos MzModel MzThm HsModel HsThm ReadSpec LeRead.

Lemma slice_eq_at M In pout n x : slice M pout n = slice In 0 n -> 0 <= n -> pout <= x < pout + n -> M x = In (x - pout).
Proof.
  intros H Hn Hx. pose proof (f_equal (fun l => nth (Z.to_nat (x - pout)) l 0) H) as E. cbn beta in E. rewrite !nth_slice in E by lia. replace (pout + (x - pout)) with x in E by lia. rewrite E. f_equal.
Qed.

Lemma restores_alone exact dec out In n : 0 <= n -> RestoresI exact dec 0 out In n -> StreamAlone exact dec n out.
Proof.
  intros Hn HR C1 C2 pin inSize M pout cap H1 H2 Hp Hp2 Hs Hq Hq2 Hc.
  destruct (HR C1 pin inSize M pout cap H1 Hp Hp2 Hs Hq Hq2 Hc) as (M1 & E1 & S1 & U1).
  destruct (HR C2 pin inSize M pout cap H2 Hp Hp2 Hs Hq Hq2 Hc) as (M2 & E2 & S2 & U2).
  exists M1, M2. split; [exact E1|]. split; [exact E2|]. intros x. destruct (Z_lt_ge_dec x pout); [rewrite U1, U2 by lia; reflexivity|].
  destruct (Z_lt_ge_dec x (pout + n)); [|rewrite U1, U2 by lia; reflexivity].
  rewrite (slice_eq_at _ _ _ _ _ S1 Hn), (slice_eq_at _ _ _ _ _ S2 Hn) by lia. reflexivity.
Qed.

Lemma le_own L c In n cap out : L = 255 \/ L = 32 -> byte_mem In -> 1 <= n <= max_in -> SomeNotWorth L In n ->
  le_compress L false false false In n cap = COk out -> StreamAlone false (le_decompress L c) n out.
Proof. intros HL HIn Hn HP HC. eapply restores_alone; [lia|]. apply (le_restores_iff L In n cap out c HL HIn Hn HC). exact HP. Qed.
Lemma le_max_own L c In n cap out : L = 255 \/ L = 32 -> byte_mem In -> 1 <= n <= max_in ->
  le_compress L true false false In n cap = COk out -> StreamAlone false (le_decompress L c) n out.
Proof. intros HL HIn Hn HC. eapply restores_alone; [lia|]. destruct (le_ok L true HL In n cap out HIn Hn HC) as (_ & _ & _ & O4). apply O4; [exact Logic.I|now exists c]. Qed.
Lemma rm_own subs c In n cap out : 1 <= subs <= 2 ^ 28 -> byte_mem In -> 1 <= n <= max_in -> subs <= n -> SomeNotWorth 255 In n ->
  rm_compress subs false false In n cap = COk out -> StreamAlone true (rm_decompress c) n out.
Proof. intros Hs HIn Hn Hsn HP HC. eapply restores_alone; [lia|]. destruct (rm_ok subs Hs In n cap out HIn Hn HC) as (_ & _ & _ & O4). apply O4; [now split|now exists c]. Qed.
Lemma mz_own undef M pout In n cap out : byte_mem In -> 1 <= n <= max_in -> n + 13 <= cap ->
  mz_compress undef M pout false false In n cap = COk out -> StreamAlone false mz_decompress n out.
Proof.
  intros HIn Hn Hc HC. destruct (mz_round_trip undef M pout In n cap HIn Hn Hc) as (out' & E & _ & _ & H). assert (out' = out) by congruence. subst out'.
  eapply restores_alone; [lia|]. exact (H _ eq_refl).
Qed.
Lemma hs_own M pout In n cap out : byte_mem In -> 1 <= n <= max_in -> sh_need n <= cap ->
  HsModel.sh_compress M pout false false In n cap = COk out -> StreamAlone false HsModel.sh_decompress n out.
Proof.
  intros HIn Hn Hc HC. destruct (sh_round_trip M pout In n cap HIn Hn Hc) as (out' & E & _ & _ & H). assert (out' = out) by congruence. subst out'.
  eapply restores_alone; [lia|]. exact (H _ eq_refl).
Qed.

(** *** Every byte value three times: 254 bytes behind the stream are copied *)
Definition thrice : mem := fun k => (k / 3) mod 256.
Lemma thrice_byte : byte_mem thrice.
Proof. intros k. unfold thrice, is_byte. pose proof (Z.mod_pos_bound (k / 3) 256 ltac:(lia)). lia. Qed.
Definition at16d (d : Z) (l : list Z) : mem := fun a => if a <? 16 + len l + 253 then nth (Z.to_nat (a - 16)) l 0 else d.
Definition differs (r : cres) (dec : decompressor) : bool :=
  match r with
  | COk out => (len out <? 10000) &&
      match dec (at16d 0 out) 16 (len out) (fun _ => 0) 16 768, dec (at16d 1 out) 16 (len out) (fun _ => 0) 16 768 with DRet _ M1, DRet _ M2 => negb (M1 783 =? M2 783) | _, _ => true end
  | _ => false
  end.
Lemma at16d_holds d l : holds (at16d d l) 16 l.
Proof. apply holds_intro. intros k Hk. unfold at16d. replace (16 + k <? 16 + len l + 253) with true by lia. f_equal. lia. Qed.
Lemma differs_refutes comp dec : differs (comp thrice 768 1065) dec = true -> ~ OwnUpTo 253 comp dec.
Proof.
  intros H HO. unfold differs in H. destruct (comp thrice 768 1065) as [|out|] eqn:E; try discriminate. apply andb_prop in H. destruct H as [Hl H].
  destruct (HO thrice 768 1065 out thrice_byte ltac:(lia) E (at16d 0 out) (at16d 1 out) 16 (len out) (fun _ => 0) 16 768) as (M1 & M2 & E1 & E2 & E3); try lia.
  - apply at16d_holds.
  - intros x Hx. unfold at16d. replace (x <? 16 + len out + 253) with true by lia. reflexivity.
  - rewrite E1, E2, E3, Z.eqb_refl in H. discriminate.
Qed.
Local Transparent range256.
Lemma thrice_255 c : List.In c cpus -> differs (le_compress 255 false false false thrice 768 1065) (le_decompress 255 c) = true.
Proof. intros [<- | [<- | [<- | [<- | []]]]]; vm_compute; reflexivity. Qed.
Lemma thrice_32 c : List.In c cpus -> differs (le_compress 32 false false false thrice 768 1065) (le_decompress 32 c) = true.
Proof. intros [<- | [<- | [<- | [<- | []]]]]; vm_compute; reflexivity. Qed.
Lemma all_cpus c : List.In c cpus.
Proof. destruct c as [[] []]; cbn; auto. Qed.
Lemma le_own_refuted L c : L = 255 \/ L = 32 -> ~ OwnUpTo 253 (le_compress L false false false) (le_decompress L c).
Proof. intros [-> | ->]; apply differs_refutes; [apply thrice_255|apply thrice_32]; apply all_cpus. Qed.

(** *** The bound for any bytes is tight in both arguments *)
Definition tailC (d : Z) : mem := fun a => if a =? 316 then d else if a =? 315 then 7 else if a =? 16 then 44 else if a =? 24 then 128 else if (a =? 17) || (a =? 20) || (a =? 56) then 1 else 0.
Definition copyC (d : Z) : mem := fun a => if a =? 16 + 305 then d else if a =? 20 then 10 else 0.
Definition apart (dec : decompressor) (C1 C2 : mem) (i o x : Z) : bool :=
  match dec C1 16 i (fun _ => 0) 16 o, dec C2 16 i (fun _ => 0) 16 o with DRet _ M1, DRet _ M2 => negb (M1 x =? M2 x) | _, _ => false end.
Lemma apart_refutes k dec C1 C2 i o x : byte_mem C1 -> (forall a, 16 <= a < 16 + k i o -> C1 a = C2 a) -> apart dec C1 C2 i o x = true -> ~ AnyStreamUpTo k dec.
Proof.
  intros HB HA H HU. specialize (HU C1 C2 16 i (fun _ => 0) 16 o HB HA). unfold apart in H. destruct (dec C1 16 i _ 16 o) as [r1 M1|], (dec C2 16 i _ 16 o) as [r2 M2|]; try discriminate.
  destruct HU as [_ HU]. rewrite HU, Z.eqb_refl in H. discriminate.
Qed.
Lemma tailC_byte d : is_byte d -> byte_mem (tailC d).
Proof.
  intros Hd a. unfold tailC. destruct (a =? 316); [exact Hd|]. destruct (a =? 315), (a =? 16), (a =? 24), ((a =? 17) || (a =? 20) || (a =? 56)); unfold is_byte; lia.
Qed.
Lemma copyC_byte d : is_byte d -> byte_mem (copyC d).
Proof. intros Hd a. unfold copyC. destruct (a =? 16 + 305); [exact Hd|]. destruct (a =? 20); unfold is_byte; lia. Qed.
Lemma tail_apart L c : L = 255 \/ L = 32 -> List.In c cpus -> apart (le_decompress L c) (tailC 0) (tailC 5) 300 1 274 = true.
Proof. intros [-> | ->] [<- | [<- | [<- | [<- | []]]]]; vm_compute; reflexivity. Qed.
Lemma copy_apart L c : apart (le_decompress L c) (copyC 0) (copyC 5) 1 10 25 = true.
Proof. vm_compute. reflexivity. Qed.
Lemma le_any_in_refuted L c : L = 255 \/ L = 32 -> ~ AnyStreamUpTo (fun i o => Z.max i (296 + Z.max 0 o)) (le_decompress L c).
Proof.
  intros HL. apply (apart_refutes _ _ (tailC 0) (tailC 5) 300 1 274); [apply tailC_byte; unfold is_byte; lia| |apply tail_apart; [exact HL|apply all_cpus]].
  intros a Ha. unfold tailC. replace (a =? 316) with false by lia. reflexivity.
Qed.
Lemma le_any_out_refuted L c : ~ AnyStreamUpTo (fun i o => Z.max (i + 1) (295 + Z.max 0 o)) (le_decompress L c).
Proof.
  apply (apart_refutes _ _ (copyC 0) (copyC 5) 1 10 25); [apply copyC_byte; unfold is_byte; lia| |apply copy_apart].
  intros a Ha. unfold copyC. replace (a =? 16 + 305) with false by lia. reflexivity.
Qed.
