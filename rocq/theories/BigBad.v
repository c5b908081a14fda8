(** The symlut codecs of 8, 16 and 32 bit and most short codecs exceed rle_compress_bounds: behind at
    least 65534 literals process_symbol expects a 2 byte literal length where 4 bytes are written. *)
From Verif Require Import Base Simd Spec ExtModel ExtDec ExtEnc PktModel PktEnc MbModel LutModel LutProof SlModel ShModel SameMb Same8 SameThm Big.

(** Blocks of 65534 literals without repetition, each followed by [cnt] bytes of a symbol that has not
    occurred before, nor is in the initial table. *)
Definition first_byte (b : Z) : Z := if b <? 124 then b + 2 else b + 5.
Definition big (S cnt : Z) : mem := fun x =>
  let T := 65534 + cnt in
  let r := x mod T in
  if r <? 65534 then 240 + x mod 16
  else if (r - 65534) mod S =? 0 then first_byte ((x / T) mod 200) else 201.
Definition big_sym (S b : Z) : list Z := first_byte b :: repeat 201 (Z.to_nat (S - 1)).
Definition big_n (cnt : Z) : Z := 200 * (65534 + cnt) + 32.

Lemma nth_201 k m : (k < m)%nat -> nth k (repeat 201 m) 0 = 201.
Proof. revert k. induction m as [|m IH]; intros k Hk; [lia|]. destruct k as [|k]; [reflexivity|]. cbn [repeat nth]. apply IH. lia. Qed.
Lemma first_byte_range b : 0 <= b < 200 -> 2 <= first_byte b < 240.
Proof. unfold first_byte. destruct (b <? 124) eqn:E; lia. Qed.
Lemma big_byte S cnt : byte_mem (big S cnt).
Proof.
  intros x. unfold big, is_byte. cbv zeta. pose proof (first_byte_range ((x / (65534 + cnt)) mod 200) ltac:(lia)). destruct (_ <? _); [lia|]. destruct (_ =? _); lia.
Qed.
Lemma big_at S cnt b r : 0 < cnt -> 0 <= b -> 0 <= r < 65534 + cnt ->
  big S cnt (b * (65534 + cnt) + r) = if r <? 65534 then 240 + (b * (65534 + cnt) + r) mod 16 else if (r - 65534) mod S =? 0 then first_byte (b mod 200) else 201.
Proof.
  intros Hc Hb Hr. unfold big. cbv zeta. replace ((b * (65534 + cnt) + r) mod (65534 + cnt)) with r by (rewrite Z.add_comm, Z.mod_add, Z.mod_small by lia; reflexivity).
  replace ((b * (65534 + cnt) + r) / (65534 + cnt)) with b by (rewrite Z.add_comm, Z.div_add, Z.div_small by lia; reflexivity). reflexivity.
Qed.
Lemma big_lit S cnt b r : 0 < cnt -> 0 <= b -> 0 <= r < 65534 -> big S cnt (b * (65534 + cnt) + r) = 240 + (b * (65534 + cnt) + r) mod 16.
Proof. intros. rewrite big_at by lia. replace (r <? 65534) with true by lia. reflexivity. Qed.
Lemma big_run S cnt b j : 0 < cnt -> 0 < S -> 0 <= b < 200 -> 0 <= j < cnt -> big S cnt (b * (65534 + cnt) + 65534 + j) = symbyte (big_sym S b) (j mod S).
Proof.
  intros Hc HS Hb Hj. rewrite <- Z.add_assoc, big_at by lia. replace (65534 + j <? 65534) with false by lia. replace (65534 + j - 65534) with j by lia. rewrite (Z.mod_small b 200) by lia.
  pose proof (Z.mod_pos_bound j S HS) as Hm. unfold symbyte, big_sym. destruct (j mod S =? 0) eqn:E.
  - replace (j mod S) with 0 by lia. reflexivity.
  - replace (Z.to_nat (j mod S)) with (Datatypes.S (Z.to_nat (j mod S - 1))) by lia. cbn [nth]. rewrite nth_201 by lia. reflexivity.
Qed.
Lemma symb_small S b j : 0 <= b < 200 -> 0 <= j < S -> symbyte (big_sym S b) j < 240.
Proof.
  intros Hb Hj. unfold symbyte, big_sym. destruct (Z.eq_dec j 0) as [->|Hne]; [change (first_byte b < 240); pose proof (first_byte_range b Hb); lia|].
  replace (Z.to_nat j) with (Datatypes.S (Z.to_nat (j - 1))) by lia. cbn [nth]. rewrite nth_201 by lia. lia.
Qed.
Lemma big_lits S cnt b r : 0 < S < 16 -> S < cnt -> 0 <= b <= 200 -> 0 <= r < 65534 -> big S cnt (b * (65534 + cnt) + r) <> big S cnt (b * (65534 + cnt) + r + S).
Proof.
  intros HS Hc Hb Hr. rewrite big_lit by lia. destruct (Z_lt_ge_dec (r + S) 65534) as [H|H].
  - rewrite <- Z.add_assoc, big_lit by lia. rewrite Z.add_assoc. generalize (b * (65534 + cnt) + r). intros x. clear - HS. lia.
  - rewrite <- Z.add_assoc, big_at by lia. replace (r + S <? 65534) with false by lia. pose proof (first_byte_range (b mod 200) ltac:(lia)). generalize ((b * (65534 + cnt) + r) mod 16 ) (Z.mod_pos_bound (b * (65534 + cnt) + r) 16 ltac:(lia)).
    intros x Hx. destruct (_ =? _); lia.
Qed.
Lemma big_stop S cnt b : 0 < cnt -> 0 < S -> 0 <= b < 200 -> big S cnt (b * (65534 + cnt) + (65534 + cnt)) <> symbyte (big_sym S b) (cnt mod S).
Proof.
  intros Hc HS Hb. replace (b * (65534 + cnt) + (65534 + cnt)) with ((b + 1) * (65534 + cnt) + 0) by ring. rewrite big_lit by lia. pose proof (symb_small S b (cnt mod S) Hb ltac:(lia)).
  generalize (((b + 1) * (65534 + cnt) + 0) mod 16) (Z.mod_pos_bound ((b + 1) * (65534 + cnt) + 0) 16 ltac:(lia)). intros. lia.
Qed.
Lemma big_symlen S b : 1 <= S -> len (big_sym S b) = S.
Proof. intros. unfold big_sym, len. cbn [length]. rewrite repeat_length. lia. Qed.

(** The table never has the symbols that are still to come. *)
Definition Fresh (SC b : Z) (lut : list (list Z)) : Prop := len lut = SC /\ forall e b', List.In e lut -> b <= b' < 200 -> hd 0 e <> first_byte b'.
Lemma fresh_index SC b lut S : Fresh SC b lut -> 0 <= b < 200 -> lut_index (big_sym S b) lut = SC.
Proof.
  intros [<- H] Hb. induction lut as [|e r IH]; [reflexivity|]. cbn [lut_index]. destruct (eqb_bytes e (big_sym S b)) eqn:E.
  - apply eqb_bytes_eq in E. subst e. exfalso. apply (H (big_sym S b) b); [now left|lia|reflexivity].
  - rewrite IH; [unfold len; cbn [length]; lia|]. intros e' b' He. apply H. now right.
Qed.
Lemma fresh_front SC b lut S : 1 <= SC -> Fresh SC b lut -> 0 <= b < 200 -> Fresh SC (b + 1) (lut_front SC (big_sym S b) SC lut).
Proof.
  intros HSC [Hl H] Hb. unfold lut_front. rewrite (firstn_all2 (n := Z.to_nat SC)) by (unfold len in Hl; lia). rewrite skipn_all2 by (unfold len in Hl; lia). rewrite app_nil_r. split.
  - unfold len in *. cbn [length]. rewrite firstn_length. lia.
  - intros e b' [<- | He] Hb'.
    + cbn [hd big_sym]. unfold first_byte. destruct (b <? 124) eqn:E1, (b' <? 124) eqn:E2; lia.
    + apply H; [|lia]. rewrite <- (firstn_skipn (Z.to_nat (SC - 1)) lut). apply in_or_app. now left.
Qed.
Lemma fresh_init S SC : 1 <= S -> 0 <= SC <= 7 -> Fresh SC 0 (lut_init S SC).
Proof.
  intros HS HSC. unfold lut_init, lut_bytes. split; [unfold len; rewrite map_length, firstn_length; cbn [length]; lia|].
  intros e b' He Hb'. apply in_map_iff in He as (x & <- & Hx). replace (hd 0 (repeat x (Z.to_nat S))) with x by (replace (Z.to_nat S) with (Datatypes.S (Z.to_nat (S - 1))) by lia; reflexivity).
  assert (K : List.In x [0; 127; 255; 1; 126; 128; 254]) by (rewrite <- (firstn_skipn (Z.to_nat SC) [0; 127; 255; 1; 126; 128; 254]); apply in_or_app; now left).
  unfold first_byte. cbn [List.In] in K. destruct (b' <? 124) eqn:E; repeat (destruct K as [<- | K]; [lia|]); destruct K.
Qed.

(** *** Symlut *)
Definition sl_cnt (c : slcfg) : Z := if slS c =? 4 then 8 else 6.
Definition sl_lossy (c : slcfg) : Prop := slS c = 1 \/ slS c = 2 \/ slS c = 4.
Lemma sl_cases c : List.In c slcodecs -> sl_lossy c ->
  (1 <= slS c <= 4) /\ (1 <= slSC c <= 7) /\ (slS c <> 1 -> okS (slS c) /\ slS c <> 16) /\ (slS c <> 1 -> slS c * 2 <= sl_cnt c) /\ (slS c <> 1 -> slUnb c = false -> sl_cnt c mod slS c = 0) /\
  (slSHORT + (ext_penalty (slMAXR c) 65536 + ext_penalty slMAXC (sl_stored c (sl_cnt c)) + 1) <=? sl_cnt c) = true /\ ext slMAXC (sl_stored c (sl_cnt c)) = [] /\ len (ext (slMAXR c) 65536) = 4 /\
  slS c + 6 > sl_cnt c /\ len (sl_term_lits c 32) = 8 /\ 6 <= sl_cnt c <= 8.
Proof.
  intros Hc Hl. unfold slcodecs in Hc. cbn [flat_map app List.In] in Hc. unfold sl_lossy in Hl. repeat (destruct Hc as [<-|Hc]; [cbn [slS] in Hl; try (exfalso; lia); clear Hl; unfold okS; cbn [slS slUnb slSC]; repeat split; try (vm_compute; (reflexivity || discriminate)); try lia|]). destruct Hc.
Qed.
Lemma sl_big_proc c In b lut sym : List.In c slcodecs -> sl_lossy c -> 0 <= b < 200 -> Fresh (slSC c) b lut -> sym = big_sym (slS c) b -> let T := 65534 + sl_cnt c in
  exists bytes lut', sl_proc c In (b * T + T) (sl_cnt c) sym (b * T) lut = Some (bytes, lut') /\ len bytes = (slS c + 6) + 65534 /\ Fresh (slSC c) (b + 1) lut'.
Proof.
  intros Hc Hl Hb HF -> T. destruct (sl_cases c Hc Hl) as (C1 & C2 & _ & _ & _ & C5 & C6 & C7 & _ & _ & C10).
  unfold sl_proc. cbv zeta. rewrite (fresh_index (slSC c) b lut _ HF Hb). replace (b * T + T - b * T - sl_cnt c + 2) with 65536 by (unfold T; ring). rewrite Z.eqb_refl, C5, orb_true_r.
  eexists _, _. split; [reflexivity|]. split; [|apply fresh_front; [lia|exact HF|exact Hb]].
  unfold sl_head. rewrite Z.eqb_refl, C6, !len_app, C7, big_symlen by lia. rewrite len_slice by (unfold T; lia). replace (b * T + T - sl_cnt c - b * T) with 65534 by (unfold T; ring). change (len (@nil Z)) with 0. unfold le16. change (len [_; _]) with 2. lia.
Qed.
Lemma sl_big c v : List.In c slcodecs -> sl_lossy c -> let In := big (slS c) (sl_cnt c) in let n := big_n (sl_cnt c) in
  exists out, sl_compress c v false false In n (rle_compress_bounds n) = COk out /\ rle_compress_bounds n < len out.
Proof.
  intros Hc Hl In n. destruct (sl_cases c Hc Hl) as (C1 & C2 & C3 & C4 & C4' & _ & _ & _ & C8 & C9 & C10).
  assert (Hn : n = 200 * (65534 + sl_cnt c) + 32) by reflexivity. assert (Hb : rle_compress_bounds n = n + 193) by (unfold rle_compress_bounds; replace (n >? 2 ^ 30) with false by lia; reflexivity).
  assert (K : exists body, sl_body c v In n = Some body /\ len body = 200 * (slS c + 6 + 65534) + 8 + 32).
  { unfold sl_body. destruct (slS c =? 1) eqn:E1.
    - cbv zeta. rewrite <- C9. apply (big8_body (fun In i count sym last a => sl_proc c In i count [sym] last a) In 65534 (sl_cnt c) 200 32 (slS c + 6) first_byte (Fresh (slSC c)) (65534 + sl_cnt c) n); try lia.
      + intros b r Hb' Hr. replace 1 with (slS c) by lia. apply big_lits; lia.
      + intros b j Hb' Hj. unfold In. rewrite big_run by lia. replace (slS c) with 1 by lia. rewrite Z.mod_1_r. reflexivity.
      + intros b Hb'. pose proof (big_stop (slS c) (sl_cnt c) b ltac:(lia) ltac:(lia) ltac:(lia)) as K. replace (slS c) with 1 in K at 2 3 by lia. rewrite Z.mod_1_r in K. exact K.
      + intros. apply sl_none; lia.
      + intros b a Hb' Ha. apply (sl_big_proc c In b a [first_byte b] Hc Hl ltac:(lia) Ha). unfold big_sym. replace (slS c) with 1 by lia. reflexivity.
      + apply fresh_init; lia.
      + destruct v; lia.
    - destruct (C3 ltac:(lia)) as [O1 O2]. rewrite <- C9. apply (big_body (sl_proc c) (slS c) (slUnb c) In 65534 (sl_cnt c) 200 32 (slS c + 6) (big_sym (slS c)) (Fresh (slSC c)) (65534 + sl_cnt c) n); try lia; try assumption.
      + intros b. apply big_symlen. lia.
      + intros b r Hb' Hr E. apply (big_lits (slS c) (sl_cnt c) b r); try lia. fold In. apply (f_equal (fun l => nth 0 l 0)) in E. unfold load in E. 
        pose proof (nth_slice In (b * (65534 + sl_cnt c) + r) (slS c) 0 ltac:(lia)) as N1. pose proof (nth_slice In (b * (65534 + sl_cnt c) + r + slS c) (slS c) 0 ltac:(lia)) as N2. cbn [Z.to_nat] in N1, N2. rewrite N1, N2, !Z.add_0_r in E. now symmetry.
      + intros b j Hb' Hj. apply big_run; lia.
      + intros b Hb'. apply big_stop; lia.
      + intros. apply sl_none; lia.
      + intros b a Hb' Ha. apply (sl_big_proc c In b a _ Hc Hl ltac:(lia) Ha eq_refl).
      + apply fresh_init; lia.
      + unfold not_first, symbyte, load. assert (E : slice In 0 (slS c) = In 0 :: slice In 1 (slS c - 1)) by (replace (slS c) with (1 + (slS c - 1)) at 1 by lia; rewrite slice_app by lia; reflexivity). rewrite E. cbn [map nth Z.to_nat]. lia. }
  destruct K as (body & EB & LB). unfold sl_compress. rewrite EB. replace (n =? 0) with false by lia. replace (rle_compress_bounds n <? rle_compress_bounds n) with false by lia. cbn [orb].
  eexists. split; [reflexivity|]. rewrite !len_app, LB, !len_le32, Hb, Hn. lia.
Qed.

(** *** Short *)
Definition sh_cnt (c : shcfg) : Z := 6 + shS c.
Definition sh_lossy (c : shcfg) : Prop := shOne c = false /\ (shS c = 1 \/ shS c = 2 \/ shS c = 3 \/ shS c = 6 \/ shS c = 4 /\ shUnb c = true).
Lemma sh_cases c : List.In c shcodecs -> sh_lossy c ->
  (1 <= shS c <= 6) /\ (0 <= shSC c <= 7) /\ (shS c <> 1 -> okS (shS c) /\ shS c <> 16) /\ (shS c <> 1 -> shS c * 2 <= sh_cnt c) /\ (shS c <> 1 -> shUnb c = false -> sh_cnt c mod shS c = 0) /\
  (shSHORT c + sh_penalty c (shSC c) (sh_stored c (sh_cnt c)) 65536 <=? sh_cnt c) = true /\
  (forall sym, len (sh_head c (shSC c) (sh_stored c (sh_cnt c)) 65536 sym) = len sym + 7) /\
  9 <= len (sh_term_lits c 32).
Proof.
  intros Hc Hl. unfold shcodecs in Hc. cbn [flat_map app List.In] in Hc. unfold sh_lossy in Hl. unfold sh_cnt. repeat (destruct Hc as [<-|Hc]; [cbn [shS shOne shUnb] in Hl; try (exfalso; destruct Hl as [? ?]; (discriminate || (intuition discriminate))); clear Hl; unfold okS; cbn [shS shUnb shSC]; repeat split; try (vm_compute; (reflexivity || discriminate)); try lia; try (intros sym; unfold sh_head; rewrite len_app; set (p := if sh_small _ _ _ then _ else _); assert (Hp : len p = 7) by (vm_compute; reflexivity); rewrite Hp; cbn [shSC shOne Z.eqb Pos.eqb andb negb]; lia)|]). destruct Hc.
Qed.
Lemma sh_big_proc c In b lut sym : List.In c shcodecs -> sh_lossy c -> 0 <= b < 200 -> (shSC c = 0 \/ Fresh (shSC c) b lut) -> sym = big_sym (shS c) b -> let T := 65534 + sh_cnt c in
  exists bytes lut', sh_proc c In (b * T + T) (sh_cnt c) sym (b * T) lut = Some (bytes, lut') /\ len bytes = (shS c + 7) + 65534 /\ (shSC c = 0 \/ Fresh (shSC c) (b + 1) lut').
Proof.
  intros Hc Hl Hb HF -> T. destruct (sh_cases c Hc Hl) as (C1 & C2 & _ & _ & _ & C5 & C6 & _).
  unfold sh_proc. cbv zeta. replace (b * T + T - b * T - sh_cnt c + 2) with 65536 by (unfold T; ring).
  assert (E : (if shSC c =? 0 then 0 else lut_index (big_sym (shS c) b) lut) = shSC c). { destruct (shSC c =? 0) eqn:E0; [lia|]. destruct HF as [HF|HF]; [lia|]. exact (fresh_index (shSC c) b lut _ HF Hb). }
  rewrite E, C5, orb_true_r. eexists _, _. split; [reflexivity|]. split.
  - rewrite len_app, C6, big_symlen by lia. rewrite len_slice by (unfold T; lia). unfold T. ring.
  - destruct (shSC c =? 0) eqn:E0; [left; lia|]. right. destruct HF as [HF|HF]; [lia|]. apply fresh_front; [lia|exact HF|exact Hb].
Qed.
Lemma sh_big c v : List.In c shcodecs -> sh_lossy c -> let In := big (shS c) (sh_cnt c) in let n := big_n (sh_cnt c) in
  exists out, sh_compress c v false false In n (rle_compress_bounds n) = COk out /\ rle_compress_bounds n < len out.
Proof.
  intros Hc Hl In n. destruct (sh_cases c Hc Hl) as (C1 & C2 & C3 & C4 & C4' & _ & _ & C9).
  assert (C10 : sh_cnt c = 6 + shS c) by reflexivity.
  assert (Hn : n = 200 * (65534 + sh_cnt c) + 32) by reflexivity. assert (Hb : rle_compress_bounds n = n + 193) by (unfold rle_compress_bounds; replace (n >? 2 ^ 30) with false by lia; reflexivity).
  assert (K : exists body, sh_body c v In n = Some body /\ len body = 200 * (shS c + 7 + 65534) + len (sh_term_lits c 32) + 32).
  { unfold sh_body. destruct Hl as [Hl1 Hl2]. rewrite Hl1. assert (Hl : sh_lossy c) by (split; assumption). assert (HI : shSC c = 0 \/ Fresh (shSC c) 0 (lut_init (shS c) (shSC c))). { destruct (Z.eq_dec (shSC c) 0); [now left|]. right. apply fresh_init; lia. }
    destruct (shS c =? 1) eqn:E1.
    - cbv zeta. apply (big8_body (fun In i count sym last a => sh_proc c In i count [sym] last a) In 65534 (sh_cnt c) 200 32 (shS c + 7) first_byte (fun b a => shSC c = 0 \/ Fresh (shSC c) b a) (65534 + sh_cnt c) n); try lia.
      + intros b r Hb' Hr. replace 1 with (shS c) by lia. apply big_lits; lia.
      + intros b j Hb' Hj. unfold In. rewrite big_run by lia. replace (shS c) with 1 by lia. rewrite Z.mod_1_r. reflexivity.
      + intros b Hb'. pose proof (big_stop (shS c) (sh_cnt c) b ltac:(lia) ltac:(lia) ltac:(lia)) as K. replace (shS c) with 1 in K at 2 3 by lia. rewrite Z.mod_1_r in K. exact K.
      + intros. apply sh_none; lia.
      + intros b a Hb' Ha. apply (sh_big_proc c In b a [first_byte b] Hc Hl ltac:(lia) Ha). unfold big_sym. replace (shS c) with 1 by lia. reflexivity.
      + exact HI.
      + destruct v; lia.
    - destruct (C3 ltac:(lia)) as [O1 O2]. apply (big_body (sh_proc c) (shS c) (shUnb c) In 65534 (sh_cnt c) 200 32 (shS c + 7) (big_sym (shS c)) (fun b a => shSC c = 0 \/ Fresh (shSC c) b a) (65534 + sh_cnt c) n); try lia; try assumption.
      + intros b. apply big_symlen. lia.
      + intros b r Hb' Hr E. apply (big_lits (shS c) (sh_cnt c) b r); try lia. fold In. apply (f_equal (fun l => nth 0 l 0)) in E. unfold load in E. 
        pose proof (nth_slice In (b * (65534 + sh_cnt c) + r) (shS c) 0 ltac:(lia)) as N1. pose proof (nth_slice In (b * (65534 + sh_cnt c) + r + shS c) (shS c) 0 ltac:(lia)) as N2. cbn [Z.to_nat] in N1, N2. rewrite N1, N2, !Z.add_0_r in E. now symmetry.
      + intros b j Hb' Hj. apply big_run; lia.
      + intros b Hb'. apply big_stop; lia.
      + intros. apply sh_none; lia.
      + intros b a Hb' Ha. apply (sh_big_proc c In b a _ Hc Hl ltac:(lia) Ha eq_refl).
      + unfold not_first, symbyte, load. assert (E : slice In 0 (shS c) = In 0 :: slice In 1 (shS c - 1)) by (replace (shS c) with (1 + (shS c - 1)) at 1 by lia; rewrite slice_app by lia; reflexivity). rewrite E. cbn [map nth Z.to_nat]. lia. }
  destruct K as (body & EB & LB). unfold sh_compress, sh_wrap. rewrite EB. replace (n =? 0) with false by lia. replace (rle_compress_bounds n <? rle_compress_bounds n) with false by lia. cbn [orb].
  eexists. split; [reflexivity|]. rewrite !len_app, LB, !len_le32, Hb, Hn. lia.
Qed.
