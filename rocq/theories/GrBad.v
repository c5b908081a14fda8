(** Inputs that the greedy encoders make larger than the ordinary encoders of the same format. *)
From Verif Require Import Base Simd Spec ExtModel PktModel Rle8Model MbModel LutModel ShModel.

Definition gr_inputs : list (shcfg * list Z) := [
  (mkSh 2 true 3 false, [1; 0; 0; 1; 0; 1; 0; 0; 1; 0; 1]);
  (mkSh 3 true 3 false, [1; 1; 1; 0; 2; 2; 2; 0; 1; 1; 1; 0; 2; 2; 2; 0; 1; 1; 1; 0; 2; 2; 2; 0; 1; 1; 1; 0; 2; 2; 2; 0; 2; 0; 2; 1; 0; 2; 1; 0; 2; 1; 0; 2; 2; 1; 0; 1; 1; 2; 2; 1; 0; 1; 1; 2; 2; 1; 0; 1; 1; 2; 2; 1; 0; 1; 1; 1; 2; 2; 0; 0; 1; 1; 2; 2; 0; 0; 1; 1; 2; 2; 0; 0; 1; 0; 0; 0; 1; 0; 0; 1]);
  (mkSh 4 true 3 false, [2; 2; 0; 2; 0; 2; 2; 0; 2; 0; 1; 2; 2; 2; 2; 1; 1; 1; 0; 1; 2; 1; 1; 1; 2; 1; 0; 1; 0; 0; 1; 0; 0; 1; 0; 0; 1; 2; 0; 2; 1; 2; 0; 2; 2; 0; 0; 2; 1; 2; 2; 0; 0; 2; 1; 2; 2; 0; 0; 2; 1; 2; 0; 2; 1; 2; 0; 2; 1; 2; 0; 2; 1; 2]);
  (mkSh 6 true 3 false, [1; 0; 1; 1; 1; 1; 1; 1; 1; 0; 0; 0; 1; 0; 1; 1; 1; 0; 1; 0; 1; 1; 1]);
  (mkSh 8 true 3 false, [0; 2; 0; 2; 0; 2; 1; 2; 1; 1; 2; 1; 1; 2; 1; 1; 1; 2; 2; 0; 2; 0; 0; 1; 1; 2; 0; 1; 2; 0; 1; 2; 0; 1; 2; 0; 0; 0; 2; 0; 0; 1; 2; 1; 0; 0; 2; 0; 0; 1; 2; 1]);
  (mkSh 2 true 7 false, [1; 2; 1; 0; 0; 2; 0; 2; 2; 0; 0; 2; 0; 2]);
  (mkSh 3 true 7 false, [2; 0; 1; 2; 2; 1; 0; 1; 0; 1; 1; 2; 1; 0; 1; 1; 2; 1; 0; 1; 1; 2; 1; 0; 1; 1; 2; 1; 0; 2; 1; 2; 1; 0; 0; 2; 1; 2; 1; 2; 1; 0; 0; 2; 1; 2; 1; 2; 1; 0; 0; 2; 1; 2; 1; 2; 1; 0; 0; 2; 1; 2; 2; 1; 1; 1; 0; 1; 1; 0; 1; 1; 0]);
  (mkSh 4 true 7 false, [2; 2; 0; 2; 0; 2; 2; 0; 2; 0; 1; 2; 2; 2; 2; 1; 1; 1; 0; 1; 2; 1; 1; 1; 2; 1; 0; 1; 0; 0; 1; 0; 0; 1; 0; 0; 1; 2; 0; 2; 1; 2; 0; 2; 2; 0; 0; 2; 1; 2; 2; 0; 0; 2; 1; 2; 2; 0; 0; 2; 1; 2; 0; 2; 1; 2; 0; 2; 1; 2]);
  (mkSh 6 true 7 false, [2; 0; 1; 2; 2; 1; 0; 1; 0; 1; 1; 2; 1; 0; 1; 1; 2; 1; 0; 1; 1; 2; 1; 0; 1; 1; 2; 1; 0; 2; 1; 2; 1; 0; 0; 2; 1; 2; 1; 2; 1; 0; 0; 2; 1; 2; 1; 2; 1; 0; 0; 2; 1; 2; 1; 2; 1; 0; 0; 2; 1; 2; 2; 1; 1; 1; 0; 1; 1; 0; 1; 1; 0; 1; 1]);
  (mkSh 8 true 7 false, [0; 2; 0; 2; 0; 2; 1; 2; 1; 1; 2; 1; 1; 2; 1; 1; 1; 2; 2; 0; 2; 0; 0; 1; 1; 2; 0; 1; 2; 0; 1; 2; 0; 1; 2; 0; 0; 0; 2; 0; 0; 1; 2; 1; 0; 0; 2; 0; 0; 1; 2; 1]);
  (mkSh 2 true 1 false, [1; 1; 1; 0; 1; 1; 0; 0; 1; 0; 1; 1; 0; 0; 1; 0; 1]);
  (mkSh 3 true 1 false, [1; 1; 1; 1; 1; 1; 1; 1; 1; 1; 1; 1; 1; 0; 0; 1; 0; 0; 1; 0; 1; 1; 0; 0; 1; 0; 0; 1; 0; 1; 1; 0; 0; 1; 0; 0; 1; 0; 1; 1; 0; 0; 1; 0; 0; 1; 0; 1; 1; 0; 0; 0; 1; 0; 0; 1; 0; 0; 0; 0; 0; 1; 0; 0; 1]);
  (mkSh 4 true 1 false, [2; 0; 1; 1; 2; 2; 2; 2; 0; 1; 1; 2; 2; 2; 2; 0; 1; 1; 2; 2; 2; 2; 0; 1; 1; 2; 2; 2; 0; 0; 1; 1; 2; 2; 0; 0; 1; 1; 2; 2; 0; 0; 1; 1; 2; 2; 2; 2; 0; 0; 1; 0; 0; 0; 2; 2; 0; 0; 2; 2]);
  (mkSh 6 true 1 false, [0; 0; 1; 1; 0; 1; 1; 0; 1; 1; 0; 1; 1; 1]);
  (mkSh 8 true 1 false, [0; 2; 0; 2; 0; 2; 1; 2; 1; 1; 2; 1; 1; 2; 1; 1; 1; 2; 2; 0; 2; 0; 0; 1; 1; 2; 0; 1; 2; 0; 1; 2; 0; 1; 2; 0; 0; 0; 2; 0; 0; 1; 2; 1; 0; 0; 2; 0; 0; 1; 2; 1])].
Definition mem_of (l : list Z) : mem := fun k => nth (Z.to_nat k) l 0.
Definition size_of (r : cres) : Z := match r with COk out => len out | _ => 0 end.
Definition gr_longer (e : shcfg * list Z) : bool :=
  let '(c, l) := e in
  let g := size_of (greedy_compress c false false (mem_of l) (len l) (rle_compress_bounds (len l))) in
  forallb (fun v => let s := size_of (sh_compress c v false false (mem_of l) (len l) (rle_compress_bounds (len l))) in (0 <? s) && (s <? g)) [Base_; Sse2; Ssse3; Avx2].
Lemma gr_all : map fst gr_inputs = greedy_codecs /\ forallb gr_longer gr_inputs = true /\ forallb (fun e => forallb (fun b => (0 <=? b) && (b <? 256)) (snd e)) gr_inputs = true /\
  forallb (fun e => (1 <=? len (snd e)) && (len (snd e) <=? 200)) gr_inputs = true.
Proof. vm_compute. auto. Qed.

Theorem gr_refuted c : List.In c greedy_codecs -> exists In n, byte_mem In /\ 1 <= n <= max_in /\
  forall v, exists a b, greedy_compress c false false In n (rle_compress_bounds n) = COk a /\ sh_compress c v false false In n (rle_compress_bounds n) = COk b /\ len b < len a.
Proof.
  intros Hc. destruct gr_all as (A1 & A2 & A3 & A4). rewrite <- A1 in Hc. apply in_map_iff in Hc. destruct Hc as ([c' l] & <- & Hi). cbn [fst].
  rewrite forallb_forall in A2, A3, A4. specialize (A2 _ Hi). specialize (A3 _ Hi). specialize (A4 _ Hi). cbn [snd] in A3, A4. unfold gr_longer in A2.
  exists (mem_of l), (len l). split; [|split].
  - intros k. unfold mem_of. rewrite forallb_forall in A3. destruct (nth_in_or_default (Z.to_nat k) l 0) as [H|H]; [|rewrite H; unfold is_byte; lia].
    specialize (A3 _ H). unfold is_byte. lia.
  - unfold max_in. lia.
  - intros v. rewrite forallb_forall in A2. assert (Hv : List.In v [Base_; Sse2; Ssse3; Avx2]) by (destruct v; cbn; tauto). specialize (A2 _ Hv). cbv zeta in A2.
    destruct (greedy_compress _ _ _ _ _ _) as [|a|]; cbn [size_of] in A2; try lia. destruct (sh_compress _ _ _ _ _ _ _) as [|b|]; cbn [size_of] in A2; try lia.
    exists a, b. split; [reflexivity|]. split; [reflexivity|]. lia.
Qed.
