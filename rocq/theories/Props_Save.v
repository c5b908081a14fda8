(** Repetitions are compressed. *)
From Verif Require Import Base Simd Spec ExtModel PktModel Rle8Model Rle8Proof Rle8Single MbModel LutModel SlModel SlProof ShModel ShProof ShEnc SaveSpec SaveFam SaveFam8 SaveX128 SaveGr SaveOne SaveRef.

(** C60: whatever pieces of the input are repetitions of [S] bytes, all but [5 S + 12] bytes of each
    are missing in the stream. *)
Theorem C60_ext_saves : forall c v, List.In c xcodecs -> Saves (xS c) (5 * xS c + 12) (xcompress c v false false) (fun n => n + 2 * xS c + 18).
Proof. exact ext_saves_all. Qed.
Print Assumptions C60_ext_saves.
Theorem C60_sl_saves : forall c v, List.In c slcodecs -> Saves (slS c) (5 * slS c + 12) (sl_compress c v false false)
  (fun n => n + 30 + (if slS c =? 3 then n / 68 else if slS c <=? 4 then 2 * (n / 65537) else 0)).
Proof. exact sl_saves. Qed.
Print Assumptions C60_sl_saves.
Theorem C60_short_saves : forall c v, List.In c shcodecs -> shOne c = false -> Saves (shS c) (5 * shS c + 12) (sh_compress c v false false)
  (fun n => n + n / 65537 + 36).
Proof. exact sh_saves. Qed.
Print Assumptions C60_short_saves.
Theorem C60_greedy_saves : forall c, List.In c greedy_codecs -> Saves (shS c) (5 * shS c + 12) (greedy_compress c false false)
  (fun n => n + n / 65537 + 36).
Proof. exact greedy_saves. Qed.
Print Assumptions C60_greedy_saves.
Theorem C60_rle8_multi_saves : forall pk avx2, Saves 1 17 (m_compress pk avx2 false false) (fun n => n + 20 + (if pk then 0 else n / 261)).
Proof. exact m_saves. Qed.
Print Assumptions C60_rle8_multi_saves.
(** The codecs with one symbol: repetitions of the symbol they have written into the stream. *)
Theorem C60_rle8_single_saves : forall pk, SavesSymbol 9 17 (s_compress pk false false) (fun n => n + 22 + (if pk then 4 * (n / 257) else 0)).
Proof. exact s_saves. Qed.
Print Assumptions C60_rle8_single_saves.
Theorem C60_short_single_saves : forall c v, List.In c shcodecs -> shOne c = true -> SavesSymbol 8 17 (sh_compress c v false false)
  (fun n => n + n / 65537 + 36).
Proof. exact sh_saves_one. Qed.
Print Assumptions C60_short_single_saves.
(** They do not save other repetitions. *)
Theorem C60_rle8_single_other_symbols_refuted : forall pk, ~ Saves 1 17 (s_compress pk false false) (fun n => n + 22 + (if pk then 4 * (n / 257) else 0)).
Proof. exact s_not_saves. Qed.
Print Assumptions C60_rle8_single_other_symbols_refuted.
Theorem C60_short_single_other_symbols_refuted : forall c v, List.In c shcodecs -> shOne c = true ->
  ~ Saves 1 17 (sh_compress c v false false) (fun n => n + n / 65537 + 36).
Proof. exact sh_one_not_saves. Qed.
Print Assumptions C60_short_single_other_symbols_refuted.

(** 200 zeros and 200 ones are two repetitions; 366 of the 400 bytes are saved. *)
Example C60_ex_repetitions : byte_mem two_runs /\ 1 <= 400 <= max_in /\ Repetitions 1 two_runs 0 400 [(0, 200); (200, 400)] /\
  saving 17 [(0, 200); (200, 400)] = 366.
Proof. split; [exact two_runs_bytes|]. split; [unfold max_in; lia|]. split; [exact two_runs_reps|reflexivity]. Qed.
Example C60_ex_multi : clen (m_compress true false false false two_runs 400 600) = 31.
Proof. vm_compute. reflexivity. Qed.
Example C60_ex_short : clen (sh_compress (mkSh 1 false 3 false) Sse2 false false two_runs 400 600) = 22.
Proof. vm_compute. reflexivity. Qed.
(** The single codec has one of the two symbols and saves the repetition of it only. *)
Example C60_ex_single : match s_compress false false false two_runs 400 600 with COk out => nth 9 out 2 = 0 /\ len out = 222 | _ => False end.
Proof. vm_compute. split; reflexivity. Qed.
(** A repetition of four bytes between other bytes, for the 4 byte codecs. *)
Definition C60_word : mem := fun i => if (i <? 40) || (340 <=? i) then (i * i * 7 + i) mod 251 else 10 + i mod 4.
Example C60_ex_word : Repetitions 4 C60_word 0 400 [(40, 340)].
Proof.
  cbn. repeat split; try lia. intros x H1 H2. unfold C60_word.
  replace ((x + 4 <? 40) || (340 <=? x + 4)) with false by lia. replace ((x <? 40) || (340 <=? x)) with false by lia. f_equal. lia.
Qed.
Example C60_ex_word_ext : clen (xcompress (mkX 4 false false false) Sse2 false false C60_word 400 600) = 128.
Proof. vm_compute. reflexivity. Qed.
Example C60_ex_word_greedy : clen (greedy_compress (mkSh 4 true 3 false) false false C60_word 400 600) = 124.
Proof. vm_compute. reflexivity. Qed.
