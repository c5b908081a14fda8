(** The wire formats of the 8 bit codecs, of the codecs with a table of symbols and of the short codecs. *)
From Verif Require Import Base Simd Spec ExtModel PktSpec Fmt8Spec LutSpec PktModel Rle8Model MbModel LutModel SlModel SlProof ShModel ShProof ShThm Fmt2Thm.

(** C37: a stream of one run of [n] bytes decodes to [n] bytes of the repeated symbol. *)
Theorem C37_lut_run_is_periodic : forall c l sym n C pin inSize M pout cap,
  List.In c slcodecs -> slUnb c || (slS c =? 1) = true ->
  len sym = slS c -> Forall is_byte sym -> 2 <= n < 2 ^ 32 ->
  holds C pin (lut_run_stream (slw c) sym n) -> 0 < pin -> pin + 2048 < 2 ^ 64 -> 256 <= inSize ->
  0 < pout -> pout + n + 1024 < 2 ^ 64 -> n <= cap ->
  exists M', sl_decompress c l C pin inSize M pout cap = DRet n M' /\
    (forall k, 0 <= k < n -> M' (pout + k) = nth (Z.to_nat (k mod slS c)) sym 0) /\
    (forall x, x < pout \/ pout + n + 96 <= x -> M' x = M x).
Proof. exact lut_run_bytes. Qed.
Print Assumptions C37_lut_run_is_periodic.

Theorem C37_short_run_is_periodic : forall c l sym n C pin inSize M pout cap,
  List.In c shcodecs -> shUnb c || (shS c =? 1) = true -> shOne c = false ->
  len sym = shS c -> Forall is_byte sym -> shSHORT c <= n < 2 ^ 32 ->
  holds C pin (short_run_stream (shw c) sym n) -> 0 < pin -> pin + 2048 < 2 ^ 64 -> 256 <= inSize ->
  0 < pout -> pout + n + 1024 < 2 ^ 64 -> n <= cap ->
  exists M', sh_decompress c l C pin inSize M pout cap = DRet n M' /\
    (forall k, 0 <= k < n -> M' (pout + k) = nth (Z.to_nat (k mod shS c)) sym 0) /\
    (forall x, x < pout \/ pout + n + 96 <= x -> M' x = M x).
Proof. exact short_run_bytes. Qed.
Print Assumptions C37_short_run_is_periodic.

(** C41: every decoder restores every stream of its format, also those no encoder of the library writes. *)
Theorem C41_rle8_multi_accepts_format : forall pk d n out data,
  M8Stream pk n out data -> RestoresData (r8_decompress pk d) 96 n out data.
Proof. exact m8_accepts. Qed.
Print Assumptions C41_rle8_multi_accepts_format.

Theorem C41_rle8_single_accepts_format : forall pk d n out data,
  S8Stream pk n out data -> RestoresData (r8_decompress pk d) 96 n out data.
Proof. exact s8_accepts. Qed.
Print Assumptions C41_rle8_single_accepts_format.

Theorem C41_lut_accepts_format : forall c l n out data,
  List.In c slcodecs -> LutStream (slw c) n out data -> RestoresData (sl_decompress c l) 96 n out data.
Proof. exact lut_accepts. Qed.
Print Assumptions C41_lut_accepts_format.

Theorem C41_short_accepts_format : forall c l n out data,
  List.In c shcodecs -> ShortStream (shw c) n out data -> RestoresData (sh_decompress c l) 96 n out data.
Proof. exact short_accepts. Qed.
Print Assumptions C41_short_accepts_format.

(** C42: every encoder writes a stream of its format.  Encoders of 8 bit codecs: it stands for the
    input.  Others: it stands for the input followed by at most one symbol of what lies behind it. *)
Theorem C42_rle8_multi_writes_format : forall pk avx2 In n cap out,
  byte_mem In -> 1 <= n <= max_in -> m_compress pk avx2 false false In n cap = COk out -> M8Stream pk n out (slice In 0 n).
Proof. exact m8_encodes. Qed.
Print Assumptions C42_rle8_multi_writes_format.

Theorem C42_rle8_single_writes_format : forall pk In n cap out,
  byte_mem In -> 1 <= n <= max_in -> s_compress pk false false In n cap = COk out -> S8Stream pk n out (slice In 0 n).
Proof. exact s8_encodes. Qed.
Print Assumptions C42_rle8_single_writes_format.

Theorem C42_lut_writes_format : forall c v In n cap out,
  List.In c slcodecs -> byte_mem In -> 1 <= n <= max_in -> sl_compress c v false false In n cap = COk out ->
  exists m, n <= m <= n + (if slS c =? 1 then 0 else slS c) /\ LutStream (slw c) n out (slice In 0 m).
Proof. exact lut_encodes. Qed.
Print Assumptions C42_lut_writes_format.

Theorem C42_short_writes_format : forall c comp In n cap out,
  sh_encoder c comp -> byte_mem In -> 1 <= n <= max_in -> comp false false In n cap = COk out ->
  exists m, n <= m <= n + (if shS c =? 1 then 0 else shS c) /\ ShortStream (shw c) n out (slice In 0 m).
Proof. exact short_encodes. Qed.
Print Assumptions C42_short_writes_format.

(** *** Examples *)

Definition mem_of (l : list Z) : mem := fun k => if k <? 1 then 0 else nth (Z.to_nat (k - 1)) l 0.
Definition decoded (dec : decompressor) (out : list Z) : option (list Z) :=
  match dec (mem_of out) 1 256 (fun _ => 0) 1 256 with DRet n M => Some (slice M 1 n) | _ => None end.
Definition framed (n : Z) (body : list Z) : list Z := le32 n ++ le32 (8 + len body) ++ body.

Definition all_lvl := [LSse; LSsse3; LSse41; LAvx; LAvx2; LAvx512].

(** Runs of 11 bytes of a 24 bit symbol, all decoders. *)
Example lut_run_sample :
  map (fun l => decoded (sl_decompress (mkSl 3 true 7) l) (lut_run_stream (mkLW 3 true 7) [1; 2; 3] 11)) all_lvl =
  repeat (Some [1; 2; 3; 1; 2; 3; 1; 2; 3; 1; 2]) 6.
Proof. vm_compute. reflexivity. Qed.
Example short_run_sample :
  map (fun l => decoded (sh_decompress (mkSh 3 true 1 false) l) (short_run_stream (mkSW 3 true 1 false) [1; 2; 3] 11)) all_lvl =
  repeat (Some [1; 2; 3; 1; 2; 3; 1; 2; 3; 1; 2]) 6.
Proof. vm_compute. reflexivity. Qed.

(** Streams the encoders never write: long forms of small numbers, symbols given though they are
    known, a last symbol that does not matter. *)
Definition m8_body : list Z :=
  ((0 :: le32 4 ++ [7]) ++ le32 (2 * 3 + 1)) ++ [50; 51] ++ ((128 :: le32 1) ++ [2]) ++ ((0 :: le32 0 ++ [9]) ++ le32 3).
Definition m8_odd : list Z := framed 11 (0 :: m8_body).
Example m8_odd_format : M8Stream true 11 m8_odd ([50; 51] ++ [7; 7; 7; 7; 7; 7] ++ [7; 7; 7]).
Proof.
  exists m8_body. split; [reflexivity|]. split; [lia|]. split; [cbn; lia|]. split; [cbn; lia|].
  do 5 eexists. split; [|split; [|split]].
  - eapply Serial_cons.
    { eapply (M8Packet_intro true 0 7 4 _ [50; 51] (le32 (2 * 3 + 1))); [apply M8C_plong; [reflexivity|unfold is_byte; lia|lia]|lia|].
      apply (M8L_plong true 3); [reflexivity|lia]. }
    eapply Serial_cons; [|apply Serial_nil].
    eapply (M8Packet_intro true 7 7 1 _ [] [2]); [apply M8C_slong; [reflexivity|reflexivity|lia]|lia|]. apply (M8L_pshort true 1); [reflexivity|lia].
  - eapply (M8End_lits true 7 9 _ [] (le32 3)); [apply M8C_plong; [reflexivity|unfold is_byte; lia|lia]|]. apply (M8L_plong true 1); [reflexivity|lia].
  - reflexivity.
  - reflexivity.
Qed.
Example m8_odd_decodes : decoded (r8_decompress true D8Sse) m8_odd = Some [50; 51; 7; 7; 7; 7; 7; 7; 7; 7; 7].
Proof. vm_compute. reflexivity. Qed.

Definition s8_body : list Z := ((0 :: le32 1) ++ 0 :: le32 4) ++ [1; 2; 3] ++ ([9] ++ 0 :: le32 0).
Definition s8_odd : list Z := framed 7 ([1; 200] ++ s8_body).
Example s8_odd_format : S8Stream false 7 s8_odd [1; 2; 3; 200; 200; 200; 200].
Proof.
  exists 200. exists s8_body. split; [reflexivity|]. split; [lia|]. split; [cbn; lia|]. split; [cbn; lia|]. split; [unfold is_byte; lia|].
  do 5 eexists. split; [|split; [|split]].
  - eapply Serial_cons; [|apply Serial_nil]. eapply (S8Packet_intro false 200 1 _ [1; 2; 3] (0 :: le32 4)); [apply S8N_long; lia|lia|apply (S8N_long 4); lia].
  - eapply (S8End_none 9). apply S8N_short. lia.
  - reflexivity.
  - reflexivity.
Qed.
Example s8_odd_decodes : decoded (r8_decompress false D8Sse) s8_odd = Some [1; 2; 3; 200; 200; 200; 200].
Proof. vm_compute. reflexivity. Qed.

Definition lut_body : list Z :=
  ((lwHead (mkLW 2 true 3) 2 1 0 ++ [] ++ le16 4 ++ le32 3) ++ [9] ++
   (lwHead (mkLW 2 true 3) 3 2 2 ++ [5; 6] ++ [] ++ []) ++
   (lwHead (mkLW 2 true 3) 3 0 3 ++ [1; 1] ++ le32 0 ++ []) ++ [8]).
Definition lut_odd : list Z := framed 10 lut_body.
Example lut_odd_format : LutStream (slw (mkSl 2 true 3)) 10 lut_odd ([9] ++ [255; 255; 255; 255; 255] ++ [5; 6; 5] ++ [8]).
Proof.
  exists lut_body. split; [reflexivity|]. split; [lia|]. split; [cbn; lia|]. split; [cbn; lia|].
  do 5 eexists. split; [|split; [|split]].
  - eapply Serial_cons.
    { eapply (LutPacket_intro (mkLW 2 true 3) _ 2 [255; 255] [] _ 4 1 (le16 4) [9] 0 (le32 3)); try (cbn; lia); [|constructor; lia|constructor; cbn; lia].
      apply (Recall_known 2 3 _ [[0; 0]; [127; 127]] [255; 255] []). reflexivity. }
    eapply Serial_cons; [|apply Serial_nil].
    eapply (LutPacket_intro (mkLW 2 true 3) _ 3 [5; 6] [5; 6] _ 2 2 [] [] 2 []); try (cbn; lia); [|constructor; lia|constructor; cbv; split; discriminate].
    apply Recall_new; [reflexivity|]. repeat constructor; cbn; lia.
  - eapply (LutEnd_lits (mkLW 2 true 3) _ 3 [1; 1] 0 (le32 0) [8] 3 []); [|constructor; lia|constructor; cbv; split; discriminate].
    right. split; [reflexivity|]. split; [reflexivity|]. repeat constructor; cbn; lia.
  - reflexivity.
  - reflexivity.
Qed.
Example lut_odd_decodes : decoded (sl_decompress (mkSl 2 true 3) LAvx2) lut_odd = Some [9; 255; 255; 255; 255; 255; 5; 6; 5; 8].
Proof. vm_compute. reflexivity. Qed.

(** Short: a known symbol in one byte, a new symbol in three. *)
Definition sh_body : list Z :=
  (([2 * 2 ^ 6 + (3 - 2) * 2 ^ 3 + 1] ++ []) ++ [9] ++
   ((be24 ((3 * 2 ^ 3 + 7) * 2 ^ 19 + 0 * 2 ^ 10 + 1) ++ le32 5 ++ le16 3) ++ [5; 6]) ++ [4] ++
   ((be24 ((0 * 2 ^ 3 + 7) * 2 ^ 19 + 1 * 2 ^ 10 + 3) ++ le16 0 ++ []) ++ []) ++ [8]).
Definition sh_odd : list Z := framed 11 sh_body.
Example sh_odd_format : ShortStream (shw (mkSh 2 true 3 false)) 11 sh_odd ([9] ++ [255; 255; 255] ++ [4] ++ [5; 6; 5; 6; 5] ++ [8]).
Proof.
  exists 0. exists sh_body. cbv zeta. cbn [swOne shw shOne]. split; [reflexivity|]. split; [lia|]. split; [cbn; lia|]. split; [cbn; lia|]. split; [unfold is_byte; lia|].
  do 5 eexists. split; [|split; [|split]].
  - eapply Serial_cons.
    { eapply (ShortPacket_intro (shw (mkSh 2 true 3 false)) 0 _ 2 [255; 255] [] _ 3 [9]); try (cbn; lia);
        [|apply (ShortHead_1 (shw (mkSh 2 true 3 false)) 2 3 1); cbv; split; try discriminate; reflexivity].
      apply ShortSymbol_table; [reflexivity|cbn; lia|]. apply (Recall_known 2 3 _ [[0; 0]; [127; 127]] [255; 255] []). reflexivity. }
    eapply Serial_cons; [|apply Serial_nil].
    eapply (ShortPacket_intro (shw (mkSh 2 true 3 false)) 0 _ 3 [5; 6] [5; 6] _ 5 [4]); try (cbn; lia);
      [|apply (ShortHead_3 (shw (mkSh 2 true 3 false)) 3 5 1 0 (le32 5) 1 (le16 3)); constructor; lia].
    apply ShortSymbol_table; [reflexivity|cbn; lia|]. apply Recall_new; [reflexivity|]. repeat constructor; cbn; lia.
  - eapply (ShortEnd_lits (shw (mkSh 2 true 3 false)) 0 _ 0 [] [8]); [|left; split; [cbn; lia|reflexivity]].
    apply (ShortHead_3 (shw (mkSh 2 true 3 false)) 0 0 1 1 (le16 0) 3 []); [constructor; lia|constructor; cbv; split; discriminate].
  - reflexivity.
  - reflexivity.
Qed.
Example sh_odd_decodes : decoded (sh_decompress (mkSh 2 true 3 false) LAvx2) sh_odd = Some [9; 255; 255; 255; 4; 5; 6; 5; 6; 5; 8].
Proof. vm_compute. reflexivity. Qed.
