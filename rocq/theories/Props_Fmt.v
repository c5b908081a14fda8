(** The wire format of the extreme multi-byte codecs. *)
From Verif Require Import Base Simd Spec ExtModel ExtThm PktSpec FmtSpec FmtThm.

(** C37: a stream of one run of [n] bytes decodes to [n] bytes of the repeated symbol, for every
    length (also not a multiple of the symbol size), every decoder and every alignment. *)
Theorem C37_run_is_periodic : forall c d sym n C pin inSize M pout cap,
  List.In c xcodecs -> xUnb c = true -> len sym = xS c -> (if xPack c then 3 else xS c + 4) <= n < 2 ^ 32 ->
  holds C pin (run_stream (xS c) (xPack c) sym n) -> 0 < pin -> pin + 2048 < 2 ^ 64 -> 256 <= inSize ->
  0 < pout -> pout + n + 1024 < 2 ^ 64 -> n <= cap ->
  exists M', xdecompress c d C pin inSize M pout cap = DRet n M' /\
    (forall k, 0 <= k < n -> M' (pout + k) = nth (Z.to_nat (k mod xS c)) sym 0) /\
    (forall x, x < pout \/ pout + n + 96 <= x -> M' x = M x).
Proof. exact run_bytes. Qed.
Print Assumptions C37_run_is_periodic.

(** C41: every decoder restores every stream of the format, also those no encoder of the library writes. *)
Theorem C41_decoders_accept_format : forall c d n out data,
  List.In c xcodecs -> WireStream (wire_of c) n out data -> RestoresData (xdecompress c d) 96 n out data.
Proof. exact wire_restores_in. Qed.
Print Assumptions C41_decoders_accept_format.

(** C42: every encoder writes a stream of the format.  It stands for the input, followed by at most
    one symbol of what lies behind the input. *)
Theorem C42_encoders_write_format : forall c v In n cap out,
  List.In c xcodecs -> byte_mem In -> 1 <= n <= max_in -> xcomp c v In n cap = COk out ->
  exists m, n <= m <= n + xS c /\ WireStream (wire_of c) n out (slice In 0 m).
Proof. exact wire_encodes. Qed.
Print Assumptions C42_encoders_write_format.

(** *** Examples *)

Definition mem_of (l : list Z) : mem := fun k => if k <? 1 then 0 else nth (Z.to_nat (k - 1)) l 0.

(** A run of 11 bytes of the 24 bit symbol 1 2 3, all decoders. *)
Example run_sample : forallb (fun d =>
  match xdecompress (mkX 3 true true true) d (mem_of (run_stream 3 true [1; 2; 3] 11)) 1 256 (fun _ => 0) 1 256 with
  | DRet 11 M => if list_eq_dec Z.eq_dec (slice M 1 11) [1; 2; 3; 1; 2; 3; 1; 2; 3; 1; 2] then true else false
  | _ => false
  end) [DSse; DSsse3; DAvx; DAvx512] = true.
Proof. vm_compute. reflexivity. Qed.

(** A stream the encoders never write: long fields for small numbers, an unneeded symbol, an empty
    list of literals at the end. *)
Definition odd_body : list Z :=
  (0 :: le32 4 ++ [7; 8]) ++ le32 (2 * 3 + 1) ++ [50; 51] ++
  (128 :: le32 1) ++ [2] ++ (0 :: le32 0 ++ [9; 9]) ++ le32 3.
Definition odd_stream : list Z := le32 11 ++ le32 (8 + len odd_body) ++ odd_body.
Definition odd_data : list Z := [50; 51] ++ [7; 8; 7; 8; 7; 8] ++ [7; 8; 7].

Example odd_wire : WireStream (mkW 2 true true) 11 odd_stream odd_data.
Proof.
  exists ((0 :: le32 4 ++ [7; 8]) ++ le32 (2 * 3 + 1) ++ [50; 51] ++ ((128 :: le32 1) ++ [2] ++ [] ++ [])),
    ((0 :: le32 0 ++ [9; 9]) ++ le32 3 ++ []), ([50; 51] ++ repetition [7; 8] 6 ++ ([] ++ repetition [7; 8] 3 ++ [])), [].
  split; [|split; [|repeat split; try reflexivity; cbn; lia]].
  - apply (Pk_cons (mkW 2 true true) _ [7; 8] 4); [reflexivity|apply CF_long; [reflexivity|lia]|exact (LF_long7 (mkW 2 true true) 2 eq_refl ltac:(lia))|].
    apply (Pk_cons (mkW 2 true true) _ [7; 8] 1); [reflexivity|apply CF_same_long; [reflexivity|reflexivity|lia]|exact (LF_short7 (mkW 2 true true) 0 eq_refl ltac:(lia))|].
    apply Pk_nil.
  - apply End_lits; [apply ZC_sym; reflexivity|exact (LF_long7 (mkW 2 true true) 0 eq_refl ltac:(lia))].
Qed.

Example odd_decodes :
  match xdecompress (mkX 2 true true true) DAvx (mem_of odd_stream) 1 256 (fun _ => 0) 1 256 with
  | DRet 11 M => slice M 1 11
  | _ => []
  end = odd_data.
Proof. vm_compute. reflexivity. Qed.
