(** The low entropy codecs in steps (rle8_low_entropy_get_compress_info, _write_compress_info, _compress_with_info,
    _read_decompress_info, _decompress_with_info and the _short_ functions): the table is made for some data [A] and
    used for other data [B].  [L'] is the codec the table is from, [L] the one it is used with (255 or 32, short). *)
From Verif Require Import Base Simd Spec Spec2 LeModel LeSpec LeThm LeShare LeBad.

(** C55: if the table does not select all 256 values; fails otherwise. *)
Theorem C55_shared_table_partial : forall L L' max A nA B n outSize, L = 255 \/ L = 32 -> L' = 255 \/ L' = 32 ->
  byte_mem B -> byte_mem A -> 1 <= nA <= max_in -> le_cond L' max A nA -> 1 <= n < 2 ^ 32 -> n <= outSize ->
  exists body, le_with_info L (le_info L' max A nA) B n outSize = Some (Some body) /\ Forall is_byte body /\
    0 < len body <= 2 * n /\ Restored L (le_info L' max A nA) body B n.
Proof. exact shared_table_cond. Qed.
Print Assumptions C55_shared_table_partial.
Theorem C55_shared_table_refuted : forall L L', L = 255 \/ L = 32 -> L' = 255 \/ L' = 32 -> exists A nA B n outSize body,
  byte_mem A /\ byte_mem B /\ 1 <= nA <= max_in /\ 1 <= n < 2 ^ 32 /\ 2 * n <= outSize /\
  le_with_info L (le_info L' false A nA) B n outSize = Some (Some body) /\ ~ Restored L (le_info L' false A nA) body B n.
Proof.
  intros L L' HL HL'. destruct (shared_refuted L L' HL HL') as (body & H1 & H2). exists twice, 512, twice, 512, 1024, body.
  split; [exact twice_byte|]. split; [exact twice_byte|]. unfold max_in. repeat (split; [lia|]). now split.
Qed.
Print Assumptions C55_shared_table_refuted.
(** The table takes 34 to 288 bytes; rle8_low_entropy_write_compress_info asks for 289. *)
Theorem C55_table_size : forall L max A nA,
  Forall is_byte (write_info (le_info L max A nA)) /\ 34 <= len (write_info (le_info L max A nA)) <= 288.
Proof. exact table_size. Qed.
Print Assumptions C55_table_size.

(** C56: compress_with_info checks that the buffer is as large as the data, and may write twice as much. *)
Theorem C56_with_info_fits_refuted : forall L L' max, L = 255 \/ L = 32 -> L' = 255 \/ L' = 32 ->
  exists A nA B n outSize body, byte_mem A /\ byte_mem B /\ 1 <= nA <= max_in /\ 1 <= n /\
    le_with_info L (le_info L' max A nA) B n outSize = Some (Some body) /\ outSize < len body.
Proof.
  intros L L' max HL HL'. destruct (with_info_overflows L L' max HL HL') as (body & H1 & H2). exists zeros, 100, zeros, 1, 1, body.
  split; [intros k; unfold zeros, is_byte; lia|]. split; [intros k; unfold zeros, is_byte; lia|]. unfold max_in. repeat (split; [lia|]). now split.
Qed.
Print Assumptions C56_with_info_fits_refuted.
Theorem C56_with_info_fits_partial : forall L L' max A nA B n outSize body, L = 255 \/ L = 32 ->
  byte_mem B -> 1 <= n < 2 ^ 32 -> 2 * n <= outSize ->
  le_with_info L (le_info L' max A nA) B n outSize = Some (Some body) -> len body <= outSize.
Proof. exact with_info_fits. Qed.
Print Assumptions C56_with_info_fits_partial.

(** Samples: a table from one text, used for another one with the other codec. *)
Definition sampleA : mem := fun k => if k mod 9 <? 7 then 3 else (k / 9) mod 20.
Definition sampleB : mem := fun k => if k mod 11 <? 8 then 3 else (k / 7) mod 256.
Definition share_test (L L' : Z) (max : bool) : bool :=
  match le_with_info L (le_info L' max sampleA 300) sampleB 400 400 with
  | Some (Some body) => (len body <? 400) && let '(rle, stc, k) := read_info (at16 (write_info (le_info L' max sampleA 300))) 16 in
      (k =? len (write_info (le_info L' max sampleA 300))) &&
      match le_decode L (mkCpu true true) rle stc (at16 body) 16 (16 + len body) (fun _ => 0) 16 400 with
      | DRet _ M => forallb (fun k => M (16 + k) =? sampleB k) (slice (fun k => k) 0 400) | _ => false end
  | _ => false end.
Example C55_example : forallb (fun L => forallb (fun L' => forallb (share_test L L') [true; false]) [255; 32]) [255; 32] = true.
Proof. vm_compute. reflexivity. Qed.
