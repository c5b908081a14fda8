(** The 24 bit Xsl codecs exceed rle_compress_bounds: a run of two new symbols behind at least
    126 (3 symbol table) or 62 (7 symbol table) literals costs 7 bytes, the run itself is 6 long. *)
From Verif Require Import Base Simd Spec ExtModel PktModel MbModel LutModel SlModel.

(** Blocks of [L] literals without repetition and twice the symbol [b,7,9], [b] the block number. *)
Definition bad24 (SC : Z) : mem := fun x =>
  let L := if SC =? 3 then 126 else 62 in
  let b := x / (L + 6) in let r := x mod (L + 6) in
  if r <? L then (if r =? 0 then 255 else 100 + r) else
  let k := (r - L) mod 3 in if k =? 0 then b mod 256 else if k =? 1 then 7 else 9.
Definition bad24n (SC : Z) : Z := (if SC =? 3 then 132 else 68) * 180.
Definition bad24t (unb : bool) (SC : Z) (v : simd) : bool :=
  match sl_compress (mkSl 3 unb SC) v false false (bad24 SC) (bad24n SC) (rle_compress_bounds (bad24n SC)) with
  | COk out => rle_compress_bounds (bad24n SC) <? len out | _ => false end.

Lemma bad24_byte SC : byte_mem (bad24 SC).
Proof.
  intros x. unfold bad24, is_byte. cbv zeta.
  set (L := if SC =? 3 then 126 else 62). assert (HL : L = 126 \/ L = 62) by (unfold L; destruct (SC =? 3); lia).
  pose proof (Z.mod_pos_bound x (L + 6)). pose proof (Z.mod_pos_bound (x / (L + 6)) 256).
  generalize dependent (x / (L + 6)). generalize dependent (x mod (L + 6)). intros r Hr b Hb.
  destruct (r <? L) eqn:E1; [destruct (r =? 0); lia|]. destruct (_ =? 0); [lia|]. destruct (_ =? 1); lia.
Qed.

Lemma bad24_7 unb v : bad24t unb 7 v = true.
Proof. destruct unb, v; vm_compute; reflexivity. Qed.
Lemma bad24_3 unb v : bad24t unb 3 v = true.
Proof. destruct unb, v; vm_compute; reflexivity. Qed.

Lemma sl24_overflow SC : SC = 3 \/ SC = 7 -> exists In n, byte_mem In /\ 1 <= n <= max_in /\
  forall unb v, exists out, sl_compress (mkSl 3 unb SC) v false false In n (rle_compress_bounds n) = COk out /\
    rle_compress_bounds n < len out.
Proof.
  intros HSC. exists (bad24 SC), (bad24n SC). split; [apply bad24_byte|].
  split; [unfold bad24n, max_in; destruct (SC =? 3); lia|].
  intros unb v. assert (H : bad24t unb SC v = true) by (destruct HSC as [-> | ->]; [apply bad24_3|apply bad24_7]).
  unfold bad24t in H. destruct (sl_compress _ _ _ _ _ _ _) as [|out|]; try discriminate.
  exists out. split; [reflexivity|]. lia.
Qed.
