(** How well rle8_sh compresses. *)
From Verif Require Import Base Simd Spec MtfModel MzModel HsModel HsThm SaveSpec HsSave.

(** C70: all but 14 bytes of every repetition of a byte that does not end the input.  Missing: the last repetition. *)
Theorem C70_rle8_sh_saves_partial : forall M pout In n cap out rs, byte_mem In -> 1 <= n <= max_in -> sh_compress M pout false false In n cap = COk out ->
  Repetitions 1 In 0 n rs -> (forall a b, List.In (a, b) rs -> a < b -> exists x, b <= x < n /\ In x <> In a) -> len out + saving 14 rs <= n + n / 128 + 19.
Proof. exact sh_saves. Qed.
Print Assumptions C70_rle8_sh_saves_partial.
(** An input of one byte value (other than 127) is not compressed at all. *)
Theorem C70_rle8_sh_constant : forall M pout In n x cap out, byte_mem In -> 263 <= n <= max_in -> x <> 127 -> (forall k, 0 <= k < n -> In k = x) ->
  sh_compress M pout false false In n cap = COk out -> len out = n + 18.
Proof. exact sh_const. Qed.
Print Assumptions C70_rle8_sh_constant.
(** There is no number of bytes for which the full statement is true. *)
Theorem C70_rle8_sh_saves_refuted : forall M pout k, k < 2 ^ 30 - 2 ^ 24 -> ~ Saves 1 k (sh_compress M pout false false) (fun n => n + n / 128 + 19).
Proof. exact sh_not_saves. Qed.
Print Assumptions C70_rle8_sh_saves_refuted.

(** 1000 equal bytes become 1018; followed by one other byte they become 20. *)
Definition hs_zeros (e : Z) : mem := fun k => if k =? 1000 then e else 0.
Definition hs_size (e n : Z) : Z := match sh_compress (fun _ => 0) 16 false false (hs_zeros e) n (sh_need n) with COk out => len out | _ => 0 end.
Example C70_rle8_sh_example : hs_size 0 1000 = 1018 /\ hs_size 1 1001 = 20 /\ Repetitions 1 (hs_zeros 1) 0 1001 [(0, 1000)] /\
  (forall a b, List.In (a, b) [(0, 1000)] -> a < b -> exists x, b <= x < 1001 /\ hs_zeros 1 x <> hs_zeros 1 a).
Proof.
  split; [vm_compute; reflexivity|]. split; [vm_compute; reflexivity|]. split.
  - cbn. split; [lia|]. split; [lia|]. split; [|exact I]. intros x Hx Hy. unfold hs_zeros. replace (x =? 1000) with false by lia. replace (x + 1 =? 1000) with false by lia. reflexivity.
  - intros a b [H|[]] _. injection H as <- <-. exists 1000. split; [lia|]. vm_compute. discriminate.
Qed.
