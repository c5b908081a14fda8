(** The 24 bit symlut codecs write behind the buffer of the tool on longer inputs of the kind of SlBad.v. *)
From Verif Require Import Base Simd Spec ExtModel PktModel MbModel LutModel SlModel SlBad.
From Verif Require ToolRun.

Definition file24 (SC : Z) : Z := (if SC =? 3 then 132 else 68) * 290.
Definition file24t (unb : bool) (SC : Z) (v : simd) : bool :=
  match sl_compress (mkSl 3 unb SC) v false false (bad24 SC) (file24 SC) (ToolRun.buffer_size (file24 SC)) with
  | COk out => ToolRun.buffer_size (file24 SC) <? len out | _ => false end.
Lemma file24_7 unb v : file24t unb 7 v = true.
Proof. destruct unb, v; vm_compute; reflexivity. Qed.
Lemma file24_3 unb v : file24t unb 3 v = true.
Proof. destruct unb, v; vm_compute; reflexivity. Qed.

Lemma tool_sl24_overflow SC : SC = 3 \/ SC = 7 -> exists In n, byte_mem In /\ 1 <= n <= 38280 /\
  forall unb v, exists out, sl_compress (mkSl 3 unb SC) v false false In n (ToolRun.buffer_size n) = COk out /\ ToolRun.buffer_size n < len out.
Proof.
  intros HSC. exists (bad24 SC), (file24 SC). split; [apply bad24_byte|].
  split; [unfold file24; destruct (SC =? 3); lia|].
  intros unb v. assert (H : file24t unb SC v = true) by (destruct HSC as [-> | ->]; [apply file24_3|apply file24_7]).
  unfold file24t in H. destruct (sl_compress _ _ _ _ _ _ _) as [|out|]; try discriminate.
  exists out. split; [reflexivity|]. lia.
Qed.
