(** rle8m_decompress ends, whatever bytes it is given. *)
From Verif Require Import Base Simd Spec ExtModel PktModel Rle8Model LeModel LeEnc LeThm HosSpec2 LeHos.

Theorem rm_any c : AnyStreamReturns (rm_decompress c).
Proof.
  intros C pin inSize M pout outSize HC Hpin Hin Hout Hpo. unfold rm_decompress.
  destruct ((pin =? 0) || (pout =? 0) || (inSize =? 0) || (outSize =? 0)) eqn:E0; [exists 0, M; split; [reflexivity|]; split; [now left|reflexivity]|]. cbv zeta.
  destruct ((outSize <? rd32 C (pin + 4)) || (inSize <? rd32 C pin)) eqn:E1; [exists 0, M; split; [reflexivity|]; split; [now left|reflexivity]|].
  set (subs := rd32 C (pin + 8)). pose proof (rd32_range C (pin + 8) HC) as Hs. fold subs in Hs. clearbody subs.
  destruct (subs =? 0) eqn:E2; [exists 0, M; split; [reflexivity|]; split; [now left|reflexivity]|].
  pose proof (rd32_range C (pin + 4) HC) as He. set (expOut := rd32 C (pin + 4)) in *. clearbody expOut.
  pose proof (read_info_byte C (pin + 12 + 4 * (subs - 1)) HC) as HR.
  destruct (read_info C (pin + 12 + 4 * (subs - 1))) as [[rle stc] k]. destruct HR as [HR Hk].
  set (sub := expOut / subs). 
  assert (Hsub : 0 <= sub /\ sub * subs <= expOut).
  { unfold sub. split; [apply Z.div_pos; lia|]. rewrite Z.mul_comm. apply Z.mul_div_le. lia. }
  clearbody sub.
  destruct (loop_inv (rmd_step c rle stc C pin subs sub)
    (fun '(i, p, q, N) => 0 <= i <= subs - 1 /\ pin <= p /\ q = pout + sub * i /\ forall x, x < pout -> N x = M x)
    (fun '(i, _, _, _) => subs - 1 - i)
    (fun r => exists p N, r = Some (p, pout + sub * (subs - 1), N) /\ pin <= p /\ forall x, x < pout -> N x = M x)
    (0, pin + 12 + 4 * (subs - 1) + k, pout, M)) as (r & E & p & N & -> & Hp & HN).
  - intros [[[i p] q] N] (I1 & I2 & -> & I4). unfold rmd_step. destruct (i <? subs - 1) eqn:Ei.
    + pose proof (rd32_range C (pin + 12 + 4 * i) HC) as Ho.
      destruct (le_decode_any 255 c rle stc C p (pin + rd32 C (pin + 12 + 4 * i)) N (pout + sub * i) sub HR ltac:(nia) ltac:(lia) ltac:(lia) ltac:(nia)) as (N' & -> & HN').
      split; [|lia]. split; [lia|]. split; [lia|]. split; [ring|]. intros x Hx. rewrite HN' by nia. now apply I4.
    + assert (i = subs - 1) by lia. subst i. exists p, N. repeat split; assumption.
  - split; [lia|]. split; [lia|]. split; [ring|reflexivity].
  - lia.
  - rewrite E. rewrite (w32_id (sub * (subs - 1))) by nia. rewrite (w32_id (expOut - sub * (subs - 1))) by nia.
    destruct (le_decode_any 255 c rle stc C p (pin + inSize) N (pout + sub * (subs - 1)) (expOut - sub * (subs - 1)) HR ltac:(nia) ltac:(nia) ltac:(lia) ltac:(nia)) as (N' & -> & HN').
    exists expOut, N'. split; [reflexivity|]. split; [right; split; [reflexivity|lia]|]. intros x Hx. rewrite HN' by nia. now apply HN.
Qed.
