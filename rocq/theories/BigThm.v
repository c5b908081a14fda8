(** Which codecs stay within rle_compress_bounds. *)
From Verif Require Import Base Simd Spec ExtModel LutModel SlModel SlThm SlBad ShModel ShThm BigBad BigOk BigGr BigOne.

Definition Exceeds (comp : compressor) (bound : Z -> Z) (In : mem) (n : Z) : Prop :=
  exists out, comp In n (bound n) = COk out /\ bound n < len out.

Lemma exceeds_not comp bound In n : byte_mem In -> 1 <= n <= max_in -> Exceeds comp bound In n -> ~ WithinBound comp bound.
Proof. intros HIn Hn (out & HC & HL) HW. specialize (HW In n (bound n) out HIn Hn HC). lia. Qed.

Lemma sl_exceeds c : List.In c slcodecs -> slS c = 1 \/ slS c = 2 \/ slS c = 4 ->
  exists In n, byte_mem In /\ 1 <= n <= max_in /\ forall v, Exceeds (sl_compress c v false false) rle_compress_bounds In n.
Proof.
  intros Hc Hl. exists (big (slS c) (sl_cnt c)), (big_n (sl_cnt c)). split; [apply big_byte|]. split; [|intros v; now apply sl_big].
  unfold big_n, max_in, sl_cnt. destruct (_ =? _); lia.
Qed.
Lemma sl_exactly c v : List.In c slcodecs -> (WithinBound (sl_compress c v false false) rle_compress_bounds <-> 6 <= slS c).
Proof.
  intros Hc. split; [|now apply sl_within_wide]. intros HW. destruct (Z_lt_ge_dec (slS c) 6) as [H6|]; [exfalso|lia].
  assert (K : slS c = 1 \/ slS c = 2 \/ slS c = 4 \/ slS c = 3 /\ (slSC c = 3 \/ slSC c = 7)). { clear - Hc H6. unfold slcodecs in Hc. cbn [flat_map app List.In] in Hc. repeat (destruct Hc as [<-|Hc]; [cbn [slS slSC] in *; lia|]). destruct Hc. }
  assert (K3 : slS c = 3 /\ (slSC c = 3 \/ slSC c = 7) \/ (slS c = 1 \/ slS c = 2 \/ slS c = 4)) by tauto. destruct K3 as [[E3 ESC]|K3].
  - destruct (sl24_overflow (slSC c) ESC) as (In & n & H1 & H2 & H3). specialize (H3 (slUnb c) v). destruct c as [s u sc]. cbn [slS slUnb slSC] in *. subst s. exact (exceeds_not _ _ In n H1 H2 H3 HW).
  - destruct (sl_exceeds c Hc K3) as (In & n & H1 & H2 & H3). exact (exceeds_not _ _ In n H1 H2 (H3 v) HW).
Qed.

Lemma sh_exceeds c : List.In c shcodecs -> ~ (shS c = 8 \/ shS c = 4 /\ shUnb c = false) ->
  exists In n, byte_mem In /\ 1 <= n <= max_in /\ forall v, Exceeds (sh_compress c v false false) rle_compress_bounds In n.
Proof.
  intros Hc Hw. assert (K : c = one \/ sh_lossy c). { unfold sh_lossy. clear - Hc Hw. unfold shcodecs in Hc. cbn [flat_map app List.In] in Hc. destruct Hc as [<-|Hc]; [now left|]. right. repeat (destruct Hc as [<-|Hc]; [cbn [shS shUnb shOne] in *; intuition congruence|]). destruct Hc. }
  destruct K as [->|K].
  - exists zbig, zbig_n. split; [apply zbig_byte|]. split; [unfold zbig_n, max_in; lia|exact one_big].
  - exists (big (shS c) (sh_cnt c)), (big_n (sh_cnt c)). split; [apply big_byte|]. split; [|intros v; now apply sh_big].
    destruct (sh_cases c Hc K) as (C1 & _). unfold big_n, max_in, sh_cnt. lia.
Qed.
Lemma sh_exactly c v : List.In c shcodecs -> (WithinBound (sh_compress c v false false) rle_compress_bounds <-> shS c = 8 \/ shS c = 4 /\ shUnb c = false).
Proof.
  intros Hc. split; [|now apply sh_within_wide]. intros HW.
  assert (D : (shS c = 8 \/ shS c = 4 /\ shUnb c = false) \/ ~ (shS c = 8 \/ shS c = 4 /\ shUnb c = false)). { destruct (Z.eq_dec (shS c) 8), (Z.eq_dec (shS c) 4), (shUnb c); intuition congruence. }
  destruct D as [D|D]; [exact D|]. exfalso. destruct (sh_exceeds c Hc D) as (In & n & H1 & H2 & H3). exact (exceeds_not _ _ In n H1 H2 (H3 v) HW).
Qed.
Lemma greedy_exceeds c : List.In c greedy_codecs -> exists In n, byte_mem In /\ 1 <= n <= max_in /\ Exceeds (greedy_compress c false false) rle_compress_bounds In n.
Proof. intros Hc. exists zbig, zbig_n. split; [apply zbig_byte|]. split; [unfold zbig_n, max_in; lia|]. now apply gr_big. Qed.
