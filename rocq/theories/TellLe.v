(** Streams of the low entropy codecs belong to one input, also those that the decompressors cannot restore (C10). *)
From Coq Require Import Permutation.
From Verif Require Import Base Simd Spec Spec2 LargeSpec ExtModel LeModel LeSpec LeTable LeDec LeEnc LeSize LeThm TellThm.

Lemma ser_fun L rle stc s o1 : Ser L rle stc s o1 -> forall o2, Ser L rle stc s o2 -> o1 = o2.
Proof.
  induction 1 as [|b s o Hb Hr HS IH|b c s o Hb Hc Hr Hs HS IH]; intros o2 H2; inversion H2; subst; try congruence.
  - f_equal. now apply IH.
  - f_equal. f_equal. now apply IH.
Qed.

Lemma le_shape L max In n cap out : L = 255 \/ L = 32 -> byte_mem In -> 1 <= n <= large_in -> le_compress L max false false In n cap = COk out ->
  exists info stc body, info = le_info L max In n /\ InfoOk info /\ (forall k, 0 <= k < 256 -> stc (tab 0 (li_syms info) k) = k) /\ Ser L (li_rle info) stc body (slice In 0 n) /\
    out = le32 (len out) ++ le32 n ++ write_info info ++ body /\ len out < 2 ^ 32.
Proof.
  intros HL HIn Hn HC. destruct (le_ok_large L max HL In n cap out HIn Hn HC) as (_ & Hsz & _ & _). revert HC.
  unfold le_compress. cbn [orb]. replace (n =? 0) with false by lia. cbn [orb].
  destruct (cap <? le_bounds n); [discriminate|]. set (info := le_info L max In n).
  assert (HI : InfoOk info) by apply le_info_ok. destruct (cap <? 32 + 256 + 1); [discriminate|].
  destruct (syms_inverse info HI) as (stc & Hstc).
  destruct (le_with_info L info In n (w32 (cap - (8 + len (write_info info))))) as [[body|]|] eqn:E; try discriminate.
  destruct (w32 (len body) =? 0); [discriminate|]. intros H.
  assert (HO : out = le32 (8 + len (write_info info) + len body) ++ le32 n ++ write_info info ++ body)
    by (symmetry; exact (f_equal (fun r => match r with COk o => o | _ => [] end) H)). clear H. unfold large_in in Hn.
  destruct (le_with_info_ok L info stc In n n HL HI Hstc HIn ltac:(lia) ltac:(lia)) as (body' & E' & HS).
  rewrite (le_with_info_some _ _ _ _ _ _ n E ltac:(lia)) in E'. assert (Hbb : body' = body) by congruence. subst body'.
  assert (Hlen : len out = 8 + len (write_info info) + len body) by (rewrite HO, !len_app, !len_le32; lia).
  exists info, stc, body. split; [reflexivity|]. split; [exact HI|]. split; [exact Hstc|]. split; [exact HS|]. split; [rewrite Hlen; exact HO|].
  unfold le_size in Hsz. clear - Hsz Hn HL. destruct HL as [-> | ->]; lia.
Qed.

Lemma low_entropy_tells L max max' In In' n n' cap cap' out rest : L = 255 \/ L = 32 -> byte_mem In -> byte_mem In' ->
  1 <= n <= large_in -> 1 <= n' <= large_in -> le_compress L max false false In n cap = COk out -> le_compress L max' false false In' n' cap' = COk (out ++ rest) ->
  rest = [] /\ slice In 0 n = slice In' 0 n'.
Proof.
  intros HL HIn HIn' Hn Hn' HC HC'.
  destruct (le_shape L max In n cap out HL HIn Hn HC) as (info & stc & body & _ & HI & Hstc & HS & Ho & Hl).
  destruct (le_shape L max' In' n' cap' (out ++ rest) HL HIn' Hn' HC') as (info' & stc' & body' & _ & HI' & Hstc' & HS' & Ho' & Hl').
  pose proof (at1_holds (out ++ rest)) as Hh. set (C := at1 (out ++ rest)) in *. pose proof Hh as Hh'. rewrite Ho' in Hh'. apply holds_app in Hh. destruct Hh as [Hh _]. rewrite Ho in Hh.
  pose proof (len_nonneg out). pose proof (len_nonneg (out ++ rest)).
  pose proof (rd32_holds C 1 (len out) _ ltac:(lia) Hh) as R1. pose proof (rd32_holds C 1 (len (out ++ rest)) _ ltac:(lia) Hh') as R2. rewrite R1 in R2.
  assert (Hr : rest = []) by (rewrite len_app in R2; destruct rest as [|x r]; [reflexivity|rewrite len_cons in R2; pose proof (len_nonneg r); lia]).
  split; [exact Hr|]. unfold large_in in *.
  apply holds_app in Hh. destruct Hh as [_ Hh]. apply holds_app in Hh'. destruct Hh' as [_ Hh']. rewrite len_le32 in Hh, Hh'.
  pose proof (rd32_holds C (1 + 4) n _ ltac:(lia) Hh) as N1. pose proof (rd32_holds C (1 + 4) n' _ ltac:(lia) Hh') as N2.
  apply holds_app in Hh. destruct Hh as [_ Hh]. apply holds_app in Hh'. destruct Hh' as [_ Hh']. rewrite len_le32 in Hh, Hh'.
  destruct (read_write_info info C _ body HI Hh) as (rle & st & E & A1 & A2). destruct (read_write_info info' C _ body' HI' Hh') as (rle' & st' & E' & B1 & B2).
  rewrite E in E'. pose proof (f_equal (fun t => fst (fst t)) E') as H1. pose proof (f_equal (fun t => snd (fst t)) E') as H2. pose proof (f_equal snd E') as Hw.
  cbv beta in H1, H2. cbn [fst snd] in H1, H2, Hw. subst rle' st'. clear E E'. assert (Hfix : forall inf s1, InfoOk inf -> (forall k, 0 <= k < 256 -> s1 (tab 0 (li_syms inf) k) = k) ->
    (forall k, 0 <= k < 256 -> st (tab 0 (li_syms inf) k) = k) -> forall b, is_byte b -> s1 b = st b).
  { intros inf s1 (HP & _) K1 K2 b Hb. assert (Hin' : List.In b (li_syms inf)) by (eapply Permutation_in; [apply Permutation_sym, HP|now apply in_range256]).
    apply (In_nth _ _ 0) in Hin'. destruct Hin' as (k & Hk & Hkb). rewrite (Permutation_length HP), length_range256 in Hk.
    specialize (K1 (Z.of_nat k) ltac:(lia)). specialize (K2 (Z.of_nat k) ltac:(lia)). unfold tab in K1, K2. rewrite Nat2Z.id, Hkb in K1, K2. congruence. }
  apply (ser_ext L _ rle _ st) in HS; [|intros b Hb; symmetry; now apply A1|now apply (Hfix info)].
  apply (ser_ext L _ rle _ st) in HS'; [|intros b Hb; symmetry; now apply B1|now apply (Hfix info')].
  assert (Hbody : body = body').
  { rewrite Hr, app_nil_r in Ho'. rewrite Ho' in Ho at 1. apply app_inv_head in Ho. rewrite <- N1, <- N2 in Ho. apply app_inv_head in Ho.
    clear - Ho Hw. unfold len in Hw. apply Nat2Z.inj in Hw. revert Ho Hw. generalize (write_info info), (write_info info'). intros a. induction a as [|x a IH]; intros [|y b] Ho Hw; cbn in *; try discriminate; [auto|].
    injection Ho as _ Ho. apply (IH b Ho). congruence. }
  subst body'. exact (ser_fun _ _ _ _ _ HS _ HS').
Qed.
