(** The short codecs with 64 bit symbols and those with whole 32 bit symbols stay within
    rle_compress_bounds for every input: the runs they find are so long that no packet is larger than what it replaces. *)
From Verif Require Import Base LargeSpec Simd SimdProof Spec PktSpec LutSpec ExtModel ExtDec ExtEnc PktModel PktDec PktEnc Codec Rle8Thm
  MbModel MbEnc LutModel LutProof ShModel ShProof ShEnc ShThm SameThm.

Definition sh_wide (c : shcfg) : Prop := shS c = 8 \/ shS c = 4 /\ shUnb c = false.

Lemma sh_cost_wide c k count stored range :
  shok c -> shOne c = false -> sh_wide c -> 2 <= stored <= count + 2 -> 2 * shS c <= count -> (shUnb c = false -> count mod shS c = 0) ->
  (shLONG c <=? count) || (shSHORT c + sh_penalty c k stored range <=? count) = true ->
  (if sh_small c stored range then 1 else 3 + len (ext shMAXC stored) + len (ext (shMAXR c) range))
  + (if k =? shSC c then shS c else 0) <= count.
Proof.
  intros Hc Ho Hw Hs Hmin Hmod Hacc. pose proof (sh_max_pos c Hc) as (HM1 & HM2 & _). pose proof Hc as (HS & H8 & HSC & _).
  assert (E8 : shS c = 8 \/ shS c = 4 /\ (count = 8 \/ 12 <= count)).
  { destruct Hw as [->|[E4 EU]]; [now left|]. right. split; [exact E4|]. specialize (Hmod EU). rewrite E4 in *. clear - Hmod Hmin. assert (K : count = 4 * (count / 4)) by lia. lia. }
  rewrite !len_ext. unfold sh_penalty, ext_penalty in Hacc. apply orb_true_iff in Hacc.
  assert (HLS : (if k =? shSC c then shS c else 0) + 2 <= shSHORT c + (if negb (shSC c =? 0) && (k =? shSC c) then shS c else 0)
     /\ 11 + shS c <= shLONG c).
  { unfold shSHORT, shLONG. rewrite Ho. destruct (shSC c =? 0) eqn:E0; destruct (k =? shSC c) eqn:Ek; cbn [negb orb andb]; lia. }
  assert (HY : (if k =? shSC c then shS c else 0) = 0 \/ (if k =? shSC c then shS c else 0) = shS c) by (clear; destruct (k =? shSC c); lia).
  destruct HLS as [HL1 HL2]. revert HM1 Hacc HL1 HL2 HY. unfold shMAXC. generalize (shMAXR c) as mr. intros mr HM1 Hacc.
  generalize (if k =? shSC c then shS c else 0) as y.
  revert Hacc. generalize (if negb (shSC c =? 0) && (k =? shSC c) then shS c else 0) as z. intros z Hacc y HL1 HL2 HY.
  clear HS HSC Hmod Hw Hc. destruct (sh_small c stored range); [lia|].
  destruct (stored <=? 511) eqn:?; destruct (stored <=? 65535) eqn:?; destruct (range <=? mr) eqn:?; destruct (range <=? 65535) eqn:?; cbn [andb] in *; try lia;
    destruct (range <=? 1048575) eqn:?; destruct (stored <=? 1048575) eqn:?; lia.
Qed.

Lemma sh_body_wide c v In n : shok c -> shOne c = false -> sh_wide c -> byte_mem In -> 1 <= n <= max_in ->
  exists body, sh_body c v In n = Some body /\ len body <= n + 33.
Proof.
  intros Hc Ho Hw HIn Hn. apply max_large1 in Hn. pose proof Hc as (HS & H8 & HSC & _). pose proof (okS1_pos _ HS) as HS2.
  unfold sh_body. cbv zeta. rewrite Ho. replace (shS c =? 1) with false by (destruct Hw as [->|[-> _]]; reflexivity).
  assert (HSk : okS (shS c)) by (destruct HS as [E|]; [destruct Hw as [H|[H _]]; lia|assumption]).
  assert (HP : procM_ok (ShG c 0) (shS c) (shUnb c) (fun x => x) (sh_proc c) In).
  { intros i count sym last a bytes a' Hcnt Hmin Hmod Hl Hi Hs Hb Hrun H.
    destruct (sh_proc_ok c 0 In i count sym last a bytes a') as (K1 & K2 & _); try assumption; try congruence; [tauto|].
    split; [exact K1|]. split; [exact K2|].
    assert (H0 : 2 * shS c <= count). { destruct Hmin as [->|Hmin]; [|exact Hmin]. rewrite (SameThm.sh_none c In i 0 sym last a) in H by lia. discriminate. }
    unfold sh_proc in H. cbv zeta in H. fold (sh_key c sym a) in H. fold (sh_next c sym a) in H. destruct (_ || _) eqn:E; [|discriminate].
    destruct (sh_stored_ok c count Hc) as [Hst _]; [pose proof (sh_penalty_nonneg c (sh_key c sym a) (sh_stored c count) (i - last - count + 2) ltac:(lia)); unfold large_in in *; assert (shSHORT c <= shLONG c) by (unfold shSHORT, shLONG; destruct (shSC c =? 0), (shOne c); cbn [negb orb]; lia); apply orb_true_iff in E; lia|tauto|].
    pose proof (sh_cost_wide c (sh_key c sym a) count (sh_stored c count) (i - last - count + 2) Hc Ho Hw Hst H0 Hmod E) as HC.
    apply some_pair in H. destruct H as [<- <-]. rewrite len_app, len_slice, len_sh_head by (try assumption; lia). rewrite Ho, andb_true_r. lia. }
  destruct (mb_body_ok (ShG c 0) (ShE c 0) (shS c) (shUnb c) (fun x => x) (sh_proc c) (sh_term_none c) (sh_term_lits c)
    v In n (lut_init (shS c) (shSC c))) as (body & HB & HSt & m & Hm & HL); try assumption; try lia.
  + intros a. now apply sh_term_none_ok.
  + now apply sh_term_bytes.
  + intros a lits Hlits. now apply sh_term_lits_ok.
  + now apply sh_term_bytes.
  + exists body. split; [exact HB|]. destruct HL as [HL|(last & Hlast & HL)].
    * destruct (len_sh_terms c 0 Hc) as [K1 _]. lia.
    * destruct (len_sh_terms c (m - last) Hc) as [_ K2]. lia.
Qed.

Lemma sh_within_wide c v : List.In c shcodecs -> sh_wide c -> WithinBound (sh_compress c v false false) rle_compress_bounds.
Proof.
  intros Hc Hw In n cap out HIn Hn HC. rewrite bounds_193 by apply Hn.
  assert (Ho : shOne c = false). { clear - Hc Hw. unfold shcodecs in Hc. cbn [flat_map app List.In] in Hc. destruct Hc as [<-|Hc]; [exfalso; destruct Hw as [H|[H _]]; discriminate|]. repeat (destruct Hc as [<-|Hc]; [reflexivity|]). destruct Hc. }
  destruct (sh_body_wide c v In n (shcodecs_ok c Hc) Ho Hw HIn Hn) as (body & HB & HL).
  unfold sh_compress, sh_wrap in HC. rewrite HB in HC. destruct (_ || _); [discriminate|]. apply (f_equal (fun r => match r with COk l => len l | _ => 0 end)) in HC. rewrite !len_app, !len_le32 in HC. lia.
Qed.
