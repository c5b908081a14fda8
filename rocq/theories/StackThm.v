(** Codecs stacked: a compressed stream compressed again, and restored stage by stage. *)
From Verif Require Import Base Spec Spec2 Simd ExtModel ExtThm Rle8Model Rle8Thm LutModel SlModel SlThm ShModel ShThm LeModel LeSpec LeThm RmThm MzModel MzThm ArchSpec ArchThm ArchLib.
From Verif Require HsModel HsThm.

(** [stacked d xs bytes]: the data [d] compressed by the first piece, its stream by the second one, ... *)
Inductive stacked : list Z -> list piece -> list Z -> Prop :=
| stacked_nil d : stacked d [] d
| stacked_cons d x xs out bytes : a_n x = len d -> holds (a_In x) 0 d -> a_comp x (a_In x) (a_n x) (a_cap x) = COk out ->
    stacked out xs bytes -> stacked d (x :: xs) bytes.

(** The output buffer of a stage: the memory before the call, address and size. *)
Record buffer := mkBuffer { b_mem : mem; b_at : Z; b_size : Z }.
(** Undo the stages, the last one first.  Each decompressor gets the buffer that the one before it has filled, as many bytes as that
    one has returned, and a buffer of its own.  Result: the last buffer and the last value returned. *)
Fixpoint unstack (ds : list (decompressor * buffer)) (C : mem) (p size : Z) : option (mem * Z * Z) :=
  match ds with
  | [] => Some (C, p, size)
  | (d, b) :: ds' =>
      match unstack ds' C p size with
      | Some (C', p', size') =>
          match d C' p' size' (b_mem b) (b_at b) (b_size b) with
          | DRet r M => if r =? 0 then None else Some (M, b_at b, r)
          | DDiverge => None
          end
      | None => None
      end
  end.

(** The output buffer of a stage is large enough and does not lie at the very end of the address space. *)
Definition fits (x : piece) (b : buffer) : Prop := 0 < b_at b /\ b_at b + a_n x + 1024 < 2 ^ 64 /\ a_n x <= b_size b.

Lemma unstacks : forall xs bs d bytes C p, Forall (fun x => exists s, library_piece s x) xs -> Forall2 fits xs bs -> stacked d xs bytes ->
  holds C p bytes -> 0 < p -> p + len bytes + 1024 < 2 ^ 64 ->
  exists C' q, unstack (combine (map a_dec xs) bs) C p (len bytes) = Some (C', q, len d) /\ slice C' q (len d) = d /\
    0 < q /\ q + len d + 1024 < 2 ^ 64.
Proof.
  induction xs as [|x xs IH]; intros bs d bytes C p F Fb Hs HC Hp Hl; inversion Fb as [|? b ? bs' Hf Fb']; inversion Hs as [|? ? ? out ? Hn HI E Hs']; subst; cbn [map combine unstack].
  - exists C, p. rewrite (slice_of_holds C p bytes HC). auto.
  - inversion F as [|? ? (s & Hx) F']; subst. destruct (IH bs' out bytes C p F' Fb' Hs' HC Hp Hl) as (C' & q & -> & Hq & H0 & H1).
    destruct (library_ok s x Hx) as (Hr & o & E' & _ & HR). rewrite E in E'. injection E' as <-. destruct Hf as (B1 & B2 & B3).
    destruct (HR C' q (len out) (b_mem b) (b_at b) (b_size b)) as (M' & -> & HM & _); auto; [rewrite <- Hq; apply holds_slice|reflexivity|].
    replace (a_n x =? 0) with false by lia. exists M', (b_at b). rewrite Hn in *. repeat split; auto. rewrite HM. now apply slice_of_holds.
Qed.

(** A compressor of the library succeeds on a valid call, with bytes that fit into the buffer. *)
Lemma library_bytes slack x : library_piece slack x ->
  exists out, a_comp x (a_In x) (a_n x) (a_cap x) = COk out /\ Forall is_byte out /\ len out <= a_cap x.
Proof.
  destruct x as [comp dec f In n cap]. intros (need & ok & HL & H1 & H2 & H3 & H4). cbn [a_comp a_dec a_field a_In a_n a_cap] in *.
  inversion HL; subst.
  - destruct (ext_round_trip c v H In n cap) as (out & E & B & L & _); eauto; lia.
  - destruct (multi_rt pk avx2 In n cap) as (out & E & B & L & _); eauto; lia.
  - destruct (single_rt pk In n cap) as (out & E & B & L & _); eauto; lia.
  - destruct (sl_rt c v H In n cap) as (out & E & B & L & _); eauto; lia.
  - destruct (sh_rt c comp0 H In n cap) as (out & E & B & L & _); eauto; lia.
  - destruct (le_round_trip L false H In n cap) as (out & E & B & Hl & _); eauto; lia.
  - destruct (le_round_trip_max L H In n cap) as (out & E & B & Hl & _); eauto; lia.
  - destruct (rm_round_trip subs H In n cap) as (out & E & B & L & _); eauto; lia.
  - destruct (mz_round_trip undef M pout In n cap) as (out & E & B & L & _); eauto; lia.
  - destruct (HsThm.sh_round_trip M pout In n cap) as (out & E & B & L & _); eauto; lia.
Qed.

(** A memory with given bytes from address 0 on. *)
Definition at0 (l : list Z) : mem := fun k => if k <? 0 then 0 else nth (Z.to_nat k) l 0.
Lemma at0_holds l : holds (at0 l) 0 l.
Proof. apply holds_intro. intros k Hk. unfold at0. replace (0 + k <? 0) with false by lia. f_equal. Qed.
Lemma at0_bytes l : Forall is_byte l -> byte_mem (at0 l).
Proof.
  intros H k. unfold at0. destruct (k <? 0); [unfold is_byte; lia|]. destruct (Nat.lt_ge_cases (Z.to_nat k) (length l)) as [Hk|Hk].
  - rewrite Forall_forall in H. apply H. now apply nth_In.
  - rewrite nth_overflow by assumption. unfold is_byte. lia.
Qed.
Lemma stacked_snoc d xs bytes x out : stacked d xs bytes -> a_n x = len bytes -> holds (a_In x) 0 bytes ->
  a_comp x (a_In x) (a_n x) (a_cap x) = COk out -> stacked d (xs ++ [x]) out.
Proof. induction 1 as [d|d y xs o b H1 H2 H3 H4 IH]; intros; cbn [app]; econstructor; eauto. constructor. Qed.

(** One more stage. *)
Lemma stack_grows slack comp dec f need ok d xs bytes cap : library slack comp dec f need ok -> stacked d xs bytes -> Forall is_byte bytes ->
  1 <= len bytes <= max_in -> ok (at0 bytes) (len bytes) -> need (len bytes) <= cap < 2 ^ 32 ->
  exists bytes', let x := mkPiece comp dec f (at0 bytes) (len bytes) cap in
    library_piece slack x /\ stacked d (xs ++ [x]) bytes' /\ Forall is_byte bytes' /\ len bytes' <= cap.
Proof.
  intros HL Hs HB Hn Hok Hc. pose (x := mkPiece comp dec f (at0 bytes) (len bytes) cap).
  assert (Hx : library_piece slack x). { exists need, ok. split; [exact HL|]. split; [now apply at0_bytes|]. auto. }
  destruct (library_bytes slack x Hx) as (out & E & B & Hl). exists out. cbv zeta. fold x. split; [exact Hx|]. split; [|auto].
  apply (stacked_snoc d xs bytes x out); auto. apply at0_holds.
Qed.
