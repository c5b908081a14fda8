(** Streams with the two sizes of the header the other way round. *)
From Verif Require Import Base Spec Spec2 LargeSpec Simd ExtModel ExtThm Rle8Model Rle8Thm LutModel SlModel SlThm ShModel ShThm LeModel LeSpec LeTable LeDec LeThm RmThm MzModel MzThm ArchSpec ArchThm ArchLib TellThm TellLe.
From Verif Require HsModel HsThm.

(** A decompressor that finds a compressed size larger than the stream refuses. *)
Lemma library_dec_refuses slack comp dec f need ok C pin inSize M pout outSize : library slack comp dec f need ok ->
  inSize < rd32 C (pin + f) -> dec C pin inSize M pout outSize = DRet 0 M.
Proof.
  intros HL HR. inversion HL; subst.
  - apply ext_decompress_args. lia.
  - apply r8_decompress_args. lia.
  - apply r8_decompress_args. lia.
  - apply sl_decompress_args. lia.
  - apply sh_decompress_args. lia.
  - apply le_dec_args. rewrite Z.add_0_r in HR. lia.
  - apply le_dec_args. rewrite Z.add_0_r in HR. lia.
  - apply rm_dec_args. rewrite Z.add_0_r in HR. lia.
  - apply mz_dec_args. lia.
  - apply HsThm.sh_dec_args. lia.
Qed.
Lemma other_kind_refused slack slack' x comp dec f need ok out C pin M pout outSize : library_piece slack x -> library slack' comp dec f need ok ->
  f <> a_field x -> a_comp x (a_In x) (a_n x) (a_cap x) = COk out -> len out < a_n x -> holds C pin out ->
  dec C pin (len out) M pout outSize = DRet 0 M.
Proof.
  intros Hx HL Hf E Hlt HC. destruct (library_ok slack x Hx) as (_ & out' & E' & Hh & _). rewrite E in E'. injection E' as <-.
  apply (library_dec_refuses slack' comp dec f need ok); [exact HL|]. destruct (Hh C pin HC) as [_ H].
  replace f with (4 - a_field x); [lia|]. destruct Hx as (need' & ok' & HL' & _). inversion HL; inversion HL'; subst; lia.
Qed.

(** Low entropy: what the short codec writes the other one restores as well. *)
Lemma ser_mono L L' rle stc s o : L <= L' -> Ser L rle stc s o -> Ser L' rle stc s o.
Proof. intros HL. induction 1; constructor; auto; lia. Qed.
Lemma short_by_normal max In n cap out c : byte_mem In -> 1 <= n <= large_in -> le_cond 32 max In n -> le_compress 32 max false false In n cap = COk out ->
  RestoresI false (le_decompress 255 c) 0 out In n.
Proof.
  intros HIn Hn HP HC. destruct (le_shape 32 max In n cap out ltac:(lia) HIn Hn HC) as (info & stc & body & Hi & HI & Hstc & HS & Ho & Hl).
  assert (Hlen : len out = 8 + len (write_info info) + len body) by (rewrite Ho, !len_app, !len_le32; lia).
  rewrite Ho, Hlen. apply le_decompress_ok_large with (stc := stc); auto.
  - rewrite Hi. apply le_cond_rle_large; auto.
  - apply (ser_mono 32); [lia|exact HS].
  - lia.
Qed.

(** Not the other way round: the short decompressors fill 32 bytes per packet at most. *)
Definition run48_2 : mem := fun k => if k <? 48 then 5 else 16 + k mod 2.
Lemma run48_2_byte : byte_mem run48_2.
Proof. intros k. unfold run48_2, is_byte. destruct (k <? 48); lia. Qed.
Definition taken (r : cres) (d : decompressor) : bool :=
  match r with
  | COk out =>
      match d (at1 out) 1 (len out) (fun _ => 0) 1 400 with
      | DRet r M => (r =? 400) && (if list_eq_dec Z.eq_dec (slice M 1 400) (slice run48_2 0 400) then false else true)
      | DDiverge => false
      end
  | _ => false
  end.
Lemma taken_out r d : taken r d = true -> exists out M', r = COk out /\ d (at1 out) 1 (len out) (fun _ => 0) 1 400 = DRet 400 M' /\ slice M' 1 400 <> slice run48_2 0 400.
Proof.
  unfold taken. destruct r as [|out|]; try discriminate. destruct (d (at1 out) 1 (len out) (fun _ => 0) 1 400) as [r M'|] eqn:ED; [|discriminate].
  intros H. apply andb_prop in H. destruct H as [H1 H2]. exists out, M'. split; [reflexivity|]. split; [rewrite ED; f_equal; lia|].
  destruct (list_eq_dec Z.eq_dec (slice M' 1 400) (slice run48_2 0 400)) as [|Hne]; [discriminate|exact Hne].
Qed.
Lemma all_taken_short : forallb (fun max => forallb (fun c => taken (le_compress 255 max false false run48_2 400 2000) (le_decompress 32 c)) cpus) [true; false] = true.
Proof. vm_compute. reflexivity. Qed.
Lemma normal_by_short_refuted max c : exists In n cap out C M M', byte_mem In /\ 1 <= n <= max_in /\ le_cond 255 max In n /\
  le_compress 255 max false false In n cap = COk out /\ holds C 1 out /\
  le_decompress 32 c C 1 (len out) M 1 n = DRet n M' /\ slice M' 1 n <> slice In 0 n.
Proof.
  pose proof all_taken_short as H. rewrite forallb_forall in H. specialize (H max ltac:(destruct max; cbn; tauto)). rewrite forallb_forall in H.
  specialize (H c ltac:(destruct c as [[|] [|]]; cbn; tauto)). apply taken_out in H. destruct H as (out & M' & E & ED & Hne).
  exists run48_2, 400, 2000, out, (at1 out), (fun _ => 0), M'. split; [exact run48_2_byte|]. split; [unfold max_in; lia|]. split.
  { destruct max; [exact I|]. apply lonely_not_worth; [lia|exact run48_2_byte|unfold max_in; lia|]. apply short_lonely; [exact run48_2_byte|lia]. }
  split; [exact E|]. split; [apply at1_holds|]. split; [exact ED|exact Hne].
Qed.
