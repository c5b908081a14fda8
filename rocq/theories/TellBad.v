(** A stream does not tell the codec it belongs to: the streams of rleS_sym count symbols, those of rleS_byte bytes. *)
From Verif Require Import Base Spec Simd ExtModel ExtThm TellThm.

(** A run of 48 bytes, then different ones. *)
Definition run48 : mem := fun k => if k <? 48 then 5 else k mod 256.
Lemma run48_byte : byte_mem run48.
Proof. intros k. unfold run48, is_byte. destruct (k <? 48); lia. Qed.

Definition taken_wrong (S : Z) (v : simd) (d : dsimd) : bool :=
  match xcomp (mkX S false false false) v run48 64 400 with
  | COk out =>
      match xdecompress (mkX S true false false) d (at1 out) 1 (len out) (fun _ => 0) 1 64 with
      | DRet r M => (r =? 64) && (if list_eq_dec Z.eq_dec (slice M 1 64) (slice run48 0 64) then false else true)
      | DDiverge => false
      end
  | _ => false
  end.
Lemma all_taken_wrong : forallb (fun S => forallb (fun v => forallb (taken_wrong S v) [DSse; DSsse3; DAvx; DAvx512]) [Base_; Sse2; Ssse3; Avx2]) xsizes = true.
Proof. vm_compute. reflexivity. Qed.

Lemma wrong_codec_refuted S v d : List.In S xsizes -> exists In n cap out C M M', byte_mem In /\ 1 <= n <= max_in /\
  xcomp (mkX S false false false) v In n cap = COk out /\ holds C 1 out /\
  xdecompress (mkX S true false false) d C 1 (len out) M 1 n = DRet n M' /\ slice M' 1 n <> slice In 0 n.
Proof.
  intros HS. pose proof all_taken_wrong as H. rewrite forallb_forall in H. specialize (H S HS). rewrite forallb_forall in H.
  specialize (H v ltac:(destruct v; cbn; tauto)). rewrite forallb_forall in H. specialize (H d ltac:(destruct d; cbn; tauto)). unfold taken_wrong in H.
  destruct (xcomp _ v run48 64 400) as [|out|] eqn:E; try discriminate.
  destruct (xdecompress _ d (at1 out) 1 (len out) (fun _ => 0) 1 64) as [r M'|] eqn:ED; [|discriminate]. apply andb_prop in H. destruct H as [H1 H2].
  exists run48, 64, 400, out, (at1 out), (fun _ => 0), M'. split; [exact run48_byte|]. split; [unfold max_in; lia|]. split; [exact E|]. split; [apply at1_holds|].
  split; [rewrite ED; f_equal; lia|]. destruct (list_eq_dec Z.eq_dec (slice M' 1 64) (slice run48 0 64)) as [|Hne]; [discriminate|exact Hne].
Qed.
