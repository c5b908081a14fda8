(** C82: streams in which one byte has been changed. *)
From Verif Require Import Base Spec Spec2 Simd ArchSpec ArchLib DamageSpec DamageThm TruncBad Props_Arch.

(** A greater byte in the place of one of the first 8 bytes, which hold the sizes of stream and data: a decompressor that is told
    exactly these sizes refuses the stream and writes nothing. *)
Theorem C82_greater_size_noticed_partial : forall slack x, library_piece slack x -> NoticesGreaterSize x.
Proof. exact library_notices. Qed.
Print Assumptions C82_greater_size_noticed_partial.

(** Every decompressor of the library accepts some stream with one changed byte, and restores something else. *)
Theorem C82_damage_noticed_refuted : forall slack comp dec f need ok, library slack comp dec f need ok ->
  exists comp' need' ok', library slack comp' dec f need' ok' /\ DamageUnnoticed comp' dec need' ok'.
Proof. exact library_unnoticed. Qed.
Print Assumptions C82_damage_noticed_refuted.

(** *** Examples *)
Example C82_pieces : Forall (fun x => exists s, library_piece s x) ex_pieces.
Proof. exact C75_example. Qed.
(** The first piece, byte 5 of the header changed; and the last byte of the stream changed. *)
Example C82_example : match ex_pieces with
  | x :: _ => match a_comp x (a_In x) (a_n x) (a_cap x) with
      | COk out => len out = 31 /\ nth 5 out 0 = 0 /\ a_dec x (cut_mem [] (changed out 5 1)) 16 31 (fun _ => 0) 100 (a_n x) = DRet 0 (fun _ => 0) /\
          a_dec x (cut_mem [] out) 16 31 (fun _ => 0) 100 (a_n x) <> DRet 0 (fun _ => 0)
      | _ => False end
  | [] => False end.
Proof. vm_compute. repeat split; try reflexivity. discriminate. Qed.
