(** C76: streams of which the end is missing. *)
From Verif Require Import Base Spec Spec2 Simd ExtModel ExtThm LeModel LeThm MzModel ArchSpec ArchLib TruncSpec TruncThm TruncBad Props_Arch.

(** If the part of the header with the compressed size is left (8 bytes; 4 for the low entropy codecs and rle8m), the rest is
    refused and nothing is written, whatever lies behind it. *)
Theorem C76_cut_refused_partial : forall slack x, library_piece slack x -> RefusesCut x (a_field x + 4).
Proof. exact library_refuses_cut. Qed.
Print Assumptions C76_cut_refused_partial.

(** If less is left, every decompressor of the library may take the memory behind it for the rest of the header. *)
Theorem C76_cut_refused_refuted : forall slack comp dec f need ok, library slack comp dec f need ok ->
  exists comp' need' ok', library slack comp' dec f need' ok' /\ AcceptsCut comp' dec (if f =? 0 then 1 else 4).
Proof. exact library_accepts_cut. Qed.
Print Assumptions C76_cut_refused_refuted.

(** *** Examples *)
Example C76_pieces : Forall (fun x => exists s, library_piece s x) ex_pieces.
Proof. exact C75_example. Qed.
(** The stream of the first piece, and what the decoder makes of 8 bytes of it, followed by zeros. *)
Example C76_example : match ex_pieces with
  | x :: _ => match a_comp x (a_In x) (a_n x) (a_cap x) with
      | COk out => len out = 31 /\ a_dec x (cut_mem out (firstn 8 out)) 16 8 (fun _ => 0) 100 1000 = DRet 0 (fun _ => 0)
      | _ => False end
  | [] => False end.
Proof. vm_compute. split; reflexivity. Qed.
