(** Alignment of the buffers does not matter. *)
From Verif Require Import Base Spec Spec2 Simd ExtModel Rle8Model Rle8Thm LutModel SlModel SlThm ShModel ShThm LeModel LeThm RmThm.
From Verif Require Import PlatModel PlatSpec PlatThm ApiModel ApiThm AlSpec AlThm.

(** C71: no copy and no fill of the decoders uses an instruction that demands alignment on an address
    that is not aligned, whatever the addresses, the lengths and the contents. *)
Theorem C71_copies_aligned : forall W C p M q off, 0 < W -> memcpyW W C p M q off = anycopy W C p M q off.
Proof. exact copy_any. Qed.
Print Assumptions C71_copies_aligned.
Theorem C71_fills_aligned : forall W b M q cnt, 0 < W -> memsetW W b M q cnt = anyset W b M q cnt.
Proof. exact set_any. Qed.
Print Assumptions C71_fills_aligned.
Theorem C71_low_entropy_runs_aligned : forall b M q count, le_fillS b M q count = anyrun b M q count.
Proof. exact run_any. Qed.
Print Assumptions C71_low_entropy_runs_aligned.

(** Hence the decoders give the same wherever the buffers lie. *)
Theorem C71_ext_any_place : forall m c, List.In c xcodecs ->
  AnyPlace (ext_compress m c false false) rle_compress_bounds (anywhere (fun m' => ext_decompress m' c)).
Proof. intros m c Hc. exact (anyplace_rt _ _ _ _ (ext_anywhere m c Hc)). Qed.
Print Assumptions C71_ext_any_place.
Theorem C71_rle8_multi_any_place : forall m pk,
  AnyPlace (multi_compress m pk false false) (multi_space pk) (anywhere (fun m' => rle8_decompress m' pk)).
Proof. intros m pk. exact (anyplace_rt _ _ _ _ (multi_anywhere m pk)). Qed.
Print Assumptions C71_rle8_multi_any_place.
Theorem C71_rle8_single_any_place : forall pk,
  AnyPlace (s_compress pk false false) (single_space pk) (anywhere (fun m' => rle8_decompress m' pk)).
Proof. intros pk. exact (anyplace_rt _ _ _ _ (single_anywhere pk)). Qed.
Print Assumptions C71_rle8_single_any_place.
Theorem C71_sl_any_place : forall m c, List.In c slcodecs ->
  AnyPlace (symlut_compress m c false false) (sl_space c) (anywhere (fun m' => symlut_decompress m' c)).
Proof. intros m c Hc. exact (anyplace_rt _ _ _ _ (symlut_anywhere m c Hc)). Qed.
Print Assumptions C71_sl_any_place.
Theorem C71_short_any_place : forall m c, List.In c shcodecs ->
  AnyPlace (short_compress m c false false) sh_space (anywhere (fun m' => short_decompress m' c)).
Proof. intros m c Hc. exact (anyplace_rt _ _ _ _ (short_anywhere m c Hc)). Qed.
Print Assumptions C71_short_any_place.
Theorem C71_low_entropy_any_place : forall L, L = 255 \/ L = 32 ->
  AnyPlaceI false Always (le_compress L true false false) le_bounds (anywhere (fun m' => low_entropy_decompress m' L)).
Proof. intros L HL. exact (anyplace_rti _ _ _ _ _ _ (low_entropy_anywhere L HL)). Qed.
Print Assumptions C71_low_entropy_any_place.
Theorem C71_rle8m_any_place : forall subs, 1 <= subs <= 2 ^ 28 ->
  AnyPlaceI true (rm_cond subs) (rm_compress subs false false) (fun n => rm_space subs n + 1) rm_decs.
Proof. intros subs Hs. exact (anyplace_rti _ _ _ _ _ _ (rm_round_trip subs Hs)). Qed.
Print Assumptions C71_rle8m_any_place.

(** *** Examples *)

(** Had the copy not been rounded up first, the aligned loads would fault: the first step of the loop at
    an odd address has no successor. *)
Example odd_load : copy_step 16 (fun k => k) 200 (1001, 100, fun _ => 0) = inr None.
Proof. reflexivity. Qed.
(** A copy of 70 bytes from an odd address to another one, with vectors of 16 and of 32 bytes. *)
Example odd_copy : forall W, List.In W [16; 32] ->
  match memcpyW W (fun k => k mod 251) 1003 (fun _ => 0) 5001 70 with
  | Some (p, q, M) => (p, q, slice M 5001 70) = (1073, 5071, slice (fun k => k mod 251) 1003 70)
  | None => False
  end.
Proof. intros W [<-|[<-|[]]]; vm_compute; reflexivity. Qed.
(** A run of 100 bytes to an odd address. *)
Example odd_run : match le_fillS 7 (fun _ => 0) 4099 100 with
  | Some (q, M) => q = 4199 /\ slice M 4098 102 = 0 :: repeat 7 100 ++ [0]
  | None => False
  end.
Proof. vm_compute. now split. Qed.
