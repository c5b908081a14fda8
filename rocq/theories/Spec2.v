(** Specifications for the functions of the low entropy family, whose header starts with the
    compressed size: variants of Spec.v with a condition [P] on the input, with 32 bit buffer
    capacities, and with a choice whether the compressed size has to be passed to decompress
    exactly. *)
From Verif Require Import Base Spec.

(** The input size passed to decompress: exactly [l], or at least [l]. *)
Definition InSize (exact : bool) (inSize l : Z) : Prop := if exact then inSize = l else l <= inSize.

Definition RestoresI (exact : bool) (dec : decompressor) (slack : Z) (out : list Z) (In : mem) (n : Z) : Prop :=
  forall C pin inSize M pout cap,
    holds C pin out ->
    0 < pin -> pin + len out + 1024 < 2 ^ 64 -> InSize exact inSize (len out) ->
    0 < pout -> pout + n + 1024 < 2 ^ 64 -> n <= cap ->
    exists M',
      dec C pin inSize M pout cap = DRet n M' /\
      slice M' pout n = slice In 0 n /\
      (forall x, x < pout \/ pout + n + slack <= x -> M' x = M x).

(** Compression succeeds on every input of 1 .. max_in bytes with [P], yields bytes that fit into
    the buffer, and every decompressor in [decs] restores the input. *)
Definition RoundTripI (exact : bool) (P : mem -> Z -> Prop) (comp : compressor) (bound : Z -> Z) (decs : decompressor -> Prop) (slack : Z) : Prop :=
  forall In n cap,
    byte_mem In -> 1 <= n <= max_in -> P In n -> bound n <= cap < 2 ^ 32 ->
    exists out,
      comp In n cap = COk out /\ Forall is_byte out /\ len out <= cap /\
      forall dec, decs dec -> RestoresI exact dec slack out In n.

(** The first two header fields are the two sizes, the compressed size first. *)
Definition HeaderSizesI (comp : compressor) : Prop :=
  forall In n cap out,
    byte_mem In -> 1 <= n <= max_in -> comp In n cap = COk out ->
    exists rest, out = le32 (len out) ++ le32 n ++ rest.

Definition CompressArgsI (comp : nullable_compressor) (bound : Z -> Z) : Prop :=
  forall inNull outNull In n cap,
    byte_mem In -> 0 <= n <= max_in -> 0 <= cap < 2 ^ 32 ->
    (comp inNull outNull In n cap = CRefused <->
     inNull = true \/ outNull = true \/ n = 0 \/ cap < bound n).

Definition DecompressArgsI (dec : decompressor) : Prop :=
  forall C pin inSize M pout outSize,
    (pin = 0 \/ pout = 0 \/ inSize = 0 \/ outSize = 0 \/
     inSize < rd32 C pin \/ outSize < rd32 C (pin + 4)) ->
    dec C pin inSize M pout outSize = DRet 0 M.

(** The compressed bytes depend on nothing but the input bytes. *)
Definition InputOnly (comp : compressor) : Prop :=
  forall In1 In2 n cap, 0 <= n -> (forall k, 0 <= k < n -> In1 k = In2 k) -> comp In1 n cap = comp In2 n cap.

Definition DecodersAgreeI (exact : bool) (P : mem -> Z -> Prop) (comp : compressor) (decs : decompressor -> Prop) : Prop :=
  forall In n cap out dec1 dec2 C1 pin1 inSize1 M1 pout1 cap1 C2 pin2 inSize2 M2 pout2 cap2,
    byte_mem In -> 1 <= n <= max_in -> P In n -> comp In n cap = COk out -> decs dec1 -> decs dec2 ->
    holds C1 pin1 out -> 0 < pin1 -> pin1 + len out + 1024 < 2 ^ 64 -> InSize exact inSize1 (len out) ->
    0 < pout1 -> pout1 + n + 1024 < 2 ^ 64 -> n <= cap1 ->
    holds C2 pin2 out -> 0 < pin2 -> pin2 + len out + 1024 < 2 ^ 64 -> InSize exact inSize2 (len out) ->
    0 < pout2 -> pout2 + n + 1024 < 2 ^ 64 -> n <= cap2 ->
    exists r N1 N2, dec1 C1 pin1 inSize1 M1 pout1 cap1 = DRet r N1 /\
      dec2 C2 pin2 inSize2 M2 pout2 cap2 = DRet r N2 /\ slice N1 pout1 r = slice N2 pout2 r.

Definition StaysInsideI (exact : bool) (P : mem -> Z -> Prop) (comp : compressor) (dec : decompressor) (slack : Z) : Prop :=
  forall In n cap out C pin inSize M pout outSize,
    byte_mem In -> 1 <= n <= max_in -> P In n -> comp In n cap = COk out -> holds C pin out ->
    0 < pin -> pin + len out + 1024 < 2 ^ 64 -> InSize exact inSize (len out) ->
    0 < pout -> pout + n + 1024 < 2 ^ 64 -> n <= outSize ->
    exists r M', dec C pin inSize M pout outSize = DRet r M' /\
      forall x, x < pout \/ pout + n + slack <= x -> M' x = M x.

(** Some byte value never occurs twice in a row. *)
Definition SomeLonely (In : mem) (n : Z) : Prop :=
  exists b, is_byte b /\ forall k, 0 <= k < n - 1 -> ~ (In k = b /\ In (k + 1) = b).
Definition Always (In : mem) (n : Z) : Prop := True.

(** *** Consequences of the correctness of compress *)
Section Codec2.
  Variables (exact : bool) (P : mem -> Z -> Prop) (comp : nullable_compressor) (decs : decompressor -> Prop) (slack : Z).
  Variable size : Z -> Z.

  Definition OkITo (most : Z) : Prop := forall In n cap out,
    byte_mem In -> 1 <= n <= most -> comp false false In n cap = COk out ->
    Forall is_byte out /\ len out <= size n /\ (exists rest, out = le32 (len out) ++ le32 n ++ rest) /\
    (P In n -> forall dec, decs dec -> RestoresI exact dec slack out In n).
  Definition OkI : Prop := OkITo max_in.
  Definition TotalITo (most : Z) (Q : mem -> Z -> Prop) (g : Z -> Z) : Prop := forall In n cap,
    byte_mem In -> 1 <= n <= most -> Q In n -> g n <= cap < 2 ^ 32 -> exists out, comp false false In n cap = COk out.
  Definition TotalI : (mem -> Z -> Prop) -> (Z -> Z) -> Prop := TotalITo max_in.
  Definition GuardedI (guard : Z -> Z) : Prop := forall inNull outNull In n cap,
    inNull = true \/ outNull = true \/ n = 0 \/ cap < guard n -> comp inNull outNull In n cap = CRefused.

  Hypothesis HO : OkI.

  Lemma codecI_round_trip space g : TotalI P g -> (forall n, 1 <= n <= max_in -> g n <= space n /\ size n <= space n) ->
    RoundTripI exact P (comp false false) space decs slack.
  Proof.
    intros HT Hs In n cap HIn Hn HP Hcap. specialize (Hs n Hn). destruct (HT In n cap HIn Hn HP ltac:(lia)) as (out & E).
    destruct (HO In n cap out HIn Hn E) as (O1 & O2 & _ & O4). exists out. split; [exact E|]. split; [exact O1|]. split; [lia|]. now apply O4.
  Qed.
  Lemma codecI_within : WithinBound (comp false false) size.
  Proof. intros In n cap out HIn Hn E. now apply (HO In n cap out HIn Hn E). Qed.
  Lemma codecI_header : HeaderSizesI (comp false false).
  Proof. intros In n cap out HIn Hn E. now apply (HO In n cap out HIn Hn E). Qed.
  Lemma codecI_args guard : TotalI Always guard -> GuardedI guard -> CompressArgsI comp guard.
  Proof.
    intros HT HR inNull outNull In n cap HIn Hn Hcap. split; [|apply HR]. intros HC.
    destruct inNull; [tauto|]. destruct outNull; [tauto|]. destruct (Z.eq_dec n 0) as [|Hn0]; [tauto|].
    destruct (Z_lt_ge_dec cap (guard n)) as [H|H]; [tauto|]. destruct (HT In n cap HIn ltac:(lia) I ltac:(lia)) as (out & HC'). rewrite HC in HC'. discriminate.
  Qed.
  Lemma codecI_truncated dec : (forall n, 1 <= n <= max_in -> size n < 2 ^ 32) -> DecompressArgsI dec -> RejectsTruncated (comp false false) dec.
  Proof.
    intros Hsize HD In n cap out C pin inSize M pout outSize HIn Hn HC Hh Hs.
    destruct (HO In n cap out HIn Hn HC) as (_ & H & (rest & Ho) & _). specialize (Hsize n Hn). pose proof (len_nonneg out).
    apply HD. rewrite Ho in Hh. rewrite (rd32_holds C pin (len out) _) by (try exact Hh; lia). lia.
  Qed.
  Lemma codecI_agree : DecodersAgreeI exact P (comp false false) decs.
  Proof.
    intros In n cap out dec1 dec2 C1 pin1 inSize1 M1 pout1 cap1 C2 pin2 inSize2 M2 pout2 cap2 HIn Hn HP HC Hd1 Hd2
      A1 A2 A3 A4 A5 A6 A7 B1 B2 B3 B4 B5 B6 B7.
    destruct (HO In n cap out HIn Hn HC) as (_ & _ & _ & H). specialize (H HP).
    destruct (H dec1 Hd1 C1 pin1 inSize1 M1 pout1 cap1 A1 A2 A3 A4 A5 A6 A7) as (N1 & E1 & E2 & _).
    destruct (H dec2 Hd2 C2 pin2 inSize2 M2 pout2 cap2 B1 B2 B3 B4 B5 B6 B7) as (N2 & F1 & F2 & _).
    exists n, N1, N2. split; [exact E1|]. split; [exact F1|]. now rewrite E2, F2.
  Qed.
  Lemma codecI_inside dec : decs dec -> StaysInsideI exact P (comp false false) dec slack.
  Proof.
    intros Hd In n cap out C pin inSize M pout outSize HIn Hn HP HC A1 A2 A3 A4 A5 A6 A7.
    destruct (HO In n cap out HIn Hn HC) as (_ & _ & _ & H). specialize (H HP).
    destruct (H dec Hd C pin inSize M pout outSize A1 A2 A3 A4 A5 A6 A7) as (N1 & E1 & _ & E3).
    exists n, N1. split; [exact E1|exact E3].
  Qed.
End Codec2.
