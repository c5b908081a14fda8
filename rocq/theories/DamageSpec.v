(** Streams in which one byte has been changed: a damaged file, a faulty transmission. *)
From Verif Require Import Base Spec ArchSpec.

(** The bytes [out] with [b] in the place of byte [i]. *)
Definition changed (out : list Z) (i b : Z) : list Z := firstn (Z.to_nat i) out ++ b :: skipn (Z.to_nat (i + 1)) out.

(** One of the 8 bytes with the two sizes has become greater: a decompressor that is told the size of the stream and the size of
    the data returns 0 and writes nothing. *)
Definition NoticesGreaterSize (x : piece) : Prop :=
  forall out i b C pin M pout, a_comp x (a_In x) (a_n x) (a_cap x) = COk out -> 0 <= i < 8 -> nth (Z.to_nat i) out 0 < b ->
  holds C pin (changed out i b) -> a_dec x C pin (len out) M pout (a_n x) = DRet 0 M.

(** A stream with one changed byte is accepted, and what is restored is not the input. *)
Definition DamageUnnoticed (comp : compressor) (dec : decompressor) (need : Z -> Z) (ok : mem -> Z -> Prop) : Prop :=
  exists In n cap out i b C M M', byte_mem In /\ 1 <= n <= max_in /\ ok In n /\ need n <= cap < 2 ^ 32 /\ comp In n cap = COk out /\
  0 <= i < len out /\ is_byte b /\ b <> nth (Z.to_nat i) out 0 /\ byte_mem C /\ holds C 16 (changed out i b) /\
  dec C 16 (len out) M 100 n = DRet n M' /\ slice M' 100 n <> slice In 0 n.
