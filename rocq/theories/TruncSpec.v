(** Streams of which the end is missing: a file cut short, read into memory; what lies behind it is arbitrary. *)
From Verif Require Import Base Spec ArchSpec.

(** Whenever at least [from] bytes but not all of the stream are left, decompression returns 0 and writes nothing. *)
Definition RefusesCut (x : piece) (from : Z) : Prop :=
  forall out k C pin M pout outSize, a_comp x (a_In x) (a_n x) (a_cap x) = COk out -> from <= k < len out ->
  holds C pin (firstn (Z.to_nat k) out) -> a_dec x C pin k M pout outSize = DRet 0 M.

(** [k] bytes are left of the stream, the memory behind is such that decompression does not refuse: it returns the size that
    the header announces. *)
Definition AcceptsCut (comp : compressor) (dec : decompressor) (k : Z) : Prop :=
  exists In n cap out C M M', byte_mem In /\ 1 <= n <= max_in /\ comp In n cap = COk out /\ 0 < k < len out /\ byte_mem C /\
  holds C 16 (firstn (Z.to_nat k) out) /\ dec C 16 k M 100 1000 = DRet n M'.
