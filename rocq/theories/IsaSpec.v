(** The instruction set that each implementation is compiled for (the target attributes of the functions). *)
From Verif Require Import Base Spec ExtModel Rle8Model LutModel LeModel PlatModel.

(** Encoders: rleX_extreme_cpu.h l.8-32, rleX_Xsl_multibyte_encoder.h, rle24_extreme_cpu.h. *)
Definition simd_isa (v : simd) : isa := match v with Base_ => IScalar | Sse2 => ISse2 | Ssse3 => ISsse3 | Avx2 => IAvx2 end.
(** Decoders of rleX_extreme: the AVX version of the 24 and 48 bit decoders is compiled for AVX2. *)
Definition dsimd_isa (S : Z) (v : dsimd) : isa :=
  match v with DSse => ISse2 | DSsse3 => ISsse3 | DAvx => if (S =? 3) || (S =? 6) then IAvx2 else IAvx | DAvx512 => IAvx512 end.
Definition d8_isa (v : d8) : isa := match v with D8Sse => ISse2 | D8Sse41 => ISse41 | D8Avx => IAvx | D8Avx2 => IAvx2 | D8Avx512 => IAvx512 end.
(** Decoders of symlut and short codecs. *)
Definition lvl_isa (l : lvl) : isa :=
  match l with LSse => ISse2 | LSsse3 => ISsse3 | LSse41 => ISse41 | LAvx => IAvx | LAvx2 => IAvx2 | LAvx512 => IAvx512 end.
(** Low entropy: the instruction sets used depending on the stream. *)
Definition cpu_isas (c : cpu) : list isa := ISse2 :: (if cpu_avx c then [IAvx] else []) ++ (if cpu_avx2 c then [IAvx2] else []).
