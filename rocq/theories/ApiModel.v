(** The public functions on a given machine: the implementation is the one chosen after
    _DetectCPUFeatures.  Source lines: see the constructors of [site] in PlatModel.v. *)
From Verif Require Import Base Spec Simd ExtModel Rle8Model LutModel SlModel ShModel LeModel PlatModel.

Definition on (m : machine) (s : site) : option isa := choose s (detect m all_off).

Definition enc_impl (i : option isa) : simd :=
  match i with Some IAvx2 => Avx2 | Some ISsse3 => Ssse3 | Some ISse2 => Sse2 | _ => Base_ end.

Definition lut_impl (i : option isa) : lvl :=
  match i with
  | Some IAvx512 => LAvx512 | Some IAvx2 => LAvx2 | Some IAvx => LAvx | Some ISse41 => LSse41 | Some ISsse3 => LSsse3
  | _ => LSse
  end.

(** 24 and 48 bit codecs. *)
Definition odd_size (S : Z) : bool := (S =? 3) || (S =? 6).

(** rle16, 24, 32, 48, 64, 128 (the 128 bit compressor has one implementation, for which the
    parameter of [xcompress] is irrelevant). *)
Definition ext_compress (m : machine) (c : xcfg) : nullable_compressor :=
  xcompress c (enc_impl (on m (if odd_size (xS c) then Rle24_comp else RleX_comp))).
Definition ext_decompress (m : machine) (c : xcfg) : decompressor :=
  xdecompress c
    (match on m (if odd_size (xS c) then Rle24_dec else if xS c =? 16 then Rle128_dec else RleX_dec) with
     | Some IAvx512 => DAvx512 | Some IAvx2 | Some IAvx => DAvx | Some ISsse3 => DSsse3 | _ => DSse
     end).

(** rle8_multi, rle8_packed_multi, and the decompressor of all four 8 bit codecs. *)
Definition multi_compress (m : machine) (pk : bool) : nullable_compressor :=
  m_compress pk (match on m Rle8_comp with Some IAvx2 => true | _ => false end).
Definition rle8_decompress (m : machine) (pk : bool) : decompressor :=
  r8_decompress pk
    (match on m Rle8_dec with
     | Some IAvx512 => D8Avx512 | Some IAvx2 => D8Avx2 | Some IAvx => D8Avx | Some ISse41 => D8Sse41 | _ => D8Sse
     end).

(** The symlut and short codecs. *)
Definition lut_site (S : Z) : site := if S =? 1 then Sl8_comp else SlX_comp (odd_size S).
Definition symlut_compress (m : machine) (c : slcfg) : nullable_compressor := sl_compress c (enc_impl (on m (lut_site (slS c)))).
Definition symlut_decompress (m : machine) (c : slcfg) : decompressor :=
  sl_decompress c (lut_impl (on m (Sl_dec (odd_size (slS c))))).
Definition short_compress (m : machine) (c : shcfg) : nullable_compressor := sh_compress c (enc_impl (on m (lut_site (shS c)))).
Definition short_decompress (m : machine) (c : shcfg) : decompressor :=
  sh_decompress c (lut_impl (on m (Sl_dec (odd_size (shS c))))).

(** rle8_low_entropy_decompress, _short_ (the choice depends on the stream: one or several symbols). *)
Definition low_entropy_decompress (m : machine) (L : Z) : decompressor :=
  le_decompress L (mkCpu (match on m Le_dec_multi with Some IAvx => true | _ => false end)
                         (match on m Le_dec_single with Some IAvx2 => true | _ => false end)).
