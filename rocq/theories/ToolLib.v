(** The functions that codecCallbacks (codec_funcs.h l.267-389) points to, as calls on one memory. *)
From Coq Require Import String Ascii.
From Verif Require Import Base Spec Simd ExtModel Rle8Model LutModel SlModel MtfSpec MtfModel MtfThm MzModel LeModel PlatModel ApiModel ToolSpec.
From Verif Require ShModel HsModel.
Open Scope string_scope.
Open Scope Z_scope.

(** *** What an identifier of rle.h denotes

    [cfn]: the functions that compress, [dfn]: those that decompress, by the model that describes them. *)
Inductive cfn :=
| KMulti (pk : bool) | KSingle (pk : bool) | KExt (c : xcfg) | KSl (c : slcfg) | KSh (c : ShModel.shcfg) | KGreedy (c : ShModel.shcfg)
| KHs | KMz | KLe (L : Z) (max : bool) | KMmtf (wide : bool) | KBit (wide : bool).
Inductive dfn :=
| D8 (pk : bool) | DExt (c : xcfg) | DSl (c : slcfg) | DSh (c : ShModel.shcfg)
| DHs | DMz | DLe (L : Z) | DMmtf (wide : bool) | DBit (wide : bool).

Definition symbol_bytes (w : string) : Z :=
  if (w =? "rle8")%string then 1 else if (w =? "rle16")%string then 2 else if (w =? "rle24")%string then 3 else if (w =? "rle32")%string then 4
  else if (w =? "rle48")%string then 6 else if (w =? "rle64")%string then 8 else if (w =? "rle128")%string then 16 else 0.
Definition lut_count (w : string) : Z :=
  if (w =? "1symlut")%string then 1 else if (w =? "3symlut")%string then 3 else if (w =? "7symlut")%string then 7 else 0.
Definition unbound (w : string) : bool := (w =? "byte")%string.

(** The macros that make up the names: rle8_extreme_cpu.c l.25-61, rleX_extreme_cpu.c, rle24_extreme_cpu.c,
    rle48_extreme_cpu.c, rle128_extreme_cpu.c, rleX_Xsl.c, rleX_Xsl_short.c; the other functions are named in
    rle8_low_entropy_cpu.c, rle8_low_entropy_short_cpu.c, rle_sh.c, rle8_mmtf.c, mmtf.c and bit_mmtf.c. *)
Fixpoint lookup {X} (name : string) (l : list (string * X)) : option X :=
  match l with
  | [] => None
  | (n, x) :: r => if (name =? n)%string then Some x else lookup name r
  end.
(** All words but the last if it is [w]. *)
Definition before_last (w : string) (l : list string) : option (list string) :=
  match rev l with x :: r => if (x =? w)%string then Some (rev r) else None | [] => None end.

Definition named_compress : list (string * cfn) :=
  [("rle8_multi_compress", KMulti false); ("rle8_packed_multi_compress", KMulti true);
   ("rle8_single_compress", KSingle false); ("rle8_packed_single_compress", KSingle true);
   ("rle8_multi_short_compress", KSh (ShModel.mkSh 1 false 0 false)); ("rle8_single_short_compress", KSh (ShModel.mkSh 1 false 0 true));
   ("rle8_sh_compress", KHs); ("rle8_mmtf128_compress", KMz);
   ("rle8_low_entropy_compress", KLe 255 false); ("rle8_low_entropy_compress_only_max_frequency", KLe 255 true);
   ("rle8_low_entropy_short_compress", KLe 32 false); ("rle8_low_entropy_short_compress_only_max_frequency", KLe 32 true);
   ("mmtf128_encode", KMmtf false); ("mmtf256_encode", KMmtf true); ("bitmmtf8_encode", KBit false); ("bitmmtf16_encode", KBit true)].
Definition named_decompress : list (string * dfn) :=
  [("rle8_decompress", D8 false); ("rle8_packed_decompress", D8 true);
   ("rle8_multi_short_decompress", DSh (ShModel.mkSh 1 false 0 false)); ("rle8_single_short_decompress", DSh (ShModel.mkSh 1 false 0 true));
   ("rle8_sh_decompress", DHs); ("rle8_mmtf128_decompress", DMz);
   ("rle8_low_entropy_decompress", DLe 255); ("rle8_low_entropy_short_decompress", DLe 32);
   ("mmtf128_decode", DMmtf false); ("mmtf256_decode", DMmtf true); ("bitmmtf8_decode", DBit false); ("bitmmtf16_decode", DBit true)].

(** The codecs with a systematic name. *)
Inductive systematic := SysExt (c : xcfg) | SysSl (c : slcfg) | SysSh (c : ShModel.shcfg).
Definition identify_words (l : list string) : option systematic :=
  match l with
  | [t; a] =>                    (* rle16_sym, rle8_3symlut *)
      if (t =? "rle8")%string then Some (SysSl (mkSl 1 false (lut_count a))) else Some (SysExt (mkX (symbol_bytes t) (unbound a) false false))
  | [t; a; x] =>                 (* rle16_byte_packed, rle8_3symlut_short, rle16_sym_short, rle16_3symlut_byte *)
      if (x =? "packed")%string then Some (SysExt (mkX (symbol_bytes t) (unbound a) true (unbound a)))
      else if (x =? "short")%string then
        if (t =? "rle8")%string then Some (SysSh (ShModel.mkSh 1 false (lut_count a) false))
        else Some (SysSh (ShModel.mkSh (symbol_bytes t) (unbound a) 0 false))
      else Some (SysSl (mkSl (symbol_bytes t) (unbound x) (lut_count a)))
  | [t; lut; a; x] =>            (* rle16_3symlut_byte_short *)
      if (x =? "short")%string then Some (SysSh (ShModel.mkSh (symbol_bytes t) (unbound a) (lut_count lut) false)) else None
  | _ => None
  end.
Definition identify_compress (name : string) : option cfn :=
  match lookup name named_compress with
  | Some f => Some f
  | None =>
      match before_last "compress" (split "_" name "") with
      | Some l =>
          match identify_words l with
          | Some (SysExt c) => Some (KExt c) | Some (SysSl c) => Some (KSl c) | Some (SysSh c) => Some (KSh c) | None => None
          end
      | None =>                  (* rle16_3symlut_byte_short_compress_greedy *)
          match before_last "greedy" (split "_" name "") with
          | Some l =>
              match before_last "compress" l with
              | Some l => match identify_words l with Some (SysSh c) => Some (KGreedy c) | _ => None end
              | None => None
              end
          | None => None
          end
      end
  end.
Definition identify_decompress (name : string) : option dfn :=
  match lookup name named_decompress with
  | Some f => Some f
  | None =>
      match before_last "decompress" (split "_" name "") with
      | Some l =>
          match identify_words l with
          | Some (SysExt c) => Some (DExt c) | Some (SysSl c) => Some (DSl c) | Some (SysSh c) => Some (DSh c) | None => None
          end
      | None => None
      end
  end.

(** *** Calls

    The result of a call on a memory: the returned value and the memory, or a fault (an aligned access to an
    address that is not), or no result. *)
Inductive callres := CRet (r : Z) (M : mem) | CFault | CHang.
(** Memory, pIn, inSize, pOut, outSize. *)
Definition call := mem -> Z -> Z -> Z -> Z -> callres.

(** The bytes at [p], read as uint8_t. *)
Definition bytes_at (M : mem) (p : Z) : mem := fun k => w8 (M (p + k)).

(** A compressor that is modelled by the list of bytes it writes. *)
Definition call_list (f : nullable_compressor) : call := fun M pin n pout cap =>
  match f (pin =? 0) (pout =? 0) (bytes_at M pin) n cap with
  | CRefused => CRet 0 M
  | COk out => CRet (w32 (len out)) (store M pout out)
  | CDiverge => CHang
  end.
(** rle8_sh_compress and rle8_mmtf128_compress: the checks (HsModel.v, MzModel.v), then what is modelled by its
    effect on the memory. *)
Definition call_run (run : mem -> Z -> Z -> mem -> Z -> option (Z * mem)) : call := fun M pin n pout cap =>
  if (pin =? 0) || (n =? 0) || (pout =? 0) || (cap <? mz_bounds n) then CRet 0 M
  else match run (bytes_at M pin) n cap M pout with Some (r, M) => CRet r M | None => CHang end.
Definition call_dec (d : decompressor) : call := fun M pin inSize pout cap =>
  match d M pin inSize M pout cap with DRet r M => CRet r M | DDiverge => CHang end.
Definition call_x (f : xform) : call := fun M pin inSize pout outSize =>
  match f M pin inSize pout outSize with XRet r M => CRet r M | XFault => CFault | XDiverge => CHang end.

(** The implementations chosen by the flags [st] (after _DetectCPUFeatures), as in ApiModel.v. *)
Definition mcpu_of (st : flags) : mcpu := mkMcpu (st FSse2) (st FSse41) (st FAvx2).
Definition lib_compress (st : flags) (undef : Z -> Z) (f : cfn) : call :=
  match f with
  | KMulti pk => call_list (m_compress pk (match choose Rle8_comp st with Some IAvx2 => true | _ => false end))
  | KSingle pk => call_list (s_compress pk)
  | KExt c => call_list (xcompress c (enc_impl (choose (if odd_size (xS c) then Rle24_comp else RleX_comp) st)))
  | KSl c => call_list (sl_compress c (enc_impl (choose (lut_site (slS c)) st)))
  | KSh c => call_list (ShModel.sh_compress c (enc_impl (choose (lut_site (ShModel.shS c)) st)))
  | KGreedy c => call_list (ShModel.greedy_compress c)
  | KHs => call_run HsModel.sh_run
  | KMz => call_run (fun In n _ M pout => mz_run undef In n M pout)
  | KLe L max => call_list (le_compress L max)
  | KMmtf wide => call_x (mmtf wide false (mcpu_of st))
  | KBit wide => call_x (bitmmtf wide false)
  end.
Definition lib_decompress (st : flags) (f : dfn) : call :=
  match f with
  | D8 pk => call_dec (r8_decompress pk
      (match choose Rle8_dec st with
       | Some IAvx512 => D8Avx512 | Some IAvx2 => D8Avx2 | Some IAvx => D8Avx | Some ISse41 => D8Sse41 | _ => D8Sse end))
  | DExt c => call_dec (xdecompress c
      (match choose (if odd_size (xS c) then Rle24_dec else if xS c =? 16 then Rle128_dec else RleX_dec) st with
       | Some IAvx512 => DAvx512 | Some IAvx2 | Some IAvx => DAvx | Some ISsse3 => DSsse3 | _ => DSse end))
  | DSl c => call_dec (sl_decompress c (lut_impl (choose (Sl_dec (odd_size (slS c))) st)))
  | DSh c => call_dec (ShModel.sh_decompress c (lut_impl (choose (Sl_dec (odd_size (ShModel.shS c))) st)))
  | DHs => call_dec HsModel.sh_decompress
  | DMz => call_dec mz_decompress
  | DLe L => call_dec (le_decompress L (mkCpu (match choose Le_dec_multi st with Some IAvx => true | _ => false end)
                                             (match choose Le_dec_single st with Some IAvx2 => true | _ => false end)))
  | DMmtf wide => call_x (mmtf wide true (mcpu_of st))
  | DBit wide => call_x (bitmmtf wide true)
  end.
