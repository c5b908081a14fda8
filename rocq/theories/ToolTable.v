(** Model of src/codec_funcs.h (the table of codecs of the tool) and of CodecMatchesArgs in src/main.c.
    The enumeration, the names, the table and the case lists are those of the source, in the same order. *)
From Coq Require Import String.
From Verif Require Import Base.
Open Scope string_scope.
Open Scope Z_scope.

(** codec_t, codec_funcs.h l.4-133. *)
Inductive codec_t :=
| Extreme8 | Extreme8Short | Extreme8Packed | Extreme8_1SLShort | Extreme8_3SL | Extreme8_3SLShort | Extreme8_7SL
| Extreme8_7SLShort | Extreme8Single | Extreme8SingleShort | Extreme8PackedSingle | Extreme16Sym | Extreme16SymShort
| Extreme16SymPacked | Extreme16Sym_1SLShort | Extreme16Sym_3SL | Extreme16Sym_3SLShort | Extreme16Sym_7SL
| Extreme16Sym_7SLShort | Extreme16Byte | Extreme16ByteShort | Extreme16BytePacked | Extreme16Byte_1SLShort
| Extreme16Byte_1SLShortGreedy | Extreme16Byte_3SL | Extreme16Byte_3SLShort | Extreme16Byte_3SLShortGreedy
| Extreme16Byte_7SL | Extreme16Byte_7SLShort | Extreme16Byte_7SLShortGreedy | Extreme24Sym | Extreme24SymShort
| Extreme24SymPacked | Extreme24Sym_1SLShort | Extreme24Sym_3SL | Extreme24Sym_3SLShort | Extreme24Sym_7SL
| Extreme24Sym_7SLShort | Extreme24Byte | Extreme24ByteShort | Extreme24BytePacked | Extreme24Byte_1SLShort
| Extreme24Byte_1SLShortGreedy | Extreme24Byte_3SL | Extreme24Byte_3SLShort | Extreme24Byte_3SLShortGreedy
| Extreme24Byte_7SL | Extreme24Byte_7SLShort | Extreme24Byte_7SLShortGreedy | Extreme32Sym | Extreme32SymShort
| Extreme32SymPacked | Extreme32Sym_1SLShort | Extreme32Sym_3SL | Extreme32Sym_3SLShort | Extreme32Sym_7SL
| Extreme32Sym_7SLShort | Extreme32Byte | Extreme32ByteShort | Extreme32BytePacked | Extreme32Byte_1SLShort
| Extreme32Byte_1SLShortGreedy | Extreme32Byte_3SL | Extreme32Byte_3SLShort | Extreme32Byte_3SLShortGreedy
| Extreme32Byte_7SL | Extreme32Byte_7SLShort | Extreme32Byte_7SLShortGreedy | Extreme48Sym | Extreme48SymShort
| Extreme48SymPacked | Extreme48Sym_1SLShort | Extreme48Sym_3SL | Extreme48Sym_3SLShort | Extreme48Sym_7SL
| Extreme48Sym_7SLShort | Extreme48Byte | Extreme48ByteShort | Extreme48BytePacked | Extreme48Byte_1SLShort
| Extreme48Byte_1SLShortGreedy | Extreme48Byte_3SL | Extreme48Byte_3SLShort | Extreme48Byte_3SLShortGreedy
| Extreme48Byte_7SL | Extreme48Byte_7SLShort | Extreme48Byte_7SLShortGreedy | Extreme64Sym | Extreme64SymShort
| Extreme64SymPacked | Extreme64Sym_1SLShort | Extreme64Sym_3SL | Extreme64Sym_3SLShort | Extreme64Sym_7SL
| Extreme64Sym_7SLShort | Extreme64Byte | Extreme64ByteShort | Extreme64BytePacked | Extreme64Byte_1SLShort
| Extreme64Byte_1SLShortGreedy | Extreme64Byte_3SL | Extreme64Byte_3SLShort | Extreme64Byte_3SLShortGreedy
| Extreme64Byte_7SL | Extreme64Byte_7SLShort | Extreme64Byte_7SLShortGreedy | Extreme128Sym | Extreme128SymPacked
| Extreme128Byte | Extreme128BytePacked | Rle8SH | Extreme8MultiMTF128 | LowEntropy | LowEntropySingle
| LowEntropyShort | LowEntropyShortSingle | MultiMTF128 | MultiMTF256 | BitMultiMTF8 | BitMultiMTF16 | MemCopy.

(** The enumerators in their order; the value of an enumerator is its position. *)
Definition all_codecs : list codec_t :=
  [Extreme8; Extreme8Short; Extreme8Packed; Extreme8_1SLShort; Extreme8_3SL; Extreme8_3SLShort; Extreme8_7SL;
   Extreme8_7SLShort; Extreme8Single; Extreme8SingleShort; Extreme8PackedSingle; Extreme16Sym; Extreme16SymShort;
   Extreme16SymPacked; Extreme16Sym_1SLShort; Extreme16Sym_3SL; Extreme16Sym_3SLShort; Extreme16Sym_7SL;
   Extreme16Sym_7SLShort; Extreme16Byte; Extreme16ByteShort; Extreme16BytePacked; Extreme16Byte_1SLShort;
   Extreme16Byte_1SLShortGreedy; Extreme16Byte_3SL; Extreme16Byte_3SLShort; Extreme16Byte_3SLShortGreedy;
   Extreme16Byte_7SL; Extreme16Byte_7SLShort; Extreme16Byte_7SLShortGreedy; Extreme24Sym; Extreme24SymShort;
   Extreme24SymPacked; Extreme24Sym_1SLShort; Extreme24Sym_3SL; Extreme24Sym_3SLShort; Extreme24Sym_7SL;
   Extreme24Sym_7SLShort; Extreme24Byte; Extreme24ByteShort; Extreme24BytePacked; Extreme24Byte_1SLShort;
   Extreme24Byte_1SLShortGreedy; Extreme24Byte_3SL; Extreme24Byte_3SLShort; Extreme24Byte_3SLShortGreedy;
   Extreme24Byte_7SL; Extreme24Byte_7SLShort; Extreme24Byte_7SLShortGreedy; Extreme32Sym; Extreme32SymShort;
   Extreme32SymPacked; Extreme32Sym_1SLShort; Extreme32Sym_3SL; Extreme32Sym_3SLShort; Extreme32Sym_7SL;
   Extreme32Sym_7SLShort; Extreme32Byte; Extreme32ByteShort; Extreme32BytePacked; Extreme32Byte_1SLShort;
   Extreme32Byte_1SLShortGreedy; Extreme32Byte_3SL; Extreme32Byte_3SLShort; Extreme32Byte_3SLShortGreedy;
   Extreme32Byte_7SL; Extreme32Byte_7SLShort; Extreme32Byte_7SLShortGreedy; Extreme48Sym; Extreme48SymShort;
   Extreme48SymPacked; Extreme48Sym_1SLShort; Extreme48Sym_3SL; Extreme48Sym_3SLShort; Extreme48Sym_7SL;
   Extreme48Sym_7SLShort; Extreme48Byte; Extreme48ByteShort; Extreme48BytePacked; Extreme48Byte_1SLShort;
   Extreme48Byte_1SLShortGreedy; Extreme48Byte_3SL; Extreme48Byte_3SLShort; Extreme48Byte_3SLShortGreedy;
   Extreme48Byte_7SL; Extreme48Byte_7SLShort; Extreme48Byte_7SLShortGreedy; Extreme64Sym; Extreme64SymShort;
   Extreme64SymPacked; Extreme64Sym_1SLShort; Extreme64Sym_3SL; Extreme64Sym_3SLShort; Extreme64Sym_7SL;
   Extreme64Sym_7SLShort; Extreme64Byte; Extreme64ByteShort; Extreme64BytePacked; Extreme64Byte_1SLShort;
   Extreme64Byte_1SLShortGreedy; Extreme64Byte_3SL; Extreme64Byte_3SLShort; Extreme64Byte_3SLShortGreedy;
   Extreme64Byte_7SL; Extreme64Byte_7SLShort; Extreme64Byte_7SLShortGreedy; Extreme128Sym; Extreme128SymPacked;
   Extreme128Byte; Extreme128BytePacked; Rle8SH; Extreme8MultiMTF128; LowEntropy; LowEntropySingle; LowEntropyShort;
   LowEntropyShortSingle; MultiMTF128; MultiMTF256; BitMultiMTF8; BitMultiMTF16; MemCopy].
Definition codec_value (c : codec_t) : Z :=
  match c with
  | Extreme8 => 0 | Extreme8Short => 1 | Extreme8Packed => 2 | Extreme8_1SLShort => 3 | Extreme8_3SL => 4
  | Extreme8_3SLShort => 5 | Extreme8_7SL => 6 | Extreme8_7SLShort => 7 | Extreme8Single => 8
  | Extreme8SingleShort => 9 | Extreme8PackedSingle => 10 | Extreme16Sym => 11 | Extreme16SymShort => 12
  | Extreme16SymPacked => 13 | Extreme16Sym_1SLShort => 14 | Extreme16Sym_3SL => 15 | Extreme16Sym_3SLShort => 16
  | Extreme16Sym_7SL => 17 | Extreme16Sym_7SLShort => 18 | Extreme16Byte => 19 | Extreme16ByteShort => 20
  | Extreme16BytePacked => 21 | Extreme16Byte_1SLShort => 22 | Extreme16Byte_1SLShortGreedy => 23
  | Extreme16Byte_3SL => 24 | Extreme16Byte_3SLShort => 25 | Extreme16Byte_3SLShortGreedy => 26
  | Extreme16Byte_7SL => 27 | Extreme16Byte_7SLShort => 28 | Extreme16Byte_7SLShortGreedy => 29 | Extreme24Sym => 30
  | Extreme24SymShort => 31 | Extreme24SymPacked => 32 | Extreme24Sym_1SLShort => 33 | Extreme24Sym_3SL => 34
  | Extreme24Sym_3SLShort => 35 | Extreme24Sym_7SL => 36 | Extreme24Sym_7SLShort => 37 | Extreme24Byte => 38
  | Extreme24ByteShort => 39 | Extreme24BytePacked => 40 | Extreme24Byte_1SLShort => 41
  | Extreme24Byte_1SLShortGreedy => 42 | Extreme24Byte_3SL => 43 | Extreme24Byte_3SLShort => 44
  | Extreme24Byte_3SLShortGreedy => 45 | Extreme24Byte_7SL => 46 | Extreme24Byte_7SLShort => 47
  | Extreme24Byte_7SLShortGreedy => 48 | Extreme32Sym => 49 | Extreme32SymShort => 50 | Extreme32SymPacked => 51
  | Extreme32Sym_1SLShort => 52 | Extreme32Sym_3SL => 53 | Extreme32Sym_3SLShort => 54 | Extreme32Sym_7SL => 55
  | Extreme32Sym_7SLShort => 56 | Extreme32Byte => 57 | Extreme32ByteShort => 58 | Extreme32BytePacked => 59
  | Extreme32Byte_1SLShort => 60 | Extreme32Byte_1SLShortGreedy => 61 | Extreme32Byte_3SL => 62
  | Extreme32Byte_3SLShort => 63 | Extreme32Byte_3SLShortGreedy => 64 | Extreme32Byte_7SL => 65
  | Extreme32Byte_7SLShort => 66 | Extreme32Byte_7SLShortGreedy => 67 | Extreme48Sym => 68 | Extreme48SymShort => 69
  | Extreme48SymPacked => 70 | Extreme48Sym_1SLShort => 71 | Extreme48Sym_3SL => 72 | Extreme48Sym_3SLShort => 73
  | Extreme48Sym_7SL => 74 | Extreme48Sym_7SLShort => 75 | Extreme48Byte => 76 | Extreme48ByteShort => 77
  | Extreme48BytePacked => 78 | Extreme48Byte_1SLShort => 79 | Extreme48Byte_1SLShortGreedy => 80
  | Extreme48Byte_3SL => 81 | Extreme48Byte_3SLShort => 82 | Extreme48Byte_3SLShortGreedy => 83
  | Extreme48Byte_7SL => 84 | Extreme48Byte_7SLShort => 85 | Extreme48Byte_7SLShortGreedy => 86 | Extreme64Sym => 87
  | Extreme64SymShort => 88 | Extreme64SymPacked => 89 | Extreme64Sym_1SLShort => 90 | Extreme64Sym_3SL => 91
  | Extreme64Sym_3SLShort => 92 | Extreme64Sym_7SL => 93 | Extreme64Sym_7SLShort => 94 | Extreme64Byte => 95
  | Extreme64ByteShort => 96 | Extreme64BytePacked => 97 | Extreme64Byte_1SLShort => 98
  | Extreme64Byte_1SLShortGreedy => 99 | Extreme64Byte_3SL => 100 | Extreme64Byte_3SLShort => 101
  | Extreme64Byte_3SLShortGreedy => 102 | Extreme64Byte_7SL => 103 | Extreme64Byte_7SLShort => 104
  | Extreme64Byte_7SLShortGreedy => 105 | Extreme128Sym => 106 | Extreme128SymPacked => 107 | Extreme128Byte => 108
  | Extreme128BytePacked => 109 | Rle8SH => 110 | Extreme8MultiMTF128 => 111 | LowEntropy => 112
  | LowEntropySingle => 113 | LowEntropyShort => 114 | LowEntropyShortSingle => 115 | MultiMTF128 => 116
  | MultiMTF256 => 117 | BitMultiMTF8 => 118 | BitMultiMTF16 => 119 | MemCopy => 120
  end.

(** codecNames, l.135-258, without the blanks at the end that align the output. *)
Definition codec_name (c : codec_t) : string :=
  match c with
  | Extreme8 => "8 Bit"
  | Extreme8Short => "8 Bit Short"
  | Extreme8Packed => "8 Bit Packed"
  | Extreme8_1SLShort => "8 Bit 1LUT Short"
  | Extreme8_3SL => "8 Bit 3LUT"
  | Extreme8_3SLShort => "8 Bit 3LUT Short"
  | Extreme8_7SL => "8 Bit 7LUT"
  | Extreme8_7SLShort => "8 Bit 7LUT Short"
  | Extreme8Single => "8 Bit Single"
  | Extreme8SingleShort => "8 Bit Single Short"
  | Extreme8PackedSingle => "8 Bit Single Packed"
  | Extreme16Sym => "16 Bit (Symbol)"
  | Extreme16SymShort => "16 Bit Short (Symbol)"
  | Extreme16SymPacked => "16 Bit Packed (Symbol)"
  | Extreme16Sym_1SLShort => "16 Bit 1LUT Short (Symbol)"
  | Extreme16Sym_3SL => "16 Bit 3LUT (Symbol)"
  | Extreme16Sym_3SLShort => "16 Bit 3LUT Short (Symbol)"
  | Extreme16Sym_7SL => "16 Bit 7LUT (Symbol)"
  | Extreme16Sym_7SLShort => "16 Bit 7LUT Short (Symbol)"
  | Extreme16Byte => "16 Bit (Byte)"
  | Extreme16ByteShort => "16 Bit Short (Byte)"
  | Extreme16BytePacked => "16 Bit Packed (Byte)"
  | Extreme16Byte_1SLShort => "16 Bit 1LUT Short (Byte)"
  | Extreme16Byte_1SLShortGreedy => "16 Bit 1LUT Short Grdy (Byte)"
  | Extreme16Byte_3SL => "16 Bit 3LUT (Byte)"
  | Extreme16Byte_3SLShort => "16 Bit 3LUT Short (Byte)"
  | Extreme16Byte_3SLShortGreedy => "16 Bit 3LUT Short Grdy (Byte)"
  | Extreme16Byte_7SL => "16 Bit 7LUT (Byte)"
  | Extreme16Byte_7SLShort => "16 Bit 7LUT Short (Byte)"
  | Extreme16Byte_7SLShortGreedy => "16 Bit 7LUT Short Grdy (Byte)"
  | Extreme24Sym => "24 Bit (Symbol)"
  | Extreme24SymShort => "24 Bit Short (Symbol)"
  | Extreme24SymPacked => "24 Bit Packed (Symbol)"
  | Extreme24Sym_1SLShort => "24 Bit 1LUT Short (Symbol)"
  | Extreme24Sym_3SL => "24 Bit 3LUT (Symbol)"
  | Extreme24Sym_3SLShort => "24 Bit 3LUT Short (Symbol)"
  | Extreme24Sym_7SL => "24 Bit 7LUT (Symbol)"
  | Extreme24Sym_7SLShort => "24 Bit 7LUT Short (Symbol)"
  | Extreme24Byte => "24 Bit (Byte)"
  | Extreme24ByteShort => "24 Bit Short (Byte)"
  | Extreme24BytePacked => "24 Bit Packed (Byte)"
  | Extreme24Byte_1SLShort => "24 Bit 1LUT Short (Byte)"
  | Extreme24Byte_1SLShortGreedy => "24 Bit 1LUT Short Grdy (Byte)"
  | Extreme24Byte_3SL => "24 Bit 3LUT (Byte)"
  | Extreme24Byte_3SLShort => "24 Bit 3LUT Short (Byte)"
  | Extreme24Byte_3SLShortGreedy => "24 Bit 3LUT Short Grdy (Byte)"
  | Extreme24Byte_7SL => "24 Bit 7LUT (Byte)"
  | Extreme24Byte_7SLShort => "24 Bit 7LUT Short (Byte)"
  | Extreme24Byte_7SLShortGreedy => "24 Bit 7LUT Short Grdy (Byte)"
  | Extreme32Sym => "32 Bit (Symbol)"
  | Extreme32SymShort => "32 Bit Short (Symbol)"
  | Extreme32SymPacked => "32 Bit Packed (Symbol)"
  | Extreme32Sym_1SLShort => "32 Bit 1LUT Short (Symbol)"
  | Extreme32Sym_3SL => "32 Bit 3LUT (Symbol)"
  | Extreme32Sym_3SLShort => "32 Bit 3LUT Short (Symbol)"
  | Extreme32Sym_7SL => "32 Bit 7LUT (Symbol)"
  | Extreme32Sym_7SLShort => "32 Bit 7LUT Short (Symbol)"
  | Extreme32Byte => "32 Bit (Byte)"
  | Extreme32ByteShort => "32 Bit Short (Byte)"
  | Extreme32BytePacked => "32 Bit Packed (Byte)"
  | Extreme32Byte_1SLShort => "32 Bit 1LUT Short (Byte)"
  | Extreme32Byte_1SLShortGreedy => "32 Bit 1LUT Short Grdy (Byte)"
  | Extreme32Byte_3SL => "32 Bit 3LUT (Byte)"
  | Extreme32Byte_3SLShort => "32 Bit 3LUT Short (Byte)"
  | Extreme32Byte_3SLShortGreedy => "32 Bit 3LUT Short Grdy (Byte)"
  | Extreme32Byte_7SL => "32 Bit 7LUT (Byte)"
  | Extreme32Byte_7SLShort => "32 Bit 7LUT Short (Byte)"
  | Extreme32Byte_7SLShortGreedy => "32 Bit 7LUT Short Grdy (Byte)"
  | Extreme48Sym => "48 Bit (Symbol)"
  | Extreme48SymShort => "48 Bit Short (Symbol)"
  | Extreme48SymPacked => "48 Bit Packed (Symbol)"
  | Extreme48Sym_1SLShort => "48 Bit 1LUT Short (Symbol)"
  | Extreme48Sym_3SL => "48 Bit 3LUT (Symbol)"
  | Extreme48Sym_3SLShort => "48 Bit 3LUT Short (Symbol)"
  | Extreme48Sym_7SL => "48 Bit 7LUT (Symbol)"
  | Extreme48Sym_7SLShort => "48 Bit 7LUT Short (Symbol)"
  | Extreme48Byte => "48 Bit (Byte)"
  | Extreme48ByteShort => "48 Bit Short (Byte)"
  | Extreme48BytePacked => "48 Bit Packed (Byte)"
  | Extreme48Byte_1SLShort => "48 Bit 1LUT Short (Byte)"
  | Extreme48Byte_1SLShortGreedy => "48 Bit 1LUT Short Grdy (Byte)"
  | Extreme48Byte_3SL => "48 Bit 3LUT (Byte)"
  | Extreme48Byte_3SLShort => "48 Bit 3LUT Short (Byte)"
  | Extreme48Byte_3SLShortGreedy => "48 Bit 3LUT Short Grdy (Byte)"
  | Extreme48Byte_7SL => "48 Bit 7LUT (Byte)"
  | Extreme48Byte_7SLShort => "48 Bit 7LUT Short (Byte)"
  | Extreme48Byte_7SLShortGreedy => "48 Bit 7LUT Short Grdy (Byte)"
  | Extreme64Sym => "64 Bit (Symbol)"
  | Extreme64SymShort => "64 Bit Short (Symbol)"
  | Extreme64SymPacked => "64 Bit Packed (Symbol)"
  | Extreme64Sym_1SLShort => "64 Bit 1LUT Short (Symbol)"
  | Extreme64Sym_3SL => "64 Bit 3LUT (Symbol)"
  | Extreme64Sym_3SLShort => "64 Bit 3LUT Short (Symbol)"
  | Extreme64Sym_7SL => "64 Bit 7LUT (Symbol)"
  | Extreme64Sym_7SLShort => "64 Bit 7LUT Short (Symbol)"
  | Extreme64Byte => "64 Bit (Byte)"
  | Extreme64ByteShort => "64 Bit Short (Byte)"
  | Extreme64BytePacked => "64 Bit Packed (Byte)"
  | Extreme64Byte_1SLShort => "64 Bit 1LUT Short (Byte)"
  | Extreme64Byte_1SLShortGreedy => "64 Bit 1LUT Short Grdy (Byte)"
  | Extreme64Byte_3SL => "64 Bit 3LUT (Byte)"
  | Extreme64Byte_3SLShort => "64 Bit 3LUT Short (Byte)"
  | Extreme64Byte_3SLShortGreedy => "64 Bit 3LUT Short Grdy (Byte)"
  | Extreme64Byte_7SL => "64 Bit 7LUT (Byte)"
  | Extreme64Byte_7SLShort => "64 Bit 7LUT Short (Byte)"
  | Extreme64Byte_7SLShortGreedy => "64 Bit 7LUT Short Grdy (Byte)"
  | Extreme128Sym => "128 Bit (Symbol)"
  | Extreme128SymPacked => "128 Bit Packed (Symbol)"
  | Extreme128Byte => "128 Bit (Byte)"
  | Extreme128BytePacked => "128 Bit Packed (Byte)"
  | Rle8SH => "8 Bit RLE + Huffman-esque"
  | Extreme8MultiMTF128 => "8 Bit MMTF 128"
  | LowEntropy => "Low Entropy"
  | LowEntropySingle => "Low Entropy Single"
  | LowEntropyShort => "Low Entropy Short"
  | LowEntropyShortSingle => "Low Entropy Short Single"
  | MultiMTF128 => "Multi MTF 128 Bit (Transform)"
  | MultiMTF256 => "Multi MTF 256 Bit (Transform)"
  | BitMultiMTF8 => "Bit MMTF 8 Bit (Transform)"
  | BitMultiMTF16 => "Bit MMTF 16 Bit (Transform)"
  | MemCopy => "memcpy"
  end.

(** codecCallbacks, l.270-410: the identifiers of the two functions ([None]: NULL). *)
Definition callbacks (c : codec_t) : option (string * string) :=
  match c with
  | Extreme8 => Some ("rle8_multi_compress", "rle8_decompress")
  | Extreme8Short => Some ("rle8_multi_short_compress", "rle8_multi_short_decompress")
  | Extreme8Packed => Some ("rle8_packed_multi_compress", "rle8_packed_decompress")
  | Extreme8_1SLShort => Some ("rle8_1symlut_short_compress", "rle8_1symlut_short_decompress")
  | Extreme8_3SL => Some ("rle8_3symlut_compress", "rle8_3symlut_decompress")
  | Extreme8_3SLShort => Some ("rle8_3symlut_short_compress", "rle8_3symlut_short_decompress")
  | Extreme8_7SL => Some ("rle8_7symlut_compress", "rle8_7symlut_decompress")
  | Extreme8_7SLShort => Some ("rle8_7symlut_short_compress", "rle8_7symlut_short_decompress")
  | Extreme8Single => Some ("rle8_single_compress", "rle8_decompress")
  | Extreme8SingleShort => Some ("rle8_single_short_compress", "rle8_single_short_decompress")
  | Extreme8PackedSingle => Some ("rle8_packed_single_compress", "rle8_packed_decompress")
  | Extreme16Sym => Some ("rle16_sym_compress", "rle16_sym_decompress")
  | Extreme16SymShort => Some ("rle16_sym_short_compress", "rle16_sym_short_decompress")
  | Extreme16SymPacked => Some ("rle16_sym_packed_compress", "rle16_sym_packed_decompress")
  | Extreme16Sym_1SLShort => Some ("rle16_1symlut_sym_short_compress", "rle16_1symlut_sym_short_decompress")
  | Extreme16Sym_3SL => Some ("rle16_3symlut_sym_compress", "rle16_3symlut_sym_decompress")
  | Extreme16Sym_3SLShort => Some ("rle16_3symlut_sym_short_compress", "rle16_3symlut_sym_short_decompress")
  | Extreme16Sym_7SL => Some ("rle16_7symlut_sym_compress", "rle16_7symlut_sym_decompress")
  | Extreme16Sym_7SLShort => Some ("rle16_7symlut_sym_short_compress", "rle16_7symlut_sym_short_decompress")
  | Extreme16Byte => Some ("rle16_byte_compress", "rle16_byte_decompress")
  | Extreme16ByteShort => Some ("rle16_byte_short_compress", "rle16_byte_short_decompress")
  | Extreme16BytePacked => Some ("rle16_byte_packed_compress", "rle16_byte_packed_decompress")
  | Extreme16Byte_1SLShort => Some ("rle16_1symlut_byte_short_compress", "rle16_1symlut_byte_short_decompress")
  | Extreme16Byte_1SLShortGreedy => Some ("rle16_1symlut_byte_short_compress_greedy", "rle16_1symlut_byte_short_decompress")
  | Extreme16Byte_3SL => Some ("rle16_3symlut_byte_compress", "rle16_3symlut_byte_decompress")
  | Extreme16Byte_3SLShort => Some ("rle16_3symlut_byte_short_compress", "rle16_3symlut_byte_short_decompress")
  | Extreme16Byte_3SLShortGreedy => Some ("rle16_3symlut_byte_short_compress_greedy", "rle16_3symlut_byte_short_decompress")
  | Extreme16Byte_7SL => Some ("rle16_7symlut_byte_compress", "rle16_7symlut_byte_decompress")
  | Extreme16Byte_7SLShort => Some ("rle16_7symlut_byte_short_compress", "rle16_7symlut_byte_short_decompress")
  | Extreme16Byte_7SLShortGreedy => Some ("rle16_7symlut_byte_short_compress_greedy", "rle16_7symlut_byte_short_decompress")
  | Extreme24Sym => Some ("rle24_sym_compress", "rle24_sym_decompress")
  | Extreme24SymShort => Some ("rle24_sym_short_compress", "rle24_sym_short_decompress")
  | Extreme24SymPacked => Some ("rle24_sym_packed_compress", "rle24_sym_packed_decompress")
  | Extreme24Sym_1SLShort => Some ("rle24_1symlut_sym_short_compress", "rle24_1symlut_sym_short_decompress")
  | Extreme24Sym_3SL => Some ("rle24_3symlut_sym_compress", "rle24_3symlut_sym_decompress")
  | Extreme24Sym_3SLShort => Some ("rle24_3symlut_sym_short_compress", "rle24_3symlut_sym_short_decompress")
  | Extreme24Sym_7SL => Some ("rle24_7symlut_sym_compress", "rle24_7symlut_sym_decompress")
  | Extreme24Sym_7SLShort => Some ("rle24_7symlut_sym_short_compress", "rle24_7symlut_sym_short_decompress")
  | Extreme24Byte => Some ("rle24_byte_compress", "rle24_byte_decompress")
  | Extreme24ByteShort => Some ("rle24_byte_short_compress", "rle24_byte_short_decompress")
  | Extreme24BytePacked => Some ("rle24_byte_packed_compress", "rle24_byte_packed_decompress")
  | Extreme24Byte_1SLShort => Some ("rle24_1symlut_byte_short_compress", "rle24_1symlut_byte_short_decompress")
  | Extreme24Byte_1SLShortGreedy => Some ("rle24_1symlut_byte_short_compress_greedy", "rle24_1symlut_byte_short_decompress")
  | Extreme24Byte_3SL => Some ("rle24_3symlut_byte_compress", "rle24_3symlut_byte_decompress")
  | Extreme24Byte_3SLShort => Some ("rle24_3symlut_byte_short_compress", "rle24_3symlut_byte_short_decompress")
  | Extreme24Byte_3SLShortGreedy => Some ("rle24_3symlut_byte_short_compress_greedy", "rle24_3symlut_byte_short_decompress")
  | Extreme24Byte_7SL => Some ("rle24_7symlut_byte_compress", "rle24_7symlut_byte_decompress")
  | Extreme24Byte_7SLShort => Some ("rle24_7symlut_byte_short_compress", "rle24_7symlut_byte_short_decompress")
  | Extreme24Byte_7SLShortGreedy => Some ("rle24_7symlut_byte_short_compress_greedy", "rle24_7symlut_byte_short_decompress")
  | Extreme32Sym => Some ("rle32_sym_compress", "rle32_sym_decompress")
  | Extreme32SymShort => Some ("rle32_sym_short_compress", "rle32_sym_short_decompress")
  | Extreme32SymPacked => Some ("rle32_sym_packed_compress", "rle32_sym_packed_decompress")
  | Extreme32Sym_1SLShort => Some ("rle32_1symlut_sym_short_compress", "rle32_1symlut_sym_short_decompress")
  | Extreme32Sym_3SL => Some ("rle32_3symlut_sym_compress", "rle32_3symlut_sym_decompress")
  | Extreme32Sym_3SLShort => Some ("rle32_3symlut_sym_short_compress", "rle32_3symlut_sym_short_decompress")
  | Extreme32Sym_7SL => Some ("rle32_7symlut_sym_compress", "rle32_7symlut_sym_decompress")
  | Extreme32Sym_7SLShort => Some ("rle32_7symlut_sym_short_compress", "rle32_7symlut_sym_short_decompress")
  | Extreme32Byte => Some ("rle32_byte_compress", "rle32_byte_decompress")
  | Extreme32ByteShort => Some ("rle32_byte_short_compress", "rle32_byte_short_decompress")
  | Extreme32BytePacked => Some ("rle32_byte_packed_compress", "rle32_byte_packed_decompress")
  | Extreme32Byte_1SLShort => Some ("rle32_1symlut_byte_short_compress", "rle32_1symlut_byte_short_decompress")
  | Extreme32Byte_1SLShortGreedy => Some ("rle32_1symlut_byte_short_compress_greedy", "rle32_1symlut_byte_short_decompress")
  | Extreme32Byte_3SL => Some ("rle32_3symlut_byte_compress", "rle32_3symlut_byte_decompress")
  | Extreme32Byte_3SLShort => Some ("rle32_3symlut_byte_short_compress", "rle32_3symlut_byte_short_decompress")
  | Extreme32Byte_3SLShortGreedy => Some ("rle32_3symlut_byte_short_compress_greedy", "rle32_3symlut_byte_short_decompress")
  | Extreme32Byte_7SL => Some ("rle32_7symlut_byte_compress", "rle32_7symlut_byte_decompress")
  | Extreme32Byte_7SLShort => Some ("rle32_7symlut_byte_short_compress", "rle32_7symlut_byte_short_decompress")
  | Extreme32Byte_7SLShortGreedy => Some ("rle32_7symlut_byte_short_compress_greedy", "rle32_7symlut_byte_short_decompress")
  | Extreme48Sym => Some ("rle48_sym_compress", "rle48_sym_decompress")
  | Extreme48SymShort => Some ("rle48_sym_short_compress", "rle48_sym_short_decompress")
  | Extreme48SymPacked => Some ("rle48_sym_packed_compress", "rle48_sym_packed_decompress")
  | Extreme48Sym_1SLShort => Some ("rle48_1symlut_sym_short_compress", "rle48_1symlut_sym_short_decompress")
  | Extreme48Sym_3SL => Some ("rle48_3symlut_sym_compress", "rle48_3symlut_sym_decompress")
  | Extreme48Sym_3SLShort => Some ("rle48_3symlut_sym_short_compress", "rle48_3symlut_sym_short_decompress")
  | Extreme48Sym_7SL => Some ("rle48_7symlut_sym_compress", "rle48_7symlut_sym_decompress")
  | Extreme48Sym_7SLShort => Some ("rle48_7symlut_sym_short_compress", "rle48_7symlut_sym_short_decompress")
  | Extreme48Byte => Some ("rle48_byte_compress", "rle48_byte_decompress")
  | Extreme48ByteShort => Some ("rle48_byte_short_compress", "rle48_byte_short_decompress")
  | Extreme48BytePacked => Some ("rle48_byte_packed_compress", "rle48_byte_packed_decompress")
  | Extreme48Byte_1SLShort => Some ("rle48_1symlut_byte_short_compress", "rle48_1symlut_byte_short_decompress")
  | Extreme48Byte_1SLShortGreedy => Some ("rle48_1symlut_byte_short_compress_greedy", "rle48_1symlut_byte_short_decompress")
  | Extreme48Byte_3SL => Some ("rle48_3symlut_byte_compress", "rle48_3symlut_byte_decompress")
  | Extreme48Byte_3SLShort => Some ("rle48_3symlut_byte_short_compress", "rle48_3symlut_byte_short_decompress")
  | Extreme48Byte_3SLShortGreedy => Some ("rle48_3symlut_byte_short_compress_greedy", "rle48_3symlut_byte_short_decompress")
  | Extreme48Byte_7SL => Some ("rle48_7symlut_byte_compress", "rle48_7symlut_byte_decompress")
  | Extreme48Byte_7SLShort => Some ("rle48_7symlut_byte_short_compress", "rle48_7symlut_byte_short_decompress")
  | Extreme48Byte_7SLShortGreedy => Some ("rle48_7symlut_byte_short_compress_greedy", "rle48_7symlut_byte_short_decompress")
  | Extreme64Sym => Some ("rle64_sym_compress", "rle64_sym_decompress")
  | Extreme64SymShort => Some ("rle64_sym_short_compress", "rle64_sym_short_decompress")
  | Extreme64SymPacked => Some ("rle64_sym_packed_compress", "rle64_sym_packed_decompress")
  | Extreme64Sym_1SLShort => Some ("rle64_1symlut_sym_short_compress", "rle64_1symlut_sym_short_decompress")
  | Extreme64Sym_3SL => Some ("rle64_3symlut_sym_compress", "rle64_3symlut_sym_decompress")
  | Extreme64Sym_3SLShort => Some ("rle64_3symlut_sym_short_compress", "rle64_3symlut_sym_short_decompress")
  | Extreme64Sym_7SL => Some ("rle64_7symlut_sym_compress", "rle64_7symlut_sym_decompress")
  | Extreme64Sym_7SLShort => Some ("rle64_7symlut_sym_short_compress", "rle64_7symlut_sym_short_decompress")
  | Extreme64Byte => Some ("rle64_byte_compress", "rle64_byte_decompress")
  | Extreme64ByteShort => Some ("rle64_byte_short_compress", "rle64_byte_short_decompress")
  | Extreme64BytePacked => Some ("rle64_byte_packed_compress", "rle64_byte_packed_decompress")
  | Extreme64Byte_1SLShort => Some ("rle64_1symlut_byte_short_compress", "rle64_1symlut_byte_short_decompress")
  | Extreme64Byte_1SLShortGreedy => Some ("rle64_1symlut_byte_short_compress_greedy", "rle64_1symlut_byte_short_decompress")
  | Extreme64Byte_3SL => Some ("rle64_3symlut_byte_compress", "rle64_3symlut_byte_decompress")
  | Extreme64Byte_3SLShort => Some ("rle64_3symlut_byte_short_compress", "rle64_3symlut_byte_short_decompress")
  | Extreme64Byte_3SLShortGreedy => Some ("rle64_3symlut_byte_short_compress_greedy", "rle64_3symlut_byte_short_decompress")
  | Extreme64Byte_7SL => Some ("rle64_7symlut_byte_compress", "rle64_7symlut_byte_decompress")
  | Extreme64Byte_7SLShort => Some ("rle64_7symlut_byte_short_compress", "rle64_7symlut_byte_short_decompress")
  | Extreme64Byte_7SLShortGreedy => Some ("rle64_7symlut_byte_short_compress_greedy", "rle64_7symlut_byte_short_decompress")
  | Extreme128Sym => Some ("rle128_sym_compress", "rle128_sym_decompress")
  | Extreme128SymPacked => Some ("rle128_sym_packed_compress", "rle128_sym_packed_decompress")
  | Extreme128Byte => Some ("rle128_byte_compress", "rle128_byte_decompress")
  | Extreme128BytePacked => Some ("rle128_byte_packed_compress", "rle128_byte_packed_decompress")
  | Rle8SH => Some ("rle8_sh_compress", "rle8_sh_decompress")
  | Extreme8MultiMTF128 => Some ("rle8_mmtf128_compress", "rle8_mmtf128_decompress")
  | LowEntropy => Some ("rle8_low_entropy_compress", "rle8_low_entropy_decompress")
  | LowEntropySingle => Some ("rle8_low_entropy_compress_only_max_frequency", "rle8_low_entropy_decompress")
  | LowEntropyShort => Some ("rle8_low_entropy_short_compress", "rle8_low_entropy_short_decompress")
  | LowEntropyShortSingle => Some ("rle8_low_entropy_short_compress_only_max_frequency", "rle8_low_entropy_short_decompress")
  | MultiMTF128 => Some ("mmtf128_encode", "mmtf128_decode")
  | MultiMTF256 => Some ("mmtf256_encode", "mmtf256_decode")
  | BitMultiMTF8 => Some ("bitmmtf8_encode", "bitmmtf8_decode")
  | BitMultiMTF16 => Some ("bitmmtf16_encode", "bitmmtf16_decode")
  | MemCopy => None
  end.

(** _Args, main.c l.69-81. *)
Record args := mkArgs {
  a_hasMode : bool; a_extreme : bool; a_lowEntropy : bool; a_sh : bool; a_rleMmtf : bool; a_mmtf : bool;
  a_hasShort : bool; a_short : bool; a_hasSingle : bool; a_single : bool; a_hasAlignment : bool; a_byte : bool;
  a_hasPacked : bool; a_packed : bool; a_hasGreedy : bool; a_greedy : bool; a_hasLut : bool; a_lut : Z;
  a_hasBits : bool; a_bits : Z }.

(** CodecMatchesArgs, l.1690-2257.  Each block is one function; [true]: the block does not return false. *)

Definition match_mode (a : args) (c : codec_t) : bool :=
  if a_extreme a && ((codec_value Extreme128BytePacked <? codec_value c) || (codec_value c <? codec_value Extreme8)) then false
  else if a_lowEntropy a && ((codec_value c <? codec_value LowEntropy) || (codec_value LowEntropyShortSingle <? codec_value c)) then false
  else if a_mmtf a && negb (codec_value c =? codec_value MultiMTF128) && negb (codec_value c =? codec_value MultiMTF256) &&
      negb (codec_value c =? codec_value BitMultiMTF8) && negb (codec_value c =? codec_value BitMultiMTF16) then false
  else if a_sh a && negb (codec_value c =? codec_value Rle8SH) then false
  else if a_rleMmtf a && negb (codec_value c =? codec_value Extreme8MultiMTF128) then false
  else true.

(** l.1710-1825 *)
Definition match_alignment (a : args) (c : codec_t) : bool :=
  match c with
  | Extreme16Sym | Extreme16SymShort | Extreme16SymPacked | Extreme16Sym_1SLShort | Extreme16Sym_3SL
  | Extreme16Sym_3SLShort | Extreme16Sym_7SL | Extreme16Sym_7SLShort | Extreme24Sym | Extreme24SymShort
  | Extreme24SymPacked | Extreme24Sym_1SLShort | Extreme24Sym_3SL | Extreme24Sym_3SLShort | Extreme24Sym_7SL
  | Extreme24Sym_7SLShort | Extreme32Sym | Extreme32SymShort | Extreme32SymPacked | Extreme32Sym_1SLShort
  | Extreme32Sym_3SL | Extreme32Sym_3SLShort | Extreme32Sym_7SL | Extreme32Sym_7SLShort | Extreme48Sym
  | Extreme48SymShort | Extreme48SymPacked | Extreme48Sym_1SLShort | Extreme48Sym_3SL | Extreme48Sym_3SLShort
  | Extreme48Sym_7SL | Extreme48Sym_7SLShort | Extreme64Sym | Extreme64SymShort | Extreme64SymPacked
  | Extreme64Sym_1SLShort | Extreme64Sym_3SL | Extreme64Sym_3SLShort | Extreme64Sym_7SL | Extreme64Sym_7SLShort
  | Extreme128Sym | Extreme128SymPacked =>
      negb (a_byte a)
  | Extreme16Byte | Extreme16ByteShort | Extreme16BytePacked | Extreme16Byte_1SLShort | Extreme16Byte_1SLShortGreedy
  | Extreme16Byte_3SL | Extreme16Byte_3SLShort | Extreme16Byte_3SLShortGreedy | Extreme16Byte_7SL
  | Extreme16Byte_7SLShort | Extreme16Byte_7SLShortGreedy | Extreme24Byte | Extreme24ByteShort | Extreme24BytePacked
  | Extreme24Byte_1SLShort | Extreme24Byte_1SLShortGreedy | Extreme24Byte_3SL | Extreme24Byte_3SLShort
  | Extreme24Byte_3SLShortGreedy | Extreme24Byte_7SL | Extreme24Byte_7SLShort | Extreme24Byte_7SLShortGreedy
  | Extreme32Byte | Extreme32ByteShort | Extreme32BytePacked | Extreme32Byte_1SLShort | Extreme32Byte_1SLShortGreedy
  | Extreme32Byte_3SL | Extreme32Byte_3SLShort | Extreme32Byte_3SLShortGreedy | Extreme32Byte_7SL
  | Extreme32Byte_7SLShort | Extreme32Byte_7SLShortGreedy | Extreme48Byte | Extreme48ByteShort | Extreme48BytePacked
  | Extreme48Byte_1SLShort | Extreme48Byte_1SLShortGreedy | Extreme48Byte_3SL | Extreme48Byte_3SLShort
  | Extreme48Byte_3SLShortGreedy | Extreme48Byte_7SL | Extreme48Byte_7SLShort | Extreme48Byte_7SLShortGreedy
  | Extreme64Byte | Extreme64ByteShort | Extreme64BytePacked | Extreme64Byte_1SLShort | Extreme64Byte_1SLShortGreedy
  | Extreme64Byte_3SL | Extreme64Byte_3SLShort | Extreme64Byte_3SLShortGreedy | Extreme64Byte_7SL
  | Extreme64Byte_7SLShort | Extreme64Byte_7SLShortGreedy | Extreme128Byte | Extreme128BytePacked =>
      a_byte a
  | _ =>
      false
  end.

(** l.1826-1851 *)
Definition match_single (a : args) (c : codec_t) : bool :=
  match c with
  | Extreme8Single | Extreme8SingleShort | Extreme8PackedSingle | LowEntropySingle | LowEntropyShortSingle =>
      a_single a
  | Rle8SH | Extreme8MultiMTF128 | MultiMTF128 | MultiMTF256 =>
      false
  | _ =>
      negb (a_single a)
  end.

(** l.1852-1880 *)
Definition match_packed (a : args) (c : codec_t) : bool :=
  match c with
  | Extreme8Packed | Extreme8PackedSingle | Extreme16SymPacked | Extreme16BytePacked | Extreme24SymPacked
  | Extreme24BytePacked | Extreme32SymPacked | Extreme32BytePacked | Extreme48SymPacked | Extreme48BytePacked
  | Extreme64SymPacked | Extreme64BytePacked | Extreme128SymPacked | Extreme128BytePacked =>
      a_packed a
  | _ =>
      negb (a_packed a)
  end.

(** l.1881-1957 *)
Definition match_short (a : args) (c : codec_t) : bool :=
  match c with
  | Extreme8Short | Extreme8_1SLShort | Extreme8_3SLShort | Extreme8_7SLShort | Extreme8SingleShort
  | Extreme16SymShort | Extreme16Sym_1SLShort | Extreme16Sym_3SLShort | Extreme16Sym_7SLShort | Extreme16ByteShort
  | Extreme16Byte_1SLShort | Extreme16Byte_1SLShortGreedy | Extreme16Byte_3SLShort | Extreme16Byte_3SLShortGreedy
  | Extreme16Byte_7SLShort | Extreme16Byte_7SLShortGreedy | Extreme24SymShort | Extreme24Sym_1SLShort
  | Extreme24Sym_3SLShort | Extreme24Sym_7SLShort | Extreme24ByteShort | Extreme24Byte_1SLShort
  | Extreme24Byte_1SLShortGreedy | Extreme24Byte_3SLShort | Extreme24Byte_3SLShortGreedy | Extreme24Byte_7SLShort
  | Extreme24Byte_7SLShortGreedy | Extreme32SymShort | Extreme32Sym_1SLShort | Extreme32Sym_3SLShort
  | Extreme32Sym_7SLShort | Extreme32ByteShort | Extreme32Byte_1SLShort | Extreme32Byte_1SLShortGreedy
  | Extreme32Byte_3SLShort | Extreme32Byte_3SLShortGreedy | Extreme32Byte_7SLShort | Extreme32Byte_7SLShortGreedy
  | Extreme48SymShort | Extreme48Sym_1SLShort | Extreme48Sym_3SLShort | Extreme48Sym_7SLShort | Extreme48ByteShort
  | Extreme48Byte_1SLShort | Extreme48Byte_1SLShortGreedy | Extreme48Byte_3SLShort | Extreme48Byte_3SLShortGreedy
  | Extreme48Byte_7SLShort | Extreme48Byte_7SLShortGreedy | Extreme64SymShort | Extreme64Sym_1SLShort
  | Extreme64Sym_3SLShort | Extreme64Sym_7SLShort | Extreme64ByteShort | Extreme64Byte_1SLShort
  | Extreme64Byte_1SLShortGreedy | Extreme64Byte_3SLShort | Extreme64Byte_3SLShortGreedy | Extreme64Byte_7SLShort
  | Extreme64Byte_7SLShortGreedy | LowEntropyShort | LowEntropyShortSingle =>
      a_short a
  | _ =>
      negb (a_short a)
  end.

(** l.1958-1987 *)
Definition match_greedy (a : args) (c : codec_t) : bool :=
  match c with
  | Extreme16Byte_1SLShortGreedy | Extreme16Byte_3SLShortGreedy | Extreme16Byte_7SLShortGreedy
  | Extreme24Byte_1SLShortGreedy | Extreme24Byte_3SLShortGreedy | Extreme24Byte_7SLShortGreedy
  | Extreme32Byte_1SLShortGreedy | Extreme32Byte_3SLShortGreedy | Extreme32Byte_7SLShortGreedy
  | Extreme48Byte_1SLShortGreedy | Extreme48Byte_3SLShortGreedy | Extreme48Byte_7SLShortGreedy
  | Extreme64Byte_1SLShortGreedy | Extreme64Byte_3SLShortGreedy | Extreme64Byte_7SLShortGreedy =>
      a_greedy a
  | _ =>
      negb (a_greedy a)
  end.

(** l.1988-2094 *)
Definition match_lut (a : args) (c : codec_t) : bool :=
  match c with
  | Extreme8Packed | Extreme8PackedSingle | Extreme8_1SLShort | Extreme16SymPacked | Extreme16Sym_1SLShort
  | Extreme16BytePacked | Extreme16Byte_1SLShort | Extreme16Byte_1SLShortGreedy | Extreme24SymPacked
  | Extreme24Sym_1SLShort | Extreme24BytePacked | Extreme24Byte_1SLShort | Extreme24Byte_1SLShortGreedy
  | Extreme32SymPacked | Extreme32Sym_1SLShort | Extreme32BytePacked | Extreme32Byte_1SLShort
  | Extreme32Byte_1SLShortGreedy | Extreme48SymPacked | Extreme48Sym_1SLShort | Extreme48BytePacked
  | Extreme48Byte_1SLShort | Extreme48Byte_1SLShortGreedy | Extreme64SymPacked | Extreme64Sym_1SLShort
  | Extreme64BytePacked | Extreme64Byte_1SLShort | Extreme64Byte_1SLShortGreedy | Extreme128SymPacked
  | Extreme128BytePacked =>
      a_lut a =? 1
  | Extreme8_3SL | Extreme8_3SLShort | Extreme16Sym_3SL | Extreme16Sym_3SLShort | Extreme16Byte_3SL
  | Extreme16Byte_3SLShort | Extreme16Byte_3SLShortGreedy | Extreme24Sym_3SL | Extreme24Sym_3SLShort
  | Extreme24Byte_3SL | Extreme24Byte_3SLShort | Extreme24Byte_3SLShortGreedy | Extreme32Sym_3SL
  | Extreme32Sym_3SLShort | Extreme32Byte_3SL | Extreme32Byte_3SLShort | Extreme32Byte_3SLShortGreedy
  | Extreme48Sym_3SL | Extreme48Sym_3SLShort | Extreme48Byte_3SL | Extreme48Byte_3SLShort
  | Extreme48Byte_3SLShortGreedy | Extreme64Sym_3SL | Extreme64Sym_3SLShort | Extreme64Byte_3SL
  | Extreme64Byte_3SLShort | Extreme64Byte_3SLShortGreedy =>
      a_lut a =? 3
  | Extreme8_7SL | Extreme8_7SLShort | Extreme16Sym_7SL | Extreme16Sym_7SLShort | Extreme16Byte_7SL
  | Extreme16Byte_7SLShort | Extreme16Byte_7SLShortGreedy | Extreme24Sym_7SL | Extreme24Sym_7SLShort
  | Extreme24Byte_7SL | Extreme24Byte_7SLShort | Extreme24Byte_7SLShortGreedy | Extreme32Sym_7SL
  | Extreme32Sym_7SLShort | Extreme32Byte_7SL | Extreme32Byte_7SLShort | Extreme32Byte_7SLShortGreedy
  | Extreme48Sym_7SL | Extreme48Sym_7SLShort | Extreme48Byte_7SL | Extreme48Byte_7SLShort
  | Extreme48Byte_7SLShortGreedy | Extreme64Sym_7SL | Extreme64Sym_7SLShort | Extreme64Byte_7SL
  | Extreme64Byte_7SLShort | Extreme64Byte_7SLShortGreedy =>
      a_lut a =? 7
  | _ =>
      a_lut a =? 0
  end.

(** l.2095-2256 *)
Definition match_bits (a : args) (c : codec_t) : bool :=
  match c with
  | Extreme8 | Extreme8Short | Extreme8Packed | Extreme8_1SLShort | Extreme8_3SL | Extreme8_3SLShort | Extreme8_7SL
  | Extreme8_7SLShort | Extreme8Single | Extreme8SingleShort | Extreme8PackedSingle | Rle8SH | LowEntropy
  | LowEntropySingle | LowEntropyShort | LowEntropyShortSingle | BitMultiMTF8 =>
      a_bits a =? 8
  | Extreme16Sym | Extreme16SymShort | Extreme16SymPacked | Extreme16Sym_1SLShort | Extreme16Sym_3SL
  | Extreme16Sym_3SLShort | Extreme16Sym_7SL | Extreme16Sym_7SLShort | Extreme16Byte | Extreme16ByteShort
  | Extreme16BytePacked | Extreme16Byte_1SLShort | Extreme16Byte_1SLShortGreedy | Extreme16Byte_3SL
  | Extreme16Byte_3SLShort | Extreme16Byte_3SLShortGreedy | Extreme16Byte_7SL | Extreme16Byte_7SLShort
  | Extreme16Byte_7SLShortGreedy | BitMultiMTF16 =>
      a_bits a =? 16
  | Extreme24Sym | Extreme24SymShort | Extreme24SymPacked | Extreme24Sym_1SLShort | Extreme24Sym_3SL
  | Extreme24Sym_3SLShort | Extreme24Sym_7SL | Extreme24Sym_7SLShort | Extreme24Byte | Extreme24ByteShort
  | Extreme24BytePacked | Extreme24Byte_1SLShort | Extreme24Byte_1SLShortGreedy | Extreme24Byte_3SL
  | Extreme24Byte_3SLShort | Extreme24Byte_3SLShortGreedy | Extreme24Byte_7SL | Extreme24Byte_7SLShort
  | Extreme24Byte_7SLShortGreedy =>
      a_bits a =? 24
  | Extreme32Sym | Extreme32SymShort | Extreme32SymPacked | Extreme32Sym_1SLShort | Extreme32Sym_3SL
  | Extreme32Sym_3SLShort | Extreme32Sym_7SL | Extreme32Sym_7SLShort | Extreme32Byte | Extreme32ByteShort
  | Extreme32BytePacked | Extreme32Byte_1SLShort | Extreme32Byte_1SLShortGreedy | Extreme32Byte_3SL
  | Extreme32Byte_3SLShort | Extreme32Byte_3SLShortGreedy | Extreme32Byte_7SL | Extreme32Byte_7SLShort
  | Extreme32Byte_7SLShortGreedy =>
      a_bits a =? 32
  | Extreme48Sym | Extreme48SymShort | Extreme48SymPacked | Extreme48Sym_1SLShort | Extreme48Sym_3SL
  | Extreme48Sym_3SLShort | Extreme48Sym_7SL | Extreme48Sym_7SLShort | Extreme48Byte | Extreme48ByteShort
  | Extreme48BytePacked | Extreme48Byte_1SLShort | Extreme48Byte_1SLShortGreedy | Extreme48Byte_3SL
  | Extreme48Byte_3SLShort | Extreme48Byte_3SLShortGreedy | Extreme48Byte_7SL | Extreme48Byte_7SLShort
  | Extreme48Byte_7SLShortGreedy =>
      a_bits a =? 48
  | Extreme64Sym | Extreme64SymShort | Extreme64SymPacked | Extreme64Sym_1SLShort | Extreme64Sym_3SL
  | Extreme64Sym_3SLShort | Extreme64Sym_7SL | Extreme64Sym_7SLShort | Extreme64Byte | Extreme64ByteShort
  | Extreme64BytePacked | Extreme64Byte_1SLShort | Extreme64Byte_1SLShortGreedy | Extreme64Byte_3SL
  | Extreme64Byte_3SLShort | Extreme64Byte_3SLShortGreedy | Extreme64Byte_7SL | Extreme64Byte_7SLShort
  | Extreme64Byte_7SLShortGreedy =>
      a_bits a =? 64
  | Extreme128Sym | Extreme128SymPacked | Extreme128Byte | Extreme128BytePacked | Extreme8MultiMTF128 | MultiMTF128 =>
      a_bits a =? 128
  | MultiMTF256 =>
      a_bits a =? 256
  | _ =>
      false
  end.

Definition codec_matches_args (a : args) (c : codec_t) : bool :=
  if a_hasMode a && negb (match_mode a c) then false
  else if a_hasAlignment a && negb (match_alignment a c) then false
  else if a_hasSingle a && negb (match_single a c) then false
  else if a_hasPacked a && negb (match_packed a c) then false
  else if a_hasShort a && negb (match_short a c) then false
  else if a_hasGreedy a && negb (match_greedy a c) then false
  else if a_hasLut a && negb (match_lut a c) then false
  else if a_hasBits a && negb (match_bits a c) then false
  else true.

(** matchBenchmarks, l.663, and the test at the start of the loop, l.805: the codecs that are run. *)
Definition match_benchmarks (a : args) : bool :=
  a_hasAlignment a || a_hasBits a || a_hasGreedy a || a_hasLut a || a_hasMode a || a_hasPacked a || a_hasShort a || a_hasSingle a.
Definition selected (a : args) : list codec_t :=
  filter (fun c => negb (match_benchmarks a && negb (codec_matches_args a c))) all_codecs.
