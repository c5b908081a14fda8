# Formal model of hypersonic-rle-kit in Rocq (Coq 8.16.1)

## Approach

The C code is transcribed by hand, function by function, into total computable
Gallina functions.  Nothing of `/repo` is executed.

* **Numbers** are `Z`.  Casts and wraps that matter are written explicitly
  (`w8`, `w32`, `w64` = mod 2^8, 2^32, 2^64).
* **Memory** is a total function `Z -> Z` from addresses to bytes.  Theorems
  quantify over the whole function, so bytes behind the end of a buffer are
  arbitrary: a result that needed them would not be provable.  Encoders that
  only append have a `list Z` as output; encoders that go back in their output
  (rle8_mmtf128, rle8_sh) and all decoders write a memory at absolute addresses,
  so that overshoot, alignment and old content of the buffer are modelled.  For the
  encoders of the rle8 multi/single, rle16..128, symlut, short and greedy codecs there is a second model
  (`WrModel.v`) with every store they do, of the width the code uses; C57 relates the two.
* **Input and output do not alias**, except for the move-to-front functions,
  where both lie in one memory (C39).
* **Loops** run in the combinator `loop`, which has fuel for 2^64 iterations and
  returns `None` when it is exhausted.  Every theorem about a result also says
  that the loop ended.  The copies and fills of the decoders also return `None` if an instruction
  that demands an aligned address gets another one.
* **SIMD registers** are lists or functions of lanes; a `movemask` result is a
  boolean per lane, `ctz` is "first lane that ...".
* **CPU levels** are parameters over which the theorems quantify.
* **Specifications** are in `Spec.v` and `Spec2.v` (compress / decompress
  contracts), `MtfSpec.v` (definition of move to front), `FmtSpec.v`, `PktSpec.v`,
  `Fmt8Spec.v`, `LutSpec.v` (wire formats as grammars), `PlatSpec.v` (what a machine can execute), `ReadSpec.v` (dependence on bytes behind a stream), `AnSpec.v` (runs and gaps of a file), `LeSpec.v` and `DomSpec.v` (pieces of runs, values worth it), `CutSpec.v` (stretches of blocks and their bits), without reference to the models.

## Layering of the proofs

1. `Base.v`: lists, little endian fields, memory, loop combinator and its rules.
2. `Simd.v`, `SimdProof.v`: the `MEMCPY_*` / `MEMSET_*` macros, each shown to produce
   the wanted bytes and to touch nothing beyond one vector after the end.
3. Per family a model (`*Model.v`), decoder correctness for *every* well formed packet
   sequence, encoder emits a well formed packet sequence whose meaning is the input,
   cost accounting for the size bound.
4. `Codec.v`, `Spec2.v`: from these facts to the contracts of `Spec.v`.
5. `Props_*.v`: only the property theorems, each closed by `exact`, each followed by
   `Print Assumptions`, and concrete examples (tests, not proofs).

## What is modelled

| source | model |
| -- | -- |
| rleX_extreme_common.h (PREFER_STREAM branch, the one compiled) | Simd.v |
| rleX_extreme_cpu{,_encode,_decode}.h, rle24_*, rle48_*, rle128_extreme_cpu.h | ExtModel.v |
| rle8_extreme_cpu.h, rle8_extreme_cpu.c | PktModel.v, Rle8Model.v |
| rleX_Xsl.h, rleX_Xsl_multibyte_encoder.h | LutModel.v, MbModel.v, SlModel.v |
| rleX_Xsl_short.h, rleX_Xsl_short_multibyte_encoder.h (with greedy) | LutModel.v, MbModel.v, ShModel.v |
| the stores of the encoders of the four rows above | WrModel.v |
| the loop passes of these encoders and of the low entropy ones | CostModel.v |
| rle8_low_entropy_cpu.c, rle8_low_entropy_short_cpu.c (with rle8m) | LeModel.v |
| mmtf.c, bit_mmtf.c | MtfModel.v |
| rle8_mmtf.c, bitpack_encode4_sse2_unaligned_m128i of bitpack.h | MzModel.v |
| all of bitpack.h | BpModel.v |
| rle_sh.c | HsModel.v |
| rle8_ocl.c, rle8_ocl_kernel.h | OclModel.v |
| simd_platform.c and the places that choose an implementation | PlatModel.v, ApiModel.v |
| rle_fuzz.c | FuzzModel.v |
| codec_funcs.h | ToolTable.v, ToolLib.v |
| main.c: command line, selection of codecs, run, exit code | ToolArgs.v, ToolRun.v |
| main.c: AnalyzeData, up to the printing | AnModel.v |

Not modelled:

* compilers other than gcc and clang in simd_platform.c (the MSVC spelling of the same
  instructions).
* rle8_single_compress_get_approx_optimal_symbol_avx2 (not called).
* the branch without PREFER_STREAM in rleX_extreme_common.h (not compiled).
* main.c: the measured times, what is printed, GetInformationRatio, the allocations for --sd;
  the messages, the log file and the signal handler of rle_fuzz.c.
* the OpenCL runtime beyond what OclModel.v says in its head comment; prefetches,
  cache behaviour, time.
* 32 bit builds and big endian machines.

After the first models were finished all of them were compared with the source once more, line by line.  One
disagreement was found and repaired: in mz_dlast (the bytes behind the last block of rle8_mmtf128_decompress, rle8_mmtf.c
l.1281-1288) an index of 16 or more into the history of a symbol, which more than 16 rest bytes lead to, reads the rows of the
following symbols and not the same row again.  The bytes behind the 256 rows belong to the stack frame; the model takes
them as further rows.

## Trusted base

* The Coq kernel (8.16.1).
* `Print Assumptions` prints "Closed under the global context" for every theorem of the
  `Props_*.v` files: no axioms, neither own ones nor of the standard library.  (The
  library files loaded by `Lia` declare seven constants of `Coq.ssr.ssrunder` as module
  parameters; no theorem depends on them.)
* The faithfulness of the transcription.  Every definition of a model names the
  lines it transcribes and the simplifications made.
* The semantics of the Intel intrinsics as given at each definition.
* Little endian x86-64 with 64 bit `size_t`.

## Status per property

"proved" means for all inputs the quantifier names.  "false" means that the statement
of `properties.jsonl` does not hold for the code; a theorem `..._refuted` gives a
witness, and further theorems say what holds instead.

| id | modelled | result |
| -- | -- | -- |
| C01, C02 | rle16/32/64 extreme | proved at rle_compress_bounds |
| C03 | rle24, rle48 | proved |
| C04 | rle128 | proved; the byte_packed end marker is read as a literal length of 0 and makes the decoder copy one vector with a wrapped length, which is harmless |
| C05, C06 | rle8 multi / single, plain and packed | proved for the capacities multi_space / single_space (rle_compress_bounds is too small for two of them, C23) |
| C07 | rleX_Xsl | proved for the capacity sl_space |
| C08, C09 | rleX_Xsl_short, greedy | proved for the capacity sh_space |
| C10, C12, C13 | low entropy, short, rle8m | false if run length coding is worth it for all 256 byte values; proved whenever it is not for some value (`LeSpec.v` counts on the data); for low entropy and short this is proved to be exact: in every other case the data is *not* restored (`LeExact.v`) |
| C11 | only_max_frequency | proved |
| C14 | OpenCL kernels | proved for every fair interleaving of the work groups, one write at a time |
| C15, C16, C39 | mmtf128, mmtf256 | proved, also in place |
| C17, C18, C39 | bitmmtf8, bitmmtf16 | proved, also in place |
| C19, C36 | rle8_mmtf128 | proved for capacity n + 13 |
| C20 | rle8_sh | proved for capacity n + n/128 + 19; at rle8_sh_bounds an input is silently corrupted (refuted) |
| C21 | all decoders | proved |
| C22 | rle_compress_bounds | decided for every codec: proved for rle16..128, packed multi, plain single, 48/64 bit symlut, 64 bit short and 32 bit short with whole symbols; false for all other symlut and short codecs and all greedy encoders (inputs of 13 MB; 24 bit symlut: a few hundred bytes) and for the codecs of C23; up to 5 MB (symlut but 24 bit) and 10 MB (short) the bound holds |
| C23 | rle8_multi, rle8_packed_single | false, true bounds proved |
| C24 | rle8_mmtf128_compress_bounds | false, n + 13 proved |
| C25 | rle8_sh_bounds | false, n + n/128 + 19 proved |
| C26 | low entropy bounds | false except for only_max_frequency, true bounds proved |
| C27 | oversize | false, for every codec family: the bound 0 lets every capacity pass |
| C28, C29 | argument checks, headers | proved |
| C30 | encoders depend on the input only | decided for every codec (`Props_Env.v`): the stream of the multi byte codecs depends on the input and on exactly one symbol behind it, that of the 8 bit codecs on the input only; proved for low entropy, rle8m, rle8_sh and for rle8_mmtf128 apart from the uninitialised register |
| C31 | reads behind the end are harmless | proved for all families that read behind the end; the bound of one symbol is part of C42 |
| C32 | decoders agree | proved for all families with several decoders; also in terms of machines: what is compressed on one is restored on every other |
| C33 | arbitrary streams | false for every decoder at every level (a stream of 700 equal bytes whose header announces 1); the low entropy decoders end on every stream and write at most max(outSize, 128 inSize) bytes; rle8m ends on every stream, returns 0 or the size of the header and writes nothing in front of the buffer (RmHos.v), but may decode parts of the stream repeatedly, since the offsets of its sections are not checked |
| C34 | table of the low entropy codecs | proved |
| C35 | OpenCL host | false, proved for every reachable state with enough space allocated |
| C37 | runs | proved for rle16..128, symlut and short |
| C38 | rle8m with surplus input | false |
| C40 | failing rle8m_opencl_init | false: double free |
| C41, C42 | wire formats of rle16..128, rle8 multi and single, symlut, short | proved: the grammars of FmtSpec.v, Fmt8Spec.v and LutSpec.v are accepted by all decoders and written by all encoders |
| C43 | instruction sets | false for AVX, AVX2, AVX-512 if the operating system has not enabled their registers; proved otherwise, for the places that choose (PlatThm.v) and for the public functions, each of which equals an implementation compiled for instructions the machine has (IsaSpec.v, ApiIsa.v) |
| C44 | concurrent detection | proved for sequentially consistent accesses |
| C45 | same stream on all machines | proved for all codecs except rle8_packed_multi, of which it is false |
| C46 | bitpack.h | proved for 1 bit; for 2, 3, 4 bits proved for bytes without higher bits, refuted for others; exact behaviour of bitpack_encode3_sse2_unaligned_m128i, which loses vectors |
| C47 | rle_fuzz.c | false: MemoryEquals ignores seven bits of most bytes; what a successful run shows instead is proved, and that correct codecs raise no alarm |
| C48, C49 | rle_fuzz.c | proved; the random numbers are an arbitrary stream of vectors |
| C50 | selection of codecs | proved except for --not-short before --low-entropy-short, where it is false; the specification reads the printed names |
| C51 | --max-simd | proved with SSE2 as lowest level; false of "none" |
| C52 | command line | proved for documented options with offered values; false for values that are not offered, and exclusions depend on the order |
| C53 | table of codecs | proved (121 codecs) |
| C54 | --test | proved: small files of few values pass; what exit code 0 shows of any library; refuted: all files pass, the decompressor wrote what was found, unread files are reported, large files stay in the buffers |
| C55 | low entropy tables for other data | proved unless the table selects all 256 values; there it is false |
| C56 | compress_with_info and outSize | false; proved for outSize >= 2 * inSize |
| C57 | stores of the encoders (WrModel.v) | proved except for rle48_sym_short and rle48_byte_short, where one byte behind the result may be overwritten |
| C58 | stores of the encoders | decided for every codec: holds exactly for those whose rle_compress_bounds is large enough |
| C59 | decoders read the stream only | false for every decoder at every level: the compressed size in the header is compared with inSize and then not used (low entropy: not used if no value is run length encoded) |
| C60 | repetitions are compressed | proved for all rle8, rleX, symlut, short and greedy encoders (SaveSpec.v says what a repetition and what saved means; each search loop is shown to notice a repetition at most one symbol late and to end its run at most one symbol early); single symbol codecs: for the symbol in the header, refuted for others; rle8_mmtf128: repetitions of 16 bytes (CutSave.v, from the exact size of C67).  rle8_sh: C70.  Not stated for low entropy, which codes other regularities |
| C61 | valid streams: at most one vector behind | ReadSpec.v compares two memories that agree on the stream and k bytes behind it; formats: true exactly for k >= the width of the copy loop of the level (the witness is a stream that ends with a copy of no literals); own streams: true for that k, false for k - 2 (k - 1 is open: it would need that no encoder ends with the long form of an empty copy); low entropy, rle8m, rle8_mmtf128, rle8_sh: k = 0 for what is restored, as their decoders write the data and nothing else; low entropy decoders on any bytes: exactly max(inSize + 1, outSize + 296).  The theorems speak about dependence; a load whose bytes are never used is not seen |
| C62 | --analyze: runs, gaps, histograms | AnSpec.v defines runs as maximal stretches of positions that repeat; proved for all files below 4 GiB: every counter, the tables by length, both histograms, the recency of symbols (with the symbol 0 as used before the file), the table of differences (AnDiff.v; the last run of a file that ends in a run is in none of the tables of pairs); the share is below 100 %; that runs and gaps add up to at most the file is refuted for symbols of several bytes |
| C63 | --analyze: magnitudes | false; proved: everything is counted 32 rows too far down, no run is ever in its row, the table counts in its last entry only |
| C64 | --analyze: defined, file alone | false; proved: when exactly the undefined operation happens, that no entry outside of a table is written, that nothing beyond j - 1 bytes behind the file matters, and that the last of these does |
| C65 | single symbol encoders: the symbol of the only long run | DomSpec.v: a run of at least 36 bytes and four times the other bytes; proved: approx_symbol is that value (counting argument over the statistics of approx_step, DomThm.v) and all but 17 bytes of the run are saved, unless the value is 0 and the input begins with another one, for which it is refuted |
| C66 | low entropy encoders: values coded | proved from the bytes of the stream: bit b is set iff b is Worth (LeSpec.v counts pieces of runs on the data), for only_max_frequency iff b is Best; exactly one such value if any pays off; the table is ordered by falling number of pieces.  That the value gives the shortest stream is refuted (a run at the end is counted as one piece) |
| C67 | rle8_mmtf128: fewest bits per stretch | CutSpec.v cuts the coded blocks (move to front as in MtfSpec.v) into stretches; there is one way to do it (C67_one_cut), and the size of the stream is exactly that of this cut if the register of _mm_undefined_si128 is taken into account for the first stretch; without that it is refuted.  CutStream.v proves the bytes of the stream, not only their number, from which C69 follows |
| C68 | greedy is never longer | refuted for all 15 greedy encoders by inputs of 11 to 92 bytes (GrBad.v), against every implementation of the ordinary encoder |
| C69 | buffer and stream | CapSpec.v; by the definitions for the encoders that only compare the size of the buffer with the bound (the write models of C57 show that they do not read it); rle8_mmtf128, which packs in place, from the exact bytes of the stream (CutStream.v); rle8m: the sections are related to a loop without the test of the remaining space; that a larger buffer is accepted is refuted (420 bytes in 140 sections); rle8_sh: from sh_need n bytes on, refuted below |
| C70 | rle8_sh compresses repetitions | HsSave.v: the tokens of the encoder cost at most 9 bits per byte and a run token replaces all but 14 bytes of each repetition; the last repetition is excluded, for which it is refuted: the exact size for an input of one value is n + 18 |
| C71 | any alignment | the copies, fills and runs of Simd.v and LeModel.v stop without a result if an aligned access is misplaced (`al_ok`); C71 says that they equal functions that accept every address (AlSpec.v), and that the decoders give the same wherever the buffers lie.  The move-to-front and bit packing functions have their own outcome for a misplaced access (MtfModel.v, BpModel.v; C15 to C18, C46) |
| C72 | compression takes linear time | CostModel.v counts the passes of every loop of the encoders, stepping with the step functions of the models; CostThm.v bounds them by a potential that each pass lowers.  For the single symbol encoders, which go back to the first of three wasted runs, the potential also contains the literals not yet written: going back at most 255 bytes writes at least 255.  Not counted: the copies of literals (not longer than the stream), the tables of the low entropy codecs (n steps and 256 values).  McostModel.v: mmtf and rle8_mmtf128 search at most 256 rows for every vector of 16 or 32 bytes.  HcostModel.v: rle8_sh copies what is pending (each byte once) and writes at most 4 bits per byte; memcpy counts as one pass per byte.  RmcostModel.v: rle8m, section by section |
| C73 | decompression takes linear time | DcostModel.v counts the passes of the loop over the packets and of the loops of the copies and fills in each pass, with the step functions of the models; DcostThm.v follows the packets of the stream (same invariant as the round trip) with 4 passes for every byte still to be written: 1 for the packet, at most one per byte and one more for each copy and fill.  DcostLe.v: any bytes, 18 passes for every byte still to be read, since a run has at most 255 bytes.  For other decoders there is no bound in terms of the size of arbitrary bytes: they read on behind the stream (C33, C59).  McostDec.v: rle8_mmtf128 pays with the blocks it writes, on any bytes for which it ends.  HcostThm.v: rle8_sh follows the blocks of its stream, two passes for each byte.  RmcostThm.v: the sections of a stream of rle8m follow one another; for other bytes the offsets can go back and parts of the stream be decoded again and again, so no bound is claimed |
| C74 | tests of random mode | FuzzRandSpec.v says what a test is and which can be drawn; FuzzRand.v: every advance gives such a test; for each of them the numbers that lead to it are written down, and they can follow any numbers read before, since filling the buffer reads each vector once.  Reachable means: for some random numbers; which numbers the clock and AES give is not modelled.  Refuted: the longest lengths and the full number of sections |
| C75 | streams in a row | ArchSpec.v: pieces, the calls made from the headers alone, and what they must leave; ArchThm.v by induction over the pieces and over permutations, from the round trip and header theorems of each codec, which ArchLib.v collects (`library`); ArchBad.v: two 16 bit streams, restored in the wrong order.  Partial: any order is false of the codecs that write behind the output |
| C76 | files cut short | TruncThm.v: for every codec of `library` (ArchLib.v) the header field that decides lies in the bytes left; nothing is assumed about the memory behind (C29 assumes that the rest of the stream is still there).  TruncBad.v: for every decompressor, at every level, a stream cut in the header and followed by a smaller size is decompressed, reading behind the input |
| C77 | inputs above 1 GiB | The encoder and decoder lemmas of all codecs guarded by rle_compress_bounds (ExtEnc.v, PktEnc.v, Rle8Proof.v, Rle8Single.v, MbEnc.v, SlProof.v, ShProof.v, ShEnc.v) are proved for inputs of up to `large_in` = 2^31 - 20 bytes, where all fields of the formats still hold their values; LargeExt.v states what follows, and the same for rle8_mmtf128 (MzEnc.v, MzDec.v), rle8_sh (HsEnc.v, HsThm.v) and the low entropy codecs (LeEnc.v, LeSize.v, LeWorth.v, LeThm.v; their sizes are 32 bit numbers, so the buffer has less than 2^32 bytes).  LargeThm.v and Large8.v: for each of the byte_packed codecs (16, 24, 32, 48, 64 bit) and for rle8_packed_multi the whole stream of 2^31 - 1 bytes counting upwards is computed symbolically: no packet, and an end marker whose literal length has wrapped to 0.  Not decided: sizes between 2^31 - 19 and 2^31 - 2 bytes and from 2^31 bytes on, and the refutation for the codecs whose lengths have 32 bits |
| C78 | a stream belongs to one input | TellThm.v: for pieces of `library` (ArchLib.v) the compressed sizes in the headers agree if one stream is the beginning of the other, and one call of the decompressor restores both inputs; rows by induction.  TellLe.v: the low entropy streams without the condition of C10, from the table read back and the relation between body and input, which is a function |
| C79 | wrong decompressor | TellBad.v: for each symbol size, at every encoder and decoder level, the stream of a run of 48 bytes and 16 others made by rleS_sym is decompressed with rleS_byte: n is returned, the bytes are wrong (computed for the finite list of sizes and levels).  TellKind.v: the low entropy codecs and rle8m store the sizes in the other order, so a stream shorter than its input is refused across the two kinds; short low entropy streams are restored by the normal decompressor (its packets cover theirs), not the other way round (a run of 48 bytes).  Other pairs are not decided |
| C80 | codecs stacked | StackThm.v: `stacked` and `unstack` over pieces of `library` (ArchLib.v); induction over the stages, each restored by the round trip of its codec, which holds whatever lies behind the stream; that every codec can be put on a stack follows from the streams being bytes |
| C81 | restored data compressed again | AgainThm.v: `SameAgain`; from the round trip and the independence of bytes behind the input (C30) for the codecs of single bytes; for all others one symbol in a buffer that continues with it, computed for the finite list of codecs and levels |
| C82 | damaged streams | DamageSpec.v: one byte changed (`changed`).  DamageThm.v: the header of any piece of `library` lies in the stream (`at_least_8`), a greater byte makes one of the two sizes greater, and the argument checks (C28) refuse it; for each decompressor, at every level, a changed literal of the stream of the bytes 0, 1, 2 is restored without complaint (computed for the finite list of codecs and levels) |
| C83 | data in blocks | BlockSpec.v: `blocks`, the pieces that data is cut into, each with the rest of the data behind it.  BlockThm.v: `need_mono`, the space needed grows with the size; the contents of the blocks in a row are the data (induction over the number of blocks); restored by the theorem on rows of streams (C75); `row_job`: the headers lead to every stream of a row |
| C84 | buffers of the tool | `buffer_size` of ToolRun.v is n + 297 for files of up to 2^30 bytes; ToolBufThm.v compares it with what each codec of `library` may need; the witnesses are those of C23 and C26 (Rle8Bad.v, LeBad.v), the size of the streams bounded from below by induction over the packets |

## Findings

1. Low entropy family: the decoder counts the run length coded byte values in a
   `uint8_t`.  If all 256 are coded the count is 0 and the stream is copied verbatim.
   Witness: 0,0,1,1,...,255,255.  The OpenCL kernels are not affected.
2. `rle_compress_bounds` returns 0 above 2^30 bytes; the test `outSize < bound`
   then never refuses.
3. rle8_multi and rle8_packed_single write more than `rle_compress_bounds` on
   concrete inputs; so do the 24 bit symlut codecs.
4. The multi-byte encoders compare one symbol that may lie behind the input; the
   stream depends on these bytes, the restored input does not.
5. No decoder checks the packets against the sizes.
6. rle8_mmtf128: the bound is 5 bytes too small (n = 1: 11 bytes, bound 9), the
   accumulated bit mask starts uninitialised, so that output is not reproducible.
   rle8_mmtf256 is declared but not defined.
7. rle8_sh: compress checks the bound of rle8_mmtf128; both that and
   rle8_sh_bounds are too small, and the bits written from the end of the buffer can then
   overwrite the data silently.
8. low entropy bounds are exceeded by up to n/255 (n/32 for short).
9. rle8m_decompress takes the end of the last section from inSize instead of from the
   header; rle8m_compress_bounds wraps for 2^30 sections and more.
10. rle8m_opencl_decompress writes the section offsets before it (re)initialises: a NULL
    write on the first call, an overrun if there are more sections than before, wrong
    output reported as success if the initialisation is repeated.  `pPlatforms` is freed
    twice if an initialisation fails after a successful one.
11. rle8_low_entropy_short_compress_bounds is not used by the short compressor.
12. simd_platform.c: avxSupported is set if XCR0 has the XMM *or* the YMM bit (the test
    should be `== 6`); avx2Supported and avx512FSupported are set without looking at
    OSXSAVE and XCR0 at all.  On a machine whose operating system has not enabled these
    registers the library executes illegal instructions.
13. Format oddities: in the sym_packed variants with symbols of more than three bytes one
    value of the count field stands for a run of length 0 and is never used; the end
    marker of rle128_byte_packed is not in the literal length format of the codec
    (`End_none128` in FmtSpec.v).
14. rle8_packed_multi_compress writes different streams on AVX2 and on SSE2 machines: the
    loop over the bytes behind the last vector accepts runs of 11 or more only, the vector
    loop also shorter ones, and where the vector loop ends depends on the vector width.
15. bitpack_encode3_sse2_unaligned_m128i does not advance `pIn` after the group of three
    vectors (l.420-440): if four or five vectors are left after the groups of six, the last
    one or two are packed from the wrong place and lost.  Nothing calls the function; the
    copy of it in rle8_mmtf.c does not have the group of three.
16. The 2, 3 and 4 bit packing functions of bitpack.h do not mask their input: "lowest 3
    bits" holds only of bytes without higher bits.
17. process_symbol of the symlut and short codecs charges 2 bytes for numbers up to
    0xFFFFF (rleX_Xsl.h l.130, rleX_Xsl_short.h l.197), but from 0x10000 on 4 bytes are
    written.  A packet behind 65534 or more literals can thus be larger than what it
    replaces, and with enough of them the stream is larger than `rle_compress_bounds`.
18. rle_fuzz.c: `MemoryEquals` takes `_mm256_movemask_epi8` of the XOR of two vectors, which is
    the highest bit of every byte.  Only the last 1 to 32 bytes are compared in full: the
    fuzzer does not notice damage in the lower seven bits elsewhere (C47).
19. rle_fuzz.c, smaller ones: fuzz_read_rand never sets `initialized` and starts anew with
    the clock on every call, so that the "random" vector it stores is the complement of two clock
    readings; random mode never uses all sections and no length at the upper end of its range (C74; with one section it would divide by 0), and
    `reasonableSymbolLengths[fuzz_rand_between(1, 7)]` skips the symbol size 1; the iterative run the tool
    starts has 62 * 353^6 = 1.2e17 tests and will not end in practice; pInputBufferCopy is
    never freed.
20. main.c, testing: `memset(pDecompressedData, 0, decompressedSize)` (l.947) has size 0, as
    decompressedSize has just been set to 0; the output of the codec before is still there, and
    a decompressor that does nothing passes.  The returned size is only compared with 0.  If
    the file cannot be opened, has no bytes or cannot be allocated, the exit code is 0 also
    with --test (C54).
21. main.c, sizes: fileSize is a size_t, the buffer for compressed data is allocated for its lower 32
    bits, and memcpy copies all of it: for files of 4 GiB or more the heap is overwritten.  The
    decompressors are called with compressedBufferSize as output size (l.970), which is
    larger than the allocated fileSize + 128.
22. main.c, command line: --x-size and --lut-size look at the first characters only (12
    means 128); --runs uses atoi without a check (0, "abc" and 2^32 all mean one run without delays);
    --not-short --low-entropy-short is accepted and selects short codecs; modes combine to an
    empty selection; --max-simd none still uses SSE2; the usage text omits --x-size.
23. main.c, AnalyzeData: memcmp(pData + i, pData + i - j, j) (l.1295) reads up to 15 bytes
    behind the buffer, which is allocated with the size of the file (l.731), and the figures depend on them (C64);
    63 - __builtin_clz(size_t) (l.1329 and others) takes the 32 bit instruction, so that all
    indices are 32 too large (rows 1 to 32 of AprxLen are always 0) and the table of
    magnitudes only ever counts in its last entry (C63); it is undefined for 0 (l.1374, l.1465), which happens exactly if
    the file starts with a run that ends (C64).  The aligned figures labelled "Bytes" count symbols (C62_aligned_sum).
    For symbols of several bytes the bytes in runs and between them may add up to more than the file (C62).
    Read only: the percentages of the aligned table l.1646 are taken of the number of unaligned runs.
24. rle8_low_entropy(_short)_compress_with_info only check `outSize >= inSize`: with a table made for
    other data (or on the last run of the data, finding 8) they write up to twice the input size
    (one byte with the bit set, outSize = 1: two bytes are written).
25. rle48_sym_short_compress and rle48_byte_short_compress write the symbol of the end marker as a
    uint64_t and advance by six bytes (rleX_Xsl_short_multibyte_encoder.h l.398-404); if one
    literal follows, the byte behind the returned size is overwritten with 0 (smallest input: one byte).  All other
    compressors change the returned bytes only (C57).
26. rle8_mmtf128_decompress: the number of bytes behind the last block is announced size minus
    written size (rle8_mmtf.c l.1279).  With a stream that makes more than its header announces this
    wraps to almost 2^64, and the final loop runs through the whole address space.
27. No decompressor uses the compressed size of the header for more than the comparison with inSize
    (low entropy uses it as the end of the stream, unless no value is run length encoded, where the announced
    output size is copied from wherever the header ends): C33 and C59 are false everywhere.
28. rle.h has rle_decompress_additional_size for the output, but nothing alike for the input: the copy
    loops read whole vectors, so that up to 16, 32 or 64 bytes behind a valid stream must be readable,
    and their values end up behind the data in the output buffer (C61).
29. rle8_single and rle8_short_single: get_approx_optimal_symbol_sse2 sets pcount[0] to (uint32_t)-1 if the input does not begin
    with 0, as its predecessor needed it, which started with lastSymbol = 0.  This one starts with ~pIn[0], so the number of runs of
    0 is one too small: with one run it is 0, and 0 is never chosen (C65).  Witness: 1, 5 twenty times, 0 four hundred times:
    the symbol is 5 and the stream is longer than the run.
30. Low entropy, only_max_frequency: "only encodes the most run-length-encodable symbol" (README.md) is false for inputs
    that end in a run: it is counted as one piece, however many it takes (C66).
31. rle8_sh: the run that ends the input is copied (rle_sh.c l.451-462 handles only lastWasCopy) unless its symbol is the one of
    the previous run; a file of one byte value other than 127 becomes 18 bytes longer (C70).
32. The greedy encoders can be worse than the ordinary ones of the same format (C68), all 15 of them.
33. rle8m_compress: `outSize - index` wraps as soon as the sections are longer than the buffer, and rle8_low_entropy_compress_with_info
    then accepts; with the documented size 420 bytes in 140 sections give a stream of 1303 bytes in a buffer of 1277, while a buffer
    of 1278 bytes is refused (C69).
34. `rle8_mmtf256_compress` and `rle8_mmtf256_decompress` are declared in rle.h (l.450-451) and once more in rle8_mmtf.c (l.1295, 1297)
    but defined nowhere: a program that calls them does not link. Only `rle8_mmtf256_compress_bounds` exists. There is nothing to model.
35. Streams that are decompressed into one buffer at neighbouring places must be decompressed in the order of their places: all decoders but
    those of rle8_low_entropy, rle8m, rle8_mmtf128 and rle8_sh store whole vectors behind the end of the output, over what has been restored
    there already (`C75_row_any_order_refuted`; the same holds of two threads that fill neighbouring parts of a buffer). The example in
    README.md (l.310) only shows that the buffer must be larger.
36. No decompressor compares inSize with the size of the header: given 1 to 7 bytes (3 for low entropy and rle8m), all of them read the rest
    of the header behind the input, and may take a small number found there for the compressed size, accept the input and go on reading
    (`C76_cut_refused_refuted`).
37. The byte_packed encoders and rle8_packed_multi write `(uint32_t)((copySize + 1) << 1) | 1` for the literals at the end
    (rleX_extreme_cpu_encode.h:591 and its copies, rle8_extreme_cpu.h:331): for copySize = 2^31 - 1 this is 1, the mark of the end without literals.  The sizes in the header are right, decompress
    returns the size of the input and writes nothing (`C77_large_restored_refuted`, `C77_rle8_packed_multi_large_refuted`).  The guard does not refuse such inputs (finding 2).
38. Streams carry no mark of their codec.  rle16_sym to rle128_sym and rle16_byte to rle128_byte have the same layout but count symbols and
    bytes: the wrong function of the two returns the size of the input and leaves other bytes (`C79_wrong_codec_refuted`).  The names of the functions are
    all a program has to go by; the tool stores no compressed files.  Likewise rle8_low_entropy_short_decompress fills at most 32 bytes per packet and
    takes streams of rle8_low_entropy with longer runs (`C79_low_entropy_by_short_refuted`).
39. Because the encoders of 16 to 128 bit symbols look at one symbol behind the input (finding on C30), compressing restored data in the buffer it was
    restored to may give another stream than the one it was restored from, for every such codec at every level (`C81_*_refuted`).  Both are restored.
40. There is no checksum: a stream with one changed byte may be accepted and restored to other data, for every codec (`C82_damage_noticed_refuted`).
41. The tool overruns its own buffer: it allocates n + 297 bytes for compressed data, rle8_multi may write one byte more than its input for every 261 bytes.  A file of
    902 times 255 bytes without repetition and 6 equal ones is enough, one of 55230 bytes for rle8_packed_single (`C84_buffer_suffices_refuted`); for the low entropy codecs, whose bounds the size is taken from (finding on C26), files of 771 and
    547 bytes are (`C84_low_entropy_buffer_refuted`); for the 24 bit symlut codecs files of 38280 and 19720 bytes (`C84_symlut24_buffer_refuted`).

## Mutation tests

`seeded/LOG.jsonl` has one line per attempt: a bug is put into a definition of a model in
a scratch copy, the build is repeated, and every proof that fails is cut off (`Admitted`)
in the scratch copy until everything compiles.  `Print Assumptions` of the property
theorems then tells which of them no longer hold by their proof.
