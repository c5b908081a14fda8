{"id": "C01", "title": "Round trip of the 16/32/64 bit extreme codecs", "statement": "For every rle16/32/64_{sym,byte} compress/decompress pair: compressing any non-empty buffer of at most 2^30 bytes into an output of at least rle_compress_bounds bytes succeeds, and decompressing exactly the returned number of bytes into a buffer of the original size (plus rle_decompress_additional_size slack) returns the original size and reproduces every byte.", "quantifier": "all inputs up to 2^30 bytes, all output contents before the call, all buffer alignments, every encoder (base, SSE2, AVX2) combined with every decoder (SSE2, SSE4.1, AVX, AVX2, AVX-512F), whatever bytes lie behind the input buffer", "why_tests_cant": "the input space, the alignments and the encoder/decoder pairings are unbounded; a run whose start, length and literal distance line up badly with vector width can be missed by any finite corpus", "anchors": ["src/rleX_extreme_cpu_encode.h", "src/rleX_extreme_cpu_decode.h", "src/rleX_extreme_cpu.h: rleN_sym_compress, rleN_sym_decompress, rleN_byte_compress, rleN_byte_decompress", "src/rleX_extreme_common.h: MEMCPY_*_MULTI, MEMSET_*_MULTI"]}
{"id": "C02", "title": "Round trip of the packed 16/32/64 bit extreme codecs", "statement": "The same round trip holds for rle16/32/64_{sym,byte}_packed, where a run may reuse the previously stored symbol and the literal length is stored in 7 or 31 bits (byte_packed) or 8 or 32 bits (sym_packed).", "quantifier": "all inputs up to 2^30 bytes, all encoder/decoder SIMD levels, all alignments, all prior memory contents", "why_tests_cant": "the 'same symbol' flag makes decoding depend on the whole history of earlier packets", "anchors": ["src/rleX_extreme_cpu_encode.h", "src/rleX_extreme_cpu_decode.h", "src/rleX_extreme_cpu.h: rleN_sym_packed_compress, rleN_byte_packed_compress"]}
{"id": "C03", "title": "Round trip of the 24 and 48 bit extreme codecs", "statement": "The same round trip holds for rle24 and rle48, sym and byte, packed and not packed.", "quantifier": "all inputs up to 2^30 bytes, encoders base/SSE2/SSSE3/AVX2, decoders SSE2/SSSE3/AVX2, all alignments, all prior memory contents", "why_tests_cant": "symbol size does not divide the vector width, so correctness depends on run length modulo 3/6 and position inside three consecutive vector stores", "anchors": ["src/rle24_extreme_cpu_encode.h", "src/rle24_extreme_cpu_decode.h", "src/rle48_extreme_cpu_encode.h", "src/rle48_extreme_cpu_decode.h"]}
{"id": "C04", "title": "Round trip of the 128 bit extreme codecs", "statement": "The same round trip holds for rle128 sym, byte, sym_packed and byte_packed.", "quantifier": "all inputs up to 2^30 bytes, decoders SSE2/AVX/AVX-512F, all alignments, all prior memory contents", "why_tests_cant": "the byte_packed stream ends in a terminator the decoder does not recognise as one; that the result is nevertheless right depends on pointer wrap-around for every possible state at the end of the stream", "anchors": ["src/rle128_extreme_cpu.h", "src/rle128_extreme_cpu.c"]}
{"id": "C05", "title": "Round trip of rle8_multi and rle8_packed_multi", "statement": "Compressing any non-empty buffer of at most 2^30 bytes with rle8_multi_compress or rle8_packed_multi_compress into a large enough buffer and decompressing the result with rle8_decompress / rle8_packed_decompress returns the original size and reproduces every byte.", "quantifier": "all inputs up to 2^30 bytes, encoders scalar/SSE2/AVX2, decoders SSE2/SSE4.1/AVX/AVX2/AVX-512F, all alignments", "why_tests_cant": "unbounded input space, history dependent same-symbol flag", "anchors": ["src/rle8_extreme_cpu.h: rle8_multi_compress, rle8_compress_multi_sse2, rle8_compress_multi_avx2, rle8_decompress, rle8_decompress_multi_*", "src/rle8_extreme_cpu.c"]}
{"id": "C06", "title": "Round trip of rle8_single and rle8_packed_single", "statement": "The same holds for the single-symbol codecs, whichever byte value the encoder's sampling heuristic picks as the run symbol.", "quantifier": "all inputs up to 2^30 bytes, every choice of run symbol, every SIMD level, all alignments", "why_tests_cant": "the encoder rewinds its read position after wasted chances; correctness must hold for every interleaving of rewinds and skips", "anchors": ["src/rle8_extreme_cpu.h: rle8_single_compress, rle8_compress_single_sse2, rle8_decompress_single_*", "src/rle8_extreme_cpu.c: rle8_extreme_approx_optimal_symbol"]}
{"id": "C07", "title": "Round trip of the symbol-LUT codecs", "statement": "Compressing with any rleN_{3,7}symlut_{sym,byte} codec (N = 8, 16, 24, 32, 48, 64) and decompressing reproduces the input: the decoder's move-to-front table of recent run symbols always equals the encoder's.", "quantifier": "all inputs up to 2^30 bytes, symbol sizes 8..64 bit, table sizes 3 and 7, every SIMD level, all alignments", "why_tests_cant": "the table contents depend on the whole history of runs; a desynchronisation appears only after particular symbol sequences", "anchors": ["src/rleX_Xsl.h", "src/rleX_Xsl_multibyte_encoder.h", "src/rleX_Xsl.c"]}
{"id": "C08", "title": "Round trip of the short symbol-LUT codecs", "statement": "The same holds for the short formats (0, 1, 3, 7 symbol tables, 8-bit multi_short and single_short): every packet, whether packed in one byte or in the long form with 16 or 32 bit extensions, is decoded to exactly the literals and run the encoder meant.", "quantifier": "all inputs up to 2^30 bytes, all symbol sizes, all table sizes, every SIMD level, all alignments", "why_tests_cant": "three nested length encodings with different bit splits per table size; boundary values of each field would all have to be hit with every table state", "anchors": ["src/rleX_Xsl_short.h", "src/rleX_Xsl_short_multibyte_encoder.h", "src/rleX_Xsl_short.c"]}
{"id": "C09", "title": "Round trip of the greedy short encoders", "statement": "The *_short_compress_greedy encoders, which also match whole or partial symbols of the recent-symbol table, produce streams that the ordinary decoder of the same format expands to the original input.", "quantifier": "all inputs up to 2^30 bytes, all symbol sizes, tables of 1, 3 and 7 symbols", "why_tests_cant": "greedy matching against mutable history has data dependent control flow; tests only sample it", "anchors": ["src/rleX_Xsl_short.h: *_compress_greedy"]}
{"id": "C10", "title": "Round trip of rle8_low_entropy", "statement": "Compressing any non-empty buffer with rle8_low_entropy_compress and decompressing it with rle8_low_entropy_decompress reproduces the input.", "quantifier": "all inputs, every subset of the 256 byte values selected for run length coding, every SIMD level", "why_tests_cant": "the set of run coded symbols is computed from the data: 2^256 possible sets; the failing set (all 256) is never hit by ordinary test files", "anchors": ["src/rle8_low_entropy_cpu.c: rle8_low_entropy_compress, rle8_low_entropy_decompress, rle8_low_entropy_decompress_with_info"]}
{"id": "C11", "title": "Round trip of rle8_low_entropy_compress_only_max_frequency", "statement": "Compressing any non-empty buffer with rle8_low_entropy_compress_only_max_frequency and decompressing it reproduces the input.", "quantifier": "all inputs, every choice of the single run coded symbol (or none), every SIMD level", "why_tests_cant": "depends on data derived symbol tables", "anchors": ["src/rle8_low_entropy_cpu.c: rle8_low_entropy_compress_only_max_frequency, rle8_low_entropy_get_compress_info_only_max_frequency"]}
{"id": "C12", "title": "Round trip of rle8_low_entropy_short", "statement": "Compressing with rle8_low_entropy_short_compress (and its only_max_frequency variant) and decompressing with rle8_low_entropy_short_decompress reproduces the input.", "quantifier": "all inputs, all symbol tables, every SIMD level", "why_tests_cant": "depends on data derived symbol tables and on the decoder's fixed 32 byte stores being enough for every run", "anchors": ["src/rle8_low_entropy_short_cpu.c"]}
{"id": "C13", "title": "Round trip of rle8m for every number of sub-sections", "statement": "Compressing with rle8m_compress for any number of sub-sections and decompressing with rle8m_decompress reproduces the input, whatever the remainder of size / subSections is.", "quantifier": "all inputs, all subSections >= 1, every SIMD level", "why_tests_cant": "section boundaries interact with runs that cross them and with section sizes of zero", "anchors": ["src/rle8_low_entropy_cpu.c: rle8m_compress, rle8m_decompress"]}
{"id": "C14", "title": "Sub-sections of rle8m decode independently in any order", "statement": "The OpenCL kernels decode each rle8m sub-section from its start offset alone; running the work groups in any order or interleaving writes exactly the original bytes, because each group writes only its own slice.", "quantifier": "all inputs, all sub-section counts, all schedules of the work groups", "why_tests_cant": "schedules of a GPU cannot be enumerated", "anchors": ["src/rle8_ocl_kernel.h: rle8_decompress, rle8_decompress_single", "src/rle8_ocl.c: rle8m_opencl_decompress"]}
{"id": "C15", "title": "Round trip of mmtf128 and mmtf256", "statement": "mmtf128_decode(mmtf128_encode(x)) = x and mmtf256_decode(mmtf256_encode(x)) = x with the same size, whichever of the aligned, unaligned or SSE2 implementations is selected.", "quantifier": "all inputs of all lengths (also not multiples of 16 or 32), all dispatch combinations", "why_tests_cant": "each of the 16 or 32 lanes carries a 256-entry history; state space is 256! per lane", "anchors": ["src/mmtf.c"]}
{"id": "C16", "title": "mmtf output is lane-wise move-to-front", "statement": "Every output byte of mmtf128_encode/mmtf256_encode is the number of distinct byte values seen more recently (in the same lane) than this one, i.e. the classic move-to-front index of its lane.", "quantifier": "all inputs, all positions", "why_tests_cant": "the vectorised update works on all lanes at once until the slowest lane has matched; agreement with the sequential definition must hold for all histories", "anchors": ["src/mmtf.c: mmtf128_encode, mmtf256_encode"]}
{"id": "C17", "title": "Round trip of bitmmtf8 and bitmmtf16", "statement": "bitmmtf8_decode(bitmmtf8_encode(x)) = x and bitmmtf16_decode(bitmmtf16_encode(x)) = x, the return value is the input size, and nothing beyond inSize is written.", "quantifier": "all inputs of all lengths", "why_tests_cant": "unbounded length with carried state", "anchors": ["src/bit_mmtf.c"]}
{"id": "C18", "title": "bitmmtf computes and inverts the bitwise difference", "statement": "Output byte i of bitmmtf8_encode is in[i] xor in[i-1] (in[-1] = 0); bitmmtf16 does this on pairs of bytes and leaves an odd last byte alone.", "quantifier": "all inputs, all positions", "why_tests_cant": "the SIMD formulation (compare of masked lanes and movemask) must equal xor for every pair of bytes and state", "anchors": ["src/bit_mmtf.c"]}
{"id": "C19", "title": "Round trip of rle8_mmtf128", "statement": "rle8_mmtf128_compress followed by rle8_mmtf128_decompress reproduces every input, although the encoder's bit-width accumulator starts uninitialised.", "quantifier": "all inputs up to 2^30 bytes, all values of the uninitialised accumulator", "why_tests_cant": "the uninitialised register may hold anything; four in-place bit packings with different tails", "anchors": ["src/rle8_mmtf.c: rle8_mmtf128_compress, rle8_mmtf128_decompress, bitpack_encode2_simple, bitpack_encode3_simple", "src/bitpack.h: bitpack_encode4_sse2_unaligned_m128i"]}
{"id": "C20", "title": "Round trip of rle8_sh", "statement": "rle8_sh_compress followed by rle8_sh_decompress reproduces every input when the output buffer is large enough that the two regions the encoder grows towards each other do not meet.", "quantifier": "all inputs, all sufficiently large output sizes", "why_tests_cant": "bit stream grows backwards from the end of the buffer; symbol classes depend on the whole history", "anchors": ["src/rle_sh.c"]}
{"id": "C21", "title": "Decoders stay within the documented slack", "statement": "Decompressing a stream produced by the matching compressor never modifies memory before the output buffer nor at or beyond original size + rle_decompress_additional_size() (128).", "quantifier": "all inputs, all codecs of the extreme / symlut / short families, all decoder SIMD levels and alignments", "why_tests_cant": "overshoot depends on final packet, vector width and alignment; guard pages in tests see only sampled cases", "anchors": ["src/rleX_extreme_common.h", "src/rle8_extreme_cpu.c: rle_decompress_additional_size"]}
{"id": "C22", "title": "Compressed size never exceeds rle_compress_bounds", "statement": "The number of bytes written by every rle*_compress function guarded by rle_compress_bounds is at most rle_compress_bounds(inSize).", "quantifier": "all inputs up to 2^30 bytes, all codecs sharing rle_compress_bounds", "why_tests_cant": "worst case inputs are adversarial (tens of kilobytes to many megabytes of special structure)", "anchors": ["src/rle8_extreme_cpu.c: rle_compress_bounds", "src/rleX_extreme_cpu_encode.h", "src/rle8_extreme_cpu.h", "src/rleX_Xsl.h", "src/rleX_Xsl_short.h"]}
{"id": "C23", "title": "rle8_multi and rle8_packed_single respect rle_compress_bounds", "statement": "rle8_multi_compress and rle8_packed_single_compress never write more than rle_compress_bounds(inSize) bytes.", "quantifier": "all inputs up to 2^30 bytes", "why_tests_cant": "violations need long, specially structured inputs", "anchors": ["src/rle8_extreme_cpu.h: rle8_multi_compress, rle8_single_compress", "src/rle8_extreme_cpu.c: rle_compress_bounds"]}
{"id": "C24", "title": "rle8_mmtf128 respects rle8_mmtf128_compress_bounds", "statement": "rle8_mmtf128_compress never writes more than rle8_mmtf128_compress_bounds(inSize) bytes.", "quantifier": "all inputs up to 2^30 bytes", "why_tests_cant": "tests allocate generously and never compare against the bound", "anchors": ["src/rle8_mmtf.c: rle8_mmtf128_compress_bounds, rle8_mmtf128_compress"]}
{"id": "C25", "title": "rle8_sh respects rle8_sh_bounds", "statement": "With an output buffer of rle8_sh_bounds(inSize) bytes rle8_sh_compress stays inside the buffer and its result decompresses to the input.", "quantifier": "all inputs", "why_tests_cant": "the two ends of the output collide only for incompressible inputs of particular sizes", "anchors": ["src/rle_sh.c: rle8_sh_bounds, rle8_sh_compress"]}
{"id": "C26", "title": "Low entropy compressors respect their bounds", "statement": "rle8_low_entropy_compress, its short and only_max_frequency variants and rle8m_compress never write more than their *_compress_bounds functions promise.", "quantifier": "all inputs, all sub-section counts", "why_tests_cant": "the size depends on which symbols are selected for run length coding", "anchors": ["src/rle8_low_entropy_cpu.c", "src/rle8_low_entropy_short_cpu.c"]}
{"id": "C27", "title": "Oversized inputs are refused", "statement": "For inputs larger than 2^30 bytes, for which rle_compress_bounds reports 0 (unsupported), the compress functions refuse to write.", "quantifier": "all input sizes and output sizes", "why_tests_cant": "needs multi-gigabyte buffers", "anchors": ["src/rle8_extreme_cpu.c: rle_compress_bounds", "src/rleX_extreme_cpu.h: rleN_*_compress"]}
{"id": "C28", "title": "Arguments are validated before anything is written", "statement": "Compress and decompress functions return 0 and leave the output untouched when a pointer is NULL, a size is 0, the output is smaller than the bound, or the stream header announces more input or output than supplied.", "quantifier": "all argument combinations and all header contents", "why_tests_cant": "cross product of argument values", "anchors": ["src/rleX_extreme_cpu.h", "src/rle8_extreme_cpu.h: rle8_decompress", "src/rle8_low_entropy_cpu.c", "src/rle_sh.c"]}
{"id": "C29", "title": "Stream header records both sizes", "statement": "The first bytes of every compressed stream hold the original size and the exact number of bytes returned by compress, so a truncated stream is rejected and rle8_low_entropy_decompressed_size is exact.", "quantifier": "all inputs, all codecs", "why_tests_cant": "must hold for all inputs", "anchors": ["src/rle.h", "src/rle8_low_entropy_cpu.c: rle8_low_entropy_decompressed_size"]}
{"id": "C30", "title": "Encoders only depend on the input bytes", "statement": "The compressed stream is a function of the inSize input bytes only: bytes behind the end of the input buffer influence neither output nor size.", "quantifier": "all inputs and all contents of the memory behind the input", "why_tests_cant": "reads past the end normally see benign memory", "anchors": ["src/rleX_extreme_cpu_encode.h", "src/rleX_Xsl_multibyte_encoder.h"]}
{"id": "C31", "title": "Out-of-bounds reads of the encoders are harmless to the round trip", "statement": "Whatever bytes lie behind the input buffer, the first inSize bytes recovered by the decoder are right and the encoder's excess is at most one symbol.", "quantifier": "all inputs and all contents of the memory behind the input", "why_tests_cant": "content behind a buffer is not controllable in ordinary tests", "anchors": ["src/rleX_extreme_cpu_encode.h", "src/rle24_extreme_cpu_encode.h", "src/rle48_extreme_cpu_encode.h", "src/rle128_extreme_cpu.h", "src/rleX_Xsl_multibyte_encoder.h"]}
{"id": "C32", "title": "All decoder implementations agree", "statement": "For every stream produced by a compressor, all SIMD implementations of the decoder return the same size and the same bytes, so data compressed on one CPU can be read on any other.", "quantifier": "all inputs, all pairs of decoder implementations, all alignments", "why_tests_cant": "hardware matrix times unbounded inputs", "anchors": ["src/rleX_extreme_cpu_decode.h", "src/rle8_extreme_cpu.h", "src/rleX_Xsl.h", "src/rleX_Xsl_short.h"]}
{"id": "C33", "title": "Decompression of arbitrary bytes stays in bounds", "statement": "Calling a decompress function on arbitrary bytes with correct buffer sizes never writes outside the output buffer plus documented slack.", "quantifier": "all byte sequences", "why_tests_cant": "fuzzing samples; the property needs every stream", "anchors": ["src/rleX_extreme_cpu.h: decompress", "src/rle8_extreme_cpu.h: rle8_decompress"]}
{"id": "C34", "title": "The low entropy symbol tables describe a bijection", "statement": "The table written by rle8_low_entropy_write_compress_info and read by rle8_low_entropy_read_decompress_info gives each of the 256 byte values a different run count, inverse to the encoder's table.", "quantifier": "all inputs / all symbol histograms", "why_tests_cant": "2^256 flags times 256! orders", "anchors": ["src/rle8_low_entropy_cpu.c: rle8_low_entropy_get_compress_info, rle8_low_entropy_write_compress_info, rle8_low_entropy_read_decompress_info"]}
{"id": "C35", "title": "GPU decompression does not depend on earlier calls", "statement": "rle8m_opencl_decompress returns the right bytes whatever earlier init / decompress / destroy calls were made.", "quantifier": "all sequences of calls with all sizes", "why_tests_cant": "histories are unbounded and need a GPU", "anchors": ["src/rle8_ocl.c: rle8m_opencl_init, rle8m_opencl_decompress, rle8m_opencl_destroy"]}
{"id": "C36", "title": "Bit packing helpers are lossless", "statement": "The 2, 3 and 4 bit packings used by rle8_mmtf128, done in place over the encoder's own output, are inverted by the decoder for every block count and every value that fits.", "quantifier": "all block counts, all values below 4, 8, 16", "why_tests_cant": "tails depend on the count modulo 2, 3, 4, 6", "anchors": ["src/rle8_mmtf.c: bitpack_encode2_simple, bitpack_encode3_simple", "src/bitpack.h"]}
{"id": "C37", "title": "Every run decodes to a periodic repetition of its symbol", "statement": "In the byte (unaligned) variants a run need not be a multiple of the symbol size; the decoder reproduces exactly the prefix of the periodic repetition, for every run length.", "quantifier": "all run lengths and symbols", "why_tests_cant": "the vector fill must be right for every length modulo symbol size and vector width", "anchors": ["src/rleX_extreme_common.h: MEMSET_*_MULTI", "src/rle24_extreme_cpu_decode.h", "src/rle48_extreme_cpu_decode.h"]}
{"id": "C38", "title": "rle8m_decompress ignores bytes behind the stream", "statement": "If rle8m_decompress is given an input buffer that is larger than the compressed stream, the surplus bytes have no influence and nothing is written behind the decompressed data, as with the other decompressors.", "quantifier": "all streams, all surplus bytes", "why_tests_cant": "needs an adversarial tail behind an otherwise valid stream", "anchors": ["src/rle8_low_entropy_cpu.c: rle8m_decompress"]}
{"id": "C39", "title": "The move-to-front transformations work in place", "statement": "mmtf128/256 and bitmmtf8/16 encode and decode may be called with pOut = pIn (or any pOut at or before pIn, or behind the input): encoding and decoding a buffer in place restores every byte of memory, and no byte outside the buffer is modified.", "quantifier": "all buffers, all lengths, all alignments and dispatch combinations", "why_tests_cant": "overlap is a relation between two pointers and a length; a vectorised loop that reads ahead of its writes would break it only for particular distances", "anchors": ["src/mmtf.c", "src/bit_mmtf.c"]}
{"id": "C40", "title": "A failing rle8m_opencl_init leaves memory intact", "statement": "rle8m_opencl_init returns false if the OpenCL platform, device, buffers or kernels cannot be created, and it can be called again afterwards, or after a successful initialisation with smaller sizes, without a memory error.", "quantifier": "all sequences of calls and all points of failure of the OpenCL runtime", "why_tests_cant": "needs an OpenCL runtime that fails at a chosen call of a chosen initialisation", "anchors": ["src/rle8_ocl.c: rle8m_opencl_init, rle8m_opencl_destroy"]}
{"id": "C41", "title": "The decoders accept every well-formed stream of the format", "statement": "Every decoder of a codec restores every stream of the codec's wire format, also streams the encoders of the library never write (long fields for small numbers, unneeded symbols, any order of packets), to exactly the data the stream stands for, writing at most 96 bytes behind it.", "quantifier": "all streams of the format, all decoder implementations, all alignments", "why_tests_cant": "other encoders' streams are not produced by the library's own tests", "anchors": ["src/rleX_extreme_cpu_decode.h", "src/rle24_extreme_cpu_decode.h", "src/rle48_extreme_cpu_decode.h", "src/rle128_extreme_cpu.h", "src/rle8_extreme_cpu.h", "src/rleX_Xsl.h", "src/rleX_Xsl_short.h"]}
{"id": "C42", "title": "The encoders write well-formed streams", "statement": "Every encoder of a codec writes a stream of the codec's wire format that stands for the input followed by at most one symbol's worth of the bytes behind it, so that any conforming decoder can read it.", "quantifier": "all inputs, all encoder implementations", "why_tests_cant": "the library's tests only check its own decoders, which tolerate more than the format", "anchors": ["src/rleX_extreme_cpu_encode.h", "src/rle24_extreme_cpu_encode.h", "src/rle48_extreme_cpu_encode.h", "src/rle128_extreme_cpu.h", "src/rle8_extreme_cpu.h", "src/rleX_Xsl_multibyte_encoder.h", "src/rleX_Xsl_short_multibyte_encoder.h"]}
{"id": "C43", "title": "Only instructions the machine supports are executed", "statement": "On every x86-64 machine the implementation chosen from the detected CPU features uses only instructions that processor and operating system support, and there always is one.", "quantifier": "all processors (CPUID answers) and operating systems (XCR0 values), all functions", "why_tests_cant": "needs a matrix of processors and operating system configurations", "anchors": ["src/simd_platform.c: _DetectCPUFeatures", "src/rleX_extreme_cpu.h", "src/rle8_extreme_cpu.h", "src/rleX_Xsl.h", "src/rleX_Xsl_short.h", "src/mmtf.c"]}
{"id": "C44", "title": "Concurrent first calls choose the same implementation", "statement": "If several threads call the library for the first time at once, every call uses the implementation a single-threaded program would use on this machine, and detection ends.", "quantifier": "all numbers of threads, all interleavings of their accesses to the feature flags", "why_tests_cant": "schedules cannot be enumerated by running the program", "anchors": ["src/simd_platform.c: _DetectCPUFeatures"]}
{"id": "C45", "title": "The compressed stream does not depend on the machine", "statement": "The same compress function with the same arguments writes the same stream on every machine, whichever instruction set it chooses: compressed files are reproducible, and can be compared or deduplicated across machines.", "quantifier": "all inputs and sizes, all pairs of machines, all codecs with several encoder implementations", "why_tests_cant": "the implementations differ in where their vector loops start and end; a difference shows only for particular run positions on a pair of machines", "anchors": ["src/rleX_extreme_cpu_encode.h", "src/rle24_extreme_cpu_encode.h", "src/rle48_extreme_cpu_encode.h", "src/rle8_extreme_cpu.h: rle8_multi_compress_sse2, rle8_multi_compress_avx2", "src/rleX_Xsl.h", "src/rleX_Xsl_short.h", "src/rleX_Xsl_multibyte_encoder.h"]}
{"id": "C46", "title": "Packed bits come back", "statement": "Each of the 1, 2, 3 and 4 bit packing functions of bitpack.h packs the lowest bits of every byte into the documented number of bytes, writes nothing else and returns the end of the output; the matching unpacking function restores exactly those bits, reads exactly the packed bytes and returns the end of the input, wherever the packed bytes have been copied.", "quantifier": "all data, all sizes the comment of the function allows, all positions of the buffers (aligned ones for the aligned variants)", "why_tests_cant": "the functions have separate code for the groups, for the rest in half vectors and for the last vector; a missing pointer increment or a bit running over into a neighbour shows only for particular sizes or values", "anchors": ["src/bitpack.h"]}
{"id": "C47", "title": "A fuzzing run that ends without a trap has tested the codecs", "statement": "If the fuzzer (rle_fuzz.c) ends without reaching __debugbreak or a message of failure, every codec has compressed every generated input and restored exactly that input; and the fuzzer never stops for codecs that restore every input.", "quantifier": "all codec tables (any compress and decompress functions), all random numbers, all numbers of sections, all contents of the buffers before", "why_tests_cant": "a fuzzer whose comparison is too weak looks exactly like a fuzzer that finds nothing", "anchors": ["src/rle_fuzz.c: fuzz, MemoryEquals"]}
{"id": "C48", "title": "The fuzzer does not leave its input buffer", "statement": "Filling the input buffer for a test writes only inside the capacity the fuzzer allocated, and what it writes is the described sequence of random and repeated sections, in every round of iterative and random mode.", "quantifier": "all random numbers, all states the fuzzer reaches in any number of rounds, all section counts", "why_tests_cant": "there are 1.2e17 rounds; whether the largest fits can only be computed", "anchors": ["src/rle_fuzz.c: fuzz_fill_buffer, fuzz_sub_state_get_required_buffer_capacity, fuzz_create"]}
{"id": "C49", "title": "Iterative fuzzing does every planned test exactly once", "statement": "In iterative mode the fuzzer goes through every combination of symbol size, alignment, order of sections and section lengths exactly once and then ends; in random mode it never ends by itself.", "quantifier": "all section counts, all random numbers", "why_tests_cant": "the number of combinations is far beyond what can be run", "anchors": ["src/rle_fuzz.c: fuzz_state_advance, fuzz_state_increment, fuzz_sub_state_try_increment"]}
{"id": "C50", "title": "The tool tests exactly the selected codecs", "statement": "With options that restrict the codecs (mode, symbol size, look-up table size, alignment, single, short, packed, greedy), the command line tool runs exactly the codecs whose printed name has every property asked for, each once; no two codecs have the same name.", "quantifier": "all accepted command lines, all machines, all codecs of the table", "why_tests_cant": "there are 2^20 combinations of the options; a codec that is left out by mistake is never missed", "anchors": ["src/main.c: main, CodecMatchesArgs", "src/codec_funcs.h: codec_t, codecNames"]}
{"id": "C51", "title": "--max-simd limits the instruction sets", "statement": "After --max-simd x, the library uses no implementation of a higher level than x and none that the machine does not have, and does not detect again; without the option it uses what the machine has.", "quantifier": "all machines, all levels, all places that choose an implementation", "why_tests_cant": "depends on the machine the test runs on", "anchors": ["src/main.c: main", "src/simd_platform.c"]}
{"id": "C52", "title": "The command line means what it says", "statement": "A list of documented options is accepted exactly if no two of them contradict each other and the machine has the level asked for; the accepted settings are those given; unknown words and missing values are refused.", "quantifier": "all command lines", "why_tests_cant": "unbounded number of command lines; whether a contradiction is found depends on the order of the options", "anchors": ["src/main.c: main"]}
{"id": "C53", "title": "Every codec of the tool is what its name says", "statement": "The table of the tool and the fuzzer pairs, for every codec, the compressor and the decompressor that the printed name describes, and has every configuration of every codec family exactly once.", "quantifier": "all codecs", "why_tests_cant": "a compressor paired with the decompressor of a sister format may work for most inputs; a codec that is entered twice and another left out tests green", "anchors": ["src/codec_funcs.h: codecCallbacks, codecNames"]}
{"id": "C54", "title": "The exit code of --test tells whether the codecs work", "statement": "The tool exits with 0 for files that the library can handle, and writes into its own buffers only; and if it exits with 0 after --test, every selected codec has compressed the file and restored it.", "quantifier": "all machines, all accepted command lines, all files; for the second part all libraries", "why_tests_cant": "a test that passes for broken codecs looks exactly like a test that passes for correct ones", "anchors": ["src/main.c: main, Validate"]}
{"id": "C55", "title": "A low entropy table may be used for other data", "statement": "A table made by get_compress_info for some data can be written, read back (the number of bytes read is the number written) and used by compress_with_info and decompress_with_info for any other data, with either codec: the other data is restored and nothing else is written.", "quantifier": "all data to make the table from, all data to compress, both ways to make the table, both codecs, all memory contents, all processor features", "why_tests_cant": "the interesting cases are values that the table was not made for; a wrong entry for a rare count stays unnoticed", "anchors": ["src/rle.h: rle8_low_entropy_get_compress_info, rle8_low_entropy_compress_with_info, rle8_low_entropy_decompress_with_info", "src/rle8_low_entropy_cpu.c", "src/rle8_low_entropy_short_cpu.c"]}
{"id": "C56", "title": "compress_with_info stays within outSize", "statement": "rle8_low_entropy_compress_with_info and its short variant write at most outSize bytes, or refuse.", "quantifier": "all tables made by get_compress_info, all data, all sizes", "why_tests_cant": "only data that does not fit the table grows; tests compress the data the table was made for", "anchors": ["src/rle8_low_entropy_cpu.c: rle8_low_entropy_compress_with_info", "src/rle8_low_entropy_short_cpu.c: rle8_low_entropy_short_compress_with_info"]}
{"id": "C57", "title": "A compressor writes only the bytes it returns", "statement": "A successful compress call leaves the compressed data in pOut[0 .. returned size) and changes no other byte of the memory of the caller, not even behind the returned size inside the output buffer; a refused call changes nothing.", "quantifier": "all rle8 multi / single, rle16 to rle128, symlut, short and greedy codecs, all inputs, all memory contents, all buffer positions and sizes, all processor features", "why_tests_cant": "stores of whole vectors or registers behind the end only hurt if something else lives there; a test with a buffer of its own does not see them", "anchors": ["src/rle.h: all *_compress", "src/rleX_extreme_cpu_encode.h", "src/rle8_extreme_cpu.h", "src/rleX_Xsl.h", "src/rleX_Xsl_short.h", "src/rleX_Xsl_multibyte_encoder.h", "src/rleX_Xsl_short_multibyte_encoder.h"]}
{"id": "C58", "title": "A compressor never writes outside of the output buffer", "statement": "Whatever the input and the output size, a compress call changes no byte outside of pOut[0 .. outSize).", "quantifier": "all rle8 multi / single, rle16 to rle128, symlut, short and greedy codecs, all inputs, all output sizes, all memory contents, all processor features", "why_tests_cant": "the inputs for which the bound is too small are large or look unlike test data; an overrun by a few bytes mostly goes unnoticed", "anchors": ["src/rle.h: rle_compress_bounds, all *_compress", "src/rleX_extreme_cpu_encode.h", "src/rle8_extreme_cpu.h", "src/rleX_Xsl.h", "src/rleX_Xsl_short.h"]}
{"id": "C59", "title": "Decompression reads only the stream", "statement": "What a decompress call does depends only on the inSize bytes of the stream it is given (and a documented number of bytes behind them), whatever these bytes are.", "quantifier": "all byte sequences, all contents of the memory behind them, all codecs, all processor features", "why_tests_cant": "reads behind the stream normally see mapped memory; streams written by the compressors never show it", "anchors": ["src/rle.h: all *_decompress", "src/rleX_extreme_cpu_decode.h", "src/rle8_extreme_cpu.h", "src/rleX_Xsl.h", "src/rleX_Xsl_short.h", "src/rle8_low_entropy_cpu.c", "src/rle8_mmtf.c", "src/rle_sh.c"]}
{"id": "C60", "title": "Repetitions are compressed", "statement": "Whatever pieces of the input are repetitions of one symbol of the codec (8 to 128 bits), wherever they are and whatever is between them, all but a fixed number of bytes of each piece (5 symbols and 12 bytes) are missing in the compressed data: the size is at most the bound for incompressible data minus these savings. For the codecs with a single symbol this holds for the repetitions of the symbol that is written into the header, and not for others. rle8_mmtf128 saves all but 55 bytes of each repetition of 16 bytes.", "quantifier": "all inputs up to 2^30 bytes, all sets of disjoint repetitions in them, all rle8 multi / single, rle16 to rle128, symlut, short and greedy codecs and rle8_mmtf128, all processor features", "why_tests_cant": "a missed repetition still decompresses correctly, so round trip tests never notice; whether one is missed depends on its position relative to vector blocks and to the runs before it", "anchors": ["src/rle.h: all *_compress", "src/rleX_extreme_cpu_encode.h", "src/rle8_extreme_cpu.h: compress_multi_sse2, compress_multi_avx2, compress_single_sse2", "src/rle128_extreme_cpu.h", "src/rleX_Xsl.h", "src/rleX_Xsl_short.h", "src/rleX_Xsl_multibyte_encoder.h", "src/rleX_Xsl_short_multibyte_encoder.h", "src/rle8_mmtf.c"]}
{"id": "C61", "title": "Decompressing a valid stream depends on at most one vector behind it", "statement": "What a decompress call returns and what it writes, including the bytes behind the data, is determined by the stream and the 16, 32 or 64 bytes (one vector of the processor level) behind it: for every stream of the formats of rle8, rleX, symlut and short, written by these compressors or not, and no smaller number of bytes does. For the streams of the low entropy codecs, rle8m, rle8_mmtf128 and rle8_sh that are restored, nothing behind the stream matters. For arbitrary bytes, the low entropy decoders depend on at most max(inSize + 1, outSize + 296) bytes, and on no less.", "quantifier": "all well-formed streams and all streams of the compressors, all memory contents, all codecs, all processor levels; all byte sequences for the low entropy decoders", "why_tests_cant": "tests decompress from buffers with room behind the stream; a dependence on these bytes shows up as a difference in bytes nobody compares, or as a crash at the end of a page", "anchors": ["src/rle.h: all *_decompress", "src/rleX_extreme_common.h: MEMCPY_*, MEMSET_*", "src/rleX_extreme_cpu_decode.h", "src/rle8_extreme_cpu.h", "src/rleX_Xsl.h", "src/rleX_Xsl_short.h", "src/rle8_low_entropy_cpu.c", "src/rle8_low_entropy_short_cpu.c", "src/rle8_mmtf.c", "src/rle_sh.c"]}
{"id": "C62", "title": "--analyze counts the runs of the file", "statement": "For a file of less than 4 GiB and each symbol length from 1 to 16 bytes, the numbers of runs, the bytes in runs, the bytes between them, the numbers of runs and gaps of each length up to 64, both for symbols at any position and at multiples of their length, are those of the maximal stretches of positions at which the symbol repeats or does not repeat; the histograms count the bytes of the file and the symbols of its runs; the references count the runs whose symbol was used 0 to 15 other symbols ago; the table of differences counts each run that ends before the file at how much longer it and the gap in front of it are than the run before. The share of repeating bytes is below 100 %.", "quantifier": "all files of less than 2^32 bytes, all symbol lengths, both alignments", "why_tests_cant": "the figures come from a state machine with sixteen times two interleaved states; a run missed at the end of the file or counted twice changes plausible numbers into other plausible numbers", "anchors": ["src/main.c: AnalyzeData"]}
{"id": "C63", "title": "--analyze puts every run in the row of its magnitude", "statement": "In the columns AprxLen and AprxCnt a run or gap of 2^b to 2^(b+1) - 1 bytes is counted in the row b + 1 Bit, and a run and the gap in front of it are counted in the entry for their magnitudes of the table of copy length against RLE length.", "quantifier": "all files of less than 2^32 bytes, all symbol lengths, both alignments", "why_tests_cant": "nothing checks what is printed, and the sums are right", "anchors": ["src/main.c: AnalyzeData, l.1329, l.1359, l.1374-1377"]}
{"id": "C64", "title": "--analyze is defined for every file and depends on the file alone", "statement": "For every file the statistics are computed without undefined operations and without entries outside of the tables, from the bytes of the file alone.", "quantifier": "all files, all symbol lengths, all contents of the memory behind the buffer", "why_tests_cant": "the undefined result only selects an entry of a table; the bytes behind the buffer are mostly mapped and mostly different from the file", "anchors": ["src/main.c: AnalyzeData, l.731, l.1295, l.1374"]}
{"id": "C65", "title": "The single symbol encoders code the symbol of an input that mostly is one run", "statement": "If an input contains a run of one byte value that has at least 36 bytes and four times as many bytes as the rest of the input, the single symbol compressors (8 bit single, packed single, short single) choose this value as their symbol, and the stream saves all but 17 bytes of the run compared to the bound for incompressible input.", "quantifier": "all inputs of at most 2^30 bytes with such a run, all byte values, every position of the run", "why_tests_cant": "any symbol decompresses correctly; a wrong choice only shows in the size of the stream, and only for data whose statistics mislead the approximation", "anchors": ["src/rle8_extreme_cpu.c: rle8_single_compress_get_approx_optimal_symbol_sse2", "src/rle8_extreme_cpu.h: compress_single_sse2", "src/rleX_Xsl_short.h"]}
{"id": "C66", "title": "The low entropy encoders code the values worth it", "statement": "In the stream of rle8_low_entropy(_short)_compress a byte value is marked as run length coded exactly if it occurs and two bytes for each piece of its runs are not more than its occurrences; in the stream of the only_max_frequency variant exactly the first of the values that save most, if there is one whose pieces have three bytes on average; the table of lengths lists distinct values by falling number of pieces. The value chosen by only_max_frequency gives the shortest stream among all choices of one value.", "quantifier": "all inputs of at most 2^30 bytes, both families, all byte values", "why_tests_cant": "every choice of values decompresses correctly; which one is made depends on statistics over the whole input", "anchors": ["src/rle8_low_entropy_cpu.c: rle8_low_entropy_get_compress_info, rle8_low_entropy_get_compress_info_only_max_frequency, rle8_low_entropy_write_compress_info", "src/rle8_low_entropy_short_cpu.c"]}
{"id": "C67", "title": "rle8_mmtf128 uses only the bits a stretch of blocks needs", "statement": "The stream of rle8_mmtf128_compress has exactly the size of the following cut of the move-to-front coded blocks of 16 bytes: as many blocks as possible of one and the same byte form a run and take 2 or 5 bytes; the blocks between two runs are stored with the smallest of 2, 3, 4 and 8 bits per byte that all of them fit into, behind 1 or 4 bytes; the header has 8 bytes, the end 1, and up to 15 bytes behind the last block take one byte each.", "quantifier": "all inputs of at most 2^30 bytes, all contents of the output buffer and of uninitialised registers", "why_tests_cant": "a stretch stored with more bits than needed, or a run that ends early, decompresses correctly; only the size is worse", "anchors": ["src/rle8_mmtf.c: rle8_mmtf128_compress", "README.md: uses only the required amount of bits"]}
{"id": "C68", "title": "The greedy encoders do not make streams longer", "statement": "For every input the stream of a greedy compressor (rleX_3symlut_sym_short_greedy_compress and its relatives) is not longer than the stream of the ordinary short compressor for the same format.", "quantifier": "all inputs, all 15 greedy compressors, all implementations of the ordinary one", "why_tests_cant": "both streams decompress correctly; inputs for which the greedy choice loses must be searched", "anchors": ["src/rleX_Xsl_short.h: greedy encoder", "README.md l.251-252: if that would save space"]}
{"id": "C69", "title": "The output buffer does not influence the stream", "statement": "If a compressor accepts a buffer, it accepts every larger one and produces the same stream; neither the place nor the previous content of the buffer matter.", "quantifier": "all inputs of at most 2^30 bytes, all buffer sizes below 2^32, all places and contents of the buffer, all compressors", "why_tests_cant": "tests use one buffer of one size, usually cleared; the refusal depends on where exactly a section ends", "anchors": ["src/rle8_low_entropy_cpu.c: rle8m_compress, rle8_low_entropy_compress_with_info l.476", "src/rle8_mmtf.c", "src/rle_sh.c", "src/rleX_extreme_cpu.h"]}
{"id": "C70", "title": "rle8_sh compresses repetitions of a byte", "statement": "Whatever pieces of the input are repetitions of one byte value, all but 14 bytes of each piece are missing in the stream of rle8_sh_compress: its size is at most n + n / 128 + 19 minus these savings.", "quantifier": "all inputs of at most 2^30 bytes, all sets of disjoint repetitions in them", "why_tests_cant": "a repetition that is copied decompresses correctly; only the size tells", "anchors": ["src/rle_sh.c: rle8_sh_compress, l.451-462"]}
{"id": "C71", "title": "Buffers may have any alignment", "statement": "No decoder uses an instruction that demands an aligned address on an address that is not aligned: every decompression gives the same bytes and the same return value wherever the compressed bytes and the output buffer lie in memory.", "quantifier": "all inputs of at most 2^30 bytes, all addresses of both buffers, all CPU levels, all codecs with aligned loads or stores", "why_tests_cant": "malloc returns aligned buffers, and whether a vector is misplaced depends on the addresses together with all the lengths before it; the fault needs one combination of them", "anchors": ["src/rleX_extreme_common.h: MEMCPY_*, MEMSET_*", "src/rle8_low_entropy_cpu.c l.977-1016", "src/rle8_low_entropy_short_cpu.c l.487-526"]}
{"id": "C72", "title": "Compression takes linear time", "statement": "The number of loop passes of a compressor, those of the loops inside of loops included, is at most a * n + b for every input of n bytes, with small constants a and b.", "quantifier": "all inputs of 1 to 2^30 bytes, all encoders of the library (rle8m: every number of sections up to 2^28, b grows by 2 with each), all SIMD levels; for mmtf and bitmmtf all sizes below 2^56 and all places of the buffers that mmtf allows", "why_tests_cant": "a search that starts again too far back, or an encoder that returns to a wasted run again and again, is only slow for inputs made for it; measured times of usual files do not show it", "anchors": ["src/rle8_extreme_cpu.h: rle8_*_compress, wastedChances l.1215-1288", "src/rleX_extreme_cpu_encode.h", "src/rleX_Xsl_multibyte_encoder.h", "src/rleX_Xsl_short.h", "src/rle8_low_entropy_cpu.c", "src/mmtf.c", "src/bit_mmtf.c", "src/rle8_mmtf.c", "src/rle_sh.c"]}
{"id": "C73", "title": "Decompression takes linear time", "statement": "Decompressing the stream that a compressor made of n bytes takes at most 4 * n + 66 passes of all loops of the decompressor together, those of the copies and fills included; 17 * n + 20 for rle8_mmtf128 and 2 * n + 1 for rle8_sh; the inverse of mmtf takes at most 17 * n + 8000 and that of bitmmtf n + 1 passes on any bytes; the low entropy decompressors take at most 18 * s + 2 passes on any bytes whose header announces s bytes, and rle8m at most 18 * s + 3 * k on its streams of s bytes in k sections.", "quantifier": "all inputs of 1 to 2^30 bytes, all codecs of the library, all implementations, all addresses of the buffers and all memory contents; for the low entropy decoders, mmtf and bitmmtf all streams, well-formed or not", "why_tests_cant": "a copy whose end is passed by (the loops compare with <, the end is computed with wrap-around) or that runs once more per vector still gives the right bytes; only inputs and addresses that meet the case are slow, and nobody measures these", "anchors": ["src/rleX_extreme_common.h: MEMCPY_*, MEMSET_*", "src/rleX_extreme_cpu_decode.h", "src/rle8_extreme_cpu.h: rle8_decompress_*", "src/rleX_Xsl.h", "src/rleX_Xsl_short.h", "src/rle8_low_entropy_cpu.c l.627-1022", "src/rle8_low_entropy_short_cpu.c l.218-532", "src/mmtf.c", "src/bit_mmtf.c", "src/rle8_mmtf.c l.649-1291", "src/rle_sh.c l.509-697"]}
{"id": "C74", "title": "Random fuzzing can come up with every test", "statement": "A run of \"--fuzz-random\" never excludes a test: from every state every combination of symbol size (1 to 16 bytes), counting of lengths in bytes or symbols, and up to the chosen number of sections, alternately random data and a repeated symbol, each with a length within the three ranges 1-280, 768-8192 and 65528-65560, can be the next test; and no other test comes up.", "quantifier": "all numbers of sections of at least 2, all contents of the buffers, all tested codecs, all states a run can reach, all sequences of random numbers", "why_tests_cant": "the tests are drawn at random; a combination that is never drawn looks like one that has not been drawn yet", "anchors": ["src/rle_fuzz.c: fuzz_sub_state_set_random_with_same_type l.137-157, fuzz_state_advance l.285-309", "src/rle_fuzz.c: fuzz_rand_between l.115-121"]}
{"id": "C75", "title": "Streams can be stored one behind the other and decompressed into one buffer, in any order", "statement": "Any number of pieces, each compressed by any codec of the library, can be stored one behind the other without further information than which codec was used: the headers say where each stream ends and how long its output is. Decompressing the streams one after the other, in any order, each to its place in one output buffer, restores all pieces; every call is given the rest of the buffer, and nothing outside of the buffer and its additional bytes is changed.", "quantifier": "all lists of pieces of 1 to 2^30 bytes, all mixtures of codecs, all implementations, all places of the buffers, all memory behind the streams and in the output buffer, all orders of the calls", "why_tests_cant": "tests decompress single streams into buffers of their own; bytes written behind an output are only noticed if something lies there already, and a stream that depends on what follows it is only noticed if something else follows", "anchors": ["src/rle.h: rle_decompress_additional_size l.105, the *_decompress functions", "src/rleX_extreme_common.h: MEMCPY_*, MEMSET_*", "src/rle8_low_entropy_cpu.c", "src/rle8_mmtf.c", "src/rle_sh.c"]}
{"id": "C76", "title": "A file cut short is refused", "statement": "If bytes are missing at the end of a stream, decompressing what is left (with inSize the number of bytes that are left) returns 0 and writes nothing, whatever lies in memory behind them.", "quantifier": "all streams of all compressors, all numbers of bytes that are left, all contents of the memory behind them, all decompressors", "why_tests_cant": "a test cuts some stream at some places, and what lies behind the buffer is whatever the allocator left there, mostly zeros or a freed copy of the stream itself", "anchors": ["src/rleX_extreme_cpu.h: decompress", "src/rle8_extreme_cpu.h: rle8_decompress", "src/rleX_Xsl.h, src/rleX_Xsl_short.h: decompress", "src/rle8_low_entropy_cpu.c: rle8_low_entropy_decompress, rle8m_decompress", "src/rle8_mmtf.c: rle8_mmtf128_decompress", "src/rle_sh.c: rle8_sh_decompress l.509-530"]}
{"id": "C77", "title": "What compress accepts is restored, also above 1 GiB", "statement": "The compressors whose bound is rle_compress_bounds accept inputs of more than 2^30 bytes, for which the bound is 0 (C27). If the output buffer has 193 bytes more than such an input (and n / 64 bytes more for the 8 bit, symlut and short codecs, which can exceed the bound, C22 and C23), the stream fits into it, and decompressing the stream restores the input. The same holds of rle8_mmtf128 (13 bytes more than the input), rle8_sh (n / 128 + 19 bytes more) and, for inputs meeting the condition of C10 and buffers whose size fits into 32 bits, of the low entropy codecs.", "quantifier": "all inputs of more than 2^30 bytes that the compressors accept, all contents, all encoder and decoder levels", "why_tests_cant": "needs inputs of gigabytes; the length that wraps around is only wrong for literals of more than 2^31 - 2 bytes in a row", "anchors": ["src/rle8_extreme_cpu.c: rle_compress_bounds l.22-28", "src/rleX_extreme_cpu_encode.h l.586-602", "src/rle8_extreme_cpu.h: multi_compress l.305-340", "src/rle24_extreme_cpu_encode.h l.576", "src/rle48_extreme_cpu_encode.h l.575", "src/rle128_extreme_cpu.h"]}
{"id": "C78", "title": "A stream belongs to one input", "statement": "Two inputs whose streams are for the same decompressor have the same stream only if they are the same, and no stream is the beginning of another one, whichever implementations, encoders and buffer sizes were used for the two (rle8_multi and rle8_single, normal and greedy encoders share their decompressors). The same holds of rows of streams of several codecs. So comparing compressed data is enough to know that two inputs differ or that they do not.", "quantifier": "all pairs of inputs of 1 to 2^30 bytes (in rows, and for rle8m, those that the format can hold: C10, C12, C13), all pairs of encoders for the same decompressor, all rows of streams", "why_tests_cant": "no set of test files shows that two other files do not collide", "anchors": ["src/rle.h: the *_compress and *_decompress functions", "src/rle8_extreme_cpu.h", "src/rleX_extreme_cpu_encode.h", "src/rleX_Xsl_short.h, src/rleX_Xsl.h", "src/rle8_low_entropy_cpu.c", "src/rle8_mmtf.c", "src/rle_sh.c"]}
{"id": "C79", "title": "Decompressing with the function of another codec is noticed", "statement": "If a stream is passed to the decompress function of another codec than the one that made it, the function does not report that the input has been restored unless it has been.", "quantifier": "all pairs of codecs, all inputs, all implementations", "why_tests_cant": "tests pass each stream to the decompressor it is meant for", "anchors": ["src/rle.h", "src/rleX_extreme_cpu_decode.h, src/rle24_extreme_cpu_decode.h, src/rle48_extreme_cpu_decode.h, src/rle128_extreme_cpu.h"]}
{"id": "C80", "title": "Streams can be compressed again", "statement": "The stream of any codec can be compressed by any other codec, and that stream again, any number of times; the decompressors called in the reverse order, each with the buffer and the size that the one before it has left, restore the data, whatever lies in the buffers behind the streams.", "quantifier": "all lists of codecs of any length and all their implementations, all data whose stages are of 1 to 2^30 bytes and can be held by the format (C10, C12, C13), all contents and places of the buffers", "why_tests_cant": "the number of combinations of codecs is unlimited and none is tested; what a decompressor leaves behind its output becomes what the next one finds behind its input", "anchors": ["src/rle.h: the *_compress and *_decompress functions", "src/rle8_extreme_cpu.h", "src/rleX_extreme_cpu_encode.h, src/rleX_extreme_cpu_decode.h", "src/rleX_Xsl_short.h, src/rleX_Xsl.h", "src/rle8_low_entropy_cpu.c, src/rle8_low_entropy_short_cpu.c", "src/rle8_mmtf.c", "src/rle_sh.c"]}
{"id": "C81", "title": "Restored data gives the same stream again", "statement": "If data restored by a decompressor is compressed again in the buffer it was restored to, by the same compressor with the same size of the output buffer, the stream is the one it was restored from, whatever the buffer holds behind the data.", "quantifier": "all codecs and implementations, all inputs of 1 to 2^30 bytes that the format can hold (C10, C12, C13), all contents and places of the buffers", "why_tests_cant": "what decompressors leave behind their output, and encoders read there, depends on the machine and on the history of the buffer; tests do not compress restored data", "anchors": ["src/rle8_extreme_cpu.h", "src/rleX_extreme_cpu_encode.h, src/rle24_extreme_cpu_encode.h, src/rle48_extreme_cpu_encode.h, src/rle128_extreme_cpu.h", "src/rleX_Xsl_multibyte_encoder.h, src/rleX_Xsl_short_multibyte_encoder.h", "src/rle8_low_entropy_cpu.c, src/rle8_low_entropy_short_cpu.c", "src/rle_sh.c"]}
{"id": "C82", "title": "A damaged stream is noticed", "statement": "If a byte of a stream has been changed on the way, the decompressor refuses the stream (returns 0) or restores the input all the same; it does not return the size of the input having written something else.", "quantifier": "all codecs and implementations, all inputs, every byte of the stream and every other value for it", "why_tests_cant": "there are far too many streams and changes to try; tests do not damage streams", "anchors": ["src/rle.h: the *_decompress functions", "src/rleX_extreme_cpu_decode.h, src/rle8_extreme_cpu.h", "src/rleX_Xsl.h, src/rleX_Xsl_short.h", "src/rle8_low_entropy_cpu.c, src/rle8_low_entropy_short_cpu.c", "src/rle8_mmtf.c", "src/rle_sh.c"]}
{"id": "C83", "title": "Data of any size can be compressed in blocks", "statement": "Data that is larger than the compressors take can be cut into blocks of one size (the last one may be shorter) that are compressed one after the other, with one output buffer that suffices for a whole block, and stored in a row. The compressor reads the following block behind the end of the one it compresses. As many calls of the decompressor as there are blocks, with the sizes found in the headers, restore the data; what the decompressor writes behind a block is overwritten by the next one, and nothing more than 128 bytes behind the data is changed. Each block can also be restored by itself: the headers of the blocks in front lead to it.", "quantifier": "all codecs and implementations, data of any size that fits into the address space, all block sizes from 1 to 2^30, all contents and places of the buffers; blocks that the format can hold (C10, C12, C13)", "why_tests_cant": "needs data of more than 4 GiB and every block size; what lies behind a block are the bytes of the next one", "anchors": ["src/rle.h: the *_compress, *_decompress and *_bounds functions", "src/rle8_extreme_cpu.c: rle_compress_bounds l.22-28, rle_decompress_additional_size l.17-20", "src/rleX_extreme_cpu_encode.h, src/rleX_extreme_cpu_decode.h", "src/rleX_Xsl.h, src/rleX_Xsl_short.h", "src/rle8_low_entropy_cpu.c, src/rle8_low_entropy_short_cpu.c", "src/rle8_mmtf.c", "src/rle_sh.c"]}
{"id": "C84", "title": "The buffers of the tool are large enough", "statement": "Whatever file is given to the tool, no compressor writes behind the buffer that the tool has allocated for the compressed data, and no decompressor behind the one for the restored data, although the tool tells the decompressor the size of the wrong one of the two.", "quantifier": "all files of 1 to 2^30 bytes, all codecs of the tool, all implementations", "why_tests_cant": "whether a compressor writes behind the buffer depends on the content of the file; nothing is noticed unless the heap is damaged", "anchors": ["src/main.c l.722-733, l.835, l.970", "src/rle8_extreme_cpu.h: multi_compress", "src/rle8_extreme_cpu.c: rle_compress_bounds l.22-28", "src/rle8_low_entropy_cpu.c: rle8_low_entropy_compress_bounds l.6-9"]}
