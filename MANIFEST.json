{
 "claims": [
  {
   "property": "C01",
   "status": "proved",
   "theorems": [
    "C01_rleX_round_trip"
   ],
   "note": "all encoder/decoder levels of rle16/32/64 sym and byte"
  },
  {
   "property": "C02",
   "status": "proved",
   "theorems": [
    "C02_rleX_packed_round_trip"
   ],
   "note": ""
  },
  {
   "property": "C03",
   "status": "proved",
   "theorems": [
    "C03_rle24_48_round_trip"
   ],
   "note": ""
  },
  {
   "property": "C04",
   "status": "proved",
   "theorems": [
    "C04_rle128_round_trip"
   ],
   "note": "includes the wrap-around copy caused by the byte_packed end marker"
  },
  {
   "property": "C05",
   "status": "proved",
   "theorems": [
    "C05_rle8_multi_round_trip"
   ],
   "note": "large enough = multi_space; rle_compress_bounds itself is not always enough for the unpacked codec, see C23"
  },
  {
   "property": "C06",
   "status": "proved",
   "theorems": [
    "C06_rle8_single_round_trip"
   ],
   "note": "large enough = single_space; rle_compress_bounds itself is not always enough for the packed codec, see C23"
  },
  {
   "property": "C07",
   "status": "proved",
   "theorems": [
    "C07_sl_round_trip"
   ],
   "note": "all 22 rleX_Xsl codecs, every encoder and decoder level; large enough = sl_space"
  },
  {
   "property": "C08",
   "status": "proved",
   "theorems": [
    "C08_short_round_trip"
   ],
   "note": "all 45 short codecs, every level; large enough = sh_space = rle_compress_bounds + n/65537"
  },
  {
   "property": "C09",
   "status": "proved",
   "theorems": [
    "C09_greedy_round_trip"
   ],
   "note": "all 15 greedy encoders; large enough = sh_space"
  },
  {
   "property": "C10",
   "status": "partial",
   "theorems": [
    "C10_low_entropy_round_trip_partial",
    "C10_low_entropy_restores_iff",
    "C10_low_entropy_flags",
    "C10_low_entropy_lonely",
    "C10_low_entropy_round_trip_small_partial",
    "C10_low_entropy_round_trip_refuted"
   ],
   "note": "false of the code if run length coding is worth it for all 256 byte values (uint8_t count of run length coded values wraps to 0); proved that the input is restored exactly if it is not worth it for some value, in particular if some value never occurs twice in a row and below 512 bytes; capacity le_size, see C26"
  },
  {
   "property": "C11",
   "status": "proved",
   "theorems": [
    "C11_only_max_frequency_round_trip"
   ],
   "note": "both rle8_low_entropy and rle8_low_entropy_short; capacity le_bounds"
  },
  {
   "property": "C12",
   "status": "partial",
   "theorems": [
    "C12_low_entropy_short_round_trip_partial",
    "C12_low_entropy_short_round_trip_refuted",
    "C10_low_entropy_restores_iff",
    "C10_low_entropy_round_trip_small_partial",
    "C11_only_max_frequency_round_trip"
   ],
   "note": "same failure as C10; only_max_frequency variant proved without condition"
  },
  {
   "property": "C13",
   "status": "partial",
   "theorems": [
    "C13_rle8m_round_trip_partial",
    "C13_rle8m_round_trip_refuted"
   ],
   "note": "same failure as C10; proved for 1 .. 2^28 sections if run length coding is not worth it for some byte value and inSize is exactly the stream size"
  },
  {
   "property": "C14",
   "status": "proved",
   "theorems": [
    "C14_groups_any_order",
    "C35_decompress_partial"
   ],
   "note": "every interleaving of the work groups, one memory write at a time; up to 2^28 sections"
  },
  {
   "property": "C15",
   "status": "proved",
   "theorems": [
    "C15_mmtf_round_trip",
    "C15_mmtf_converse",
    "C15_mmtf_same_on_all_cpus"
   ],
   "note": "source and destination anywhere, overlapping allowed if the destination does not start behind the source; SSE2 present, otherwise the functions return 0"
  },
  {
   "property": "C16",
   "status": "proved",
   "theorems": [
    "C16_mmtf_is_lane_mtf",
    "C16_mmtf_decode_inverts_lane_mtf"
   ],
   "note": ""
  },
  {
   "property": "C17",
   "status": "proved",
   "theorems": [
    "C17_bitmmtf_round_trip",
    "C17_bitmmtf_converse"
   ],
   "note": ""
  },
  {
   "property": "C18",
   "status": "proved",
   "theorems": [
    "C18_bitmmtf8_is_xor",
    "C18_bitmmtf16_is_xor",
    "C18_bitmmtf8_decode_inverts",
    "C18_bitmmtf16_decode_inverts"
   ],
   "note": ""
  },
  {
   "property": "C19",
   "status": "proved",
   "theorems": [
    "C19_rle8_mmtf128_round_trip"
   ],
   "note": "for every content of the uninitialised accumulator, of the output buffer and every capacity of at least n + 13 (rle8_mmtf128_compress_bounds is too small, see C24)"
  },
  {
   "property": "C20",
   "status": "proved",
   "theorems": [
    "C20_rle8_sh_round_trip",
    "C20_rle8_sh_corrupted_refuted"
   ],
   "note": "large enough = n + n/128 + 19, for every content of the output buffer; at rle8_sh_bounds itself a concrete input is silently corrupted"
  },
  {
   "property": "C21",
   "status": "proved",
   "theorems": [
    "C21_ext_stays_inside",
    "C21_rle8_multi_stays_inside",
    "C21_rle8_single_stays_inside",
    "C21_sl_stays_inside",
    "C21_short_stays_inside",
    "C21_low_entropy_stays_inside",
    "C21_rle8m_stays_inside",
    "C21_rle8_mmtf128_stays_inside",
    "C21_rle8_sh_stays_inside"
   ],
   "note": ""
  },
  {
   "property": "C22",
   "status": "partial",
   "theorems": [
    "C22_ext_within_bounds",
    "C22_ext_within_60",
    "C22_rle8_packed_multi_within_bounds",
    "C22_rle8_single_within_bounds",
    "C22_sl_bounds_exactly",
    "C22_sl_bounds_refuted",
    "C22_sl24_bounds_refuted",
    "C22_sl_wide_within_bounds",
    "C22_sl_within_bounds_partial",
    "C22_sl_space",
    "C22_short_bounds_exactly",
    "C22_short_bounds_refuted",
    "C22_greedy_bounds_refuted",
    "C22_short_within_bounds_partial",
    "C22_short_space"
   ],
   "note": "decided for every codec: proved for the extreme multi-byte codecs, rle8_packed_multi, rle8_single, symlut of 48 and 64 bit, short of 64 bit and of whole 32 bit symbols; false for the other symlut and short codecs and the greedy encoders (witnesses of 13 MB, 24 bit symlut shorter), and for rle8_multi and rle8_packed_single (C23); a correct bound is proved for all; the other families have bounds functions of their own (C24, C25, C26)"
  },
  {
   "property": "C23",
   "status": "partial",
   "theorems": [
    "C23_rle8_multi_bounds_refuted",
    "C23_rle8_packed_single_bounds_refuted",
    "C23_rle8_multi_space",
    "C23_rle8_single_space"
   ],
   "note": "the property is false of the code: both codecs exceed the bound on concrete inputs; a correct bound is proved instead"
  },
  {
   "property": "C24",
   "status": "partial",
   "theorems": [
    "C24_rle8_mmtf128_bounds_refuted",
    "C24_rle8_mmtf128_size",
    "C24_rle8_mmtf128_writes"
   ],
   "note": "the property is false of the code: rle8_mmtf128_compress_bounds(1) = 9 but 11 bytes are written; n + 13 is proved to be enough"
  },
  {
   "property": "C25",
   "status": "partial",
   "theorems": [
    "C25_rle8_sh_bounds_refuted",
    "C25_rle8_sh_size",
    "C25_rle8_sh_writes",
    "C20_rle8_sh_corrupted_refuted"
   ],
   "note": "the property is false of the code: for one byte and rle8_sh_bounds(1) = 14 bytes 15 bytes are returned; n + n/128 + 19 is proved to be enough"
  },
  {
   "property": "C26",
   "status": "partial",
   "theorems": [
    "C26_only_max_frequency_within_bounds",
    "C26_low_entropy_bounds_refuted",
    "C26_low_entropy_short_bounds_refuted",
    "C26_rle8m_bounds_refuted",
    "C26_low_entropy_size",
    "C26_rle8m_size"
   ],
   "note": "false of the code except for only_max_frequency: concrete inputs exceed the bound; correct bounds proved"
  },
  {
   "property": "C27",
   "status": "partial",
   "theorems": [
    "C27_oversize_refuted",
    "C27_rle8_sh_oversize_refuted",
    "C27_rle8_multi_oversize_refuted",
    "C27_rle8_single_oversize_refuted",
    "C27_sl_oversize_refuted",
    "C27_short_oversize_refuted",
    "C27_rle8_mmtf128_oversize_refuted"
   ],
   "note": "the property is false of the code: every size above 2^30 passes the guard with any capacity"
  },
  {
   "property": "C28",
   "status": "proved",
   "theorems": [
    "C28_ext_compress_args",
    "C28_ext_decompress_args",
    "C28_rle8_multi_compress_args",
    "C28_rle8_single_compress_args",
    "C28_rle8_decompress_args",
    "C28_sl_compress_args",
    "C28_sl_decompress_args",
    "C28_short_compress_args",
    "C28_short_decompress_args",
    "C28_low_entropy_compress_args",
    "C28_rle8m_compress_args",
    "C28_low_entropy_decompress_args",
    "C28_rle8m_decompress_args",
    "C28_mmtf_small_refused",
    "C28_bitmmtf_small_refused",
    "C28_bitmmtf_null_refused",
    "C28_rle8_mmtf128_compress_args",
    "C28_rle8_mmtf128_decompress_args",
    "C28_rle8_sh_compress_args",
    "C28_rle8_sh_decompress_args",
    "C28_opencl_decompress_args",
    "C28_rle8_mode_refused"
   ],
   "note": ""
  },
  {
   "property": "C29",
   "status": "proved",
   "theorems": [
    "C29_ext_header",
    "C29_ext_truncated",
    "C29_rle8_multi_header",
    "C29_rle8_single_header",
    "C29_rle8_multi_truncated",
    "C29_rle8_single_truncated",
    "C29_sl_header",
    "C29_sl_truncated",
    "C29_short_header",
    "C29_short_truncated",
    "C29_low_entropy_header",
    "C29_low_entropy_decompressed_size",
    "C29_low_entropy_truncated",
    "C29_rle8m_header",
    "C29_rle8m_truncated",
    "C29_rle8_mmtf128_header",
    "C29_rle8_mmtf128_truncated",
    "C29_rle8_sh_header",
    "C29_rle8_sh_truncated"
   ],
   "note": ""
  },
  {
   "property": "C30",
   "status": "partial",
   "theorems": [
    "C30_oob_read_refuted",
    "C30_low_entropy_input_only",
    "C30_rle8m_input_only",
    "C30_rle8_mmtf128_input_only",
    "C30_rle8_mmtf128_undefined_refuted",
    "C30_rle8_sh_input_only",
    "C30_rle8_sh_memory",
    "C30_ext_depends_exactly",
    "C30_sl_depends_exactly",
    "C30_short_depends_exactly",
    "C30_greedy_depends_exactly",
    "C30_rle8_multi_input_only",
    "C30_rle8_single_input_only",
    "C30_ext_input_only_refuted",
    "C30_sl_input_only_exactly",
    "C30_short_input_only_exactly",
    "C30_greedy_input_only_refuted"
   ],
   "note": "the property is false of the code: the stream of every multi byte codec depends on exactly one symbol behind the input, and that of rle8_mmtf128 on an uninitialised register; decided for every codec, proved for the 8 bit codecs, low entropy, rle8m and rle8_sh"
  },
  {
   "property": "C31",
   "status": "proved",
   "theorems": [
    "C31_ext_oob_harmless",
    "C31_rle8_multi_oob_harmless",
    "C31_rle8_single_oob_harmless",
    "C31_sl_oob_harmless",
    "C31_short_oob_harmless",
    "C42_encoders_write_format",
    "C42_rle8_multi_writes_format",
    "C42_rle8_single_writes_format",
    "C42_lut_writes_format",
    "C42_short_writes_format"
   ],
   "note": "the bound of one symbol on the excess is part of C42; the other families read nothing behind the input (C30)"
  },
  {
   "property": "C32",
   "status": "proved",
   "theorems": [
    "C32_ext_portable",
    "C32_rle8_multi_portable",
    "C32_rle8_single_portable",
    "C32_sl_portable",
    "C32_short_portable",
    "C32_low_entropy_portable",
    "C32_ext_decoders_agree",
    "C32_rle8_multi_decoders_agree",
    "C32_rle8_single_decoders_agree",
    "C32_sl_decoders_agree",
    "C32_short_decoders_agree",
    "C32_low_entropy_decoders_agree",
    "C32_rle8m_decoders_agree"
   ],
   "note": "rle8_mmtf128 and rle8_sh have one decoder each; for low entropy and rle8m on the inputs that are restored at all (C10, C12, C13)"
  },
  {
   "property": "C33",
   "status": "partial",
   "theorems": [
    "C33_hostile_stream_refuted",
    "C33_rle8_sh_hostile_refuted",
    "C33_ext_refuted",
    "C33_rle8_refuted",
    "C33_sl_refuted",
    "C33_short_refuted",
    "C33_low_entropy_refuted",
    "C33_rle8m_refuted",
    "C33_rle8_mmtf128_refuted",
    "C33_rle8_sh_refuted",
    "C33_low_entropy_any_stream_partial",
    "C33_rle8m_any_stream_partial"
   ],
   "note": "the property is false of the code, for every decoder at every CPU level: none checks the stream; the low entropy decoders at least end on every stream and write at most 128 bytes per byte of it, and rle8m ends on every stream and writes nothing in front of the buffer"
  },
  {
   "property": "C34",
   "status": "proved",
   "theorems": [
    "C34_table_bijection"
   ],
   "note": ""
  },
  {
   "property": "C35",
   "status": "partial",
   "theorems": [
    "C35_decompress_partial",
    "C35_first_call_refuted",
    "C35_overrun_refuted",
    "C35_stale_offsets_refuted"
   ],
   "note": "the property is false of the code: the offsets are written before rle8m_opencl_init; it holds in every reachable state whose last initialisation allocated enough"
  },
  {
   "property": "C36",
   "status": "proved",
   "theorems": [
    "C36_packing_lossless",
    "C36_decoder_unpacks"
   ],
   "note": "2, 3 and 4 bit packing and the unpacked move, for up to 2^40 blocks, in place or to lower addresses"
  },
  {
   "property": "C37",
   "status": "proved",
   "theorems": [
    "C37_run_is_periodic",
    "C37_lut_run_is_periodic",
    "C37_short_run_is_periodic"
   ],
   "note": "extreme multi-byte, symlut and short codecs; runs among other packets are covered by C41"
  },
  {
   "property": "C38",
   "status": "partial",
   "theorems": [
    "C38_rle8m_surplus_input_refuted"
   ],
   "note": "the property is false of the code: the last section ends at pIn + inSize"
  },
  {
   "property": "C39",
   "status": "proved",
   "theorems": [
    "C39_mmtf_in_place",
    "C39_bitmmtf_in_place",
    "C16_mmtf_is_lane_mtf",
    "C18_bitmmtf8_is_xor",
    "C18_bitmmtf16_is_xor"
   ],
   "note": ""
  },
  {
   "property": "C40",
   "status": "partial",
   "theorems": [
    "C40_init_double_free_refuted",
    "C40_first_init_partial"
   ],
   "note": "the property is false of the code: pPlatforms is freed but not reset"
  },
  {
   "property": "C41",
   "status": "proved",
   "theorems": [
    "C41_decoders_accept_format",
    "C41_rle8_multi_accepts_format",
    "C41_rle8_single_accepts_format",
    "C41_lut_accepts_format",
    "C41_short_accepts_format"
   ],
   "note": "extreme multi-byte, 8 bit multi and single, symlut, short codecs"
  },
  {
   "property": "C42",
   "status": "proved",
   "theorems": [
    "C42_encoders_write_format",
    "C42_rle8_multi_writes_format",
    "C42_rle8_single_writes_format",
    "C42_lut_writes_format",
    "C42_short_writes_format"
   ],
   "note": "extreme multi-byte, 8 bit multi and single, symlut, short and greedy encoders"
  },
  {
   "property": "C43",
   "status": "partial",
   "theorems": [
    "C43_instructions_supported_refuted",
    "C43_instructions_supported_partial",
    "C43_calls_supported_partial",
    "C43_sse_supported_partial",
    "C43_some_implementation"
   ],
   "note": "the property is false of the code: avx2Supported and avx512FSupported ignore XCR0, avxSupported accepts XMM state alone; it holds if the operating system enables all the processor has, and always for SSE"
  },
  {
   "property": "C44",
   "status": "proved",
   "theorems": [
    "C44_concurrent_first_calls",
    "C44_detection_ends"
   ],
   "note": "sequentially consistent accesses to the flags"
  },
  {
   "property": "C45",
   "status": "partial",
   "theorems": [
    "C45_ext_same_stream",
    "C45_symlut_same_stream",
    "C45_short_same_stream",
    "C45_rle8_multi_same_stream",
    "C45_rle8_packed_multi_refuted"
   ],
   "note": "proved for all codecs except rle8_packed_multi, of which it is false: the loop over the last bytes is stricter than the vector loop"
  },
  {
   "property": "C46",
   "status": "partial",
   "theorems": [
    "C46_encode1",
    "C46_encode2_partial",
    "C46_encode2_m128i_partial",
    "C46_encode3_3_partial",
    "C46_encode3_6_partial",
    "C46_encode4_partial",
    "C46_encode4_m128i_partial",
    "C46_encode3_m128i_partial",
    "C46_encode3_m128i_exactly",
    "C46_encode3_m128i_refuted",
    "C46_encode2_refuted",
    "C46_encode2_m128i_refuted",
    "C46_encode3_3_refuted",
    "C46_encode3_6_refuted",
    "C46_encode4_refuted",
    "C46_encode4_m128i_refuted"
   ],
   "note": "true as stated of 1 bit only; for 2, 3, 4 bits proved for bytes without higher bits and refuted for others; bitpack_encode3_sse2_unaligned_m128i loses vectors if four or five are left after the groups of six (its behaviour is characterised exactly)"
  },
  {
   "property": "C47",
   "status": "partial",
   "theorems": [
    "C47_fuzz_refuted",
    "C47_fuzz_partial",
    "C47_round_partial",
    "C47_memory_equals",
    "C47_memory_equals_refuted",
    "C47_no_false_alarm"
   ],
   "note": "false: MemoryEquals compares only the highest bit of each byte except in the last 1 to 32 bytes, so a codec that damages data passes; proved: what a successful run does show, and that correct codecs never raise an alarm in iterative mode"
  },
  {
   "property": "C48",
   "status": "proved",
   "theorems": [
    "C48_fill_inside"
   ],
   "note": "iterative mode with one section or more, random mode with two or more"
  },
  {
   "property": "C49",
   "status": "proved",
   "theorems": [
    "C49_all_tests_once",
    "C49_only_planned",
    "C49_ends",
    "C49_random_goes_on"
   ],
   "note": "random numbers are an arbitrary stream"
  },
  {
   "property": "C50",
   "status": "partial",
   "theorems": [
    "C50_selection_partial",
    "C50_selection_refuted",
    "C50_nonempty_refuted",
    "C50_names_distinct"
   ],
   "note": "false if --not-short is followed by --low-entropy-short, which silently overrides it; proved for all other accepted command lines; two modes select nothing"
  },
  {
   "property": "C51",
   "status": "partial",
   "theorems": [
    "C51_simd_limited",
    "C51_simd_unlimited",
    "C51_none_refuted"
   ],
   "note": "proved with SSE2 as the lowest level; --max-simd none does not keep the library from using SSE2"
  },
  {
   "property": "C52",
   "status": "partial",
   "theorems": [
    "C52_accepted_iff",
    "C52_settings",
    "C52_unknown_refused",
    "C52_missing_value",
    "C52_negative_refused",
    "C52_exclusive_refuted",
    "C52_values_refuted"
   ],
   "note": "proved for documented options with offered values, with the contradictions the program looks for; some contradictions are found in one order only, and values that are not offered are often taken for others"
  },
  {
   "property": "C53",
   "status": "proved",
   "theorems": [
    "C53_table_described",
    "C53_table_complete",
    "C53_table_nothing_else"
   ],
   "note": "finite: all 121 codecs"
  },
  {
   "property": "C54",
   "status": "partial",
   "theorems": [
    "C54_test_passes",
    "C54_test_passes_refuted",
    "C54_test_sound",
    "C54_test_sound_refuted",
    "C54_unread_refuted",
    "C54_large_copy_overflows"
   ],
   "note": "proved: files of up to 6938 bytes with few values pass on every machine; exit code 0 shows that the file was in the output buffer after every codec; false: that the decompressor has put it there, that an unread file is reported, that the tool stays in its buffers for files of 4 GiB or more"
  },
  {
   "property": "C55",
   "status": "partial",
   "theorems": [
    "C55_shared_table_partial",
    "C55_shared_table_refuted",
    "C55_table_size"
   ],
   "note": "proved for every table but those that select all 256 values (same failure as C10), also across the two codecs"
  },
  {
   "property": "C56",
   "status": "partial",
   "theorems": [
    "C56_with_info_fits_partial",
    "C56_with_info_fits_refuted"
   ],
   "note": "false: outSize >= inSize is all that is checked, and a table made for other data may double the size; twice the size is always enough"
  },
  {
   "property": "C57",
   "status": "partial",
   "theorems": [
    "C57_ext_writes",
    "C57_sl_writes",
    "C57_greedy_writes",
    "C57_rle8_multi_writes",
    "C57_rle8_single_writes",
    "C57_short_writes",
    "C57_short48_refuted",
    "C57_ext_only_result",
    "C57_sl_only_result",
    "C57_short_only_result",
    "C57_greedy_only_result",
    "C57_rle8_multi_only_result",
    "C57_rle8_single_only_result"
   ],
   "note": "proved for all codecs but rle48_sym_short and rle48_byte_short, which may overwrite one byte behind the result (refuted)"
  },
  {
   "property": "C58",
   "status": "partial",
   "theorems": [
    "C58_ext_inside",
    "C58_sl_inside_exactly",
    "C58_short_inside_exactly",
    "C58_greedy_inside_refuted",
    "C58_rle8_multi_inside_exactly",
    "C58_rle8_single_inside_exactly"
   ],
   "note": "decided for every codec: proved where rle_compress_bounds is large enough (C22), false for all others"
  },
  {
   "property": "C59",
   "status": "partial",
   "theorems": [
    "C59_ext_refuted",
    "C59_rle8_refuted",
    "C59_sl_refuted",
    "C59_short_refuted",
    "C59_low_entropy_refuted",
    "C59_rle8m_refuted",
    "C59_rle8_mmtf128_refuted",
    "C59_rle8_sh_refuted"
   ],
   "note": "the property is false of the code, for every decoder at every CPU level: the compressed size in the header is only compared with inSize"
  },
  {
   "property": "C60",
   "status": "proved",
   "theorems": [
    "C60_ext_saves",
    "C60_sl_saves",
    "C60_short_saves",
    "C60_greedy_saves",
    "C60_rle8_multi_saves",
    "C60_rle8_single_saves",
    "C60_short_single_saves",
    "C60_rle8_mmtf128_saves",
    "C60_rle8_single_other_symbols_refuted",
    "C60_short_single_other_symbols_refuted"
   ],
   "note": "for the single symbol codecs the repetitions of the symbol in the header; that other repetitions are not saved is proved as well"
  },
  {
   "property": "C61",
   "status": "proved",
   "theorems": [
    "C61_ext_exactly",
    "C61_rle8_multi_exactly",
    "C61_rle8_single_exactly",
    "C61_sl_exactly",
    "C61_short_exactly",
    "C61_ext_own_streams",
    "C61_rle8_multi_own_streams",
    "C61_rle8_single_own_streams",
    "C61_sl_own_streams",
    "C61_short_own_streams",
    "C61_ext_own_streams_less_refuted",
    "C61_rle8_multi_own_streams_less_refuted",
    "C61_rle8_single_own_streams_less_refuted",
    "C61_sl_own_streams_less_refuted",
    "C61_short_own_streams_less_refuted",
    "C61_low_entropy_own_streams",
    "C61_low_entropy_max_own_streams",
    "C61_rle8m_own_streams",
    "C61_rle8_mmtf128_own_streams",
    "C61_rle8_sh_own_streams",
    "C61_low_entropy_not_restored_refuted",
    "C61_low_entropy_any_bytes",
    "C61_low_entropy_any_bytes_in_refuted",
    "C61_low_entropy_any_bytes_out_refuted"
   ],
   "note": "proved exact for the formats; for the own streams of the vector codecs one vector is enough and one vector less two bytes is not; low entropy streams of inputs in which every byte value is worth run length coding are not restored (C10) and do depend on more, which is proved as well"
  },
  {
   "property": "C62",
   "status": "proved",
   "theorems": [
    "C62_runs",
    "C62_aligned_runs",
    "C62_sum",
    "C62_aligned_sum",
    "C62_share",
    "C62_sum_within_file_refuted",
    "C62_histogram",
    "C62_run_histogram",
    "C62_recurring",
    "C62_aligned_recurring",
    "C62_differences",
    "C62_aligned_differences"
   ],
   "note": "the sum of the bytes in runs and gaps may exceed the size of the file for symbols of several bytes, which is proved as well; the printed percentages are not modelled"
  },
  {
   "property": "C63",
   "status": "partial",
   "theorems": [
    "C63_magnitudes_partial",
    "C63_aligned_magnitudes_partial",
    "C63_magnitudes_never",
    "C63_table_partial",
    "C63_aligned_table_partial",
    "C63_table_refuted"
   ],
   "note": "the property is false of the code: 63 - __builtin_clz puts every stretch 32 rows too far down and every run into the last entry of the table; what is counted instead is proved"
  },
  {
   "property": "C64",
   "status": "partial",
   "theorems": [
    "C64_undefined_iff",
    "C64_aligned_undefined_iff",
    "C64_defined_refuted",
    "C64_tables",
    "C64_aligned_tables",
    "C64_reads_partial",
    "C64_aligned_reads_partial",
    "C64_file_alone_refuted"
   ],
   "note": "false of the code: __builtin_clz(0) is executed exactly for files that begin with a run that ends, and up to 15 bytes behind the buffer are read and matter; the entries stay inside of the tables"
  },
  {
   "property": "C65",
   "status": "partial",
   "theorems": [
    "C65_rle8_single_takes_run_partial",
    "C65_short_single_takes_run_partial",
    "C65_rle8_single_takes_run_refuted",
    "C65_short_single_takes_run_refuted"
   ],
   "note": "false of the code for the value 0 in inputs that begin with another value (the counter of the runs of 0 starts at -1); proved for all other values and inputs"
  },
  {
   "property": "C66",
   "status": "partial",
   "theorems": [
    "C66_low_entropy_codes_worth",
    "C66_only_max_frequency_codes_best",
    "C66_best_unique",
    "C66_best_exists",
    "C66_table_order",
    "C66_only_max_frequency_shortest_refuted"
   ],
   "note": "everything proved but the last sentence, which is false of the code: a run at the end of the input is counted as one piece"
  },
  {
   "property": "C67",
   "status": "partial",
   "theorems": [
    "C67_rle8_mmtf128_size_partial",
    "C67_rle8_mmtf128_size_zero",
    "C67_one_cut",
    "C67_rle8_mmtf128_size_refuted"
   ],
   "note": "false of the code for the first stretch, whose bits are collected in a register that is not initialised; the exact size is proved with the content of this register as a parameter, and as stated if it is 0"
  },
  {
   "property": "C68",
   "status": "partial",
   "theorems": [
    "C68_greedy_not_longer_refuted"
   ],
   "note": "the property is false of the code, for each of the 15 greedy encoders"
  },
  {
   "property": "C69",
   "status": "partial",
   "theorems": [
    "C69_ext_larger_buffer",
    "C69_sl_larger_buffer",
    "C69_short_larger_buffer",
    "C69_greedy_larger_buffer",
    "C69_rle8_multi_larger_buffer",
    "C69_rle8_single_larger_buffer",
    "C69_low_entropy_larger_buffer",
    "C69_rle8_mmtf128_larger_buffer",
    "C69_rle8m_one_stream_partial",
    "C69_rle8m_larger_buffer_refuted",
    "C69_rle8_sh_larger_buffer_partial",
    "C69_rle8_sh_larger_buffer_refuted"
   ],
   "note": "proved for all compressors but two: rle8m may accept the documented size (and write behind it) and refuse one byte more; rle8_sh produces different streams for buffers between n + 8 and n + n / 128 + 18 bytes"
  },
  {
   "property": "C70",
   "status": "partial",
   "theorems": [
    "C70_rle8_sh_saves_partial",
    "C70_rle8_sh_constant",
    "C70_rle8_sh_saves_refuted"
   ],
   "note": "proved for all repetitions that do not end the input; a repetition at the end is copied, so that a file of one byte value (other than 127) grows by 18 bytes"
  },
  {
   "property": "C71",
   "status": "proved",
   "theorems": [
    "C71_copies_aligned",
    "C71_fills_aligned",
    "C71_low_entropy_runs_aligned",
    "C71_ext_any_place",
    "C71_rle8_multi_any_place",
    "C71_rle8_single_any_place",
    "C71_sl_any_place",
    "C71_short_any_place",
    "C71_low_entropy_any_place",
    "C71_rle8m_any_place"
   ],
   "note": "the models of all copies and fills stop with no result if an aligned access is misplaced, so that all other theorems about the decoders exclude this as well"
  },
  {
   "property": "C72",
   "status": "proved",
   "theorems": [
    "C72_ext_linear",
    "C72_rle8_multi_linear",
    "C72_rle8_single_linear",
    "C72_sl_linear",
    "C72_short_linear",
    "C72_greedy_linear",
    "C72_low_entropy_linear",
    "C72_mmtf_linear",
    "C72_bitmmtf_linear",
    "C72_rle8_mmtf128_linear",
    "C72_rle8m_linear",
    "C72_rle8_sh_linear"
   ],
   "note": "counted are the passes of all loops of the encoders; copies of literals, together not longer than the stream, and the tables of the low entropy codecs are not counted"
  },
  {
   "property": "C73",
   "status": "proved",
   "theorems": [
    "C73_ext_linear",
    "C73_rle8_multi_linear",
    "C73_rle8_single_linear",
    "C73_sl_linear",
    "C73_short_linear",
    "C73_greedy_linear",
    "C73_low_entropy_linear",
    "C73_mmtf_linear",
    "C73_bitmmtf_linear",
    "C73_rle8_mmtf128_linear",
    "C73_rle8m_linear",
    "C73_rle8_sh_linear"
   ],
   "note": "the low entropy decoders read the tables in a constant number of passes, which are not counted; neither is the memcpy of a stream without run length coded values"
  },
  {
   "property": "C74",
   "status": "partial",
   "theorems": [
    "C74_random_only_possible",
    "C74_random_reaches_all_partial",
    "C74_random_all_refuted",
    "C74_random_sections_refuted"
   ],
   "note": "false of the code: the upper end of each range of lengths and the full number of sections never come up (fuzz_rand_between excludes its maximum); proved that exactly the other tests come up, each from every state for some continuation of the random numbers; how the numbers are made (rdtsc, AES) is not modelled"
  },
  {
   "property": "C75",
   "status": "partial",
   "theorems": [
    "C75_row_in_order",
    "C75_row_any_order_partial",
    "C75_row_any_order_refuted"
   ],
   "note": "proved for calls in the order of the outputs, for all codecs mixed, and for every order with the low entropy codecs, rle8m, rle8_mmtf128 and rle8_sh; false of the other codecs in other orders: they write up to 128 bytes behind the output, over the start of a piece that has been restored already; the compressed and the restored data do not overlap"
  },
  {
   "property": "C76",
   "status": "partial",
   "theorems": [
    "C76_cut_refused_partial",
    "C76_cut_refused_refuted"
   ],
   "note": "proved for all codecs if the compressed size is among the bytes that are left (8 bytes, 4 for low entropy and rle8m); false of every decompressor otherwise: inSize is not compared with the size of the header, and the missing size is read from the memory behind"
  },
  {
   "property": "C77",
   "status": "partial",
   "theorems": [
    "C77_large_restored_partial",
    "C77_rle8_multi_large_restored_partial",
    "C77_rle8_single_large_restored_partial",
    "C77_symlut_large_restored_partial",
    "C77_short_large_restored_partial",
    "C77_mmtf128_large_restored_partial",
    "C77_sh_large_restored_partial",
    "C77_low_entropy_large_restored_partial",
    "C77_large_restored_refuted",
    "C77_rle8_packed_multi_large_refuted"
   ],
   "note": "proved for all codecs guarded by rle_compress_bounds and inputs of up to 2^31 - 20 bytes (the 8 bit, symlut and short codecs need up to n / 64 bytes more in the buffer), and for rle8_mmtf128, rle8_sh and the low entropy codecs; false of the code above: rle16 to rle64_byte_packed and rle8_packed_multi store twice the literal length plus 2 in 32 bits, so an input of 2^31 - 1 bytes without repetitions gets a stream that is taken for an empty one, and decompress reports success without writing anything"
  },
  {
   "property": "C78",
   "status": "proved",
   "theorems": [
    "C78_stream_tells",
    "C78_low_entropy_tells",
    "C78_row_tells"
   ],
   "note": "in rows, and for rle8m, inputs are those of C10, C12 and C13 that can be restored"
  },
  {
   "property": "C79",
   "status": "partial",
   "theorems": [
    "C79_wrong_codec_refuted",
    "C79_low_entropy_by_short_refuted",
    "C79_other_kind_refused_partial",
    "C79_short_by_low_entropy_partial"
   ],
   "note": "the property is false of the code: nothing in a stream says which codec made it; rle16_sym to rle128_sym streams are accepted by the decompressors of rle16_byte to rle128_byte, at every level, with success and wrong bytes, and low entropy streams by the short low entropy decompressors; proved that streams shorter than their input are refused across the two kinds of headers, and that short low entropy streams are restored by the other decompressor"
  },
  {
   "property": "C80",
   "status": "proved",
   "theorems": [
    "C80_unstacks",
    "C80_stack_grows"
   ],
   "note": "each decompressor has an output buffer of its own, apart from its input; stages that are not restored (C10, C12, C13) are excluded"
  },
  {
   "property": "C81",
   "status": "partial",
   "theorems": [
    "C81_byte_codecs_same_again_partial",
    "C81_long_symbols_same_again_partial",
    "C81_ext_same_again_refuted",
    "C81_symlut_same_again_refuted",
    "C81_short_same_again_refuted"
   ],
   "note": "proved for the codecs of single bytes, low entropy, rle8m, rle8_sh, and rle8_mmtf128 if its uninitialised register is the same in both calls (C30); false of every codec of longer symbols at every level: they read one symbol behind the input (C30); proved of them if that symbol is the same"
  },
  {
   "property": "C82",
   "status": "partial",
   "theorems": [
    "C82_greater_size_noticed_partial",
    "C82_damage_noticed_refuted"
   ],
   "note": "False of the code, refuted for every decompressor of the library: there is no checksum, the format has literals, and a changed literal is restored as it is. Proved: a greater value of any of the 8 bytes with the sizes is refused by every decompressor that is told exactly the two sizes, nothing is written, whatever lies behind the stream. Which other changes are noticed is not decided."
  },
  {
   "property": "C83",
   "status": "proved",
   "theorems": [
    "C83_blocks_restored",
    "C83_each_block_restored"
   ],
   "note": "For every codec and decoder level of the library. The sizes of buffer that suffice are those of the round trip theorems: rle_compress_bounds of the block size, or more where that is too little (C22, C23, C26); proved to grow with the size of the block, so that the last block fits as well. For rle8_low_entropy, its short variant and rle8m each block must meet the condition of C10, C12, C13."
  },
  {
   "property": "C84",
   "status": "partial",
   "theorems": [
    "C84_large_files_fit_partial",
    "C84_small_files_fit_partial",
    "C84_buffer_suffices_refuted",
    "C84_low_entropy_buffer_refuted",
    "C84_symlut24_buffer_refuted"
   ],
   "note": "False of the code: on a file of 235422 bytes rle8_multi, on one of 55230 bytes rle8_packed_single writes behind the buffer of the tool (its size is that of rle8_low_entropy_compress_bounds, n + 297). Proved for all files of up to 2^30 bytes: the 16 to 128 bit codecs, rle8_packed_multi, rle8_single, the 48 and 64 bit symlut codecs, the low entropy codecs of one value, rle8_mmtf128; for smaller files (up to the given sizes) the others, except rle8_low_entropy and rle8_low_entropy_short for several values, which write behind the buffer for files of 771 and 547 bytes. The 24 bit symlut codecs do so for files of 38280 and 19720 bytes. Not decided: rle8_sh, the short and the 8, 16 and 32 bit symlut codecs for files above the given sizes."
  }
 ]
}
