{
 "claims": [
  {
   "property": "C01",
   "status": "proved",
   "theorems": [
    "C01_base64_encode",
    "C01_base64_constants"
   ],
   "note": ""
  },
  {
   "property": "C02",
   "status": "proved",
   "theorems": [
    "C02_base64_decode_exact",
    "C02_base64_forgiving_config",
    "C02_base64_constants"
   ],
   "note": ""
  },
  {
   "property": "C03",
   "status": "proved",
   "theorems": [
    "C03_base64_roundtrip"
   ],
   "note": ""
  },
  {
   "property": "C04",
   "status": "proved",
   "theorems": [
    "C04_base64_decode_agree",
    "C04_base64_decode_total",
    "C04_forgiving_agree"
   ],
   "note": ""
  },
  {
   "property": "C05",
   "status": "proved",
   "theorems": [
    "C05_base64_check",
    "C05_base64_check_iff_decode",
    "C05_base64_check_exact"
   ],
   "note": ""
  },
  {
   "property": "C06",
   "status": "proved",
   "theorems": [
    "C06_base64_encode_safe"
   ],
   "note": ""
  },
  {
   "property": "C07",
   "status": "proved",
   "theorems": [
    "C07_base64_decode_safe",
    "C07_base64_check_safe"
   ],
   "note": ""
  },
  {
   "property": "C08",
   "status": "proved",
   "theorems": [
    "C08_base64_decode_inplace",
    "C08_base64_decode_inplace_exact",
    "C08_base64_result_length"
   ],
   "note": ""
  },
  {
   "property": "C09",
   "status": "proved",
   "theorems": [
    "C09_base64_encoded_length",
    "C09_base64_decoded_length",
    "C09_base64_estimated_decoded_length"
   ],
   "note": ""
  },
  {
   "property": "C10",
   "status": "proved",
   "theorems": [
    "C10_base32_encode_short",
    "C10_base32_decode_short",
    "C10_base64_encode_short",
    "C10_base64_decode_short",
    "C10_forgiving_short",
    "C10_hex_encode_short",
    "C10_hex_decode_short"
   ],
   "note": ""
  },
  {
   "property": "C11",
   "status": "proved",
   "theorems": [
    "C11_forgiving_decode",
    "C11_forgiving_decode_inplace",
    "C11_remove_whitespace_inplace",
    "C11_forgiving_decode_to_vec"
   ],
   "note": ""
  },
  {
   "property": "C12",
   "status": "proved",
   "theorems": [
    "C12_find_whitespace"
   ],
   "note": ""
  },
  {
   "property": "C13",
   "status": "proved",
   "theorems": [
    "C13_hex_encode_append",
    "C13_base64_encode_append",
    "C13_base32_encode_append",
    "C13_hex_decode_append",
    "C13_base64_decode_append",
    "C13_base64_forgiving_append",
    "C13_base32_decode_append"
   ],
   "note": ""
  },
  {
   "property": "C14",
   "status": "proved",
   "theorems": [
    "C14_par_encode",
    "C14_parallel_path",
    "C14_par_encode_as_encode",
    "C14_jobs_do_not_interfere"
   ],
   "note": "jobs run one after the other in an arbitrary order, each on an arbitrary implementation; C14_jobs_do_not_interfere is the data-race argument for finer interleavings"
  },
  {
   "property": "C15",
   "status": "proved",
   "theorems": [
    "C15_par_encode_short",
    "C15_documented_error_refuted"
   ],
   "note": "the documented error is false: refuted with a concrete input, and shown to be a panic for every short destination on the parallel path"
  },
  {
   "property": "C16",
   "status": "proved",
   "theorems": [
    "C16_base32_ascii",
    "C16_base64_ascii",
    "C16_hex_ascii",
    "C16_uuid_ascii"
   ],
   "note": ""
  },
  {
   "property": "C17",
   "status": "proved",
   "theorems": [
    "C17_hex_encode"
   ],
   "note": ""
  },
  {
   "property": "C18",
   "status": "proved",
   "theorems": [
    "C18_hex_decode_exact",
    "C18_hex_decodes_exactly",
    "C18_hex_decode_spec"
   ],
   "note": ""
  },
  {
   "property": "C19",
   "status": "proved",
   "theorems": [
    "C19_hex_check",
    "C19_hex_decode_iff_check",
    "C19_hex_check_decides_decode"
   ],
   "note": ""
  },
  {
   "property": "C20",
   "status": "proved",
   "theorems": [
    "C20_hex_roundtrip",
    "C20_hex_reencode"
   ],
   "note": ""
  },
  {
   "property": "C21",
   "status": "proved",
   "theorems": [
    "C21_hex_encode_safe",
    "C21_hex_decode_safe",
    "C21_hex_check_safe"
   ],
   "note": ""
  },
  {
   "property": "C22",
   "status": "proved",
   "theorems": [
    "C22_hex_decode_inplace",
    "C22_hex_decode_inplace_exact"
   ],
   "note": ""
  },
  {
   "property": "C23",
   "status": "proved",
   "theorems": [
    "C23_hex_encoded_length",
    "C23_hex_encoded_length_exact",
    "C23_hex_decoded_length"
   ],
   "note": ""
  },
  {
   "property": "C24",
   "status": "proved",
   "theorems": [
    "C24_base32_encode",
    "C24_base32_constants"
   ],
   "note": ""
  },
  {
   "property": "C25",
   "status": "proved",
   "theorems": [
    "C25_base32_decode_exact",
    "C25_base32_constants",
    "C25_base32_roundtrip"
   ],
   "note": ""
  },
  {
   "property": "C26",
   "status": "proved",
   "theorems": [
    "C26_base32_check_iff_decode",
    "C26_base32_check"
   ],
   "note": ""
  },
  {
   "property": "C27",
   "status": "proved",
   "theorems": [
    "C27_base32_encode_safe",
    "C27_base32_decode_safe",
    "C27_base32_check_safe"
   ],
   "note": ""
  },
  {
   "property": "C28",
   "status": "proved",
   "theorems": [
    "C28_base32_decode_inplace"
   ],
   "note": ""
  },
  {
   "property": "C29",
   "status": "proved",
   "theorems": [
    "C29_base32_encoded_length",
    "C29_base32_decoded_length",
    "C29_base32_decoded_length_rfc",
    "C29_base32_estimated_decoded_length"
   ],
   "note": ""
  },
  {
   "property": "C30",
   "status": "proved",
   "theorems": [
    "C30_uuid_format_simple",
    "C30_uuid_format_hyphenated"
   ],
   "note": ""
  },
  {
   "property": "C31",
   "status": "proved",
   "theorems": [
    "C31_uuid_parse_exact",
    "C31_uuid_parse_simple_exact",
    "C31_uuid_parse_hyphenated_exact",
    "C31_uuid_text_simple_lower"
   ],
   "note": ""
  },
  {
   "property": "C32",
   "status": "proved",
   "theorems": [
    "C32_uuid_roundtrip_simple",
    "C32_uuid_roundtrip_hyphenated",
    "C32_uuid_roundtrip_one_form",
    "C32_uuid_reformat"
   ],
   "note": ""
  },
  {
   "property": "C33",
   "status": "proved",
   "theorems": [
    "C33_uuid_parse_memory",
    "C33_uuid_parse_simple_memory",
    "C33_uuid_parse_hyphenated_memory",
    "C33_uuid_format_simple_memory",
    "C33_uuid_format_hyphenated_memory"
   ],
   "note": ""
  },
  {
   "property": "C34",
   "status": "proved",
   "theorems": [
    "C34_is_ascii",
    "C34_from_ascii"
   ],
   "note": ""
  },
  {
   "property": "C35",
   "status": "proved",
   "theorems": [
    "C35_is_utf32le"
   ],
   "note": ""
  },
  {
   "property": "C36",
   "status": "proved",
   "theorems": [
    "C36_swap",
    "C36_swap_source",
    "C36_swap_inplace",
    "C36_swap_twice",
    "C36_swap_short"
   ],
   "note": ""
  },
  {
   "property": "C37",
   "status": "proved",
   "theorems": [
    "C37_dispatched_swap_panics",
    "C37_swap_ssse3_panics",
    "C37_swap_never_panics_refuted",
    "C37_swap_other_targets"
   ],
   "note": "the documented behaviour is false on an SSSE3-only x86 CPU: refuted with a concrete slice and shown to panic for every slice of at least 32 bytes; the companion theorem covers all other dispatch targets"
  },
  {
   "property": "C38",
   "status": "proved",
   "theorems": [
    "C38_check_ascii",
    "C38_decode_ascii"
   ],
   "note": ""
  },
  {
   "property": "C39",
   "status": "proved",
   "theorems": [
    "C39_dispatch_sound",
    "C39_dispatch_history",
    "C39_dispatch_interleaving",
    "C39_dispatch_interleaving_history",
    "C39_dispatch_instructions",
    "C39_dispatch_first",
    "C39_dispatch_pointer",
    "C39_dispatch_best",
    "C39_native",
    "C39_native_best"
   ],
   "note": ""
  },
  {
   "property": "C40",
   "status": "proved",
   "theorems": [
    "C40_instruction_sets",
    "C40_hex",
    "C40_base64",
    "C40_forgiving",
    "C40_base32",
    "C40_uuid",
    "C40_unicode"
   ],
   "note": ""
  },
  {
   "property": "C41",
   "status": "proved",
   "theorems": [
    "C41_u8_lt",
    "C41_u16_lt",
    "C41_u32_lt",
    "C41_v256_pointwise",
    "C41_v128_pointwise",
    "C41_splat",
    "C41_bswap",
    "C41_not",
    "C41_bsl",
    "C41_mask",
    "C41_highbit",
    "C41_any_zero",
    "C41_all_zero"
   ],
   "note": ""
  },
  {
   "property": "C42",
   "status": "proved",
   "theorems": [
    "C42_to_ascii_lowercase",
    "C42_to_ascii_uppercase"
   ],
   "note": ""
  },
  {
   "property": "C43",
   "status": "proved",
   "theorems": [
    "C43_base32_table",
    "C43_base64_table",
    "C43_hex_table"
   ],
   "note": ""
  },
  {
   "property": "C44",
   "status": "proved",
   "theorems": [
    "C44_base32_encode_target",
    "C44_base32_decode_target",
    "C44_from_be_bytes",
    "C44_base64_decode_endian"
   ],
   "note": ""
  },
  {
   "property": "C45",
   "status": "proved",
   "theorems": [
    "C45_base32_encode_old_contents",
    "C45_base32_decode_old_contents",
    "C45_base64_encode_old_contents",
    "C45_base64_decode_old_contents",
    "C45_forgiving_old_contents",
    "C45_hex_decode_old_contents",
    "C45_hex_encode_old_contents",
    "C45_uuid_format_simple_old_contents",
    "C45_uuid_format_hyphenated_old_contents",
    "C45_uuid_parse_old_contents"
   ],
   "note": ""
  },
  {
   "property": "C46",
   "status": "proved",
   "theorems": [
    "C46_hex_encode_box",
    "C46_base64_encode_box",
    "C46_base32_encode_box",
    "C46_hex_decode_box",
    "C46_base64_decode_box",
    "C46_base64_forgiving_box",
    "C46_base32_decode_box",
    "C46_hex_decode_append_panics",
    "C46_base64_decode_append_panics",
    "C46_base32_decode_append_panics"
   ],
   "note": ""
  },
  {
   "property": "C47",
   "status": "proved",
   "theorems": [
    "C47_base32_compositional",
    "C47_base64_compositional",
    "C47_hex_compositional"
   ],
   "note": ""
  },
  {
   "property": "C48",
   "status": "proved",
   "theorems": [
    "C48_base32_decoded_length_strict_refuted",
    "C48_base32_decoded_length_lax"
   ],
   "note": "the expectation is false; refuted with a concrete text, and shown to fail for a whole family of texts"
  },
  {
   "property": "C49",
   "status": "proved",
   "theorems": [
    "C49_base64_url_encode",
    "C49_base64_url_decode",
    "C49_base64_foreign",
    "C49_base64_url_decoders",
    "C49_base64_foreign_rejected"
   ],
   "note": ""
  },
  {
   "property": "C50",
   "status": "proved",
   "theorems": [
    "C50_base32_injective",
    "C50_base64_injective",
    "C50_hex_injective",
    "C50_uuid_injective",
    "C50_uuid_hyphenated_injective"
   ],
   "note": ""
  },
  {
   "property": "C51",
   "status": "proved",
   "theorems": [
    "C51_every_vector",
    "C51_splat",
    "C51_add",
    "C51_sub",
    "C51_eq",
    "C51_lt",
    "C51_add_sat",
    "C51_sub_sat",
    "C51_max",
    "C51_min",
    "C51_isa_independent"
   ],
   "note": ""
  },
  {
   "property": "C52",
   "status": "proved",
   "theorems": [
    "C52_add",
    "C52_sub",
    "C52_eq",
    "C52_saturating",
    "C52_max_min",
    "C52_lt"
   ],
   "note": ""
  },
  {
   "property": "C53",
   "status": "proved",
   "theorems": [
    "C53_mul_lo16",
    "C53_mul_lo32",
    "C53_mul_hi16",
    "C53_mul_hi_u16"
   ],
   "note": ""
  },
  {
   "property": "C54",
   "status": "proved",
   "theorems": [
    "C54_zip",
    "C54_zip_x2",
    "C54_unzip8",
    "C54_unzip8_x32",
    "C54_unzip64",
    "C54_unzip_zip",
    "C54_permute",
    "C54_reduce",
    "C54_primitives"
   ],
   "note": ""
  },
  {
   "property": "C55",
   "status": "proved",
   "theorems": [
    "C55_shift",
    "C55_count_out_of_range_refuted",
    "C55_other_counts",
    "C55_primitives"
   ],
   "note": ""
  },
  {
   "property": "C56",
   "status": "proved",
   "theorems": [
    "C56_bitmask",
    "C56_simulation",
    "C56_shift_count_refuted"
   ],
   "note": ""
  },
  {
   "property": "C57",
   "status": "proved",
   "theorems": [
    "C57_hex_order",
    "C57_base32hex_order",
    "C57_base32hex_padded_order_same_length",
    "C57_base32hex_padded_order_refuted",
    "C57_base32_order_refuted",
    "C57_base64_order_refuted",
    "C57_uuid_order",
    "C57_uuid_hyphenated_order"
   ],
   "note": "order is preserved for hex, unpadded base32hex and uuid; the claims for base64, base32 and padded base32hex are refuted with concrete data"
  },
  {
   "property": "C58",
   "status": "proved",
   "theorems": [
    "C58_base64_unique_text",
    "C58_base32_unique_text",
    "C58_hex_case",
    "C58_hex_encode_case",
    "C58_uuid_simple_case",
    "C58_uuid_hyphenated_case",
    "C58_uuid_urn_case_refuted",
    "C58_forgiving_unique_text_refuted"
   ],
   "note": "the urn:uuid: prefix and forgiving base64 are refuted with concrete texts"
  },
  {
   "property": "C59",
   "status": "proved",
   "theorems": [
    "C59_base64_decode_app",
    "C59_base64_decode_split",
    "C59_base32_decode_app",
    "C59_base32_decode_split",
    "C59_hex_decode_app",
    "C59_hex_decode_split"
   ],
   "note": ""
  },
  {
   "property": "C60",
   "status": "proved",
   "theorems": [
    "C60_base64_padding",
    "C60_base32_padding",
    "C60_base64_no_pad_rejects",
    "C60_base32_no_pad_rejects",
    "C60_forgiving_extends_strict",
    "C60_forgiving_ignores_whitespace"
   ],
   "note": ""
  },
  {
   "property": "C61",
   "status": "proved",
   "theorems": [
    "C61_hex_encode_to_string",
    "C61_base64_encode_to_string",
    "C61_base32_encode_to_string",
    "C61_hex_decode_to_vec",
    "C61_base64_decode_to_vec",
    "C61_base32_decode_to_vec",
    "C61_hex_reads_back",
    "C61_base64_reads_back",
    "C61_base32_reads_back",
    "C61_hex_append_utf8",
    "C61_base64_append_utf8",
    "C61_base32_append_utf8"
   ],
   "note": ""
  },
  {
   "property": "C62",
   "status": "proved",
   "theorems": [
    "C62_hex_check_raw",
    "C62_hex_encode_raw",
    "C62_hex_decode_raw",
    "C62_hex_decode_raw_inplace"
   ],
   "note": ""
  },
  {
   "property": "C63",
   "status": "proved",
   "theorems": [
    "C63_uuid_ext_parse",
    "C63_uuid_ext_parse_simple",
    "C63_uuid_ext_parse_hyphenated",
    "C63_uuid_fmt_simple",
    "C63_uuid_fmt_hyphenated",
    "C63_uuid_display_parses"
   ],
   "note": ""
  },
  {
   "property": "C64",
   "status": "proved",
   "theorems": [
    "C64_is_utf32le_aligned",
    "C64_swap_endianness_aligned",
    "C64_misaligned_is_undefined",
    "C64_v128_load",
    "C64_v256_load",
    "C64_v128_store",
    "C64_v256_store",
    "C64_debug_catches"
   ],
   "note": ""
  },
  {
   "property": "C65",
   "status": "proved",
   "theorems": [
    "C65_unroll",
    "C65_chunks_exact",
    "C65_halves",
    "C65_join",
    "C65_join256",
    "C65_vector_bytes",
    "C65_to_u64"
   ],
   "note": ""
  },
  {
   "property": "C66",
   "status": "proved",
   "theorems": [
    "C66_madd",
    "C66_madd_exact",
    "C66_maddubs",
    "C66_packus",
    "C66_from_u8",
    "C66_pack_widen",
    "C66_avgr"
   ],
   "note": ""
  },
  {
   "property": "C67",
   "status": "proved",
   "theorems": [
    "C67_lookup",
    "C67_lookup_x2",
    "C67_swizzle",
    "C67_swizzle_index_refuted",
    "C67_swizzle32"
   ],
   "note": "the lookup is proved for all index bytes; the same claim for the plain swizzle is refuted for indices 16..127"
  },
  {
   "property": "C68",
   "status": "proved",
   "theorems": [
    "C68_bswap",
    "C68_blend16",
    "C68_blend32",
    "C68_blendv",
    "C68_halves"
   ],
   "note": ""
  },
  {
   "property": "C69",
   "status": "proved",
   "theorems": [
    "C69_par_encode_interleaved",
    "C69_jobs_as_programs",
    "C69_separate_threads"
   ],
   "note": ""
  },
  {
   "property": "C70",
   "status": "proved",
   "theorems": [
    "C70_calls_interleaved",
    "C70_calls_as_programs",
    "C70_footprints",
    "C70_shared_source"
   ],
   "note": ""
  },
  {
   "property": "C71",
   "status": "proved",
   "theorems": [
    "C71_support",
    "C71_max",
    "C71_min",
    "C71_same_everywhere",
    "C71_x86_second",
    "C71_nan",
    "C71_nan_refuted",
    "C71_zero_refuted",
    "C71_symmetric_refuted",
    "C71_subnormal_refuted"
   ],
   "note": "agreement of the instruction sets on NaNs, zeros and subnormal numbers and symmetry on x86 are refuted; the semantics of the float instructions is part of the trusted base"
  },
  {
   "property": "C72",
   "status": "proved",
   "theorems": [
    "C72_whole_program",
    "C72_calls_as_programs",
    "C72_swap_refuted"
   ],
   "note": "the endianness swaps on x86 with SSSE3 but without AVX2 are excluded by a hypothesis and shown to panic (C72_swap_refuted)"
  },
  {
   "property": "C73",
   "status": "proved",
   "theorems": [
    "C73_check",
    "C73_decode",
    "C73_decode_refuted"
   ],
   "note": "decoding needs the stated bound on the hash values; without it the claim is refuted (C73_decode_refuted)"
  },
  {
   "property": "C74",
   "status": "proved",
   "theorems": [
    "C74_clients",
    "C74_programs",
    "C74_results",
    "C74_roundtrips"
   ],
   "note": ""
  },
  {
   "property": "C75",
   "status": "proved",
   "theorems": [
    "C75_little_endian",
    "C75_check",
    "C75_decode",
    "C75_is_utf32le",
    "C75_hex_encode_big_endian",
    "C75_hex_encode_refuted",
    "C75_hex_decode_big_endian",
    "C75_hex_decode_refuted",
    "C75_base64_encode_big_endian",
    "C75_base64_encode_refuted",
    "C75_base64_decode_big_endian",
    "C75_base64_decode_refuted",
    "C75_base32_encode_big_endian",
    "C75_base32_decode_big_endian",
    "C75_base32_encode_refuted",
    "C75_base32_decode_refuted"
   ],
   "note": "the positive part (little-endian, ALSW, UTF-32) and the exact big-endian behaviour of hex, base64 and base32 blocks are universal; that these are wrong is by counterexample. Byte lanes are taken to be in memory order on both targets"
  },
  {
   "property": "C76",
   "status": "proved",
   "theorems": [
    "C76_programs",
    "C76_hex",
    "C76_base64",
    "C76_base32",
    "C76_uuid",
    "C76_unicode",
    "C76_forgiving_refuted"
   ],
   "note": "forgiving decoding is excluded and shown to depend on the data (C76_forgiving_refuted); constant tables are not counted; the width of a write is not part of the trace"
  },
  {
   "property": "C77",
   "status": "proved",
   "theorems": [
    "C77_hex",
    "C77_base64",
    "C77_forgiving",
    "C77_base32",
    "C77_uuid",
    "C77_unicode"
   ],
   "note": "upper bounds: a loop that advances by several bytes is counted as if it advanced by one; a block copy counts as two accesses"
  },
  {
   "property": "C78",
   "status": "proved",
   "theorems": [
    "C78_load",
    "C78_store",
    "C78_pointers",
    "C78_read_write",
    "C78_tables"
   ],
   "note": "Exactness of the memory model itself: which accesses are defined and what they do. Widths and lengths are natural numbers; alignment is C64, address-space limits are in the usize properties."
  },
  {
   "property": "C79",
   "status": "proved",
   "theorems": [
    "C79_little_endian",
    "C79_base64_check",
    "C79_base64_check_exact",
    "C79_base32_check",
    "C79_base64_short",
    "C79_base32_short",
    "C79_hex_encode_big_endian",
    "C79_hex_decode_big_endian",
    "C79_hex_decode_inplace_big_endian",
    "C79_uuid_big_endian",
    "C79_uuid_format_hyphenated_big_endian",
    "C79_uuid_parse_big_endian",
    "C79_uuid_parse_hyphenated_big_endian",
    "C79_base64_encode_big_endian",
    "C79_base64_decode_big_endian",
    "C79_base64_decode_inplace_big_endian",
    "C79_forgiving_decode_big_endian",
    "C79_forgiving_decode_inplace_big_endian",
    "C79_base32_encode_big_endian",
    "C79_base32_decode_big_endian",
    "C79_base32_decode_inplace_big_endian",
    "C79_hex_encode_refuted",
    "C79_hex_decode_refuted",
    "C79_base64_encode_refuted",
    "C79_base64_decode_refuted",
    "C79_base32_encode_refuted",
    "C79_base32_decode_refuted"
   ],
   "note": "results on big-endian are given exactly for every input; that they are wrong is by counterexample (C79_*_refuted). Same assumptions on AArch64 as C75"
  },
  {
   "property": "C80",
   "status": "proved",
   "theorems": [
    "C80_guards",
    "C80_no_illegal_instruction",
    "C80_x86_only",
    "C80_wide_rows"
   ],
   "note": "the table of calls is transcribed from the source (tools/gen_intrinsics.py), the extension of each intrinsic from Intel's guide; both are trusted. Assumes that a CPU with AVX2 has AVX and all SSE levels below (x86_chain)"
  },
  {
   "property": "C81",
   "status": "proved",
   "theorems": [
    "C81_base64_prefix",
    "C81_base32_prefix",
    "C81_hex_prefix",
    "C81_forgiving_prefix",
    "C81_base64_truncated",
    "C81_base32_truncated",
    "C81_hex_truncated",
    "C81_base64_after_padding",
    "C81_base32_after_padding"
   ],
   "note": "prefixes (C81_*_prefix), impossible lengths (C81_*_truncated), text after padding (C81_*_after_padding)"
  },
  {
   "property": "C82",
   "status": "proved",
   "theorems": [
    "C82_base64_char",
    "C82_base32_char",
    "C82_hex_char",
    "C82_base64_byte",
    "C82_base32_byte",
    "C82_hex_byte",
    "C82_base64_encode_local",
    "C82_base32_encode_local",
    "C82_hex_encode_local",
    "C82_base64_decode_local",
    "C82_base32_decode_local",
    "C82_hex_decode_local"
   ],
   "note": "closed forms (C82_*_char, C82_*_byte), one change (C82_*_local); strict base64 decoding"
  },
  {
   "property": "C83",
   "status": "proved",
   "theorems": [
    "C83_hex_encode_box",
    "C83_base64_encode_box",
    "C83_base32_encode_box",
    "C83_hex_decode_box",
    "C83_base64_decode_box",
    "C83_base32_decode_box",
    "C83_hex_encode_append",
    "C83_base64_encode_append",
    "C83_base32_encode_append",
    "C83_hex_decode_append",
    "C83_base64_decode_append",
    "C83_base32_decode_append",
    "C83_forgiving"
   ],
   "note": "std's handle_alloc_error aborts; then the state is the one a hook sees. Vec::reserve_exact is taken to leave the vector unchanged when it fails, as std documents"
  },
  {
   "property": "C84",
   "status": "proved",
   "theorems": [
    "C84_hex_check",
    "C84_hex_encode",
    "C84_hex_decode",
    "C84_hex_decode_inplace",
    "C84_base64_check",
    "C84_base64_encode",
    "C84_base64_decode",
    "C84_base64_decode_inplace",
    "C84_forgiving_decode",
    "C84_forgiving_decode_inplace",
    "C84_base32_check",
    "C84_base32_encode",
    "C84_base32_decode",
    "C84_base32_decode_inplace",
    "C84_uuid_parse",
    "C84_uuid_parse_simple",
    "C84_uuid_parse_hyphenated",
    "C84_uuid_format_simple",
    "C84_uuid_format_hyphenated",
    "C84_is_ascii",
    "C84_is_utf32le",
    "C84_swap",
    "C84_swap_inplace",
    "C84_const_refuted",
    "C84_stale_refuted",
    "C84_early_refuted",
    "C84_outer_refuted",
    "C84_annotated_calls",
    "C84_only_borrows_added",
    "C84_from_ascii",
    "C84_from_ascii_mut_refuted",
    "C84_base64_par_encode",
    "C84_naive_split_refuted",
    "C84_parts_hex_encode",
    "C84_parts_hex_decode",
    "C84_parts_base64_encode",
    "C84_parts_base64_decode",
    "C84_parts_forgiving_decode",
    "C84_parts_base32_encode",
    "C84_parts_base32_decode",
    "C84_parts_uuid_parse",
    "C84_parts_uuid_parse_simple",
    "C84_parts_uuid_parse_hyphenated",
    "C84_parts_uuid_format_simple",
    "C84_parts_uuid_format_hyphenated",
    "C84_parts_swap",
    "C84_parts_of_one_each",
    "C84_shared_param_constant",
    "C84_mut_param_exclusive",
    "C84_no_write_for_ever",
    "C84_removed_for_ever",
    "C84_shared_param_call",
    "C84_mut_param_call",
    "C84_foreign_access"
   ],
   "note": "model of Stacked Borrows in Borrows.v; the functions that allocate are in C86; par_encode: all parts are made before the first job, jobs run one after the other in any order; C84_*_refuted are wrong programs"
  },
  {
   "property": "C85",
   "status": "proved",
   "theorems": [
    "C85_calls_stay",
    "C85_split",
    "C85_touches_all",
    "C85_calls_interleaved",
    "C85_calls_as_programs",
    "C85_changes"
   ],
   "note": "Rename.v and RenameCodecs.v relate each function on two allocations to the same function on two parts of one"
  },
  {
   "property": "C86",
   "status": "proved",
   "theorems": [
    "C86_uuid_ext_parse",
    "C86_uuid_ext_parse_simple",
    "C86_uuid_ext_parse_hyphenated",
    "C86_uuid_simple_hex",
    "C86_uuid_hyphenated_hex",
    "C86_uuid_const_refuted",
    "C86_hex_encode_to_boxed_str",
    "C86_hex_encode_append_vec",
    "C86_hex_decode_to_boxed_bytes",
    "C86_hex_decode_append_vec",
    "C86_hex_encode_to_string",
    "C86_hex_decode_to_vec",
    "C86_base64_encode_to_boxed_str",
    "C86_base64_encode_append_vec",
    "C86_base64_decode_to_boxed_bytes",
    "C86_base64_decode_append_vec",
    "C86_base64_encode_to_string",
    "C86_base64_decode_to_vec",
    "C86_base32_encode_to_boxed_str",
    "C86_base32_encode_append_vec",
    "C86_base32_decode_to_boxed_bytes",
    "C86_base32_decode_append_vec",
    "C86_base32_encode_to_string",
    "C86_base32_decode_to_vec",
    "C86_forgiving_decode_to_vec",
    "C86_drop",
    "C86_const_refuted",
    "C86_stale_refuted",
    "C86_inner_refuted",
    "C86_append_stale_refuted",
    "C86_no_write_for_ever",
    "C86_removed_for_ever",
    "C86_freed_for_ever",
    "C86_shared_param_constant",
    "C86_mut_param_exclusive"
   ],
   "note": "model of allocations in BorrowsHeap.v, uuid ext.rs in BorrowsExt.v; C86_*_refuted are wrong programs"
  },
  {
   "property": "C87",
   "status": "proved",
   "theorems": [
    "C87_hex_check",
    "C87_hex_encode",
    "C87_hex_decode",
    "C87_hex_decode_inplace",
    "C87_base64_check",
    "C87_base64_encode",
    "C87_base64_decode",
    "C87_base64_decode_inplace",
    "C87_forgiving_decode",
    "C87_forgiving_decode_inplace",
    "C87_base32_check",
    "C87_base32_encode",
    "C87_base32_decode",
    "C87_base32_decode_inplace",
    "C87_uuid_parse",
    "C87_uuid_parse_simple",
    "C87_uuid_parse_hyphenated",
    "C87_uuid_format_simple",
    "C87_uuid_format_hyphenated",
    "C87_is_ascii",
    "C87_is_utf32le",
    "C87_swap",
    "C87_swap_inplace",
    "C87_const_refuted",
    "C87_early_refuted",
    "C87_outer_refuted",
    "C87_from_ascii",
    "C87_parts_hex_encode",
    "C87_parts_hex_decode",
    "C87_parts_base64_encode",
    "C87_parts_base64_decode",
    "C87_parts_forgiving_decode",
    "C87_parts_base32_encode",
    "C87_parts_base32_decode",
    "C87_parts_uuid_parse",
    "C87_parts_uuid_parse_simple",
    "C87_parts_uuid_parse_hyphenated",
    "C87_parts_uuid_format_simple",
    "C87_parts_uuid_format_hyphenated",
    "C87_parts_swap",
    "C87_parts_of_one_each",
    "C87_shared_param_constant",
    "C87_mut_param_exclusive",
    "C87_mut_param_conflict",
    "C87_frozen_for_ever",
    "C87_disabled_for_ever",
    "C87_foreign_access",
    "C87_shared_param_call"
   ],
   "note": "model of Tree Borrows in TreeBorrows.v; an access outside the range for which a reference was made is not allowed; C87_*_refuted are wrong programs"
  },
  {
   "property": "C88",
   "status": "proved",
   "theorems": [
    "C88_frozen_for_ever",
    "C88_disabled_for_ever",
    "C88_freed_for_ever",
    "C88_shared_param_constant",
    "C88_mut_param_exclusive",
    "C88_hex_encode_to_boxed_str",
    "C88_hex_encode_append_vec",
    "C88_hex_decode_to_boxed_bytes",
    "C88_hex_decode_append_vec",
    "C88_hex_encode_to_string",
    "C88_hex_decode_to_vec",
    "C88_base64_encode_to_boxed_str",
    "C88_base64_encode_append_vec",
    "C88_base64_decode_to_boxed_bytes",
    "C88_base64_decode_append_vec",
    "C88_base64_encode_to_string",
    "C88_base64_decode_to_vec",
    "C88_base32_encode_to_boxed_str",
    "C88_base32_encode_append_vec",
    "C88_base32_decode_to_boxed_bytes",
    "C88_base32_decode_append_vec",
    "C88_base32_encode_to_string",
    "C88_base32_decode_to_vec",
    "C88_forgiving_decode_to_vec",
    "C88_drop",
    "C88_const_refuted",
    "C88_inner_refuted",
    "C88_append_stale_refuted"
   ],
   "note": "rules for allocation in TreeHeap.v; C88_*_refuted are wrong programs"
  }
 ]
}