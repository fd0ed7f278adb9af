{
 "claims": [
  {
   "property": "C01",
   "status": "proved",
   "theorems": [
    "C01_u256_add"
   ],
   "note": ""
  },
  {
   "property": "C02",
   "status": "proved",
   "theorems": [
    "C02_u256_sub",
    "C02_u256_neg"
   ],
   "note": ""
  },
  {
   "property": "C03",
   "status": "proved",
   "theorems": [
    "C03_u256_mul"
   ],
   "note": ""
  },
  {
   "property": "C04",
   "status": "proved",
   "theorems": [
    "C04_u256_div"
   ],
   "note": ""
  },
  {
   "property": "C05",
   "status": "proved",
   "theorems": [
    "C05_u256_div_rem"
   ],
   "note": ""
  },
  {
   "property": "C06",
   "status": "proved",
   "theorems": [
    "C06_u256_operators",
    "C06_i256_operators",
    "C06_u256_mixed",
    "C06_i256_mixed"
   ],
   "note": ""
  },
  {
   "property": "C07",
   "status": "proved",
   "theorems": [
    "C07_i256_add",
    "C07_i256_sub"
   ],
   "note": ""
  },
  {
   "property": "C08",
   "status": "proved",
   "theorems": [
    "C08_i256_mul"
   ],
   "note": ""
  },
  {
   "property": "C09",
   "status": "proved",
   "theorems": [
    "C09_i256_div",
    "C09_overflow_only_min_neg_one"
   ],
   "note": ""
  },
  {
   "property": "C10",
   "status": "partial",
   "theorems": [
    "C10_min_div_neg_one_refuted",
    "C10_min_div_neg_one_actual"
   ],
   "note": "Refuted: MIN / -1, MIN % -1 and the Euclidean forms silently wrap in every build (src/int.rs, intrinsics); exact behaviour proved."
  },
  {
   "property": "C11",
   "status": "proved",
   "theorems": [
    "C11_i256_euclid",
    "C11_euclid_pair",
    "C11_i256_euclid_zero"
   ],
   "note": ""
  },
  {
   "property": "C12",
   "status": "proved",
   "theorems": [
    "C12_i256_div_rem"
   ],
   "note": ""
  },
  {
   "property": "C13",
   "status": "partial",
   "theorems": [
    "C13_i256_div_rem_euclid_refuted",
    "C13_i256_div_rem_euclid_partial",
    "C13_wrapping_exact",
    "C13_i256_div_rem_euclid_zero"
   ],
   "note": "Refuted as stated: with debug assertions, rhs = MIN and a negative dividend with non-zero remainder panic on an intermediate overflow. _partial covers every other case; the wrapping form's outcome is characterised in all cases."
  },
  {
   "property": "C14",
   "status": "partial",
   "theorems": [
    "C14_div_rem_overflow_refuted"
   ],
   "note": "Refuted: the release build panics too, contrary to the documentation."
  },
  {
   "property": "C15",
   "status": "proved",
   "theorems": [
    "C15_shift"
   ],
   "note": ""
  },
  {
   "property": "C16",
   "status": "proved",
   "theorems": [
    "C16_named_shifts"
   ],
   "note": ""
  },
  {
   "property": "C17",
   "status": "proved",
   "theorems": [
    "C17_debug_shift_panics"
   ],
   "note": ""
  },
  {
   "property": "C18",
   "status": "partial",
   "theorems": [
    "C18_release_shift_refuted",
    "C18_release_shift_actual",
    "C18_release_shift_partial"
   ],
   "note": "Refuted: shl3/shr3/sar3 split the amount at 128 without masking, so amounts >= 256 in release do not act modulo 256; _actual characterises the result for every amount and _partial gives the cases in which the claim holds."
  },
  {
   "property": "C19",
   "status": "partial",
   "theorems": [
    "C19_rotation_partial",
    "C19_rotation_refuted"
   ],
   "note": "Refuted for amounts above 256 with overflow checks: (256 - n) underflows and panics. _partial proves exact rotation for every amount when overflow checks are off and for amounts up to 256 otherwise."
  },
  {
   "property": "C20",
   "status": "proved",
   "theorems": [
    "C20_count_ones",
    "C20_runs",
    "C20_run_unique"
   ],
   "note": ""
  },
  {
   "property": "C21",
   "status": "proved",
   "theorems": [
    "C21_permutations",
    "C21_endian"
   ],
   "note": ""
  },
  {
   "property": "C22",
   "status": "proved",
   "theorems": [
    "C22_u256_bytes",
    "C22_i256_bytes"
   ],
   "note": ""
  },
  {
   "property": "C23",
   "status": "proved",
   "theorems": [
    "C23_u256_cmp",
    "C23_i256_cmp",
    "C23_u256_cmp_prim",
    "C23_i256_cmp_prim"
   ],
   "note": ""
  },
  {
   "property": "C24",
   "status": "proved",
   "theorems": [
    "C24_hash"
   ],
   "note": ""
  },
  {
   "property": "C25",
   "status": "proved",
   "theorems": [
    "C25_u256_pow",
    "C25_i256_pow"
   ],
   "note": ""
  },
  {
   "property": "C26",
   "status": "proved",
   "theorems": [
    "C26_sign",
    "C26_abs",
    "C26_neg"
   ],
   "note": ""
  },
  {
   "property": "C27",
   "status": "proved",
   "theorems": [
    "C27_from_primitives",
    "C27_into_primitives",
    "C27_between"
   ],
   "note": ""
  },
  {
   "property": "C28",
   "status": "proved",
   "theorems": [
    "C28_as_primitives",
    "C28_as_256",
    "C28_widen_narrow"
   ],
   "note": ""
  },
  {
   "property": "C29",
   "status": "partial",
   "theorems": [
    "C29_f64_to_int",
    "C29_f32_to_int_partial",
    "C29_f32_infinity_refuted"
   ],
   "note": "Refuted for f32 infinities: +-INF.as_u256()/as_i256() give 2^128 / -2^128 rather than the bounds (saturation tests only exponents >= 256). f64 proved in full; f32 proved for every other bit pattern."
  },
  {
   "property": "C30",
   "status": "partial",
   "theorems": [
    "C30_rounding_unique",
    "C30_u256_as_f32",
    "C30_f64_exact",
    "C30_f64_small",
    "C30_f64_monotone",
    "C30_f32_monotone",
    "C30_f64_error",
    "C30_f64_correct_partial",
    "C30_f64_correct_refuted",
    "C30_i256_as_f32_refuted",
    "C30_f64_faithful",
    "C30_i256_f32_faithful",
    "C30_u256_f64_actual",
    "C30_i256_actual",
    "C30_from_impls"
   ],
   "note": "as_f64 is not correctly rounded above 2^128 (two words rounded separately, then summed): refuted with a witness. Exactness for every 53-bit value, monotonicity, an error bound of about 1 ulp, and correct rounding below 2^128 proved; U256::as_f32 proved correctly rounded. f32::from and f64::from give the same floats (C30_from_impls)."
  },
  {
   "property": "C31",
   "status": "proved",
   "theorems": [
    "C31_u256_from_str_radix",
    "C31_i256_from_str_radix",
    "C31_radix_out_of_range",
    "C31_from_str",
    "C31_outcome_unique"
   ],
   "note": ""
  },
  {
   "property": "C32",
   "status": "proved",
   "theorems": [
    "C32_u256_from_str_prefixed",
    "C32_i256_from_str_prefixed",
    "C32_from_str_hex"
   ],
   "note": ""
  },
  {
   "property": "C33",
   "status": "partial",
   "theorems": [
    "C33_error_is_decimal",
    "C33_error_kind",
    "C33_error_kind_i256",
    "C33_prefixed_error_refuted"
   ],
   "note": "Refuted: from_str_prefixed falls back to decimal and reports that attempt's error, so an over-long 0x numeral gives InvalidDigit; the actual error is characterised for every text."
  },
  {
   "property": "C34",
   "status": "proved",
   "theorems": [
    "C34_u256_display",
    "C34_i256_display",
    "C34_u256_radix",
    "C34_i256_radix",
    "C34_debug",
    "C34_canonical_unique"
   ],
   "note": ""
  },
  {
   "property": "C35",
   "status": "proved",
   "theorems": [
    "C35_display_from_str",
    "C35_radix_from_str",
    "C35_radix_from_str_i256"
   ],
   "note": ""
  },
  {
   "property": "C36",
   "status": "partial",
   "theorems": [
    "C36_literal_sound",
    "C36_literal_reject",
    "C36_literal_total",
    "C36_literal_unique",
    "C36_literal_complete_partial",
    "C36_literal_actual",
    "C36_literal_refuted"
   ],
   "note": "Refuted: the const parser treats the carry between the two partial products of the low word as an overflow, so some decimal literals >= 2^128 are rejected (witness of 39 digits). Soundness, rejection, completeness for prefixed literals and decimals below 2^128, and the exact acceptance condition are proved."
  },
  {
   "property": "C37",
   "status": "proved",
   "theorems": [
    "C37_u256_text",
    "C37_i256_text",
    "C37_visitors_agree"
   ],
   "note": ""
  },
  {
   "property": "C38",
   "status": "proved",
   "theorems": [
    "C38_bytes_encoding",
    "C38_bytes_decoding",
    "C38_bytes_seq"
   ],
   "note": ""
  },
  {
   "property": "C39",
   "status": "partial",
   "theorems": [
    "C39_u256_compressed",
    "C39_compressed_decoding",
    "C39_compressed_seq",
    "C39_i256_compressed",
    "C39_i256_refuted"
   ],
   "note": "Proved for U256. Refuted for I256: the serializer keeps the shortest unsigned bytes of non-negative numbers although the deserializer sign-extends, and the big-endian deserializer extends by the least significant byte. C39_i256_compressed says exactly which numbers survive."
  },
  {
   "property": "C40",
   "status": "partial",
   "theorems": [
    "C40_integers_partial",
    "C40_f64",
    "C40_f32",
    "C40_float_unique",
    "C40_strings",
    "C40_permissive_refuted"
   ],
   "note": "Integers into I256, and non-negative ones into U256, floats and strings are proved. Refuted: negative numbers wrap around into U256, and the lower end of the documented open range is accepted."
  },
  {
   "property": "C41",
   "status": "proved",
   "theorems": [
    "C41_power_of_two",
    "C41_least_exists"
   ],
   "note": ""
  },
  {
   "property": "C42",
   "status": "proved",
   "theorems": [
    "C42_u256_sum",
    "C42_u256_product",
    "C42_i256_sum",
    "C42_i256_product"
   ],
   "note": ""
  },
  {
   "property": "C43",
   "status": "proved",
   "theorems": [
    "C43_debug_release",
    "C43_checks",
    "C43_agree"
   ],
   "note": "Over the list of operations in Spec_Api.v (388 entries), for debug/release, for each pair of settings of debug assertions and overflow checks."
  },
  {
   "property": "C44",
   "status": "proved",
   "theorems": [
    "C44_no_undefined_behaviour"
   ],
   "note": "Over the same list, on arguments legal for their types, in every configuration. Undefined behaviour is an outcome of the model (unchecked buffers, uninitialised reads, unreachable_unchecked, unchecked division)."
  },
  {
   "property": "C45",
   "status": "proved",
   "theorems": [
    "C45_endianness"
   ],
   "note": "Over the same list without the operations defined by the target's byte order."
  },
  {
   "property": "C46",
   "status": "proved",
   "theorems": [
    "C46_u256_bitwise",
    "C46_i256_bitwise",
    "C46_mixed"
   ],
   "note": ""
  },
  {
   "property": "C47",
   "status": "proved",
   "theorems": [
    "C47_add_signed",
    "C47_add_unsigned",
    "C47_sub_unsigned",
    "C47_abs_diff"
   ],
   "note": ""
  },
  {
   "property": "C48",
   "status": "partial",
   "theorems": [
    "C48_api_partial",
    "C48_arithmetic",
    "C48_signed",
    "C48_counts",
    "C48_shifts_partial",
    "C48_rotations_partial",
    "C48_refuted"
   ],
   "note": "Backends agree on arithmetic, counts, shifts below 256 and rotations (up to 256 when overflow checks are on). Refuted beyond: release shifts by 256 or more differ, and a native rotation by more than 256 panics with overflow checks. C48_api_partial lifts the agreement to every public operation."
  },
  {
   "property": "C49",
   "status": "proved",
   "theorems": [
    "C49_u256_words",
    "C49_i256_words",
    "C49_constants"
   ],
   "note": ""
  },
  {
   "property": "C50",
   "status": "proved",
   "theorems": [
    "C50_unsigned_arithmetic",
    "C50_signed_arithmetic",
    "C50_wide_multiplication",
    "C50_unsigned_division",
    "C50_signed_division",
    "C50_shifts",
    "C50_rotations",
    "C50_counts"
   ],
   "note": ""
  },
  {
   "property": "C51",
   "status": "proved",
   "theorems": [
    "C51_u256_out",
    "C51_i256_out",
    "C51_shift_out",
    "C51_unsigned_division_out",
    "C51_signed_division_out",
    "C51_u256_in_place",
    "C51_i256_in_place",
    "C51_u256_operators",
    "C51_i256_operators",
    "C51_shift_operators",
    "C51_u256_methods",
    "C51_i256_methods",
    "C51_division_methods"
   ],
   "note": ""
  },
  {
   "property": "C52",
   "status": "proved",
   "theorems": [
    "C52_u256_arithmetic",
    "C52_i256_arithmetic",
    "C52_shifts",
    "C52_bitwise"
   ],
   "note": ""
  },
  {
   "property": "C53",
   "status": "proved",
   "theorems": [
    "C53_encoding_exists",
    "C53_every_integer_encodes",
    "C53_u256_f64",
    "C53_i256_f64",
    "C53_u256_f32",
    "C53_i256_f32",
    "C53_whole_floats"
   ],
   "note": ""
  },
  {
   "property": "C54",
   "status": "proved",
   "theorems": [
    "C54_types_agree_radix",
    "C54_types_agree_hex",
    "C54_types_agree_prefixed",
    "C54_formats_agree",
    "C54_formats_disjoint",
    "C54_u256_written",
    "C54_i256_written"
   ],
   "note": ""
  },
  {
   "property": "C55",
   "status": "proved",
   "theorems": [
    "C55_bytes_order"
   ],
   "note": ""
  },
  {
   "property": "C56",
   "status": "proved",
   "theorems": [
    "C56_panics_exactly",
    "C56_covers_every_operation"
   ],
   "note": ""
  },
  {
   "property": "C57",
   "status": "proved",
   "theorems": [
    "C57_u256_ring",
    "C57_i256_ring",
    "C57_u256_powers",
    "C57_i256_powers"
   ],
   "note": ""
  },
  {
   "property": "C58",
   "status": "proved",
   "theorems": [
    "C58_u256_division",
    "C58_u256_cancel",
    "C58_i256_division",
    "C58_i256_cancel",
    "C58_i256_euclid"
   ],
   "note": ""
  },
  {
   "property": "C59",
   "status": "proved",
   "theorems": [
    "C59_u256_bitwise",
    "C59_i256_bitwise",
    "C59_u256_shifts",
    "C59_i256_shifts",
    "C59_u256_rotations",
    "C59_i256_rotations",
    "C59_u256_counts",
    "C59_i256_counts"
   ],
   "note": ""
  },
  {
   "property": "C60",
   "status": "proved",
   "theorems": [
    "C60_cast_operations",
    "C60_cast_shifts",
    "C60_cast_order"
   ],
   "note": ""
  },
  {
   "property": "C61",
   "status": "proved",
   "theorems": [
    "C61_u256_checked",
    "C61_i256_checked",
    "C61_u256_monotone",
    "C61_i256_monotone"
   ],
   "note": ""
  },
  {
   "property": "C62",
   "status": "partial",
   "theorems": [
    "C62_exp_refuted",
    "C62_exp_actual"
   ],
   "note": "False of the code: the value is converted to f64 first. C62_exp_refuted gives two numbers with the same text for every formatter; C62_exp_actual states exactly which number is shown."
  },
  {
   "property": "C63",
   "status": "partial",
   "theorems": [
    "C63_unsigned_arithmetic",
    "C63_unsigned_views",
    "C63_signed_arithmetic",
    "C63_signed_views_partial",
    "C63_signed_f32_refuted"
   ],
   "note": "Proved for all listed operations and views except one: I256::as_f32 rounds twice, so a converted number with more than 53 significant bits may be off (refuted with an i64 witness). U256 views are fully proved."
  },
  {
   "property": "C64",
   "status": "proved",
   "theorems": [
    "C64_unsigned_clamp",
    "C64_signed_clamp",
    "C64_unsigned_monotone",
    "C64_signed_monotone",
    "C64_not_equal"
   ],
   "note": ""
  },
  {
   "property": "C65",
   "status": "proved",
   "theorems": [
    "C65_unsigned_casts",
    "C65_signed_casts",
    "C65_cast_chains"
   ],
   "note": ""
  },
  {
   "property": "C66",
   "status": "proved",
   "theorems": [
    "C66_unsigned_accepts",
    "C66_signed_accepts",
    "C66_wrong_kind",
    "C66_right_kind"
   ],
   "note": "Characterises acceptance for all modules and all kinds of input; negative integers into U256 wrap, as in C40."
  },
  {
   "property": "C67",
   "status": "partial",
   "theorems": [
    "C67_unsigned_documents",
    "C67_signed_documents",
    "C67_unsigned_round_trip",
    "C67_signed_round_trip_partial",
    "C67_signed_compressed_refuted",
    "C67_permissive_needs_strings",
    "C67_unsigned_other_text",
    "C67_signed_other_text",
    "C67_other_bytes"
   ],
   "note": "Proved for every module and U256, and for I256 except in the compressed modules, where C67_signed_round_trip_partial says exactly which numbers survive (refuted for the others). The permissive module does not read its own output from a format that hands strings over as bytes (C67_permissive_needs_strings); the stated hypothesis excludes that. C67_unsigned_documents and C67_signed_documents state the exact document each module writes."
  },
  {
   "property": "C68",
   "status": "proved",
   "theorems": [
    "C68_unsigned",
    "C68_signed",
    "C68_unsigned_assign",
    "C68_signed_assign",
    "C68_unsigned_shift",
    "C68_signed_shift",
    "C68_unsigned_shift_assign",
    "C68_signed_shift_assign",
    "C68_unary",
    "C68_iterators"
   ],
   "note": "Every line of the operator macro tables is modelled as data and evaluated the way the compiler resolves it."
  },
  {
   "property": "C69",
   "status": "proved",
   "theorems": [
    "C69_fuzz",
    "C69_left_out",
    "C69_reference"
   ],
   "note": "num BigInt is taken to be exact integers; the decoding of fuzzer bytes into a target is not modelled."
  },
  {
   "property": "C70",
   "status": "partial",
   "theorems": [
    "C70_documentation",
    "C70_unit_tests",
    "C70_panics",
    "C70_long_partial",
    "C70_serde_comments",
    "C70_serde_be_refuted"
   ],
   "note": "320 documentation examples, 187 assertions of unit tests and all should_panic cases in every build; 128 longer ones in the dev build only (C70_long_partial), 44 with numerals of 64 digits or more left out. The comment on bytes::be in src/serde.rs:26 is refuted."
  },
  {
   "property": "C71",
   "status": "partial",
   "theorems": [
    "C71_messages",
    "C71_covers_every_panic",
    "C71_like_primitives",
    "C71_rem_assign_refuted"
   ],
   "note": "All 116 operations of C56 that can panic. Refuted for %= by zero without debug assertions, which says \"attempt to divide by zero\" (C71_rem_assign_refuted); its exact message is in the table."
  },
  {
   "property": "C72",
   "status": "proved",
   "theorems": [
    "C72_u256_orders",
    "C72_u256_moves",
    "C72_u256_logic",
    "C72_u256_permutations",
    "C72_i256_orders",
    "C72_i256_moves",
    "C72_i256_logic",
    "C72_i256_permutations"
   ],
   "note": ""
  },
  {
   "property": "C73",
   "status": "proved",
   "theorems": [
    "C73_unsigned_reason",
    "C73_signed_reason",
    "C73_one_reason",
    "C73_utf8"
   ],
   "note": "The reason of every rejection, for all inputs; UTF-8 validation is proved against its definition."
  },
  {
   "property": "C74",
   "status": "proved",
   "theorems": [
    "C74_links",
    "C74_links_once",
    "C74_widened",
    "C74_none_left",
    "C74_inside_words"
   ],
   "note": "The tables of functions are transcribed; the replacement is proved for every text. It does not look at words: C74_inside_words shows 1270 becoming 2550."
  },
  {
   "property": "C75",
   "status": "proved",
   "theorems": [
    "C75_portable",
    "C75_same_checks",
    "C75_amounts",
    "C75_same_target",
    "C75_defined"
   ],
   "note": "Programs call the operations of api; with shift amounts and rotations of any size for builds with the same intrinsics (C75_amounts), with the operations that show the byte order for builds of the same target (C75_same_target)."
  },
  {
   "property": "C76",
   "status": "proved",
   "theorems": [
    "C76_gcd",
    "C76_isqrt",
    "C76_powmod",
    "C76_lawful"
   ],
   "note": ""
  },
  {
   "property": "C77",
   "status": "proved",
   "theorems": [
    "C77_names",
    "C77_signed_names",
    "C77_honest",
    "C77_run",
    "C77_ids"
   ],
   "note": "criterion, the repetitions and the features primitive-types and ruint of the benchmark crate are not modelled"
  },
  {
   "property": "C78",
   "status": "proved",
   "theorems": [
    "C78_averages",
    "C78_lowest_bit",
    "C78_power_test",
    "C78_masks",
    "C78_ceil_div",
    "C78_select",
    "C78_signs",
    "C78_overflow_tests"
   ],
   "note": ""
  },
  {
   "property": "C79",
   "status": "proved",
   "theorems": [
    "C79_add",
    "C79_sub",
    "C79_mul_wide",
    "C79_scale"
   ],
   "note": ""
  }
 ]
}
