{
 "claims": [
  {
   "property": "C01",
   "status": "proved",
   "theorems": [
    "C01_sm3_any_chunking",
    "C01_sm3_sum_function"
   ],
   "note": ""
  },
  {
   "property": "C02",
   "status": "proved",
   "theorems": [
    "C02_sm3_histories"
   ],
   "note": ""
  },
  {
   "property": "C03",
   "status": "proved",
   "theorems": [
    "C03_sm3_total"
   ],
   "note": ""
  },
  {
   "property": "C04",
   "status": "proved",
   "theorems": [
    "C04_sm4_round_trip"
   ],
   "note": ""
  },
  {
   "property": "C05",
   "status": "proved",
   "theorems": [
    "C05_sm4_conforms"
   ],
   "note": ""
  },
  {
   "property": "C06",
   "status": "proved",
   "theorems": [
    "C06_sm4_arguments"
   ],
   "note": ""
  },
  {
   "property": "C07",
   "status": "proved",
   "theorems": [
    "C07_aes_cbc_round_trip",
    "C07_aes_fips197_round_trip"
   ],
   "note": ""
  },
  {
   "property": "C08",
   "status": "proved",
   "theorems": [
    "C08_aes_decrypt_bad_length",
    "C08_aes_bad_key",
    "C08_aes_decrypt_exact",
    "C08_aes_padding_not_validated",
    "C08_aes_well_padded_refuted"
   ],
   "note": ""
  },
  {
   "property": "C09",
   "status": "proved",
   "theorems": [
    "C09_pkcs5_inverse",
    "C09_pkcs5_injective",
    "C09_pkcs5_256_refuted"
   ],
   "note": ""
  },
  {
   "property": "C10",
   "status": "proved",
   "theorems": [
    "C10_compressed_round_trip"
   ],
   "note": ""
  },
  {
   "property": "C11",
   "status": "proved",
   "theorems": [
    "C11_decompression_sound",
    "C11_decompression_sound_supported"
   ],
   "note": ""
  },
  {
   "property": "C12",
   "status": "proved",
   "theorems": [
    "C12_rejection_means_no_point",
    "C12_p224_rejects_y_zero"
   ],
   "note": ""
  },
  {
   "property": "C13",
   "status": "proved",
   "theorems": [
    "C13_uncompressed_round_trip",
    "C13_uncompressed_not_validated",
    "C13_off_curve_accepted"
   ],
   "note": ""
  },
  {
   "property": "C14",
   "status": "proved",
   "theorems": [
    "C14_trailing_bytes_ignored",
    "C14_unreduced_x_accepted"
   ],
   "note": ""
  },
  {
   "property": "C15",
   "status": "proved",
   "theorems": [
    "C15_public_key_round_trip"
   ],
   "note": ""
  },
  {
   "property": "C16",
   "status": "proved",
   "theorems": [
    "C16_public_key_injective"
   ],
   "note": ""
  },
  {
   "property": "C17",
   "status": "proved",
   "theorems": [
    "C17_deserialize_total"
   ],
   "note": ""
  },
  {
   "property": "C18",
   "status": "proved",
   "theorems": [
    "C18_eddsa_ethereum_unique",
    "C18_ec_not_unique",
    "C18_uncompressed_accepted"
   ],
   "note": ""
  },
  {
   "property": "C19",
   "status": "proved",
   "theorems": [
    "C19_private_key_round_trip"
   ],
   "note": ""
  },
  {
   "property": "C20",
   "status": "proved",
   "theorems": [
    "C20_private_key_matches"
   ],
   "note": ""
  },
  {
   "property": "C21",
   "status": "proved",
   "theorems": [
    "C21_private_key_failure_modes"
   ],
   "note": ""
  },
  {
   "property": "C22",
   "status": "proved",
   "theorems": [
    "C22_compare_exact",
    "C22_compare_equivalence",
    "C22_negated_key_compares_equal"
   ],
   "note": ""
  },
  {
   "property": "C23",
   "status": "proved",
   "theorems": [
    "C23_less_is_the_documented_order",
    "C23_sorted_output_is_unique",
    "C23_sort_public_keys"
   ],
   "note": ""
  },
  {
   "property": "C24",
   "status": "proved",
   "theorems": [
    "C24_find_key_first_match"
   ],
   "note": ""
  },
  {
   "property": "C25",
   "status": "proved",
   "theorems": [
    "C25_wif_round_trip",
    "C25_other_keys_refused",
    "C25_exports_only_p256"
   ],
   "note": ""
  },
  {
   "property": "C26",
   "status": "proved",
   "theorems": [
    "C26_wif_accepts_exactly",
    "C26_wif_import_total"
   ],
   "note": ""
  },
  {
   "property": "C27",
   "status": "proved",
   "theorems": [
    "C27_agrees",
    "C27_panics_exactly"
   ],
   "note": ""
  },
  {
   "property": "C28",
   "status": "proved",
   "theorems": [
    "C28_encrypt_decrypt",
    "C28_default_parameters",
    "C28_default_errors",
    "C28_unsupported_keys_panic"
   ],
   "note": ""
  },
  {
   "property": "C29",
   "status": "proved",
   "theorems": [
    "C29_decrypt_authenticates",
    "C29_ctr_accepts_everything"
   ],
   "note": ""
  },
  {
   "property": "C30",
   "status": "proved",
   "theorems": [
    "C30_reencrypt_preserves"
   ],
   "note": ""
  },
  {
   "property": "C31",
   "status": "proved",
   "theorems": [
    "C31_wire_format",
    "C31_roundtrip",
    "C31_nul_in_id"
   ],
   "note": ""
  },
  {
   "property": "C32",
   "status": "proved",
   "theorems": [
    "C32_deserialize_total",
    "C32_accepted"
   ],
   "note": ""
  },
  {
   "property": "C33",
   "status": "proved",
   "theorems": [
    "C33_reserialize_panics",
    "C33_bytes_reserialize"
   ],
   "note": ""
  },
  {
   "property": "C34",
   "status": "proved",
   "theorems": [
    "C34_mismatch_rejected",
    "C34_bytes_always_accepted"
   ],
   "note": ""
  },
  {
   "property": "C35",
   "status": "proved",
   "theorems": [
    "C35_sign_verify",
    "C35_double_use",
    "C35_empty_message"
   ],
   "note": ""
  },
  {
   "property": "C36",
   "status": "proved",
   "theorems": [
    "C36_end_to_end"
   ],
   "note": ""
  },
  {
   "property": "C37",
   "status": "proved",
   "theorems": [
    "C37_nil_or_empty",
    "C37_confusion_rejected"
   ],
   "note": ""
  },
  {
   "property": "C38",
   "status": "proved",
   "theorems": [
    "C38_ec_panics",
    "C38_ec_never_panics",
    "C38_ed25519_never_panics",
    "C38_ethereum_panics"
   ],
   "note": ""
  },
  {
   "property": "C39",
   "status": "proved",
   "theorems": [
    "C39_unsupported_rejected",
    "C39_scheme_recorded"
   ],
   "note": ""
  },
  {
   "property": "C40",
   "status": "proved",
   "theorems": [
    "C40_GetScheme",
    "C40_Name",
    "C40_GetScheme_Name",
    "C40_GetHash"
   ],
   "note": ""
  },
  {
   "property": "C41",
   "status": "proved",
   "theorems": [
    "C41_ecdsa",
    "C41_second_call",
    "C41_keccak",
    "C41_others"
   ],
   "note": ""
  },
  {
   "property": "C42",
   "status": "proved",
   "theorems": [
    "C42_sign_verify"
   ],
   "note": ""
  },
  {
   "property": "C43",
   "status": "proved",
   "theorems": [
    "C43_total",
    "C43_other_curves_rejected",
    "C43_exact"
   ],
   "note": ""
  },
  {
   "property": "C44",
   "status": "proved",
   "theorems": [
    "C44_ranges",
    "C44_equation"
   ],
   "note": ""
  },
  {
   "property": "C45",
   "status": "proved",
   "theorems": [
    "C45_inverse_diverges",
    "C45_diverges",
    "C45_never_signs"
   ],
   "note": ""
  },
  {
   "property": "C46",
   "status": "proved",
   "theorems": [
    "C46_hash_input",
    "C46_other_curves_rejected",
    "C46_length_field",
    "C46_standard_iff",
    "C46_empty_id",
    "C46_hasher_state"
   ],
   "note": ""
  },
  {
   "property": "C47",
   "status": "proved",
   "theorems": [
    "C47_same_x",
    "C47_unique_s",
    "C47_degenerate_key"
   ],
   "note": ""
  },
  {
   "property": "C48",
   "status": "proved",
   "theorems": [
    "C48_exact",
    "C48_roundtrip"
   ],
   "note": ""
  },
  {
   "property": "C49",
   "status": "proved",
   "theorems": [
    "C49_empty_diverges",
    "C49_total",
    "C49_refused",
    "C49_stale_bytes"
   ],
   "note": ""
  },
  {
   "property": "C50",
   "status": "proved",
   "theorems": [
    "C50_c3_standard_iff",
    "C50_other_curves",
    "C50_exact",
    "C50_authentic",
    "C50_short",
    "C50_panics_iff"
   ],
   "note": ""
  },
  {
   "property": "C51",
   "status": "proved",
   "theorems": [
    "C51_kdf",
    "C51_length",
    "C51_negative",
    "C51_short_check",
    "C51_long_check"
   ],
   "note": ""
  },
  {
   "property": "C52",
   "status": "proved",
   "theorems": [
    "C52_completeness"
   ],
   "note": ""
  },
  {
   "property": "C53",
   "status": "proved",
   "theorems": [
    "C53_vrf_deterministic"
   ],
   "note": ""
  },
  {
   "property": "C54",
   "status": "proved",
   "theorems": [
    "C54_error_iff",
    "C54_lengths",
    "C54_undecodable_rejected",
    "C54_accepted_sound",
    "C54_accepted_complete",
    "C54_panic_sound",
    "C54_panic_complete"
   ],
   "note": ""
  },
  {
   "property": "C55",
   "status": "proved",
   "theorems": [
    "C55_special_soundness",
    "C55_wrong_output_one_challenge"
   ],
   "note": ""
  },
  {
   "property": "C56",
   "status": "proved",
   "theorems": [
    "C56_response_mod_N",
    "C56_malleable"
   ],
   "note": ""
  },
  {
   "property": "C57",
   "status": "proved",
   "theorems": [
    "C57_int_exact",
    "C57_int_range",
    "C57_int_diverges_iff",
    "C57_curve_sound",
    "C57_curve_complete",
    "C57_curve_none",
    "C57_curve_total",
    "C57_no_point_panics",
    "C57_unreduced_x",
    "C57_no_point_exists"
   ],
   "note": ""
  },
  {
   "property": "C58",
   "status": "proved",
   "theorems": [
    "C58_public",
    "C58_private",
    "C58_named"
   ],
   "note": ""
  },
  {
   "property": "C59",
   "status": "proved",
   "theorems": [
    "C59_append_value",
    "C59_append_keeps_slice",
    "C59_append_frame",
    "C59_aes_result",
    "C59_aes_result_clear",
    "C59_aes_frame",
    "C59_aes_iv_overwritten",
    "C59_verify_result",
    "C59_verify_result_clear",
    "C59_verify_frame",
    "C59_vrf_slices",
    "C59_verify_own_output",
    "C59_verify_overwrites_vrf"
   ],
   "note": ""
  },
  {
   "property": "C60",
   "status": "proved",
   "theorems": [
    "C60_scalar_digits",
    "C60_base_digits"
   ],
   "note": ""
  },
  {
   "property": "C61",
   "status": "proved",
   "theorems": [
    "C61_base",
    "C61_scalar",
    "C61_combined",
    "C61_verify",
    "C61_curve_base",
    "C61_curve_scalar",
    "C61_curve_combined",
    "C61_curve_sign_verify"
   ],
   "note": ""
  },
  {
   "property": "C62",
   "status": "proved",
   "theorems": [
    "C62_inverse",
    "C62_inverse_sign",
    "C62_p256Inverse"
   ],
   "note": ""
  },
  {
   "property": "C63",
   "status": "proved",
   "theorems": [
    "C63_constants"
   ],
   "note": ""
  },
  {
   "property": "C64",
   "status": "proved",
   "theorems": [
    "C64_mul",
    "C64_sqr",
    "C64_from_mont",
    "C64_ord_mul",
    "C64_neg",
    "C64_select",
    "C64_select_base",
    "C64_mov",
    "C64_little_to_big",
    "C64_big_to_little",
    "C64_point_double",
    "C64_point_add",
    "C64_point_add_affine",
    "C64_sub",
    "C64_inverse",
    "C64_p256Inverse",
    "C64_ord_sqr_wrong",
    "C64_ord_sqr_square"
   ],
   "note": ""
  },
  {
   "property": "C65",
   "status": "proved",
   "theorems": [
    "C65_nonces"
   ],
   "note": ""
  },
  {
   "property": "C66",
   "status": "proved",
   "theorems": [
    "C66_accepts_iff"
   ],
   "note": ""
  },
  {
   "property": "C67",
   "status": "proved",
   "theorems": [
    "C67_double",
    "C67_add",
    "C67_add_affine",
    "C67_base",
    "C67_scalar",
    "C67_combined"
   ],
   "note": ""
  },
  {
   "property": "C68",
   "status": "proved",
   "theorems": [
    "C68_scalar_mult_wrong"
   ],
   "note": ""
  },
  {
   "property": "C69",
   "status": "proved",
   "theorems": [
    "C69_field",
    "C69_select",
    "C69_points",
    "C69_ord_sqr"
   ],
   "note": ""
  },
  {
   "property": "C70",
   "status": "proved",
   "theorems": [
    "C70_first_draw",
    "C70_keys_valid",
    "C70_keys_round_trip",
    "C70_zero",
    "C70_zero_key_lost",
    "C70_uniform",
    "C70_public_method",
    "C70_errors",
    "C70_unusable_sm2_key"
   ],
   "note": ""
  },
  {
   "property": "C71",
   "status": "proved",
   "theorems": [
    "C71_roundtrip",
    "C71_weak_nonce",
    "C71_weak_key",
    "C71_asm_roundtrip"
   ],
   "note": ""
  },
  {
   "property": "C72",
   "status": "proved",
   "theorems": [
    "C72_completeness",
    "C72_exact",
    "C72_weak_key"
   ],
   "note": ""
  },
  {
   "property": "C73",
   "status": "proved",
   "theorems": [
    "C73_named_label_exact",
    "C73_named_curve_exact",
    "C73_spelling_unique",
    "C73_header_not_authenticated"
   ],
   "note": ""
  },
  {
   "property": "C74",
   "status": "proved",
   "theorems": [
    "C74_conversion_round_trip",
    "C74_recognised",
    "C74_foreign_key"
   ],
   "note": ""
  },
  {
   "property": "C75",
   "status": "proved",
   "theorems": [
    "C75_params",
    "C75_on_curve",
    "C75_on_curve_point",
    "C75_add",
    "C75_double",
    "C75_scalar_mult",
    "C75_scalar_base_mult",
    "C75_coords_show",
    "C75_off_curve"
   ],
   "note": ""
  },
  {
   "property": "C76",
   "status": "proved",
   "theorems": [
    "C76_verify_exact",
    "C76_sign_verify",
    "C76_never_returns",
    "C76_platforms",
    "C76_encrypt_roundtrip",
    "C76_vrf_completeness",
    "C76_vrf_amd64"
   ],
   "note": ""
  },
  {
   "property": "C77",
   "status": "proved",
   "theorems": [
    "C77_count",
    "C77_generated",
    "C77_order",
    "C77_equal",
    "C77_sum",
    "C77_product",
    "C77_agreement"
   ],
   "note": ""
  },
  {
   "property": "C78",
   "status": "proved",
   "theorems": [
    "C78_verify_exact",
    "C78_sign_exact",
    "C78_sign_verify",
    "C78_malleable",
    "C78_recovery",
    "C78_nonce_reuse",
    "C78_truncation",
    "C78_amd64",
    "C78_amd64_sign"
   ],
   "note": ""
  },
  {
   "property": "C79",
   "status": "proved",
   "theorems": [
    "C79_receive_exact",
    "C79_other_bytes",
    "C79_sign_verify",
    "C79_end_to_end"
   ],
   "note": ""
  },
  {
   "property": "C80",
   "status": "proved",
   "theorems": [
    "C80_evaluate_exact",
    "C80_verify_exact",
    "C80_verify_runs",
    "C80_completeness",
    "C80_right_output",
    "C80_wrong_output",
    "C80_forgery",
    "C80_response_mod_N"
   ],
   "note": ""
  },
  {
   "property": "C81",
   "status": "proved",
   "theorems": [
    "C81_key2wif_value",
    "C81_key2wif_wipes",
    "C81_refused_key",
    "C81_key2wif_leaves_d",
    "C81_go_heap",
    "C81_wif2key_value",
    "C81_getp256_value",
    "C81_wif2key_heap",
    "C81_getp256_heap",
    "C81_not_base58",
    "C81_text_exact"
   ],
   "note": ""
  },
  {
   "property": "C82",
   "status": "proved",
   "theorems": [
    "C82_ecdsa",
    "C82_malleable",
    "C82_verify_exact",
    "C82_verify_answers",
    "C82_four_strings",
    "C82_sign_exact",
    "C82_sign_verify"
   ],
   "note": ""
  },
  {
   "property": "C83",
   "status": "proved",
   "theorems": [
    "C83_receive_exact",
    "C83_receive_panics",
    "C83_two_formats",
    "C83_sign_exact",
    "C83_sign_verify",
    "C83_end_to_end"
   ],
   "note": ""
  },
  {
   "property": "C84",
   "status": "proved",
   "theorems": [
    "C84_verify_exact",
    "C84_receive_exact",
    "C84_builds_agree",
    "C84_not_malleable",
    "C84_sign_cgo",
    "C84_sign_nocgo",
    "C84_sign_alike",
    "C84_sign_verify",
    "C84_end_to_end",
    "C84_convert",
    "C84_convert_signed"
   ],
   "note": ""
  },
  {
   "property": "C85",
   "status": "proved",
   "theorems": [
    "C85_constants",
    "C85_decompress_exact",
    "C85_compress",
    "C85_verify_exact",
    "C85_not_malleable",
    "C85_key",
    "C85_sign_exact",
    "C85_scalar_signs",
    "C85_sign_verify",
    "C85_wrong_half_leaks",
    "C85_neutral_keys",
    "C85_neutral_forgery",
    "C85_receive_exact",
    "C85_universal_forgery",
    "C85_end_to_end"
   ],
   "note": ""
  },
  {
   "property": "C86",
   "status": "proved",
   "theorems": [
    "C86_leading_zeros",
    "C86_unchanged",
    "C86_ways",
    "C86_zero_key",
    "C86_generated",
    "C86_life",
    "C86_ed_life"
   ],
   "note": ""
  },
  {
   "property": "C87",
   "status": "proved",
   "theorems": [
    "C87_hmac",
    "C87_unique",
    "C87_nonce_exact",
    "C87_long_key",
    "C87_seed_injective",
    "C87_c_rounds",
    "C87_seeds",
    "C87_sign_exact",
    "C87_same_seed",
    "C87_builds_agree",
    "C87_sign_whole",
    "C87_end_to_end"
   ],
   "note": ""
  },
  {
   "property": "C88",
   "status": "proved",
   "theorems": [
    "C88_count",
    "C88_generated",
    "C88_order",
    "C88_no_zero_y",
    "C88_compressed_round_trip",
    "C88_rejection",
    "C88_verify_exact",
    "C88_receive_exact",
    "C88_sign_verify",
    "C88_end_to_end"
   ],
   "note": ""
  },
  {
   "property": "C89",
   "status": "proved",
   "theorems": [
    "C89_cyclic",
    "C89_subgroup",
    "C89_small_order",
    "C89_small_keys",
    "C89_verify_parts",
    "C89_cofactored",
    "C89_two_messages",
    "C89_seed_keys"
   ],
   "note": ""
  },
  {
   "property": "C90",
   "status": "proved",
   "theorems": [
    "C90_signature",
    "C90_convert",
    "C90_convert_corrupts",
    "C90_private",
    "C90_private_reused",
    "C90_public",
    "C90_sm4_memory",
    "C90_sm4_in_place"
   ],
   "note": ""
  },
  {
   "property": "C91",
   "status": "proved",
   "theorems": [
    "C91_read_full",
    "C91_lengths",
    "C91_ecdsa_reads",
    "C91_sm2_reads",
    "C91_encrypt_reads",
    "C91_salt_reads",
    "C91_few_ecdsa",
    "C91_few_sm2",
    "C91_seeds",
    "C91_whole_reads",
    "C91_whole_accepted",
    "C91_whole_refused"
   ],
   "note": ""
  },
  {
   "property": "C92",
   "status": "proved",
   "theorems": [
    "C92_salsa",
    "C92_blockmix",
    "C92_smix",
    "C92_pbkdf2",
    "C92_key",
    "C92_cases",
    "C92_shape",
    "C92_encrypt",
    "C92_default",
    "C92_panics"
   ],
   "note": ""
  },
  {
   "property": "C93",
   "status": "proved",
   "theorems": [
    "C93_euclid",
    "C93_documented",
    "C93_inverse",
    "C93_power",
    "C93_btcec",
    "C93_affine",
    "C93_affine_panics",
    "C93_methods",
    "C93_verify"
   ],
   "note": ""
  },
  {
   "property": "C94",
   "status": "proved",
   "theorems": [
    "C94_decrypt_panics",
    "C94_decrypt",
    "C94_encrypt",
    "C94_encrypt_panics",
    "C94_reencrypt",
    "C94_reencrypt_panics",
    "C94_changes",
    "C94_wallet",
    "C94_life",
    "C94_ed_life"
   ],
   "note": ""
  },
  {
   "property": "C95",
   "status": "proved",
   "theorems": [
    "C95_sign",
    "C95_verify",
    "C95_sign_verify",
    "C95_ecdsa_verify",
    "C95_ecdsa_sign",
    "C95_vrf"
   ],
   "note": ""
  },
  {
   "property": "C96",
   "status": "proved",
   "theorems": [
    "C96_leading_zeros",
    "C96_generated",
    "C96_sign_verify",
    "C96_end_to_end",
    "C96_life",
    "C96_receive"
   ],
   "note": ""
  },
  {
   "property": "C97",
   "status": "proved",
   "theorems": [
    "C97_known",
    "C97_related",
    "C97_reuse",
    "C97_two_schemes",
    "C97_same_stream",
    "C97_streams"
   ],
   "note": ""
  },
  {
   "property": "C98",
   "status": "proved",
   "theorems": [
    "C98_known",
    "C98_related",
    "C98_reuse",
    "C98_signature",
    "C98_generated"
   ],
   "note": ""
  },
  {
   "property": "C99",
   "status": "proved",
   "theorems": [
    "C99_storable",
    "C99_pair",
    "C99_second_key",
    "C99_any_message",
    "C99_own_keys"
   ],
   "note": ""
  },
  {
   "property": "C100",
   "status": "proved",
   "theorems": [
    "C100_exact",
    "C100_two_messages",
    "C100_sm2"
   ],
   "note": ""
  },
  {
   "property": "C101",
   "status": "proved",
   "theorems": [
    "C101_compact",
    "C101_compact_signer",
    "C101_ethereum",
    "C101_ethereum_every"
   ],
   "note": ""
  },
  {
   "property": "C102",
   "status": "proved",
   "theorems": [
    "C102_accepted",
    "C102_received",
    "C102_compact",
    "C102_sm2_accepted",
    "C102_sm2_mirror",
    "C102_sm2",
    "C102_ed25519",
    "C102_accepted_k1",
    "C102_ethereum"
   ],
   "note": ""
  },
  {
   "property": "C103",
   "status": "proved",
   "theorems": [
    "C103_opened",
    "C103_reuse",
    "C103_same_stream",
    "C103_same_c1"
   ],
   "note": ""
  },
  {
   "property": "C104",
   "status": "proved",
   "theorems": [
    "C104_length",
    "C104_reuse",
    "C104_old_reuse",
    "C104_malleable",
    "C104_old_wallet"
   ],
   "note": ""
  }
 ]
}