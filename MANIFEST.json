{
 "claims": [
  {
   "property": "C01",
   "status": "proved",
   "theorems": [
    "C01_roundtrip",
    "C01_roundtrip_bundled"
   ],
   "note": "Mnemonic round trip."
  },
  {
   "property": "C02",
   "status": "proved",
   "theorems": [
    "C02_NewMnemonic"
   ],
   "note": "NewMnemonic computes the BIP-39 sentence."
  },
  {
   "property": "C03",
   "status": "proved",
   "theorems": [
    "C03_accepts_exactly",
    "C03_same_entropy_same_words"
   ],
   "note": "EntropyFromMnemonic accepts exactly the BIP-39 sentences."
  },
  {
   "property": "C04",
   "status": "proved",
   "theorems": [
    "C04_last_words"
   ],
   "note": "Checksum strength: number of valid last words."
  },
  {
   "property": "C05",
   "status": "proved",
   "theorems": [
    "C05_raw",
    "C05_single_spaces",
    "C05_any_spacing",
    "C05_any_spacing_refuted"
   ],
   "note": "MnemonicToByteArray."
  },
  {
   "property": "C06",
   "status": "proved",
   "theorems": [
    "C06_error_classes"
   ],
   "note": "Error classes of EntropyFromMnemonic."
  },
  {
   "property": "C07",
   "status": "proved",
   "theorems": [
    "C07_validity_ignores_spacing",
    "C07_only_the_words",
    "C07_seed_is_of_the_text",
    "C07_seed_spacing_refuted"
   ],
   "note": "Whitespace: validity ignores it, the seed does not."
  },
  {
   "property": "C08",
   "status": "proved",
   "theorems": [
    "C08_seed_gating"
   ],
   "note": "Seed gating."
  },
  {
   "property": "C09",
   "status": "proved",
   "theorems": [
    "C09_lookup"
   ],
   "note": "Word list lookup after any history."
  },
  {
   "property": "C10",
   "status": "proved",
   "theorems": [
    "C10_consistent_without_writes",
    "C10_aliasing_refuted"
   ],
   "note": "Word list aliasing."
  },
  {
   "property": "C11",
   "status": "proved",
   "theorems": [
    "C11_serial_readers",
    "C11_concurrent_words",
    "C11_concurrent_reader_refuted",
    "C11_mixed_sentence_refuted",
    "C11_mixed_accepted_refuted"
   ],
   "note": "Concurrent SetWordList."
  },
  {
   "property": "C12",
   "status": "proved",
   "theorems": [
    "C12_NewEntropy",
    "C12_random_failure_reported_refuted"
   ],
   "note": "NewEntropy."
  },
  {
   "property": "C13",
   "status": "proved",
   "theorems": [
    "C13_GenerateMnemonic"
   ],
   "note": "GenerateMnemonic."
  },
  {
   "property": "C14",
   "status": "proved",
   "theorems": [
    "C14_bundled_lists"
   ],
   "note": "Bundled word lists are fit for use."
  },
  {
   "property": "C15",
   "status": "proved",
   "theorems": [
    "C15_serialize",
    "C15_roundtrip",
    "C15_injective",
    "C15_zero_key"
   ],
   "note": "Serialize/Deserialize round trip."
  },
  {
   "property": "C16",
   "status": "proved",
   "theorems": [
    "C16_deserialize",
    "C16_b58_canonical",
    "C16_b58_zero"
   ],
   "note": "Deserialize accepts exactly checksummed 82-byte strings."
  },
  {
   "property": "C17",
   "status": "proved",
   "theorems": [
    "C17_isvalid",
    "C17_valid_accepted",
    "C17_accepts_invalid_refuted"
   ],
   "note": "Key.IsValid means non-zero."
  },
  {
   "property": "C18",
   "status": "proved",
   "theorems": [
    "C18_base58"
   ],
   "note": "Base58 codec."
  },
  {
   "property": "C19",
   "status": "proved",
   "theorems": [
    "C19_master"
   ],
   "note": "NewMasterKey follows BIP-32."
  },
  {
   "property": "C20",
   "status": "proved",
   "theorems": [
    "C20_CKDpriv",
    "C20_zero_child"
   ],
   "note": "CKDpriv."
  },
  {
   "property": "C21",
   "status": "proved",
   "theorems": [
    "C21_CKDpub",
    "C21_zero_IL_refuted"
   ],
   "note": "CKDpub."
  },
  {
   "property": "C22",
   "status": "proved",
   "theorems": [
    "C22_commute",
    "C22_zero_IL_refuted"
   ],
   "note": "Public and private derivation commute."
  },
  {
   "property": "C23",
   "status": "proved",
   "theorems": [
    "C23_watch_only"
   ],
   "note": "Watch-only derivation along any path."
  },
  {
   "property": "C24",
   "status": "proved",
   "theorems": [
    "C24_no_hardened_public"
   ],
   "note": "No hardened child from a public key."
  },
  {
   "property": "C25",
   "status": "proved",
   "theorems": [
    "C25_private_usable",
    "C25_master_usable",
    "C25_public_infinity",
    "C25_public_infinity_refuted"
   ],
   "note": "Returned private keys are usable."
  },
  {
   "property": "C26",
   "status": "proved",
   "theorems": [
    "C26_over_range",
    "C26_over_range_public",
    "C26_over_range_refuted"
   ],
   "note": "Over-range intermediate scalars."
  },
  {
   "property": "C27",
   "status": "proved",
   "theorems": [
    "C27_depth",
    "C27_depth_counts",
    "C27_depth_wraps_refuted"
   ],
   "note": "Depth byte."
  },
  {
   "property": "C28",
   "status": "proved",
   "theorems": [
    "C28_private",
    "C28_public",
    "C28_idempotent",
    "C28_fields",
    "C28_injective"
   ],
   "note": "Neuter."
  },
  {
   "property": "C29",
   "status": "proved",
   "theorems": [
    "C29_order_irrelevant",
    "C29_init_terminates",
    "C29_one_flag",
    "C29_slice_permutation"
   ],
   "note": "Version tables do not depend on map iteration order."
  },
  {
   "property": "C30",
   "status": "proved",
   "theorems": [
    "C30_prefixes",
    "C30_constant_prefix",
    "C30_misdocumented_refuted"
   ],
   "note": "Human-readable prefixes."
  },
  {
   "property": "C31",
   "status": "proved",
   "theorems": [
    "C31_accessors",
    "C31_errors",
    "C31_empty_component_refuted",
    "C31_registered"
   ],
   "note": "Purpose and coin accessors."
  },
  {
   "property": "C32",
   "status": "proved",
   "theorems": [
    "C32_unregistered"
   ],
   "note": "Unregistered versions."
  },
  {
   "property": "C33",
   "status": "proved",
   "theorems": [
    "C33_expand_compress",
    "C33_compress_expand",
    "C33_off_curve_refuted",
    "C33_validate",
    "C33_validate_refuted"
   ],
   "note": "Public key compression."
  },
  {
   "property": "C34",
   "status": "proved",
   "theorems": [
    "C34_leak",
    "C34_hardened_input"
   ],
   "note": "Leaking a non-hardened child."
  },
  {
   "property": "C35",
   "status": "proved",
   "theorems": [
    "C35_grammar",
    "C35_unambiguous"
   ],
   "note": "Path grammar."
  },
  {
   "property": "C36",
   "status": "proved",
   "theorems": [
    "C36_values",
    "C36_truncation_refuted",
    "C36_errors"
   ],
   "note": "Path values."
  },
  {
   "property": "C37",
   "status": "proved",
   "theorems": [
    "C37_formatting",
    "C37_print_parse",
    "C37_itoa"
   ],
   "note": "Path formatting."
  },
  {
   "property": "C38",
   "status": "proved",
   "theorems": [
    "C38_value_at_depth",
    "C38_count_mod_256",
    "C38_count_mod_256_refuted"
   ],
   "note": "ValueAtDepth."
  },
  {
   "property": "C39",
   "status": "proved",
   "theorems": [
    "C39_replace",
    "C39_result_valid",
    "C39_no_panic",
    "C39_depth_zero_refuted",
    "C39_order_refuted"
   ],
   "note": "ReplaceValueAtDepth."
  },
  {
   "property": "C40",
   "status": "proved",
   "theorems": [
    "C40_root_key",
    "C40_rejects",
    "C40_panic_refuted"
   ],
   "note": "RootKeyFromSeed."
  },
  {
   "property": "C41",
   "status": "proved",
   "theorems": [
    "C41_chain",
    "C41_prefix",
    "C41_values_only",
    "C41_rejects"
   ],
   "note": "DeriveBIP32Result is the chain of child derivations."
  },
  {
   "property": "C42",
   "status": "proved",
   "theorems": [
    "C42_unregistered_refuted",
    "C42_zero_scalar_refuted",
    "C42_valid_entries"
   ],
   "note": "DeriveBIP32Result never reports derivation failures."
  },
  {
   "property": "C43",
   "status": "proved",
   "theorems": [
    "C43_path_text",
    "C43_path_values",
    "C43_own_path_rejected_refuted"
   ],
   "note": "Paths reported by DeriveBIP32Result."
  },
  {
   "property": "C44",
   "status": "proved",
   "theorems": [
    "C44_chain",
    "C44_paths",
    "C44_not_siblings_refuted",
    "C44_start_above_end_refuted",
    "C44_rejects"
   ],
   "note": "GenerateRange."
  },
  {
   "property": "C45",
   "status": "proved",
   "theorems": [
    "C45_private",
    "C45_public",
    "C45_total",
    "C45_ethereum",
    "C45_ethereum_public",
    "C45_leading_zero_refuted"
   ],
   "note": "AddrHex."
  },
  {
   "property": "C46",
   "status": "proved",
   "theorems": [
    "C46_private",
    "C46_public",
    "C46_recoverable",
    "C46_not_script_hash_refuted"
   ],
   "note": "AddrP2SH."
  },
  {
   "property": "C47",
   "status": "proved",
   "theorems": [
    "C47_hex",
    "C47_hex_public"
   ],
   "note": "Hex accessors."
  },
  {
   "property": "C48",
   "status": "proved",
   "theorems": [
    "C48_every_coin_valid",
    "C48_same_coins",
    "C48_types_changed",
    "C48_lookup_by_type",
    "C48_lookup_by_path_component",
    "C48_lookups_agree",
    "C48_order_irrelevant_for_numbers",
    "C48_source_type_refuted"
   ],
   "note": "Coin registry after init."
  },
  {
   "property": "C49",
   "status": "proved",
   "theorems": [
    "C49_lookup_by_name",
    "C49_every_coin_found_by_name_refuted",
    "C49_lookup_by_name_deterministic_refuted"
   ],
   "note": "Coin lookup by name."
  },
  {
   "property": "C50",
   "status": "proved",
   "theorems": [
    "C50_is_valid"
   ],
   "note": "Coin.IsValid."
  },
  {
   "property": "C51",
   "status": "proved",
   "theorems": [
    "C51_lines_independent",
    "C51_hexadecimal_rows_imported_refuted",
    "C51_bundled_file_refuted",
    "C51_decimal_row",
    "C51_every_row"
   ],
   "note": "SLIP-44 import."
  },
  {
   "property": "C52",
   "status": "proved",
   "theorems": [
    "C52_same_result",
    "C52_memory",
    "C52_kept_when_no_room",
    "C52_writes_after_argument_refuted"
   ],
   "note": "Caller memory: Deserialize."
  },
  {
   "property": "C53",
   "status": "proved",
   "theorems": [
    "C53_checksum_value",
    "C53_checksum_fresh",
    "C53_checksum_slice",
    "C53_checksum_in_place_refuted",
    "C53_serialize"
   ],
   "note": "Caller memory: checksums and serialisation."
  },
  {
   "property": "C54",
   "status": "proved",
   "theorems": [
    "C54_no_panic",
    "C54_in_range",
    "C54_shown",
    "C54_bad_seed_refuted"
   ],
   "note": "UI: selected tab in range."
  },
  {
   "property": "C55",
   "status": "proved",
   "theorems": [
    "C55_fields",
    "C55_root_text"
   ],
   "note": "UI: root key field."
  },
  {
   "property": "C56",
   "status": "proved",
   "theorems": [
    "C56_fresh",
    "C56_stale_refuted"
   ],
   "note": "UI: stale results."
  },
  {
   "property": "C57",
   "status": "proved",
   "theorems": [
    "C57_stays_lost",
    "C57_lost_refuted",
    "C57_right_arrow_recovers"
   ],
   "note": "UI: selection lost."
  },
  {
   "property": "C58",
   "status": "proved",
   "theorems": [
    "C58_composed_spelling_refuted",
    "C58_passphrase_spelling_refuted"
   ],
   "note": "No Unicode normalisation."
  },
  {
   "property": "C59",
   "status": "proved",
   "theorems": [
    "C59_writers_invariant",
    "C59_single_writer",
    "C59_two_writers_refuted"
   ],
   "note": "Concurrent SetWordList calls."
  },
  {
   "property": "C60",
   "status": "proved",
   "theorems": [
    "C60_no_panic",
    "C60_panics"
   ],
   "note": "Panics in bip32."
  },
  {
   "property": "C61",
   "status": "proved",
   "theorems": [
    "C61_setters",
    "C61_getters",
    "C61_version_uint32"
   ],
   "note": "Key field accessors."
  },
  {
   "property": "C62",
   "status": "proved",
   "theorems": [
    "C62_is_registered",
    "C62_unregistered_flags_refuted"
   ],
   "note": "VersionBytes.IsRegistered."
  },
  {
   "property": "C63",
   "status": "proved",
   "theorems": [
    "C63_every_coin_has_a_row",
    "C63_every_row_accounted_for"
   ],
   "note": "Coin table agrees with the bundled SLIP-44 file."
  },
  {
   "property": "C64",
   "status": "proved",
   "theorems": [
    "C64_string_shows_type",
    "C64_registered_strings_distinct",
    "C64_string_injective_refuted",
    "C64_md_injective",
    "C64_md_injective_refuted",
    "C64_formats"
   ],
   "note": "Text forms of coins."
  },
  {
   "property": "C65",
   "status": "proved",
   "theorems": [
    "C65_registries_agree"
   ],
   "note": "Version bytes refer to registered coins."
  },
  {
   "property": "C66",
   "status": "proved",
   "theorems": [
    "C66_intermediary_memory",
    "C66_setters_memory",
    "C66_setters_agree"
   ],
   "note": "Caller memory: child derivation and setters."
  },
  {
   "property": "C67",
   "status": "proved",
   "theorems": [
    "C67_wallet",
    "C67_invalid_mnemonic"
   ],
   "note": "UI: mnemonic, seed and root key belong together."
  },
  {
   "property": "C68",
   "status": "proved",
   "theorems": [
    "C68_wiped_refuted"
   ],
   "note": "UI: passphrase erases a wallet."
  },
  {
   "property": "C69",
   "status": "proved",
   "theorems": [
    "C69_generate",
    "C69_first_click"
   ],
   "note": "UI: generate button."
  },
  {
   "property": "C70",
   "status": "proved",
   "theorems": [
    "C70_mnemonic",
    "C70_seed",
    "C70_root",
    "C70_path"
   ],
   "note": "UI: edits take effect in the next frame."
  },
  {
   "property": "C71",
   "status": "proved",
   "theorems": [
    "C71_smooth_odd",
    "C71_smooth_ends",
    "C71_smooth_cubic",
    "C71_smooth_range",
    "C71_smooth_monotone",
    "C71_smooth_no_jump"
   ],
   "note": "Slider: easing curve."
  },
  {
   "property": "C72",
   "status": "proved",
   "theorems": [
    "C72_history",
    "C72_only_two_pictures",
    "C72_current_picture",
    "C72_positions",
    "C72_forward"
   ],
   "note": "Slider: what a frame draws."
  },
  {
   "property": "C73",
   "status": "proved",
   "theorems": [
    "C73_rest",
    "C73_requests"
   ],
   "note": "Slider: slides end."
  },
  {
   "property": "C74",
   "status": "proved",
   "theorems": [
    "C74_session",
    "C74_no_influence",
    "C74_direction",
    "C74_same_wallet"
   ],
   "note": "UI: page turns."
  },
  {
   "property": "C75",
   "status": "proved",
   "theorems": [
    "C75_compare"
   ],
   "note": "compareByteSlices decides equality."
  },
  {
   "property": "C76",
   "status": "proved",
   "theorems": [
    "C76_boot",
    "C76_corruption_panics",
    "C76_checksum_not_enough_refuted"
   ],
   "note": "Word lists checked at start-up."
  },
  {
   "property": "C77",
   "status": "proved",
   "theorems": [
    "C77_set_copies",
    "C77_variables",
    "C77_unset",
    "C77_pointer_refuted",
    "C77_pointer_silent_refuted"
   ],
   "note": "Generator owns a copy of its root key."
  },
  {
   "property": "C78",
   "status": "proved",
   "theorems": [
    "C78_undisturbed",
    "C78_values_held",
    "C78_mixed_refuted",
    "C78_unchecked_refuted",
    "C78_spurious_refuted",
    "C78_bytes_whole",
    "C78_events",
    "C78_torn",
    "C78_torn_refuted"
   ],
   "note": "Generator beside concurrent SetRootKey."
  },
  {
   "property": "C79",
   "status": "proved",
   "theorems": [
    "C79_initial",
    "C79_master",
    "C79_registered",
    "C79_prefix",
    "C79_testnet",
    "C79_unregistered_refuted",
    "C79_public"
   ],
   "note": "DefaultMainnetVersion can be assigned."
  },
  {
   "property": "C80",
   "status": "proved",
   "theorems": [
    "C80_private",
    "C80_public",
    "C80_absent",
    "C80_no_panic",
    "C80_register_keeps",
    "C80_register_new"
   ],
   "note": "Version maps with any contents."
  },
  {
   "property": "C81",
   "status": "proved",
   "theorems": [
    "C81_wallet",
    "C81_shown"
   ],
   "note": "From the words to the addresses, the program computes the wallet of BIP-39 and BIP-32."
  },
  {
   "property": "C82",
   "status": "proved",
   "theorems": [
    "C82_import",
    "C82_derive",
    "C82_addresses"
   ],
   "note": "A watch-only wallet imported from an extended public key's text shows the addresses of the private wallet."
  },
  {
   "property": "C83",
   "status": "proved",
   "theorems": [
    "C83_program"
   ],
   "note": "What the example program shows for a valid mnemonic and path is the wallet of BIP-39 and BIP-32."
  },
  {
   "property": "C84",
   "status": "proved",
   "theorems": [
    "C84_fields",
    "C84_trim",
    "C84_split",
    "C84_replace",
    "C84_atoi"
   ],
   "note": "The library's text functions, as Go writes them, do what the model of the callers assumes."
  },
  {
   "property": "C85",
   "status": "proved",
   "theorems": [
    "C85_writes",
    "C85_hmac",
    "C85_pbkdf2",
    "C85_calls"
   ],
   "note": "The hash, HMAC and PBKDF2 objects of the libraries, as written, give the one-shot functions for any sequence of calls."
  },
  {
   "property": "C86",
   "status": "proved",
   "theorems": [
    "C86_sha2",
    "C86_hmac",
    "C86_rmd_keccak",
    "C86_prims",
    "C86_seed"
   ],
   "note": "The hash functions of the wallet are exactly those of the standards."
  },
  {
   "property": "C87",
   "status": "proved",
   "theorems": [
    "C87_base58",
    "C87_hex",
    "C87_crc"
   ],
   "note": "Base58, hexadecimal and CRC-32 of the libraries, as written, are the model's and never panic."
  },
  {
   "property": "C88",
   "status": "proved",
   "theorems": [
    "C88_polynomial",
    "C88_noticed"
   ],
   "note": "The word lists' checksum is the CRC-32 of IEEE 802.3, and which changes of a list it notices."
  },
  {
   "property": "C89",
   "status": "proved",
   "theorems": [
    "C89_rounding",
    "C89_rounding_unique",
    "C89_overflow",
    "C89_smooth",
    "C89_monotone",
    "C89_ends",
    "C89_odd"
   ],
   "note": "Machine arithmetic of the slider: rounding is IEEE 754's and the easing curve survives it."
  },
  {
   "property": "C90",
   "status": "proved",
   "theorems": [
    "C90_positions",
    "C90_one_pixel",
    "C90_push",
    "C90_forward",
    "C90_rest",
    "C90_quiet",
    "C90_on_time_refuted",
    "C90_ends_refuted"
   ],
   "note": "The slider with float32 arithmetic: where the pictures are after any history of frames."
  },
  {
   "property": "C91",
   "status": "proved",
   "theorems": [
    "C91_session",
    "C91_window"
   ],
   "note": "The example program with float32 arithmetic in its slider."
  },
  {
   "property": "C92",
   "status": "proved",
   "theorems": [
    "C92_points",
    "C92_affine",
    "C92_add",
    "C92_residues",
    "C92_residues_refuted"
   ],
   "note": "Addition of the secp256k1 library."
  },
  {
   "property": "C93",
   "status": "proved",
   "theorems": [
    "C93_base",
    "C93_model",
    "C93_scalar",
    "C93_infinity"
   ],
   "note": "Base point multiplication of the secp256k1 library."
  },
  {
   "property": "C94",
   "status": "proved",
   "theorems": [
    "C94_add",
    "C94_mul",
    "C94_square",
    "C94_mulint",
    "C94_negate",
    "C94_normalize",
    "C94_inverse",
    "C94_affine",
    "C94_bytes",
    "C94_compare"
   ],
   "note": "Field words of the secp256k1 library."
  },
  {
   "property": "C95",
   "status": "proved",
   "theorems": [
    "C95_child",
    "C95_accepted_refuted"
   ],
   "note": "Extended public keys whose x is not below p."
  },
  {
   "property": "C96",
   "status": "proved",
   "theorems": [
    "C96_legendre",
    "C96_jacobi",
    "C96_multiplicative",
    "C96_reciprocity",
    "C96_even",
    "C96_negative",
    "C96_root",
    "C96_model",
    "C96_curve"
   ],
   "note": "The square root of math/big."
  },
  {
   "property": "C97",
   "status": "proved",
   "theorems": [
    "C97_match",
    "C97_engines",
    "C97_compiler",
    "C97_path_match",
    "C97_version_match",
    "C97_strip",
    "C97_model",
    "C97_parse",
    "C97_text",
    "C97_text_ends"
   ],
   "note": "Go's regular expressions."
  },
  {
   "property": "C98",
   "status": "proved",
   "theorems": [
    "C98_panics",
    "C98_short_refuted",
    "C98_repeats",
    "C98_repeats_refuted",
    "C98_first_words",
    "C98_long_names_refuted",
    "C98_long_entropy_refuted"
   ],
   "note": "Word lists of any length and with repetitions."
  },
  {
   "property": "C99",
   "status": "proved",
   "theorems": [
    "C99_private",
    "C99_same_children",
    "C99_invalid_private_refuted",
    "C99_public",
    "C99_off_curve_refuted",
    "C99_other_header_refuted"
   ],
   "note": "NewChildKey on arrays that are no extended keys."
  },
  {
   "property": "C100",
   "status": "proved",
   "theorems": [
    "C100_read",
    "C100_ends",
    "C100_ends_refuted",
    "C100_NewSeed",
    "C100_seed_size_refuted",
    "C100_NewEntropy",
    "C100_failure_refuted"
   ],
   "note": "The random source."
  },
  {
   "property": "C101",
   "status": "proved",
   "theorems": [
    "C101_repr",
    "C101_arith",
    "C101_long",
    "C101_cut",
    "C101_power",
    "C101_shift",
    "C101_trailing",
    "C101_word_div",
    "C101_div",
    "C101_bytes",
    "C101_inverse",
    "C101_montgomery",
    "C101_exp",
    "C101_sqrt",
    "C101_expand",
    "C101_compress",
    "C101_private",
    "C101_mnemonic",
    "C101_base58"
   ],
   "note": "math/big, word by word."
  },
  {
   "property": "C102",
   "status": "proved",
   "theorems": [
    "C102_sprintf",
    "C102_unique",
    "C102_numbers",
    "C102_strings",
    "C102_compare",
    "C102_binary",
    "C102_calls"
   ],
   "note": "fmt, strings, bytes and encoding/binary as written."
  },
  {
   "property": "C103",
   "status": "proved",
   "theorems": [
    "C103_keys",
    "C103_texts",
    "C103_paths",
    "C103_mnemonic",
    "C103_util",
    "C103_seed",
    "C103_wallet",
    "C103_shown",
    "C103_total"
   ],
   "note": "The wallet on the libraries as written."
  },
  {
   "property": "C104",
   "status": "proved",
   "theorems": [
    "C104_sort",
    "C104_init",
    "C104_first_or_last_refuted",
    "C104_script"
   ],
   "note": "sort.Slice, init of bip44 and the import script as written."
  },
  {
   "property": "C105",
   "status": "proved",
   "theorems": [
    "C105_run",
    "C105_ends",
    "C105_after_a_frame",
    "C105_generate",
    "C105_typed_mnemonic",
    "C105_typed_seed"
   ],
   "note": "The example program on the libraries as written."
  },
  {
   "property": "C106",
   "status": "proved",
   "theorems": [
    "C106_parse",
    "C106_repo",
    "C106_match"
   ],
   "note": "The parser of package regexp on every pattern of the operators used in /repo."
  },
  {
   "property": "C107",
   "status": "proved",
   "theorems": [
    "C107_run",
    "C107_window",
    "C107_ends"
   ],
   "note": "The example program with its moving pages on the libraries as written."
  },
  {
   "property": "C108",
   "status": "proved",
   "theorems": [
    "C108_text",
    "C108_written",
    "C108_exact",
    "C108_exact_written",
    "C108_engines"
   ],
   "note": "Soundness for every pattern; exactness for every pattern that passes the decidable check tables_ok, which is a stated hypothesis of C108_exact and C108_exact_written."
  }
 ]
}