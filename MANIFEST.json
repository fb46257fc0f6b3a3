{
 "claims": [
  {
   "property": "C01",
   "status": "proved",
   "theorems": [
    "C01_validate_hex"
   ],
   "note": ""
  },
  {
   "property": "C02",
   "status": "proved",
   "theorems": [
    "C02_int_hex_roundtrip"
   ],
   "note": ""
  },
  {
   "property": "C03",
   "status": "proved",
   "theorems": [
    "C03_reverse_hex_order"
   ],
   "note": ""
  },
  {
   "property": "C04",
   "status": "proved",
   "theorems": [
    "C04_le_field"
   ],
   "note": ""
  },
  {
   "property": "C05",
   "status": "proved",
   "theorems": [
    "C05_var_int"
   ],
   "note": ""
  },
  {
   "property": "C06",
   "status": "proved",
   "theorems": [
    "C06_pad_hex"
   ],
   "note": ""
  },
  {
   "property": "C07",
   "status": "proved",
   "theorems": [
    "C07_base58"
   ],
   "note": ""
  },
  {
   "property": "C08",
   "status": "proved",
   "theorems": [
    "C08_base58check_roundtrip"
   ],
   "note": ""
  },
  {
   "property": "C09",
   "status": "proved",
   "theorems": [
    "C09_base58check_canonical"
   ],
   "note": ""
  },
  {
   "property": "C10",
   "status": "proved",
   "theorems": [
    "C10_address_validation",
    "C10_address_validation_general"
   ],
   "note": ""
  },
  {
   "property": "C11",
   "status": "proved",
   "theorems": [
    "C11_address_conversions"
   ],
   "note": ""
  },
  {
   "property": "C12",
   "status": "proved",
   "theorems": [
    "C12_script_opcodes_ignored",
    "C12_address_implies_p2pkh_refuted"
   ],
   "note": ""
  },
  {
   "property": "C13",
   "status": "proved",
   "theorems": [
    "C13_wif",
    "C13_wif_version_unchecked"
   ],
   "note": ""
  },
  {
   "property": "C14",
   "status": "proved",
   "theorems": [
    "C14_satoshi_to_bitcoin"
   ],
   "note": ""
  },
  {
   "property": "C15",
   "status": "proved",
   "theorems": [
    "C15_bitcoin_to_satoshi"
   ],
   "note": ""
  },
  {
   "property": "C16",
   "status": "proved",
   "theorems": [
    "C16_amount_roundtrip"
   ],
   "note": ""
  },
  {
   "property": "C17",
   "status": "proved",
   "theorems": [
    "C17_validate_amount",
    "C17_positive_refuted"
   ],
   "note": ""
  },
  {
   "property": "C18",
   "status": "proved",
   "theorems": [
    "C18_script_sig",
    "C18_script_sig_unique_refuted"
   ],
   "note": ""
  },
  {
   "property": "C19",
   "status": "proved",
   "theorems": [
    "C19_der_roundtrip"
   ],
   "note": ""
  },
  {
   "property": "C20",
   "status": "proved",
   "theorems": [
    "C20_serialisation",
    "C20_unambiguous"
   ],
   "note": ""
  },
  {
   "property": "C21",
   "status": "proved",
   "theorems": [
    "C21_decoder_exact",
    "C21_decode_serialised"
   ],
   "note": ""
  },
  {
   "property": "C22",
   "status": "proved",
   "theorems": [
    "C22_decoded_serialises",
    "C22_reserialise",
    "C22_exact_refuted"
   ],
   "note": ""
  },
  {
   "property": "C23",
   "status": "proved",
   "theorems": [
    "C23_truncation"
   ],
   "note": ""
  },
  {
   "property": "C24",
   "status": "proved",
   "theorems": [
    "C24_sighash",
    "C24_sighash_binding"
   ],
   "note": ""
  },
  {
   "property": "C25",
   "status": "proved",
   "theorems": [
    "C25_sign_then_verify",
    "C25_signed_form"
   ],
   "note": ""
  },
  {
   "property": "C26",
   "status": "proved",
   "theorems": [
    "C26_frame",
    "C26_unsign"
   ],
   "note": ""
  },
  {
   "property": "C27",
   "status": "proved",
   "theorems": [
    "C27_sign_outcome",
    "C27_first_unknown"
   ],
   "note": ""
  },
  {
   "property": "C28",
   "status": "proved",
   "theorems": [
    "C28_nonces",
    "C28_nonces_refused",
    "C28_more_inputs_than_keys_refuted"
   ],
   "note": ""
  },
  {
   "property": "C29",
   "status": "proved",
   "theorems": [
    "C29_verify",
    "C29_verify_zero",
    "C29_verify_unsigned"
   ],
   "note": ""
  },
  {
   "property": "C30",
   "status": "proved",
   "theorems": [
    "C30_decoded_verify",
    "C30_json_owner_refuted"
   ],
   "note": ""
  },
  {
   "property": "C31",
   "status": "proved",
   "theorems": [
    "C31_txid",
    "C31_txid_decoded"
   ],
   "note": ""
  },
  {
   "property": "C32",
   "status": "proved",
   "theorems": [
    "C32_round_trip",
    "C32_created",
    "C32_signed",
    "C32_stable",
    "C32_same_forms",
    "C32_decoded_refuted"
   ],
   "note": ""
  },
  {
   "property": "C33",
   "status": "proved",
   "theorems": [
    "C33_accepted_iff",
    "C33_consistent"
   ],
   "note": ""
  },
  {
   "property": "C34",
   "status": "proved",
   "theorems": [
    "C34_version_ignored",
    "C34_any_script"
   ],
   "note": ""
  },
  {
   "property": "C35",
   "status": "proved",
   "theorems": [
    "C35_created_iff",
    "C35_request_unique",
    "C35_value_conservation"
   ],
   "note": ""
  },
  {
   "property": "C36",
   "status": "proved",
   "theorems": [
    "C36_fee_limit",
    "C36_fee_too_high"
   ],
   "note": ""
  },
  {
   "property": "C37",
   "status": "proved",
   "theorems": [
    "C37_wire",
    "C37_payments",
    "C37_change_output",
    "C37_ambiguous_change"
   ],
   "note": ""
  },
  {
   "property": "C38",
   "status": "proved",
   "theorems": [
    "C38_selection",
    "C38_sorted_unique",
    "C38_all"
   ],
   "note": ""
  },
  {
   "property": "C39",
   "status": "proved",
   "theorems": [
    "C39_fewest_inputs"
   ],
   "note": ""
  },
  {
   "property": "C40",
   "status": "proved",
   "theorems": [
    "C40_outputs_not_covered",
    "C40_fee_not_covered",
    "C40_covered"
   ],
   "note": ""
  },
  {
   "property": "C41",
   "status": "proved",
   "theorems": [
    "C41_distinct_addresses",
    "C41_repeated_address"
   ],
   "note": ""
  },
  {
   "property": "C42",
   "status": "proved",
   "theorems": [
    "C42_spend_limit",
    "C42_too_much"
   ],
   "note": ""
  },
  {
   "property": "C43",
   "status": "proved",
   "theorems": [
    "C43_percentage_range",
    "C43_usable"
   ],
   "note": ""
  },
  {
   "property": "C44",
   "status": "proved",
   "theorems": [
    "C44_zero_fee",
    "C44_both",
    "C44_zero_fee_with_rate"
   ],
   "note": ""
  },
  {
   "property": "C45",
   "status": "proved",
   "theorems": [
    "C45_whole_rate",
    "C45_decimal_rate"
   ],
   "note": ""
  },
  {
   "property": "C46",
   "status": "proved",
   "theorems": [
    "C46_estimate"
   ],
   "note": ""
  },
  {
   "property": "C47",
   "status": "proved",
   "theorems": [
    "C47_rewrites_arguments",
    "C47_second_call"
   ],
   "note": ""
  },
  {
   "property": "C48",
   "status": "proved",
   "theorems": [
    "C48_distinct_outpoints"
   ],
   "note": ""
  },
  {
   "property": "C49",
   "status": "proved",
   "theorems": [
    "C49_all_or_nothing",
    "C49_printed",
    "C49_succeeds_iff",
    "C49_refused"
   ],
   "note": ""
  },
  {
   "property": "C50",
   "status": "proved",
   "theorems": [
    "C50_never_succeeds",
    "C50_prints_first",
    "C50_refused"
   ],
   "note": ""
  },
  {
   "property": "C51",
   "status": "proved",
   "theorems": [
    "C51_size",
    "C51_signed"
   ],
   "note": ""
  },
  {
   "property": "C52",
   "status": "proved",
   "theorems": [
    "C52_entries_read",
    "C52_documented_key_ignored",
    "C52_approaches_read"
   ],
   "note": ""
  },
  {
   "property": "C53",
   "status": "proved",
   "theorems": [
    "C53_whole_number",
    "C53_positive_refuted",
    "C53_decimal",
    "C53_either",
    "C53_printable",
    "C53_date",
    "C53_date_refuted"
   ],
   "note": ""
  },
  {
   "property": "C54",
   "status": "proved",
   "theorems": [
    "C54_integer",
    "C54_whole_number",
    "C54_whole_refuted",
    "C54_domain"
   ],
   "note": ""
  },
  {
   "property": "C55",
   "status": "proved",
   "theorems": [
    "C55_verify",
    "C55_agree",
    "C55_signs"
   ],
   "note": ""
  },
  {
   "property": "C56",
   "status": "proved",
   "theorems": [
    "C56_call",
    "C56_frozen",
    "C56_history",
    "C56_propagate",
    "C56_twice_refuted"
   ],
   "note": ""
  },
  {
   "property": "C57",
   "status": "proved",
   "theorems": [
    "C57_summary",
    "C57_rounded_unique",
    "C57_decoded",
    "C57_decoded_too_much"
   ],
   "note": ""
  },
  {
   "property": "C58",
   "status": "proved",
   "theorems": [
    "C58_decimal_places",
    "C58_decimal_places_errors"
   ],
   "note": ""
  },
  {
   "property": "C59",
   "status": "proved",
   "theorems": [
    "C59_lists"
   ],
   "note": ""
  },
  {
   "property": "C60",
   "status": "proved",
   "theorems": [
    "C60_setup_ok",
    "C60_setup_failed"
   ],
   "note": ""
  },
  {
   "property": "C61",
   "status": "proved",
   "theorems": [
    "C61_emitted",
    "C61_silent",
    "C61_set_level_refuted"
   ],
   "note": ""
  },
  {
   "property": "C62",
   "status": "proved",
   "theorems": [
    "C62_workflow"
   ],
   "note": ""
  },
  {
   "property": "C63",
   "status": "proved",
   "theorems": [
    "C63_one_key",
    "C63_keys",
    "C63_data",
    "C63_files",
    "C63_runs",
    "C63_unknown"
   ],
   "note": ""
  },
  {
   "property": "C64",
   "status": "proved",
   "theorems": [
    "C64_key_tasks",
    "C64_refused"
   ],
   "note": ""
  },
  {
   "property": "C65",
   "status": "proved",
   "theorems": [
    "C65_version",
    "C65_command",
    "C65_space"
   ],
   "note": ""
  },
  {
   "property": "C66",
   "status": "proved",
   "theorems": [
    "C66_digest",
    "C66_data"
   ],
   "note": ""
  },
  {
   "property": "C67",
   "status": "proved",
   "theorems": [
    "C67_loops",
    "C67_document",
    "C67_fields",
    "C67_json"
   ],
   "note": ""
  },
  {
   "property": "C68",
   "status": "proved",
   "theorems": [
    "C68_transaction",
    "C68_signed",
    "C68_parts"
   ],
   "note": ""
  },
  {
   "property": "C69",
   "status": "proved",
   "theorems": [
    "C69_first_problem",
    "C69_well_formed",
    "C69_fee_true"
   ],
   "note": ""
  },
  {
   "property": "C70",
   "status": "proved",
   "theorems": [
    "C70_first_problem"
   ],
   "note": ""
  },
  {
   "property": "C71",
   "status": "proved",
   "theorems": [
    "C71_every_error"
   ],
   "note": ""
  },
  {
   "property": "C72",
   "status": "proved",
   "theorems": [
    "C72_message",
    "C72_total",
    "C72_hex",
    "C72_printable",
    "C72_same"
   ],
   "note": ""
  },
  {
   "property": "C73",
   "status": "proved",
   "theorems": [
    "C73_hex",
    "C73_decode",
    "C73_decode_refused",
    "C73_no_signature_refuted",
    "C73_json",
    "C73_sign"
   ],
   "note": ""
  },
  {
   "property": "C74",
   "status": "proved",
   "theorems": [
    "C74_logging",
    "C74_contents",
    "C74_sources",
    "C74_json_files",
    "C74_log_dir",
    "C74_nothing_else",
    "C74_key_dir"
   ],
   "note": ""
  },
  {
   "property": "C75",
   "status": "proved",
   "theorems": [
    "C75_same_request",
    "C75_listing_order",
    "C75_distinct_amounts",
    "C75_same_exception",
    "C75_equal_amounts_refuted"
   ],
   "note": ""
  },
  {
   "property": "C76",
   "status": "proved",
   "theorems": [
    "C76_key_list",
    "C76_already_signed",
    "C76_again"
   ],
   "note": ""
  },
  {
   "property": "C77",
   "status": "proved",
   "theorems": [
    "C77_parsed",
    "C77_meaning",
    "C77_exits",
    "C77_program",
    "C77_effect"
   ],
   "note": ""
  },
  {
   "property": "C78",
   "status": "proved",
   "theorems": [
    "C78_order",
    "C78_equals",
    "C78_dash_value_refuted",
    "C78_stray",
    "C78_sources",
    "C78_readme"
   ],
   "note": ""
  },
  {
   "property": "C79",
   "status": "proved",
   "theorems": [
    "C79_read",
    "C79_one_value",
    "C79_written",
    "C79_ascii",
    "C79_round_trip",
    "C79_not_finite",
    "C79_split_pair_refuted",
    "C79_duplicate_key"
   ],
   "note": ""
  },
  {
   "property": "C80",
   "status": "proved",
   "theorems": [
    "C80_assumptions",
    "C80_text",
    "C80_reformatted",
    "C80_no_document",
    "C80_workflow"
   ],
   "note": ""
  },
  {
   "property": "C81",
   "status": "proved",
   "theorems": [
    "C81_settles",
    "C81_history",
    "C81_refused_again",
    "C81_used_up",
    "C81_empty",
    "C81_form_first",
    "C81_same_refusal_refuted"
   ],
   "note": ""
  },
  {
   "property": "C82",
   "status": "proved",
   "theorems": [
    "C82_done",
    "C82_tried"
   ],
   "note": ""
  },
  {
   "property": "C83",
   "status": "proved",
   "theorems": [
    "C83_erasure",
    "C83_texts",
    "C83_report",
    "C83_comparison_refuted",
    "C83_selected_refuted"
   ],
   "note": ""
  },
  {
   "property": "C84",
   "status": "proved",
   "theorems": [
    "C84_duplicate",
    "C84_fee",
    "C84_outputs",
    "C84_outputs_and_fee",
    "C84_change",
    "C84_spend",
    "C84_fee_choice",
    "C84_conflict"
   ],
   "note": ""
  },
  {
   "property": "C85",
   "status": "proved",
   "theorems": [
    "C85_advice",
    "C85_suffices",
    "C85_everything_refuted"
   ],
   "note": ""
  },
  {
   "property": "C86",
   "status": "proved",
   "theorems": [
    "C86_erasure",
    "C86_records",
    "C86_secrecy",
    "C86_label_refuted"
   ],
   "note": ""
  },
  {
   "property": "C87",
   "status": "proved",
   "theorems": [
    "C87_erasure",
    "C87_records",
    "C87_complaints",
    "C87_raised",
    "C87_claim_refuted"
   ],
   "note": ""
  },
  {
   "property": "C88",
   "status": "proved",
   "theorems": [
    "C88_erasure",
    "C88_records",
    "C88_refused",
    "C88_single"
   ],
   "note": ""
  },
  {
   "property": "C89",
   "status": "proved",
   "theorems": [
    "C89_hashes",
    "C89_public_key_hash",
    "C89_any_length_refuted"
   ],
   "note": ""
  },
  {
   "property": "C90",
   "status": "proved",
   "theorems": [
    "C90_types"
   ],
   "note": ""
  },
  {
   "property": "C91",
   "status": "proved",
   "theorems": [
    "C91_signatures",
    "C91_address",
    "C91_zero_bytes"
   ],
   "note": ""
  },
  {
   "property": "C92",
   "status": "proved",
   "theorems": [
    "C92_hex_to_int",
    "C92_only_hex_refuted"
   ],
   "note": ""
  },
  {
   "property": "C93",
   "status": "proved",
   "theorems": [
    "C93_position",
    "C93_accepted",
    "C93_index",
    "C93_negative_refuted"
   ],
   "note": ""
  },
  {
   "property": "C94",
   "status": "proved",
   "theorems": [
    "C94_types",
    "C94_bytes_refuted",
    "C94_numbers",
    "C94_hex_length",
    "C94_digits",
    "C94_decimal",
    "C94_date",
    "C94_domain",
    "C94_lists",
    "C94_same"
   ],
   "note": ""
  },
  {
   "property": "C95",
   "status": "proved",
   "theorems": [
    "C95_same",
    "C95_amounts",
    "C95_satoshi_to_bitcoin",
    "C95_bitcoin_to_satoshi",
    "C95_ensure_8_decimal_places",
    "C95_int_to_hex",
    "C95_pad_hex",
    "C95_var_int",
    "C95_base58check_to_hex",
    "C95_address"
   ],
   "note": ""
  },
  {
   "property": "C96",
   "status": "proved",
   "theorems": [
    "C96_outcome",
    "C96_documents",
    "C96_verifies",
    "C96_first_obstacle",
    "C96_task",
    "C96_script_of_address_refuted"
   ],
   "note": ""
  },
  {
   "property": "C97",
   "status": "proved",
   "theorems": [
    "C97_same",
    "C97_words",
    "C97_valid_key"
   ],
   "note": ""
  },
  {
   "property": "C98",
   "status": "proved",
   "theorems": [
    "C98_same",
    "C98_input",
    "C98_output",
    "C98_document",
    "C98_json"
   ],
   "note": ""
  },
  {
   "property": "C99",
   "status": "proved",
   "theorems": [
    "C99_same",
    "C99_refused",
    "C99_raised",
    "C99_one_answer"
   ],
   "note": ""
  },
  {
   "property": "C100",
   "status": "proved",
   "theorems": [
    "C100_same",
    "C100_ends",
    "C100_plain"
   ],
   "note": ""
  },
  {
   "property": "C101",
   "status": "proved",
   "theorems": [
    "C101_said",
    "C101_same",
    "C101_create",
    "C101_first_problem"
   ],
   "note": ""
  },
  {
   "property": "C102",
   "status": "proved",
   "theorems": [
    "C102_same",
    "C102_argument",
    "C102_said",
    "C102_every_text",
    "C102_fee_true"
   ],
   "note": ""
  },
  {
   "property": "C103",
   "status": "proved",
   "theorems": [
    "C103_same",
    "C103_words",
    "C103_command",
    "C103_first",
    "C103_ambiguous",
    "C103_missing",
    "C103_ignored",
    "C103_letters",
    "C103_every"
   ],
   "note": ""
  }
 ]
}