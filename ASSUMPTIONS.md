# Print Assumptions, theorem by theorem (generated by tools/assumptions.py)

"none" = "Closed under the global context". All names are axioms of the Coq standard library: `classic` (Coq.Logic.Classical_Prop), `functional_extensionality_dep` (Coq.Logic.FunctionalExtensionality), `sig_forall_dec` and `sig_not_dec` (Coq.Reals.ClassicalDedekindReals).

| theorem | file | axioms |
|---|---|---|
| C01_validate_hex | Prop_Hex.v | none |
| C02_int_hex_roundtrip | Prop_Hex.v | none |
| C03_reverse_hex_order | Prop_Hex.v | none |
| C04_le_field | Prop_Hex.v | none |
| C05_var_int | Prop_Hex.v | none |
| C06_pad_hex | Prop_Hex.v | none |
| C07_base58 | Prop_Base58.v | none |
| C08_base58check_roundtrip | Prop_Base58.v | none |
| C09_base58check_canonical | Prop_Base58.v | none |
| C100_ends | Prop_SignSays.v | none |
| C100_plain | Prop_SignSays.v | none |
| C100_same | Prop_SignSays.v | none |
| C101_create | Prop_OrderSays.v | classic, functional_extensionality_dep, sig_forall_dec, sig_not_dec |
| C101_first_problem | Prop_OrderSays.v | classic, functional_extensionality_dep, sig_forall_dec, sig_not_dec |
| C101_said | Prop_OrderSays.v | classic, functional_extensionality_dep, sig_forall_dec, sig_not_dec |
| C101_same | Prop_OrderSays.v | none |
| C102_argument | Prop_BuildSays.v | classic, functional_extensionality_dep, sig_forall_dec, sig_not_dec |
| C102_every_text | Prop_BuildSays.v | classic, functional_extensionality_dep, sig_forall_dec, sig_not_dec |
| C102_fee_true | Prop_BuildSays.v | classic, functional_extensionality_dep, sig_forall_dec, sig_not_dec |
| C102_said | Prop_BuildSays.v | classic, functional_extensionality_dep, sig_forall_dec, sig_not_dec |
| C102_same | Prop_BuildSays.v | none |
| C103_ambiguous | Prop_ArgsSays.v | none |
| C103_command | Prop_ArgsSays.v | none |
| C103_every | Prop_ArgsSays.v | none |
| C103_first | Prop_ArgsSays.v | none |
| C103_ignored | Prop_ArgsSays.v | none |
| C103_letters | Prop_ArgsSays.v | none |
| C103_missing | Prop_ArgsSays.v | none |
| C103_same | Prop_ArgsSays.v | none |
| C103_words | Prop_ArgsSays.v | none |
| C10_address_validation | Prop_Base58.v | none |
| C10_address_validation_general | Prop_Base58.v | none |
| C11_address_conversions | Prop_Base58.v | none |
| C12_address_implies_p2pkh_refuted | Prop_Base58.v | none |
| C12_script_opcodes_ignored | Prop_Base58.v | none |
| C13_wif | Prop_Base58.v | none |
| C13_wif_version_unchecked | Prop_Base58.v | none |
| C14_satoshi_to_bitcoin | Prop_Amount.v | classic, functional_extensionality_dep, sig_forall_dec, sig_not_dec |
| C15_bitcoin_to_satoshi | Prop_Amount.v | classic, functional_extensionality_dep, sig_forall_dec, sig_not_dec |
| C16_amount_roundtrip | Prop_Amount.v | classic, functional_extensionality_dep, sig_forall_dec, sig_not_dec |
| C17_positive_refuted | Prop_Amount.v | classic, functional_extensionality_dep, sig_forall_dec, sig_not_dec |
| C17_validate_amount | Prop_Amount.v | classic, functional_extensionality_dep, sig_forall_dec, sig_not_dec |
| C18_script_sig | Prop_Script.v | none |
| C18_script_sig_unique_refuted | Prop_Script.v | none |
| C19_der_roundtrip | Prop_Script.v | none |
| C20_serialisation | Prop_Wire.v | none |
| C20_unambiguous | Prop_Wire.v | none |
| C21_decode_serialised | Prop_Wire.v | classic, functional_extensionality_dep, sig_forall_dec, sig_not_dec |
| C21_decoder_exact | Prop_Wire.v | classic, functional_extensionality_dep, sig_forall_dec, sig_not_dec |
| C22_decoded_serialises | Prop_Wire.v | none |
| C22_exact_refuted | Prop_Wire.v | classic, functional_extensionality_dep, sig_forall_dec, sig_not_dec |
| C22_reserialise | Prop_Wire.v | classic, functional_extensionality_dep, sig_forall_dec, sig_not_dec |
| C23_truncation | Prop_Wire.v | classic, functional_extensionality_dep, sig_forall_dec, sig_not_dec |
| C24_sighash | Prop_Wire.v | none |
| C24_sighash_binding | Prop_Wire.v | none |
| C25_sign_then_verify | Prop_Sign.v | none |
| C25_signed_form | Prop_Sign.v | none |
| C26_frame | Prop_Sign.v | none |
| C26_unsign | Prop_Sign.v | none |
| C27_first_unknown | Prop_Sign.v | none |
| C27_sign_outcome | Prop_Sign.v | none |
| C28_more_inputs_than_keys_refuted | Prop_Sign.v | none |
| C28_nonces | Prop_Sign.v | none |
| C28_nonces_refused | Prop_Sign.v | none |
| C29_verify | Prop_Sign.v | none |
| C29_verify_unsigned | Prop_Sign.v | none |
| C29_verify_zero | Prop_Sign.v | none |
| C30_decoded_verify | Prop_Sign.v | classic, functional_extensionality_dep, sig_forall_dec, sig_not_dec |
| C30_json_owner_refuted | Prop_Sign.v | none |
| C31_txid | Prop_Sign.v | none |
| C31_txid_decoded | Prop_Sign.v | classic, functional_extensionality_dep, sig_forall_dec, sig_not_dec |
| C32_created | Prop_Json.v | classic, functional_extensionality_dep, sig_forall_dec, sig_not_dec |
| C32_decoded_refuted | Prop_Json.v | classic, functional_extensionality_dep, sig_forall_dec, sig_not_dec |
| C32_round_trip | Prop_Json.v | classic, functional_extensionality_dep, sig_forall_dec, sig_not_dec |
| C32_same_forms | Prop_Json.v | none |
| C32_signed | Prop_Json.v | classic, functional_extensionality_dep, sig_forall_dec, sig_not_dec |
| C32_stable | Prop_Json.v | classic, functional_extensionality_dep, sig_forall_dec, sig_not_dec |
| C33_accepted_iff | Prop_Json.v | classic, functional_extensionality_dep, sig_forall_dec, sig_not_dec |
| C33_consistent | Prop_Json.v | classic, functional_extensionality_dep, sig_forall_dec, sig_not_dec |
| C34_any_script | Prop_Json.v | classic, functional_extensionality_dep, sig_forall_dec, sig_not_dec |
| C34_version_ignored | Prop_Json.v | none |
| C35_created_iff | Prop_Create.v | classic, functional_extensionality_dep, sig_forall_dec, sig_not_dec |
| C35_request_unique | Prop_Create.v | classic, functional_extensionality_dep, sig_forall_dec, sig_not_dec |
| C35_value_conservation | Prop_Create.v | classic, functional_extensionality_dep, sig_forall_dec, sig_not_dec |
| C36_fee_limit | Prop_Create.v | classic, functional_extensionality_dep, sig_forall_dec, sig_not_dec |
| C36_fee_too_high | Prop_Create.v | classic, functional_extensionality_dep, sig_forall_dec, sig_not_dec |
| C37_ambiguous_change | Prop_Create.v | classic, functional_extensionality_dep, sig_forall_dec, sig_not_dec |
| C37_change_output | Prop_Create.v | classic, functional_extensionality_dep, sig_forall_dec, sig_not_dec |
| C37_payments | Prop_Create.v | classic, functional_extensionality_dep, sig_forall_dec, sig_not_dec |
| C37_wire | Prop_Create.v | classic, functional_extensionality_dep, sig_forall_dec, sig_not_dec |
| C38_all | Prop_Create.v | classic, functional_extensionality_dep, sig_forall_dec, sig_not_dec |
| C38_selection | Prop_Create.v | classic, functional_extensionality_dep, sig_forall_dec, sig_not_dec |
| C38_sorted_unique | Prop_Create.v | none |
| C39_fewest_inputs | Prop_Create.v | classic, functional_extensionality_dep, sig_forall_dec, sig_not_dec |
| C40_covered | Prop_Create.v | classic, functional_extensionality_dep, sig_forall_dec, sig_not_dec |
| C40_fee_not_covered | Prop_Create.v | classic, functional_extensionality_dep, sig_forall_dec, sig_not_dec |
| C40_outputs_not_covered | Prop_Create.v | classic, functional_extensionality_dep, sig_forall_dec, sig_not_dec |
| C41_distinct_addresses | Prop_Create.v | classic, functional_extensionality_dep, sig_forall_dec, sig_not_dec |
| C41_repeated_address | Prop_Create.v | classic, functional_extensionality_dep, sig_forall_dec, sig_not_dec |
| C42_spend_limit | Prop_Fee.v | classic, functional_extensionality_dep, sig_forall_dec, sig_not_dec |
| C42_too_much | Prop_Fee.v | classic, functional_extensionality_dep, sig_forall_dec, sig_not_dec |
| C43_percentage_range | Prop_Fee.v | classic, functional_extensionality_dep, sig_forall_dec, sig_not_dec |
| C43_usable | Prop_Fee.v | classic, functional_extensionality_dep, sig_forall_dec, sig_not_dec |
| C44_both | Prop_Fee.v | classic, functional_extensionality_dep, sig_forall_dec, sig_not_dec |
| C44_zero_fee | Prop_Fee.v | classic, functional_extensionality_dep, sig_forall_dec, sig_not_dec |
| C44_zero_fee_with_rate | Prop_Fee.v | classic, functional_extensionality_dep, sig_forall_dec, sig_not_dec |
| C45_decimal_rate | Prop_Fee.v | classic, functional_extensionality_dep, sig_forall_dec, sig_not_dec |
| C45_whole_rate | Prop_Fee.v | classic, functional_extensionality_dep, sig_forall_dec, sig_not_dec |
| C46_estimate | Prop_Fee.v | classic, functional_extensionality_dep, sig_forall_dec, sig_not_dec |
| C47_rewrites_arguments | Prop_Args.v | classic, functional_extensionality_dep, sig_forall_dec, sig_not_dec |
| C47_second_call | Prop_Args.v | classic, functional_extensionality_dep, sig_forall_dec, sig_not_dec |
| C48_distinct_outpoints | Prop_Args.v | classic, functional_extensionality_dep, sig_forall_dec, sig_not_dec |
| C49_all_or_nothing | Prop_Cli.v | none |
| C49_printed | Prop_Cli.v | classic, functional_extensionality_dep, sig_forall_dec, sig_not_dec |
| C49_refused | Prop_Cli.v | classic, functional_extensionality_dep, sig_forall_dec, sig_not_dec |
| C49_succeeds_iff | Prop_Cli.v | classic, functional_extensionality_dep, sig_forall_dec, sig_not_dec |
| C50_never_succeeds | Prop_Cli.v | none |
| C50_prints_first | Prop_Cli.v | classic, functional_extensionality_dep, sig_forall_dec, sig_not_dec |
| C50_refused | Prop_Cli.v | none |
| C51_signed | Prop_Size.v | none |
| C51_size | Prop_Size.v | none |
| C52_approaches_read | Prop_Args.v | classic, functional_extensionality_dep, sig_forall_dec, sig_not_dec |
| C52_documented_key_ignored | Prop_Args.v | classic, functional_extensionality_dep, sig_forall_dec, sig_not_dec |
| C52_entries_read | Prop_Args.v | classic, functional_extensionality_dep, sig_forall_dec, sig_not_dec |
| C53_date | Prop_Valid.v | none |
| C53_date_refuted | Prop_Valid.v | none |
| C53_decimal | Prop_Valid.v | none |
| C53_either | Prop_Valid.v | none |
| C53_positive_refuted | Prop_Valid.v | none |
| C53_printable | Prop_Valid.v | none |
| C53_whole_number | Prop_Valid.v | none |
| C54_domain | Prop_Valid.v | none |
| C54_integer | Prop_Valid.v | none |
| C54_whole_number | Prop_Valid.v | none |
| C54_whole_refuted | Prop_Valid.v | none |
| C55_agree | Prop_Cli.v | none |
| C55_signs | Prop_Cli.v | none |
| C55_verify | Prop_Cli.v | none |
| C56_call | Prop_Log.v | none |
| C56_frozen | Prop_Log.v | none |
| C56_history | Prop_Log.v | none |
| C56_propagate | Prop_Log.v | none |
| C56_twice_refuted | Prop_Log.v | none |
| C57_decoded | Prop_Json.v | classic, functional_extensionality_dep, sig_forall_dec, sig_not_dec |
| C57_decoded_too_much | Prop_Json.v | classic, functional_extensionality_dep, sig_forall_dec, sig_not_dec |
| C57_rounded_unique | Prop_Json.v | none |
| C57_summary | Prop_Json.v | classic, functional_extensionality_dep, sig_forall_dec, sig_not_dec |
| C58_decimal_places | Prop_Valid.v | none |
| C58_decimal_places_errors | Prop_Valid.v | none |
| C59_lists | Prop_Valid.v | none |
| C60_setup_failed | Prop_Log.v | none |
| C60_setup_ok | Prop_Log.v | none |
| C61_emitted | Prop_Log.v | none |
| C61_set_level_refuted | Prop_Log.v | none |
| C61_silent | Prop_Log.v | none |
| C62_workflow | Prop_Cli.v | classic, functional_extensionality_dep, sig_forall_dec, sig_not_dec |
| C63_data | Prop_Cli.v | none |
| C63_files | Prop_Cli.v | none |
| C63_keys | Prop_Cli.v | none |
| C63_one_key | Prop_Cli.v | none |
| C63_runs | Prop_Cli.v | none |
| C63_unknown | Prop_Cli.v | none |
| C64_key_tasks | Prop_Cli.v | none |
| C64_refused | Prop_Cli.v | none |
| C65_command | Prop_Cli.v | none |
| C65_space | Prop_Cli.v | none |
| C65_version | Prop_Cli.v | none |
| C66_data | Prop_Cli.v | none |
| C66_digest | Prop_Cli.v | none |
| C67_document | Prop_Forms.v | none |
| C67_fields | Prop_Forms.v | none |
| C67_json | Prop_Forms.v | none |
| C67_loops | Prop_Forms.v | none |
| C68_parts | Prop_Forms.v | none |
| C68_signed | Prop_Forms.v | none |
| C68_transaction | Prop_Forms.v | classic, functional_extensionality_dep, sig_forall_dec, sig_not_dec |
| C69_fee_true | Prop_Refuse.v | classic, functional_extensionality_dep, sig_forall_dec, sig_not_dec |
| C69_first_problem | Prop_Refuse.v | classic, functional_extensionality_dep, sig_forall_dec, sig_not_dec |
| C69_well_formed | Prop_Refuse.v | classic, functional_extensionality_dep, sig_forall_dec, sig_not_dec |
| C70_first_problem | Prop_Refuse.v | classic, functional_extensionality_dep, sig_forall_dec, sig_not_dec |
| C71_every_error | Prop_Refuse.v | classic, functional_extensionality_dep, sig_forall_dec, sig_not_dec |
| C72_hex | Prop_Messages.v | none |
| C72_message | Prop_Messages.v | none |
| C72_printable | Prop_Messages.v | none |
| C72_same | Prop_Messages.v | none |
| C72_total | Prop_Messages.v | none |
| C73_decode | Prop_Verify.v | classic, functional_extensionality_dep, sig_forall_dec, sig_not_dec |
| C73_decode_refused | Prop_Verify.v | classic, functional_extensionality_dep, sig_forall_dec, sig_not_dec |
| C73_hex | Prop_Verify.v | classic, functional_extensionality_dep, sig_forall_dec, sig_not_dec |
| C73_json | Prop_Verify.v | classic, functional_extensionality_dep, sig_forall_dec, sig_not_dec |
| C73_no_signature_refuted | Prop_Verify.v | classic, functional_extensionality_dep, sig_forall_dec, sig_not_dec |
| C73_sign | Prop_Verify.v | classic, functional_extensionality_dep, sig_forall_dec, sig_not_dec |
| C74_contents | Prop_Files.v | none |
| C74_json_files | Prop_Files.v | none |
| C74_key_dir | Prop_Files.v | none |
| C74_log_dir | Prop_Files.v | none |
| C74_logging | Prop_Files.v | none |
| C74_nothing_else | Prop_Files.v | none |
| C74_sources | Prop_Files.v | none |
| C75_distinct_amounts | Prop_Relations.v | classic, functional_extensionality_dep, sig_forall_dec, sig_not_dec |
| C75_equal_amounts_refuted | Prop_Relations.v | classic, functional_extensionality_dep, sig_forall_dec, sig_not_dec |
| C75_listing_order | Prop_Relations.v | classic, functional_extensionality_dep, sig_forall_dec, sig_not_dec |
| C75_same_exception | Prop_Relations.v | classic, functional_extensionality_dep, sig_forall_dec, sig_not_dec |
| C75_same_request | Prop_Relations.v | classic, functional_extensionality_dep, sig_forall_dec, sig_not_dec |
| C76_again | Prop_Relations.v | none |
| C76_already_signed | Prop_Relations.v | none |
| C76_key_list | Prop_Relations.v | none |
| C77_effect | Prop_CmdLine.v | none |
| C77_exits | Prop_CmdLine.v | none |
| C77_meaning | Prop_CmdLine.v | none |
| C77_parsed | Prop_CmdLine.v | none |
| C77_program | Prop_CmdLine.v | none |
| C78_dash_value_refuted | Prop_CmdLine.v | none |
| C78_equals | Prop_CmdLine.v | none |
| C78_order | Prop_CmdLine.v | none |
| C78_readme | Prop_CmdLine.v | none |
| C78_sources | Prop_CmdLine.v | none |
| C78_stray | Prop_CmdLine.v | none |
| C79_ascii | Prop_JsonText.v | classic, functional_extensionality_dep, sig_forall_dec, sig_not_dec |
| C79_duplicate_key | Prop_JsonText.v | classic, functional_extensionality_dep, sig_forall_dec, sig_not_dec |
| C79_not_finite | Prop_JsonText.v | none |
| C79_one_value | Prop_JsonText.v | classic, functional_extensionality_dep, sig_forall_dec, sig_not_dec |
| C79_read | Prop_JsonText.v | classic, functional_extensionality_dep, sig_forall_dec, sig_not_dec |
| C79_round_trip | Prop_JsonText.v | classic, functional_extensionality_dep, sig_forall_dec, sig_not_dec |
| C79_split_pair_refuted | Prop_JsonText.v | none |
| C79_written | Prop_JsonText.v | classic, functional_extensionality_dep, sig_forall_dec, sig_not_dec |
| C80_assumptions | Prop_JsonText.v | classic, functional_extensionality_dep, sig_forall_dec, sig_not_dec |
| C80_no_document | Prop_JsonText.v | classic, functional_extensionality_dep, sig_forall_dec, sig_not_dec |
| C80_reformatted | Prop_JsonText.v | classic, functional_extensionality_dep, sig_forall_dec, sig_not_dec |
| C80_text | Prop_JsonText.v | classic, functional_extensionality_dep, sig_forall_dec, sig_not_dec |
| C80_workflow | Prop_JsonText.v | classic, functional_extensionality_dep, sig_forall_dec, sig_not_dec |
| C81_empty | Prop_History.v | classic, functional_extensionality_dep, sig_forall_dec, sig_not_dec |
| C81_form_first | Prop_History.v | classic, functional_extensionality_dep, sig_forall_dec, sig_not_dec |
| C81_history | Prop_History.v | classic, functional_extensionality_dep, sig_forall_dec, sig_not_dec |
| C81_refused_again | Prop_History.v | classic, functional_extensionality_dep, sig_forall_dec, sig_not_dec |
| C81_same_refusal_refuted | Prop_History.v | none |
| C81_settles | Prop_History.v | classic, functional_extensionality_dep, sig_forall_dec, sig_not_dec |
| C81_used_up | Prop_History.v | classic, functional_extensionality_dep, sig_forall_dec, sig_not_dec |
| C82_done | Prop_History.v | classic, functional_extensionality_dep, sig_forall_dec, sig_not_dec |
| C82_tried | Prop_History.v | classic, functional_extensionality_dep, sig_forall_dec, sig_not_dec |
| C83_comparison_refuted | Prop_Report.v | classic, functional_extensionality_dep, sig_forall_dec, sig_not_dec |
| C83_erasure | Prop_Report.v | none |
| C83_report | Prop_Report.v | classic, functional_extensionality_dep, sig_forall_dec, sig_not_dec |
| C83_selected_refuted | Prop_Report.v | classic, functional_extensionality_dep, sig_forall_dec, sig_not_dec |
| C83_texts | Prop_Report.v | classic, functional_extensionality_dep, sig_forall_dec, sig_not_dec |
| C84_change | Prop_Report.v | classic, functional_extensionality_dep, sig_forall_dec, sig_not_dec |
| C84_conflict | Prop_Report.v | classic, functional_extensionality_dep, sig_forall_dec, sig_not_dec |
| C84_duplicate | Prop_Report.v | classic, functional_extensionality_dep, sig_forall_dec, sig_not_dec |
| C84_fee | Prop_Report.v | classic, functional_extensionality_dep, sig_forall_dec, sig_not_dec |
| C84_fee_choice | Prop_Report.v | classic, functional_extensionality_dep, sig_forall_dec, sig_not_dec |
| C84_outputs | Prop_Report.v | classic, functional_extensionality_dep, sig_forall_dec, sig_not_dec |
| C84_outputs_and_fee | Prop_Report.v | classic, functional_extensionality_dep, sig_forall_dec, sig_not_dec |
| C84_spend | Prop_Report.v | classic, functional_extensionality_dep, sig_forall_dec, sig_not_dec |
| C85_advice | Prop_Advice.v | classic, functional_extensionality_dep, sig_forall_dec, sig_not_dec |
| C85_everything_refuted | Prop_Advice.v | classic, functional_extensionality_dep, sig_forall_dec, sig_not_dec |
| C85_suffices | Prop_Advice.v | classic, functional_extensionality_dep, sig_forall_dec, sig_not_dec |
| C86_erasure | Prop_Trace.v | none |
| C86_label_refuted | Prop_Trace.v | none |
| C86_records | Prop_Trace.v | none |
| C86_secrecy | Prop_Trace.v | none |
| C87_claim_refuted | Prop_Trace.v | none |
| C87_complaints | Prop_Trace.v | none |
| C87_erasure | Prop_Trace.v | none |
| C87_raised | Prop_Trace.v | none |
| C87_records | Prop_Trace.v | none |
| C88_erasure | Prop_Trace.v | none |
| C88_records | Prop_Trace.v | classic, functional_extensionality_dep, sig_forall_dec, sig_not_dec |
| C88_refused | Prop_Trace.v | none |
| C88_single | Prop_Trace.v | none |
| C89_any_length_refuted | Prop_Helpers.v | none |
| C89_hashes | Prop_Helpers.v | none |
| C89_public_key_hash | Prop_Helpers.v | none |
| C90_types | Prop_Helpers.v | none |
| C91_address | Prop_Helpers.v | none |
| C91_signatures | Prop_Helpers.v | none |
| C91_zero_bytes | Prop_Helpers.v | none |
| C92_hex_to_int | Prop_Helpers.v | none |
| C92_only_hex_refuted | Prop_Helpers.v | none |
| C93_accepted | Prop_Helpers.v | none |
| C93_index | Prop_Helpers.v | none |
| C93_negative_refuted | Prop_Helpers.v | none |
| C93_position | Prop_Helpers.v | none |
| C94_bytes_refuted | Prop_Complaints.v | none |
| C94_date | Prop_Complaints.v | none |
| C94_decimal | Prop_Complaints.v | none |
| C94_digits | Prop_Complaints.v | none |
| C94_domain | Prop_Complaints.v | none |
| C94_hex_length | Prop_Complaints.v | none |
| C94_lists | Prop_Complaints.v | none |
| C94_numbers | Prop_Complaints.v | none |
| C94_same | Prop_Complaints.v | none |
| C94_types | Prop_Complaints.v | none |
| C95_address | Prop_BasicSays.v | none |
| C95_amounts | Prop_BasicSays.v | classic, functional_extensionality_dep, sig_forall_dec, sig_not_dec |
| C95_base58check_to_hex | Prop_BasicSays.v | none |
| C95_bitcoin_to_satoshi | Prop_BasicSays.v | classic, functional_extensionality_dep, sig_forall_dec, sig_not_dec |
| C95_ensure_8_decimal_places | Prop_BasicSays.v | none |
| C95_int_to_hex | Prop_BasicSays.v | none |
| C95_pad_hex | Prop_BasicSays.v | none |
| C95_same | Prop_BasicSays.v | none |
| C95_satoshi_to_bitcoin | Prop_BasicSays.v | classic, functional_extensionality_dep, sig_forall_dec, sig_not_dec |
| C95_var_int | Prop_BasicSays.v | none |
| C96_documents | Prop_AsWritten.v | classic, functional_extensionality_dep, sig_forall_dec, sig_not_dec |
| C96_first_obstacle | Prop_AsWritten.v | none |
| C96_outcome | Prop_AsWritten.v | none |
| C96_script_of_address_refuted | Prop_AsWritten.v | none |
| C96_task | Prop_AsWritten.v | classic, functional_extensionality_dep, sig_forall_dec, sig_not_dec |
| C96_verifies | Prop_AsWritten.v | none |
| C97_same | Prop_CliSays.v | none |
| C97_valid_key | Prop_CliSays.v | none |
| C97_words | Prop_CliSays.v | classic, functional_extensionality_dep, sig_forall_dec, sig_not_dec |
| C98_document | Prop_DocSays.v | classic, functional_extensionality_dep, sig_forall_dec, sig_not_dec |
| C98_input | Prop_DocSays.v | classic, functional_extensionality_dep, sig_forall_dec, sig_not_dec |
| C98_json | Prop_DocSays.v | classic, functional_extensionality_dep, sig_forall_dec, sig_not_dec |
| C98_output | Prop_DocSays.v | classic, functional_extensionality_dep, sig_forall_dec, sig_not_dec |
| C98_same | Prop_DocSays.v | none |
| C99_one_answer | Prop_HexSays.v | classic, functional_extensionality_dep, sig_forall_dec, sig_not_dec |
| C99_raised | Prop_HexSays.v | classic, functional_extensionality_dep, sig_forall_dec, sig_not_dec |
| C99_refused | Prop_HexSays.v | classic, functional_extensionality_dep, sig_forall_dec, sig_not_dec |
| C99_same | Prop_HexSays.v | none |
