C01_parse_returns: Closed under the global context
C02_parse_with_no_panic: Closed under the global context
C02_unconditional_refuted: Closed under the global context
C05_e164: Closed under the global context
C05_unknown_code: Closed under the global context
C06_pack: Closed under the global context
C06_equal: Closed under the global context
C07_read_print: Closed under the global context
C07_print_read: Closed under the global context
C07_only_zeros: Closed under the global context
C07_unbounded_refuted: Closed under the global context
C24_equality: Closed under the global context
C24_equivalence: Closed under the global context
C24_hash: Closed under the global context
C25_settings: Closed under the global context
C25_order_irrelevant: Closed under the global context
C25_format_with: Closed under the global context
C35_classified: Closed under the global context
C19_by_id: Closed under the global context
C19_by_code: Closed under the global context
C19_region: Closed under the global context
C19_iter: Closed under the global context
C03_format_parsed: Closed under the global context
C03_default: Closed under the global context
C03_any_database_refuted: Closed under the global context
C04_national: Closed under the global context
C04_default: Closed under the global context
C04_any_database_refuted: Closed under the global context
C10_no_country: Closed under the global context
C10_reference_code: Closed under the global context
C10_plus_only_if_written: Closed under the global context
C10_plus_if_written: Closed under the global context
C26_digits: Closed under the global context
C26_length: Closed under the global context
C08_any_database: Closed under the global context
C08_default: Closed under the global context
C08_every_code_refuted: Closed under the global context
C08_exact: Closed under the global context
C08_russia_refuted: Closed under the global context
C09_separated_digits: Closed under the global context
C09_any_text: Closed under the global context
C09_default: Closed under the global context
C09_chad_refuted: Closed under the global context
C09_finland_refuted: Closed under the global context
C11_shortest_known: Closed under the global context
C11_unknown_code: Closed under the global context
C11_default_unique: Closed under the global context
C12_with_plus: Closed under the global context
C12_without_plus: Closed under the global context
C12_no_space_refuted: Closed under the global context
C12_two_digits_refuted: Closed under the global context
C13_letters: Closed under the global context
C13_letters_no_TX: Closed under the global context
C14_viable_iff_grammar: Closed under the global context
C14_parsed_part_viable: Closed under the global context
C15_other_scripts_refused: Closed under the global context
C15_refused_without_plus: Closed under the global context
C15_code_accepted_refuted: Closed under the global context
C28_no_digit: Closed under the global context
C28_bounds: Closed under the global context
C28_length: Closed under the global context
C34_leading_text: Closed under the global context
C34_leading_text_digits: Closed under the global context
C34_no_space_refuted: Closed under the global context
C36_trailing_punctuation: Closed under the global context
C16_is_valid_iff: Closed under the global context
C16_default: Closed under the global context
C16_length: Closed under the global context
C16_length_default: Closed under the global context
C16_whole_match_refuted: Closed under the global context
C17_number_type: Closed under the global context
C17_never_reported: Closed under the global context
C17_api: Closed under the global context
C17_default: Closed under the global context
C18_agree: Closed under the global context
C18_zeros_refuted: Closed under the global context
C20_country: Closed under the global context
C20_belongs: Closed under the global context
C20_default: Closed under the global context
C20_valid_without_country_refuted: Closed under the global context
C27_from_rule: Closed under the global context
C27_dialled: Closed under the global context
C27_trunk_prefix_refuted: Closed under the global context
C27_local_number_refuted: Closed under the global context
C21_international: Closed under the global context
C21_rfc3966: Closed under the global context
C21_international_shape: Closed under the global context
C21_national_refuted: Closed under the global context
C22_shape: Closed under the global context
C31_no_placeholder: Closed under the global context
C31_any_carrier_refuted: Closed under the global context
C23_no_rule: Closed under the global context
C23_valid: Closed under the global context
C23_two_digits_refuted: Closed under the global context
C23_rule_refuted: Closed under the global context
C32_lengths: Closed under the global context
C32_range: Closed under the global context
C32_largest_refuted: Closed under the global context
C33_load: Closed under the global context
C33_parse: Closed under the global context
C33_no_panic: Closed under the global context
C33_panics_refuted: Closed under the global context
C29_reads: Closed under the global context
C29_only: Closed under the global context
C29_noise: Closed under the global context
C29_round_trip: Closed under the global context
C29_unknown_attribute_refuted: Closed under the global context
C30_round_trip: Closed under the global context
C30_embedded: Closed under the global context
C30_default: Closed under the global context
C30_truncated: Closed under the global context
C43_read: Closed under the global context
C43_written: Closed under the global context
C43_round_trip: Closed under the global context
C43_parsed_fits: Closed under the global context
C43_parsed: Closed under the global context
C43_source: Closed under the global context
C43_type: Closed under the global context
C43_id: Closed under the global context
C43_type_names: Closed under the global context
C43_enum_exact: Closed under the global context
C43_missing: Closed under the global context
C43_repeated: Closed under the global context
C43_missing_parts: Closed under the global context
C43_type_bytes: Closed under the global context
C43_id_bytes: Closed under the global context
C43_unknown_variant: Closed under the global context
C43_bytes: Closed under the global context
C43_bytes_truncated: Closed under the global context
C43_shown_refuted: Closed under the global context
C37_extension: Closed under the global context
C37_no_space_refuted: Closed under the global context
C37_eight_digits_refuted: Closed under the global context
C37_other_forms_refuted: Closed under the global context
C38_like_e164: Closed under the global context
C38_valid: Closed under the global context
C38_long_extension_refuted: Closed under the global context
C39_any_database: Closed under the global context
C39_trunk_any_database: Closed under the global context
C39_plain: Closed under the global context
C39_trunk: Closed under the global context
C39_trunk_clear: Closed under the global context
C39_typed: Closed under the global context
C39_plain_exact: Closed under the global context
C39_russia_refuted: Closed under the global context
C39_own_code_refuted: Closed under the global context
C39_dialled_refuted: Closed under the global context
C39_colombia_refuted: Closed under the global context
C39_carrier_refuted: Closed under the global context
C39_lithuania_refuted: Closed under the global context
C39_too_short_kept: Closed under the global context
C40_dialled: Closed under the global context
C40_default_prefix: Closed under the global context
C40_from_region: Closed under the global context
C40_own_code: Closed under the global context
C40_own_code_default: Closed under the global context
C40_possible_kept: Closed under the global context
C40_short_refuted: Closed under the global context
C41_used: Closed under the global context
C41_no_format: Closed under the global context
C41_e164: Closed under the global context
C41_international: Closed under the global context
C41_rfc3966: Closed under the global context
C41_national_plain: Closed under the global context
C41_national_rule: Closed under the global context
C41_default_regular: Closed under the global context
C41_default: Closed under the global context
C44_round_trip: Closed under the global context
C44_formatted: Closed under the global context
C44_always: Closed under the global context
C44_exact: Closed under the global context
C45_plus: Closed under the global context
C45_digits: Closed under the global context
C20_single: Closed under the global context
C45_plus_default: Closed under the global context
C45_digits_default: Closed under the global context
C45_nothing_invented: Closed under the global context
C45_zeros: Closed under the global context
C45_zeros_exact: Closed under the global context
C45_belgium: Closed under the global context
C45_every_belgian_refuted: Closed under the global context
C42_relevant: Closed under the global context
C42_result: Closed under the global context
C42_context: Closed under the global context
C42_domain: Closed under the global context
C42_hidden_refuted: Closed under the global context
C42_domain_digits_refuted: Closed under the global context
C42_area_refuted: Closed under the global context
C46_one_reading: Closed under the global context
C46_unread: Closed under the global context
C46_not_viable: Closed under the global context
C46_number: Closed under the global context
C46_coded_short: Closed under the global context
C46_coded_malformed: Closed under the global context
C46_coded_unknown: Closed under the global context
C46_coded: Closed under the global context
C46_empty_extension_refuted: Closed under the global context
C57_sound: Closed under the global context
C57_only: Closed under the global context
C57_exact_any: Closed under the global context
C57_exact: Closed under the global context
C57_from_str: Closed under the global context
C57_no_number: Closed under the global context
C57_viable_refuted: Closed under the global context
C58_changes: Closed under the global context
C58_settles: Closed under the global context
C58_final: Closed under the global context
C58_one_number: Closed under the global context
C58_error_refuted: Closed under the global context
C58_every_country_refuted: Closed under the global context
C66_cause: Closed under the global context
C66_code: Closed under the global context
C66_never: Closed under the global context
C66_described: Closed under the global context
C66_held: Closed under the global context
C66_zero: Closed under the global context
C66_zero_refuted: Closed under the global context
C66_long: Closed under the global context
C66_no_number_refuted: Closed under the global context
C59_format_error: Closed under the global context
C59_format_panic: Closed under the global context
C59_format_default: Closed under the global context
C59_to_string: Closed under the global context
C59_is_valid: Closed under the global context
C59_type: Closed under the global context
C59_country: Closed under the global context
C59_default: Closed under the global context
C59_parse: Closed under the global context
C60_classification: Closed under the global context
C60_parse: Closed under the global context
C60_text: Closed under the global context
C60_unused: Closed under the global context
C61_templates: Closed under the global context
C61_national_only_refuted: Closed under the global context
C61_default: Closed under the global context
C61_leading: Closed under the global context
C61_inherits: Closed under the global context
C61_inherits_default: Closed under the global context
C61_inherits_refuted: Closed under the global context
C24_alike: Closed under the global context
C62_numbers: Closed under the global context
C62_parse: Closed under the global context
C62_trimmed: Closed under the global context
C63_text: Closed under the global context
C63_shape: Closed under the global context
C63_entries: Closed under the global context
C47_same_answers: Closed under the global context
C47_filled_once: Closed under the global context
C47_statics: Closed under the global context
C47_no_deadlock: Closed under the global context
C47_bounded: Closed under the global context
C47_all_return: Closed under the global context
C48_one_claimant: Closed under the global context
C48_country: Closed under the global context
C48_valid: Closed under the global context
C48_rivals_exact: Closed under the global context
C65_divided: Closed under the global context
C65_exact: Closed under the global context
C67_valid: Closed under the global context
C67_parsed: Closed under the global context
C67_type: Closed under the global context
C67_country: Closed under the global context
C67_type_exact: Closed under the global context
C67_zero_refuted: Closed under the global context
C68_blind: Closed under the global context
C68_where: Closed under the global context
C68_always: Closed under the global context
C68_lost: Closed under the global context
C68_right: Closed under the global context
C68_nowhere: Closed under the global context
C68_where_exact: Closed under the global context
C68_wrong: Closed under the global context
C68_premium_refuted: Closed under the global context
C68_right_exact: Closed under the global context
C68_nowhere_exact: Closed under the global context
C69_where: Closed under the global context
C69_taken: Closed under the global context
C69_misread: Closed under the global context
C69_exactly: Closed under the global context
C69_where_exact: Closed under the global context
C70_trunk: Closed under the global context
C70_misread: Closed under the global context
C70_exactly: Closed under the global context
C71_as_plus: Closed under the global context
C71_reached: Closed under the global context
C71_same: Closed under the global context
C71_exactly: Closed under the global context
C71_everywhere: Closed under the global context
C72_as_plus: Closed under the global context
C72_with_code: Closed under the global context
C72_exactly: Closed under the global context
C72_three_ways: Closed under the global context
C49_order: Closed under the global context
C49_disputed: Closed under the global context
C50_space: Closed under the global context
C50_kind: Closed under the global context
C50_type: Closed under the global context
C50_default: Closed under the global context
C50_type_refuted: Closed under the global context
C51_pattern: Closed under the global context
C51_description: Closed under the global context
C51_default: Closed under the global context
C51_builtin: Closed under the global context
C52_pieces: Closed under the global context
C52_reads: Closed under the global context
C52_parse: Closed under the global context
C52_declaration: Closed under the global context
C52_repeated: Closed under the global context
C52_reference_refuted: Closed under the global context
C53_bytes: Closed under the global context
C53_entries: Closed under the global context
C53_shipped: Closed under the global context
C53_file: Closed under the global context
C53_embedded: Closed under the global context
C54_e164: Closed under the global context
C54_international: Closed under the global context
C54_rfc3966: Closed under the global context
C54_equality: Closed under the global context
C54_modes: Closed under the global context
C54_national_refuted: Closed under the global context
C55_e164: Closed under the global context
C55_international: Closed under the global context
C55_rfc3966: Closed under the global context
C55_national: Closed under the global context
C55_sharp: Closed under the global context
C55_valid: Closed under the global context
C55_valid_sharp: Closed under the global context
C56_extends: Closed under the global context
C56_cut: Closed under the global context
C56_database: Closed under the global context
C56_inside: Closed under the global context
C56_document: Closed under the global context
C64_text: Closed under the global context
C64_entries: Closed under the global context
C64_extends: Closed under the global context
C64_cut: Closed under the global context
