{
 "claims": [
  {
   "property": "C01",
   "status": "proved",
   "theorems": [
    "C01_parse_returns"
   ],
   "note": "For every optional country and every string, with the built-in metadata."
  },
  {
   "property": "C02",
   "status": "proved",
   "theorems": [
    "C02_parse_with_no_panic",
    "C02_unconditional_refuted"
   ],
   "note": "For every database meeting the stated conditions; the unconditional form is refuted by four documents."
  },
  {
   "property": "C03",
   "status": "proved",
   "theorems": [
    "C03_format_parsed",
    "C03_default",
    "C03_any_database_refuted"
   ],
   "note": "Every parse with the built-in metadata; for custom metadata under the condition that formats with a national prefix rule contain a placeholder, without which it is refuted."
  },
  {
   "property": "C04",
   "status": "proved",
   "theorems": [
    "C04_national",
    "C04_default",
    "C04_any_database_refuted"
   ],
   "note": "Built-in metadata and every database whose transform rules write no plus sign; refuted for arbitrary databases."
  },
  {
   "property": "C05",
   "status": "proved",
   "theorems": [
    "C05_e164",
    "C05_unknown_code"
   ],
   "note": "For every database, custom format, extension and carrier."
  },
  {
   "property": "C06",
   "status": "proved",
   "theorems": [
    "C06_pack",
    "C06_equal"
   ],
   "note": ""
  },
  {
   "property": "C07",
   "status": "proved",
   "theorems": [
    "C07_read_print",
    "C07_print_read",
    "C07_only_zeros",
    "C07_unbounded_refuted"
   ],
   "note": "With the bounds of the statement; the unbounded form is refuted (256 leading zeros, embedded plus sign)."
  },
  {
   "property": "C08",
   "status": "proved",
   "theorems": [
    "C08_any_database",
    "C08_default",
    "C08_every_code_refuted",
    "C08_exact",
    "C08_russia_refuted"
   ],
   "note": "Any database: digits to which no rule applies. Built-in metadata: every valid number of every calling code outside a list of twelve; C08_exact shows that those twelve are exactly the codes for which it fails."
  },
  {
   "property": "C09",
   "status": "proved",
   "theorems": [
    "C09_separated_digits",
    "C09_any_text",
    "C09_default",
    "C09_chad_refuted",
    "C09_finland_refuted"
   ],
   "note": "Any database for separated digits; any text starting with + and 1-9 for the 226 countries whose dialling prefix starts with 0; refuted for the others by examples."
  },
  {
   "property": "C10",
   "status": "proved",
   "theorems": [
    "C10_no_country",
    "C10_reference_code",
    "C10_plus_only_if_written",
    "C10_plus_if_written"
   ],
   "note": "For every database."
  },
  {
   "property": "C11",
   "status": "proved",
   "theorems": [
    "C11_shortest_known",
    "C11_unknown_code",
    "C11_default_unique"
   ],
   "note": "For every database and digit string not starting with the reference country's dialling prefix."
  },
  {
   "property": "C12",
   "status": "proved",
   "theorems": [
    "C12_with_plus",
    "C12_without_plus",
    "C12_no_space_refuted",
    "C12_two_digits_refuted"
   ],
   "note": "For every database and country; with a plus sign the text must contain a space, without one it must have three digits. Both conditions are needed (refuted without)."
  },
  {
   "property": "C13",
   "status": "proved",
   "theorems": [
    "C13_letters",
    "C13_letters_no_TX"
   ],
   "note": "For every database and country, for texts of digits, separators and letters with a space in which no extension or second-number marker occurs (in particular without the letters T and X)."
  },
  {
   "property": "C14",
   "status": "proved",
   "theorems": [
    "C14_viable_iff_grammar",
    "C14_parsed_part_viable"
   ],
   "note": "The regular expression is shown equivalent to an independent grammar, for every string."
  },
  {
   "property": "C15",
   "status": "proved",
   "theorems": [
    "C15_other_scripts_refused",
    "C15_refused_without_plus",
    "C15_code_accepted_refuted"
   ],
   "note": "For every database and country; the calling code of an RFC 3966 style text is the exception."
  },
  {
   "property": "C16",
   "status": "proved",
   "theorems": [
    "C16_is_valid_iff",
    "C16_default",
    "C16_length",
    "C16_length_default",
    "C16_whole_match_refuted"
   ],
   "note": "For every number and every database whose entries have distinct known ids (or are the only, '001', entry of their code), in particular the built-in one. That the patterns match the whole number is refuted."
  },
  {
   "property": "C17",
   "status": "proved",
   "theorems": [
    "C17_number_type",
    "C17_never_reported",
    "C17_api",
    "C17_default"
   ],
   "note": "number_type is characterised for every metadata entry and digit string, and for every number of such databases."
  },
  {
   "property": "C18",
   "status": "proved",
   "theorems": [
    "C18_agree",
    "C18_zeros_refuted"
   ],
   "note": "For every database and every number without leading zeros; refuted with leading zeros."
  },
  {
   "property": "C19",
   "status": "proved",
   "theorems": [
    "C19_by_id",
    "C19_by_code",
    "C19_region",
    "C19_iter"
   ],
   "note": "For every list of loader entries accepted by Database::from."
  },
  {
   "property": "C20",
   "status": "proved",
   "theorems": [
    "C20_country",
    "C20_belongs",
    "C20_default",
    "C20_valid_without_country_refuted",
    "C20_single"
   ],
   "note": "For every number of such databases. That a valid number has a country is refuted (Italian fixed lines)."
  },
  {
   "property": "C21",
   "status": "proved",
   "theorems": [
    "C21_international",
    "C21_rfc3966",
    "C21_international_shape",
    "C21_national_refuted"
   ],
   "note": "International and RFC 3966 renderings of every number with a known code, built-in metadata; also the shape of the international text; refuted for National mode (Argentina)"
  },
  {
   "property": "C22",
   "status": "proved",
   "theorems": [
    "C22_shape"
   ],
   "note": "every number with a known code, built-in metadata"
  },
  {
   "property": "C23",
   "status": "proved",
   "theorems": [
    "C23_no_rule",
    "C23_valid",
    "C23_two_digits_refuted",
    "C23_rule_refuted"
   ],
   "note": "for all numbers to which no rule applies, and for all valid numbers outside the codes listed in not_covered; necessity of the conditions shown by refutations"
  },
  {
   "property": "C24",
   "status": "proved",
   "theorems": [
    "C24_alike",
    "C24_equality",
    "C24_equivalence",
    "C24_hash"
   ],
   "note": "Equality is characterised by the components and is equivalent to feeding equal data to a hasher."
  },
  {
   "property": "C25",
   "status": "proved",
   "theorems": [
    "C25_settings",
    "C25_order_irrelevant",
    "C25_format_with"
   ],
   "note": "For every sequence of settings."
  },
  {
   "property": "C26",
   "status": "proved",
   "theorems": [
    "C26_digits",
    "C26_length"
   ],
   "note": "For every database."
  },
  {
   "property": "C27",
   "status": "proved",
   "theorems": [
    "C27_from_rule",
    "C27_dialled",
    "C27_trunk_prefix_refuted",
    "C27_local_number_refuted"
   ],
   "note": "Every database; reported carriers are characterised by the rule that captured them, and the expectation that they are carrier codes is refuted."
  },
  {
   "property": "C28",
   "status": "proved",
   "theorems": [
    "C28_no_digit",
    "C28_bounds",
    "C28_length"
   ],
   "note": "No digit: NoNumber. Unknown code: see C11_unknown_code. Length and value bounds: every successful parse, and the error returned when no national-prefix rule interferes."
  },
  {
   "property": "C29",
   "status": "proved",
   "theorems": [
    "C29_reads",
    "C29_only",
    "C29_noise",
    "C29_round_trip",
    "C29_unknown_attribute_refuted"
   ],
   "note": "C29_reads and C29_only together say exactly which event streams load and as what: every well-formed document is read as its meaning, and nothing else is read. C29_noise: text and comments between elements do not matter. C29_round_trip: every list of expressible entries can be written and read back. C29_unknown_attribute_refuted: unknown attributes on elements whose attributes are never inspected are dropped silently, so that part of the statement is false."
  },
  {
   "property": "C30",
   "status": "proved",
   "theorems": [
    "C30_round_trip",
    "C30_embedded",
    "C30_default",
    "C30_truncated"
   ],
   "note": "C30_round_trip: decoding the wire format undoes encoding for every list of entries the format can hold, whatever bytes follow. C30_embedded: so for every loaded document the library builds at run time what Database::parse builds from the XML. C30_default: instantiated for the shipped metadata. The wire format itself (postcard 1.x) is modelled from its specification."
  },
  {
   "property": "C31",
   "status": "proved",
   "theorems": [
    "C31_no_placeholder",
    "C31_any_carrier_refuted"
   ],
   "note": "every mode and number with a known code, built-in metadata; carrier condition shown necessary"
  },
  {
   "property": "C32",
   "status": "proved",
   "theorems": [
    "C32_lengths",
    "C32_range",
    "C32_largest_refuted"
   ],
   "note": "C32_lengths: any comma-separated list of numbers and ascending ranges, with arbitrary white space around the items, is read as the concatenation. C32_range: a descending range contributes nothing. C32_largest_refuted: a range ending in 65535 panics."
  },
  {
   "property": "C33",
   "status": "proved",
   "theorems": [
    "C33_load",
    "C33_parse",
    "C33_no_panic",
    "C33_panics_refuted"
   ],
   "note": "C33_load and C33_parse list every cause of a panic, for all event streams: a length item that is empty or has a malformed range end, or a description without a pattern; C33_no_panic is the contrapositive. C33_panics_refuted exhibits a panicking document for each cause, so the expectation of an error is refuted for them."
  },
  {
   "property": "C34",
   "status": "proved",
   "theorems": [
    "C34_leading_text",
    "C34_leading_text_digits",
    "C34_no_space_refuted"
   ],
   "note": "For every database and country; refuted without a space."
  },
  {
   "property": "C35",
   "status": "proved",
   "theorems": [
    "C35_classified"
   ],
   "note": ""
  },
  {
   "property": "C36",
   "status": "proved",
   "theorems": [
    "C36_trailing_punctuation"
   ],
   "note": "For every database and country."
  },
  {
   "property": "C37",
   "status": "proved",
   "theorems": [
    "C37_extension",
    "C37_no_space_refuted",
    "C37_eight_digits_refuted",
    "C37_other_forms_refuted"
   ],
   "note": "for every database, country, text and marker; without a space the marker must be free of ';', '-' and '.' (refuted otherwise), extensions of eight digits and the ;ext= and trailing-# forms are refuted"
  },
  {
   "property": "C38",
   "status": "proved",
   "theorems": [
    "C38_like_e164",
    "C38_valid",
    "C38_long_extension_refuted"
   ],
   "note": "built-in metadata; any number with a known calling code; the composition with C08 for valid numbers"
  },
  {
   "property": "C39",
   "status": "proved",
   "theorems": [
    "C39_any_database",
    "C39_trunk_any_database",
    "C39_plain",
    "C39_trunk",
    "C39_trunk_clear",
    "C39_typed",
    "C39_plain_exact",
    "C39_russia_refuted",
    "C39_own_code_refuted",
    "C39_dialled_refuted",
    "C39_colombia_refuted",
    "C39_carrier_refuted",
    "C39_lithuania_refuted",
    "C39_too_short_kept"
   ],
   "note": "Any database (C39_any_database, C39_trunk_any_database, C39_too_short_kept) and the built-in one (C39_plain, C39_trunk, C39_trunk_clear, C39_typed). C39_plain_exact shows that the fifteen regions left out of C39_plain are exactly those with a counterexample; the _refuted theorems show that the other excluded cases are real."
  },
  {
   "property": "C40",
   "status": "proved",
   "theorems": [
    "C40_dialled",
    "C40_default_prefix",
    "C40_from_region",
    "C40_own_code",
    "C40_own_code_default",
    "C40_possible_kept",
    "C40_short_refuted"
   ],
   "note": "Equality of results, errors included, up to the recorded source; C40_short_refuted shows why three digits are needed."
  },
  {
   "property": "C41",
   "status": "proved",
   "theorems": [
    "C41_used",
    "C41_no_format",
    "C41_e164",
    "C41_international",
    "C41_rfc3966",
    "C41_national_plain",
    "C41_national_rule",
    "C41_default_regular",
    "C41_default"
   ],
   "note": "General theorems for every database whose formats have side-by-side groups; C41_default shows every built-in format is of that form."
  },
  {
   "property": "C42",
   "status": "proved",
   "theorems": [
    "C42_relevant",
    "C42_result",
    "C42_context",
    "C42_domain",
    "C42_hidden_refuted",
    "C42_domain_digits_refuted",
    "C42_area_refuted"
   ],
   "note": "Any database and any list of parameters; four refutations mark where the reading departs from RFC 3966."
  },
  {
   "property": "C43",
   "status": "proved",
   "theorems": [
    "C43_read",
    "C43_written",
    "C43_round_trip",
    "C43_parsed_fits",
    "C43_parsed",
    "C43_source",
    "C43_type",
    "C43_id",
    "C43_type_names",
    "C43_enum_exact",
    "C43_missing",
    "C43_repeated",
    "C43_missing_parts",
    "C43_type_bytes",
    "C43_id_bytes",
    "C43_unknown_variant",
    "C43_bytes",
    "C43_bytes_truncated",
    "C43_shown_refuted"
   ],
   "note": "Trees are characterised exactly by C43_read, missing and repeated fields by C43_missing, C43_missing_parts and C43_repeated; C43_shown_refuted records what reading does not check."
  },
  {
   "property": "C44",
   "status": "proved",
   "theorems": [
    "C44_round_trip",
    "C44_formatted",
    "C44_always",
    "C44_exact"
   ],
   "note": "C44_round_trip with the proviso that the text does not begin with the calling code, C44_always without it; C44_exact shows that the regions left out are exactly those with a counterexample."
  },
  {
   "property": "C45",
   "status": "proved",
   "theorems": [
    "C45_plus",
    "C45_digits",
    "C45_plus_default",
    "C45_digits_default",
    "C45_nothing_invented",
    "C45_zeros",
    "C45_zeros_exact",
    "C45_belgium",
    "C45_every_belgian_refuted"
   ],
   "note": "C45_plus and C45_digits give the outcome of '+' and digits and of digits alone for every regular database whose transform rules are digits and one group reference; the _default theorems instantiate them to the built-in metadata, where this holds. Which group of a pattern with alternatives takes part is left to the pattern, constrained by the language of the group. C45_zeros_exact lists exactly the calling codes behind which a value can change. C45_every_belgian_refuted: the claim of tests/prop.rs fails for +3200000000."
  },
  {
   "property": "C46",
   "status": "proved",
   "theorems": [
    "C46_one_reading",
    "C46_unread",
    "C46_not_viable",
    "C46_number",
    "C46_coded_short",
    "C46_coded_malformed",
    "C46_coded_unknown",
    "C46_coded",
    "C46_empty_extension_refuted"
   ],
   "note": "one reading of every text, and parse as a function of it; C46_empty_extension_refuted records that an extension may be read as empty"
  },
  {
   "property": "C47",
   "status": "proved",
   "theorems": [
    "C47_same_answers",
    "C47_filled_once",
    "C47_statics",
    "C47_no_deadlock",
    "C47_bounded",
    "C47_all_return"
   ],
   "note": "For every interleaving of any number of threads making any calls: same answers as alone, statics filled at most once and never poisoned, no deadlock, at most 25 library steps per pending call. Atomic accesses; once_cell's memory orderings are trusted."
  },
  {
   "property": "C48",
   "status": "proved",
   "theorems": [
    "C48_one_claimant",
    "C48_country",
    "C48_valid",
    "C48_rivals_exact"
   ],
   "note": "all pairs of entries of all shared calling codes, digits of any length; the list of twelve pairs is exact"
  },
  {
   "property": "C49",
   "status": "proved",
   "theorems": [
    "C49_order",
    "C49_disputed"
   ],
   "note": "all permutations; the exception (country of 50,000 numbers of +590) is exact: C49_disputed"
  },
  {
   "property": "C50",
   "status": "proved",
   "theorems": [
    "C50_space",
    "C50_kind",
    "C50_type",
    "C50_default",
    "C50_type_refuted"
   ],
   "note": "For all documents and all insertions between the parts of a pattern (the parts themselves, such as (?: or {2,3}, are not torn apart). C50_default needs no hypothesis on types: the built-in entries with equal fixed-line and mobile patterns have equal lengths. C50_type_refuted shows a document whose types change with one blank. C50_spread: the built-in patterns, each on a line of its own, meet the hypothesis."
  },
  {
   "property": "C51",
   "status": "proved",
   "theorems": [
    "C51_pattern",
    "C51_description",
    "C51_default",
    "C51_builtin"
   ],
   "note": "The notation covers what RegexSyntax models; open repetitions of something that describes the empty text are left out (no built-in pattern has one). The size and nesting limits of the regex crate are not modelled."
  },
  {
   "property": "C52",
   "status": "proved",
   "theorems": [
    "C52_pieces",
    "C52_reads",
    "C52_parse",
    "C52_declaration",
    "C52_repeated",
    "C52_reference_refuted"
   ],
   "note": "spellings of documents read as the document; declarations and repeated attributes refused; references refuted"
  },
  {
   "property": "C53",
   "status": "proved",
   "theorems": [
    "C53_bytes",
    "C53_entries",
    "C53_shipped",
    "C53_file",
    "C53_embedded"
   ],
   "note": "the whole shipped document; C53_file: read from its bytes by Database::load as well"
  },
  {
   "property": "C54",
   "status": "proved",
   "theorems": [
    "C54_e164",
    "C54_international",
    "C54_rfc3966",
    "C54_equality",
    "C54_modes",
    "C54_national_refuted"
   ],
   "note": "If and only if for E.164, international and RFC 3966 texts over all numbers with known calling codes; the national case is settled negatively with a witness."
  },
  {
   "property": "C55",
   "status": "proved",
   "theorems": [
    "C55_e164",
    "C55_international",
    "C55_rfc3966",
    "C55_national",
    "C55_sharp",
    "C55_valid",
    "C55_valid_sharp"
   ],
   "note": "Bounds for all parsed numbers in all modes and for all valid numbers, with witnesses that reach them."
  },
  {
   "property": "C56",
   "status": "proved",
   "theorems": [
    "C56_extends",
    "C56_cut",
    "C56_database",
    "C56_inside",
    "C56_document"
   ],
   "note": "accepted texts begin with a document that alone decides; every proper beginning is an error, inside markup the XML error"
  },
  {
   "property": "C57",
   "status": "proved",
   "theorems": [
    "C57_sound",
    "C57_only",
    "C57_exact_any",
    "C57_exact",
    "C57_from_str",
    "C57_no_number",
    "C57_viable_refuted"
   ],
   "note": "Exact for the built-in metadata and for every tame database on which parse does not panic. C57_viable_refuted: a text that is viable as a whole may still have no number in it ('1/ x23')."
  },
  {
   "property": "C58",
   "status": "proved",
   "theorems": [
    "C58_changes",
    "C58_settles",
    "C58_final",
    "C58_one_number",
    "C58_error_refuted",
    "C58_every_country_refuted"
   ],
   "note": "C58_changes and C58_settles are for every text and every choice of reference countries; C58_error_refuted and C58_every_country_refuted show what cannot be added"
  },
  {
   "property": "C59",
   "status": "proved",
   "theorems": [
    "C59_format_error",
    "C59_format_panic",
    "C59_format_default",
    "C59_to_string",
    "C59_is_valid",
    "C59_type",
    "C59_country",
    "C59_default",
    "C59_parse"
   ],
   "note": "Both directions for every outcome. C59_format_error and C59_format_panic hold for every database built from entries and every format; C59_parse assumes the conditions of C02 except the one about the reference country."
  },
  {
   "property": "C60",
   "status": "proved",
   "theorems": [
    "C60_classification",
    "C60_parse",
    "C60_text",
    "C60_unused"
   ],
   "note": "Non-interference, for every database built from entries and every input; C60_parts shows that the parts named do count."
  },
  {
   "property": "C61",
   "status": "proved",
   "theorems": [
    "C61_templates",
    "C61_national_only_refuted",
    "C61_default",
    "C61_leading",
    "C61_inherits",
    "C61_inherits_default",
    "C61_inherits_refuted"
   ],
   "note": "formats, main country, leading digits and inherited prefix; three promises refuted beside"
  },
  {
   "property": "C62",
   "status": "proved",
   "theorems": [
    "C62_numbers",
    "C62_parse",
    "C62_trimmed"
   ],
   "note": "any two databases; the built-in metadata trimmed in any way"
  },
  {
   "property": "C63",
   "status": "proved",
   "theorems": [
    "C63_text",
    "C63_shape",
    "C63_entries"
   ],
   "note": "texts exact; built-in entries by evaluation"
  },
  {
   "property": "C64",
   "status": "proved",
   "theorems": [
    "C64_text",
    "C64_entries",
    "C64_extends",
    "C64_cut"
   ],
   "note": "all byte sequences; which error is reported for bytes that are not UTF-8 is not told apart"
  },
  {
   "property": "C65",
   "status": "proved",
   "theorems": [
    "C65_divided",
    "C65_exact"
   ],
   "note": "Kind patterns have to match the whole number; validity as the library computes it (a match at the start) is looser. The 25 and 36 exceptions are proved exact."
  },
  {
   "property": "C66",
   "status": "proved",
   "theorems": [
    "C66_cause",
    "C66_code",
    "C66_never",
    "C66_described",
    "C66_held",
    "C66_zero",
    "C66_zero_refuted",
    "C66_long",
    "C66_no_number_refuted"
   ],
   "note": "exact conditions are C57; here the causes in the words of the documentation, two refuted explanations and the limits against the described numbers"
  },
  {
   "property": "C67",
   "status": "proved",
   "theorems": [
    "C67_valid",
    "C67_parsed",
    "C67_type",
    "C67_country",
    "C67_type_exact",
    "C67_zero_refuted"
   ],
   "note": "the three kinds with another type reported are exact; type and country only for numbers without leading zeros (refuted otherwise)"
  },
  {
   "property": "C68",
   "status": "proved",
   "theorems": [
    "C68_blind",
    "C68_where",
    "C68_always",
    "C68_lost",
    "C68_right",
    "C68_nowhere",
    "C68_where_exact",
    "C68_wrong",
    "C68_premium_refuted",
    "C68_right_exact",
    "C68_nowhere_exact"
   ],
   "note": "Exact lists of the kinds of number that begin with a zero and of those whose type or country is reported all the same."
  },
  {
   "property": "C69",
   "status": "proved",
   "theorems": [
    "C69_where",
    "C69_taken",
    "C69_misread",
    "C69_exactly",
    "C69_where_exact"
   ],
   "note": "The iff leaves out the fifteen countries of C39 and Brazil and Gabon, whose prefixes are rewritten; for these two C69_taken says what is read."
  },
  {
   "property": "C70",
   "status": "proved",
   "theorems": [
    "C70_trunk",
    "C70_misread",
    "C70_exactly"
   ],
   "note": "Full: outside the fourteen countries every described number behind the trunk prefix is read as itself (C70_trunk), each of the fourteen has a described number that is not (C70_misread), hence the equivalence C70_exactly."
  },
  {
   "property": "C71",
   "status": "proved",
   "theorems": [
    "C71_as_plus",
    "C71_reached",
    "C71_same",
    "C71_exactly",
    "C71_everywhere"
   ],
   "note": "Full: C71_everywhere (each country has such a prefix), C71_as_plus and C71_same (any prefix, any code, any digits), C71_reached (described numbers), C71_exactly (the two countries left out are exactly those with a counterexample)."
  },
  {
   "property": "C72",
   "status": "proved",
   "theorems": [
    "C72_as_plus",
    "C72_with_code",
    "C72_exactly",
    "C72_three_ways"
   ],
   "note": "Full: C72_as_plus (any digits), C72_with_code (described numbers), C72_exactly (the twelve codes left out are exactly those with a counterexample in each of their countries), C72_three_ways (plus sign, dialling prefix, bare code)."
  }
 ]
}