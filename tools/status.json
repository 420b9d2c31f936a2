{
 "C01": [
  "proved",
  "For every optional country and every string, with the built-in metadata."
 ],
 "C02": [
  "proved",
  "For every database meeting the stated conditions; the unconditional form is refuted by four documents."
 ],
 "C05": [
  "proved",
  "For every database, custom format, extension and carrier."
 ],
 "C06": [
  "proved",
  ""
 ],
 "C07": [
  "proved",
  "With the bounds of the statement; the unbounded form is refuted (256 leading zeros, embedded plus sign)."
 ],
 "C19": [
  "proved",
  "For every list of loader entries accepted by Database::from."
 ],
 "C24": [
  "proved",
  "Equality is characterised by the components and is equivalent to feeding equal data to a hasher."
 ],
 "C25": [
  "proved",
  "For every sequence of settings."
 ],
 "C35": [
  "proved",
  ""
 ],
 "C03": [
  "proved",
  "Every parse with the built-in metadata; for custom metadata under the condition that formats with a national prefix rule contain a placeholder, without which it is refuted."
 ],
 "C04": [
  "proved",
  "Built-in metadata and every database whose transform rules write no plus sign; refuted for arbitrary databases."
 ],
 "C10": [
  "proved",
  "For every database."
 ],
 "C26": [
  "proved",
  "For every database."
 ],
 "C08": [
  "proved",
  "Any database: digits to which no rule applies. Built-in metadata: every valid number of every calling code outside a list of twelve; C08_exact shows that those twelve are exactly the codes for which it fails."
 ],
 "C09": [
  "proved",
  "Any database for separated digits; any text starting with + and 1-9 for the 226 countries whose dialling prefix starts with 0; refuted for the others by examples."
 ],
 "C11": [
  "proved",
  "For every database and digit string not starting with the reference country's dialling prefix."
 ],
 "C12": [
  "proved",
  "For every database and country; with a plus sign the text must contain a space, without one it must have three digits. Both conditions are needed (refuted without)."
 ],
 "C13": [
  "proved",
  "For every database and country, for texts of digits, separators and letters with a space in which no extension or second-number marker occurs (in particular without the letters T and X)."
 ],
 "C14": [
  "proved",
  "The regular expression is shown equivalent to an independent grammar, for every string."
 ],
 "C15": [
  "proved",
  "For every database and country; the calling code of an RFC 3966 style text is the exception."
 ],
 "C28": [
  "proved",
  "No digit: NoNumber. Unknown code: see C11_unknown_code. Length and value bounds: every successful parse, and the error returned when no national-prefix rule interferes."
 ],
 "C34": [
  "proved",
  "For every database and country; refuted without a space."
 ],
 "C36": [
  "proved",
  "For every database and country."
 ],
 "C16": [
  "proved",
  "For every number and every database whose entries have distinct known ids (or are the only, '001', entry of their code), in particular the built-in one. That the patterns match the whole number is refuted."
 ],
 "C17": [
  "proved",
  "number_type is characterised for every metadata entry and digit string, and for every number of such databases."
 ],
 "C18": [
  "proved",
  "For every database and every number without leading zeros; refuted with leading zeros."
 ],
 "C20": [
  "proved",
  "For every number of such databases. That a valid number has a country is refuted (Italian fixed lines)."
 ],
 "C27": [
  "proved",
  "Every database; reported carriers are characterised by the rule that captured them, and the expectation that they are carrier codes is refuted."
 ],
 "C21": [
  "proved",
  "International and RFC 3966 renderings of every number with a known code, built-in metadata; also the shape of the international text; refuted for National mode (Argentina)"
 ],
 "C22": [
  "proved",
  "every number with a known code, built-in metadata"
 ],
 "C23": [
  "proved",
  "for all numbers to which no rule applies, and for all valid numbers outside the codes listed in not_covered; necessity of the conditions shown by refutations"
 ],
 "C31": [
  "proved",
  "every mode and number with a known code, built-in metadata; carrier condition shown necessary"
 ],
 "C32": [
  "proved",
  "C32_lengths: any comma-separated list of numbers and ascending ranges, with arbitrary white space around the items, is read as the concatenation. C32_range: a descending range contributes nothing. C32_largest_refuted: a range ending in 65535 panics."
 ],
 "C33": [
  "proved",
  "C33_load and C33_parse list every cause of a panic, for all event streams: a length item that is empty or has a malformed range end, or a description without a pattern; C33_no_panic is the contrapositive. C33_panics_refuted exhibits a panicking document for each cause, so the expectation of an error is refuted for them."
 ],
 "C29": [
  "proved",
  "C29_reads and C29_only together say exactly which event streams load and as what: every well-formed document is read as its meaning, and nothing else is read. C29_noise: text and comments between elements do not matter. C29_round_trip: every list of expressible entries can be written and read back. C29_unknown_attribute_refuted: unknown attributes on elements whose attributes are never inspected are dropped silently, so that part of the statement is false."
 ],
 "C30": [
  "proved",
  "C30_round_trip: decoding the wire format undoes encoding for every list of entries the format can hold, whatever bytes follow. C30_embedded: so for every loaded document the library builds at run time what Database::parse builds from the XML. C30_default: instantiated for the shipped metadata. The wire format itself (postcard 1.x) is modelled from its specification."
 ],
 "C37": [
  "proved",
  "for every database, country, text and marker; without a space the marker must be free of ';', '-' and '.' (refuted otherwise), extensions of eight digits and the ;ext= and trailing-# forms are refuted"
 ],
 "C38": [
  "proved",
  "built-in metadata; any number with a known calling code; the composition with C08 for valid numbers"
 ],
 "C39": [
  "proved",
  "Any database (C39_any_database, C39_trunk_any_database, C39_too_short_kept) and the built-in one (C39_plain, C39_trunk, C39_trunk_clear, C39_typed). C39_plain_exact shows that the fifteen regions left out of C39_plain are exactly those with a counterexample; the _refuted theorems show that the other excluded cases are real."
 ],
 "C40": [
  "proved",
  "Equality of results, errors included, up to the recorded source; C40_short_refuted shows why three digits are needed."
 ],
 "C41": [
  "proved",
  "General theorems for every database whose formats have side-by-side groups; C41_default shows every built-in format is of that form."
 ],
 "C42": [
  "proved",
  "Any database and any list of parameters; four refutations mark where the reading departs from RFC 3966."
 ],
 "C43": [
  "proved",
  "Trees are characterised exactly by C43_read, missing and repeated fields by C43_missing, C43_missing_parts and C43_repeated; C43_shown_refuted records what reading does not check."
 ],
 "C44": [
  "proved",
  "C44_round_trip with the proviso that the text does not begin with the calling code, C44_always without it; C44_exact shows that the regions left out are exactly those with a counterexample."
 ],
 "C45": [
  "proved",
  "C45_plus and C45_digits give the outcome of '+' and digits and of digits alone for every regular database whose transform rules are digits and one group reference; the _default theorems instantiate them to the built-in metadata, where this holds. Which group of a pattern with alternatives takes part is left to the pattern, constrained by the language of the group. C45_zeros_exact lists exactly the calling codes behind which a value can change. C45_every_belgian_refuted: the claim of tests/prop.rs fails for +3200000000."
 ],
 "C46": [
  "proved",
  "one reading of every text, and parse as a function of it; C46_empty_extension_refuted records that an extension may be read as empty"
 ],
 "C47": [
  "proved",
  "For every interleaving of any number of threads making any calls: same answers as alone, statics filled at most once and never poisoned, no deadlock, at most 25 library steps per pending call. Atomic accesses; once_cell's memory orderings are trusted."
 ],
 "C48": [
  "proved",
  "all pairs of entries of all shared calling codes, digits of any length; the list of twelve pairs is exact"
 ],
 "C49": [
  "proved",
  "all permutations; the exception (country of 50,000 numbers of +590) is exact: C49_disputed"
 ],
 "C50": [
  "proved",
  "For all documents and all insertions between the parts of a pattern (the parts themselves, such as (?: or {2,3}, are not torn apart). C50_default needs no hypothesis on types: the built-in entries with equal fixed-line and mobile patterns have equal lengths. C50_type_refuted shows a document whose types change with one blank. C50_spread: the built-in patterns, each on a line of its own, meet the hypothesis."
 ],
 "C51": [
  "proved",
  "The notation covers what RegexSyntax models; open repetitions of something that describes the empty text are left out (no built-in pattern has one). The size and nesting limits of the regex crate are not modelled."
 ],
 "C52": [
  "proved",
  "spellings of documents read as the document; declarations and repeated attributes refused; references refuted"
 ],
 "C53": [
  "proved",
  "the whole shipped document; C53_file: read from its bytes by Database::load as well"
 ],
 "C54": [
  "proved",
  "If and only if for E.164, international and RFC 3966 texts over all numbers with known calling codes; the national case is settled negatively with a witness."
 ],
 "C55": [
  "proved",
  "Bounds for all parsed numbers in all modes and for all valid numbers, with witnesses that reach them."
 ],
 "C56": [
  "proved",
  "accepted texts begin with a document that alone decides; every proper beginning is an error, inside markup the XML error"
 ],
 "C57": [
  "proved",
  "Exact for the built-in metadata and for every tame database on which parse does not panic. C57_viable_refuted: a text that is viable as a whole may still have no number in it ('1/ x23')."
 ],
 "C58": [
  "proved",
  "C58_changes and C58_settles are for every text and every choice of reference countries; C58_error_refuted and C58_every_country_refuted show what cannot be added"
 ],
 "C59": [
  "proved",
  "Both directions for every outcome. C59_format_error and C59_format_panic hold for every database built from entries and every format; C59_parse assumes the conditions of C02 except the one about the reference country."
 ],
 "C60": [
  "proved",
  "Non-interference, for every database built from entries and every input; C60_parts shows that the parts named do count."
 ],
 "C61": [
  "proved",
  "formats, main country, leading digits and inherited prefix; three promises refuted beside"
 ],
 "C62": [
  "proved",
  "any two databases; the built-in metadata trimmed in any way"
 ],
 "C63": [
  "proved",
  "texts exact; built-in entries by evaluation"
 ],
 "C64": [
  "proved",
  "all byte sequences; which error is reported for bytes that are not UTF-8 is not told apart"
 ],
 "C65": [
  "proved",
  "Kind patterns have to match the whole number; validity as the library computes it (a match at the start) is looser. The 25 and 36 exceptions are proved exact."
 ],
 "C66": [
  "proved",
  "exact conditions are C57; here the causes in the words of the documentation, two refuted explanations and the limits against the described numbers"
 ],
 "C67": [
  "proved",
  "the three kinds with another type reported are exact; type and country only for numbers without leading zeros (refuted otherwise)"
 ],
 "C68": [
  "proved",
  "Exact lists of the kinds of number that begin with a zero and of those whose type or country is reported all the same."
 ],
 "C69": [
  "proved",
  "The iff leaves out the fifteen countries of C39 and Brazil and Gabon, whose prefixes are rewritten; for these two C69_taken says what is read."
 ],
 "C70": [
  "proved",
  "Full: outside the fourteen countries every described number behind the trunk prefix is read as itself (C70_trunk), each of the fourteen has a described number that is not (C70_misread), hence the equivalence C70_exactly."
 ],
 "C71": [
  "proved",
  "Full: C71_everywhere (each country has such a prefix), C71_as_plus and C71_same (any prefix, any code, any digits), C71_reached (described numbers), C71_exactly (the two countries left out are exactly those with a counterexample)."
 ],
 "C72": [
  "proved",
  "Full: C72_as_plus (any digits), C72_with_code (described numbers), C72_exactly (the twelve codes left out are exactly those with a counterexample in each of their countries), C72_three_ways (plus sign, dialling prefix, bare code)."
 ]
}