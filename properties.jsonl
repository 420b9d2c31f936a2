{"id": "C01", "title": "Parsing with the built-in metadata never panics", "statement": "phonenumber::parse(country, s) returns Ok or Err for every optional country and every string s; it never panics (no failed unwrap, no out-of-range or non-char-boundary slice, no integer overflow).", "quantifier": "every optional country id and every string", "why_tests_cant": "The claim ranges over an infinite set of strings; the two published security advisories for this crate were inputs no test had sampled.", "anchors": ["src/parser/mod.rs: parse, parse_with", "src/parser/helper.rs: extract, country_code, international_prefix, national_number, normalize, trim", "src/parser/rfc3966.rs: phone_number", "src/parser/natural.rs: phone_number", "src/validator.rs: source_for, length", "src/national_number.rs: from_str", "assets/PhoneNumberMetadata.xml"]}
{"id": "C02", "title": "parse_with never panics for a sane custom database", "statement": "parse_with(db, country, s) never panics, for every string, provided the database has an entry for the reference country, every region sharing a calling code has a known country id, and no national-prefix transform rule can fire without its first group. Without such a condition the claim is false: some databases that Database::parse accepts make parse_with panic.", "quantifier": "every database meeting the stated conditions, every optional country, every string", "why_tests_cant": "Ranges over every loadable metadata file and every string.", "anchors": ["src/parser/mod.rs: parse_with", "src/parser/helper.rs: country_code, national_number", "src/validator.rs: source_for"]}
{"id": "C03", "title": "A parsed number can always be formatted", "statement": "If parse_with(db, country, s) = Ok(n) then n's calling code is known to db and formatting n with db succeeds in every mode (Display returns no error, nothing panics). In particular n.to_string() never panics for a number parsed with the built-in metadata.", "quantifier": "every database, country and string for which parsing succeeds, every formatting mode", "why_tests_cant": "Couples two functions over the unbounded set of successful parses.", "anchors": ["src/formatter.rs: Display for Formatter, formatter, replace", "src/parser/mod.rs: parse_with"]}
{"id": "C04", "title": "A parsed national number is 2 to 17 digits, non-zero, and printed exactly as it was read", "statement": "If parsing succeeds, the national number printed by Display is a string of 2 to 17 ASCII digits, its value is at least 1 and below 2^56, and value() and zeros() are the numeric value and the number of leading zeros of that string.", "quantifier": "every successful parse", "why_tests_cant": "Boundary behaviour over all inputs.", "anchors": ["src/parser/mod.rs: parse_with", "src/national_number.rs: NationalNumber", "src/consts.rs: MIN_LENGTH_FOR_NSN, MAX_LENGTH_FOR_NSN"]}
{"id": "C05", "title": "E.164 output is '+', calling code, national number, and nothing else", "statement": "For every number with a known calling code, E.164 formatting (also to_string()) yields '+' followed by the decimal calling code followed by the national number with its leading zeros: only ASCII digits after the '+', no extension, no carrier, independent of any formatting metadata and of any custom format.", "quantifier": "every phone number, database and custom format", "why_tests_cant": "Ranges over all numbers and all metadata.", "anchors": ["src/formatter.rs: Display for Formatter", "src/phone_number.rs: Display for PhoneNumber", "src/national_number.rs: Display"]}
{"id": "C06", "title": "NationalNumber packs value and leading zeros without loss", "statement": "NationalNumber::new(v, z) succeeds exactly when v < 2^56 and then value() = v and zeros() = z; two NationalNumbers are equal iff both components are equal; otherwise it returns TooLong.", "quantifier": "every u64 value and every u8 zero count", "why_tests_cant": "2^72 argument pairs.", "anchors": ["src/national_number.rs: new, value, zeros"]}
{"id": "C07", "title": "NationalNumber text round-trip", "statement": "Parsing a digit string as a NationalNumber and printing it gives back the same string, and printing a NationalNumber with non-zero value and parsing it gives back the same number. The string must have fewer than 256 leading zeros and a non-zero value below 2^56: at 256 leading zeros the count silently wraps.", "quantifier": "every digit string / every NationalNumber", "why_tests_cant": "Unbounded strings; the wrap only appears at 256 zeros.", "anchors": ["src/national_number.rs: from_str, Display"]}
{"id": "C08", "title": "E.164 text round-trips through parse", "statement": "For a calling code c of the database and national digits d, parse('+' c d) yields exactly calling code c, national number d, no extension and no carrier, and printing it as E.164 gives the input back, whenever the selected region's national-prefix rules do not apply to d. For the built-in metadata the E.164 text of every valid number of non-zero value parses back to it unless the calling code is one of twelve (7, 55, 62, 66, 81, 82, 91, 250, 359, 370, 375, 598), and each of these twelve has a valid number that parsing its own text changes (e.g. Russian freephone numbers).", "quantifier": "every calling code and every digit string", "why_tests_cant": "All numbers of all numbering plans.", "anchors": ["src/parser/mod.rs: parse_with", "src/parser/helper.rs: country_code, national_number", "src/formatter.rs"]}
{"id": "C09", "title": "A number written with '+' does not depend on the reference country", "statement": "If s is '+' followed by digits and separators, parse(Some(c), s) and parse(None, s) give the same result for every country c whose international dialling prefix does not match the digits. It is false when the dialling prefix of c matches after the '+'.", "quantifier": "every string written with a leading '+', every country", "why_tests_cant": "245 countries times infinitely many strings.", "anchors": ["src/parser/helper.rs: international_prefix, country_code", "src/parser/mod.rs: parse_with"]}
{"id": "C10", "title": "The reported country-code source is truthful", "statement": "With no reference country a successful parse never reports Default or Number. With reference country c, whenever the source is Default or Number the calling code is c's. Source Plus is reported only if the text had a '+' or an RFC 3966 prefix/phone-context; Idd only if it had neither.", "quantifier": "every successful parse", "why_tests_cant": "Ranges over all inputs.", "anchors": ["src/parser/helper.rs: country_code, international_prefix", "src/country.rs: Source"]}
{"id": "C11", "title": "The calling code is read unambiguously", "statement": "After '+', the parser takes the shortest prefix of 1 to 3 digits that is a known calling code. In the built-in metadata no calling code is a prefix of another, so this is the only calling code that fits, and it has 1 to 3 digits.", "quantifier": "every digit string", "why_tests_cant": "All digit strings.", "anchors": ["src/parser/helper.rs: country_code", "assets/PhoneNumberMetadata.xml"]}
{"id": "C12", "title": "Separators do not change the result", "statement": "For a text starting with '+' and made of ASCII digits and the separators space - . ( ) /, containing at least one space and ending in a digit, parsing gives the same result as parsing the text with all separators removed.", "quantifier": "every such text, every country, every database", "why_tests_cant": "Unbounded arrangements of separators.", "anchors": ["src/parser/rfc3966.rs: phone_number", "src/parser/natural.rs: phone_number", "src/parser/helper.rs: extract, normalize", "src/parser/valid.rs"]}
{"id": "C13", "title": "Vanity letters: dropped below three, keypad-mapped from three on", "statement": "When the text after extraction contains fewer than three ASCII letters the letters do not contribute digits; with three or more each letter contributes its telephone-keypad digit.", "quantifier": "every text accepted as viable", "why_tests_cant": "Ranges over all texts.", "anchors": ["src/parser/helper.rs: international_prefix, normalize", "src/consts.rs: ALPHA_MAPPINGS, ASCII_MAPPINGS, VALID_ALPHA_PHONE"]}
{"id": "C14", "title": "is_viable accepts exactly the documented grammar", "statement": "is_viable(s) is true iff s is exactly two ASCII digits, or s is any number of plus signs, then three digits each optionally preceded by punctuation or stars, then any punctuation, stars, digits, and then any of these or ASCII letters up to the end.", "quantifier": "every string", "why_tests_cant": "Language equality over all strings; the implementation is greedy without backtracking.", "anchors": ["src/validator.rs: is_viable", "src/parser/valid.rs"]}
{"id": "C15", "title": "Digits of other scripts", "statement": "A user expects Unicode decimal digits (Arabic, full-width, ...) to be accepted like ASCII digits. The normaliser maps them, but a number written with digits and separators of which one is a non-ASCII decimal digit is rejected with NoNumber before normalisation, for every country and database (when it has no plus sign, or has a space); only the calling code of an RFC 3966 style text may use them.", "quantifier": "every string containing such a digit in the number part", "why_tests_cant": "Ranges over all strings.", "anchors": ["src/parser/helper.rs: as_dec_digit, normalize", "src/parser/valid.rs: digit", "src/parser/mod.rs: parse_with"]}
{"id": "C16", "title": "is_valid is exactly membership in a descriptor of the number's region", "statement": "is_valid_with(db, n) is true iff the region selected for (calling code, national digits) exists and its general pattern and at least one of its ten type descriptors match the national digits (pattern at the start, length listed). So a valid number always has a length listed for its type.", "quantifier": "every number and database", "why_tests_cant": "All numbers times all metadata.", "anchors": ["src/validator.rs: is_valid_with, source_for, number_type", "src/metadata/descriptor.rs: is_match"]}
{"id": "C17", "title": "number_type is sound, complete and prioritised", "statement": "The type reported for a region is the first matching one in the order premium rate, toll free, shared cost, VoIP, personal, pager, UAN, voicemail, fixed line (or mobile), mobile; it is Unknown iff the general pattern or all ten descriptors fail; FixedLineOrMobile iff the fixed-line descriptor matches and the mobile one matches too or has the same pattern; Emergency, ShortCode, StandardRate, Carrier, NoInternational are never reported.", "quantifier": "every metadata entry and digit string", "why_tests_cant": "All metadata times all strings.", "anchors": ["src/validator.rs: number_type", "src/phone_number.rs: number_type_with"]}
{"id": "C18", "title": "is_valid and number_type agree", "statement": "n.is_valid() iff n.number_type() != Unknown. This holds for every number without leading zeros; it is false in general because number_type drops leading zeros (Italian fixed lines).", "quantifier": "every number", "why_tests_cant": "All numbers.", "anchors": ["src/phone_number.rs: metadata, number_type_with", "src/validator.rs: is_valid_with"]}
{"id": "C19", "title": "Database lookups reflect the loaded entries", "statement": "After Database::from(entries): by_id(id) is the last entry with that id; by_code(c) lists exactly the entries with code c, main countries first, others in file order, and is None iff there are none; region(c) lists their ids in the same order; iter() visits each id exactly once.", "quantifier": "every list of entries", "why_tests_cant": "All metadata files.", "anchors": ["src/metadata/database.rs: from, by_id, by_code, region, iter"]}
{"id": "C20", "title": "The country of a number belongs to its calling code", "statement": "If n.country().id() is Ok(Some(id)) then the metadata entry of id has n's calling code; it is Ok(None) iff no region is selected, and an error iff the code belongs to a non-geographical entity.", "quantifier": "every number", "why_tests_cant": "All numbers.", "anchors": ["src/phone_number.rs: Country::id, metadata", "src/validator.rs: source_for"]}
{"id": "C21", "title": "Formatting keeps every digit", "statement": "With the built-in metadata, the digits of the International and RFC 3966 renderings are exactly the digits of the calling code followed by those of the national number (followed by the extension digits), in that order: formatting only inserts separators.", "quantifier": "every number with a known calling code", "why_tests_cant": "All numbers times 759 format rules.", "anchors": ["src/formatter.rs: formatter, replace, Display", "assets/PhoneNumberMetadata.xml"]}
{"id": "C22", "title": "RFC 3966 output is syntactically a tel: URI", "statement": "With the built-in metadata, RFC 3966 formatting yields 'tel:+', the calling code, '-', then only ASCII digits and '-' , then optionally ';ext=' and the extension; no spaces, parentheses or dots.", "quantifier": "every number with a known calling code", "why_tests_cant": "All numbers times all format rules.", "anchors": ["src/formatter.rs: Display for Formatter", "src/consts.rs: SEPARATOR_PATTERN"]}
{"id": "C23", "title": "RFC 3966 text round-trips through parse, with its extension", "statement": "For a number with at least three national digits and a digit extension, parsing its RFC 3966 rendering gives back the same number including the extension, whenever the region's national-prefix rules do not apply to the national digits.", "quantifier": "every such number", "why_tests_cant": "All numbers.", "anchors": ["src/formatter.rs", "src/parser/rfc3966.rs: phone_number", "src/parser/mod.rs: parse_with"]}
{"id": "C24", "title": "Equality ignores how the code was found, and hashing agrees with equality", "statement": "PhoneNumber equality is an equivalence that compares calling code value, national number (value and zeros), extension and carrier and ignores the code source; equal numbers feed identical data to a Hasher, so they collide in hash maps. Equal numbers behave alike: with every database they have the same text in every mode and with every format, the same validity, type and country.", "quantifier": "all pairs of numbers", "why_tests_cant": "Pairs of unbounded values.", "anchors": ["src/country.rs: PartialEq for Code, Hash for Code", "src/phone_number.rs: PhoneNumber"]}
{"id": "C25", "title": "Formatter settings are independent and default to E.164", "statement": "mode(), database() and with() commute, the last setting of each wins, a fresh formatter is E.164 with the built-in metadata; PhoneNumber's Display is the E.164 form and FromStr is parse without a reference country.", "quantifier": "every sequence of settings", "why_tests_cant": "All sequences of builder calls.", "anchors": ["src/formatter.rs: Formatter::database, mode, with, format, format_with", "src/phone_number.rs: Display, FromStr"]}
{"id": "C26", "title": "A parsed extension is a digit string", "statement": "If parsing succeeds with an extension, the extension consists of ASCII digits only; if the text is not in RFC 3966 form it has at most 7 digits.", "quantifier": "every successful parse", "why_tests_cant": "All inputs.", "anchors": ["src/parser/natural.rs: phone_number", "src/parser/helper.rs: normalize", "src/consts.rs: EXTN_PATTERN"]}
{"id": "C27", "title": "A reported carrier is a carrier selection code", "statement": "A user expects carrier() to be the carrier-selection code dialled (the captured group of the national prefix rule). It is a substring of the dialled digits, but when the rule has no group the whole national prefix is reported, and for rules that complete local numbers the local number itself is reported.", "quantifier": "every successful parse", "why_tests_cant": "All inputs.", "anchors": ["src/parser/helper.rs: national_number"]}
{"id": "C28", "title": "Over-long and too-short numbers are rejected", "statement": "A text with no digit and no plus is NoNumber. '+' followed by digits naming no calling code is InvalidCountryCode. A national part of more than 17 digits, or of 17 digits with value at least 2^56, is never accepted.", "quantifier": "every string", "why_tests_cant": "All inputs.", "anchors": ["src/parser/mod.rs: parse_with", "src/parser/helper.rs: country_code"]}
{"id": "C29", "title": "The metadata loader reads back every entry it is given", "statement": "For every list of metadata entries, rendering them as the documented XML structure and loading gives the same entries back, whatever comments and white space are interleaved; unknown attributes and elements are rejected, never silently dropped.", "quantifier": "every list of metadata entries", "why_tests_cant": "All documents.", "anchors": ["src/metadata/loader.rs: load, metadata, territories, territory, descriptor, formats, format, ignore, text"]}
{"id": "C30", "title": "The embedded database equals the one built at compile time", "statement": "Decoding the postcard encoding of a list of metadata entries yields exactly those entries: what the library loads at run time is what build.rs read from the XML.", "quantifier": "every list of metadata entries", "why_tests_cant": "Codec round-trip over unbounded data.", "anchors": ["build.rs: main", "src/metadata/database.rs: DEFAULT", "src/metadata/loader.rs: Metadata, Format, Descriptor"]}
{"id": "C31", "title": "No template placeholder leaks into formatted output", "statement": "With the built-in metadata no rendering in any mode contains a '$'.", "quantifier": "every number with a known calling code whose extension and carrier contain no '$', every mode", "why_tests_cant": "All numbers times all format rules.", "anchors": ["src/formatter.rs: replace", "assets/PhoneNumberMetadata.xml"]}
{"id": "C32", "title": "Possible-length lists are read as written", "statement": "A possibleLengths attribute made of numbers and [a-b] ranges separated by commas, with any Unicode white space around each, is read as the concatenation of the numbers and the inclusive ranges.", "quantifier": "every list of numbers and ranges", "why_tests_cant": "Unbounded lists.", "anchors": ["src/metadata/loader.rs: descriptor::lengths"]}
{"id": "C33", "title": "Loading malformed metadata reports an error instead of panicking", "statement": "A user expects Database::parse to return Err for any bad document. It panics on an empty possibleLengths item and on a descriptor without nationalNumberPattern.", "quantifier": "every XML event stream", "why_tests_cant": "All documents.", "anchors": ["src/metadata/loader.rs: descriptor::lengths", "src/metadata/database.rs: from"]}
{"id": "C34", "title": "Leading text before the number is ignored", "statement": "For text in natural form (containing a space), characters before the first digit or plus sign do not change the result.", "quantifier": "every prefix text without digits or plus signs and every remaining text", "why_tests_cant": "All pairs of strings.", "anchors": ["src/parser/helper.rs: extract", "src/parser/natural.rs: phone_number"]}
{"id": "C35", "title": "Validation outcomes are classified consistently", "statement": "Each Validation outcome is exactly one of possible or invalid, and an invalid length is always invalid.", "quantifier": "every outcome", "why_tests_cant": "Exhaustive over the enum, must hold for future callers.", "anchors": ["src/validator.rs: Validation::is_possible, is_invalid, is_invalid_length"]}
{"id": "C36", "title": "Trailing punctuation is ignored", "statement": "For text containing a space and a digit or plus sign, appending characters that are not letters, numerals or '#' does not change the result of parsing.", "quantifier": "every such text, every trailing text, every country, every database", "why_tests_cant": "The trailing text and the number are arbitrary Unicode strings.", "anchors": ["src/parser/helper.rs: extract", "src/consts.rs: UNWANTED_END_CHAR", "src/parser/natural.rs: phone_number"]}
{"id": "C37", "title": "An extension written after the number is read as the extension", "statement": "When a number written with digits and separators (with or without a leading plus sign, at least three digits) is followed by a word or sign that introduces an extension (ext, extn, x, int, anexo, extension, #, ~, comma, semicolon, ... in any letter case, with blanks around it and perhaps a colon or full stop after it) and one to seven digits, parse succeeds exactly when it succeeds for the number alone, with the same calling code, source, national number, carrier and error, and the extension is exactly those digits, leading zeros included. The text must contain a space, or the introducing text must be free of ';', '-' and '.'.", "quantifier": "all databases, reference countries, numbers (digits and separators of any length), ways to write the marker and extension digits", "why_tests_cant": "infinitely many combinations of number text, marker spelling and extension; the extension pattern is searched leftmost in the whole text and competes with the RFC 3966 reader", "anchors": ["src/parser/natural.rs: phone_number", "src/consts.rs: EXTN_PATTERN, EXTN_PATTERNS_FOR_PARSING", "src/parser/helper.rs: extract", "src/parser/rfc3966.rs: phone_number", "src/parser/mod.rs: parse_with"]}
{"id": "C38", "title": "The international rendering parses like the E.164 rendering, with its extension", "statement": "With the built-in metadata, parsing the International rendering of any number whose calling code is known gives the same result as parsing its E.164 rendering, success or error, plus the number's extension (one to seven digits); so a valid number is given back with its extension wherever the E.164 round trip holds.", "quantifier": "all reference countries and all phone numbers with a known calling code and no extension or one of one to seven digits", "why_tests_cant": "every format template and extension prefix of 254 metadata entries combined with every number and extension", "anchors": ["src/formatter.rs: Formatter::fmt", "src/parser/mod.rs: parse_with", "src/parser/natural.rs: phone_number", "assets/PhoneNumberMetadata.xml: preferredExtnPrefix, format"]}
{"id": "C39", "title": "National digits are read in the reference country, with or without the trunk prefix", "statement": "With a reference country, the digits of a number of that country, written alone or behind the country's trunk prefix, parse to that country's calling code and exactly those national digits (source: the reference country). For every database this holds when the text does not start with a dialling prefix or the calling code and the trunk prefix is not needed twice; with the built-in metadata it holds of every number of a known type outside short lists of regions, and for the main exceptions a counterexample is proved. Where taking the trunk prefix off would leave too few digits for the general description it is kept.", "quantifier": "all databases, all reference countries, all national digit strings (every number of every type of 245 regions of the built-in metadata)", "why_tests_cant": "the national-prefix rules are regular expressions per region; whether one of them eats digits of a valid number has to be decided for every digit string, not for sample numbers", "anchors": ["src/parser/mod.rs: parse_with", "src/parser/helper.rs: country_code, national_number", "src/parser/valid.rs", "assets/PhoneNumberMetadata.xml: nationalPrefix, nationalPrefixForParsing, nationalPrefixTransformRule"]}
{"id": "C40", "title": "A dialling prefix or the bare calling code means the same as '+'", "statement": "Digits behind the international dialling prefix of the reference country ('00' without one) parse exactly as the same digits behind '+', success or error, except that the source says so. With a reference country, digits that start with its calling code parse exactly as behind '+' (source: number) unless they are already a possible number as they stand, in which case they are kept; the built-in metadata never has the latter case.", "quantifier": "all databases, reference countries and digit strings of at least three digits", "why_tests_cant": "holds for every digit string and every metadata entry, including all failures; tests sample a few prefixes", "anchors": ["src/parser/helper.rs: international_prefix, country_code", "src/consts.rs: DEFAULT_IDD", "src/parser/mod.rs: parse_with", "src/validator.rs: length"]}
{"id": "C41", "title": "Formatted text is what the chosen format's template says", "statement": "In international, national and RFC 3966 mode the text is framed by the calling code and extension of that mode around a body. The body is made with the caller's format if one is set, else with the first usable format of the calling code's entry (no leading-digit patterns, or the last of them matching at the start and the pattern matching the whole number); international and RFC modes use the entry's international formats if it has any. The digits are cut into the pieces matched by the pattern's groups and put into the template; in national mode the first reference is replaced by the carrier rule if the number has a carrier and the format such a rule, else by the national-prefix rule, with the prefix, carrier and first piece filled in. In RFC 3966 mode each run of separators becomes one hyphen. Without a usable format the digits stand as they are. Every format of the built-in metadata is of the form the statement needs. E.164 text ignores formats.", "quantifier": "all databases, numbers, caller's formats whose groups lie side by side, and modes; all formats of the built-in metadata", "why_tests_cant": "the rule text is itself expanded as a replacement template ($NP, $CC, $FG, $1) in several passes; that no pass captures what an earlier one produced has to hold for every template and rule, not for a few countries", "anchors": ["src/formatter.rs: Formatter::fmt, formatter, replace", "src/consts.rs: FIRST_GROUP, SEPARATOR_PATTERN", "src/metadata/format.rs: Format"]}
{"id": "C42", "title": "RFC 3966 texts: which parts matter and how they are read", "statement": "Of a text [tel:][+code]local;name=value;... only the code, the local part, the last ext and, without a code, the last phone-context (with or without '+') matter: texts that agree in these parse alike, success or error, whatever the scheme's case, other parameters, order, earlier values and what follows the parameters. A code or context of digits is the calling code reported, with source '+'; the last ext of digits is the extension. A local number with a context of digits parses exactly as the global number with that code. A context without digits is always refused. Refuted: that parameters after a flag or an escaped value still count, that names ignore case, that domain names with digits are refused, that the code may run on into the area code.", "quantifier": "all databases, reference countries and RFC 3966 texts of any length with any list of parameters", "why_tests_cant": "parameters form an unbounded list with repetitions in any order, and the reader falls back to free text when the form does not fit; tests try a handful of texts", "anchors": ["src/parser/rfc3966.rs: phone_number, prefix, parameters, parameter, check", "src/parser/helper.rs: international_prefix, country_code"]}
{"id": "C43", "title": "A serialised number reads back as the same number", "statement": "Serialising a PhoneNumber and deserialising the result yields the same number in every field, including the code source that equality ignores, both in a self-describing format and in postcard bytes (whatever follows them); the keys may come in any order, unknown keys are ignored, a missing extension or carrier is none, a missing code or national number and a repeated key are refused with the error that says so, and so are truncated bytes. Type, Source and country Id read back from their names. What deserialising does not guarantee is that the calling code exists: such a number panics when shown.", "quantifier": "every parsed number, every number that fits its machine integers, every value tree", "why_tests_cant": "Ranges over all numbers, all trees with any key order and all cut points.", "anchors": ["src/phone_number.rs: PhoneNumber, Type", "src/country.rs: Code, Source, Id", "src/national_number.rs: NationalNumber", "src/extension.rs: Extension", "src/carrier.rs: Carrier"]}
{"id": "C44", "title": "The national text of a number, read in its own country, gives the number back", "statement": "Formatting a number of a country in national mode and parsing that text with the country as reference gives the number back: the same calling code and national number, source default, no extension. It holds of every number of a known type of every region of the built-in metadata outside fifteen regions, unless the digits of the text begin with the calling code itself; a list of regions is given where even that proviso is not needed, and for every region on the lists a number is exhibited whose national text is refused or read as another number.", "quantifier": "all regions of the built-in metadata, all numbers of a known type (all digit strings), both formatted and unformatted", "why_tests_cant": "Combines the format chosen among the region's formats, its template, the trunk prefix and carrier rules of the parser and the dialling prefix, all regular expressions, over all national numbers.", "anchors": ["src/formatter.rs: format_with, national", "src/parser/mod.rs: parse_with", "src/parser/helper.rs: country_code, national_number", "assets/PhoneNumberMetadata.xml: availableFormats, nationalPrefixFormattingRule"]}
{"id": "C45", "title": "Digits in, digits out: every outcome of a plain number is explained", "statement": "For a text of a plus sign and digits, or of digits alone, the result of parse is determined by the metadata and every error has one cause: too few digits to be a number, no known calling code, fewer than two national digits, more than seventeen, only zeros, or seventeen digits worth 2^56 or more. When a number is returned, its digits are those written behind the calling code (the shortest known one), less the dialling prefix and what the national-prefix rule of the responsible region takes off, completed as its transform rule says. Without a transform rule nothing is invented: the national digits end the text. Behind all calling codes but 22 only zeros are ever taken off, so any four to seventeen digits whose value is between 1 and 2^56-1 are read with that value.", "quantifier": "all reference countries (or none), all digit strings of any length, all calling codes; the general part for every regular database", "why_tests_cant": "The digit strings and the combinations of metadata rules are unbounded; the repository's own property test on Belgian numbers (+32 and 8 or 9 digits always parse) samples at random and misses the one string of its kind that is refused (all zeros).", "anchors": ["src/parser/mod.rs: parse_with", "src/parser/helper.rs: country_code, national_number", "src/validator.rs: source_for", "src/national_number.rs: NationalNumber", "tests/prop.rs: parse_belgian_phonenumbers"]}
{"id": "C46", "title": "What is read in a text, and that nothing else matters", "statement": "Every text has exactly one reading: an RFC 3966 text gives its code (or phone-context), its local part and its last ext parameter; any other text gives the stretch from the first character a number may begin with to the last letter, digit or '#', cut at the first announcement of a second number, split at the leftmost tail that has the form of an extension; or it has none (nothing to begin with, or a tail of a form whose extension is not captured). The result of parse depends on nothing but this reading: without one, or when the number part is not viable, the error is NoNumber; otherwise the result is that of the plain text of a plus sign (if the part begins with one) and the digits that the part's digits and letters stand for, with the digits of the extension added; a code that stands apart counts as if written after a plus sign before those digits, whatever the reference country, and is refused with MalformedInteger if it has no digits or is above 65535 and with InvalidCountryCode if unknown.", "quantifier": "all texts (any characters, any length), all databases and reference countries; the part on codes that stand apart for the built-in metadata", "why_tests_cant": "Texts are unbounded and mix scripts, markers and parameters; the rule involves leftmost-first matching of patterns with thousands of alternatives up to case.", "anchors": ["src/parser/mod.rs: parse_with", "src/parser/natural.rs: phone_number", "src/parser/rfc3966.rs: phone_number", "src/parser/helper.rs: extract, normalize, country_code", "src/consts.rs: EXTN_PATTERN, SECOND_NUMBER_START, UNWANTED_END_CHARS, VALID_START_CHAR"]}
{"id": "C47", "title": "Threads cannot disturb one another", "statement": "However many threads use the library, whatever calls they make (parse, parse_with, formatting, is_valid, number_type, country().id(), dereferencing the metadata) and in whatever order their steps fall, every call returns what it returns in a single-threaded program. No lazily initialised static is initialised twice (the built-in metadata is decoded at most once), none is ever left unusable, and one that is filled keeps its value. There is no deadlock: while a thread is inside a call the library can make a step, and when no new calls are made at most 25 steps per call under way are left, so every call returns.", "quantifier": "all programs using the library from any number of threads, created at any time, making any calls with any arguments; all interleavings of any length", "why_tests_cant": "A test runs a handful of schedules (the repository's test: 16 threads, five inputs); a race or a lock cycle between initialisers shows under particular schedules only.", "anchors": ["src/consts.rs: all Lazy statics", "src/metadata/database.rs: DEFAULT", "src/parser/mod.rs: parse, parse_with", "src/formatter.rs: Display for Formatter", "tests/concurrency.rs: parses_concurrently_from_many_threads"]}
{"id": "C48", "title": "A number is claimed by one country", "statement": "Where countries share a calling code, no two of them claim the same digits, except for twelve pairs (US/CA, AU/CC, AU/CX, CC/CX, GP/BL, GP/MF, BL/MF, MA/EH, GB/GG, GB/JE, GG/JE, RE/YT). So country().id() of a number names the only country that claims it, or the preferred one of such a pair; each of the twelve pairs really has numbers that both claim.", "quantifier": "all calling codes and pairs of entries of the built-in metadata, all digit strings of any length, all numbers", "why_tests_cant": "320 pairs of entries times all digit strings; a test shows that one number gets the expected country, never that no other entry would have accepted it.", "anchors": ["src/validator.rs: source_for, number_type", "src/phone_number.rs: Country::id", "assets/PhoneNumberMetadata.xml: leadingDigits, nationalNumberPattern"]}
{"id": "C49", "title": "The order of the territories does not matter", "statement": "If the territories of the built-in metadata are listed in any other order, the document still loads, every text is parsed to the same result, every number is written in the same way by every formatter and has the same validity and type. country().id() is the same too, except for the numbers +590 590 xx dddd with xx one of 27, 29, 51, 52, 87: these belong to Saint-Barthelemy as the document stands, to Saint-Martin when it is turned round, and to no third country in any order.", "quantifier": "all permutations of the territories, all texts and regions, all numbers, all formatter settings", "why_tests_cant": "There are more than 10^500 orders, and for each one all texts and numbers.", "anchors": ["src/metadata/database.rs: Database::from, by_code, region", "src/validator.rs: source_for", "src/parser/mod.rs: parse_with", "src/formatter.rs: Display for Formatter"]}
{"id": "C50", "title": "White space and comments in the patterns of a metadata document change nothing", "statement": "Putting white space or comments between the parts of the patterns of a metadata document changes neither whether and with what error it loads, nor what any text is parsed as, how any number is formatted, its validity, its country, or the regions of a calling code. The number type is the same as well, provided the change does not make a difference to whether the fixed-line and mobile pattern of an entry are the same text, or the two come with the same possible lengths (always so for the built-in metadata); otherwise it can change, but only between fixed line and fixed line or mobile.", "quantifier": "all metadata documents, all ways of inserting white space and comments between the parts of their patterns, all texts, all numbers, all formatting modes", "why_tests_cant": "A test can reformat a few patterns; the property quantifies over all documents and all ways to lay out their patterns, and the exception for types only shows for two patterns that agree up to white space and have different lengths.", "anchors": ["src/metadata/database.rs: Database::from (RegexBuilder::ignore_whitespace)", "src/validator.rs: number_type", "assets/PhoneNumberMetadata.xml"]}
{"id": "C51", "title": "A pattern of a metadata document means what it says", "statement": "Describe the pattern notation of metadata documents independently of any reader: characters (plain, escaped, hexadecimal, tab), \\d, \\p{..} and their complements, square brackets with ranges, nesting, negation and &&, '.', '^', '$', groups, '|' and all counted or open repetitions, greedy or lazy; say how each is written and which texts it describes. Then every pattern so written, with white space and comments between its parts or without, is accepted, keeps its text, has exactly the groups shown, and searching a text finds the leftmost part it describes or nothing if there is none. In every document that loads, the metadata found under an id come from an entry with that id, have exactly the descriptions that entry lists, and each description applies to a number exactly when the number has one of the listed lengths (any, if none is listed) and begins with a text its pattern describes. Every pattern of the built-in metadata is written in this notation, hence every built-in description applies to exactly what its published text says.", "quantifier": "all patterns of the notation (unbounded nesting, lengths, counts), all layouts, all texts, all documents that load, all ids and number types; all built-in patterns", "why_tests_cant": "patterns, texts and nestings are unbounded; a test checks a few patterns on a few numbers and would not notice a class, a boundary of a range or a counter misread elsewhere", "anchors": ["src/metadata/database.rs: Database::from (regex, descriptor)", "src/metadata/descriptor.rs: Descriptor::is_match, national_number", "src/metadata/metadata.rs: Descriptors::get", "assets/PhoneNumberMetadata.xml"]}
{"id": "C52", "title": "A metadata document may be spelled in any way XML allows", "statement": "Database::parse reads a text as the document it spells, whatever white space stands inside the tags, whichever quotes surround attribute values, whatever comments, text between elements and document type declaration (its keyword in any letter case) are put in, with or without a byte order mark, and whatever follows the end tag of the document: all spellings give the same database or the same error. Character references are not resolved: in an attribute they are kept as written, in the text of an element they make loading fail; so does an XML declaration or any processing instruction at the start.", "quantifier": "all well-formed metadata documents, all spellings of them (unbounded lengths, attributes, nesting), all texts after the end tag; all declarations", "why_tests_cant": "a document has infinitely many spellings; tests load one or two files", "anchors": ["src/metadata/database.rs: Database::parse, Database::load", "src/metadata/loader.rs: load, metadata, territory, text, ignore", "Cargo.toml: quick-xml"]}
{"id": "C53", "title": "The built-in database is what the shipped document says", "statement": "The bytes of assets/PhoneNumberMetadata.xml are UTF-8 text; build.rs loads it without error, the run-time library decodes the entries it stored and builds the same database that Database::parse gives for the text, and every text is parsed, every number formatted, validated, typed and located by that database exactly as by the built-in database the other claims are about.", "quantifier": "all texts and regions, all numbers, all formatting modes, on the whole shipped document", "why_tests_cant": "a test compares a few numbers; equality of the two databases on all texts and numbers needs a proof", "anchors": ["build.rs: main", "src/metadata/database.rs: DEFAULT, Database::parse, Database::from", "src/metadata/loader.rs: load", "assets/PhoneNumberMetadata.xml"]}
{"id": "C54", "title": "Which texts identify a number", "statement": "Two numbers of calling codes in the built-in metadata have the same to_string() text if and only if they have the same calling code and the same national number including leading zeros. They have the same international text, and the same RFC 3966 text, if and only if the extensions are the same as well; so of numbers with equal carriers exactly the equal ones have equal texts. An E.164 text, an international text and an RFC 3966 text never coincide, whatever the numbers. National texts do not identify a number, not even within a calling code: +358 20299 and +358 020299 are both written \"020299\".", "quantifier": "all pairs of numbers with known calling codes: any national value and zeros, any extension text, any carrier", "why_tests_cant": "collisions are a property of pairs of numbers under every format of every region; a test can only try some pairs", "anchors": ["src/formatter.rs: Formatter::fmt, Mode", "src/phone_number.rs: PhoneNumber, impl Display", "src/national_number.rs: NationalNumber"]}
{"id": "C55", "title": "How long the texts of numbers are", "statement": "For every number parsed with the built-in metadata, to_string() has 4 to 21 characters; the international text has 5 to 24, the RFC 3966 text 9 to 28, plus the extension and its word (at most 7 characters, or ';ext='); the national text has at most 21, plus carrier and extension. All bounds are reached. to_string() of every valid number has at most 16 characters, i.e. the 15 digits ITU-T E.164 allows, except for the calling codes 49, 62, 81, 82, 234 and 598, where it has up to 20; each of the six has a valid number with more than 15 digits.", "quantifier": "all texts and regions that parse, all formatting modes; all valid numbers however made", "why_tests_cant": "buffers and database columns are sized by such bounds; a test sees the lengths of its examples only, while the bound must hold for every number under every format of every region", "anchors": ["src/formatter.rs: Formatter::fmt", "src/phone_number.rs: is_valid, impl Display", "src/parser.rs: parse", "assets/PhoneNumberMetadata.xml"]}
{"id": "C56", "title": "A metadata document that is cut off is refused, never half loaded and never a panic", "statement": "If Database::parse (or Database::load) accepts a text, that text begins with a document which alone decides the result: whatever follows it changes nothing, and every proper beginning of it gives an error - not a smaller database and not a panic. If the text is cut in the middle of a tag, a comment or the document type declaration the error is the one for malformed XML.", "quantifier": "every text that is accepted and every position at which it can be cut; every spelling of every well-formed document", "why_tests_cant": "A truncated download can stop at any byte of any document; tests try a few positions in one document.", "anchors": ["src/metadata/loader.rs: load, metadata, territories, territory, formats, format, descriptor, text, ignore", "src/metadata/database.rs: Database::parse, Database::load"]}
{"id": "C57", "title": "parse is exactly a short specification", "statement": "For every text and every reference country, parse returns r if and only if r follows from a specification of about twenty rules that does not mention the parser: the text has one reading (number, code apart, extension); if none, or if the number is not viable, the result is NoNumber; a dialling prefix is taken off unless a zero follows; the digits behind a sign or dialling prefix must begin with a known calling code (InvalidCountryCode, or TooShortNsn below three digits); without either, the reference country's code is assumed, or taken off if the digits are not a possible number as they stand; the region responsible for the digits then says which national prefix and carrier code are taken off or which rule rewrites them, unless too little is left; and the digits that remain are a number if there are 2 to 17 of them, not all zero, of value below 2^56. The specification leaves no choice. In particular the result is NoNumber exactly when the text has no viable reading, whatever the database and the country of reference.", "quantifier": "all texts, all reference countries, all results (numbers with code, source, leading zeros, extension and carrier; errors) for the built-in metadata; every custom database that meets seven stated conditions; NoNumber for every database", "why_tests_cant": "the claim is an equivalence between two descriptions of parse over all texts; tests sample texts and most rules interact only for particular regions", "anchors": ["src/parser/mod.rs: parse_with", "src/parser/helper.rs: country_code, international_prefix, national_number", "src/national_number.rs: NationalNumber::from_str", "src/validator.rs: length, source_for, is_viable"]}
{"id": "C58", "title": "Reading and rewriting in E.164 form settles", "statement": "If a text is read with parse and replaced by the E.164 text of the number, again and again, the text changes at most 23 times, even if every reading uses a different reference country; with one reference country it therefore ends at a text that is not read as a number or at a text that stays the same. Reading the E.164 text of a number and writing it again either makes it shorter or gives a text that stays the same when read without a reference country. A text that stays the same stands for exactly one number.", "quantifier": "all texts, all sequences of reference countries of any length, the built-in metadata", "why_tests_cant": "The claim is about unbounded iteration over unbounded texts with arbitrary sequences of reference countries; a cycle between two countries' prefix and transform rules would be a needle in a haystack for tests.", "anchors": ["src/parser/mod.rs: parse", "src/parser/helper.rs: country_code, international_prefix, national_number", "src/phone_number.rs: Display for PhoneNumber", "src/formatter.rs: Mode::E164"]}
{"id": "C59", "title": "Exactly when a call fails or panics", "statement": "For a number of any origin (parsed with another database, deserialised, built by hand) and any database: formatting returns an error if and only if the database does not list the calling code; it panics if and only if the mode is National, the format that is used has a rule that applies to the number and its template has no '$' followed by a digit. With the built-in database and its own formats it never panics, and to_string panics exactly for calling codes the built-in database does not list. is_valid_with, number_type and the country panic if and only if several territories share the calling code and the first that claims the digits is not named by a country id; with the built-in database they never panic. parse_with, for a database whose shared codes are named by country ids and whose transform rules are usable, panics if and only if the text reads as an unsigned number without calling code and the reference country has no entry.", "quantifier": "all phone number values, all modes, all formats given by the caller, all databases built from metadata entries; all texts and reference countries for parsing", "why_tests_cant": "the claim is an equivalence: tests can show one panic, but not that there is no other value, format, database or text that panics", "anchors": ["src/formatter.rs: Display for Formatter, replace", "src/phone_number.rs: Display for PhoneNumber, metadata, number_type, Country::id", "src/validator.rs: is_valid_with, source_for", "src/parser/mod.rs: parse_with", "src/parser/helper.rs: country_code"]}
{"id": "C60", "title": "Which metadata a call depends on", "statement": "Take two databases built from lists of entries that agree, entry by entry, on id, calling code and main-country flag. If they also agree on leading digits and on the patterns and possible lengths of the general description and the ten number types, every number has the same validity, type and country in both. If they further agree on the local lengths of the general description, the international prefix, the national prefix, the prefix pattern for parsing and the transform rule, every text parses to the same result, with every reference country. The E.164 text depends on nothing more than the listed codes; the RFC 3966 text on the patterns, templates and leading digits of the formats; the international text also on the preferred extension prefix; the national text also on the national prefix and the formatting rules. So metadata for formatting never influences parsing or validation; preferred international prefix, portability, example numbers, optional-prefix flags and the descriptions of emergency, short-code, standard-rate, carrier-specific and no-international numbers influence no call at all.", "quantifier": "all pairs of databases built from entries that agree as stated; all texts, reference countries, phone number values, modes and formats", "why_tests_cant": "independence from a field is a statement about all pairs of databases and all inputs; a test can only show that one change had no effect on one input", "anchors": ["src/parser/mod.rs: parse_with", "src/parser/helper.rs: country_code, national_number", "src/validator.rs: source_for, number_type, length, is_valid_with", "src/phone_number.rs: number_type, metadata", "src/formatter.rs: Display for Formatter, replace", "src/metadata/database.rs: Database::from"]}
{"id": "C61", "title": "What the documentation of the metadata promises", "statement": "Formats: for every document whose numberFormats have one format and after it at most one intlFormat, the national templates are the formats as written and in order, and the templates for use abroad are the intlFormats, or the format where there is none, leaving out those whose intlFormat is NA; once one remains, the international and RFC 3966 texts use only those. The promise fails, as shown, when every format is NA (the national templates are used abroad) and when the intlFormat is written before the format (it is overwritten). Built-in metadata: a calling code of one territory has no main country and no leading digits, a shared code has exactly one main country and lists it first, no digits are claimed by the leading digits of two territories of a code, and every national-prefix rule contains $FG. nationalPrefixForParsing: for all metadata in which national prefixes without it are digits and have no transform rule - the built-in metadata are such -, every text parses with every reference country as if the national prefix had been inherited, with the same code, number, extension or error, except that the carrier code would be the national prefix; the accessor does not inherit (refuted for Belgium).", "quantifier": "all documents of the described form, all databases built from them, all modes and numbers; all calling codes, territories, and digit texts of the built-in metadata; all lists of entries with plain national prefixes, all texts and reference countries", "why_tests_cant": "the promises concern every metadata file and every number; that no digit text is claimed twice is a statement about infinitely many texts, and equivalence of two databases for parsing about all texts", "anchors": ["src/metadata/metadata.rs: national_prefix_for_parsing, main_country_for_code, leading_digits, international_formats (documentation)", "src/metadata/loader.rs: territory, formats, format", "src/metadata/database.rs: Database::from", "src/parser/helper.rs: national_number", "src/parser/mod.rs: parse_with", "src/formatter.rs: Display for Formatter", "assets/PhoneNumberMetadata.xml"]}
{"id": "C62", "title": "The metadata of other calling codes do not matter", "statement": "Take two databases built from lists of entries that have the same entries of a calling code c, in the same order, and in which no entry of another code shares its id with one of these (except the id 001 of codes without a country). Every number of code c has the same text in every mode and with every format, the same validity, type and country in both. If a text parses to a number of code c in one of them, it parses to the same number in the other, provided the entries of the reference country are the same and the other database lists no code that is a proper beginning of c. So for the built-in metadata: whatever territories are left out of the file, results for the codes that are kept in full, with reference countries that are kept, stay the same; and no text parses to such a number only because of the omission.", "quantifier": "all pairs of databases built from entries that agree on one calling code; all texts, reference countries, number values, modes and formats; all subsets of the built-in territories", "why_tests_cant": "a test compares two particular metadata files on particular inputs; the claim ranges over all metadata of all other codes", "anchors": ["src/metadata/database.rs: Database::from, by_id, by_code, region", "src/validator.rs: source_for, is_valid_with", "src/parser/helper.rs: country_code", "src/parser/mod.rs: parse_with", "src/formatter.rs: Display for Formatter", "src/phone_number.rs: metadata, number_type_with, Country::id"]}
{"id": "C63", "title": "Country ids, their texts and the built-in entries name each other", "statement": "A text parses as a country id if and only if it is the text (as_ref) of that id, exactly: two capital letters, different for different ids; no other spelling is accepted. In the built-in metadata every country id has an entry, with that id, listed under its calling code; conversely by_id finds something only for the texts of country ids and for 001, and the regions of a calling code are all texts of country ids, or the single 001.", "quantifier": "all texts, all country ids, all calling codes of the built-in metadata", "why_tests_cant": "that nothing else is accepted is a statement about all texts; the enum and the metadata file are maintained separately, and one missing id makes a reference country panic", "anchors": ["src/country.rs: Id, AsRef, FromStr", "src/metadata/database.rs: by_id, region", "assets/PhoneNumberMetadata.xml"]}
{"id": "C64", "title": "A metadata file is read as the text it encodes, and bytes that are not text never get into a database", "statement": "Database::load on a file that holds the UTF-8 encoding of a text gives the same result as Database::parse on the text: the same database, the same error or the same panic. Whatever Database::load reads from any file at all is real text (Unicode scalar values): bytes that are not UTF-8 are either skipped with the comment or text they stand in, or the file is refused. If a file is accepted, it begins with a document which alone decides the result, and the file cut anywhere inside that document, even in the middle of a character, is refused with an error, not a panic.", "quantifier": "all byte sequences, all texts, all positions at which a file can be cut", "why_tests_cant": "files of arbitrary bytes cannot be enumerated, and the loader decodes names, attributes and texts one by one at many places, each of which could let broken text through or panic", "anchors": ["src/metadata/database.rs: Database::load, Database::parse", "src/metadata/loader.rs: load, territory, descriptor, format, text"]}
{"id": "C65", "title": "Numbers are shown in groups: which countries have numbers that no format fits", "statement": "A number whose national digits, leading zeros included, are matched as a whole by the general pattern and by the pattern of one of the kinds of number of a country, with a length listed for that kind, is shown in national, international and RFC 3966 text by the first format of its calling code that can be used: the digits are cut into one piece for each group of the format, nothing is left over, and the pieces stand where the template puts them. The exceptions are a list of countries (25 in national text, 36 in the other two modes), and the list is exact: each of them has such a number that none of the formats can be used for, and it is shown as a mere row of digits.", "quantifier": "all calling codes and countries of the built-in metadata, all numbers of any of their kinds and lengths, the three modes that group digits", "why_tests_cant": "the numbers of a country are too many to format one by one, and whether some format fits every one of them is a question about the union of dozens of patterns against the patterns of the kinds of number", "anchors": ["src/formatter.rs: Display for Formatter", "src/formatter.rs: formatter, replace", "assets/PhoneNumberMetadata.xml: availableFormats"]}
{"id": "C66", "title": "What the documentation of the parsing errors says, and where it is wrong", "statement": "Every error parsing gives comes from a cause that can be named without the program. An invalid country code is reported exactly if the digits have neither a sign nor a dialling prefix and there is no reference country, or at least three digits behind one of these begin with no supported calling code, or a calling code written apart is not a supported one. Too short means fewer than three digits behind the sign or prefix or beside a code written apart, or fewer than two left of the national digits; too long means that the national digits left are of no number the metadata describe. A malformed integer is a code written apart that is empty or above 65535, or national digits that are all zero. The error for too few digits after a dialling prefix is never reported, whatever the metadata. Every number the built-in metadata describe has 4 to 17 digits and a value below 2^56, so that the number type holds it digit for digit, unless it is zero; numbers that are zero are described for exactly four calling codes, and parsing refuses them. The documentation of the error for no number (less than 3 digits) is true in neither direction.", "quantifier": "all texts and reference countries; for the error never reported also all databases; all calling codes, countries and kinds of number of the built-in metadata", "why_tests_cant": "which inputs can lead to an error, and that one error cannot occur, is a statement about all inputs; whether all described numbers fit the limits is one about the languages of hundreds of patterns", "anchors": ["src/error.rs: Parse", "src/parser/mod.rs: parse_with", "src/parser/helper.rs: country_code, normalize", "src/national_number.rs: NationalNumber::new, FromStr", "src/consts.rs: MIN_LENGTH_FOR_NSN, MAX_LENGTH_FOR_NSN"]}
{"id": "C67", "title": "Every number the metadata describe is recognised: valid, of the kind described, with a country", "statement": "Take national digits of a listed length that the general pattern and the pattern of one kind of number of a country match as a whole. With the built-in metadata a number with the country's calling code and these digits is always valid. If they are not all zero and the calling code is not one of the twelve of C08, the E.164 text parses to exactly that number. If they do not begin with a zero, the type reported is that kind (or 'fixed line or mobile' for these two), whichever of the countries that share the calling code is found, except for Brazilian mobiles, Chinese fixed lines and freephone numbers of New Zealand, each of which has numbers for which another type is reported; and, for a country, the country reported is one of the calling code in whose metadata the number is valid. With a leading zero type and country may be missing (Italian fixed lines).", "quantifier": "all calling codes, countries and kinds of number of the built-in metadata and all numbers they describe", "why_tests_cant": "the numbers of a kind are billions; whether an earlier kind, or another country with the same calling code, catches one of them is a question about the intersection of patterns that only match at the start", "anchors": ["src/validator.rs: is_valid_with, source_for, number_type", "src/phone_number.rs: PhoneNumber::is_valid, number_type, Country::id", "src/metadata/descriptor.rs: Descriptor::is_match", "assets/PhoneNumberMetadata.xml: nationalNumberPattern, possibleLengths"]}
{"id": "C68", "title": "Numbers that begin with a zero: type and country are looked up without it", "statement": "number_type() and country() ignore the leading zeros of a national number, while is_valid() does not. Numbers described by the built-in metadata begin with a zero for exactly 38 kinds of number in 31 calling codes, among them every fixed line of Italy, San Marino and Benin and every mobile of the Ivory Coast and Benin. Each such number is valid, but its type is Unknown, except for eight kinds: for three of them (mobiles of Gabon, freephone numbers of Korea and Qatar) it is Unknown or right, and for five (freephone numbers of India, Japan and Uruguay, company numbers of Ascension, Italian fixed lines) some numbers are reported as numbers of another kind, e.g. the Italian fixed line 0144001393 as premium rate. Where countries share the calling code such a number has no country, except for some Italian fixed lines and some company numbers of Norway and Svalbard.", "quantifier": "every entry of the built-in metadata, every kind of number in it, every digit string the entry describes that begins with a zero, and every number with these digits; the independence of zeros is for every database and every pair of numbers", "why_tests_cant": "The described numbers of a kind are up to 10^13 and the lists have to be complete: a test can show that one number loses its type, not that all of them do, nor that no other country is affected.", "anchors": ["src/phone_number.rs: number_type, country, is_valid, Country::id", "src/validator.rs: number_type, source_for", "src/national_number.rs: NationalNumber"]}
{"id": "C69", "title": "National digits that begin with the country's own calling code are read without them", "statement": "Take digits that the built-in metadata describe as a number of a country (listed length, general pattern and the pattern of one kind match all of them) and that begin with the country's own calling code, such as the Indian mobile 9123456789. Parsing them with that country as reference gives what '+' and the digits give, with the source reported as Number: the first digits are taken for the calling code, so the number read is never the number described. Such numbers exist for exactly 105 kinds of number in 98 countries. Conversely a described, non-zero number that does not begin with the calling code is read as itself, so for every country outside the fifteen of C39 and the two whose prefixes are rewritten, the national digits are read correctly if and only if they do not begin with the country's own calling code.", "quantifier": "all countries of the built-in metadata, all kinds of number and all digit strings they describe", "why_tests_cant": "the check that would keep the digits compares their length with a list that is empty for every country, so it never succeeds; a test shows this for one number, while the claim is about every number of every country and about completeness of the list of countries", "anchors": ["src/parser/helper.rs: country_code", "src/validator.rs: length", "src/parser/mod.rs: parse_with", "assets/PhoneNumberMetadata.xml: generalDesc, possibleLengths"]}
{"id": "C70", "title": "Numbers behind the trunk prefix are read as themselves in all countries but fourteen", "statement": "Let a country have a trunk prefix (the national prefix of its metadata) and let a number that is not all zeros be described by one of the kinds of that country. Written as the trunk prefix followed by its digits and parsed with that country as the default, it is read with the country's calling code, with exactly its digits (leading zeros included) and without extension; this holds of all such numbers of the country if and only if the country is none of AR, BG, BY, CO, ID, IL, IN, JP, KR, KZ, RU, RW, TH, UY. Each of these fourteen has a described number that is read as another number or refused.", "quantifier": "all countries with a trunk prefix in the embedded metadata, all kinds, all digit strings the kind describes", "why_tests_cant": "a described number may be any of up to billions of digit strings per country; which countries are safe depends on the interplay of trunk prefix, transform rule, international prefix and calling code for all of them", "anchors": ["src/parser/mod.rs: parse_with", "src/parser/helper.rs: international_prefix, national_number, country_code, normalize", "assets/PhoneNumberMetadata.xml"]}
{"id": "C71", "title": "A number of one country dialled from another is read as meant, from everywhere but Bolivia and Hong Kong", "statement": "Every country has digits that are dialled to call abroad (those its international-prefix pattern matches in full; many countries have several, some hundreds). Written in front of a calling code of the metadata and at least two further digits, with that country as the default, they are read exactly as a plus sign would be, except that the calling code is reported as found behind a dialling prefix; hence the country and the choice of prefix make no difference. In particular each number described by the metadata that is not all zeros, under any calling code but the twelve of C08, is read with its calling code and exactly its digits, without extension, and is valid. This holds of a country if and only if it is neither Bolivia nor Hong Kong: there the digits of the dialling prefix may run on into the calling code.", "quantifier": "all countries, all digit strings their international-prefix patterns match, all calling codes of the metadata, all digit strings behind them (all described numbers in particular)", "why_tests_cant": "the product of 245 countries, their dialling prefixes, all calling codes and all numbers; whether a prefix can run into the calling code depends on the whole language of the pattern", "anchors": ["src/parser/helper.rs: international_prefix, country_code", "src/parser/mod.rs: parse_with", "src/metadata/metadata.rs: international_prefix", "assets/PhoneNumberMetadata.xml: internationalPrefix"]}
{"id": "C72", "title": "At home the calling code may be written without a plus sign", "statement": "In every country, the country's own calling code followed by at least two digits is read exactly as with a plus sign in front, except that the code is reported as found in the number; no dialling prefix of a country begins as its own calling code does. So a number may be written with a plus sign, behind any dialling prefix of any country but Bolivia and Hong Kong, or bare at home, and the three are read alike, errors included. All described numbers of a country that are not all zeros, so written, are read with exactly their digits, without extension, as valid numbers if and only if the calling code is none of 7, 55, 62, 66, 81, 82, 91, 250, 359, 370, 375, 598: each country under these has a described number that is not.", "quantifier": "all countries, all digit strings of 2 to 899 digits behind the calling code, all described numbers, all dialling prefixes", "why_tests_cant": "all digit strings behind all calling codes; the bare code competes with dialling prefixes, trunk prefixes and national numbers that begin alike", "anchors": ["src/parser/helper.rs: country_code, international_prefix", "src/parser/mod.rs: parse_with", "src/validator.rs: length"]}
