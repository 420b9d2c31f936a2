#!/usr/bin/env python3
"""Writes /verif/properties.jsonl (one JSON object per line)."""
import json, os
P = []
def p(id, title, statement, quantifier, why, anchors):
    P.append(dict(id=id, title=title, statement=statement, quantifier=quantifier,
                  why_tests_cant=why, anchors=anchors))

INF = "The claim ranges over an infinite set of strings; the two published security advisories for this crate were inputs no test had sampled."
p("C01","Parsing with the built-in metadata never panics",
  "phonenumber::parse(country, s) returns Ok or Err for every optional country and every string s; it never panics (no failed unwrap, no out-of-range or non-char-boundary slice, no integer overflow).",
  "every optional country id and every string", INF,
  ["src/parser/mod.rs: parse, parse_with","src/parser/helper.rs: extract, country_code, international_prefix, national_number, normalize, trim","src/parser/rfc3966.rs: phone_number","src/parser/natural.rs: phone_number","src/validator.rs: source_for, length","src/national_number.rs: from_str","assets/PhoneNumberMetadata.xml"])
p("C02","parse_with never panics for a sane custom database",
  "parse_with(db, country, s) never panics, for every string, provided the database has an entry for the reference country, every region sharing a calling code has a known country id, and no national-prefix transform rule can fire without its first group. Without such a condition the claim is false: some databases that Database::parse accepts make parse_with panic.",
  "every database meeting the stated conditions, every optional country, every string",
  "Ranges over every loadable metadata file and every string.",
  ["src/parser/mod.rs: parse_with","src/parser/helper.rs: country_code, national_number","src/validator.rs: source_for"])
p("C03","A parsed number can always be formatted",
  "If parse_with(db, country, s) = Ok(n) then n's calling code is known to db and formatting n with db succeeds in every mode (Display returns no error, nothing panics). In particular n.to_string() never panics for a number parsed with the built-in metadata.",
  "every database, country and string for which parsing succeeds, every formatting mode",
  "Couples two functions over the unbounded set of successful parses.",
  ["src/formatter.rs: Display for Formatter, formatter, replace","src/parser/mod.rs: parse_with"])
p("C04","A parsed national number is 2 to 17 digits, non-zero, and printed exactly as it was read",
  "If parsing succeeds, the national number printed by Display is a string of 2 to 17 ASCII digits, its value is at least 1 and below 2^56, and value() and zeros() are the numeric value and the number of leading zeros of that string.",
  "every successful parse", "Boundary behaviour over all inputs.",
  ["src/parser/mod.rs: parse_with","src/national_number.rs: NationalNumber","src/consts.rs: MIN_LENGTH_FOR_NSN, MAX_LENGTH_FOR_NSN"])
p("C05","E.164 output is '+', calling code, national number, and nothing else",
  "For every number with a known calling code, E.164 formatting (also to_string()) yields '+' followed by the decimal calling code followed by the national number with its leading zeros: only ASCII digits after the '+', no extension, no carrier, independent of any formatting metadata and of any custom format.",
  "every phone number, database and custom format", "Ranges over all numbers and all metadata.",
  ["src/formatter.rs: Display for Formatter","src/phone_number.rs: Display for PhoneNumber","src/national_number.rs: Display"])
p("C06","NationalNumber packs value and leading zeros without loss",
  "NationalNumber::new(v, z) succeeds exactly when v < 2^56 and then value() = v and zeros() = z; two NationalNumbers are equal iff both components are equal; otherwise it returns TooLong.",
  "every u64 value and every u8 zero count", "2^72 argument pairs.",
  ["src/national_number.rs: new, value, zeros"])
p("C07","NationalNumber text round-trip",
  "Parsing a digit string as a NationalNumber and printing it gives back the same string, and printing a NationalNumber with non-zero value and parsing it gives back the same number. The string must have fewer than 256 leading zeros and a non-zero value below 2^56: at 256 leading zeros the count silently wraps.",
  "every digit string / every NationalNumber", "Unbounded strings; the wrap only appears at 256 zeros.",
  ["src/national_number.rs: from_str, Display"])
p("C08","E.164 text round-trips through parse",
  "For a calling code c of the database and national digits d, parse('+' c d) yields exactly calling code c, national number d, no extension and no carrier, and printing it as E.164 gives the input back, whenever the selected region's national-prefix rules do not apply to d. For the built-in metadata this holds unconditionally for every valid number of the calling codes whose regions pass a static check; it is false for others (e.g. Russian numbers starting with 8).",
  "every calling code and every digit string", "All numbers of all numbering plans.",
  ["src/parser/mod.rs: parse_with","src/parser/helper.rs: country_code, national_number","src/formatter.rs"])
p("C09","A number written with '+' does not depend on the reference country",
  "If s is '+' followed by digits and separators, parse(Some(c), s) and parse(None, s) give the same result for every country c whose international dialling prefix does not match the digits. It is false when the dialling prefix of c matches after the '+'.",
  "every string written with a leading '+', every country", "245 countries times infinitely many strings.",
  ["src/parser/helper.rs: international_prefix, country_code","src/parser/mod.rs: parse_with"])
p("C10","The reported country-code source is truthful",
  "With no reference country a successful parse never reports Default or Number. With reference country c, whenever the source is Default or Number the calling code is c's. Source Plus is reported only if the text had a '+' or an RFC 3966 prefix/phone-context; Idd only if it had neither.",
  "every successful parse", "Ranges over all inputs.",
  ["src/parser/helper.rs: country_code, international_prefix","src/country.rs: Source"])
p("C11","The calling code is read unambiguously",
  "After '+', the parser takes the shortest prefix of 1 to 3 digits that is a known calling code. In the built-in metadata no calling code is a prefix of another, so this is the only calling code that fits, and it has 1 to 3 digits.",
  "every digit string", "All digit strings.",
  ["src/parser/helper.rs: country_code","assets/PhoneNumberMetadata.xml"])
p("C12","Separators do not change the result",
  "For a text starting with '+' and made of ASCII digits and the separators space - . ( ) /, containing at least one space and ending in a digit, parsing gives the same result as parsing the text with all separators removed.",
  "every such text, every country, every database", "Unbounded arrangements of separators.",
  ["src/parser/rfc3966.rs: phone_number","src/parser/natural.rs: phone_number","src/parser/helper.rs: extract, normalize","src/parser/valid.rs"])
p("C13","Vanity letters: dropped below three, keypad-mapped from three on",
  "When the text after extraction contains fewer than three ASCII letters the letters do not contribute digits; with three or more each letter contributes its telephone-keypad digit.",
  "every text accepted as viable", "Ranges over all texts.",
  ["src/parser/helper.rs: international_prefix, normalize","src/consts.rs: ALPHA_MAPPINGS, ASCII_MAPPINGS, VALID_ALPHA_PHONE"])
p("C14","is_viable accepts exactly the documented grammar",
  "is_viable(s) is true iff s is exactly two ASCII digits, or s is any number of plus signs, then three digits each optionally preceded by punctuation or stars, then any punctuation, stars, digits, and then any of these or ASCII letters up to the end.",
  "every string", "Language equality over all strings; the implementation is greedy without backtracking.",
  ["src/validator.rs: is_viable","src/parser/valid.rs"])
p("C15","Digits of other scripts",
  "A user expects Unicode decimal digits (Arabic, full-width, ...) to be accepted like ASCII digits. The normaliser maps them, but every text whose number part contains one is rejected with NoNumber before normalisation.",
  "every string containing such a digit in the number part", "Ranges over all strings.",
  ["src/parser/helper.rs: as_dec_digit, normalize","src/parser/valid.rs: digit","src/parser/mod.rs: parse_with"])
p("C16","is_valid is exactly membership in a descriptor of the number's region",
  "is_valid_with(db, n) is true iff the region selected for (calling code, national digits) exists and its general pattern and at least one of its ten type descriptors match the national digits (pattern at the start, length listed). So a valid number always has a length listed for its type.",
  "every number and database", "All numbers times all metadata.",
  ["src/validator.rs: is_valid_with, source_for, number_type","src/metadata/descriptor.rs: is_match"])
p("C17","number_type is sound, complete and prioritised",
  "The type reported for a region is the first matching one in the order premium rate, toll free, shared cost, VoIP, personal, pager, UAN, voicemail, fixed line (or mobile), mobile; it is Unknown iff the general pattern or all ten descriptors fail; FixedLineOrMobile iff the fixed-line descriptor matches and the mobile one matches too or has the same pattern; Emergency, ShortCode, StandardRate, Carrier, NoInternational are never reported.",
  "every metadata entry and digit string", "All metadata times all strings.",
  ["src/validator.rs: number_type","src/phone_number.rs: number_type_with"])
p("C18","is_valid and number_type agree",
  "n.is_valid() iff n.number_type() != Unknown. This holds for every number without leading zeros; it is false in general because number_type drops leading zeros (Italian fixed lines).",
  "every number", "All numbers.",
  ["src/phone_number.rs: metadata, number_type_with","src/validator.rs: is_valid_with"])
p("C19","Database lookups reflect the loaded entries",
  "After Database::from(entries): by_id(id) is the last entry with that id; by_code(c) lists exactly the entries with code c, main countries first, others in file order, and is None iff there are none; region(c) lists their ids in the same order; iter() visits each id exactly once.",
  "every list of entries", "All metadata files.",
  ["src/metadata/database.rs: from, by_id, by_code, region, iter"])
p("C20","The country of a number belongs to its calling code",
  "If n.country().id() is Ok(Some(id)) then the metadata entry of id has n's calling code; it is Ok(None) iff no region is selected, and an error iff the code belongs to a non-geographical entity.",
  "every number", "All numbers.",
  ["src/phone_number.rs: Country::id, metadata","src/validator.rs: source_for"])
p("C21","Formatting keeps every digit",
  "With the built-in metadata, the digits of the International and RFC 3966 renderings are exactly the digits of the calling code followed by those of the national number (followed by the extension digits), in that order: formatting only inserts separators.",
  "every number with a known calling code", "All numbers times 759 format rules.",
  ["src/formatter.rs: formatter, replace, Display","assets/PhoneNumberMetadata.xml"])
p("C22","RFC 3966 output is syntactically a tel: URI",
  "With the built-in metadata, RFC 3966 formatting yields 'tel:+', the calling code, '-', then only ASCII digits and '-' , then optionally ';ext=' and the extension; no spaces, parentheses or dots.",
  "every number with a known calling code", "All numbers times all format rules.",
  ["src/formatter.rs: Display for Formatter","src/consts.rs: SEPARATOR_PATTERN"])
p("C23","RFC 3966 text round-trips through parse, with its extension",
  "For a number with at least three national digits and a digit extension, parsing its RFC 3966 rendering gives back the same number including the extension, whenever the region's national-prefix rules do not apply to the national digits.",
  "every such number", "All numbers.",
  ["src/formatter.rs","src/parser/rfc3966.rs: phone_number","src/parser/mod.rs: parse_with"])
p("C24","Equality ignores how the code was found, and hashing agrees with equality",
  "PhoneNumber equality is an equivalence that compares calling code value, national number (value and zeros), extension and carrier and ignores the code source; equal numbers feed identical data to a Hasher, so they collide in hash maps.",
  "all pairs of numbers", "Pairs of unbounded values.",
  ["src/country.rs: PartialEq for Code, Hash for Code","src/phone_number.rs: PhoneNumber"])
p("C25","Formatter settings are independent and default to E.164",
  "mode(), database() and with() commute, the last setting of each wins, a fresh formatter is E.164 with the built-in metadata; PhoneNumber's Display is the E.164 form and FromStr is parse without a reference country.",
  "every sequence of settings", "All sequences of builder calls.",
  ["src/formatter.rs: Formatter::database, mode, with, format, format_with","src/phone_number.rs: Display, FromStr"])
p("C26","A parsed extension is a digit string",
  "If parsing succeeds with an extension, the extension consists of ASCII digits only; if the text is not in RFC 3966 form it has at most 7 digits.",
  "every successful parse", "All inputs.",
  ["src/parser/natural.rs: phone_number","src/parser/helper.rs: normalize","src/consts.rs: EXTN_PATTERN"])
p("C27","A reported carrier is a carrier selection code",
  "A user expects carrier() to be the carrier-selection code dialled (the captured group of the national prefix rule). It is a substring of the dialled digits, but when the rule has no group the whole national prefix is reported, and for rules that complete local numbers the local number itself is reported.",
  "every successful parse", "All inputs.",
  ["src/parser/helper.rs: national_number"])
p("C28","Over-long and too-short numbers are rejected",
  "A text with no digit and no plus is NoNumber. '+' followed by digits naming no calling code is InvalidCountryCode. A national part of more than 17 digits, or of 17 digits with value at least 2^56, is never accepted.",
  "every string", "All inputs.",
  ["src/parser/mod.rs: parse_with","src/parser/helper.rs: country_code"])
p("C29","The metadata loader reads back every entry it is given",
  "For every list of metadata entries, rendering them as the documented XML structure and loading gives the same entries back, whatever comments and white space are interleaved; unknown attributes and elements are rejected, never silently dropped.",
  "every list of metadata entries", "All documents.",
  ["src/metadata/loader.rs: load, metadata, territories, territory, descriptor, formats, format, ignore, text"])
p("C30","The embedded database equals the one built at compile time",
  "Decoding the postcard encoding of a list of metadata entries yields exactly those entries: what the library loads at run time is what build.rs read from the XML.",
  "every list of metadata entries", "Codec round-trip over unbounded data.",
  ["build.rs: main","src/metadata/database.rs: DEFAULT","src/metadata/loader.rs: Metadata, Format, Descriptor"])
p("C31","No template placeholder leaks into formatted output",
  "With the built-in metadata no rendering in any mode contains a '$'.",
  "every number with a known calling code whose extension and carrier contain no '$', every mode", "All numbers times all format rules.",
  ["src/formatter.rs: replace","assets/PhoneNumberMetadata.xml"])
p("C32","Possible-length lists are read as written",
  "A possibleLengths attribute made of numbers and [a-b] ranges separated by commas is read as the concatenation of the numbers and the inclusive ranges.",
  "every list of numbers and ranges", "Unbounded lists.",
  ["src/metadata/loader.rs: descriptor::lengths"])
p("C33","Loading malformed metadata reports an error instead of panicking",
  "A user expects Database::parse to return Err for any bad document. It panics on an empty possibleLengths item and on a descriptor without nationalNumberPattern.",
  "every XML event stream", "All documents.",
  ["src/metadata/loader.rs: descriptor::lengths","src/metadata/database.rs: from"])
p("C34","Leading text before the number is ignored",
  "For text in natural form (containing a space), characters before the first digit or plus sign do not change the result.",
  "every prefix text without digits or plus signs and every remaining text", "All pairs of strings.",
  ["src/parser/helper.rs: extract","src/parser/natural.rs: phone_number"])
p("C35","Validation outcomes are classified consistently",
  "Each Validation outcome is exactly one of possible or invalid, and an invalid length is always invalid.",
  "every outcome", "Exhaustive over the enum, must hold for future callers.",
  ["src/validator.rs: Validation::is_possible, is_invalid, is_invalid_length"])
with open(os.path.join(os.path.dirname(__file__), "..", "properties.jsonl"), "w") as f:
    for x in P: f.write(json.dumps(x, ensure_ascii=False) + "\n")
