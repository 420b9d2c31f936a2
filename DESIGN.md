# Formal model of rust-phonenumber — design

Everything lives in `rocq/theories` (logical name `Verif`), Coq 8.16.1, standard library only.
`properties.jsonl` lists the properties (C01 …), `MANIFEST.json` maps them to theorems,
`seeded/LOG.jsonl` records the mutation experiments.

## 1. Trusted base

* Coq's kernel (`coqc`, re-checked by `coqchk`), including the `vm_compute` conversion that
  `coqchk` re-does with its own lazy conversion.
* `Print Assumptions` prints "Closed under the global context" for every theorem named in
  `MANIFEST.json` (no axioms, no standard-library axioms either). `tools/assumptions.py` reruns this for
  all of them and writes `ASSUMPTIONS.txt`. A whole-library scan also sees seven constants of
  `Coq.ssr.ssrunder` (`Under_rel` and its laws): they sit in a sealed module of Coq's own library that
  `Setoid`, and so `Lia`, loads; no theorem here depends on them.
* The hand translation of the Rust code to Gallina; each definition cites the file and lines it models.
* The generated data: the bytes of `/repo/assets/PhoneNumberMetadata.xml` (`tools/gen_text.py` copies them
  verbatim into string literals; `tools/gen_text.py --check` compares the two), the country
  enum (`tools/gen_country.py`), the Unicode general-category tables (`tools/gen_unicode.py`, from Python's
  unicodedata 14.0.0), the extra-digit table of `as_dec_digit`. The events most proofs start from
  (`tools/gen_db.py`: the same document without comments, text between elements and white space in
  patterns) need not be trusted: `C53_shipped` shows that the document itself gives a database with the
  same behaviour.
* The modelled semantics of third-party crates: `regex` (leftmost-first matching, `replace`, `captures`,
  `$name` expansion), `once_cell::sync::Lazy` (one filler at a time, others wait, poisoning), `nom` combinators used, `quick-xml` (`Xml.v`), `postcard` wire format, Rust integer
  parsing/printing and string slicing.

## 2. What is modelled

| Rust | model file | simplifications |
|---|---|---|
| `str`, slices, `parse::<uN>`, `to_string`, `unwrap`, `as` casts | `Base.v` | strings are lists of code points, offsets are byte offsets; panics are explicit `Panic` values |
| crate `regex` | `Regex.v`, `RegexSyntax.v` | syntax subset (all constructs that occur in the code and in the metadata); a pattern outside of it is a compile error |
| `consts.rs` | `Consts.v` | only items used by the library |
| `country.rs`, `Type`, `Validation`, `Mode`, errors | `Types.v`, generated `CountryId.v` | |
| `national_number.rs` | `NationalNumber.v` | |
| `metadata/*.rs` | `Metadata.v`, `Database.v`, `Loader.v` | hash maps are association lists; `Arc` sharing is invisible |
| `build.rs` + run-time decoding | `Postcard.v` | the wire format is modelled from the postcard specification (varints, length prefixes, option tags, struct order); the decoder is total and returns an error value |
| derived `Serialize`/`Deserialize` of the public types | `Serde.v` | the code serde_derive writes, over value trees (as serde_json) and postcard bytes; field keys given as numbers or bytes and error texts are not modelled |
| `parser/*.rs` | `Valid.v`, `Rfc3966.v`, `Natural.v`, `Helper.v`, `Parser.v` | `nom` error payloads are dropped (the caller discards them); `Cow` is its string |
| `validator.rs` | `Validator.v` | |
| `formatter.rs` | `Formatter.v` | `Display` is a function to a string |
| `phone_number.rs`, `carrier.rs`, `extension.rs` | `PhoneNumber.v` | serde derives: see `Serde.v` |
| `lib.rs` (`parse`, `is_valid`, `format`, … with the default database) | `Api.v` | `DATABASE` is the value the lazy static evaluates to (shown for every interleaving of threads in `PropsThreads`) |
| `once_cell::sync::Lazy` statics of `consts.rs` and `metadata/database.rs` | `Lazy.v`, `Shared.v` | threads are interleaved step by step; an access to a static is atomic; statics no function uses are left out |
| crate `quick-xml`, `Database::parse` of a text | `Xml.v` | an automaton on characters; errors are not told apart, document type declarations only count brackets, references in text are events of their own |
| `Database::load` on the contents of a file | `Bytes.v` | the same automaton run on bytes; names, attributes and texts decoded as loader.rs does; which error is reported for what is not UTF-8 is not told apart |
| `assets/PhoneNumberMetadata.xml` | generated `DbText*.v` (its bytes), `DbEvents*.v`, `DefaultDb.v` | white space inside patterns dropped by the generator (patterns are compiled with ignore_whitespace; `C50_default` shows that any white space between the parts of patterns, the only place where the file has it, changes nothing) |

Not modelled: timing and memory, `Debug` output, opening files, the memory orderings inside `once_cell`,
the example program, the test suites.

## 3. The files

Model (in dependency order): `Base`, `Unicode`, `Regex`, `RegexSyntax`, `Consts`, `CountryId`, `Types`,
`NationalNumber`, `Metadata`, `Database`, `Validator`, `Valid`, `Number`, `Rfc3966`, `Helper`, `Natural`,
`PhoneNumber`, `Parser`, `Formatter`, `Loader`, generated `DbEvents*`, `DefaultDb`, `DefaultDbOk` (the built-in
metadata loads without error), `Postcard`, `Serde`, `Api`, `Lazy` (any number of threads over lazily filled statics), `Shared` (the library's
statics and its entry points as code that dereferences them). `Tests.v` replays the crate's own test cases in the model.

General facts: `StrFacts`, `NationalFacts`, `DatabaseFacts`; the regular-expression theory
`RegexLang` (denotation `lang r before text after`), `RegexFacts` (the matcher is sound and complete for it and
finds the leftmost match), `RegexCaps` (what a capture group holds), `RegexDeriv` (a verified static analysis by
partial derivatives: two patterns never match at the start of the same digits), `RegexMany` (the same for any number of patterns),
`RegexWords` (patterns that match finitely many shapes: the match found, with its groups, described without the matcher's order of search),
`RegexCover` (every text of a length matched by some patterns is matched by one of several groups of patterns),
`RegexExact` (the derivative states are exact, so combinations of matches can be decided for all texts of a length;
patterns whose first match is the longest); the parser's pipeline
`ParserFacts`, `ParseInv`, `TextFacts`, `ViableFacts`, `PhoneText`, `CoreFacts`, `E164Facts`, `DialFacts`, `ExtFacts`, `ReadFacts`, `ClaimFacts`;
the formatter's `FormatFacts`, `FormatDigits`, `FormatDollar`.

Properties: one `Props*.v` per group, each with its own vocabulary (plain definitions a reader of the English
property can check), the theorems `Cnn_…`, `Example`s that meet the hypotheses, and `Cnn_…_refuted` theorems
that exhibit inputs of the faithful model for which a stronger reading is false.

| properties | file | method |
|---|---|---|
| C01, C02 | `PropsPanic` | explicit `Panic`; a boolean well-formedness check of the database excludes it for all texts |
| C03, C04, C10, C26 | `PropsParse` | invariants of the pipeline |
| C05, C06, C07, C24, C25, C35 | `PropsNumber` | arithmetic on the packed number, algebra of equality and hashing |
| C08, C09, C11 | `PropsE164` | characterisation of `+digits` for any database, derivative analysis of every region's rules |
| C12–C15, C28, C34, C36 | `PropsText` | text normalisation lemmas, for any database |
| C16–C18, C20 | `PropsValid` | declarative validity and type priority |
| C19 | `PropsDatabase` | induction over the entry list |
| C21, C22, C31 | `PropsFormat` | verified static analysis of format templates |
| C23 | `PropsRfc` | rendering followed by the RFC 3966 reader |
| C27 | `PropsCarrier` | |
| C29, C32, C33 | `PropsXml`, `PropsLoader` | event-level loader against a renderer of documents |
| C30 | `PropsPostcard` | codec round trip |
| C37, C38 | `PropsExt` | where the extension pattern can match, for all texts |
| C39, C40 | `PropsDial` | national digits, trunk prefixes, dialling prefixes |
| C41 | `PropsTemplate` | format choice, templates and rules, separators |
| C42 | `PropsTel` | reader of RFC 3966 parameters against a declarative text |
| C43 | `PropsSerde` | reader of value trees against a declarative description, byte codecs |
| C44 | `PropsNational` | static analysis of each region's formats, trunk prefix and dialling prefix together, by derivatives |
| C45 | `PropsOutcome` | what '+' and digits, or digits alone, are read as: every digit and every error accounted for |
| C45 | `PropsZeros` | the same for the built-in metadata; the 22 calling codes behind which digits other than zeros are taken off or added |
| C46 | `PropsReading` | the unique reading of any text (number, code, extension), stated without the patterns; the parse of any text reduced to that of plain digits |
| C47 | `PropsThreads` (general part `LazyFacts`) | invariant over all interleavings; initialisers ordered by rank for progress, a weight per static for the bound |
| C48 | `PropsClaims` (general part `ClaimFacts`) | derivative analysis of every pair of entries of a shared calling code, cut down to the first 17 digits so that it holds for digits of any length |
| C49 | `PropsOrder` | permutations of the loaded entries; what two claim the main country claims (derivatives), with the one exception |
| C50 | `PropsSpace` | a projection that forgets how patterns are written; every function but the type lookup factors through it |
| C51 | `PropsPattern` | the pattern notation described on its own (what is written, what it describes); every pattern so written compiles to it, descriptions apply to exactly what pattern and lengths say, all built-in patterns are in the notation |
| C52 | `PropsDocument` | spelled pieces of a document against the character automaton, composed with C29 |
| C53 | `PropsShipped` | the file cut after every territory, each part read and checked on its own, composed with C29, C30, C50 |
| C54 | `PropsKey` | E.164, international and RFC 3966 texts identify the number (and extension); the kinds never coincide; national texts do not identify (refuted with a witness) |
| C55 | `PropsSize` | exact bounds on the length of every text of a parsed number and of a valid number |
| C56 | `PropsTruncated` | two runs of the loader that share a beginning agree; the root element closes only at the last event of a document; the tokenizer inside markup is not in text |
| C57 | `RegexWords`, `PropsGives` | `gives`: a relational specification of the whole of parse; the finite patterns of the metadata give one longest match with its groups; `tame` databases; soundness and functionality of the relation |
| C58 | `PropsSettle` | the words of the patterns show what a rule can do to the length of the digits; states spent, grown, fresh and a decreasing rank |
| C59 | `PropsFails` | equivalences for errors and panics of formatting, validity, type, country and parsing; `rule_needed`, `stuck`, `lost` |
| C60 | `PropsDepends` | relations between entries (`same_classification`, `same_reading`, `same_for`) lifted through lookups; two runs compared step by step |
| C61 | `PropsPromises` | formats: the reading of a document (C29) projected on templates; leading digits: regular-expression derivatives for every pair of regions; inheritance: a digit text read as a pattern finds itself only (C51), two runs of `parse_with` compared (lemmas of `PropsDepends`) |
| C62 | `PropsLocal` | lookups depend on the entries of the code (filters commute with building); the code search of `country_code` in two databases; the built-in metadata by evaluation (own names, prefix-free codes) |
| C63 | `PropsIds` | every text against the list of ids; entries and regions of the built-in metadata by evaluation |
| C64 | `PropsBytes` | the automaton run on the bytes of a text mirrors the one run on its characters; what the decoder accepts is the encoding of a text; beginnings as for C56 |
| C65 | `PropsGrouped` | derivative states of the general pattern, the patterns of the kinds, and of all formats followed together over each listed length; a witness for each exception |
| C66 | `PropsErrors` | inversion of the specification of C57 into causes; the limits checked against the languages of all described kinds of number; all-zero numbers followed over the alphabet {0} |
| C67 | `PropsDescribed` | derivative states: every described number is claimed by an entry, entries with leading digits know what they claim, and no kind of an earlier place fits, for all pairs of entries of a calling code; witnesses for the exceptions |
| C68 | `PropsZeroFirst` | derivative states of the kinds' patterns advanced over the zeros, together with the patterns of every entry of the code on what is left; a number for each member of each list |
| C69 | `PropsOwnCode` | derivative states of the kinds' patterns against the digits of the calling code and the dialling prefix, C40 for what is read then, C45 for its length; a number of each of the 105 kinds |
| C70 | `PropsTrunk` | C39 outside North America; inside it the trunk prefix is the calling code, so C40 and C67 (derivative states show no dialling prefix matches there); a number of each of the fourteen countries |
| C71 | `PropsAbroad` | induction on the pattern: no match is another with more digits behind it (first digits of alternatives are disjoint), so only one prefix can be taken off; Seychelles by listing the pattern's digit strings; then C40, C67; a missed call of each of the two countries |
| C72 | `PropsBareCode` | derivatives: no dialling prefix begins as the own calling code, so C40 applies without its proviso; C67 for described numbers; C71 for the dialled form; a number of each country under the twelve codes |

C08 is exact: `C08_exact` shows that the calling codes with a valid number that does not survive its own E.164 text are the twelve of `not_covered`, no more and no fewer. `C39_plain_exact` and `C44_exact` do the same for the regions left out of `C39_plain` and `C44_round_trip`, and `C45_zeros_exact` for the calling codes left out of `C45_zeros`.

## 4. Mutation experiments

`tools/mutate.py` edits one definition of the model in a scratch copy (without Examples and `Tests.v`), rebuilds
everything that still builds, and records the statements that no longer check. `seeded/LOG.jsonl` has one line per
attempt.
