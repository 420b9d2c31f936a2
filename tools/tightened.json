{
 "p_re|negated class read as positive": [
  "C51_pattern",
  "C51_default"
 ],
 "regex_build|white space in patterns kept": [
  "C50_space",
  "C50_default"
 ],
 "db_regex|white space kept in metadata patterns": [
  "C50_space",
  "C50_default"
 ],
 "dec_enum|wrong error for an unknown variant": [
  "C43_unknown_variant"
 ],
 "xml_attrs|repeated keys accepted": [
  "C52_repeated",
  "C52_reads"
 ],
 "xml_step|third dash restarts the comment end": [
  "C52_pieces"
 ],
 "xml_finish|unfinished markup is no error": [
  "C56_inside"
 ],
 "to_upper|DOCTYPE in small letters refused": [
  "C52_pieces",
  "C52_reads"
 ],
 "type_name|type written under another name": [
  "C43_type_names"
 ],
 "required|wrong error for a missing field": [
  "C43_missing",
  "C43_missing_parts"
 ],
 "is_whitespace|ideographic space not trimmed": [
  "C32_lengths"
 ],
 "fmt_format_with|format_with starts in international mode": [
  "C25_format_with"
 ],
 "phone_from_str|US assumed by FromStr": [
  "C57_from_str"
 ]
}