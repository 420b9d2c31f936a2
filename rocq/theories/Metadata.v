(** * Metadata: /repo/src/metadata/{metadata,descriptor,format}.rs and the
    loader's intermediate records (loader.rs:22-89) *)
From Verif Require Import Base Regex CountryId Types.

(** descriptor.rs:18-25 *)
Record descriptor := mk_descriptor {
  d_national_number : regex;
  d_possible_length : list N;
  d_possible_local_length : list N;
  d_example : option str }.

(** format.rs:18-26 *)
Record format := mk_format {
  f_pattern : regex;
  f_format : str;
  f_leading_digits : list regex;
  f_national_prefix : option str;
  f_national_prefix_optional : bool;
  f_domestic_carrier : option str }.

(** metadata.rs:43-62 *)
Record descriptors := mk_descriptors {
  ds_general : descriptor;
  ds_fixed_line : option descriptor;
  ds_mobile : option descriptor;
  ds_toll_free : option descriptor;
  ds_premium_rate : option descriptor;
  ds_shared_cost : option descriptor;
  ds_personal_number : option descriptor;
  ds_voip : option descriptor;
  ds_pager : option descriptor;
  ds_uan : option descriptor;
  ds_emergency : option descriptor;
  ds_voicemail : option descriptor;
  ds_short_code : option descriptor;
  ds_standard_rate : option descriptor;
  ds_carrier : option descriptor;
  ds_no_international : option descriptor }.

(** metadata.rs:22-40 *)
Record metadata := mk_metadata {
  md_descriptors : descriptors;
  md_id : str;
  md_country_code : N;
  md_international_prefix : option regex;
  md_preferred_international_prefix : option str;
  md_national_prefix : option str;
  md_preferred_extension_prefix : option str;
  md_national_prefix_for_parsing : option regex;
  md_national_prefix_transform_rule : option str;
  md_formats : list format;
  md_international_formats : list format;
  md_main_country_for_code : bool;
  md_leading_digits : option regex;
  md_mobile_number_portable : bool }.

(** metadata.rs:239-273, [Descriptors::get] *)
Definition ds_get (d : descriptors) (k : ptype) : option descriptor :=
  match k with
  | TUnknown => Some (ds_general d)
  | TFixedLine | TFixedLineOrMobile => ds_fixed_line d
  | TMobile => ds_mobile d
  | TTollFree => ds_toll_free d
  | TPremiumRate => ds_premium_rate d
  | TSharedCost => ds_shared_cost d
  | TPersonalNumber => ds_personal_number d
  | TVoip => ds_voip d
  | TPager => ds_pager d
  | TUan => ds_uan d
  | TEmergency => ds_emergency d
  | TVoicemail => ds_voicemail d
  | TShortCode => ds_short_code d
  | TStandardRate => ds_standard_rate d
  | TCarrier => ds_carrier d
  | TNoInternational => ds_no_international d
  end.

(** [slice::contains] on [u16] lists *)
Fixpoint memN (x : N) (l : list N) : bool :=
  match l with [] => false | y :: l' => if N.eqb x y then true else memN x l' end.

(** [.find(value).map(|m| m.start() == 0).unwrap_or(false)] *)
Definition found_at_start (m : option mres) : bool :=
  match m with Some m => Nat.eqb (mr_start m) 0 | None => false end.

(** descriptor.rs:74-84, [Descriptor::is_match] *)
Definition d_is_match (d : descriptor) (value : str) : bool :=
  if match d_possible_length d with
     | [] => false
     | l => negb (memN (as_u16 (blen value)) l)
     end
  then false
  else found_at_start (re_find (d_national_number d) value).

(** ** Loader records *)
(** loader.rs:82-89 *)
Record ldescriptor := mk_ldescriptor {
  ld_national_number : option str;
  ld_possible_length : list N;
  ld_possible_local_length : list N;
  ld_example : option str }.

(** loader.rs:71-80 *)
Record lformat := mk_lformat {
  lf_pattern : option str;
  lf_format : option str;
  lf_leading_digits : list str;
  lf_national_prefix_formatting_rule : option str;
  lf_national_prefix_optional_when_formatting : bool;
  lf_domestic_carrier : option str }.

(** loader.rs:30-69; the nested [Defaults] (22-28) are its last two fields. *)
Record lmetadata := mk_lmetadata {
  lm_general : option ldescriptor;
  lm_fixed_line : option ldescriptor;
  lm_mobile : option ldescriptor;
  lm_toll_free : option ldescriptor;
  lm_premium_rate : option ldescriptor;
  lm_shared_cost : option ldescriptor;
  lm_personal_number : option ldescriptor;
  lm_voip : option ldescriptor;
  lm_pager : option ldescriptor;
  lm_uan : option ldescriptor;
  lm_emergency : option ldescriptor;
  lm_voicemail : option ldescriptor;
  lm_short_code : option ldescriptor;
  lm_standard_rate : option ldescriptor;
  lm_carrier : option ldescriptor;
  lm_no_international : option ldescriptor;
  lm_id : option str;
  lm_country_code : option N;
  lm_international_prefix : option str;
  lm_preferred_international_prefix : option str;
  lm_national_prefix : option str;
  lm_preferred_extension_prefix : option str;
  lm_national_prefix_for_parsing : option str;
  lm_national_prefix_transform_rule : option str;
  lm_formats : list lformat;
  lm_international_formats : list lformat;
  lm_main_country_for_code : bool;
  lm_leading_digits : option str;
  lm_mobile_number_portable : bool;
  lm_default_format : lformat;
  lm_default_descriptor : ldescriptor }.

(** [Default] derives *)
Definition ldescriptor_default : ldescriptor := mk_ldescriptor None [] [] None.
Definition lformat_default : lformat := mk_lformat None None [] None false None.
Definition lmetadata_default : lmetadata :=
  mk_lmetadata None None None None None None None None None None None None None None None None
    None None None None None None None None [] [] false None false
    lformat_default ldescriptor_default.

(** ** Load errors: error.rs:18-52, 87-116 *)
Inductive lerr :=
| LXml | LUtf8 | LInteger | LBool | LRegex
| LUnexpectedEof
| LMismatchedTag (name : str)
| LMissingValue (phase name : str)
| LUnhandledElement (phase name : str)
| LUnhandledAttribute (phase name value : str)
| LUnhandledEvent (phase : str).
