(** * Api: the entry points that use the built-in metadata *)
From Verif Require Import Base Regex CountryId Types NationalNumber Metadata Database Validator
  PhoneNumber Parser Formatter Loader DefaultDb.

(** parser/mod.rs:33-38 *)
Definition parse (country : option id) (s : str) : outcome perr phone :=
  parse_with default_db country s.

(** phone_number.rs:142-148, [FromStr for PhoneNumber] *)
Definition phone_from_str (s : str) : outcome perr phone := parse None s.

(** phone_number.rs:150-154, [Display for PhoneNumber]; the result of
    [to_string()], which panics when [Display] returns an error. *)
Definition phone_to_string (p : phone) : outcome unit str :=
  match fmt_display default_db (fmt_format p) with Ok s => Ok s | _ => Panic end.

(** [p.format_with(db).mode(m)] as text (formatter.rs:60-63, 88-206) *)
Definition render (db : database) (m : mode) (p : phone) : outcome unit str :=
  fmt_display default_db (fm_set_mode (fmt_format_with db p) m).

(** validator.rs:91-93 *)
Definition is_valid (p : phone) : outcome perr bool := is_valid_with default_db p.
(** phone_number.rs:230-232 *)
Definition ph_number_type (p : phone) : outcome perr ptype := number_type_with default_db p.
(** phone_number.rs:248-254 *)
Definition country_id (p : phone) : outcome perr (option id) := country_id_with default_db p.

(** database.rs:48-51, [Database::parse], on the events of the document *)
Definition db_parse (evs : list event) : outcome lerr database :=
  let* l := load evs in db_from l.
