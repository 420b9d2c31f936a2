(** * DefaultDb: the built-in database

    build.rs:14-29 loads assets/PhoneNumberMetadata.xml with [loader::load] and
    stores the entries; database.rs:27-31 decodes them and runs
    [Database::from].  (That the stored bytes decode to the same entries is a
    theorem of Postcard.v.) *)
From Verif Require Import Base Regex RegexSyntax CountryId Types Metadata Database Loader DbEvents.

Definition default_entries : list lmetadata := Eval vm_compute in
  match load db_events with Ok l => l | _ => [] end.

Definition default_db : database := Eval vm_compute in
  match db_from default_entries with Ok db => db | _ => db_empty end.
