(** * The literals of DefaultDb.v are what the model computes *)
From Verif Require Import Base Regex RegexSyntax CountryId Types Metadata Database Loader DbEvents DefaultDb.

Lemma default_entries_loaded : load db_events = Ok default_entries.
Proof. vm_cast_no_check (eq_refl (@Ok lerr _ default_entries)). Qed.

Lemma default_db_built : db_from default_entries = Ok default_db.
Proof. vm_cast_no_check (eq_refl (@Ok lerr _ default_db)). Qed.
