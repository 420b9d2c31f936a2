(** Generated by tools/gen_db.py: all XML events of
    /repo/assets/PhoneNumberMetadata.xml (see DbEventsA.v). *)
From Verif Require Import Base CountryId Types Metadata Loader DbEventsDefs DbEventsA DbEventsB DbEventsC DbEventsD.
Local Open Scope bstr_scope.

Definition db_events : list event :=
  [EvDocType]
  ++ st "phoneNumberMetadata" []
  ++ st "territories" []
  ++ concat (events_a ++ events_b ++ events_c ++ events_d)
  ++ en "territories"
  ++ en "phoneNumberMetadata".
