(** * DbText: the text of the shipped metadata document

    The bytes of /repo/assets/PhoneNumberMetadata.xml, which build.rs:14-29 loads
    when the crate is built (database.rs:27-31), copied verbatim by
    tools/gen_text.py into DbTextA.v to DbTextF.v. *)
From Verif Require Import Base Postcard DbTextA DbTextB DbTextC DbTextD DbTextE DbTextF.

Definition text_parts : list (list bstr) := text_a ++ text_b ++ text_c ++ text_d ++ text_e ++ text_f.
Definition part_bytes (p : list bstr) : bytes := concat (map lit p).
Definition shipped_bytes : bytes := concat (map part_bytes text_parts).

(** ... and the characters they spell *)
Definition part_text (p : list bstr) : str := match dec_utf8 (part_bytes p) with Ok s => s | _ => [] end.
Definition shipped_text : str := concat (map part_text text_parts).
