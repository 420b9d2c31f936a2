(** * Natural: /repo/src/parser/natural.rs *)
From Verif Require Import Base Unicode Regex RegexSyntax Consts CountryId Types Metadata Database
  Validator Valid Number Helper.

(** natural.rs:20-47 *)
Definition natural (i : str) : outcome unit number :=
  let* i := extract i in
  match re_find EXTN_PATTERN i with
  | None => Ok (mk_number SrcDefault i None None None)
  | Some c =>
      match cap_get c 2 with
      | None => Err tt
      | Some e =>
          let* nat_ := unwrap (slice_to i (mr_start c)) in
          Ok (mk_number SrcDefault nat_ None (Some (cap_text e)) None)
      end
  end.
