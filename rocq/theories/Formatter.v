(** * Formatter: /repo/src/formatter.rs *)
From Verif Require Import Base Unicode Regex RegexSyntax Consts CountryId Types NationalNumber
  Metadata Database Validator PhoneNumber.

(** formatter.rs:24-37 *)
Inductive mode := E164 | International | National | Rfc3966.

(** formatter.rs:41-46 *)
Record formatter := mk_formatter {
  fm_number : phone;
  fm_database : option database;
  fm_mode : mode;
  fm_format : option format }.

(** formatter.rs:50-57 *)
Definition fm_set_database (f : formatter) (db : database) : formatter :=
  mk_formatter (fm_number f) (Some db) (fm_mode f) (fm_format f).
(** formatter.rs:60-63 *)
Definition fm_set_mode (f : formatter) (m : mode) : formatter :=
  mk_formatter (fm_number f) (fm_database f) m (fm_format f).
(** formatter.rs:66-73 *)
Definition fm_with (f : formatter) (x : format) : formatter :=
  mk_formatter (fm_number f) (fm_database f) (fm_mode f) (Some x).
(** formatter.rs:77-84 *)
Definition fmt_format (p : phone) : formatter := mk_formatter p None E164 None.
(** formatter.rs:88-98 *)
Definition fmt_format_with (db : database) (p : phone) : formatter := mk_formatter p (Some db) E164 None.

Definition found_whole (s : str) (m : option mres) : bool :=
  match m with
  | Some m => Nat.eqb (mr_start m) 0 && Nat.eqb (mr_end m) (blen s)
  | None => false
  end.

(** formatter.rs:208-230 *)
Fixpoint choose_format (number : str) (formats : list format) : option format :=
  match formats with
  | [] => None
  | f :: formats' =>
      let hit :=
        match f_leading_digits f with
        | [] => true
        | l => found_at_start (re_find (last l regex_never) number)
               && found_whole number (re_find (f_pattern f) number)
        end in
      if hit then Some f else choose_format number formats'
  end.

(** formatter.rs:232-260 *)
Definition fmt_replace (national : str) (meta : metadata) (f : format)
    (transform carrier : option str) : outcome unit str :=
  let* template :=
    match transform with
    | Some tr =>
        let* first := unwrap (re_find FIRST_GROUP (f_format f)) in
        let* g := unwrap (cap_get first 1) in
        let np := match md_national_prefix meta with Some p => p | None => [] end in
        let fmt1 := str_replace tr NP np in
        let fmt2 := str_replace fmt1 FG (36%N :: cap_text g) in
        let fmt3 := str_replace fmt2 CC (match carrier with Some c => c | None => [] end) in
        Ok (re_replace FIRST_GROUP (f_format f) fmt3)
    | None => Ok (f_format f)
    end in
  Ok (re_replace (f_pattern f) national template).

(** formatter.rs:138-145, 174-181 *)
Definition ext_suffix (meta : metadata) (p : phone) : str :=
  match ph_extension p with
  | Some e => match md_preferred_extension_prefix meta with
              | Some pre => pre
              | None => DEFAULT_EXTN_PREFIX
              end ++ e
  | None => []
  end.

(** formatter.rs:100-206, [Display for Formatter]; [Err tt] is [fmt::Error]
    and [dflt] the built-in database. *)
Definition fmt_display (dflt : database) (f : formatter) : outcome unit str :=
  let db := match fm_database f with Some db => db | None => dflt end in
  let p := fm_number f in
  let cc := code_value (ph_code p) in
  let* meta := ok_or (match by_code db cc with Some (m :: _) => Some m | _ => None end) tt in
  let national := nn_show (ph_national p) in
  let formats := match md_international_formats meta, fm_mode f with
                 | [], _ => md_formats meta
                 | _, National => md_formats meta
                 | l, _ => l
                 end in
  let chosen := match fm_format f with
                | Some x => Some x
                | None => choose_format national formats
                end in
  match fm_mode f with
  | E164 => Ok (lit "+" ++ dec cc ++ national)
  | International =>
      let* body := match chosen with
                   | Some x => fmt_replace national meta x None None
                   | None => Ok national
                   end in
      Ok (lit "+" ++ dec cc ++ lit " " ++ body ++ ext_suffix meta p)
  | National =>
      let* body :=
        match chosen with
        | Some x =>
            match ph_carrier p, f_domestic_carrier x with
            | Some c, Some rule => fmt_replace national meta x (Some rule) (Some c)
            | _, _ =>
                match f_national_prefix x with
                | Some rule => fmt_replace national meta x (Some rule) None
                | None => fmt_replace national meta x None None
                end
            end
        | None => Ok national
        end in
      Ok (body ++ ext_suffix meta p)
  | Rfc3966 =>
      let* body := match chosen with
                   | Some x =>
                       let* r := fmt_replace national meta x None None in
                       Ok (re_replace_all SEPARATOR_PATTERN r (lit "-"))
                   | None => Ok national
                   end in
      Ok (lit "tel:+" ++ dec cc ++ lit "-" ++ body
          ++ match ph_extension p with Some e => lit ";ext=" ++ e | None => [] end)
  end.
