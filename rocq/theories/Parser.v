(** * Parser: /repo/src/parser/mod.rs *)
From Verif Require Import Base Unicode Regex RegexSyntax Consts CountryId Types NationalNumber
  Metadata Database Validator Valid Number Rfc3966 Helper Natural PhoneNumber.

(** parser/mod.rs:46-51: [alt((rfc3966, natural))], any error is [NoNumber]. *)
Definition p_phone_number (s : str) : outcome perr number :=
  match rfc3966 s with
  | Some n => Ok n
  | None => match natural s with
            | Ok n => Ok n
            | Err _ => Err NoNumber
            | Panic => Panic
            end
  end.

(** [number.prefix.map(|p| p.parse()).unwrap_or(Ok(0))?] (mod.rs:73,111) *)
Definition prefix_value (n : number) : outcome perr N :=
  match pn_prefix n with
  | Some p => ok_or (parse_u16 p) MalformedInteger
  | None => Ok 0%N
  end.

(** mod.rs:66-83 *)
Definition select_meta (db : database) (country : option id) (n : number)
  : outcome perr (option metadata) :=
  match country, pn_country n with
  | Some c, SrcDefault => Ok (by_id db (id_name c))
  | _, _ =>
      let* code := prefix_value n in
      let* s := source_for db code (trim_start_char ch_0 (pn_national n)) in
      Ok (source_meta db s)
  end.

(** mod.rs:85-99 *)
Definition strip_national (meta : option metadata) (n : number) : outcome perr number :=
  match meta with
  | None => Ok n
  | Some meta =>
      let* potential := national_number meta n in
      let* potential :=
        match md_national_prefix meta with
        | Some prefix =>
            if starts_with (pn_national potential) prefix
            then let* t := trim (pn_national potential) (blen prefix) in
                 Ok (set_national potential t)
            else Ok potential
        | None => Ok potential
        end in
      match v_length meta (pn_national potential) TUnknown with
      | TooShort => Ok n
      | _ => Ok potential
      end
  end.

(** mod.rs:101-119 *)
Definition finish (n : number) : outcome perr phone :=
  if blen (pn_national n) <? MIN_LENGTH_FOR_NSN then Err TooShortNsn
  else if MAX_LENGTH_FOR_NSN <? blen (pn_national n) then Err TooLong
  else
    let* code := prefix_value n in
    let* nat_ := nn_parse (pn_national n) in
    Ok (mk_phone (mk_code code (pn_country n)) nat_ (pn_extension n) (pn_carrier n)).

(** mod.rs:41-120 *)
Definition parse_with (db : database) (country : option id) (s : str) : outcome perr phone :=
  let* n := p_phone_number s in
  if negb (is_viable (pn_national n)) then Err NoNumber
  else
    let* n := country_code db country n in
    let* meta := select_meta db country n in
    let* n := strip_national meta n in
    finish n.
