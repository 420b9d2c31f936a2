(** * Shared: the library's statics, and its entry points as code that reads them

    Every function below is the function of the same name (without [m_]) in
    Helper.v, Natural.v, Parser.v, Formatter.v or Api.v, with each dereference
    of a static made explicit, in the order of the Rust code.  The statics of
    consts.rs that no function uses are left out. *)
From Verif Require Import Base Unicode Regex RegexSyntax Consts CountryId Types NationalNumber
  Metadata Database Validator Valid Number Rfc3966 Helper Natural PhoneNumber Parser Formatter
  Loader DefaultDb Postcard Api Lazy.

(** consts.rs:53, 95, 124, 184, 280, 290, 296, 302, 315, 324, 351, 266, 375;
    metadata/database.rs:31 *)
Inductive cell :=
| S_DEFAULT_IDD | S_ASCII_MAPPINGS | S_ALPHA_MAPPINGS | S_ALPHA_PHONE_MAPPINGS
| S_VALID_START_CHAR | S_SECOND_NUMBER_START | S_UNWANTED_END_CHARS | S_VALID_ALPHA_PHONE
| S_CAPTURING_EXTN_DIGITS | S_EXTN_PATTERNS_FOR_PARSING | S_EXTN_PATTERN
| S_SEPARATOR_PATTERN | S_FIRST_GROUP | S_DATABASE.

Definition cell_dec (a b : cell) : {a = b} + {a <> b}.
Proof. decide equality. Defined.

Definition val (k : cell) : Type :=
  match k with
  | S_ASCII_MAPPINGS | S_ALPHA_MAPPINGS | S_ALPHA_PHONE_MAPPINGS => list (char * char)
  | S_CAPTURING_EXTN_DIGITS | S_EXTN_PATTERNS_FOR_PARSING => str
  | S_DATABASE => database
  | _ => regex
  end.

Notation code A := (prog cell val A).
Notation "'force' x := k 'in' b" := (@Force cell val _ k (fun x => b))
  (at level 200, x name, k at level 99, b at level 200).

(** Code that may fail or panic: [?], [unwrap] and slicing. *)
Definition mbind {E A B} (m : code (outcome E A)) (f : A -> code (outcome E B)) : code (outcome E B) :=
  pbind m (fun o => match o with
                    | Ok a => f a
                    | Err e => Ret (Err e)
                    | Panic => Ret Panic
                    end).
Notation "'do*' x := m 'in' b" := (mbind m (fun x => b))
  (at level 200, x name, m at level 99, b at level 200).
Definition ok {E A} (a : A) : code (outcome E A) := Ret (Ok a).

(** database.rs:28: the bytes written by build.rs *)
Definition DATABASE_BIN : bytes := to_bytes default_entries.

(** The closures.  A pattern that does not compile is a panic ([unwrap]). *)
Definition init (k : cell) : code (option (val k)) :=
  match k return code (option (val k)) with
  | S_DEFAULT_IDD => Ret (regex_new (lit "00"))
  | S_ASCII_MAPPINGS => Ret (Some (map (fun c => (c, c)) (lit "0123456789")))
  | S_ALPHA_MAPPINGS =>
      Ret (Some (combine (lit "ABCDEFGHIJKLMNOPQRSTUVWXYZabcdefghijklmnopqrstuvwxyz")
                         (lit "2223334445556667777888999922233344455566677778889999")))
  | S_ALPHA_PHONE_MAPPINGS =>
      force a := S_ASCII_MAPPINGS in
      force b := S_ALPHA_MAPPINGS in
      Ret (Some (a ++ b))
  | S_VALID_START_CHAR => Ret (regex_new (lit "[" ++ PLUS_CHARS ++ DIGITS ++ lit "]"))
  | S_SECOND_NUMBER_START => Ret (regex_new (lit "[\\/] *x"))
  | S_UNWANTED_END_CHARS => Ret (regex_new (lit "[[\P{N}&&\P{L}]&&[^#]]+$"))
  | S_VALID_ALPHA_PHONE => Ret (regex_new (lit "(?:.*?[A-Za-z]){3}.*"))
  | S_CAPTURING_EXTN_DIGITS => Ret (Some (lit "(" ++ DIGITS ++ lit "{0,7})"))
  | S_EXTN_PATTERNS_FOR_PARSING =>
      force d := S_CAPTURING_EXTN_DIGITS in
      Ret (Some (lit ";ext=" ++ d ++
        lit "|[ \x{00A0}\t,]*(?:e?xt(?:ensi(?:o\x{0301}?|\x{00F3}))?n?|\x{FF45}?\x{FF58}\x{FF54}\x{FF4E}?|[" ++
        lit ",;x\x{FF58}#\x{FF03}~\x{FF5E}" ++
        lit "]|int|anexo|\x{FF49}\x{FF4E}\x{FF54})[:\.\x{FF0E}]?[ \x{00A0}\t,-]*" ++
        d ++ lit "#?|[- ]+(" ++ DIGITS ++ lit "{1,5})#"))
  | S_EXTN_PATTERN =>
      force p := S_EXTN_PATTERNS_FOR_PARSING in
      Ret (regex_build false true (lit "(?:" ++ p ++ lit ")$"))
  | S_SEPARATOR_PATTERN => Ret (regex_new (lit "[" ++ VALID_PUNCTUATION ++ lit "]+"))
  | S_FIRST_GROUP => Ret (regex_new (lit "(\$\d)"))
  | S_DATABASE => Ret (match embedded_db DATABASE_BIN with Ok db => Some db | _ => None end)
  end.

(** helper.rs:116-136 *)
Definition m_extract (value : str) : code (outcome unit str) :=
  force start_char := S_VALID_START_CHAR in
  match re_find start_char value with
  | None => Ret (Err tt)
  | Some index =>
      let start := mr_start index in
      do* result := Ret (unwrap (slice_from value start)) in
      force unwanted := S_UNWANTED_END_CHARS in
      do* result := Ret (match re_find unwanted result with
                         | Some t => unwrap (slice_to result (mr_start t))
                         | None => Ok result
                         end) in
      force second := S_SECOND_NUMBER_START in
      do* result := Ret (match re_find second result with
                         | Some t => unwrap (slice_to result (mr_start t))
                         | None => Ok result
                         end) in
      match result with
      | [] => Ret (Err tt)
      | _ :: _ => do* _ := Ret (unwrap (slice_from value (start + blen result))) in ok result
      end
  end.

(** natural.rs:20-47 *)
Definition m_natural (i : str) : code (outcome unit number) :=
  do* i := m_extract i in
  force extn := S_EXTN_PATTERN in
  match re_find extn i with
  | None => ok (mk_number SrcDefault i None None None)
  | Some c =>
      match cap_get c 2 with
      | None => Ret (Err tt)
      | Some e =>
          do* nat_ := Ret (unwrap (slice_to i (mr_start c))) in
          ok (mk_number SrcDefault nat_ None (Some (cap_text e)) None)
      end
  end.

(** parser/mod.rs:46-51 *)
Definition m_p_phone_number (s : str) : code (outcome perr number) :=
  match rfc3966 s with
  | Some n => ok n
  | None => pbind (m_natural s) (fun o =>
      Ret (match o with
           | Ok n => Ok n
           | Err _ => Err NoNumber
           | Panic => Panic
           end))
  end.

(** helper.rs:220-279; the static is dereferenced by the choice at 224-229 *)
Definition m_international_prefix (idd : option regex) (n : number) : code (outcome perr number) :=
  force alpha := S_VALID_ALPHA_PHONE in
  let go (mappings : list (char * char)) : code (outcome perr number) :=
    Ret (match pn_prefix n with
         | Some _ => Ok (normalize mappings (set_country n SrcPlus))
         | None =>
             let start := ignore_plus_len (pn_national n) in
             if negb (Nat.eqb start 0) then
               let* t := trim (pn_national n) start in
               let n1 := normalize mappings (set_national (set_country n SrcPlus) t) in
               if negb (found_at_start (match idd with Some r => re_find r (pn_national n1) | None => None end))
               then Ok n1
               else strip_idd idd n1
             else strip_idd idd (normalize mappings (set_country n SrcDefault))
         end) in
  if re_is_match alpha (pn_national n)
  then force m := S_ALPHA_PHONE_MAPPINGS in go m
  else force m := S_ASCII_MAPPINGS in go m.

(** helper.rs:139-213; the fallback is dereferenced at 150 *)
Definition m_country_code (db : database) (country : option id) (n : number)
  : code (outcome perr number) :=
  let idd := match country with
             | Some c => match by_id db (id_name c) with
                         | Some m => md_international_prefix m
                         | None => None
                         end
             | None => None
             end in
  let go (fallback : option regex) : code (outcome perr number) :=
    do* n := m_international_prefix (match idd with Some r => Some r | None => fallback end) n in
    Ret (match pn_country n with
         | SrcPlus | SrcIdd | SrcNumber =>
             if blen (pn_national n) <=? MIN_LENGTH_FOR_NSN then Err TooShortNsn
             else
               match pn_prefix n with
               | Some p =>
                   let* prefix := ok_or (parse_u16 p) MalformedInteger in
                   match by_code db prefix with
                   | None => Err InvalidCountryCode
                   | Some _ => Ok n
                   end
               | None =>
                   if starts_with (pn_national n) [ch_0] then Err InvalidCountryCode
                   else find_code db n (seq 1 MAX_LENGTH_FOR_COUNTRY_CODE)
               end
         | SrcDefault =>
             match country with
             | None => Err InvalidCountryCode
             | Some c =>
                 let* meta := unwrap (by_id db (id_name c)) in
                 let code := dec (md_country_code meta) in
                 let* n :=
                   if starts_with (pn_national n) code
                      && (negb (d_is_match (ds_general (md_descriptors meta)) (pn_national n))
                          || negb (is_possible (v_length meta (pn_national n) TUnknown)))
                   then let* t := trim (pn_national n) (blen code) in
                        Ok (set_national (set_country n SrcNumber) t)
                   else Ok n in
                 Ok (set_prefix n (Some code))
             end
         end) in
  match country with
  | None => force r := S_DEFAULT_IDD in go (Some r)
  | Some _ => go None
  end.

(** parser/mod.rs:41-120 *)
Definition m_parse_with (db : database) (country : option id) (s : str) : code (outcome perr phone) :=
  do* n := m_p_phone_number s in
  if negb (is_viable (pn_national n)) then Ret (Err NoNumber)
  else
    do* n := m_country_code db country n in
    do* meta := Ret (select_meta db country n) in
    do* n := Ret (strip_national meta n) in
    Ret (finish n).

(** formatter.rs:232-260: dereferenced at 244 and again at 254 *)
Definition m_fmt_replace (national : str) (meta : metadata) (f : format)
    (transform carrier : option str) : code (outcome unit str) :=
  do* template :=
    match transform with
    | Some tr =>
        force first_group := S_FIRST_GROUP in
        do* first := Ret (unwrap (re_find first_group (f_format f))) in
        do* g := Ret (unwrap (cap_get first 1)) in
        let np := match md_national_prefix meta with Some p => p | None => [] end in
        let fmt1 := str_replace tr NP np in
        let fmt2 := str_replace fmt1 FG (36%N :: cap_text g) in
        let fmt3 := str_replace fmt2 CC (match carrier with Some c => c | None => [] end) in
        force again := S_FIRST_GROUP in
        ok (re_replace again (f_format f) fmt3)
    | None => ok (f_format f)
    end in
  ok (re_replace (f_pattern f) national template).

(** formatter.rs:100-206.  The argument of [unwrap_or] at 102 is evaluated
    first: the built-in database is dereferenced even if the formatter was
    given another one. *)
Definition m_fmt_display (f : formatter) : code (outcome unit str) :=
  force dflt := S_DATABASE in
  let db := match fm_database f with Some db => db | None => dflt end in
  let p := fm_number f in
  let cc := code_value (ph_code p) in
  do* meta := Ret (ok_or (match by_code db cc with Some (m :: _) => Some m | _ => None end) tt) in
  let national := nn_show (ph_national p) in
  let formats := match md_international_formats meta, fm_mode f with
                 | [], _ => md_formats meta
                 | _, National => md_formats meta
                 | l, _ => l
                 end in
  let chosen := match fm_format f with
                | Some x => Some x
                | None => choose_format national formats
                end in
  match fm_mode f with
  | E164 => ok (lit "+" ++ dec cc ++ national)
  | International =>
      do* body := match chosen with
                  | Some x => m_fmt_replace national meta x None None
                  | None => ok national
                  end in
      ok (lit "+" ++ dec cc ++ lit " " ++ body ++ ext_suffix meta p)
  | National =>
      do* body :=
        match chosen with
        | Some x =>
            match ph_carrier p, f_domestic_carrier x with
            | Some c, Some rule => m_fmt_replace national meta x (Some rule) (Some c)
            | _, _ =>
                match f_national_prefix x with
                | Some rule => m_fmt_replace national meta x (Some rule) None
                | None => m_fmt_replace national meta x None None
                end
            end
        | None => ok national
        end in
      ok (body ++ ext_suffix meta p)
  | Rfc3966 =>
      do* body := match chosen with
                  | Some x =>
                      force separator := S_SEPARATOR_PATTERN in
                      do* r := m_fmt_replace national meta x None None in
                      ok (re_replace_all separator r (lit "-"))
                  | None => ok national
                  end in
      ok (lit "tel:+" ++ dec cc ++ lit "-" ++ body
          ++ match ph_extension p with Some e => lit ";ext=" ++ e | None => [] end)
  end.

(** The calls a thread can make: the public functions that read statics, with
    the built-in database or another one.  [FromStr] and [Display] of
    [PhoneNumber] are [C_parse None] and [C_display (fmt_format p)]. *)
Inductive call :=
| C_parse (country : option id) (s : str)            (* parser/mod.rs:33-38 *)
| C_parse_with (db : database) (country : option id) (s : str)   (* parser/mod.rs:41-120 *)
| C_display (f : formatter)                           (* formatter.rs:100-206 *)
| C_is_valid (p : phone)                              (* validator.rs:91-93 *)
| C_number_type (p : phone)                           (* phone_number.rs:230-232 *)
| C_country_id (p : phone)                            (* phone_number.rs:248-254 *)
| C_database.                                         (* metadata/mod.rs:26, [&*DATABASE] *)

(** What a call gives back. *)
Definition result (c : call) : Type :=
  match c with
  | C_parse _ _ | C_parse_with _ _ _ => outcome perr phone
  | C_display _ => outcome unit str
  | C_is_valid _ => outcome perr bool
  | C_number_type _ => outcome perr ptype
  | C_country_id _ => outcome perr (option id)
  | C_database => outcome unit database
  end.

Definition crash (c : call) : result c :=
  match c return result c with
  | C_parse _ _ | C_parse_with _ _ _ | C_display _ | C_is_valid _ | C_number_type _
  | C_country_id _ | C_database => Panic
  end.

Definition body (c : call) : code (result c) :=
  match c return code (result c) with
  | C_parse country s => force db := S_DATABASE in m_parse_with db country s
  | C_parse_with db country s => m_parse_with db country s
  | C_display f => m_fmt_display f
  | C_is_valid p => force db := S_DATABASE in Ret (is_valid_with db p)
  | C_number_type p => force db := S_DATABASE in Ret (number_type_with db p)
  | C_country_id p => force db := S_DATABASE in Ret (country_id_with db p)
  | C_database => force db := S_DATABASE in Ret (Ok db)
  end.
