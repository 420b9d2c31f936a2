(** * Helper: /repo/src/parser/helper.rs *)
From Verif Require Import Base Unicode Regex RegexSyntax Consts CountryId Types Metadata Database
  Validator Valid Number.

(** helper.rs:116-136.  Returns the extracted text only: the caller
    (natural.rs:21) drops the rest of the input.  The slice at 134 is kept,
    because it could panic. *)
Definition extract (value : str) : outcome unit str :=
  match re_find VALID_START_CHAR value with
  | None => Err tt
  | Some index =>
      let start := mr_start index in
      let* result := unwrap (slice_from value start) in
      let* result := match re_find UNWANTED_END_CHARS result with
                     | Some t => unwrap (slice_to result (mr_start t))
                     | None => Ok result
                     end in
      let* result := match re_find SECOND_NUMBER_START result with
                     | Some t => unwrap (slice_to result (mr_start t))
                     | None => Ok result
                     end in
      match result with
      | [] => Err tt
      | _ => let* _ := unwrap (slice_from value (start + blen result)) in Ok result
      end
  end.

(** helper.rs:416-447: the zero digits of the fifteen scripts listed there;
    the source lists the ten digits of each. *)
Definition script_zeros : list N :=
  [1632; 1776; 1984; 2406; 2534; 2662; 2790; 2918; 3046; 3174; 3302; 3430; 3664; 3792; 65296]%N.

Fixpoint script_digit (l : list N) (c : char) : option char :=
  match l with
  | [] => None
  | z :: l' => if in_range z (z + 9) c then Some (48 + (c - z))%N else script_digit l' c
  end.

(** helper.rs:409-449 *)
Definition as_dec_digit (c : char) : option char :=
  if is_digit c then Some c else script_digit script_zeros c.

(** helper.rs:357-361, 364-368: what is pushed for one character *)
Definition act_push (mappings : list (char * char)) (c : char) : str :=
  match as_dec_digit c with
  | Some d => [d]
  | None => match map_get mappings c with Some d => [d] | None => [] end
  end.

(** helper.rs:348-377: copies the leading ASCII digits, maps the others *)
Definition act (mappings : list (char * char)) (value : str) : str :=
  let '(digits, rest) := span is_digit value in
  match rest with
  | [] => value
  | _ => digits ++ flat_map (act_push mappings) rest
  end.

(** helper.rs:347-384 *)
Definition normalize (mappings : list (char * char)) (n : number) : number :=
  mk_number (pn_country n) (act mappings (pn_national n))
            (option_map (act mappings) (pn_prefix n))
            (option_map (act mappings) (pn_extension n))
            (pn_carrier n).

(** helper.rs:386-395 *)
Definition trim {E} (value : str) (start : nat) : outcome E str := unwrap (slice_from value start).

(** helper.rs:102-104, 238-240: byte length of the leading plus signs *)
Definition ignore_plus_len (s : str) : nat := blen (fst (span is_plus s)).

(** helper.rs:260-278 *)
Definition strip_idd {E} (idd : option regex) (n : number) : outcome E number :=
  match match idd with Some r => re_find r (pn_national n) | None => None end with
  | None => Ok n
  | Some m =>
      if Nat.eqb (mr_start m) 0 then
        let* after := unwrap (slice_from (pn_national n) (mr_end m)) in
        if starts_with after [ch_0] then Ok n
        else
          let n1 := match pn_country n with SrcPlus => n | _ => set_country n SrcIdd end in
          let* t := trim (pn_national n) (mr_end m) in
          Ok (set_national n1 t)
      else Ok n
  end.

(** helper.rs:220-279 *)
Definition international_prefix {E} (idd : option regex) (n : number) : outcome E number :=
  let mappings := if re_is_match VALID_ALPHA_PHONE (pn_national n)
                  then ALPHA_PHONE_MAPPINGS else ASCII_MAPPINGS in
  match pn_prefix n with
  | Some _ => Ok (normalize mappings (set_country n SrcPlus))
  | None =>
      let start := ignore_plus_len (pn_national n) in
      if negb (Nat.eqb start 0) then
        let* t := trim (pn_national n) start in
        let n1 := normalize mappings (set_national (set_country n SrcPlus) t) in
        if negb (found_at_start (match idd with Some r => re_find r (pn_national n1) | None => None end))
        then Ok n1
        else strip_idd idd n1
      else strip_idd idd (normalize mappings (set_country n SrcDefault))
  end.

(** helper.rs:179-188: [for len in 1..4] *)
Fixpoint find_code (db : database) (n : number) (lens : list nat) : outcome perr number :=
  match lens with
  | [] => Err InvalidCountryCode
  | len :: lens' =>
      let* pre := unwrap (slice_to (pn_national n) len) in
      let* code := unwrap (parse_u16 pre) in
      if is_some (by_code db code) then
        let* t := trim (pn_national n) len in
        Ok (set_prefix (set_national n t) (Some (dec code)))
      else find_code db n lens'
  end.

(** helper.rs:139-213 *)
Definition country_code (db : database) (country : option id) (n : number) : outcome perr number :=
  let idd := match country with
             | Some c => match by_id db (id_name c) with
                         | Some m => md_international_prefix m
                         | None => None
                         end
             | None => None
             end in
  let fallback := match country with None => Some DEFAULT_IDD | Some _ => None end in
  let* n := international_prefix (match idd with Some r => Some r | None => fallback end) n in
  match pn_country n with
  | SrcPlus | SrcIdd | SrcNumber =>
      if blen (pn_national n) <=? MIN_LENGTH_FOR_NSN then Err TooShortNsn
      else
        match pn_prefix n with
        | Some p =>
            let* prefix := ok_or (parse_u16 p) MalformedInteger in
            match by_code db prefix with
            | None => Err InvalidCountryCode
            | Some _ => Ok n
            end
        | None =>
            if starts_with (pn_national n) [ch_0] then Err InvalidCountryCode
            else find_code db n (seq 1 MAX_LENGTH_FOR_COUNTRY_CODE)
        end
  | SrcDefault =>
      match country with
      | None => Err InvalidCountryCode
      | Some c =>
          let* meta := unwrap (by_id db (id_name c)) in
          let code := dec (md_country_code meta) in
          let* n :=
            if starts_with (pn_national n) code
               && (negb (d_is_match (ds_general (md_descriptors meta)) (pn_national n))
                   || negb (is_possible (v_length meta (pn_national n) TUnknown)))
            then let* t := trim (pn_national n) (blen code) in
                 Ok (set_national (set_country n SrcNumber) t)
            else Ok n in
          Ok (set_prefix n (Some code))
      end
  end.

(** helper.rs:282-340 *)
Definition national_number {E} (meta : metadata) (n : number) : outcome E number :=
  let transform := md_national_prefix_transform_rule meta in
  match md_national_prefix_for_parsing meta with
  | None =>
      match md_national_prefix meta with
      | Some prefix =>
          if starts_with (pn_national n) prefix
          then let* t := trim (pn_national n) (blen prefix) in Ok (set_national n t)
          else Ok n
      | None => Ok n
      end
  | Some parsing =>
      match re_find parsing (pn_national n) with
      | None => Ok n
      | Some m =>
          let start := mr_start m in
          let end_ := mr_end m in
          if negb (Nat.eqb start 0) then Ok n
          else
            let general := ds_general (md_descriptors meta) in
            let viable := d_is_match general (pn_national n) in
            let groups := re_captures_len parsing in
            let first := option_map cap_text (cap_get m 1) in
            let last := option_map cap_text (cap_get m (re_captures_len parsing - 1)) in
            match transform, last with
            | Some tr, Some _ =>
                let transformed := re_replace parsing (pn_national n) tr in
                if viable && negb (d_is_match general transformed) then Ok n
                else
                  let* f := unwrap first in
                  Ok (set_national (set_carrier n (Some f)) transformed)
            | _, _ =>
                let* tail := unwrap (slice_from (pn_national n) start) in
                if viable && negb (d_is_match general tail) then Ok n
                else
                  let n1 := set_carrier n (if 0 <? groups then last else None) in
                  let* t := trim (pn_national n) end_ in
                  Ok (set_national n1 t)
            end
      end
  end.
