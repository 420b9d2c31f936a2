(** * Loader: /repo/src/metadata/loader.rs

    The XML reader (quick-xml) is represented by the list of the events it
    will deliver; after the last one it keeps delivering [Eof].  An attribute
    is [None] when quick-xml reports it as malformed or duplicated.  Names and
    values are text (a non-UTF-8 name is not represented). *)
From Verif Require Import Base CountryId Types Metadata.

Definition attr := option (str * str).

Inductive event :=
| EvStart (name : str) (attrs : list attr)
| EvEnd (name : str)
| EvEmpty (name : str) (attrs : list attr)
| EvText (text : str)
| EvComment
| EvDocType
| EvOther                 (* CData, PI, declaration, entity reference *)
| EvError.                (* the reader reports malformed XML *)

Definition res (A : Type) := outcome lerr (A * list event).

(** [char::is_whitespace], used by [str::trim] *)
Definition is_whitespace (c : char) : bool :=
  in_range 9 13 c || N.eqb c 32 || N.eqb c 133 || N.eqb c 160 || N.eqb c 5760
  || in_range 8192 8202 c || in_range 8232 8233 c || N.eqb c 8239 || N.eqb c 8287 || N.eqb c 12288.

Definition trim_ws (s : str) : str :=
  let l := snd (span is_whitespace s) in
  rev (snd (span is_whitespace (rev l))).

(** [str::split(char)] *)
Fixpoint split_char (c : char) (s : str) : list str :=
  match s with
  | [] => [[]]
  | x :: s' =>
      if N.eqb x c then [] :: split_char c s'
      else match split_char c s' with
           | p :: ps => (x :: p) :: ps
           | [] => [[x]]
           end
  end.

(** [start..end + 1] as a list *)
Definition range_list (start end_ : N) : list N :=
  map (fun k => start + N.of_nat k)%N (seq 0 (N.to_nat (end_ + 1 - start)%N)).

(** loader.rs:320-335: one part of a length list.  [end + 1] overflows for
    65535: a panic with overflow checks on (the default in debug builds). *)
Definition length_part (part : str) : outcome lerr (list N) :=
  match part with
  | [] => Panic                                 (* as_bytes()[0] *)
  | c :: _ =>
      if N.eqb c 91 then
        match split_char 45%N part with
        | start :: end_ :: _ =>
            let* s := unwrap (slice_from start 1) in
            let* s := ok_or (parse_u16 s) LInteger in
            match blen end_ with
            | O => Panic                        (* end.len() - 1 *)
            | S k =>
                let* e := unwrap (slice_to end_ k) in
                let* e := ok_or (parse_u16 e) LInteger in
                if N.eqb e 65535 then Panic else Ok (range_list s e)
            end
        | _ => Ok []
        end
      else let* n := ok_or (parse_u16 part) LInteger in Ok [n]
  end.

Fixpoint lengths_loop (parts : list str) : outcome lerr (list N) :=
  match parts with
  | [] => Ok []
  | p :: parts' =>
      let* a := length_part (trim_ws p) in
      let* b := lengths_loop parts' in
      Ok (a ++ b)
  end.

(** loader.rs:317-338, [lengths] *)
Definition lengths (value : str) : outcome lerr (list N) := lengths_loop (split_char 44%N value).

(** [value.parse::<bool>()?] *)
Definition parse_bool (s : str) : outcome lerr bool :=
  if str_eqb s (lit "true") then Ok true
  else if str_eqb s (lit "false") then Ok false
  else Err LBool.

(** loader.rs:608-636, [text] *)
Fixpoint l_text (name : str) (acc : str) (evs : list event) : res str :=
  match evs with
  | [] => Err LUnexpectedEof
  | EvText t :: evs' => l_text name (acc ++ t) evs'
  | EvEnd n :: evs' => if str_eqb n name then Ok (acc, evs') else Err (LMismatchedTag n)
  | EvError :: _ => Err LXml
  | _ :: _ => Err (LUnhandledEvent (lit "text"))
  end.

(** loader.rs:574-606, [ignore]: recursive over nested elements.  The stack
    of open elements replaces the Rust call stack. *)
Fixpoint l_ignore (stack : list str) (evs : list event) : res unit :=
  match stack with
  | [] => Ok (tt, evs)
  | name :: stack' =>
      match evs with
      | [] => Err LUnexpectedEof
      | EvText _ :: evs' | EvComment :: evs' | EvEmpty _ _ :: evs' => l_ignore stack evs'
      | EvStart n _ :: evs' => l_ignore (n :: stack) evs'
      | EvEnd n :: evs' =>
          if str_eqb n name
          then match stack' with [] => Ok (tt, evs') | _ => l_ignore stack' evs' end
          else Err (LMismatchedTag n)
      | EvError :: _ => Err LXml
      | _ :: _ => Err (LUnhandledEvent (lit "ignore"))
      end
  end.

(** [for attr in e.attributes() { ... }] *)
Fixpoint fold_attrs {A} (f : A -> str -> str -> outcome lerr A) (a : A) (l : list attr)
  : outcome lerr A :=
  match l with
  | [] => Ok a
  | None :: _ => Err LXml
  | Some (k, v) :: l' => let* a' := f a k v in fold_attrs f a' l'
  end.

(** loader.rs:362-383 *)
Definition descriptor_attr (d : ldescriptor) (k v : str) : outcome lerr ldescriptor :=
  if str_eqb k (lit "national") then
    let* l := lengths v in
    Ok (mk_ldescriptor (ld_national_number d) l (ld_possible_local_length d) (ld_example d))
  else if str_eqb k (lit "localOnly") then
    let* l := lengths v in
    Ok (mk_ldescriptor (ld_national_number d) (ld_possible_length d) l (ld_example d))
  else Err (LUnhandledAttribute (lit "descriptor::possibleLength") k v).

(** loader.rs:309-414, [descriptor]; the fuel bounds the number of loop rounds. *)
Fixpoint l_descriptor (fuel : nat) (name : str) (d : ldescriptor) (evs : list event)
  : res ldescriptor :=
  match fuel with
  | O => Err LUnexpectedEof
  | S fuel' =>
      match evs with
      | [] => Err LUnexpectedEof
      | EvText _ :: evs' | EvComment :: evs' => l_descriptor fuel' name d evs'
      | EvStart n _ :: evs' =>
          if str_eqb n (lit "nationalNumberPattern") then
            let* (t, evs2) := l_text n [] evs' in
            l_descriptor fuel' name
              (mk_ldescriptor (Some t) (ld_possible_length d) (ld_possible_local_length d)
                              (ld_example d)) evs2
          else if str_eqb n (lit "exampleNumber") then
            let* (t, evs2) := l_text n [] evs' in
            l_descriptor fuel' name
              (mk_ldescriptor (ld_national_number d) (ld_possible_length d)
                              (ld_possible_local_length d) (Some t)) evs2
          else Err (LUnhandledElement (lit "descriptor") n)
      | EvEmpty n attrs :: evs' =>
          if str_eqb n (lit "possibleLengths") then
            let* d' := fold_attrs descriptor_attr d attrs in
            l_descriptor fuel' name d' evs'
          else Err (LUnhandledElement (lit "descriptor") n)
      | EvEnd n :: evs' => if str_eqb n name then Ok (d, evs') else Err (LMismatchedTag n)
      | EvError :: _ => Err LXml
      | _ :: _ => Err (LUnhandledEvent (lit "descriptor"))
      end
  end.

(** loader.rs:484-509 *)
Definition format_attr (f : lformat) (k v : str) : outcome lerr lformat :=
  if str_eqb k (lit "pattern") then
    Ok (mk_lformat (Some v) (lf_format f) (lf_leading_digits f)
                   (lf_national_prefix_formatting_rule f)
                   (lf_national_prefix_optional_when_formatting f) (lf_domestic_carrier f))
  else if str_eqb k (lit "nationalPrefixFormattingRule") then
    Ok (mk_lformat (lf_pattern f) (lf_format f) (lf_leading_digits f) (Some v)
                   (lf_national_prefix_optional_when_formatting f) (lf_domestic_carrier f))
  else if str_eqb k (lit "nationalPrefixOptionalWhenFormatting") then
    let* b := parse_bool v in
    Ok (mk_lformat (lf_pattern f) (lf_format f) (lf_leading_digits f)
                   (lf_national_prefix_formatting_rule f) b (lf_domestic_carrier f))
  else if str_eqb k (lit "carrierCodeFormattingRule") then
    Ok (mk_lformat (lf_pattern f) (lf_format f) (lf_leading_digits f)
                   (lf_national_prefix_formatting_rule f)
                   (lf_national_prefix_optional_when_formatting f) (Some v))
  else Err (LUnhandledAttribute (lit "format") k v).

Definition lf_set_format (f : lformat) (t : option str) : lformat :=
  mk_lformat (lf_pattern f) t (lf_leading_digits f) (lf_national_prefix_formatting_rule f)
             (lf_national_prefix_optional_when_formatting f) (lf_domestic_carrier f).
Definition lf_push_leading (f : lformat) (t : str) : lformat :=
  mk_lformat (lf_pattern f) (lf_format f) (lf_leading_digits f ++ [t])
             (lf_national_prefix_formatting_rule f)
             (lf_national_prefix_optional_when_formatting f) (lf_domestic_carrier f).

(** loader.rs:511-571: the element loop of [format] *)
Fixpoint l_format_loop (fuel : nat) (name : str) (f : lformat) (intl : option str)
    (evs : list event) : res (lformat * option lformat) :=
  match fuel with
  | O => Err LUnexpectedEof
  | S fuel' =>
      match evs with
      | [] => Err LUnexpectedEof
      | EvText _ :: evs' | EvComment :: evs' => l_format_loop fuel' name f intl evs'
      | EvStart n _ :: evs' =>
          if str_eqb n (lit "leadingDigits") then
            let* (t, evs2) := l_text n [] evs' in
            l_format_loop fuel' name (lf_push_leading f t) intl evs2
          else if str_eqb n (lit "format") then
            let* (t, evs2) := l_text n [] evs' in
            l_format_loop fuel' name (lf_set_format f (Some t)) (Some t) evs2
          else if str_eqb n (lit "intlFormat") then
            let* (t, evs2) := l_text n [] evs' in
            l_format_loop fuel' name f (if str_eqb t (lit "NA") then None else Some t) evs2
          else Err (LUnhandledElement (lit "format") n)
      | EvEnd n :: evs' =>
          if str_eqb n name
          then Ok ((f, option_map (fun v => lf_set_format f (Some v)) intl), evs')
          else Err (LMismatchedTag n)
      | EvError :: _ => Err LXml
      | _ :: _ => Err (LUnhandledEvent (lit "format"))
      end
  end.

(** loader.rs:473-572, [format] *)
Definition l_format (fuel : nat) (dflt : lformat) (name : str) (attrs : list attr)
    (evs : list event) : res (lformat * option lformat) :=
  let* f := fold_attrs format_attr dflt attrs in
  l_format_loop fuel name f None evs.

(** loader.rs:416-471, [formats] *)
Fixpoint l_formats (fuel : nat) (dflt : lformat) (name : str) (natl intl : list lformat)
    (evs : list event) : res (list lformat * list lformat) :=
  match fuel with
  | O => Err LUnexpectedEof
  | S fuel' =>
      match evs with
      | [] => Err LUnexpectedEof
      | EvText _ :: evs' | EvComment :: evs' => l_formats fuel' dflt name natl intl evs'
      | EvStart n attrs :: evs' =>
          if str_eqb n (lit "numberFormat") then
            let* ((f, fi), evs2) := l_format fuel' dflt n attrs evs' in
            l_formats fuel' dflt name (natl ++ [f])
                      (match fi with Some g => intl ++ [g] | None => intl end) evs2
          else Err (LUnhandledElement (lit "formats") n)
      | EvEnd n :: evs' => if str_eqb n name then Ok ((natl, intl), evs') else Err (LMismatchedTag n)
      | EvError :: _ => Err LXml
      | _ :: _ => Err (LUnhandledEvent (lit "formats"))
      end
  end.

(** Updates of the fields of [Metadata] that [territory] performs. *)
Definition lm_head (m : lmetadata) (i : option str) (cc : option N) (ip pip np pep npp tr : option str)
    (main : bool) (ld : option str) (mnp : bool) (df : lformat) : lmetadata :=
  mk_lmetadata (lm_general m) (lm_fixed_line m) (lm_mobile m) (lm_toll_free m) (lm_premium_rate m)
    (lm_shared_cost m) (lm_personal_number m) (lm_voip m) (lm_pager m) (lm_uan m) (lm_emergency m)
    (lm_voicemail m) (lm_short_code m) (lm_standard_rate m) (lm_carrier m) (lm_no_international m)
    i cc ip pip np pep npp tr (lm_formats m) (lm_international_formats m) main ld mnp df
    (lm_default_descriptor m).

(** loader.rs:177-232 *)
Definition territory_attr (m : lmetadata) (k v : str) : outcome lerr lmetadata :=
  let i := lm_id m in let cc := lm_country_code m in let ip := lm_international_prefix m in
  let pip := lm_preferred_international_prefix m in let np := lm_national_prefix m in
  let pep := lm_preferred_extension_prefix m in let npp := lm_national_prefix_for_parsing m in
  let tr := lm_national_prefix_transform_rule m in let main := lm_main_country_for_code m in
  let ld := lm_leading_digits m in let mnp := lm_mobile_number_portable m in
  let df := lm_default_format m in
  if str_eqb k (lit "id") then Ok (lm_head m (Some v) cc ip pip np pep npp tr main ld mnp df)
  else if str_eqb k (lit "countryCode") then
    let* n := ok_or (parse_u16 v) LInteger in
    Ok (lm_head m i (Some n) ip pip np pep npp tr main ld mnp df)
  else if str_eqb k (lit "internationalPrefix") then
    Ok (lm_head m i cc (Some v) pip np pep npp tr main ld mnp df)
  else if str_eqb k (lit "preferredInternationalPrefix") then
    Ok (lm_head m i cc ip (Some v) np pep npp tr main ld mnp df)
  else if str_eqb k (lit "nationalPrefix") then
    Ok (lm_head m i cc ip pip (Some v) pep npp tr main ld mnp df)
  else if str_eqb k (lit "preferredExtnPrefix") then
    Ok (lm_head m i cc ip pip np (Some v) npp tr main ld mnp df)
  else if str_eqb k (lit "nationalPrefixForParsing") then
    Ok (lm_head m i cc ip pip np pep (Some v) tr main ld mnp df)
  else if str_eqb k (lit "nationalPrefixTransformRule") then
    Ok (lm_head m i cc ip pip np pep npp (Some v) main ld mnp df)
  else if str_eqb k (lit "mainCountryForCode") then
    let* b := parse_bool v in
    Ok (lm_head m i cc ip pip np pep npp tr b ld mnp df)
  else if str_eqb k (lit "leadingDigits") then
    Ok (lm_head m i cc ip pip np pep npp tr main (Some v) mnp df)
  else if str_eqb k (lit "mobileNumberPortableRegion") then
    let* b := parse_bool v in
    Ok (lm_head m i cc ip pip np pep npp tr main ld b df)
  else if str_eqb k (lit "nationalPrefixFormattingRule") then
    Ok (lm_head m i cc ip pip np pep npp tr main ld mnp
          (mk_lformat (lf_pattern df) (lf_format df) (lf_leading_digits df) (Some v)
                      (lf_national_prefix_optional_when_formatting df) (lf_domestic_carrier df)))
  else if str_eqb k (lit "nationalPrefixOptionalWhenFormatting") then
    let* b := parse_bool v in
    Ok (lm_head m i cc ip pip np pep npp tr main ld mnp
          (mk_lformat (lf_pattern df) (lf_format df) (lf_leading_digits df)
                      (lf_national_prefix_formatting_rule df) b (lf_domestic_carrier df)))
  else if str_eqb k (lit "carrierCodeFormattingRule") then
    Ok (lm_head m i cc ip pip np pep npp tr main ld mnp
          (mk_lformat (lf_pattern df) (lf_format df) (lf_leading_digits df)
                      (lf_national_prefix_formatting_rule df)
                      (lf_national_prefix_optional_when_formatting df) (Some v)))
  else Err (LUnhandledAttribute (lit "format") k v).

(** The descriptor elements of a territory (loader.rs:242-276), as an index. *)
Inductive dslot :=
| DGeneral | DFixedLine | DMobile | DTollFree | DPremiumRate | DSharedCost | DPersonalNumber
| DVoip | DPager | DUan | DEmergency | DVoicemail | DNoInternational.

Definition dslot_name (s : dslot) : str :=
  match s with
  | DGeneral => lit "generalDesc"
  | DFixedLine => lit "fixedLine"
  | DMobile => lit "mobile"
  | DTollFree => lit "tollFree"
  | DPremiumRate => lit "premiumRate"
  | DSharedCost => lit "sharedCost"
  | DPersonalNumber => lit "personalNumber"
  | DVoip => lit "voip"
  | DPager => lit "pager"
  | DUan => lit "uan"
  | DEmergency => lit "emergency"
  | DVoicemail => lit "voicemail"
  | DNoInternational => lit "noInternationalDialling"
  end.

Definition all_dslots : list dslot :=
  [DGeneral; DFixedLine; DMobile; DTollFree; DPremiumRate; DSharedCost; DPersonalNumber;
   DVoip; DPager; DUan; DEmergency; DVoicemail; DNoInternational].

Fixpoint dslot_find (n : str) (l : list dslot) : option dslot :=
  match l with
  | [] => None
  | s :: l' => if str_eqb n (dslot_name s) then Some s else dslot_find n l'
  end.

(** [meta.<slot> = Some(d)] *)
Definition lm_set_slot (m : lmetadata) (s : dslot) (d : ldescriptor) : lmetadata :=
  let o x y := match x with true => Some d | false => y end in
  let is (t : dslot) := match s, t with
    | DGeneral, DGeneral | DFixedLine, DFixedLine | DMobile, DMobile | DTollFree, DTollFree
    | DPremiumRate, DPremiumRate | DSharedCost, DSharedCost | DPersonalNumber, DPersonalNumber
    | DVoip, DVoip | DPager, DPager | DUan, DUan | DEmergency, DEmergency | DVoicemail, DVoicemail
    | DNoInternational, DNoInternational => true
    | _, _ => false end in
  mk_lmetadata (o (is DGeneral) (lm_general m)) (o (is DFixedLine) (lm_fixed_line m))
    (o (is DMobile) (lm_mobile m)) (o (is DTollFree) (lm_toll_free m))
    (o (is DPremiumRate) (lm_premium_rate m)) (o (is DSharedCost) (lm_shared_cost m))
    (o (is DPersonalNumber) (lm_personal_number m)) (o (is DVoip) (lm_voip m))
    (o (is DPager) (lm_pager m)) (o (is DUan) (lm_uan m)) (o (is DEmergency) (lm_emergency m))
    (o (is DVoicemail) (lm_voicemail m)) (lm_short_code m) (lm_standard_rate m) (lm_carrier m)
    (o (is DNoInternational) (lm_no_international m))
    (lm_id m) (lm_country_code m) (lm_international_prefix m) (lm_preferred_international_prefix m)
    (lm_national_prefix m) (lm_preferred_extension_prefix m) (lm_national_prefix_for_parsing m)
    (lm_national_prefix_transform_rule m) (lm_formats m) (lm_international_formats m)
    (lm_main_country_for_code m) (lm_leading_digits m) (lm_mobile_number_portable m)
    (lm_default_format m) (lm_default_descriptor m).

Definition lm_set_formats (m : lmetadata) (natl intl : list lformat) : lmetadata :=
  mk_lmetadata (lm_general m) (lm_fixed_line m) (lm_mobile m) (lm_toll_free m) (lm_premium_rate m)
    (lm_shared_cost m) (lm_personal_number m) (lm_voip m) (lm_pager m) (lm_uan m) (lm_emergency m)
    (lm_voicemail m) (lm_short_code m) (lm_standard_rate m) (lm_carrier m) (lm_no_international m)
    (lm_id m) (lm_country_code m) (lm_international_prefix m) (lm_preferred_international_prefix m)
    (lm_national_prefix m) (lm_preferred_extension_prefix m) (lm_national_prefix_for_parsing m)
    (lm_national_prefix_transform_rule m) natl intl
    (lm_main_country_for_code m) (lm_leading_digits m) (lm_mobile_number_portable m)
    (lm_default_format m) (lm_default_descriptor m).

(** loader.rs:234-306: the element loop of [territory] *)
Fixpoint l_territory_loop (fuel : nat) (m : lmetadata) (evs : list event) : res lmetadata :=
  match fuel with
  | O => Err LUnexpectedEof
  | S fuel' =>
      match evs with
      | [] => Err LUnexpectedEof
      | EvText _ :: evs' | EvComment :: evs' => l_territory_loop fuel' m evs'
      | EvStart n _ :: evs' =>
          if str_eqb n (lit "references") || str_eqb n (lit "areaCodeOptional") then
            let* (_, evs2) := l_ignore [n] evs' in
            l_territory_loop fuel' m evs2
          else match dslot_find n all_dslots with
          | Some slot =>
              let* (d, evs2) := l_descriptor fuel' n (lm_default_descriptor m) evs' in
              l_territory_loop fuel' (lm_set_slot m slot d) evs2
          | None =>
              if str_eqb n (lit "availableFormats") then
                let* ((natl, intl), evs2) := l_formats fuel' (lm_default_format m) n [] [] evs' in
                l_territory_loop fuel' (lm_set_formats m natl intl) evs2
              else Err (LUnhandledElement (lit "territory") n)
          end
      | EvEnd n :: evs' => if str_eqb n (lit "territory") then Ok (m, evs') else Err (LMismatchedTag n)
      | EvError :: _ => Err LXml
      | _ :: _ => Err (LUnhandledEvent (lit "territory"))
      end
  end.

(** loader.rs:170-307, [territory] *)
Definition l_territory (fuel : nat) (attrs : list attr) (evs : list event) : res lmetadata :=
  let* m := fold_attrs territory_attr lmetadata_default attrs in
  l_territory_loop fuel m evs.

(** loader.rs:134-168, [territories] *)
Fixpoint l_territories (fuel : nat) (acc : list lmetadata) (evs : list event)
  : res (list lmetadata) :=
  match fuel with
  | O => Err LUnexpectedEof
  | S fuel' =>
      match evs with
      | [] => Err LUnexpectedEof
      | EvText _ :: evs' | EvComment :: evs' => l_territories fuel' acc evs'
      | EvStart n attrs :: evs' =>
          if str_eqb n (lit "territory") then
            let* (m, evs2) := l_territory fuel' attrs evs' in
            l_territories fuel' (m :: acc) evs2
          else
            let* (_, evs2) := l_ignore [n] evs' in
            l_territories fuel' acc evs2
      | EvEnd n :: evs' =>
          if str_eqb n (lit "territories") then Ok (rev acc, evs') else Err (LMismatchedTag n)
      | EvError :: _ => Err LXml
      | _ :: _ => Err (LUnhandledEvent (lit "territories"))
      end
  end.

(** loader.rs:96-132, [metadata] *)
Fixpoint l_metadata (fuel : nat) (acc : list lmetadata) (evs : list event)
  : outcome lerr (list lmetadata) :=
  match fuel with
  | O => Err LUnexpectedEof
  | S fuel' =>
      match evs with
      | [] => Err (LUnhandledEvent (lit "metadata"))       (* Eof *)
      | EvText _ :: evs' | EvComment :: evs' | EvDocType :: evs' => l_metadata fuel' acc evs'
      | EvStart n _ :: evs' =>
          if str_eqb n (lit "phoneNumberMetadata") then l_metadata fuel' acc evs'
          else if str_eqb n (lit "territories") then
            let* (ts, evs2) := l_territories fuel' [] evs' in
            l_metadata fuel' (acc ++ ts) evs2
          else
            let* (_, evs2) := l_ignore [n] evs' in
            l_metadata fuel' acc evs2
      | EvEnd n :: _ =>
          if str_eqb n (lit "phoneNumberMetadata") then Ok acc else Err (LMismatchedTag n)
      | EvError :: _ => Err LXml
      | _ :: _ => Err (LUnhandledEvent (lit "metadata"))
      end
  end.

(** loader.rs:92-94, [load]; every loop round of every function consumes an
    event, so the fuel never runs out. *)
Definition load (evs : list event) : outcome lerr (list lmetadata) :=
  l_metadata (S (length evs)) [] evs.
