(** * Serde: the [Serialize] and [Deserialize] implementations of the public types

    phone_number.rs:31, 79-80; country.rs:21, 54-55, 99; national_number.rs:19;
    extension.rs:20; carrier.rs:20.  They are all derived, so what is modelled
    is the code serde_derive writes for these declarations, driven by two
    kinds of format: a self-describing one (as serde_json: a tree of values)
    and postcard (bytes, see Postcard.v).  Not modelled: field keys given as
    numbers or bytes, and the text of the error messages. *)
From Verif Require Import Base CountryId Types NationalNumber Metadata Database PhoneNumber Postcard.

(** The values of a self-describing format, as [serde_json::Value].  [VOther]
    stands for the ones no type here accepts (booleans, negative or fractional
    numbers).  A map keeps its entries in order and may repeat a key, as the
    text of a JSON object may. *)
Inductive sval :=
| VNull | VNum (n : N) | VStr (s : str) | VMap (fs : list (str * sval)) | VSeq (l : list sval) | VOther.

(** the errors of serde::de::Error that can occur, without their texts *)
Inductive serr := SeMissing | SeDuplicate | SeInvalid | SeUnknownVariant.

(** ** Enums: unit variants, written as their name *)
(** country.rs:54-81, with [rename_all = "snake_case"] *)
Definition source_name (s : source) : str :=
  match s with
  | SrcPlus => lit "plus" | SrcIdd => lit "idd" | SrcNumber => lit "number" | SrcDefault => lit "default"
  end.
Definition all_sources : list source := [SrcPlus; SrcIdd; SrcNumber; SrcDefault].
(** phone_number.rs:79-140, with [rename_all = "snake_case"] *)
Definition type_name (t : ptype) : str :=
  match t with
  | TFixedLine => lit "fixed_line" | TMobile => lit "mobile" | TFixedLineOrMobile => lit "fixed_line_or_mobile"
  | TTollFree => lit "toll_free" | TPremiumRate => lit "premium_rate" | TSharedCost => lit "shared_cost"
  | TPersonalNumber => lit "personal_number" | TVoip => lit "voip" | TPager => lit "pager" | TUan => lit "uan"
  | TEmergency => lit "emergency" | TVoicemail => lit "voicemail" | TShortCode => lit "short_code"
  | TStandardRate => lit "standard_rate" | TCarrier => lit "carrier" | TNoInternational => lit "no_international"
  | TUnknown => lit "unknown"
  end.
Definition all_types : list ptype :=
  [TFixedLine; TMobile; TFixedLineOrMobile; TTollFree; TPremiumRate; TSharedCost; TPersonalNumber; TVoip; TPager; TUan;
   TEmergency; TVoicemail; TShortCode; TStandardRate; TCarrier; TNoInternational; TUnknown].

Fixpoint variant_named {A} (name : A -> str) (s : str) (l : list A) : option A :=
  match l with
  | [] => None
  | a :: l' => if str_eqb (name a) s then Some a else variant_named name s l'
  end.
(** The derived visitor of an enum of unit variants, behind serde_json's
    [deserialize_enum]: a string, or a map with the name as only key and null as value. *)
Definition de_enum {A} (name : A -> str) (all : list A) (t : sval) : outcome serr A :=
  match t with
  | VStr s => match variant_named name s all with Some a => Ok a | None => Err SeUnknownVariant end
  | VMap [(s, v)] =>
      match variant_named name s all with
      | Some a => match v with VNull => Ok a | _ => Err SeInvalid end
      | None => Err SeUnknownVariant
      end
  | _ => Err SeInvalid
  end.
Definition ser_source (s : source) : sval := VStr (source_name s).
Definition de_source : sval -> outcome serr source := de_enum source_name all_sources.
Definition ser_type (t : ptype) : sval := VStr (type_name t).
Definition de_type : sval -> outcome serr ptype := de_enum type_name all_types.
(** country.rs:99-365 *)
Definition ser_id (i : id) : sval := VStr (id_name i).
Definition de_id : sval -> outcome serr id := de_enum id_name all_ids.

(** ** Numbers, text and options *)
Definition de_uint (limit : N) (t : sval) : outcome serr N :=
  match t with VNum n => if N.ltb n limit then Ok n else Err SeInvalid | _ => Err SeInvalid end.
Definition de_u16 : sval -> outcome serr N := de_uint 65536.
Definition de_u64 : sval -> outcome serr N := de_uint 18446744073709551616.
(** [Extension] and [Carrier] are newtypes, read and written as the text inside
    (extension.rs:20-21, carrier.rs:20-21). *)
Definition de_text (t : sval) : outcome serr str := match t with VStr s => Ok s | _ => Err SeInvalid end.
Definition ser_opt (o : option str) : sval := match o with None => VNull | Some s => VStr s end.
Definition de_optional (t : sval) : outcome serr (option str) :=
  match t with VNull => Ok None | _ => let* s := de_text t in Ok (Some s) end.

(** ** Structs: the derived [visit_map] keeps one slot per field, refuses a
    repeated field, ignores unknown keys, and reports a field without value
    unless it is an [Option]. *)
Definition required {A} (slot : option A) : outcome serr A := ok_or slot SeMissing.
Definition optional {A} (slot : option (option A)) : option A := match slot with Some o => o | None => None end.
Definition fill {A} (slot : option A) (v : outcome serr A) : outcome serr (option A) :=
  match slot with Some _ => Err SeDuplicate | None => let* a := v in Ok (Some a) end.

(** country.rs:21-28 *)
Fixpoint code_map (fs : list (str * sval)) (value : option N) (src : option source) : outcome serr code :=
  match fs with
  | [] => let* v := required value in let* s := required src in Ok (mk_code v s)
  | (k, t) :: fs' =>
      if str_eqb k (lit "value") then let* v := fill value (de_u16 t) in code_map fs' v src
      else if str_eqb k (lit "source") then let* s := fill src (de_source t) in code_map fs' value s
      else code_map fs' value src
  end.
Definition ser_code (c : code) : sval :=
  VMap [(lit "value", VNum (code_value c)); (lit "source", ser_source (code_source c))].
Definition de_code (t : sval) : outcome serr code :=
  match t with
  | VMap fs => code_map fs None None
  | VSeq [a; b] => let* v := de_u16 a in let* s := de_source b in Ok (mk_code v s)
  | _ => Err SeInvalid
  end.

(** national_number.rs:19-22: the packed number is what is written *)
Fixpoint national_map (fs : list (str * sval)) (value : option N) : outcome serr national :=
  match fs with
  | [] => let* v := required value in Ok (mk_national v)
  | (k, t) :: fs' =>
      if str_eqb k (lit "value") then let* v := fill value (de_u64 t) in national_map fs' v
      else national_map fs' value
  end.
Definition ser_national (n : national) : sval := VMap [(lit "value", VNum (nn_raw n))].
Definition de_national (t : sval) : outcome serr national :=
  match t with
  | VMap fs => national_map fs None
  | VSeq [a] => let* v := de_u64 a in Ok (mk_national v)
  | _ => Err SeInvalid
  end.

(** phone_number.rs:30-72 *)
Fixpoint phone_map (fs : list (str * sval)) (c : option code) (n : option national) (e k : option (option str))
  : outcome serr phone :=
  match fs with
  | [] => let* c := required c in let* n := required n in Ok (mk_phone c n (optional e) (optional k))
  | (key, t) :: fs' =>
      if str_eqb key (lit "code") then let* c := fill c (de_code t) in phone_map fs' c n e k
      else if str_eqb key (lit "national") then let* n := fill n (de_national t) in phone_map fs' c n e k
      else if str_eqb key (lit "extension") then let* e := fill e (de_optional t) in phone_map fs' c n e k
      else if str_eqb key (lit "carrier") then let* k := fill k (de_optional t) in phone_map fs' c n e k
      else phone_map fs' c n e k
  end.
Definition ser_phone (p : phone) : sval :=
  VMap [(lit "code", ser_code (ph_code p)); (lit "national", ser_national (ph_national p));
        (lit "extension", ser_opt (ph_extension p)); (lit "carrier", ser_opt (ph_carrier p))].
Definition de_phone (t : sval) : outcome serr phone :=
  match t with
  | VMap fs => phone_map fs None None None None
  | VSeq [a; b; c; d] =>
      let* code := de_code a in let* n := de_national b in
      let* e := de_optional c in let* k := de_optional d in
      Ok (mk_phone code n e k)
  | _ => Err SeInvalid
  end.

(** ** The same values in postcard: fields in order, an enum as the varint of
    the position of its variant. *)
Definition enc_u64 (n : N) : bytes := enc_varint 10 n.
Definition dec_u64 (bs : bytes) : dec_res N := dec_varint 10 1%N 1%N 0%N bs.
Definition enc_u32 (n : N) : bytes := enc_varint 5 n.
Definition dec_u32 (bs : bytes) : dec_res N := dec_varint 5 15%N 1%N 0%N bs.
Definition dec_enum {A} (all : list A) (bs : bytes) : dec_res A :=
  let* (n, bs2) := dec_u32 bs in
  match nth_error all (N.to_nat n) with Some a => Ok (a, bs2) | None => Err PcBadEnum end.
Definition source_index (s : source) : N :=
  match s with SrcPlus => 0 | SrcIdd => 1 | SrcNumber => 2 | SrcDefault => 3 end%N.
Definition type_index (t : ptype) : N :=
  match t with
  | TFixedLine => 0 | TMobile => 1 | TFixedLineOrMobile => 2 | TTollFree => 3 | TPremiumRate => 4 | TSharedCost => 5
  | TPersonalNumber => 6 | TVoip => 7 | TPager => 8 | TUan => 9 | TEmergency => 10 | TVoicemail => 11 | TShortCode => 12
  | TStandardRate => 13 | TCarrier => 14 | TNoInternational => 15 | TUnknown => 16
  end%N.
Definition enc_source (s : source) : bytes := enc_u32 (source_index s).
Definition dec_source : bytes -> dec_res source := dec_enum all_sources.
Definition enc_type (t : ptype) : bytes := enc_u32 (type_index t).
Definition dec_type : bytes -> dec_res ptype := dec_enum all_types.
Definition enc_id (i : id) : bytes := enc_u32 (N.of_nat (id_index i)).
Definition dec_id : bytes -> dec_res id := dec_enum all_ids.
Definition enc_code (c : code) : bytes := enc_u16 (code_value c) ++ enc_source (code_source c).
Definition dec_code (bs : bytes) : dec_res code :=
  let* (v, bs) := dec_u16 bs in let* (s, bs) := dec_source bs in Ok (mk_code v s, bs).
Definition enc_national (n : national) : bytes := enc_u64 (nn_raw n).
Definition dec_national (bs : bytes) : dec_res national := let* (v, bs) := dec_u64 bs in Ok (mk_national v, bs).
Definition enc_phone (p : phone) : bytes :=
  enc_code (ph_code p) ++ enc_national (ph_national p) ++ enc_opt enc_str (ph_extension p) ++ enc_opt enc_str (ph_carrier p).
Definition dec_phone (bs : bytes) : dec_res phone :=
  let* (c, bs) := dec_code bs in let* (n, bs) := dec_national bs in
  let* (e, bs) := dec_opt dec_str bs in let* (k, bs) := dec_opt dec_str bs in
  Ok (mk_phone c n e k, bs).
