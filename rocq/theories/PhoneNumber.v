(** * PhoneNumber: /repo/src/phone_number.rs, carrier.rs, extension.rs *)
From Verif Require Import Base Regex CountryId Types NationalNumber Metadata Database Validator.

(** phone_number.rs:30-72; [Extension] and [Carrier] are newtypes of [String]
    (extension.rs:20, carrier.rs:20). *)
Record phone := mk_phone {
  ph_code : code;
  ph_national : national;
  ph_extension : option str;
  ph_carrier : option str }.

(** derived [PartialEq] (phone_number.rs:31) over country.rs:30-39 *)
Definition phone_eqb (a b : phone) : bool :=
  code_eqb (ph_code a) (ph_code b)
  && N.eqb (nn_raw (ph_national a)) (nn_raw (ph_national b))
  && option_eqb str_eqb (ph_extension a) (ph_extension b)
  && option_eqb str_eqb (ph_carrier a) (ph_carrier b).

(** What a value feeds to a [Hasher]. *)
Inductive hash_item := HU16 (n : N) | HU64 (n : N) | HDiscr (n : N) | HStr (s : str).
Definition hash_opt (o : option str) : list hash_item :=
  match o with None => [HDiscr 0] | Some s => [HDiscr 1; HStr s] end.
(** derived [Hash] (phone_number.rs:31) over country.rs:43-51 *)
Definition phone_hash (p : phone) : list hash_item :=
  HU16 (code_value (ph_code p)) :: HU64 (nn_raw (ph_national p))
  :: hash_opt (ph_extension p) ++ hash_opt (ph_carrier p).

(** phone_number.rs:208-217, [PhoneNumber::metadata].  The digits looked up
    are those of [value()]: without leading zeros. *)
Definition ph_metadata (db : database) (p : phone) : outcome perr (option metadata) :=
  let* s := source_for db (code_value (ph_code p)) (dec (nn_value (ph_national p))) in
  Ok (source_meta db s).

(** phone_number.rs:235-240 *)
Definition number_type_with (db : database) (p : phone) : outcome perr ptype :=
  let* m := ph_metadata db p in
  Ok (match m with
      | Some m => number_type m (dec (nn_value (ph_national p)))
      | None => TUnknown
      end).

(** validator.rs:96-106.  The digits looked up are those of [Display]: with
    leading zeros. *)
Definition is_valid_with (db : database) (p : phone) : outcome perr bool :=
  let national := nn_show (ph_national p) in
  let* s := source_for db (code_value (ph_code p)) national in
  Ok (match source_meta db s with
      | Some m => negb (ptype_eqb (number_type m national) TUnknown)
      | None => false
      end).

(** phone_number.rs:248-254, [Country::id], for the database [db] (the code
    uses the built-in one). *)
Definition country_id_with (db : database) (p : phone) : outcome perr (option id) :=
  let* m := ph_metadata db p in
  match m with
  | None => Ok None
  | Some m => match id_of_name (md_id m) with
              | Some i => Ok (Some i)
              | None => Err InvalidCountryCode
              end
  end.
