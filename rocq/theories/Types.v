(** * Types: small enums and the phone-number record *)
From Verif Require Import Base CountryId.

(** error.rs:54-85, [error::Parse]; the payload of [MalformedInteger] is dropped. *)
Inductive perr :=
| NoNumber | InvalidCountryCode | TooShortAfterIdd | TooShortNsn | TooLong | MalformedInteger.

(** country.rs:54-78 *)
Inductive source := SrcPlus | SrcIdd | SrcNumber | SrcDefault.

(** country.rs:21-28 *)
Record code := mk_code { code_value : N; code_source : source }.

(** country.rs:30-39, [PartialEq for Code] *)
Definition code_eqb (a b : code) : bool := N.eqb (code_value a) (code_value b).

(** phone_number.rs:79-140 *)
Inductive ptype :=
| TFixedLine | TMobile | TFixedLineOrMobile | TTollFree | TPremiumRate | TSharedCost
| TPersonalNumber | TVoip | TPager | TUan | TEmergency | TVoicemail | TShortCode
| TStandardRate | TCarrier | TNoInternational | TUnknown.

Definition ptype_eqb (a b : ptype) : bool :=
  match a, b with
  | TFixedLine, TFixedLine | TMobile, TMobile | TFixedLineOrMobile, TFixedLineOrMobile
  | TTollFree, TTollFree | TPremiumRate, TPremiumRate | TSharedCost, TSharedCost
  | TPersonalNumber, TPersonalNumber | TVoip, TVoip | TPager, TPager | TUan, TUan
  | TEmergency, TEmergency | TVoicemail, TVoicemail | TShortCode, TShortCode
  | TStandardRate, TStandardRate | TCarrier, TCarrier | TNoInternational, TNoInternational
  | TUnknown, TUnknown => true
  | _, _ => false
  end.

(** validator.rs:24-48 *)
Inductive validation :=
| IsPossible | IsPossibleLocalOnly | VInvalidCountryCode | TooShort | InvalidLength | VTooLong.

(** validator.rs:52-57 *)
Definition is_possible (v : validation) : bool :=
  match v with IsPossible | IsPossibleLocalOnly => true | _ => false end.
(** validator.rs:60-68 *)
Definition is_invalid (v : validation) : bool :=
  match v with VInvalidCountryCode | TooShort | InvalidLength | VTooLong => true | _ => false end.
(** validator.rs:71-76 *)
Definition is_invalid_length (v : validation) : bool :=
  match v with TooShort | InvalidLength | VTooLong => true | _ => false end.
