(** * Number: /repo/src/parser/helper.rs:62-69 *)
From Verif Require Import Base CountryId Types.

Record number := mk_number {
  pn_country : source;
  pn_national : str;
  pn_prefix : option str;
  pn_extension : option str;
  pn_carrier : option str }.

Definition set_country (n : number) (x : source) : number :=
  mk_number x (pn_national n) (pn_prefix n) (pn_extension n) (pn_carrier n).
Definition set_national (n : number) (x : str) : number :=
  mk_number (pn_country n) x (pn_prefix n) (pn_extension n) (pn_carrier n).
Definition set_prefix (n : number) (x : option str) : number :=
  mk_number (pn_country n) (pn_national n) x (pn_extension n) (pn_carrier n).
Definition set_carrier (n : number) (x : option str) : number :=
  mk_number (pn_country n) (pn_national n) (pn_prefix n) (pn_extension n) x.
