(** * Tests: the unit tests of /repo replayed on the model

    These are examples, not proofs of properties; they check that the model
    behaves as the code does on the inputs the project's own tests use. *)
From Verif Require Import Base Regex CountryId Types NationalNumber Metadata Database Validator
  Valid PhoneNumber Parser Formatter DefaultDb.

Definition t_num (code : N) (src : source) (value zeros : N) (carrier : option str)
  : outcome perr phone :=
  let* n := nn_new value zeros in Ok (mk_phone (mk_code code src) n None carrier).
Definition t_parse (c : option id) (s : bstr) := parse_with default_db c (lit s).
Arguments t_parse c s%bstr.
Definition t_fmt (c : option id) (s : bstr) (m : mode) : outcome unit str :=
  match t_parse c s with
  | Ok p => fmt_display default_db (fm_set_mode (fmt_format p) m)
  | _ => Panic
  end.
Arguments t_fmt c s%bstr m.
Definition t_valid (c : option id) (s : bstr) : outcome perr bool :=
  let* p := t_parse c s in is_valid_with default_db p.
Arguments t_valid c s%bstr.

(** parser/mod.rs:130-175 *)
Example parse_1 :
  map (fun x => parse_with default_db (Some (fst x)) (lit (snd x)))
    [(ID_NZ, "033316005"); (ID_NZ, "33316005"); (ID_NZ, "03-331 6005"); (ID_NZ, "03 331 6005");
     (ID_NZ, "tel:03-331-6005;phone-context=+64"); (ID_NZ, "tel:03-331-6005;phone-context=+64;a=%A1");
     (ID_NZ, "tel:03-331-6005;isub=12345;phone-context=+64"); (ID_NZ, "tel:+64-3-331-6005;isub=12345");
     (ID_NZ, "03-331-6005;phone-context=+64"); (ID_NZ, "0064 3 331 6005"); (ID_US, "01164 3 331 6005");
     (ID_US, "+64 3 331 6005"); (ID_US, "+01164 3 331 6005"); (ID_NZ, "+0064 3 331 6005");
     (ID_NZ, "+ 00 64 3 331 6005")]%bstr
  = map (fun src => t_num 64 src 33316005 0 None)
      [SrcDefault; SrcDefault; SrcDefault; SrcDefault; SrcPlus; SrcPlus; SrcPlus; SrcPlus; SrcPlus;
       SrcIdd; SrcIdd; SrcPlus; SrcPlus; SrcPlus; SrcPlus].
Proof. vm_compute. reflexivity. Qed.

(** parser/mod.rs:178-265 *)
Example parse_2 : t_parse (Some ID_NZ) "64(0)64123456" = t_num 64 SrcNumber 64123456 0 None.
Proof. vm_compute. reflexivity. Qed.
Example parse_3 : t_parse (Some ID_DE) "301/23456" = t_num 49 SrcDefault 30123456 0 None.
Proof. vm_compute. reflexivity. Qed.
Example parse_4 : t_parse (Some ID_JP) "+81 *2345" = t_num 81 SrcPlus 2345 0 None.
Proof. vm_compute. reflexivity. Qed.
Example parse_5 : t_parse (Some ID_NZ) "12" = t_num 64 SrcDefault 12 0 None.
Proof. vm_compute. reflexivity. Qed.
Example parse_6 : t_parse (Some ID_BR) "012 3121286979" = t_num 55 SrcDefault 3121286979 0 (Some (lit "12")).
Proof. vm_compute. reflexivity. Qed.

(** parser/mod.rs:268-327 *)
Example issue_43 : t_parse None " 2 22#:" = Err NoNumber.
Proof. vm_compute. reflexivity. Qed.
Example issue_29 : t_parse None "0032474123456" = t_num 32 SrcIdd 474123456 0 None.
Proof. vm_compute. reflexivity. Qed.
Example issue_30 :
  t_parse (Some ID_US) "+33142764978" = t_num 33 SrcPlus 142764978 0 None
  /\ t_parse (Some ID_FR) "+33142764978" = t_num 33 SrcPlus 142764978 0 None.
Proof. vm_compute. split; reflexivity. Qed.
Example issue_100 :
  t_parse None "+3367a829916" = t_num 33 SrcPlus 67829916 0 None
  /\ t_parse (Some ID_US) "1800FLOWERS" = t_num 1 SrcNumber 8003569377 0 None.
Proof. vm_compute. split; reflexivity. Qed.
Example advisories :
  t_parse None ".;phone-context=" = Err NoNumber
  /\ t_parse None "+dwPAA;phone-context=AA" = Err NoNumber
  /\ t_parse (Some ID_US) "someletters1110@gmail.com" = Err NoNumber.
Proof. vm_compute. repeat split; reflexivity. Qed.

(** formatter.rs:268-420 *)
Example fmt_tests :
  [t_fmt (Some ID_FR) "+330631966543" National; t_fmt (Some ID_FR) "+330631966543" International;
   t_fmt (Some ID_FR) "+330631966543" E164; t_fmt (Some ID_FR) "+330631966543" Rfc3966;
   t_fmt (Some ID_US) "+1 6502530000" National; t_fmt (Some ID_US) "+1 6502530000" International;
   t_fmt (Some ID_US) "+1 8002530000" National; t_fmt (Some ID_US) "+1 8002530000" International;
   t_fmt (Some ID_US) "+1 9002530000" National; t_fmt (Some ID_US) "+1 9002530000" International;
   t_fmt (Some ID_US) "+1 9002530000" Rfc3966;
   t_fmt (Some ID_GB) "+44 2070313000" National; t_fmt (Some ID_GB) "+44 2070313000" International;
   t_fmt (Some ID_GB) "+44 7912345678" National; t_fmt (Some ID_GB) "+44 7912345678" International;
   t_fmt (Some ID_DE) "301/23456" National]
  = map (fun s => Ok (lit s))
    ["06 31 96 65 43"; "+33 6 31 96 65 43"; "+33631966543"; "tel:+33-6-31-96-65-43";
     "(650) 253-0000"; "+1 650-253-0000"; "(800) 253-0000"; "+1 800-253-0000"; "(900) 253-0000";
     "+1 900-253-0000"; "tel:+1-900-253-0000"; "020 7031 3000"; "+44 20 7031 3000"; "07912 345678";
     "+44 7912 345678"; "030 123456"]%bstr.
Proof. vm_compute. reflexivity. Qed.

(** validator.rs:317-356 *)
Example validator_tests :
  [t_valid (Some ID_US) "+1 6502530000"; t_valid (Some ID_IT) "+39 0236618300";
   t_valid (Some ID_FR) "+330631966543"; t_valid None "+330631966543"; t_valid (Some ID_GB) "+44 7912345678";
   t_valid None "+800 12345678"; t_valid None "+979 123456789"; t_valid None "+64 21387835";
   t_valid None "+1 2530000"; t_valid None "+44 791234567"; t_valid None "+49 1234";
   t_valid None "+64 3316005"; t_valid None "+3923 2366"; t_valid None "+800 123456789"]
  = map Ok [true; true; true; true; true; true; true; true; false; false; false; false; false; false].
Proof. vm_compute. reflexivity. Qed.
