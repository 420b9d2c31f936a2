(** * NationalNumber: /repo/src/national_number.rs *)
From Verif Require Import Base CountryId Types.

(** national_number.rs:20-22: the packed [u64]. *)
Record national := mk_national { nn_raw : N }.

(** [1 << 56] *)
Definition two56 : N := 72057594037927936%N.

(** national_number.rs:36-46, [NationalNumber::new(value : u64, zeros : u8)] *)
Definition nn_new (value zeros : N) : outcome perr national :=
  if N.leb two56 value then Err TooLong
  else Ok (mk_national (N.lor (N.shiftl zeros 56) value)).

(** national_number.rs:49-51 *)
Definition nn_value (n : national) : N := N.land (nn_raw n) 72057594037927935%N.

(** national_number.rs:72-74 *)
Definition nn_zeros (n : national) : N := N.modulo (N.shiftr (nn_raw n) 56) 256.

(** Number of leading '0' characters (national_number.rs:28). *)
Fixpoint count_zeros (s : str) : nat :=
  match s with
  | c :: s' => if N.eqb c 48 then S (count_zeros s') else 0
  | [] => 0
  end.

(** national_number.rs:24-33, [FromStr for NationalNumber].  The slice
    [s\[zeros..\]] cannot panic: the skipped characters are one byte long. *)
Definition nn_parse (s : str) : outcome perr national :=
  let zeros := count_zeros s in
  let* rest := unwrap (slice_from s zeros) in
  let* value := ok_or (parse_u64 rest) MalformedInteger in
  nn_new value (as_u8 zeros).

(** national_number.rs:83-91, [Display for NationalNumber] *)
Definition nn_show (n : national) : str :=
  repeat 48%N (N.to_nat (nn_zeros n)) ++ dec (nn_value n).
