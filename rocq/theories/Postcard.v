(** * Postcard: the embedded database

    build.rs writes the loaded entries with [postcard::to_io] and
    database.rs:31-32 reads them with [postcard::from_bytes].  Both derive
    their layout from the structs of loader.rs:22-89.  This file models the
    wire format of the postcard crate (version 1): unsigned numbers as
    little-endian base-128 varints, options behind a tag byte, strings and
    vectors behind their length, the fields of a struct in the order of its
    declaration.  A byte is an [N] below 256. *)
From Verif Require Import Base CountryId Types Metadata Database.

(** postcard::Error, the cases that decoding can report *)
Inductive pc_err := PcUnexpectedEnd | PcBadVarint | PcBadBool | PcBadOption | PcBadUtf8 | PcBadEnum.
Definition bytes := list N.
Definition dec_res (A : Type) := outcome pc_err (A * bytes).

(** ** Varints: postcard's varint_u16 and varint_usize (64 bits).
    [k] bounds the number of bytes; [last] is the largest value of the last one. *)
Fixpoint enc_varint (k : nat) (n : N) : bytes :=
  match k with
  | O => []
  | S k' => if N.ltb n 128 then [n] else (n mod 128 + 128)%N :: enc_varint k' (n / 128)%N
  end.
Fixpoint dec_varint (k : nat) (last : N) (weight acc : N) (bs : bytes) : dec_res N :=
  match k with
  | O => Err PcBadVarint
  | S k' =>
      match bs with
      | [] => Err PcUnexpectedEnd
      | b :: bs' =>
          if N.ltb b 128 then
            match k' with
            | O => if N.ltb last b then Err PcBadVarint else Ok ((acc + b * weight)%N, bs')
            | _ => Ok ((acc + b * weight)%N, bs')
            end
          else dec_varint k' last (weight * 128)%N (acc + (b - 128) * weight)%N bs'
      end
  end.
Definition enc_u16 (n : N) : bytes := enc_varint 3 n.
Definition dec_u16 (bs : bytes) : dec_res N := dec_varint 3 3%N 1%N 0%N bs.
Definition enc_len (n : nat) : bytes := enc_varint 10 (N.of_nat n).
Definition dec_len (bs : bytes) : dec_res N := dec_varint 10 1%N 1%N 0%N bs.

(** ** Booleans and options *)
Definition enc_bool (b : bool) : bytes := if b then [1%N] else [0%N].
Definition dec_bool (bs : bytes) : dec_res bool :=
  match bs with
  | [] => Err PcUnexpectedEnd
  | b :: bs' => if N.eqb b 0 then Ok (false, bs') else if N.eqb b 1 then Ok (true, bs') else Err PcBadBool
  end.
Definition enc_opt {A} (enc : A -> bytes) (o : option A) : bytes :=
  match o with None => [0%N] | Some a => 1%N :: enc a end.
Definition dec_opt {A} (dec : bytes -> dec_res A) (bs : bytes) : dec_res (option A) :=
  match bs with
  | [] => Err PcUnexpectedEnd
  | b :: bs' =>
      if N.eqb b 0 then Ok (None, bs')
      else if N.eqb b 1 then let* (a, bs2) := dec bs' in Ok (Some a, bs2)
      else Err PcBadOption
  end.

(** ** Vectors *)
Definition enc_vec {A} (enc : A -> bytes) (l : list A) : bytes := enc_len (length l) ++ flat_map enc l.
Fixpoint dec_seq {A} (dec : bytes -> dec_res A) (n : nat) (bs : bytes) : dec_res (list A) :=
  match n with
  | O => Ok ([], bs)
  | S n' => let* (a, bs2) := dec bs in let* (l, bs3) := dec_seq dec n' bs2 in Ok (a :: l, bs3)
  end.
Definition dec_vec {A} (dec : bytes -> dec_res A) (bs : bytes) : dec_res (list A) :=
  let* (n, bs2) := dec_len bs in dec_seq dec (N.to_nat n) bs2.

(** ** Text: UTF-8, checked as by [core::str::from_utf8] *)
Definition enc_char (c : char) : bytes :=
  if N.ltb c 128 then [c]
  else if N.ltb c 2048 then [192 + c / 64; 128 + c mod 64]%N
  else if N.ltb c 65536 then [224 + c / 4096; 128 + (c / 64) mod 64; 128 + c mod 64]%N
  else [240 + c / 262144; 128 + (c / 4096) mod 64; 128 + (c / 64) mod 64; 128 + c mod 64]%N.
Definition is_cont (b : N) : bool := in_range 128 191 b.
Fixpoint dec_utf8 (bs : bytes) : outcome pc_err str :=
  match bs with
  | [] => Ok []
  | b :: r =>
      if N.ltb b 128 then let* s := dec_utf8 r in Ok (b :: s)
      else if in_range 194 223 b then
        match r with
        | b1 :: r1 => if is_cont b1
            then let* s := dec_utf8 r1 in Ok (((b - 192) * 64 + (b1 - 128))%N :: s)
            else Err PcBadUtf8
        | _ => Err PcBadUtf8
        end
      else if in_range 224 239 b then
        match r with
        | b1 :: b2 :: r2 =>
            if is_cont b1 && is_cont b2
               && (if N.eqb b 224 then in_range 160 191 b1 else if N.eqb b 237 then in_range 128 159 b1 else true)
            then let* s := dec_utf8 r2 in Ok (((b - 224) * 4096 + (b1 - 128) * 64 + (b2 - 128))%N :: s)
            else Err PcBadUtf8
        | _ => Err PcBadUtf8
        end
      else if in_range 240 244 b then
        match r with
        | b1 :: b2 :: b3 :: r3 =>
            if is_cont b1 && is_cont b2 && is_cont b3
               && (if N.eqb b 240 then in_range 144 191 b1 else if N.eqb b 244 then in_range 128 143 b1 else true)
            then let* s := dec_utf8 r3 in
              Ok (((b - 240) * 262144 + (b1 - 128) * 4096 + (b2 - 128) * 64 + (b3 - 128))%N :: s)
            else Err PcBadUtf8
        | _ => Err PcBadUtf8
        end
      else Err PcBadUtf8
  end.
Definition enc_str (s : str) : bytes := let b := flat_map enc_char s in enc_len (length b) ++ b.
(** [try_take_n] *)
Definition take_bytes (n : nat) (bs : bytes) : dec_res bytes :=
  if Nat.leb n (length bs) then Ok (firstn n bs, skipn n bs) else Err PcUnexpectedEnd.
Definition dec_str (bs : bytes) : dec_res str :=
  let* (n, bs2) := dec_len bs in
  let* (b, bs3) := take_bytes (N.to_nat n) bs2 in
  let* s := dec_utf8 b in
  Ok (s, bs3).

(** ** The structs *)
(** loader.rs:82-89 *)
Definition enc_descriptor (d : ldescriptor) : bytes :=
  enc_opt enc_str (ld_national_number d) ++ enc_vec enc_u16 (ld_possible_length d)
  ++ enc_vec enc_u16 (ld_possible_local_length d) ++ enc_opt enc_str (ld_example d).
Definition dec_descriptor (bs : bytes) : dec_res ldescriptor :=
  let* (a, bs) := dec_opt dec_str bs in
  let* (b, bs) := dec_vec dec_u16 bs in
  let* (c, bs) := dec_vec dec_u16 bs in
  let* (d, bs) := dec_opt dec_str bs in
  Ok (mk_ldescriptor a b c d, bs).

(** loader.rs:71-80 *)
Definition enc_format (f : lformat) : bytes :=
  enc_opt enc_str (lf_pattern f) ++ enc_opt enc_str (lf_format f) ++ enc_vec enc_str (lf_leading_digits f)
  ++ enc_opt enc_str (lf_national_prefix_formatting_rule f)
  ++ enc_bool (lf_national_prefix_optional_when_formatting f) ++ enc_opt enc_str (lf_domestic_carrier f).
Definition dec_format (bs : bytes) : dec_res lformat :=
  let* (a, bs) := dec_opt dec_str bs in
  let* (b, bs) := dec_opt dec_str bs in
  let* (c, bs) := dec_vec dec_str bs in
  let* (d, bs) := dec_opt dec_str bs in
  let* (e, bs) := dec_bool bs in
  let* (f, bs) := dec_opt dec_str bs in
  Ok (mk_lformat a b c d e f, bs).

(** loader.rs:30-69, 22-28 *)
Definition enc_metadata (m : lmetadata) : bytes :=
  enc_opt enc_descriptor (lm_general m) ++ enc_opt enc_descriptor (lm_fixed_line m)
  ++ enc_opt enc_descriptor (lm_mobile m) ++ enc_opt enc_descriptor (lm_toll_free m)
  ++ enc_opt enc_descriptor (lm_premium_rate m) ++ enc_opt enc_descriptor (lm_shared_cost m)
  ++ enc_opt enc_descriptor (lm_personal_number m) ++ enc_opt enc_descriptor (lm_voip m)
  ++ enc_opt enc_descriptor (lm_pager m) ++ enc_opt enc_descriptor (lm_uan m)
  ++ enc_opt enc_descriptor (lm_emergency m) ++ enc_opt enc_descriptor (lm_voicemail m)
  ++ enc_opt enc_descriptor (lm_short_code m) ++ enc_opt enc_descriptor (lm_standard_rate m)
  ++ enc_opt enc_descriptor (lm_carrier m) ++ enc_opt enc_descriptor (lm_no_international m)
  ++ enc_opt enc_str (lm_id m) ++ enc_opt enc_u16 (lm_country_code m)
  ++ enc_opt enc_str (lm_international_prefix m) ++ enc_opt enc_str (lm_preferred_international_prefix m)
  ++ enc_opt enc_str (lm_national_prefix m) ++ enc_opt enc_str (lm_preferred_extension_prefix m)
  ++ enc_opt enc_str (lm_national_prefix_for_parsing m) ++ enc_opt enc_str (lm_national_prefix_transform_rule m)
  ++ enc_vec enc_format (lm_formats m) ++ enc_vec enc_format (lm_international_formats m)
  ++ enc_bool (lm_main_country_for_code m) ++ enc_opt enc_str (lm_leading_digits m)
  ++ enc_bool (lm_mobile_number_portable m)
  ++ enc_format (lm_default_format m) ++ enc_descriptor (lm_default_descriptor m).
Definition dec_metadata (bs : bytes) : dec_res lmetadata :=
  let* (d1, bs) := dec_opt dec_descriptor bs in
  let* (d2, bs) := dec_opt dec_descriptor bs in
  let* (d3, bs) := dec_opt dec_descriptor bs in
  let* (d4, bs) := dec_opt dec_descriptor bs in
  let* (d5, bs) := dec_opt dec_descriptor bs in
  let* (d6, bs) := dec_opt dec_descriptor bs in
  let* (d7, bs) := dec_opt dec_descriptor bs in
  let* (d8, bs) := dec_opt dec_descriptor bs in
  let* (d9, bs) := dec_opt dec_descriptor bs in
  let* (d10, bs) := dec_opt dec_descriptor bs in
  let* (d11, bs) := dec_opt dec_descriptor bs in
  let* (d12, bs) := dec_opt dec_descriptor bs in
  let* (d13, bs) := dec_opt dec_descriptor bs in
  let* (d14, bs) := dec_opt dec_descriptor bs in
  let* (d15, bs) := dec_opt dec_descriptor bs in
  let* (d16, bs) := dec_opt dec_descriptor bs in
  let* (i, bs) := dec_opt dec_str bs in
  let* (cc, bs) := dec_opt dec_u16 bs in
  let* (ip, bs) := dec_opt dec_str bs in
  let* (pip, bs) := dec_opt dec_str bs in
  let* (np, bs) := dec_opt dec_str bs in
  let* (pep, bs) := dec_opt dec_str bs in
  let* (npp, bs) := dec_opt dec_str bs in
  let* (tr, bs) := dec_opt dec_str bs in
  let* (fs, bs) := dec_vec dec_format bs in
  let* (ifs, bs) := dec_vec dec_format bs in
  let* (main, bs) := dec_bool bs in
  let* (ld, bs) := dec_opt dec_str bs in
  let* (mnp, bs) := dec_bool bs in
  let* (df, bs) := dec_format bs in
  let* (dd, bs) := dec_descriptor bs in
  Ok (mk_lmetadata d1 d2 d3 d4 d5 d6 d7 d8 d9 d10 d11 d12 d13 d14 d15 d16 i cc ip pip np pep npp tr fs ifs
        main ld mnp df dd, bs).

(** build.rs:25, [postcard::to_io] on the loaded entries *)
Definition to_bytes (l : list lmetadata) : bytes := enc_vec enc_metadata l.
(** [postcard::from_bytes]; bytes after the value are not looked at *)
Definition from_bytes (bs : bytes) : outcome pc_err (list lmetadata) :=
  let* (l, _) := dec_vec dec_metadata bs in Ok l.

(** database.rs:31-32: [Database::from(postcard::from_bytes(DATABASE).unwrap()).unwrap()] *)
Definition embedded_db (bs : bytes) : outcome unit database :=
  match from_bytes bs with
  | Ok l => match db_from l with Ok db => Ok db | _ => Panic end
  | _ => Panic
  end.
