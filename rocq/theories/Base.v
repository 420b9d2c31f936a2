(** * Base: strings, byte slicing, integer text, outcomes

    Rust [&str]/[String] values are modelled as lists of Unicode code points
    ([N]).  All Rust string offsets are BYTE offsets into the UTF-8 encoding, so
    the byte length and byte slicing are modelled explicitly and a slice whose
    boundary does not fall between two characters (a Rust panic) is [None].
    A list may also hold numbers that are no Unicode scalar values: theorems
    that quantify over [str] cover every Rust string and more. *)
From Coq Require Export List NArith ZArith Lia Bool Arith.
From Coq Require Import Init.Byte Strings.Byte Decimal.
From Coq Require Import DecimalFacts DecimalN DecimalPos.
From Coq Require Export ZifyBool ZifyNat ZifyN.
Export ListNotations.

Declare Scope bstr_scope.

(** String literals of the model: plain ASCII text. *)
Inductive bstr := BStr (l : list byte).
Definition bstr_parse (l : list byte) : bstr := BStr l.
Definition bstr_print (b : bstr) : list byte := match b with BStr l => l end.
String Notation bstr bstr_parse bstr_print : bstr_scope.
Delimit Scope bstr_scope with bstr.

Definition char := N.
Definition str := list char.

(** [lit "abc"] is the code-point list of an ASCII literal. *)
Definition lit (b : bstr) : str :=
  match b with BStr l => map Byte.to_N l end.
Arguments lit b%bstr.

(** ** Outcomes: [Result] with panics as explicit values. *)
Inductive outcome (E A : Type) : Type :=
| Ok (a : A)
| Err (e : E)
| Panic.
Arguments Ok {E A} a.
Arguments Err {E A} e.
Arguments Panic {E A}.

Definition obind {E A B} (x : outcome E A) (f : A -> outcome E B) : outcome E B :=
  match x with Ok a => f a | Err e => Err e | Panic => Panic end.
Notation "'let*' x := a 'in' b" := (obind a (fun x => b))
  (at level 200, x pattern, a at level 100, b at level 200).

(** [Option::unwrap]: panics on [None]. *)
Definition unwrap {E A} (o : option A) : outcome E A :=
  match o with Some a => Ok a | None => Panic end.
(** [Option::ok_or(e)?]. *)
Definition ok_or {E A} (o : option A) (e : E) : outcome E A :=
  match o with Some a => Ok a | None => Err e end.

Definition is_panic {E A} (x : outcome E A) : bool :=
  match x with Panic => true | _ => false end.
Definition is_ok {E A} (x : outcome E A) : bool :=
  match x with Ok _ => true | _ => false end.

(** ** Characters *)
Definition ch_0 : char := 48%N.
Definition ch_9 : char := 57%N.
Definition ch_plus : char := 43%N.

Definition in_range (lo hi c : N) : bool := (N.leb lo c && N.leb c hi)%bool.
(** [char::is_ascii_digit] (nom's [is_dec_digit] for [char]). *)
Definition is_digit (c : char) : bool := in_range 48 57 c.
(** [char::is_ascii_alphabetic] (nom's [is_alpha]). *)
Definition is_ascii_alpha (c : char) : bool := (in_range 65 90 c || in_range 97 122 c)%bool.
(** nom's [is_alphanum]. *)
Definition is_alphanum (c : char) : bool := (is_ascii_alpha c || is_digit c)%bool.
(** [char::is_ascii_hexdigit] (nom's [is_hex_digit]). *)
Definition is_hex_digit (c : char) : bool :=
  (is_digit c || in_range 65 70 c || in_range 97 102 c)%bool.

(** [char::len_utf8]. *)
Definition utf8_len (c : char) : nat :=
  if N.ltb c 128 then 1 else if N.ltb c 2048 then 2 else if N.ltb c 65536 then 3 else 4.

(** [str::len]: length in bytes. *)
Fixpoint blen (s : str) : nat :=
  match s with [] => 0 | c :: s' => utf8_len c + blen s' end.

(** [&s[n..]]; [None] is the panic of a bad boundary. *)
Fixpoint slice_from (s : str) (n : nat) : option str :=
  match n with
  | O => Some s
  | _ => match s with
         | [] => None
         | c :: s' => if utf8_len c <=? n then slice_from s' (n - utf8_len c) else None
         end
  end.

(** [&s[..n]]; [None] is the panic of a bad boundary. *)
Fixpoint slice_to (s : str) (n : nat) : option str :=
  match n with
  | O => Some []
  | _ => match s with
         | [] => None
         | c :: s' => if utf8_len c <=? n
                      then option_map (cons c) (slice_to s' (n - utf8_len c)) else None
         end
  end.

Fixpoint str_eqb (a b : str) : bool :=
  match a, b with
  | [], [] => true
  | x :: a', y :: b' => (N.eqb x y && str_eqb a' b')%bool
  | _, _ => false
  end.

(** [str::starts_with(&str)]. *)
Fixpoint starts_with (s p : str) : bool :=
  match p, s with
  | [], _ => true
  | y :: p', x :: s' => (N.eqb x y && starts_with s' p')%bool
  | _ :: _, [] => false
  end.

(** [str::strip_prefix(char)]. *)
Definition strip_prefix_char (c : char) (s : str) : option str :=
  match s with x :: s' => if N.eqb x c then Some s' else None | [] => None end.

(** [str::trim_start_matches(char)]. *)
Fixpoint trim_start_char (c : char) (s : str) : str :=
  match s with
  | x :: s' => if N.eqb x c then trim_start_char c s' else s
  | [] => []
  end.

Definition mem_char (c : char) (l : list char) : bool := existsb (N.eqb c) l.

Fixpoint span (p : char -> bool) (s : str) : str * str :=
  match s with
  | [] => ([], [])
  | c :: s' => if p c then let '(a, b) := span p s' in (c :: a, b) else ([], s)
  end.

(** [str::replace(&str, &str)]: all non-overlapping occurrences, leftmost first.
    Fuel: the length of the haystack (each step consumes a character).  Only
    non-empty needles occur in the code. *)
Fixpoint str_replace_fuel (fuel : nat) (s needle by_ : str) : str :=
  match fuel with
  | O => s
  | S fuel' =>
      match s with
      | [] => []
      | c :: s' =>
          if starts_with s needle
          then by_ ++ str_replace_fuel fuel' (skipn (length needle) s) needle by_
          else c :: str_replace_fuel fuel' s' needle by_
      end
  end.
Definition str_replace (s needle by_ : str) : str :=
  match needle with [] => s | _ => str_replace_fuel (S (length s)) s needle by_ end.

(** ** Decimal text *)
Fixpoint uint_str (d : Decimal.uint) : str :=
  match d with
  | Decimal.Nil => []
  | Decimal.D0 d => 48%N :: uint_str d
  | Decimal.D1 d => 49%N :: uint_str d
  | Decimal.D2 d => 50%N :: uint_str d
  | Decimal.D3 d => 51%N :: uint_str d
  | Decimal.D4 d => 52%N :: uint_str d
  | Decimal.D5 d => 53%N :: uint_str d
  | Decimal.D6 d => 54%N :: uint_str d
  | Decimal.D7 d => 55%N :: uint_str d
  | Decimal.D8 d => 56%N :: uint_str d
  | Decimal.D9 d => 57%N :: uint_str d
  end.

(** [to_string()] of an unsigned integer. *)
Definition dec (n : N) : str := uint_str (N.to_uint n).

(** Value of a digit string (most significant first). *)
Definition digits_val (s : str) : N :=
  fold_left (fun acc c => acc * 10 + (c - 48))%N s 0%N.

(** [s.parse::<uK>()] with [max] the largest value: [None] is any
    [ParseIntError].  A single leading '+' is accepted by Rust's integer
    parser; the empty string and a lone sign are errors. *)
Definition parse_uint (max : N) (s : str) : option N :=
  let body := match s with
              | c :: s' => if N.eqb c ch_plus then s' else s
              | [] => []
              end in
  match body with
  | [] => None
  | _ => if forallb is_digit body
         then let v := digits_val body in if N.leb v max then Some v else None
         else None
  end.

Definition u16_max : N := 65535%N.
Definition u64_max : N := 18446744073709551615%N.
Definition parse_u16 := parse_uint u16_max.
Definition parse_u64 := parse_uint u64_max.

(** [n as u16] for a [usize]. *)
Definition as_u16 (n : nat) : N := N.modulo (N.of_nat n) 65536.
(** [n as u8] for a [usize]. *)
Definition as_u8 (n : nat) : N := N.modulo (N.of_nat n) 256.

Definition option_eqb {A} (eqb : A -> A -> bool) (a b : option A) : bool :=
  match a, b with
  | None, None => true
  | Some x, Some y => eqb x y
  | _, _ => false
  end.

Definition is_some {A} (o : option A) : bool := match o with Some _ => true | None => false end.
