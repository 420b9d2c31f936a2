(** * Valid: /repo/src/parser/valid.rs, the character parsers of
    /repo/src/parser/helper.rs:71-104 and [is_viable] (validator.rs:80-88)

    A [nom] parser is a function from the input to the rest of the input
    ([None]: [Err::Error]).  Errors carry no payload: every caller drops it. *)
From Verif Require Import Base Unicode Regex RegexSyntax Consts.

(** helper.rs:79-83.  Note the literal '-' between U+FF0D and U+FF0F: this is a
    list of characters, not a regex class, so U+FF0E is not in it. *)
Definition punctuation_chars : list char := (
  lit "-x" ++ [8208; 8209; 8210; 8211; 8212; 8213; 8722; 12540; 65293; 45; 65295;
               32; 160; 173; 8203; 8288; 12288; 40; 41; 65288; 65289; 65339; 65341]
  ++ lit ".[]/~" ++ [8275; 8764; 65374])%N.
Definition is_punctuation (c : char) : bool := mem_char c punctuation_chars.
(** helper.rs:85-87 *)
Definition is_alpha (c : char) : bool := is_ascii_alpha c.
(** helper.rs:94-96 *)
Definition is_plus (c : char) : bool := N.eqb c 43 || N.eqb c 65291.
(** helper.rs:98-100 *)
Definition is_star (c : char) : bool := N.eqb c 42.

(** [many0] of a one-character parser *)
Definition many0 (p : char -> bool) (s : str) : str := snd (span p s).

(** helper.rs:90-92 with [count(digit, 1)] *)
Definition one_digit (s : str) : option str :=
  match s with c :: s' => if is_digit c then Some s' else None | [] => None end.

(** valid.rs:33-39 *)
Definition first_group (s : str) : option str :=
  one_digit (many0 (fun c => is_punctuation c || is_star c) s).

(** valid.rs:23-30 *)
Definition p_short (s : str) : bool :=
  match one_digit s with
  | Some s1 => match one_digit s1 with Some [] => true | _ => false end
  | None => false
  end.

(** valid.rs:32-50 *)
Definition p_long (s : str) : bool :=
  let s0 := many0 is_plus s in
  match first_group s0 with
  | None => false
  | Some s1 =>
      match first_group s1 with
      | None => false
      | Some s2 =>
          match first_group s2 with
          | None => false
          | Some s3 =>
              let s4 := many0 (fun c => is_punctuation c || is_star c || is_digit c) s3 in
              match many0 (fun c => is_punctuation c || is_star c || is_digit c || is_alpha c) s4 with
              | [] => true
              | _ => false
              end
          end
      end
  end.

(** valid.rs:19-21 *)
Definition valid_phone_number (s : str) : bool := if p_short s then true else p_long s.

(** validator.rs:80-88 *)
Definition is_viable (s : str) : bool :=
  if blen s <? MIN_LENGTH_FOR_NSN then false else valid_phone_number s.
