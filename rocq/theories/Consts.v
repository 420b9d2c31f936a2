(** * Consts: /repo/src/consts.rs

    Only the items that the library uses.  The pattern texts are the Rust
    sources verbatim with the [format!] holes filled in. *)
From Verif Require Import Base Unicode Regex RegexSyntax.

(** consts.rs:22 *)
Definition MIN_LENGTH_FOR_NSN : nat := 2.
(** consts.rs:25 *)
Definition MAX_LENGTH_FOR_NSN : nat := 17.
(** consts.rs:28 *)
Definition MAX_LENGTH_FOR_COUNTRY_CODE : nat := 3.

(** consts.rs:53 *)
Definition DEFAULT_IDD : regex := Eval vm_compute in force_regex (regex_new (lit "00")).

(** consts.rs:95-108 *)
Definition ASCII_MAPPINGS : list (char * char) :=
  map (fun c => (c, c)) (lit "0123456789").

(** consts.rs:124-181 *)
Definition ALPHA_MAPPINGS : list (char * char) :=
  combine (lit "ABCDEFGHIJKLMNOPQRSTUVWXYZabcdefghijklmnopqrstuvwxyz")
          (lit "2223334445556667777888999922233344455566677778889999").

(** consts.rs:184-189 *)
Definition ALPHA_PHONE_MAPPINGS : list (char * char) := ASCII_MAPPINGS ++ ALPHA_MAPPINGS.

(** [FnvHashMap::get] on these constant maps. *)
Fixpoint map_get (m : list (char * char)) (c : char) : option char :=
  match m with
  | [] => None
  | (k, v) :: m' => if N.eqb k c then Some v else map_get m' c
  end.

(** consts.rs:242 *)
Definition VALID_PUNCTUATION : str :=
  lit "-x\x{2010}-\x{2015}\x{2212}\x{30FC}\x{FF0D}-\x{FF0F} \x{00A0}\x{00AD}\x{200B}\x{2060}\x{3000}()\x{FF08}\x{FF09}\x{FF3B}\x{FF3D}.\[\]/~\x{2053}\x{223C}\x{FF5E}".

(** consts.rs:245 *)
Definition DIGITS : str := lit "\p{Nd}".
(** consts.rs:248 *)
Definition PLUS_CHARS : str := lit "\+\x{FF0B}".

(** consts.rs:266-267 *)
Definition SEPARATOR_PATTERN : regex := Eval vm_compute in
  force_regex (regex_new (lit "[" ++ VALID_PUNCTUATION ++ lit "]+")).

(** consts.rs:280-281 *)
Definition VALID_START_CHAR : regex := Eval vm_compute in
  force_regex (regex_new (lit "[" ++ PLUS_CHARS ++ DIGITS ++ lit "]")).

(** consts.rs:290 *)
Definition SECOND_NUMBER_START : regex := Eval vm_compute in
  force_regex (regex_new (lit "[\\/] *x")).

(** consts.rs:296-297 *)
Definition UNWANTED_END_CHARS : regex := Eval vm_compute in
  force_regex (regex_new (lit "[[\P{N}&&\P{L}]&&[^#]]+$")).

(** consts.rs:302-303 *)
Definition VALID_ALPHA_PHONE : regex := Eval vm_compute in
  force_regex (regex_new (lit "(?:.*?[A-Za-z]){3}.*")).

(** consts.rs:315 *)
Definition CAPTURING_EXTN_DIGITS : str := lit "(" ++ DIGITS ++ lit "{0,7})".

(** consts.rs:324-332 *)
Definition EXTN_PATTERNS_FOR_PARSING : str :=
  lit ";ext=" ++ CAPTURING_EXTN_DIGITS ++
  lit "|[ \x{00A0}\t,]*(?:e?xt(?:ensi(?:o\x{0301}?|\x{00F3}))?n?|\x{FF45}?\x{FF58}\x{FF54}\x{FF4E}?|[" ++
  lit ",;x\x{FF58}#\x{FF03}~\x{FF5E}" ++
  lit "]|int|anexo|\x{FF49}\x{FF4E}\x{FF54})[:\.\x{FF0E}]?[ \x{00A0}\t,-]*" ++
  CAPTURING_EXTN_DIGITS ++ lit "#?|[- ]+(" ++ DIGITS ++ lit "{1,5})#".

(** consts.rs:351-356 *)
Definition EXTN_PATTERN : regex := Eval vm_compute in
  force_regex (regex_build false true (lit "(?:" ++ EXTN_PATTERNS_FOR_PARSING ++ lit ")$")).

(** consts.rs:375 *)
Definition FIRST_GROUP : regex := Eval vm_compute in force_regex (regex_new (lit "(\$\d)")).

(** consts.rs:377-379 *)
Definition NP : str := lit "$NP".
Definition FG : str := lit "$FG".
Definition CC : str := lit "$CC".

(** formatter.rs:142,178: the default extension prefix, given there as a literal. *)
Definition DEFAULT_EXTN_PREFIX : str := lit " ext. ".

(** None of the patterns fell back to the never-matching one. *)
Example consts_compile :
  map (fun r => Nat.eqb (length (re_src r)) 0)
      [DEFAULT_IDD; SEPARATOR_PATTERN; VALID_START_CHAR; SECOND_NUMBER_START;
       UNWANTED_END_CHARS; VALID_ALPHA_PHONE; EXTN_PATTERN; FIRST_GROUP]
  = repeat false 8.
Proof. vm_compute. reflexivity. Qed.
