(** * Rfc3966: /repo/src/parser/rfc3966.rs *)
From Verif Require Import Base CountryId Types Number.

(** rfc3966.rs:114-116 *)
Definition r_separator (c : char) : bool :=
  N.eqb c 45 || N.eqb c 46 || N.eqb c 40 || N.eqb c 41.
(** rfc3966.rs:110-112 ([is_wide_digit] is [is_ascii_digit], helper.rs:405-407) *)
Definition r_digit (c : char) : bool := is_digit c || is_hex_digit c.
(** rfc3966.rs:106-108 *)
Definition r_number (c : char) : bool := r_digit c || r_separator c.
(** rfc3966.rs:98-100 *)
Definition r_pname (c : char) : bool := is_alphanum c || N.eqb c 45.
(** rfc3966.rs:126-136 *)
Definition r_mark (c : char) : bool := mem_char c (lit "-_.!~*'()").
(** rfc3966.rs:122-124 *)
Definition r_param_unreserved (c : char) : bool := mem_char c (lit "[]/:&+$").
(** rfc3966.rs:102-104, 118-120 *)
Definition r_pchar (c : char) : bool := r_param_unreserved c || is_alphanum c || r_mark c.

Definition ascii_lower (c : char) : char := if in_range 65 90 c then (c + 32)%N else c.

(** [tag_no_case("Tel:")].  nom compares the lower-cased characters; only the
    ASCII letters themselves lower-case to t, e and l. *)
Definition tag_tel (s : str) : option str :=
  match s with
  | a :: b :: c :: d :: s' =>
      if N.eqb (ascii_lower a) 116 && N.eqb (ascii_lower b) 101
         && N.eqb (ascii_lower c) 108 && N.eqb d 58
      then Some s' else None
  | _ => None
  end.

(** rfc3966.rs:64-69 *)
Definition r_prefix (s : str) : option (str * str) :=
  match s with
  | c :: s' => if N.eqb c 43
               then let '(p, rest) := span (fun c => negb (r_separator c)) s' in
                    match p with [] => None | _ => Some (p, rest) end
               else None
  | [] => None
  end.

(** rfc3966.rs:79-88 *)
Definition r_parameter (s : str) : option ((str * str) * str) :=
  match s with
  | c :: s1 =>
      if N.eqb c 59 then
        let '(key, s2) := span r_pname s1 in
        match s2 with
        | e :: s3 => if N.eqb e 61
                     then let '(value, s4) := span r_pchar s3 in Some ((key, value), s4)
                     else None
        | [] => None
        end
      else None
  | [] => None
  end.

(** rfc3966.rs:71-77: [many1(parameter)], fuelled by the input length (every
    parameter consumes at least two characters). *)
Fixpoint r_many (fuel : nat) (s : str) : list (str * str) * str :=
  match fuel with
  | O => ([], s)
  | S fuel' => match r_parameter s with
               | None => ([], s)
               | Some (kv, s') => let '(l, rest) := r_many fuel' s' in (kv :: l, rest)
               end
  end.
Definition r_parameters (s : str) : list (str * str) := fst (r_many (length s) s).

(** Lookup in the collected hash map: the last occurrence of a key wins. *)
Fixpoint params_get (l : list (str * str)) (k : str) : option str :=
  match l with
  | [] => None
  | (k', v) :: l' => match params_get l' k with
                     | Some w => Some w
                     | None => if str_eqb k' k then Some v else None
                     end
  end.

(** rfc3966.rs:90-96, [check] *)
Definition r_check (s : str) : bool :=
  match s with [] => true | c :: _ => N.eqb c 59 end.

(** rfc3966.rs:26-62; [None] is [Err::Error]. *)
Definition rfc3966 (i : str) : option number :=
  if mem_char 32%N i then None
  else
    let i1 := match tag_tel i with Some r => r | None => i end in
    let '(prefix, i2) := match r_prefix i1 with
                         | Some (p, r) => (Some p, r)
                         | None => (None, i1)
                         end in
    let '(national, i3) := span r_number i2 in
    match national with
    | [] => None
    | _ =>
        if r_check i3 then
          let params := r_parameters i3 in
          let context := match params_get params (lit "phone-context") with
                         | Some s => Some (match strip_prefix_char ch_plus s with
                                           | Some s' => s' | None => s end)
                         | None => None
                         end in
          Some (mk_number SrcDefault national
                          (match prefix with Some p => Some p | None => context end)
                          (params_get params (lit "ext")) None)
        else None
    end.
