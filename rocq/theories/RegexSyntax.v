(** * RegexSyntax: from pattern text to [re]

    Models [Regex::new] and [RegexBuilder::new(..).ignore_whitespace(x)
    .case_insensitive(i).build()] (database.rs:65-67, consts.rs).  Supported:
    literals, [.], [^], [$], classes with ranges, negation, nesting and [&&],
    [\d], [\p{Nd}], [\P{N}], [\p{L}] ..., [\x{..}], [\t], escaped punctuation,
    capturing and non-capturing groups, alternation, [? * + {n} {n,} {n,m}] and
    their lazy forms.  Simplification: anything else is reported as a malformed
    pattern ([None]), as is a star over an expression matching the empty string;
    no pattern in the code or in the metadata is affected.  The crate's limits on
    the size of a compiled pattern (10 MiB) and on nesting (250) are left out. *)
From Verif Require Import Base Unicode Regex.

Definition is_pattern_ws (c : char) : bool :=
  in_range 9 13 c || N.eqb c 32 || N.eqb c 133 || in_range 8206 8207 c || in_range 8232 8233 c.

(** White space and [#] comments dropped, escapes kept ([ignore_whitespace]). *)
Fixpoint strip_ws (s : str) : str :=
  match s with
  | [] => []
  | c :: s' =>
      if N.eqb c 92 then match s' with d :: s'' => c :: d :: strip_ws s'' | [] => [c] end
      else if is_pattern_ws c then strip_ws s'
      else if N.eqb c 35 then
        (fix skip (s : str) : str :=
           match s with
           | [] => []
           | c :: s' => if N.eqb c 10 then strip_ws s' else skip s'
           end) s'
      else c :: strip_ws s'
  end.

Definition hex_val (c : char) : option N :=
  if is_digit c then Some (c - 48)%N
  else if in_range 97 102 c then Some (c - 87)%N
  else if in_range 65 70 c then Some (c - 55)%N
  else None.

Fixpoint hex_num (acc : N) (s : str) : option (N * str) :=   (* up to '}' *)
  match s with
  | [] => None
  | c :: s' => if N.eqb c 125 then Some (acc, s')
               else match hex_val c with
                    | Some v => hex_num (acc * 16 + v)%N s'
                    | None => None
                    end
  end.

(** A Unicode scalar value; the crate refuses any other number. *)
Definition is_scalar (n : N) : bool := N.leb n 55295 || in_range 57344 1114111 n.

Definition any_digit : cls := CUni UNd.

Definition uni_name (s : str) : option cls :=
  if str_eqb s (lit "Nd") then Some (CUni UNd)
  else if str_eqb s (lit "N") then Some (CUni UN)
  else if str_eqb s (lit "L") then Some (CUni UL)
  else None.

Definition is_meta (c : char) : bool :=
  mem_char c (lit "\.+*?()|[]{}^$#&-~/").

(** After a backslash: a class ([inl]) or a literal character ([inr]). *)
Definition p_escape (s : str) : option ((cls + N) * str) :=
  match s with
  | [] => None
  | c :: s' =>
      if N.eqb c 100 (* d *) then Some (inl any_digit, s')
      else if N.eqb c 68 (* D *) then Some (inl (CNeg any_digit), s')
      else if N.eqb c 116 (* t *) then Some (inr 9%N, s')
      else if N.eqb c 120 (* x *) then
        match s' with
        | b :: s'' => if N.eqb b 123 && negb (starts_with s'' [125%N]) then
                        match hex_num 0 s'' with
                        | Some (n, rest) => if is_scalar n then Some (inr n, rest) else None
                        | None => None
                        end
                      else None
        | [] => None
        end
      else if N.eqb c 112 || N.eqb c 80 (* p P *) then
        match s' with
        | b :: s'' =>
            if N.eqb b 123 then
              let '(name, rest) := span (fun x => negb (N.eqb x 125)) s'' in
              match uni_name name, rest with
              | Some cl, _ :: rest' => Some (inl (if N.eqb c 80 then CNeg cl else cl), rest')
              | _, _ => None
              end
            else None
        | [] => None
        end
      else if is_meta c then Some (inr c, s')
      else None
  end.

Definition c_union (a : option cls) (b : cls) : cls :=
  match a with None => b | Some a => CUnion a b end.

(** Inside a bracket class, after '[' and '^'.  [acc]: union so far;
    [left]: left operand of a pending [&&].  [first]: at the very start. *)
Fixpoint p_class (fuel : nat) (first : bool) (left acc : option cls) (s : str)
  : option (cls * str) :=
  match fuel with
  | O => None
  | S fuel' =>
      let fin (a : option cls) :=
        match left, a with
        | None, Some a => Some a
        | Some l, Some a => Some (CInter l a)
        | _, None => None
        end in
      (* a single literal [lo] has been read: maybe a range *)
      let range (lo : N) (s : str) :=
        match s with
        | d :: (e :: s'') as s' =>
            if N.eqb d 45 && negb (N.eqb e 93) then
              if N.eqb e 92 then
                match p_escape s'' with
                | Some (inr hi, rest) =>
                    if N.leb lo hi
                    then p_class fuel' false left (Some (c_union acc (CRange lo hi))) rest
                    else None
                | _ => None
                end
              else if N.eqb e 45 || N.eqb e 91 then None
              else if N.leb lo e
                   then p_class fuel' false left (Some (c_union acc (CRange lo e))) s''
                   else None
            else p_class fuel' false left (Some (c_union acc (CRange lo lo))) s
        | _ => p_class fuel' false left (Some (c_union acc (CRange lo lo))) s
        end in
      match s with
      | [] => None
      | c :: s' =>
          if N.eqb c 93 (* ] *) then
            match fin acc with Some r => Some (r, s') | None => None end
          else if N.eqb c 91 (* [ *) then
            let '(neg, s1) := match s' with
                              | d :: s'' => if N.eqb d 94 then (true, s'') else (false, s')
                              | [] => (false, s')
                              end in
            match p_class fuel' true None None s1 with
            | Some (cl, rest) =>
                p_class fuel' false left (Some (c_union acc (if neg then CNeg cl else cl))) rest
            | None => None
            end
          else if N.eqb c 38 && starts_with s' [38%N] then
            match fin acc with
            | Some l => p_class fuel' true (Some l) None (skipn 1 s')
            | None => None
            end
          else if N.eqb c 92 then
            match p_escape s' with
            | Some (inl cl, rest) => p_class fuel' false left (Some (c_union acc cl)) rest
            | Some (inr lo, rest) => range lo rest
            | None => None
            end
          else if N.eqb c 45 (* literal '-' : first or last *) then
            if first || starts_with s' [93%N]
            then p_class fuel' false left (Some (c_union acc (CRange 45 45))) s'
            else None
          else range c s'
      end
  end.

Fixpoint p_num (acc : nat) (seen : bool) (s : str) : option (nat * str) :=
  match s with
  | c :: s' => if is_digit c then p_num (acc * 10 + N.to_nat (c - 48)) true s'
               else if seen then Some (acc, s) else None
  | [] => None
  end.

(** A quantifier, if there is one: [Some (Some (min, max, greedy), rest)];
    [None] is a malformed counter. *)
Definition p_quant (s : str) : option (option (nat * option nat * bool) * str) :=
  let lazy_ (mn : nat) (mx : option nat) (s : str) :=
    match s with
    | c :: s' => if N.eqb c 63 then Some (Some (mn, mx, false), s') else Some (Some (mn, mx, true), s)
    | [] => Some (Some (mn, mx, true), [])
    end in
  match s with
  | [] => Some (None, s)
  | c :: s' =>
      if N.eqb c 63 then lazy_ 0 (Some 1) s'
      else if N.eqb c 42 then lazy_ 0 None s'
      else if N.eqb c 43 then lazy_ 1 None s'
      else if N.eqb c 123 then
        match p_num 0 false s' with
        | Some (n, d :: s2) =>
            if N.eqb d 125 then lazy_ n (Some n) s2
            else if N.eqb d 44 then
              match s2 with
              | e :: s3 => if N.eqb e 125 then lazy_ n None s3
                           else match p_num 0 false s2 with
                                | Some (mx, e2 :: s4) =>
                                    if N.eqb e2 125 && (n <=? mx) then lazy_ n (Some mx) s4 else None
                                | _ => None
                                end
              | [] => None
              end
            else None
        | _ => None
        end
      else Some (None, s)
  end.

Fixpoint nullable (r : re) : bool :=
  match r with
  | REps => true
  | RCls _ => false
  | RCat a b => nullable a && nullable b
  | RAlt a b => nullable a || nullable b
  | RRep _ mn mx r => Nat.eqb mn 0 || nullable r
  | RGrp _ r => nullable r
  | RStart => true
  | REnd => true
  end.

Definition cat_re (a : option re) (b : re) : re :=
  match a with None => b | Some a => RCat a b end.
Definition opt_re (a : option re) : re := match a with None => REps | Some a => a end.

(** [p_alt]/[p_cat]: [ng] is the number of the next capturing group.  The
    branch read so far is [acc]; alternatives so far are in [alts]. *)
Fixpoint p_re (fuel : nat) (depth ng : nat) (alts acc : option re) (s : str)
  : option (re * nat * str) :=
  match fuel with
  | O => None
  | S fuel' =>
      let whole := match alts with None => opt_re acc | Some a => RAlt a (opt_re acc) end in
      let atom (r : re) (ng : nat) (s : str) :=
        match p_quant s with
        | None => None
        | Some (None, s') => p_re fuel' depth ng alts (Some (cat_re acc r)) s'
        | Some (Some (mn, mx, g), s') =>
            match mx with
            | None => if nullable r then None
                      else p_re fuel' depth ng alts (Some (cat_re acc (RRep g mn None r))) s'
            | Some k => p_re fuel' depth ng alts (Some (cat_re acc (RRep g mn (Some k) r))) s'
            end
        end in
      match s with
      | [] => match depth with O => Some (whole, ng, []) | _ => None end
      | c :: s' =>
          if N.eqb c 41 (* ) *) then
            match depth with O => None | _ => Some (whole, ng, s') end
          else if N.eqb c 124 (* | *) then p_re fuel' depth ng (Some whole) None s'
          else if N.eqb c 40 (* ( *) then
            if starts_with s' [63%N; 58%N] then
              match p_re fuel' (S depth) ng None None (skipn 2 s') with
              | Some (r, ng', rest) => atom r ng' rest
              | None => None
              end
            else if starts_with s' [63%N] then None
            else
              match p_re fuel' (S depth) (S ng) None None s' with
              | Some (r, ng', rest) => atom (RGrp ng r) ng' rest
              | None => None
              end
          else if N.eqb c 91 (* [ *) then
            let '(neg, s1) := match s' with
                              | d :: s'' => if N.eqb d 94 then (true, s'') else (false, s')
                              | [] => (false, s')
                              end in
            match p_class fuel' true None None s1 with
            | Some (cl, rest) => atom (RCls (if neg then CNeg cl else cl)) ng rest
            | None => None
            end
          else if N.eqb c 92 (* \ *) then
            match p_escape s' with
            | Some (inl cl, rest) => atom (RCls cl) ng rest
            | Some (inr x, rest) => atom (RCls (CRange x x)) ng rest
            | None => None
            end
          else if N.eqb c 46 (* . *) then atom (RCls (CNeg (CRange 10 10))) ng s'
          else if N.eqb c 94 (* ^ *) then atom RStart ng s'
          else if N.eqb c 36 (* $ *) then atom REnd ng s'
          else if mem_char c (lit "*+?{") then None
          else atom (RCls (CRange c c)) ng s'
      end
  end.

(** Case-insensitive: every literal and range of a class is closed under
    simple case folding. *)
Fixpoint fold_cls (c : cls) : cls :=
  match c with
  | CRange _ _ => CFold c
  | CUni _ => c
  | CNeg c => CNeg (fold_cls c)
  | CUnion a b => CUnion (fold_cls a) (fold_cls b)
  | CInter a b => CInter (fold_cls a) (fold_cls b)
  | CFold c => CFold c
  end.
Fixpoint fold_re (r : re) : re :=
  match r with
  | RCls c => RCls (fold_cls c)
  | RCat a b => RCat (fold_re a) (fold_re b)
  | RAlt a b => RAlt (fold_re a) (fold_re b)
  | RRep g mn mx r => RRep g mn mx (fold_re r)
  | RGrp i r => RGrp i (fold_re r)
  | REps | RStart | REnd => r
  end.

(** [RegexBuilder::new(src).ignore_whitespace(x).case_insensitive(i).build()]. *)
Definition regex_build (x i : bool) (src : str) : option regex :=
  let s := if x then strip_ws src else src in
  match p_re (S (length s)) 0 1 None None s with
  | Some (r, ng, _) => Some (mk_regex src (if i then fold_re r else r) (ng - 1))
  | None => None
  end.

(** [Regex::new(src)]. *)
Definition regex_new (src : str) : option regex := regex_build false false src.

(** The pattern that never matches; stands for the failed [unwrap] in the
    definitions of constant patterns and never occurs (see [Consts.v]). *)
Definition regex_never : regex := mk_regex [] (RCls (CRange 1 0)) 0.
Definition force_regex (o : option regex) : regex := match o with Some r => r | None => regex_never end.
