(** * Regex: model of the matching semantics of the crate [regex]

    The crate itself is not part of /repo; the code uses [Regex::find],
    [Regex::is_match], [Regex::captures], [Regex::captures_len],
    [Regex::replace] and [Regex::replace_all] (helper.rs:117-128,249,262,296-329;
    natural.rs:22; descriptor.rs:80; formatter.rs:191,216,221,240-254;
    validator.rs:166).  Matching is leftmost-first: the first match in the
    order in which a backtracking matcher would find it. *)
From Verif Require Import Base Unicode.

(** ** Character classes *)
Inductive ucat := UNd | UN | UL.

Inductive cls :=
| CRange (lo hi : N)
| CUni (u : ucat)
| CNeg (c : cls)
| CUnion (a b : cls)
| CInter (a b : cls)
| CFold (c : cls).      (* case-insensitive variant of [c] *)

Fixpoint in_ranges (l : list (N * N)) (x : N) : bool :=
  match l with
  | [] => false
  | (lo, hi) :: l' => if in_range lo hi x then true else in_ranges l' x
  end.

Definition ucat_tbl (u : ucat) : list (N * N) :=
  match u with UNd => tbl_Nd | UN => tbl_N | UL => tbl_L end.

(** Simple case-folding orbit of a character.  Simplification: complete for
    ASCII letters, full-width letters and Latin-1 letters with a Latin-1
    counterpart; these contain all characters of the only case-insensitive
    pattern in use (consts.rs:351-356). *)
Definition case_variants (x : N) : list N :=
  ((if in_range 65 90 x then [x + 32] else [])
  ++ (if in_range 97 122 x then [x - 32] else [])
  ++ (if N.eqb x 115 || N.eqb x 83 then [383] else [])
  ++ (if N.eqb x 383 then [115; 83] else [])
  ++ (if N.eqb x 107 || N.eqb x 75 then [8490] else [])
  ++ (if N.eqb x 8490 then [107; 75] else [])
  ++ (if in_range 65313 65338 x then [x + 32] else [])
  ++ (if in_range 65345 65370 x then [x - 32] else [])
  ++ (if in_range 192 222 x && negb (N.eqb x 215) then [x + 32] else [])
  ++ (if in_range 224 254 x && negb (N.eqb x 247) then [x - 32] else []))%N.

Fixpoint in_cls (c : cls) (x : N) : bool :=
  match c with
  | CRange lo hi => in_range lo hi x
  | CUni u => in_ranges (ucat_tbl u) x
  | CNeg c => negb (in_cls c x)
  | CUnion a b => if in_cls a x then true else in_cls b x
  | CInter a b => if in_cls a x then in_cls b x else false
  | CFold c => if in_cls c x then true else existsb (in_cls c) (case_variants x)
  end.

(** ** Regular expressions *)
Inductive re :=
| REps
| RCls (c : cls)
| RCat (a b : re)
| RAlt (a b : re)
| RRep (greedy : bool) (min : nat) (max : option nat) (r : re)
| RGrp (i : nat) (r : re)
| RStart                 (* ^ *)
| REnd.                  (* $ *)

Record cap := mk_cap { cap_start : nat; cap_end : nat; cap_text : str }.

(** Matcher state: byte position, remaining haystack, captures (latest first). *)
Record mst := mk_mst { m_pos : nat; m_rest : str; m_caps : list (nat * cap) }.

(** Text consumed between two states. *)
Definition consumed (s s' : mst) : str :=
  firstn (length (m_rest s) - length (m_rest s')) (m_rest s).

Definition progress (s s' : mst) : bool := length (m_rest s') <? length (m_rest s).

Definition close_grp (i : nat) (s s' : mst) : mst :=
  mk_mst (m_pos s') (m_rest s')
         ((i, mk_cap (m_pos s) (m_pos s') (consumed s s')) :: m_caps s').

Definition step_cls (c : cls) (s : mst) : option mst :=
  match m_rest s with
  | [] => None
  | x :: rest => if in_cls c x then Some (mk_mst (m_pos s + utf8_len x) rest (m_caps s)) else None
  end.

(** *** Declarative version: all matches, in priority order *)
Section reps.
  Variable f : mst -> list mst.
  Fixpoint copies (n : nat) (s : mst) : list mst :=
    match n with O => [s] | S n' => flat_map (copies n') (f s) end.
  (** up to [n] more iterations; with [strict] an iteration must consume *)
  Fixpoint upto (greedy strict : bool) (n : nat) (s : mst) : list mst :=
    match n with
    | O => [s]
    | S n' =>
        let nexts := if strict then filter (progress s) (f s) else f s in
        let more := flat_map (upto greedy strict n') nexts in
        if greedy then more ++ [s] else s :: more
    end.
End reps.

Fixpoint ms (r : re) (s : mst) : list mst :=
  match r with
  | REps => [s]
  | RCls c => match step_cls c s with Some s' => [s'] | None => [] end
  | RCat a b => flat_map (ms b) (ms a s)
  | RAlt a b => ms a s ++ ms b s
  | RRep g mn mx r =>
      flat_map (fun s' => match mx with
                          | None => upto (ms r) g true (length (m_rest s')) s'
                          | Some k => upto (ms r) g false (k - mn) s'
                          end)
               (copies (ms r) mn s)
  | RGrp i r => map (close_grp i s) (ms r s)
  | RStart => if Nat.eqb (m_pos s) 0 then [s] else []
  | REnd => match m_rest s with [] => [s] | _ => [] end
  end.

(** *** Executable version: backtracking with a continuation *)
Section kreps.
  Variable A : Type.
  Variable f : (mst -> option A) -> mst -> option A.
  Fixpoint kcopies (n : nat) (k : mst -> option A) (s : mst) : option A :=
    match n with O => k s | S n' => f (kcopies n' k) s end.
  Fixpoint kupto (greedy strict : bool) (n : nat) (k : mst -> option A) (s : mst) : option A :=
    match n with
    | O => k s
    | S n' =>
        let more := fun (_ : unit) =>
          f (fun s' => if strict && negb (progress s s') then None
                       else kupto greedy strict n' k s') s in
        if greedy
        then match more tt with Some a => Some a | None => k s end
        else match k s with Some a => Some a | None => more tt end
    end.
End kreps.

Fixpoint mk {A} (r : re) (k : mst -> option A) (s : mst) : option A :=
  match r with
  | REps => k s
  | RCls c => match step_cls c s with Some s' => k s' | None => None end
  | RCat a b => mk a (mk b k) s
  | RAlt a b => match mk a k s with Some x => Some x | None => mk b k s end
  | RRep g mn mx r =>
      kcopies A (mk r) mn
        (fun s' => match mx with
                   | None => kupto A (mk r) g true (length (m_rest s')) k s'
                   | Some n => kupto A (mk r) g false (n - mn) k s'
                   end) s
  | RGrp i r => mk r (fun s' => k (close_grp i s s')) s
  | RStart => if Nat.eqb (m_pos s) 0 then k s else None
  | REnd => match m_rest s with [] => k s | _ => None end
  end.

(** ** Compiled regexes and the API used by the code *)
Record regex := mk_regex { re_src : str; re_ast : re; re_ngroups : nat }.

(** A match: the text before, the matched text, the text after, the captures. *)
Record mres := mk_mres { mr_pre : str; mr_text : str; mr_post : str; mr_caps : list (nat * cap) }.
Definition mr_start (m : mres) : nat := blen (mr_pre m).
Definition mr_end (m : mres) : nat := blen (mr_pre m) + blen (mr_text m).

Definition match_at (r : re) (pos : nat) (s : str) : option mst := mk r Some (mk_mst pos s []).

Fixpoint find_at (r : re) (pos : nat) (pre : str) (s : str) : option mres :=
  match match_at r pos s with
  | Some st => Some (mk_mres (rev pre) (consumed (mk_mst pos s []) st) (m_rest st) (m_caps st))
  | None => match s with
            | [] => None
            | c :: s' => find_at r (pos + utf8_len c) (c :: pre) s'
            end
  end.

(** [Regex::find] / [Regex::captures]. *)
Definition re_find (r : regex) (s : str) : option mres := find_at (re_ast r) 0 [] s.
(** [Regex::is_match]. *)
Definition re_is_match (r : regex) (s : str) : bool := is_some (re_find r s).
(** [Regex::captures_len]. *)
Definition re_captures_len (r : regex) : nat := S (re_ngroups r).

Fixpoint cap_lookup (i : nat) (l : list (nat * cap)) : option cap :=
  match l with
  | [] => None
  | (j, c) :: l' => if Nat.eqb i j then Some c else cap_lookup i l'
  end.

(** [Captures::get]. *)
Definition cap_get (m : mres) (i : nat) : option cap :=
  match i with
  | O => Some (mk_cap (mr_start m) (mr_end m) (mr_text m))
  | S _ => cap_lookup i (mr_caps m)
  end.

(** ** Replacement-template expansion ([Captures::expand]) *)
Definition is_cap_letter (c : char) : bool := is_alphanum c || N.eqb c 95.

(** Reference by name: only numeric names refer to groups here (no pattern in
    use has named groups); an unknown group expands to nothing. *)
Definition cap_ref_text (m : mres) (name : str) : str :=
  match parse_uint 4294967295 name with
  | Some n => match cap_get m (N.to_nat n) with Some c => cap_text c | None => [] end
  | None => []
  end.

Fixpoint expand_fuel (fuel : nat) (m : mres) (t : str) : str :=
  match fuel with
  | O => t
  | S fuel' =>
      match t with
      | [] => []
      | c :: t' =>
          if N.eqb c 36 (* $ *) then
            match t' with
            | [] => [36%N]
            | d :: t'' =>
                if N.eqb d 36 then 36%N :: expand_fuel fuel' m t''
                else if N.eqb d 123 (* { *) then
                  let '(name, rest) := span (fun x => negb (N.eqb x 125)) t'' in
                  match rest with
                  | [] => 36%N :: expand_fuel fuel' m t'
                  | _ :: rest' => cap_ref_text m name ++ expand_fuel fuel' m rest'
                  end
                else
                  let '(name, rest) := span is_cap_letter t' in
                  match name with
                  | [] => 36%N :: expand_fuel fuel' m t'
                  | _ => cap_ref_text m name ++ expand_fuel fuel' m rest
                  end
            end
          else c :: expand_fuel fuel' m t'
      end
  end.
Definition expand (m : mres) (t : str) : str := expand_fuel (S (length t)) m t.

(** [Regex::replace]: the first match only. *)
Definition re_replace (r : regex) (s t : str) : str :=
  match re_find r s with
  | None => s
  | Some m => mr_pre m ++ expand m t ++ mr_post m
  end.

(** [Regex::replace_all].  Only used with a pattern that never matches the
    empty string (consts.rs:266); for an empty match the model copies one
    character and goes on. *)
Fixpoint replace_all_fuel (fuel : nat) (r : regex) (pos : nat) (s t : str) : str :=
  match fuel with
  | O => s
  | S fuel' =>
      match find_at (re_ast r) pos [] s with
      | None => s
      | Some m =>
          mr_pre m ++ expand m t ++
          match mr_text m, mr_post m with
          | [], [] => []
          | [], c :: post => c :: replace_all_fuel fuel' r (S pos) post t
          | _, post => replace_all_fuel fuel' r (S pos) post t
          end
      end
  end.
Definition re_replace_all (r : regex) (s t : str) : str := replace_all_fuel (S (length s)) r 0 s t.
