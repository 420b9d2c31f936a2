(** * C51: a pattern of a metadata document means what it says

    The patterns of a document are texts.  Here the notation is described from
    the other side: what a pattern consists of, how it is written, and which
    texts it describes.  Every pattern so written is accepted - in either
    layout, with white space or without -, a description of numbers with that
    pattern applies to exactly the numbers that have one of its possible
    lengths and begin with a text the pattern describes, and the groups are
    those in plain round brackets. *)
From Verif Require Import Base Unicode Regex RegexSyntax CountryId Types Metadata Database DefaultDb DefaultDbOk.
From Verif Require Import StrFacts RegexLang RegexFacts DatabaseFacts PropsSpace.

(** ** The notation *)
(** A character: [a], [\+], [\x{2010}] or [\t]. *)
Inductive spelling := Plain (c : char) | Escaped (c : char) | Hex (digits : str) | Tab.
(** [\d], [\p{Nd}], [\p{N}], [\p{L}], and with a capital letter all the others *)
Inductive named := Digit | Category (u : ucat).
(** What stands between square brackets. *)
Inductive item :=
| IChar (x : spelling)
| IRange (lo hi : spelling)              (* a-z *)
| INamed (others : bool) (n : named)
| INest (neg : bool) (s : set)           (* [..] within the brackets *)
with items := IOne (i : item) | IMore (l : items) (i : item)
with set :=                              (* operands joined by && *)
| SOne (dash : bool) (l : items)         (* a '-' in front stands for itself *)
| SAnd (s : set) (l : items).
(** [?], [*], [+], [{n}], [{n,}], [{n,m}] *)
Inductive count := COpt | CStar | CPlus | CExact (n : nat) | CFrom (n : nat) | CBetween (n m : nat).
(** with another ['?']: as few as possible *)
Inductive quant := Once | Times (k : count) (few : bool).
Inductive pattern := One (b : branch) | Or (p : pattern) (b : branch)
with branch := Nil | Then (b : branch) (x : atom) (q : quant)
with atom :=
| AChar (x : spelling)
| ANamed (others : bool) (n : named)
| ASet (neg : bool) (s : set)
| AAny                                   (* . *)
| AStart | AEnd                          (* ^ $ *)
| AGroup (p : pattern)                   (* (..) *)
| ABrackets (p : pattern).               (* (?:..) *)

(** ** How it is written *)
Definition show_spelling (x : spelling) : str :=
  match x with
  | Plain c => [c]
  | Escaped c => [92%N; c]
  | Hex d => lit "\x{" ++ d ++ lit "}"
  | Tab => lit "\t"
  end.
Definition show_named (others : bool) (n : named) : str :=
  match n with
  | Digit => if others then lit "\D" else lit "\d"
  | Category u => (if others then lit "\P{" else lit "\p{")
                  ++ match u with UNd => lit "Nd" | UN => lit "N" | UL => lit "L" end ++ lit "}"
  end.
Definition open_set (neg : bool) : str := if neg then lit "[^" else lit "[".
Fixpoint show_item (i : item) : str :=
  match i with
  | IChar x => show_spelling x
  | IRange lo hi => show_spelling lo ++ lit "-" ++ show_spelling hi
  | INamed o n => show_named o n
  | INest neg s => open_set neg ++ show_set s ++ lit "]"
  end
with show_items (l : items) : str :=
  match l with IOne i => show_item i | IMore l i => show_items l ++ show_item i end
with show_set (s : set) : str :=
  match s with
  | SOne dash l => (if dash then lit "-" else []) ++ show_items l
  | SAnd s l => show_set s ++ lit "&&" ++ show_items l
  end.
Definition show_count (k : count) : str :=
  let n x := dec (N.of_nat x) in
  match k with
  | COpt => lit "?" | CStar => lit "*" | CPlus => lit "+"
  | CExact a => lit "{" ++ n a ++ lit "}"
  | CFrom a => lit "{" ++ n a ++ lit ",}"
  | CBetween a b => lit "{" ++ n a ++ lit "," ++ n b ++ lit "}"
  end.
Definition show_quant (q : quant) : str :=
  match q with Once => [] | Times k few => show_count k ++ if few then lit "?" else [] end.
Fixpoint show (p : pattern) : str :=
  match p with One b => show_branch b | Or p b => show p ++ lit "|" ++ show_branch b end
with show_branch (b : branch) : str :=
  match b with Nil => [] | Then b x q => show_branch b ++ show_atom x ++ show_quant q end
with show_atom (x : atom) : str :=
  match x with
  | AChar x => show_spelling x
  | ANamed o n => show_named o n
  | ASet neg s => open_set neg ++ show_set s ++ lit "]"
  | AAny => lit "." | AStart => lit "^" | AEnd => lit "$"
  | AGroup p => lit "(" ++ show p ++ lit ")"
  | ABrackets p => lit "(?:" ++ show p ++ lit ")"
  end.

(** ** What it describes *)
Definition hex_digit_value (c : char) : N :=
  if is_digit c then (c - 48)%N else if in_range 97 102 c then (c - 87)%N else (c - 55)%N.
Definition spelled (x : spelling) : char :=
  match x with
  | Plain c | Escaped c => c
  | Hex d => fold_left (fun n c => n * 16 + hex_digit_value c)%N d 0%N
  | Tab => 9%N
  end.
Definition in_named (n : named) (c : char) : Prop :=
  in_ranges (match n with Digit => tbl_Nd | Category UNd => tbl_Nd | Category UN => tbl_N | Category UL => tbl_L end) c = true.
Definition unless (neg : bool) (P : Prop) : Prop := if neg then ~ P else P.
Fixpoint in_item (i : item) (c : char) : Prop :=
  match i with
  | IChar x => c = spelled x
  | IRange lo hi => (spelled lo <= c <= spelled hi)%N
  | INamed o n => unless o (in_named n c)
  | INest neg s => unless neg (in_set s c)
  end
with in_items (l : items) (c : char) : Prop :=
  match l with IOne i => in_item i c | IMore l i => in_items l c \/ in_item i c end
with in_set (s : set) (c : char) : Prop :=
  match s with
  | SOne dash l => (dash = true /\ c = 45%N) \/ in_items l c
  | SAnd s l => in_set s c /\ in_items l c
  end.
Definition allowed (k : count) (n : nat) : Prop :=
  match k with
  | COpt => n <= 1 | CStar => True | CPlus => 1 <= n
  | CExact a => n = a | CFrom a => a <= n | CBetween a b => a <= n <= b
  end.
(** [M b t a]: the text [t], standing between [b] and [a], is described *)
Fixpoint times (M : str -> str -> str -> Prop) (n : nat) (b t a : str) : Prop :=
  match n with
  | O => t = []
  | S n => exists t1 t2, t = t1 ++ t2 /\ M b t1 (t2 ++ a) /\ times M n (b ++ t1) t2 a
  end.
Definition repeated (q : quant) (M : str -> str -> str -> Prop) (b t a : str) : Prop :=
  match q with Once => M b t a | Times k _ => exists n, allowed k n /\ times M n b t a end.
Fixpoint means (p : pattern) (b t a : str) : Prop :=
  match p with One br => branch_means br b t a | Or p br => means p b t a \/ branch_means br b t a end
with branch_means (br : branch) (b t a : str) : Prop :=
  match br with
  | Nil => t = []
  | Then br x q => exists t1 t2, t = t1 ++ t2 /\ branch_means br b t1 (t2 ++ a)
                                 /\ repeated q (atom_means x) (b ++ t1) t2 a
  end
with atom_means (x : atom) (b t a : str) : Prop :=
  match x with
  | AChar x => t = [spelled x]
  | ANamed o n => exists c, t = [c] /\ unless o (in_named n c)
  | ASet neg s => exists c, t = [c] /\ unless neg (in_set s c)
  | AAny => exists c, t = [c] /\ c <> 10%N
  | AStart => t = [] /\ b = []
  | AEnd => t = [] /\ a = []
  | AGroup p | ABrackets p => means p b t a
  end.

(** Number of groups. *)
Fixpoint groups (p : pattern) : nat :=
  match p with One b => branch_groups b | Or p b => groups p + branch_groups b end
with branch_groups (b : branch) : nat :=
  match b with Nil => 0 | Then b x _ => branch_groups b + atom_groups x end
with atom_groups (x : atom) : nat :=
  match x with AGroup p => S (groups p) | ABrackets p => groups p | _ => 0 end.

(** ** What may be written *)
Definition scalar (n : N) : Prop := (n < 55296 \/ 57344 <= n <= 1114111)%N.
Definition ok_plain (special : str) (c : char) : Prop := ~ space c /\ c <> 35%N /\ ~ In c special.
Definition ok_spelling (special : str) (x : spelling) : Prop :=
  match x with
  | Plain c => ok_plain special c
  | Escaped c => In c (lit "\.+*?()|[]{}^$#&-~")
  | Hex d => d <> [] /\ (forall c, In c d -> is_hex_digit c = true) /\ scalar (spelled x)
  | Tab => True
  end.
(** Characters to be escaped, between square brackets and elsewhere. *)
Definition set_special : str := lit "[]\^&-~({".
Definition special : str := lit "\.+*?()|[]{}^$&".
Fixpoint ok_item (i : item) : Prop :=
  match i with
  | IChar x => ok_spelling set_special x
  | IRange lo hi => ok_spelling set_special lo /\ ok_spelling set_special hi /\ (spelled lo <= spelled hi)%N
  | INamed _ _ => True
  | INest _ s => ok_set s
  end
with ok_items (l : items) : Prop :=
  match l with IOne i => ok_item i | IMore l i => ok_items l /\ ok_item i end
with ok_set (s : set) : Prop :=
  match s with SOne _ l => ok_items l | SAnd s l => ok_set s /\ ok_items l end.
(** Repeating without limit something that describes the empty text is left out. *)
Definition ok_quant (q : quant) (M : str -> str -> str -> Prop) : Prop :=
  match q with
  | Times CStar _ | Times CPlus _ | Times (CFrom _) _ => ~ M [] [] []
  | Times (CBetween n m) _ => n <= m
  | _ => True
  end.
Fixpoint ok (p : pattern) : Prop :=
  match p with One b => ok_branch b | Or p b => ok p /\ ok_branch b end
with ok_branch (b : branch) : Prop :=
  match b with Nil => True | Then b x q => ok_branch b /\ ok_atom x /\ ok_quant q (atom_means x) end
with ok_atom (x : atom) : Prop :=
  match x with
  | AChar x => ok_spelling special x
  | ASet _ s => ok_set s
  | AGroup p | ABrackets p => ok p
  | _ => True
  end.

Scheme item_mut := Induction for item Sort Prop
  with items_mut := Induction for items Sort Prop
  with set_mut := Induction for set Sort Prop.
Combined Scheme set_ind3 from item_mut, items_mut, set_mut.
Scheme pattern_mut := Induction for pattern Sort Prop
  with branch_mut := Induction for branch Sort Prop
  with atom_mut := Induction for atom Sort Prop.
Combined Scheme pattern_ind3 from pattern_mut, branch_mut, atom_mut.

(** ** The trees the compiler builds *)
Definition named_cls (n : named) : cls := match n with Digit => CUni UNd | Category u => CUni u end.
Definition neg_cls (neg : bool) (c : cls) : cls := if neg then CNeg c else c.
Fixpoint item_cls (i : item) : cls :=
  match i with
  | IChar x => CRange (spelled x) (spelled x)
  | IRange lo hi => CRange (spelled lo) (spelled hi)
  | INamed o n => neg_cls o (named_cls n)
  | INest neg s => neg_cls neg (set_cls s)
  end
with items_cls (acc : option cls) (l : items) : cls :=
  match l with IOne i => c_union acc (item_cls i) | IMore l i => CUnion (items_cls acc l) (item_cls i) end
with set_cls (s : set) : cls :=
  match s with
  | SOne dash l => items_cls (if dash then Some (CRange 45 45) else None) l
  | SAnd s l => CInter (set_cls s) (items_cls None l)
  end.
Definition bounds (k : count) : nat * option nat :=
  match k with
  | COpt => (0, Some 1) | CStar => (0, None) | CPlus => (1, None)
  | CExact a => (a, Some a) | CFrom a => (a, None) | CBetween a b => (a, Some b)
  end.
Definition quant_re (q : quant) (r : re) : re :=
  match q with Once => r | Times k few => RRep (negb few) (fst (bounds k)) (snd (bounds k)) r end.
Fixpoint tree (p : pattern) (ng : nat) : re :=
  match p with
  | One b => opt_re (branch_tree b ng)
  | Or p b => RAlt (tree p ng) (opt_re (branch_tree b (ng + groups p)))
  end
with branch_tree (b : branch) (ng : nat) : option re :=
  match b with
  | Nil => None
  | Then b x q => Some (cat_re (branch_tree b ng) (quant_re q (atom_tree x (ng + branch_groups b))))
  end
with atom_tree (x : atom) (ng : nat) : re :=
  match x with
  | AChar x => RCls (CRange (spelled x) (spelled x))
  | ANamed o n => RCls (neg_cls o (named_cls n))
  | ASet neg s => RCls (neg_cls neg (set_cls s))
  | AAny => RCls (CNeg (CRange 10 10))
  | AStart => RStart
  | AEnd => REnd
  | AGroup p => RGrp ng (tree p (S ng))
  | ABrackets p => tree p ng
  end.

(** ** The trees describe the same texts *)
Lemma range_single : forall c x, in_cls (CRange c c) x = true <-> x = c.
Proof. intros c x. cbn [in_cls]. unfold in_range. rewrite andb_true_iff, !N.leb_le. lia. Qed.
Lemma neg_cls_iff : forall neg c x P, (in_cls c x = true <-> P) -> (in_cls (neg_cls neg c) x = true <-> unless neg P).
Proof.
  intros [|] c x P H; cbn [neg_cls unless in_cls]; [|exact H]. rewrite negb_true_iff. destruct (in_cls c x).
  - split; [discriminate|]. intros K. elim K. now apply H.
  - split; [|reflexivity]. intros _ K. apply H in K. discriminate K.
Qed.
Lemma named_iff : forall n c, in_cls (named_cls n) c = true <-> in_named n c.
Proof. intros [|[]] c; reflexivity. Qed.
Lemma union_iff : forall a b x, in_cls (CUnion a b) x = true <-> in_cls a x = true \/ in_cls b x = true.
Proof. intros a b x. cbn [in_cls]. destruct (in_cls a x); [intuition congruence|]. split; [now right|]. intros [H|H]; [discriminate H|exact H]. Qed.
Lemma inter_iff : forall a b x, in_cls (CInter a b) x = true <-> in_cls a x = true /\ in_cls b x = true.
Proof. intros a b x. cbn [in_cls]. destruct (in_cls a x); [now split|]. split; [discriminate|now intros [H _]]. Qed.
Lemma set_iff :
  (forall i c, in_cls (item_cls i) c = true <-> in_item i c) /\
  (forall l acc c, in_cls (items_cls acc l) c = true <-> (match acc with Some a => in_cls a c = true | None => False end) \/ in_items l c) /\
  (forall s c, in_cls (set_cls s) c = true <-> in_set s c).
Proof.
  apply set_ind3.
  - intros x c. apply range_single.
  - intros lo hi c. cbn [item_cls in_cls in_item]. unfold in_range. now rewrite andb_true_iff, !N.leb_le.
  - intros o n c. apply neg_cls_iff, named_iff.
  - intros neg s IH c. apply neg_cls_iff, IH.
  - intros i IH [a|] c; cbn [items_cls c_union in_items]; [rewrite union_iff; now rewrite IH|]. rewrite IH. tauto.
  - intros l IHl i IHi acc c. cbn [items_cls in_items]. rewrite union_iff, IHl, IHi. tauto.
  - intros dash l IH c. cbn [set_cls in_set]. rewrite IH. destruct dash.
    + rewrite range_single. intuition congruence.
    + intuition congruence.
  - intros s IHs l IHl c. cbn [set_cls in_set]. rewrite inter_iff, IHs, IHl. tauto.
Qed.

Lemma langs_times : forall r M n b t a, (forall b t a, lang r b t a <-> M b t a) -> (langs r n b t a <-> times M n b t a).
Proof.
  intros r M n b t a H. revert b t. induction n as [|n IH]; intros b t; cbn [times].
  - split; [intros K; now inversion K|intros ->; constructor].
  - split.
    + intros K. inversion K; subst. exists t1, t2. split; [reflexivity|]. split; [now apply H|now apply IH].
    + intros (t1 & t2 & -> & K1 & K2). constructor; [now apply H|now apply IH].
Qed.
Lemma allowed_bounds : forall k n, (match k with CBetween a b => a <= b | _ => True end) ->
  (allowed k n <-> fst (bounds k) <= n /\ match snd (bounds k) with Some m => n <= Nat.max (fst (bounds k)) m | None => True end).
Proof. intros [| | |a|a|a b] n H; cbn [allowed bounds fst snd]; lia. Qed.
Lemma quant_iff : forall q M r, ok_quant q M -> (forall b t a, lang r b t a <-> M b t a) ->
  forall b t a, lang (quant_re q r) b t a <-> repeated q M b t a.
Proof.
  intros [|k few] M r Hq H b t a; cbn [quant_re repeated]; [apply H|].
  assert (Hk : match k with CBetween a b => a <= b | _ => True end) by (destruct k; exact I || exact Hq).
  split.
  - intros K. inversion K as [| | | | |g mn mx r' n b' t' a' Hmn Hmx HL| | |]; subst. exists n. split; [now apply allowed_bounds|].
    now apply (langs_times r M).
  - intros (n & Hn & HT). apply (allowed_bounds k n Hk) in Hn as [H1 H2]. apply (L_rep _ _ _ _ n); [exact H1|exact H2|].
    now apply (langs_times r M).
Qed.
Lemma cat_iff : forall o r b t a, lang (cat_re o r) b t a <->
  exists t1 t2, t = t1 ++ t2 /\ lang (opt_re o) b t1 (t2 ++ a) /\ lang r (b ++ t1) t2 a.
Proof.
  intros [x|] r b t a; cbn [cat_re opt_re].
  - split; [intros K; inversion K; subst; eauto 6|]. intros (t1 & t2 & -> & K1 & K2). now constructor.
  - split.
    + intros K. exists [], t. rewrite app_nil_r. repeat split; [constructor|exact K].
    + intros (t1 & t2 & -> & K1 & K2). inversion K1; subst. rewrite app_nil_r in K2. exact K2.
Qed.
Lemma cls_iff : forall c b t a, lang (RCls c) b t a <-> exists x, t = [x] /\ in_cls c x = true.
Proof. intros c b t a. split; [intros K; inversion K; subst; eauto|]. intros (x & -> & K). now constructor. Qed.
Lemma tree_iff :
  (forall p, ok p -> forall ng b t a, lang (tree p ng) b t a <-> means p b t a) /\
  (forall br, ok_branch br -> forall ng b t a, lang (opt_re (branch_tree br ng)) b t a <-> branch_means br b t a) /\
  (forall x, ok_atom x -> forall ng b t a, lang (atom_tree x ng) b t a <-> atom_means x b t a).
Proof.
  apply pattern_ind3.
  - intros br IH H ng b t a. cbn [tree means ok] in *. now apply IH.
  - intros p IHp br IHb [H1 H2] ng b t a. cbn [tree means]. rewrite <- (IHp H1 ng), <- (IHb H2 (ng + groups p)).
    split; [intros K; inversion K; subst; tauto|]. intros [K|K]; [now apply L_alt1|now apply L_alt2].
  - intros _ ng b t a. cbn [branch_tree opt_re branch_means]. split; [intros K; now inversion K|intros ->; constructor].
  - intros br IHb x IHx q (H1 & H2 & H3) ng b t a. cbn [branch_tree opt_re branch_means]. rewrite cat_iff.
    split; intros (t1 & t2 & -> & K1 & K2); exists t1, t2; (split; [reflexivity|]); split.
    + now apply (IHb H1 ng).
    + apply (quant_iff q (atom_means x) (atom_tree x (ng + branch_groups br)) H3); [now apply IHx|exact K2].
    + now apply (IHb H1 ng).
    + apply (quant_iff q (atom_means x) (atom_tree x (ng + branch_groups br)) H3); [now apply IHx|exact K2].
  - intros x H ng b t a. cbn [atom_tree atom_means]. rewrite cls_iff. split.
    + intros (y & -> & K). apply range_single in K. now rewrite K.
    + intros ->. exists (spelled x). split; [reflexivity|now apply range_single].
  - intros o n H ng b t a. cbn [atom_tree atom_means]. rewrite cls_iff. split; intros (y & -> & K); exists y; (split; [reflexivity|]);
      now apply (neg_cls_iff o (named_cls n) y (in_named n y) (named_iff n y)).
  - intros neg s H ng b t a. cbn [atom_tree atom_means]. rewrite cls_iff. split; intros (y & -> & K); exists y; (split; [reflexivity|]);
      now apply (neg_cls_iff neg (set_cls s) y (in_set s y) (proj2 (proj2 set_iff) s y)).
  - intros H ng b t a. cbn [atom_tree atom_means]. rewrite cls_iff. split; intros (y & -> & K); exists y; (split; [reflexivity|]).
    + intros ->. now apply (neg_cls_iff true (CRange 10 10) 10%N _ (range_single 10%N 10%N)) in K.
    + now apply (neg_cls_iff true (CRange 10 10) y _ (range_single 10%N y)).
  - intros H ng b t a. cbn [atom_tree atom_means]. split; [intros K; now inversion K|intros [-> ->]; constructor].
  - intros H ng b t a. cbn [atom_tree atom_means]. split; [intros K; now inversion K|intros [-> ->]; constructor].
  - intros p IH H ng b t a. cbn [atom_tree atom_means ok_atom] in *. rewrite <- (IH H (S ng)).
    split; [intros K; now inversion K|now constructor].
  - intros p IH H ng b t a. cbn [atom_tree atom_means ok_atom] in *. now apply IH.
Qed.

(** ** Reading what was written *)
(** *** Characters *)
Lemma hex_num_ok : forall d acc rest, (forall c, In c d -> is_hex_digit c = true) ->
  hex_num acc (d ++ 125%N :: rest) = Some (fold_left (fun n c => n * 16 + hex_digit_value c)%N d acc, rest).
Proof.
  induction d as [|c d IH]; intros acc rest H; [reflexivity|]. cbn [app hex_num fold_left].
  pose proof (H c (or_introl eq_refl)) as Hc. unfold is_hex_digit in Hc.
  assert (N125 : N.eqb c 125 = false).
  { apply N.eqb_neq. intros ->. discriminate Hc. }
  rewrite N125. assert (V : hex_val c = Some (hex_digit_value c)).
  { unfold hex_val, hex_digit_value. destruct (is_digit c); [reflexivity|]. cbn [orb] in Hc.
    destruct (in_range 97 102 c); [reflexivity|]. destruct (in_range 65 70 c); [reflexivity|discriminate Hc]. }
  rewrite V. apply IH. intros x I. apply H. now right.
Qed.
(** what [p_escape] sees *)
Definition escape_tail (x : spelling) : option str :=
  match x with Plain _ => None | Escaped c => Some [c] | Hex d => Some (lit "x{" ++ d ++ lit "}") | Tab => Some (lit "t") end.
Lemma escape_show : forall x s, escape_tail x = Some s -> show_spelling x = 92%N :: s.
Proof. intros [c|c|d|] s H; inversion H; subst; reflexivity. Qed.
Lemma scalar_ok : forall n, scalar n -> is_scalar n = true.
Proof. intros n H. unfold is_scalar, in_range, scalar in *. rewrite orb_true_iff, andb_true_iff, !N.leb_le. lia. Qed.
Lemma escape_ok : forall sp x s rest, ok_spelling sp x -> escape_tail x = Some s -> p_escape (s ++ rest) = Some (inr (spelled x), rest).
Proof.
  intros sp [c|c|d|] s rest H E; inversion E; subst s; clear E.
  - cbn [ok_spelling] in H. cbn [spelled app].
    cbn in H. repeat (destruct H as [<-|H]; [reflexivity|]). destruct H.
  - cbn [ok_spelling] in H. destruct H as (Hn & Hd & Hs).
    assert (E : forall u, u = d ++ 125%N :: rest -> p_escape (120%N :: 123%N :: u) = Some (inr (spelled (Hex d)), rest)).
    { intros u Eu.
      change (p_escape (120%N :: 123%N :: u)) with
        (if negb (starts_with u [125%N]) then match hex_num 0 u with Some (n, rest) => if is_scalar n then Some (@inr cls N n, rest) else None | None => None end else None).
      assert (E0 : starts_with u [125%N] = false).
      { rewrite Eu. destruct d as [|c d]; [now elim Hn|]. cbn [app starts_with]. pose proof (Hd c (or_introl eq_refl)) as Hc.
        destruct (N.eqb_spec c 125) as [->|]; [discriminate Hc|reflexivity]. }
      rewrite E0, Eu, (hex_num_ok d 0%N rest Hd). cbn [negb]. cbn [spelled] in *. now rewrite (scalar_ok _ Hs). }
    cbn [lit map Byte.to_N app]. apply E. now rewrite <- app_assoc.
  - reflexivity.
Qed.
Lemma named_show : forall o n, exists s, show_named o n = 92%N :: s /\
  forall rest, p_escape (s ++ rest) = Some (inl (neg_cls o (named_cls n)), rest).
Proof.
  intros o n. assert (H : exists s, show_named o n = 92%N :: s) by (destruct n as [|[]], o; eexists; reflexivity).
  destruct H as (s & H). exists s. split; [exact H|]. intros rest. destruct n as [|[]], o; inversion H; subst s; reflexivity.
Qed.

(** *** Square brackets *)
Definition fin (left : option cls) (a : cls) : cls := match left with None => a | Some l => CInter l a end.
(** does not begin with '-' *)
Definition no_dash (s : str) : Prop := match s with c :: _ => c <> 45%N | [] => True end.
Lemma neqb : forall (l : str) c x, ~ In c l -> In x l -> N.eqb c x = false.
Proof. intros l c x H I. apply N.eqb_neq. intros ->. now apply H. Qed.
(** the part of [p_class] that has read one character *)
Definition class_range (f : nat) (left acc : option cls) (lo : N) (s : str) : option (cls * str) :=
  match s with
  | d :: (e :: s'') as s' =>
      if N.eqb d 45 && negb (N.eqb e 93) then
        if N.eqb e 92 then
          match p_escape s'' with
          | Some (inr hi, rest) =>
              if N.leb lo hi then p_class f false left (Some (c_union acc (CRange lo hi))) rest else None
          | _ => None
          end
        else if N.eqb e 45 || N.eqb e 91 then None
        else if N.leb lo e then p_class f false left (Some (c_union acc (CRange lo e))) s'' else None
      else p_class f false left (Some (c_union acc (CRange lo lo))) s
  | _ => p_class f false left (Some (c_union acc (CRange lo lo))) s
  end.
Lemma class_char : forall f first left acc c s, ~ In c set_special ->
  p_class (S f) first left acc (c :: s) = class_range f left acc c s.
Proof.
  intros f first left acc c s H. cbn [p_class].
  rewrite (neqb set_special c 93%N H), (neqb set_special c 91%N H), (neqb set_special c 38%N H), (neqb set_special c 92%N H),
    (neqb set_special c 45%N H) by (cbn; tauto).
  reflexivity.
Qed.
Lemma class_escape : forall f first left acc s, p_class (S f) first left acc (92%N :: s) =
  match p_escape s with
  | Some (inl cl, rest) => p_class f false left (Some (c_union acc cl)) rest
  | Some (inr lo, rest) => class_range f left acc lo rest
  | None => None
  end.
Proof. reflexivity. Qed.
Lemma class_spelling : forall x, ok_spelling set_special x -> forall f first left acc rest,
  p_class (S f) first left acc (show_spelling x ++ rest) = class_range f left acc (spelled x) rest.
Proof.
  intros x H f first left acc rest. destruct (escape_tail x) as [t|] eqn:E.
  - rewrite (escape_show x t E). cbn [app]. now rewrite class_escape, (escape_ok set_special x t rest H E).
  - destruct x as [c| | |]; try discriminate E. destruct H as (_ & _ & H). cbn [show_spelling app spelled]. now apply class_char.
Qed.
Lemma class_single : forall f left acc lo rest, no_dash rest ->
  class_range f left acc lo rest = p_class f false left (Some (c_union acc (CRange lo lo))) rest.
Proof.
  intros f left acc lo [|d [|e s]] H; [reflexivity|reflexivity|]. cbn [class_range]. cbn [no_dash] in H.
  now rewrite (proj2 (N.eqb_neq d 45) H).
Qed.
Lemma class_double : forall f left acc lo hi rest, ok_spelling set_special hi -> (lo <= spelled hi)%N ->
  class_range f left acc lo (45%N :: show_spelling hi ++ rest) = p_class f false left (Some (c_union acc (CRange lo (spelled hi)))) rest.
Proof.
  intros f left acc lo hi rest H L. apply N.leb_le in L. destruct (escape_tail hi) as [t|] eqn:E.
  - rewrite (escape_show hi t E). cbn [app class_range]. cbn [N.eqb Pos.eqb andb negb].
    rewrite (escape_ok set_special hi t rest H E), L. reflexivity.
  - destruct hi as [c| | |]; try discriminate E. destruct H as (_ & _ & H). cbn [show_spelling app spelled class_range] in *.
    rewrite (neqb set_special c 93%N H), (neqb set_special c 91%N H), (neqb set_special c 92%N H),
      (neqb set_special c 45%N H) by (cbn; tauto). cbn [N.eqb Pos.eqb andb negb orb]. now rewrite L.
Qed.
Definition class_nest (neg : bool) (f : nat) (left acc : option cls) (s : str) : option (cls * str) :=
  match p_class f true None None s with
  | Some (cl, rest) => p_class f false left (Some (c_union acc (neg_cls neg cl))) rest
  | None => None
  end.
(** begins with no '^' *)
Definition no_caret (s : str) : Prop := match s with c :: _ => c <> 94%N | [] => True end.
Lemma class_open : forall neg f first left acc s, no_caret s ->
  p_class (S f) first left acc (open_set neg ++ s) = class_nest neg f left acc s.
Proof.
  intros [|] f first left acc s H; [reflexivity|]. destruct s as [|c s]; [reflexivity|].
  cbn [no_caret] in H. apply N.eqb_neq in H.
  transitivity (let '(neg, s1) := if N.eqb c 94 then (true, s) else (false, c :: s) in class_nest neg f left acc s1); [reflexivity|].
  now rewrite H.
Qed.
Lemma class_and : forall f first left a s, p_class (S f) first left (Some a) (38%N :: 38%N :: s) = p_class f true (Some (fin left a)) None s.
Proof. intros f first [l|] a [|c s]; reflexivity. Qed.
Lemma class_end : forall f first left a s, p_class (S f) first left (Some a) (93%N :: s) = Some (fin left a, s).
Proof. intros f first [l|] a s; reflexivity. Qed.

Lemma spelling_first : forall sp x, ok_spelling sp x -> exists c s, show_spelling x = c :: s /\ (c = 92%N \/ x = Plain c).
Proof.
  intros sp [c|c|d|] H; cbn [show_spelling]; eexists; eexists; (split; [reflexivity|]); [now right|now left|now left|now left].
Qed.
Lemma item_first : forall i, ok_item i -> exists c s, show_item i = c :: s /\ ~ In c (lit "]^&-").
Proof.
  assert (B : ~ In 92%N (lit "]^&-")) by (cbn; lia).
  assert (P : forall c, ok_spelling set_special (Plain c) -> ~ In c (lit "]^&-")).
  { intros c (_ & _ & H) I. apply H. cbn in *. tauto. }
  intros [x|lo hi|o n|neg s] H; cbn [show_item ok_item] in *.
  - destruct (spelling_first _ x H) as (c & s & E & [->| ->]); [exists 92%N, s; now split|exists c, s; split; [exact E|now apply P]].
  - destruct H as (H & _ & _). destruct (spelling_first _ lo H) as (c & s & E & K). rewrite E. cbn [app].
    exists c. eexists. split; [reflexivity|]. destruct K as [->| ->]; [exact B|now apply P].
  - destruct (named_show o n) as (s & E & _). exists 92%N, s. now split.
  - destruct neg; cbn [open_set lit map Byte.to_N app]; exists 91%N; eexists; (split; [reflexivity|cbn; lia]).
Qed.
Lemma items_first : forall l, ok_items l -> exists c s, show_items l = c :: s /\ ~ In c (lit "]^&-").
Proof.
  induction l as [i|l IH i]; cbn [ok_items show_items]; [apply item_first|]. intros [H _].
  destruct (IH H) as (c & s & E & K). rewrite E. cbn [app]. eauto.
Qed.
Lemma set_first : forall s rest, ok_set s -> no_caret (show_set s ++ rest).
Proof.
  assert (A : forall l rest, ok_items l -> no_caret (show_items l ++ rest)).
  { intros l rest H. destruct (items_first l H) as (c & t & E & K). rewrite E. cbn [app no_caret]. intros ->. apply K. cbn. tauto. }
  induction s as [dash l|s IH l]; intros rest; cbn [ok_set show_set].
  - intros H. destruct dash; [discriminate|]. cbn [app]. now apply A.
  - intros [H _]. rewrite <- app_assoc. now apply IH.
Qed.

Lemma class_read :
  (forall i, ok_item i -> forall f first left acc rest, no_dash rest -> length (show_item i) <= S f ->
     p_class (S f) first left acc (show_item i ++ rest) = p_class f false left (Some (c_union acc (item_cls i))) rest) /\
  (forall l, ok_items l -> forall f first left acc rest, no_dash rest -> length (show_items l) <= f ->
     exists f', f <= f' + length (show_items l) /\
       p_class f first left acc (show_items l ++ rest) = p_class f' false left (Some (items_cls acc l)) rest) /\
  (forall s, ok_set s -> forall f rest, no_dash rest -> length (show_set s) <= f ->
     exists f' left a, f <= f' + length (show_set s) /\ fin left a = set_cls s /\
       p_class f true None None (show_set s ++ rest) = p_class f' false left (Some a) rest).
Proof.
  apply set_ind3.
  - intros x H f first left acc rest R _. cbn [show_item item_cls]. rewrite class_spelling by exact H. now apply class_single.
  - intros lo hi (H1 & H2 & H3) f first left acc rest R _. cbn [show_item item_cls]. rewrite <- !app_assoc, class_spelling by exact H1.
    cbn [lit map Byte.to_N app]. now apply class_double.
  - intros o n _ f first left acc rest _ _. cbn [show_item item_cls]. destruct (named_show o n) as (t & E & K). rewrite E. cbn [app].
    now rewrite class_escape, K.
  - intros neg s IH H f first left acc rest R L. cbn [show_item item_cls ok_item] in *. rewrite <- !app_assoc, class_open by now apply set_first.
    assert (L' : length (show_set s) + 1 <= f) by (rewrite !app_length in L; destruct neg; cbn [open_set lit map Byte.to_N length] in L; lia).
    destruct (IH H f (lit "]" ++ rest)) as (f' & left' & a & F & E & K); [discriminate|lia|]. unfold class_nest.
    destruct f' as [|f']; [lia|]. rewrite K. cbn [lit map Byte.to_N app]. rewrite class_end, E. reflexivity.
  - intros i IH H f first left acc rest R L. cbn [show_items items_cls ok_items] in *.
    destruct (item_first i H) as (c & t & E & _). destruct f as [|f]; [rewrite E in L; cbn [length] in L; lia|].
    exists f. split; [rewrite E; cbn [length]; lia|]. now apply IH.
  - intros l IHl i IHi [H1 H2] f first left acc rest R L. cbn [show_items items_cls] in *. rewrite app_length in L.
    destruct (item_first i H2) as (c & t & E & K).
    destruct (IHl H1 f first left acc (show_item i ++ rest)) as (f' & F & K1);
      [rewrite E; cbn [app no_dash]; intros ->; apply K; cbn; tauto|lia|].
    rewrite <- app_assoc, K1. destruct f' as [|f']; [rewrite E in L; cbn [length] in L; lia|].
    exists f'. rewrite app_length. split; [rewrite E in *; cbn [length] in *; lia|].
    rewrite (IHi H2 f' false left (Some (items_cls acc l)) rest R) by lia. reflexivity.
  - intros dash l IH H f rest R L. cbn [show_set set_cls ok_set] in *. destruct dash; cbn [lit map Byte.to_N app length] in *.
    + destruct f as [|f]; [lia|]. destruct (IH H f false None (Some (CRange 45 45)) rest R) as (f' & F & K); [lia|].
      exists f', None. eexists. split; [|split; [reflexivity|]]; [lia|]. exact K.
    + destruct (IH H f true None None rest R L) as (f' & F & K). exists f', None. eexists. split; [exact F|]. split; [reflexivity|exact K].
  - intros s IHs l IHl [H1 H2] f rest R L. cbn [show_set set_cls] in *. rewrite !app_length in L. cbn [lit map Byte.to_N length] in L.
    destruct (IHs H1 f (lit "&&" ++ show_items l ++ rest)) as (f1 & left1 & a1 & F1 & E1 & K1); [discriminate|lia|].
    rewrite <- !app_assoc, K1. destruct f1 as [|f1]; [lia|].
    destruct (IHl H2 f1 true (Some (fin left1 a1)) None rest R) as (f2 & F2 & K2); [lia|].
    exists f2, (Some (fin left1 a1)). eexists. rewrite !app_length. cbn [lit map Byte.to_N length]. split; [lia|]. split; [cbn [fin]; now rewrite E1|].
    cbn [lit map Byte.to_N app]. rewrite class_and. exact K2.
Qed.

(** *** Repetition *)
(** does not begin with a sign of repetition *)
Definition no_sign (s : str) : Prop := match s with c :: _ => ~ In c (lit "?*+{") | [] => True end.
Lemma num_read : forall s n seen c rest, digits s = true -> is_digit c = false ->
  p_num n seen (s ++ c :: rest) = if seen || negb (Nat.eqb (length s) 0) then Some (N.to_nat (dv (N.of_nat n) s), c :: rest) else None.
Proof.
  induction s as [|d s IH]; intros n seen c rest D C.
  - cbn [app p_num length Nat.eqb negb dv fold_left]. rewrite C, orb_false_r. destruct seen; [|reflexivity]. now rewrite Nat2N.id.
  - cbn [digits forallb] in D. apply andb_true_iff in D as [D1 D2]. cbn [app p_num]. rewrite D1, (IH _ true c rest D2 C).
    cbn [length Nat.eqb negb orb]. rewrite orb_true_r. unfold dv. cbn [fold_left]. now rewrite Nat2N.inj_add, Nat2N.inj_mul, N2Nat.id.
Qed.
Lemma dec_read : forall n c rest, is_digit c = false -> p_num 0 false (dec (N.of_nat n) ++ c :: rest) = Some (n, c :: rest).
Proof.
  intros n c rest C. rewrite (num_read (dec (N.of_nat n)) 0 false c rest (digits_dec _) C).
  replace (Nat.eqb (length (dec (N.of_nat n))) 0) with false.
  - cbn [negb orb]. change (N.of_nat 0) with 0%N. rewrite <- digits_val_dv, digits_val_dec, Nat2N.id. reflexivity.
  - destruct (dec (N.of_nat n)) eqn:E; [now elim (dec_nonempty (N.of_nat n))|reflexivity].
Qed.
Definition quant_of (q : quant) : option (nat * option nat * bool) :=
  match q with Once => None | Times k few => Some (fst (bounds k), snd (bounds k), negb few) end.
Definition lazy_sign (mn : nat) (mx : option nat) (s : str) : option (option (nat * option nat * bool) * str) :=
  match s with
  | c :: s' => if N.eqb c 63 then Some (Some (mn, mx, false), s') else Some (Some (mn, mx, true), s)
  | [] => Some (Some (mn, mx, true), [])
  end.
Lemma lazy_read : forall mn mx (few : bool) rest, no_sign rest ->
  lazy_sign mn mx ((if few then lit "?" else []) ++ rest) = Some (Some (mn, mx, negb few), rest).
Proof.
  intros mn mx [|] rest H; [reflexivity|]. cbn [app negb]. destruct rest as [|c rest]; [reflexivity|]. cbn [lazy_sign].
  cbn [no_sign] in H. now rewrite (neqb (lit "?*+{") c 63%N H) by (cbn; tauto).
Qed.
Lemma quant_counted : forall n d s, is_digit d = false -> p_quant (123%N :: dec (N.of_nat n) ++ d :: s) =
  if N.eqb d 125 then lazy_sign n (Some n) s
  else if N.eqb d 44 then
    match s with
    | e :: s3 => if N.eqb e 125 then lazy_sign n None s3
                 else match p_num 0 false s with
                      | Some (mx, e2 :: s4) => if N.eqb e2 125 && (n <=? mx) then lazy_sign n (Some mx) s4 else None
                      | _ => None
                      end
    | [] => None
    end
  else None.
Proof.
  intros n d s D. unfold p_quant. change (N.eqb 123 63) with false. change (N.eqb 123 42) with false.
  change (N.eqb 123 43) with false. change (N.eqb 123 123) with true. cbv iota.
  rewrite (dec_read n d s D). reflexivity.
Qed.
Lemma quant_read : forall q M rest, ok_quant q M -> no_sign rest -> p_quant (show_quant q ++ rest) = Some (quant_of q, rest).
Proof.
  intros [|k few] M rest Hq H; cbn [show_quant quant_of].
  - cbn [app]. destruct rest as [|c rest]; [reflexivity|]. unfold p_quant. cbn [no_sign] in H.
    rewrite (neqb (lit "?*+{") c 63%N H), (neqb (lit "?*+{") c 42%N H), (neqb (lit "?*+{") c 43%N H), (neqb (lit "?*+{") c 123%N H)
      by (cbn; tauto). reflexivity.
  - rewrite <- app_assoc. destruct k as [| | |n|n|n m]; cbn [show_count bounds fst snd].
    + cbn [lit map Byte.to_N app]. exact (lazy_read 0 (Some 1) few rest H).
    + cbn [lit map Byte.to_N app]. exact (lazy_read 0 None few rest H).
    + cbn [lit map Byte.to_N app]. exact (lazy_read 1 None few rest H).
    + rewrite <- !app_assoc. cbn [lit map Byte.to_N app]. rewrite quant_counted by reflexivity. exact (lazy_read n (Some n) few rest H).
    + rewrite <- !app_assoc. cbn [lit map Byte.to_N app]. rewrite quant_counted by reflexivity. exact (lazy_read n None few rest H).
    + rewrite <- !app_assoc. cbn [lit map Byte.to_N app]. rewrite quant_counted by reflexivity.
      change (N.eqb 44 125) with false. change (N.eqb 44 44) with true. cbv iota.
      set (u := (if few then lit "?" else []) ++ rest).
      pose proof (dec_read m 125%N u eq_refl) as K. pose proof (digits_dec (N.of_nat m)) as D.
      destruct (dec (N.of_nat m)) as [|e t] eqn:E; [now elim (dec_nonempty (N.of_nat m))|].
      cbn [digits forallb] in D. apply andb_true_iff in D as [D _].
      assert (E125 : N.eqb e 125 = false) by (apply N.eqb_neq; intros ->; discriminate D).
      cbn [app] in *. rewrite E125.
      match goal with |- context [p_num 0 false ?w] => replace (p_num 0 false w) with (Some (m, 125%N :: u)) by (symmetry; exact K) end.
      cbn [ok_quant] in Hq. apply Nat.leb_le in Hq. rewrite Hq. cbn [N.eqb Pos.eqb andb]. apply (lazy_read n (Some m) few rest H).
Qed.

Lemma nullable_empty : forall r, nullable r = true -> lang r [] [] [].
Proof.
  induction r as [| |r1 IH1 r2 IH2|r1 IH1 r2 IH2|g mn mx r IH|i r IH| |]; cbn [nullable]; intros H.
  - constructor.
  - discriminate H.
  - apply andb_true_iff in H as [H1 H2]. apply (L_cat r1 r2 [] [] [] []); [now apply IH1|now apply IH2].
  - apply orb_true_iff in H as [H|H]; [apply L_alt1; now apply IH1|apply L_alt2; now apply IH2].
  - apply (L_rep g mn mx r mn); [lia|destruct mx; [lia|exact I]|]. apply orb_true_iff in H as [H|H].
    + apply Nat.eqb_eq in H. subst mn. constructor.
    + clear mx. induction mn as [|n IHn]; [constructor|]. apply (LS_S r n [] [] [] []); [now apply IH|exact IHn].
  - constructor. now apply IH.
  - constructor.
  - constructor.
Qed.

(** *** Patterns *)
Definition whole (alts acc : option re) : re := match alts with None => opt_re acc | Some a => RAlt a (opt_re acc) end.
Definition atom_step (f depth : nat) (alts acc : option re) (r : re) (ng : nat) (s : str) : option (re * nat * str) :=
  match p_quant s with
  | None => None
  | Some (None, s') => p_re f depth ng alts (Some (cat_re acc r)) s'
  | Some (Some (mn, mx, g), s') =>
      match mx with
      | None => if nullable r then None else p_re f depth ng alts (Some (cat_re acc (RRep g mn None r))) s'
      | Some k => p_re f depth ng alts (Some (cat_re acc (RRep g mn (Some k) r))) s'
      end
  end.
Lemma atom_quant : forall x q f d alts acc ng ng' rest, ok_atom x -> ok_quant q (atom_means x) -> no_sign rest ->
  atom_step f d alts acc (atom_tree x ng) ng' (show_quant q ++ rest)
  = p_re f d ng' alts (Some (cat_re acc (quant_re q (atom_tree x ng)))) rest.
Proof.
  intros x q f d alts acc ng ng' rest Hx Hq R. unfold atom_step. rewrite (quant_read q _ rest Hq R).
  destruct q as [|k few]; [reflexivity|]. cbn [quant_of].
  assert (Nn : snd (bounds k) = None -> nullable (atom_tree x ng) = false).
  { intros B. destruct (nullable (atom_tree x ng)) eqn:E; [|reflexivity]. apply nullable_empty in E.
    apply (proj2 (proj2 tree_iff) x Hx ng) in E. destruct k; try discriminate B; elim (Hq E). }
  cbn [quant_re]. destruct (snd (bounds k)) as [m|]; [reflexivity|]. now rewrite Nn.
Qed.
Lemma re_char : forall f d ng alts acc c s, ~ In c special -> p_re (S f) d ng alts acc (c :: s) = atom_step f d alts acc (RCls (CRange c c)) ng s.
Proof.
  intros f d ng alts acc c s H. cbn [p_re].
  rewrite (neqb special c 41%N H), (neqb special c 124%N H), (neqb special c 40%N H), (neqb special c 91%N H), (neqb special c 92%N H),
    (neqb special c 46%N H), (neqb special c 94%N H), (neqb special c 36%N H) by (cbn; tauto).
  assert (E : mem_char c (lit "*+?{") = false).
  { destruct (mem_char c (lit "*+?{")) eqn:E; [|reflexivity]. unfold mem_char in E. apply existsb_exists in E as (y & I & E).
    apply N.eqb_eq in E. subst y. elim H. cbn in *. tauto. }
  rewrite E. reflexivity.
Qed.
Lemma re_escape : forall f d ng alts acc s, p_re (S f) d ng alts acc (92%N :: s) =
  match p_escape s with
  | Some (inl cl, rest) => atom_step f d alts acc (RCls cl) ng rest
  | Some (inr x, rest) => atom_step f d alts acc (RCls (CRange x x)) ng rest
  | None => None
  end.
Proof. reflexivity. Qed.
Lemma re_spelling : forall x, ok_spelling special x -> forall f d ng alts acc rest,
  p_re (S f) d ng alts acc (show_spelling x ++ rest) = atom_step f d alts acc (RCls (CRange (spelled x) (spelled x))) ng rest.
Proof.
  intros x H f d ng alts acc rest. destruct (escape_tail x) as [t|] eqn:E.
  - rewrite (escape_show x t E). cbn [app]. now rewrite re_escape, (escape_ok special x t rest H E).
  - destruct x as [c| | |]; try discriminate E. destruct H as (_ & _ & H). cbn [show_spelling app spelled]. now apply re_char.
Qed.
Lemma re_set : forall neg f d ng alts acc s, no_caret s -> p_re (S f) d ng alts acc (open_set neg ++ s) =
  match p_class f true None None s with
  | Some (cl, rest) => atom_step f d alts acc (RCls (neg_cls neg cl)) ng rest
  | None => None
  end.
Proof.
  intros [|] f d ng alts acc s H; [reflexivity|]. destruct s as [|c s]; [reflexivity|].
  cbn [no_caret] in H. apply N.eqb_neq in H.
  transitivity (let '(neg, s1) := if N.eqb c 94 then (true, s) else (false, c :: s) in
    match p_class f true None None s1 with
    | Some (cl, rest) => atom_step f d alts acc (RCls (neg_cls neg cl)) ng rest
    | None => None
    end); [reflexivity|]. now rewrite H.
Qed.
Lemma re_group : forall f d ng alts acc s, no_sign s -> p_re (S f) d ng alts acc (40%N :: s) =
  match p_re f (S d) (S ng) None None s with
  | Some (r, ng', rest) => atom_step f d alts acc (RGrp ng r) ng' rest
  | None => None
  end.
Proof.
  intros f d ng alts acc s H. cbn [p_re]. cbn [N.eqb Pos.eqb].
  assert (E : starts_with s [63%N; 58%N] = false /\ starts_with s [63%N] = false).
  { destruct s as [|c s]; [split; reflexivity|]. cbn [no_sign] in H. cbn [starts_with].
    now rewrite (neqb (lit "?*+{") c 63%N H) by (cbn; tauto). }
  destruct E as [-> ->]. reflexivity.
Qed.
Lemma re_brackets : forall f d ng alts acc s, p_re (S f) d ng alts acc (lit "(?:" ++ s) =
  match p_re f (S d) ng None None s with
  | Some (r, ng', rest) => atom_step f d alts acc r ng' rest
  | None => None
  end.
Proof. intros f d ng alts acc [|c s]; reflexivity. Qed.
Lemma re_or : forall f d ng alts acc s, p_re (S f) d ng alts acc (124%N :: s) = p_re f d ng (Some (whole alts acc)) None s.
Proof. reflexivity. Qed.
Lemma re_close : forall f d ng alts acc s, p_re (S f) (S d) ng alts acc (41%N :: s) = Some (whole alts acc, ng, s).
Proof. reflexivity. Qed.
Lemma re_stop : forall f ng alts acc, p_re (S f) 0 ng alts acc [] = Some (whole alts acc, ng, []).
Proof. reflexivity. Qed.

Lemma atom_first : forall x, ok_atom x -> exists c s, show_atom x = c :: s /\ ~ In c (lit "?*+{").
Proof.
  intros [x|o n|neg s| | | |p|p] H; cbn [show_atom ok_atom] in *.
  - destruct (spelling_first _ x H) as (c & t & E & [->| ->]); [exists 92%N, t; split; [exact E|cbn; lia]|].
    exists c, t. split; [exact E|]. destruct H as (_ & _ & H). intros I. apply H. cbn in *. tauto.
  - destruct (named_show o n) as (t & E & _). exists 92%N, t. split; [exact E|cbn; lia].
  - destruct neg; cbn [open_set lit map Byte.to_N app]; eexists; eexists; (split; [reflexivity|cbn; lia]).
  - eexists; eexists; (split; [reflexivity|cbn; lia]).
  - eexists; eexists; (split; [reflexivity|cbn; lia]).
  - eexists; eexists; (split; [reflexivity|cbn; lia]).
  - cbn [lit map Byte.to_N app]. eexists; eexists; (split; [reflexivity|cbn; lia]).
  - cbn [lit map Byte.to_N app]. eexists; eexists; (split; [reflexivity|cbn; lia]).
Qed.
Lemma branch_first : forall b rest, ok_branch b -> no_sign rest -> no_sign (show_branch b ++ rest).
Proof.
  induction b as [|b IH x q]; intros rest; cbn [ok_branch show_branch]; [now intros _|]. intros (H1 & H2 & _) R.
  rewrite <- app_assoc. apply IH; [exact H1|]. destruct (atom_first x H2) as (c & t & E & K). rewrite E. exact K.
Qed.
Lemma pattern_first : forall p rest, ok p -> no_sign rest -> no_sign (show p ++ rest).
Proof.
  induction p as [b|p IH b]; intros rest; cbn [ok show]; [apply branch_first|]. intros [H1 H2] R.
  rewrite <- app_assoc. apply IH; [exact H1|]. cbn; lia.
Qed.

Lemma re_read :
  (forall p, ok p -> forall f d ng rest, no_sign rest -> length (show p) <= f ->
     exists f' alts acc, f <= f' + length (show p) /\ whole alts acc = tree p ng /\
       p_re f d ng None None (show p ++ rest) = p_re f' d (ng + groups p) alts acc rest) /\
  (forall b, ok_branch b -> forall f d ng alts rest, no_sign rest -> length (show_branch b) <= f ->
     exists f', f <= f' + length (show_branch b) /\
       p_re f d ng alts None (show_branch b ++ rest) = p_re f' d (ng + branch_groups b) alts (branch_tree b ng) rest) /\
  (forall x, ok_atom x -> forall f d ng alts acc rest, length (show_atom x) <= S f ->
     p_re (S f) d ng alts acc (show_atom x ++ rest) = atom_step f d alts acc (atom_tree x ng) (ng + atom_groups x) rest).
Proof.
  apply pattern_ind3.
  - intros b IH H f d ng rest R L. cbn [show groups tree ok] in *. destruct (IH H f d ng None rest R L) as (f' & F & K).
    exists f', None, (branch_tree b ng). now repeat split.
  - intros p IHp b IHb [H1 H2] f d ng rest R L. cbn [show groups tree] in *. rewrite !app_length in *. cbn [lit map Byte.to_N length] in L.
    destruct (IHp H1 f d ng (lit "|" ++ show_branch b ++ rest)) as (f1 & alts & acc & F & E & K); [cbn; lia|lia|].
    rewrite <- !app_assoc, K. destruct f1 as [|f1]; [lia|]. cbn [lit map Byte.to_N app]. rewrite re_or.
    destruct (IHb H2 f1 d (ng + groups p) (Some (whole alts acc)) rest R) as (f2 & F2 & K2); [lia|].
    exists f2, (Some (whole alts acc)). eexists. split; [rewrite ?app_length; cbn [lit map Byte.to_N length]; lia|]. split; [|rewrite K2; now rewrite Nat.add_assoc].
    cbn [whole]. now rewrite E.
  - intros _ f d ng alts rest R L. exists f. cbn. rewrite !Nat.add_0_r. split; [lia|reflexivity].
  - intros b IHb x IHx q (H1 & H2 & H3) f d ng alts rest R L. cbn [show_branch branch_groups branch_tree] in *. rewrite !app_length in *.
    destruct (atom_first x H2) as (c & t & E & C).
    assert (Lx : 1 <= length (show_atom x)) by (rewrite E; cbn [length]; lia).
    destruct (IHb H1 f d ng alts (show_atom x ++ show_quant q ++ rest)) as (f1 & F & K); [rewrite E; exact C|lia|].
    rewrite <- !app_assoc, K. destruct f1 as [|f1]; [lia|].
    rewrite (IHx H2) by lia. rewrite (atom_quant x q) by assumption. exists f1. split; [rewrite ?app_length; lia|]. now rewrite Nat.add_assoc.
  - intros x H f d ng alts acc rest _. cbn [show_atom atom_tree atom_groups]. rewrite Nat.add_0_r. now apply re_spelling.
  - intros o n _ f d ng alts acc rest _. cbn [show_atom atom_tree atom_groups]. rewrite Nat.add_0_r.
    destruct (named_show o n) as (t & E & K). rewrite E. cbn [app]. now rewrite re_escape, K.
  - intros neg s H f d ng alts acc rest L. cbn [show_atom atom_tree atom_groups ok_atom] in *. rewrite Nat.add_0_r.
    rewrite <- !app_assoc, re_set by now apply set_first.
    rewrite !app_length in L. assert (L' : length (show_set s) + 1 <= f) by (destruct neg; cbn [open_set lit map Byte.to_N length] in L; lia).
    destruct (proj2 (proj2 class_read) s H f (lit "]" ++ rest)) as (f' & left' & a & F & E & K); [discriminate|lia|].
    destruct f' as [|f']; [lia|]. rewrite K. cbn [lit map Byte.to_N app]. rewrite class_end, E. reflexivity.
  - intros _ f d ng alts acc rest _. cbn [atom_groups]. rewrite Nat.add_0_r. reflexivity.
  - intros _ f d ng alts acc rest _. cbn [atom_groups]. rewrite Nat.add_0_r. reflexivity.
  - intros _ f d ng alts acc rest _. cbn [atom_groups]. rewrite Nat.add_0_r. reflexivity.
  - intros p IH H f d ng alts acc rest L. cbn [show_atom atom_tree atom_groups ok_atom] in *. rewrite !app_length in L. cbn [lit map Byte.to_N length] in L.
    rewrite <- !app_assoc.
    etransitivity; [refine (re_group f d ng alts acc (show p ++ lit ")" ++ rest) _); apply pattern_first; [exact H|cbn; lia]|].
    destruct (IH H f (S d) (S ng) (lit ")" ++ rest)) as (f' & alts' & acc' & F & E & K); [cbn; lia|lia|].
    destruct f' as [|f']; [lia|]. rewrite K.
    change (p_re (S f') (S d) (S ng + groups p) alts' acc' (lit ")" ++ rest)) with (Some (whole alts' acc', S ng + groups p, rest)).
    rewrite E. now rewrite Nat.add_succ_r.
  - intros p IH H f d ng alts acc rest L. cbn [show_atom atom_tree atom_groups ok_atom] in *. rewrite !app_length in L. cbn [lit map Byte.to_N length] in L.
    rewrite <- !app_assoc, re_brackets.
    destruct (IH H f (S d) ng (lit ")" ++ rest)) as (f' & alts' & acc' & F & E & K); [cbn; lia|lia|].
    destruct f' as [|f']; [lia|]. rewrite K.
    change (p_re (S f') (S d) (ng + groups p) alts' acc' (lit ")" ++ rest)) with (Some (whole alts' acc', ng + groups p, rest)).
    rewrite E. reflexivity.
Qed.
Lemma whole_read : forall p, ok p -> p_re (S (length (show p))) 0 1 None None (show p) = Some (tree p 1, S (groups p), []).
Proof.
  intros p H. destruct (proj1 re_read p H (S (length (show p))) 0 1 []) as (f & alts & acc & F & E & K); [exact I|lia|].
  rewrite app_nil_r in K. rewrite K. destruct f as [|f]; [lia|]. rewrite re_stop, E. reflexivity.
Qed.

(** *** White space *)
Definition solid (x : str) : Prop := forall s s', spaced s s' -> spaced (x ++ s) (x ++ s').
Lemma solid_nil : solid [].
Proof. intros s s' H. exact H. Qed.
Lemma solid_app : forall x y, solid x -> solid y -> solid (x ++ y).
Proof. intros x y X Y s s' H. rewrite <- !app_assoc. now apply X, Y. Qed.
Lemma solid_part : forall x, (forall s, part x s) -> solid x.
Proof. intros x H s s' K. now apply spaced_part. Qed.
Lemma solid_plain : forall c, negb (is_pattern_ws c) && negb (mem_char c (lit "\(&{#")) = true -> solid [c].
Proof. intros c H. apply solid_part. intros s. constructor. now apply plain_check. Qed.
Lemma solid_named : forall c body, inner body -> solid (92%N :: c :: 123%N :: body ++ [125%N]).
Proof. intros c body H. apply solid_part. intros s. now constructor. Qed.
Lemma solid_count : forall body, inner body -> solid (123%N :: body ++ [125%N]).
Proof. intros body H. apply solid_part. intros s. now constructor. Qed.
Lemma hex_inner : forall c, is_hex_digit c = true -> ~ space c /\ ~ In c (lit "\#}").
Proof.
  intros c H. split.
  - apply not_space. unfold is_hex_digit, is_digit, is_pattern_ws, in_range in *.
    rewrite !orb_true_iff, !andb_true_iff, !N.leb_le in H. rewrite !orb_false_iff, !andb_false_iff, !N.leb_gt, !N.eqb_neq. lia.
  - intros I. cbn in I. destruct I as [<-|[<-|[<-|[]]]]; discriminate H.
Qed.
Lemma digits_inner : forall s, digits s = true -> inner s.
Proof.
  intros s H c I. apply hex_inner. unfold digits in H. rewrite forallb_forall in H. unfold is_hex_digit. rewrite (H c I). reflexivity.
Qed.
Lemma inner_app : forall a b, inner a -> inner b -> inner (a ++ b).
Proof. intros a b A B c I. apply in_app_iff in I as [I|I]; auto. Qed.
Lemma inner_comma : inner (lit ",").
Proof. intros c [<-|[]]. split; [now apply not_space|cbn; lia]. Qed.
Lemma spelling_solid : forall sp x, (forall c, In c (lit "\(&{") -> In c sp) -> ok_spelling sp x -> solid (show_spelling x).
Proof.
  intros sp [c|c|d|] S H; cbn [ok_spelling show_spelling] in *.
  - destruct H as (H1 & H2 & H3). apply solid_part. intros s. constructor. split; [exact H1|]. intros I.
    cbn in I. destruct I as [<-|[<-|[<-|[<-|[<-|[]]]]]]; try (apply H3, S; cbn; tauto).
  - apply solid_part. intros s. constructor. intros I. cbn in I, H.
    destruct I as [<-|[<-|[<-|[<-|[<-|[]]]]]]; repeat (destruct H as [H|H]; [discriminate H|]); destruct H.
  - destruct H as (_ & H & _). apply (solid_named 120%N). intros c I. now apply hex_inner, H.
  - apply solid_part. intros s. apply part_escape. cbn. lia.
Qed.
Lemma named_solid : forall o n, solid (show_named o n).
Proof.
  intros o [|u]; cbn [show_named].
  - destruct o; apply solid_part; intros s; apply part_escape; cbn; lia.
  - assert (U : inner match u with UNd => lit "Nd" | UN => lit "N" | UL => lit "L" end).
    { intros c I. destruct u; cbn in I; repeat (destruct I as [<-|I]; [split; [now apply not_space|cbn; lia]|]); destruct I. }
    destruct o; [exact (solid_named 80%N _ U)|exact (solid_named 112%N _ U)].
Qed.
Lemma open_solid : forall neg, solid (open_set neg).
Proof. intros [|]; [apply (solid_app (lit "[") (lit "^"))|]; now apply solid_plain. Qed.
Lemma close_solid : solid (lit "]").
Proof. now apply solid_plain. Qed.
Lemma set_solid :
  (forall i, ok_item i -> solid (show_item i)) /\
  (forall l, ok_items l -> solid (show_items l)) /\
  (forall s, ok_set s -> solid (show_set s)).
Proof.
  assert (S : forall c, In c (lit "\(&{") -> In c set_special) by (intros c I; cbn in *; tauto).
  apply set_ind3.
  - intros x H. now apply (spelling_solid set_special).
  - intros lo hi (H1 & H2 & _). cbn [show_item]. apply solid_app; [now apply (spelling_solid set_special)|].
    apply solid_app; [now apply solid_plain|now apply (spelling_solid set_special)].
  - intros o n _. apply named_solid.
  - intros neg s IH H. cbn [show_item]. apply solid_app; [apply open_solid|]. apply solid_app; [now apply IH|exact close_solid].
  - intros i IH H. now apply IH.
  - intros l IHl i IHi [H1 H2]. apply solid_app; [now apply IHl|now apply IHi].
  - intros dash l IH H. cbn [show_set]. apply solid_app; [|now apply IH]. destruct dash; [now apply solid_plain|apply solid_nil].
  - intros s IHs l IHl [H1 H2]. cbn [show_set]. apply solid_app; [now apply IHs|]. apply solid_app; [|now apply IHl].
    apply solid_part. intros u. constructor.
Qed.
Lemma quant_solid : forall q, solid (show_quant q).
Proof.
  intros [|k few]; [apply solid_nil|]. cbn [show_quant]. apply solid_app; [|destruct few; [now apply solid_plain|apply solid_nil]].
  destruct k as [| | |n|n|n m]; cbn [show_count]; [now apply solid_plain|now apply solid_plain|now apply solid_plain| | |].
  - apply (solid_count (dec (N.of_nat n))), digits_inner, digits_dec.
  - enough (K : forall u, u = 123%N :: (dec (N.of_nat n) ++ lit ",") ++ [125%N] -> solid u) by (apply K; now rewrite <- app_assoc).
    intros u ->. apply solid_count, inner_app; [apply digits_inner, digits_dec|exact inner_comma].
  - enough (K : forall u, u = 123%N :: (dec (N.of_nat n) ++ lit "," ++ dec (N.of_nat m)) ++ [125%N] -> solid u)
      by (apply K; now rewrite <- !app_assoc).
    intros u ->. apply solid_count, inner_app; [apply digits_inner, digits_dec|].
    apply inner_app; [exact inner_comma|apply digits_inner, digits_dec].
Qed.
Lemma pattern_solid :
  (forall p, ok p -> solid (show p)) /\ (forall b, ok_branch b -> solid (show_branch b)) /\ (forall x, ok_atom x -> solid (show_atom x)).
Proof.
  assert (S : forall c, In c (lit "\(&{") -> In c special) by (intros c I; cbn in *; tauto).
  apply pattern_ind3.
  - intros b IH H. now apply IH.
  - intros p IHp b IHb [H1 H2]. cbn [show]. apply solid_app; [now apply IHp|]. apply solid_app; [now apply solid_plain|now apply IHb].
  - intros _. apply solid_nil.
  - intros b IHb x IHx q (H1 & H2 & _). cbn [show_branch]. apply solid_app; [now apply IHb|].
    apply solid_app; [now apply IHx|apply quant_solid].
  - intros x H. now apply (spelling_solid special).
  - intros o n _. apply named_solid.
  - intros neg s H. cbn [show_atom]. apply solid_app; [apply open_solid|]. apply solid_app; [now apply set_solid|exact close_solid].
  - intros _. now apply solid_plain.
  - intros _. now apply solid_plain.
  - intros _. now apply solid_plain.
  - intros p IH H s s' K. cbn [show_atom ok_atom] in *. rewrite <- !app_assoc. apply spaced_part.
    + apply part_open. intros t E. pose proof (pattern_first p (lit ")" ++ s) H) as F. rewrite E in F. apply F; cbn; tauto || lia.
    + apply (IH H). now apply (solid_plain 41%N eq_refl).
  - intros p IH H. cbn [show_atom ok_atom] in *. apply solid_app; [apply solid_part; constructor|].
    apply solid_app; [now apply IH|now apply solid_plain].
Qed.
Lemma show_spaced : forall p, ok p -> spaced (show p) (show p).
Proof. intros p H. rewrite <- (app_nil_r (show p)). apply (proj1 pattern_solid p H). constructor. Qed.
Lemma show_tight : forall p, ok p -> strip_ws (show p) = show p.
Proof. intros p H. exact (spaced_clean _ _ (show_spaced p H)). Qed.

Lemma regex_read : forall p s, ok p -> spaced (show p) s -> db_regex s = Ok (mk_regex s (tree p 1) (groups p)).
Proof.
  intros p s H K. unfold db_regex, regex_build. cbv zeta iota. rewrite (spaced_strip _ _ K), (show_tight p H), (whole_read p H).
  cbn [ok_or]. do 2 f_equal. lia.
Qed.

(** ** The theorems *)
(** The pattern is accepted, keeps its text, has the groups it shows, and what
    is found in a text is the leftmost part it describes. *)
Definition finds (p : pattern) (v : str) (m : option mres) : Prop :=
  match m with
  | None => forall b t a, v = b ++ t ++ a -> ~ means p b t a
  | Some m => v = mr_pre m ++ mr_text m ++ mr_post m /\ means p (mr_pre m) (mr_text m) (mr_post m) /\
              forall b t a, v = b ++ t ++ a -> means p b t a -> length (mr_pre m) <= length b
  end.
Theorem C51_pattern : forall p s, ok p -> spaced (show p) s ->
  exists r, db_regex s = Ok r /\ re_src r = s /\ re_ngroups r = groups p /\ forall v, finds p v (re_find r v).
Proof.
  intros p s H K. eexists. split; [now apply (regex_read p)|]. split; [reflexivity|]. split; [reflexivity|]. intros v.
  set (r := mk_regex s (tree p 1) (groups p)).
  assert (T : forall b t a, lang (re_ast r) b t a <-> means p b t a) by (intros b t a; exact (proj1 tree_iff p H 1 b t a)).
  destruct (re_find r v) as [m|] eqn:E; cbn [finds].
  - apply re_find_some in E as (E1 & E2 & E3). split; [exact E1|]. split; [now apply T|]. intros b t a Ev M.
    destruct (Nat.le_gt_cases (length (mr_pre m)) (length b)) as [L|L]; [exact L|exfalso].
    assert (P : exists c b', mr_pre m = b ++ c :: b').
    { assert (Q : b ++ (t ++ a) = mr_pre m ++ (mr_text m ++ mr_post m)) by congruence. revert Q L. generalize (t ++ a) as x, (mr_text m ++ mr_post m) as y.
      generalize (mr_pre m) as q. clear. induction b as [|c b IH]; intros [|d q] x y Q L; cbn [length app] in *; try lia.
      - exists d, q. reflexivity.
      - inversion Q as [[Q1 Q2]]. destruct (IH q x y Q2) as (e & b' & ->); [lia|]. exists e, b'. reflexivity. }
    destruct P as (c & b' & P). apply (E3 b c b' t a P Ev). now apply T.
  - intros b t a Ev M. apply (proj1 (re_find_none r v) E). exists b, t, a. split; [exact Ev|now apply T].
Qed.

(** A description applies to the numbers that have one of its possible lengths
    (any, if none is listed) and begin with a text its pattern describes. *)
Definition applies (p : pattern) (lengths : list N) (v : str) : Prop :=
  (lengths = [] \/ In (N.of_nat (blen v) mod 65536)%N lengths) /\ exists t a, v = t ++ a /\ means p [] t a.
Definition listed (m : lmetadata) (k : ptype) : option ldescriptor :=
  match k with
  | TUnknown => lm_general m
  | TFixedLine | TFixedLineOrMobile => lm_fixed_line m
  | TMobile => lm_mobile m
  | TTollFree => lm_toll_free m
  | TPremiumRate => lm_premium_rate m
  | TSharedCost => lm_shared_cost m
  | TPersonalNumber => lm_personal_number m
  | TVoip => lm_voip m
  | TPager => lm_pager m
  | TUan => lm_uan m
  | TEmergency => lm_emergency m
  | TVoicemail => lm_voicemail m
  | TShortCode => lm_short_code m
  | TStandardRate => lm_standard_rate m
  | TCarrier => lm_carrier m
  | TNoInternational => lm_no_international m
  end.
Lemma memN_iff : forall l x, memN x l = true <-> In x l.
Proof.
  induction l as [|y l IH]; intros x; cbn [memN In]; [now split|]. destruct (N.eqb_spec x y) as [->|N]; [now split; [left|]|].
  rewrite IH. split; [now right|]. intros [E|H]; [now elim N|exact H].
Qed.
Lemma found_iff : forall r v, found_at_start (re_find r v) = true <-> exists t a, v = t ++ a /\ lang (re_ast r) [] t a.
Proof.
  intros r v. split.
  - destruct (re_find r v) as [m|] eqn:E; [|discriminate]. cbn [found_at_start]. intros Z. apply Nat.eqb_eq in Z.
    apply re_find_some in E as (E1 & E2 & _). destruct (mr_pre m) as [|c l] eqn:P.
    + exists (mr_text m), (mr_post m). split; [exact E1|exact E2].
    + exfalso. unfold mr_start in Z. rewrite P in Z. cbn [blen] in Z. pose proof (utf8_len_pos c). lia.
  - intros H. destruct (re_find_at_start r v H) as (m & E & P). rewrite E. cbn [found_at_start]. unfold mr_start. now rewrite P.
Qed.
Lemma match_iff : forall p d s, ok p -> spaced (show p) s -> db_regex s = Ok (d_national_number d) ->
  forall v, d_is_match d v = true <-> applies p (d_possible_length d) v.
Proof.
  intros p d s H K R v. rewrite (regex_read p s H K) in R. inversion R as [R']. unfold d_is_match, applies.
  assert (F : found_at_start (re_find (d_national_number d) v) = true <-> exists t a, v = t ++ a /\ means p [] t a).
  { rewrite found_iff. rewrite <- R'. cbn [re_ast]. split; intros (t & a & E & M); exists t, a; (split; [exact E|]); now apply (proj1 tree_iff p H 1). }
  rewrite <- F. change (N.of_nat (blen v) mod 65536)%N with (as_u16 (blen v)). destruct (d_possible_length d) as [|x l] eqn:L.
  - split; [intros M; now split; [left|]|now intros [_ M]].
  - rewrite <- memN_iff. destruct (memN (as_u16 (blen v)) (x :: l)); cbn [negb].
    + split; [intros M; now split; [right|]|now intros [_ M]].
    + split; [discriminate|]. intros [[M|M] _]; discriminate M.
Qed.
Lemma all_compiled : forall lm m, db_metadata lm = Ok m -> forall k, compiled (listed lm k) (ds_get (md_descriptors m) k).
Proof.
  intros lm m H. unfold db_metadata in H. apply obind_ok in H as (g & Hg & H). apply obind_ok in H as (g' & Hg' & H).
  assert (G : compiled (lm_general lm) (Some g')).
  { destruct (lm_general lm) as [g0|]; [|discriminate Hg]. inversion Hg; subst g0. unfold compiled. cbn [omap_opt]. now rewrite Hg'. }
  do 15 (apply obind_ok in H as (? & ? & H)). do 7 (apply obind_ok in H as (? & _ & H)). inversion H. intros k.
  destruct k; assumption.
Qed.

(** For every document that loads, the metadata found under an id are those of
    an entry of that id, and each description of numbers applies to what its
    pattern and its lengths say, for all patterns written in the notation. *)
Theorem C51_description : forall l db id m, db_from l = Ok db -> by_id db id = Some m ->
  exists e, In e l /\ lm_id e = Some id /\ forall k,
    match listed e k, ds_get (md_descriptors m) k with
    | Some x, Some d => forall p s, ok p -> spaced (show p) s -> ld_national_number x = Some s ->
        forall v, d_is_match d v = true <-> applies p (ld_possible_length x) v
    | None, None => True
    | _, _ => False
    end.
Proof.
  intros l db id m H B. apply db_from_ok in H as (mds & L & ->). rewrite db_of_by_id in B. apply find_some in B as [I E].
  apply in_rev in I. unfold has_id in E. apply str_eqb_eq in E. subst id.
  assert (X : exists e, In e l /\ db_metadata e = Ok m).
  { clear - L I. revert mds L I. induction l as [|e l IH]; intros mds L I; cbn [omap_list] in L.
    - inversion L; subst mds. destruct I.
    - apply obind_ok in L as (y & Hy & L). apply obind_ok in L as (ys & Hys & L). inversion L; subst mds. destruct I as [<-|I].
      + exists e. split; [now left|exact Hy].
      + destruct (IH ys Hys I) as (e' & I' & E'). exists e'. split; [now right|exact E']. }
  destruct X as (e & Ie & Ee). exists e. split; [exact Ie|]. split.
  - clear - Ee. unfold db_metadata in Ee. do 17 (apply obind_ok in Ee as (? & _ & Ee)). apply obind_ok in Ee as (i & Hi & Ee).
    do 6 (apply obind_ok in Ee as (? & _ & Ee)). inversion Ee. cbn [md_id]. destruct (lm_id e); [|discriminate Hi]. inversion Hi. reflexivity.
  - intros k. pose proof (all_compiled e m Ee k) as C. apply compiled_inv in C.
    destruct (listed e k) as [x|], (ds_get (md_descriptors m) k) as [d|]; try exact C.
    destruct C as (t & T & R & Len & _). intros p s Hp Hs Hx v. rewrite T in Hx. inversion Hx; subst t. rewrite <- Len.
    now apply (match_iff p d s).
Qed.

(** ** The built-in metadata are written in the notation *)
Definition ok_plainb (special : str) (c : char) : bool :=
  if is_pattern_ws c then false else if N.eqb c 35 then false else negb (mem_char c special).
Lemma ok_plainb_ok : forall sp c, ok_plainb sp c = true -> ok_plain sp c.
Proof.
  intros sp c H. unfold ok_plainb in H. destruct (is_pattern_ws c) eqn:W; [discriminate H|]. destruct (N.eqb_spec c 35); [discriminate H|].
  split; [now apply not_space|]. split; [assumption|]. intros I. rewrite (in_mem_char c sp I) in H. discriminate H.
Qed.
(** the part of the notation the metadata use *)
Definition simpleb (special : str) (x : spelling) : bool := match x with Plain c => ok_plainb special c | _ => false end.
Lemma simpleb_ok : forall sp x, simpleb sp x = true -> ok_spelling sp x.
Proof. intros sp [c| | |] H; try discriminate H. now apply ok_plainb_ok. Qed.
Definition itemb (i : item) : bool :=
  match i with
  | IChar x => simpleb set_special x
  | IRange lo hi => if simpleb set_special lo then if simpleb set_special hi then N.leb (spelled lo) (spelled hi) else false else false
  | _ => false
  end.
Fixpoint itemsb (l : items) : bool := match l with IOne i => itemb i | IMore l i => if itemsb l then itemb i else false end.
Lemma itemb_ok : forall i, itemb i = true -> ok_item i.
Proof.
  intros [x|lo hi| |] H; try discriminate H; cbn [itemb ok_item] in *.
  - now apply simpleb_ok.
  - destruct (simpleb set_special lo) eqn:A; [|discriminate H]. destruct (simpleb set_special hi) eqn:B; [|discriminate H].
    split; [now apply simpleb_ok|]. split; [now apply simpleb_ok|now apply N.leb_le].
Qed.
Lemma itemsb_ok : forall l, itemsb l = true -> ok_items l.
Proof.
  induction l as [i|l IH i]; cbn [itemsb ok_items]; [apply itemb_ok|]. destruct (itemsb l); [|discriminate]. intros H.
  split; [now apply IH|now apply itemb_ok].
Qed.
Definition quantb (q : quant) : bool :=
  match q with
  | Once | Times COpt _ | Times (CExact _) _ => true
  | Times (CBetween n m) _ => n <=? m
  | _ => false
  end.
Fixpoint okb (p : pattern) : bool :=
  match p with One b => branchb b | Or p b => if okb p then branchb b else false end
with branchb (b : branch) : bool :=
  match b with Nil => true | Then b x q => if branchb b then if atomb x then quantb q else false else false end
with atomb (x : atom) : bool :=
  match x with
  | AChar x => simpleb special x
  | ASet _ (SOne false l) => itemsb l
  | ASet _ _ => false
  | AGroup p | ABrackets p => okb p
  | _ => true
  end.
Lemma okb_ok : (forall p, okb p = true -> ok p) /\ (forall b, branchb b = true -> ok_branch b) /\ (forall x, atomb x = true -> ok_atom x).
Proof.
  apply pattern_ind3.
  - intros b IH H. now apply IH.
  - intros p IHp b IHb H. cbn [okb] in H. destruct (okb p); [|discriminate H]. split; [now apply IHp|now apply IHb].
  - intros _. exact I.
  - intros b IHb x IHx q H. cbn [branchb] in H. destruct (branchb b); [|discriminate H]. destruct (atomb x); [|discriminate H].
    split; [now apply IHb|]. split; [now apply IHx|]. destruct q as [|[| | |n|n|n m] few]; try exact I; try discriminate H.
    cbn [quantb] in H. now apply Nat.leb_le.
  - intros x H. now apply simpleb_ok.
  - intros o n _. exact I.
  - intros neg [[|] l|s l] H; try discriminate H. now apply itemsb_ok.
  - intros _. exact I.
  - intros _. exact I.
  - intros _. exact I.
  - intros p IH H. now apply IH.
  - intros p IH H. now apply IH.
Qed.
(** A reader for that part; nothing depends on its being right. *)
Definition add_item (acc : option items) (i : item) : option items :=
  Some (match acc with None => IOne i | Some l => IMore l i end).
Fixpoint scan_items (acc : option items) (s : str) : option (items * str) :=
  match s with
  | [] => None
  | c :: s' =>
      if N.eqb c 93 then match acc with Some l => Some (l, s') | None => None end
      else match s' with
           | d :: e :: s'' => if N.eqb d 45 then scan_items (add_item acc (IRange (Plain c) (Plain e))) s''
                              else scan_items (add_item acc (IChar (Plain c))) s'
           | _ => scan_items (add_item acc (IChar (Plain c))) s'
           end
  end.
Definition scan_quant (s : str) : quant * str :=
  match p_quant s with
  | Some (Some (0, Some 1, g), s') => (Times COpt (negb g), s')
  | Some (Some (n, Some m, g), s') => (Times (if n =? m then CExact n else CBetween n m) (negb g), s')
  | _ => (Once, s)
  end.
Fixpoint scan (fuel : nat) (alts : option pattern) (b : branch) (s : str) : option (pattern * str) :=
  match fuel with
  | O => None
  | S fuel =>
      let whole := match alts with None => One b | Some p => Or p b end in
      let next (x : option (atom * str)) :=
        match x with
        | Some (x, rest) => let '(q, rest) := scan_quant rest in scan fuel alts (Then b x q) rest
        | None => None
        end in
      let inside (mk : pattern -> atom) (s : str) :=
        match scan fuel None Nil s with Some (p, _ :: rest) => Some (mk p, rest) | _ => None end in
      match s with
      | [] => Some (whole, [])
      | c :: s' =>
          if N.eqb c 41 then Some (whole, s)
          else if N.eqb c 124 then scan fuel (Some whole) Nil s'
          else if N.eqb c 40 then next (if starts_with s' (lit "?:") then inside ABrackets (skipn 2 s') else inside AGroup s')
          else if N.eqb c 91 then next (match scan_items None s' with Some (l, rest) => Some (ASet false (SOne false l), rest) | None => None end)
          else if N.eqb c 92 then next (Some (ANamed false Digit, skipn 1 s'))
          else if N.eqb c 36 then next (Some (AEnd, s'))
          else next (Some (AChar (Plain c), s'))
      end
  end.
Definition scan_text (s : str) : option pattern :=
  match scan (S (length s)) None Nil s with
  | Some (p, []) => if str_eqb (show p) s then if okb p then Some p else None else None
  | _ => None
  end.
Lemma scan_ok : forall s p, scan_text s = Some p -> ok p /\ show p = s.
Proof.
  intros s p H. unfold scan_text in H. destruct (scan _ _ _ _) as [[q [|]]|]; try discriminate H.
  destruct (str_eqb (show q) s) eqn:E; [|discriminate H]. destruct (okb q) eqn:K; [|discriminate H]. inversion H; subst q.
  split; [now apply okb_ok|now apply str_eqb_eq].
Qed.
Definition scans (s : str) : bool := match scan_text s with Some _ => true | None => false end.
(** [s] is one of the patterns of the entry [e]. *)
Inductive pattern_in (e : lmetadata) (s : str) : Prop :=
| in_description : forall k d, listed e k = Some d -> ld_national_number d = Some s -> pattern_in e s
| in_prefixes : In (Some s) [lm_international_prefix e; lm_national_prefix_for_parsing e; lm_leading_digits e] -> pattern_in e s
| in_format : forall f, In f (lm_formats e ++ lm_international_formats e) ->
    lf_pattern f = Some s \/ In s (lf_leading_digits f) -> pattern_in e s.
Definition opt_all {A} (f : A -> bool) (o : option A) : bool := match o with Some a => f a | None => true end.
Definition format_scans (f : lformat) : bool := if opt_all scans (lf_pattern f) then forallb scans (lf_leading_digits f) else false.
Definition entry_scans (e : lmetadata) : bool :=
  if forallb (opt_all (fun d => opt_all scans (ld_national_number d))) (all_descs e) then
    if forallb (opt_all scans) [lm_international_prefix e; lm_national_prefix_for_parsing e; lm_leading_digits e]
    then forallb format_scans (lm_formats e ++ lm_international_formats e)
    else false
  else false.
Lemma default_scans : forallb entry_scans default_entries = true.
Proof. vm_cast_no_check (eq_refl true). Qed.
Lemma entry_scans_ok : forall e s, entry_scans e = true -> pattern_in e s -> scans s = true.
Proof.
  intros e s H K. unfold entry_scans in H. destruct (forallb _ (all_descs e)) eqn:E1; [|discriminate H].
  destruct (forallb (opt_all scans) _) eqn:E2; [|discriminate H]. rewrite forallb_forall in E1, E2, H. destruct K as [k d Hk Hd|I|f I J].
  - assert (I : In (Some d) (all_descs e)) by (rewrite <- Hk; unfold all_descs; destruct k; cbn [listed In]; tauto).
    apply E1 in I. cbn [opt_all] in I. rewrite Hd in I. exact I.
  - exact (E2 _ I).
  - apply H in I. unfold format_scans in I. destruct (opt_all scans (lf_pattern f)) eqn:E; [|discriminate I]. destruct J as [J|J].
    + rewrite J in E. exact E.
    + rewrite forallb_forall in I. now apply I.
Qed.
Lemma scans_ok : forall s, scans s = true -> exists p, ok p /\ show p = s.
Proof. intros s H. unfold scans in H. destruct (scan_text s) as [p|] eqn:E; [|discriminate H]. exists p. now apply scan_ok. Qed.

(** Every pattern of the built-in metadata is written in the notation ... *)
Theorem C51_default : forall e s, In e default_entries -> pattern_in e s -> exists p, ok p /\ show p = s.
Proof.
  intros e s I H. apply scans_ok, (entry_scans_ok e s); [|exact H]. pose proof default_scans as D. rewrite forallb_forall in D. now apply D.
Qed.
(** ... so every description of the built-in metadata applies to what it says. *)
Lemma builtin : forall l db id m k d, db_from l = Ok db -> (forall e s, In e l -> pattern_in e s -> exists p, ok p /\ show p = s) ->
  by_id db id = Some m -> ds_get (md_descriptors m) k = Some d ->
  exists p, ok p /\ show p = re_src (d_national_number d) /\ forall v, d_is_match d v = true <-> applies p (d_possible_length d) v.
Proof.
  intros l db id m k d H P B D. apply db_from_ok in H as (mds & L & ->). rewrite db_of_by_id in B. apply find_some in B as [I _].
  apply in_rev in I.
  assert (X : exists e, In e l /\ db_metadata e = Ok m).
  { clear - L I. revert mds L I. induction l as [|e l IH]; intros mds L I; cbn [omap_list] in L.
    - inversion L; subst mds. destruct I.
    - apply obind_ok in L as (y & Hy & L). apply obind_ok in L as (ys & Hys & L). inversion L; subst mds. destruct I as [<-|I].
      + exists e. split; [now left|exact Hy].
      + destruct (IH ys Hys I) as (e' & I' & E'). exists e'. split; [now right|exact E']. }
  destruct X as (e & Ie & Ee). pose proof (all_compiled e m Ee k) as C. apply compiled_inv in C. rewrite D in C.
  destruct (listed e k) as [x|] eqn:Lx; [|destruct C]. destruct C as (t & T & R & _ & Src).
  destruct (P e t Ie (in_description e t k x Lx T)) as (p & Hp & Es). exists p. split; [exact Hp|]. split; [now rewrite Src|].
  apply (match_iff p d t Hp); [|exact R]. rewrite <- Es. now apply show_spaced.
Qed.
Theorem C51_builtin : forall id m k d, by_id default_db id = Some m -> ds_get (md_descriptors m) k = Some d ->
  exists p, ok p /\ show p = re_src (d_national_number d) /\ forall v, d_is_match d v = true <-> applies p (d_possible_length d) v.
Proof. intros id m k d. apply (builtin default_entries); [exact default_db_built|exact C51_default]. Qed.

(** ** Examples *)
(** [(?:2[1-9]|3)\d{2}] describes "2175" (before an "x", say) and "355", not "2075" *)
Definition example : pattern :=
  One (Then (Then Nil
    (ABrackets (Or (One (Then (Then Nil (AChar (Plain 50%N)) Once)
                             (ASet false (SOne false (IOne (IRange (Plain 49%N) (Plain 57%N))))) Once))
                   (Then Nil (AChar (Plain 51%N)) Once))) Once)
    (ANamed false Digit) (Times (CExact 2) false)).
Example C51_written : show example = lit "(?:2[1-9]|3)\d{2}" /\ ok example /\ groups example = 0 /\
  spaced (show example) (lit "(?: 2[1-9] | 3 ) \d{2}").
Proof.
  split; [reflexivity|]. split; [apply okb_ok; reflexivity|]. split; [reflexivity|].
  apply (spaced_part (lit "(?:") (lit "2[1-9]|3)\d{2}") (lit " 2[1-9] | 3 ) \d{2}")); [constructor|].
  apply (spaced_space 32%N (lit "2[1-9]|3)\d{2}") (lit "2[1-9] | 3 ) \d{2}")); [unfold space; cbn; tauto|].
  cbn [lit map Byte.to_N]. do 6 (apply spaced_plain; [now apply plain_check|]).
  apply spaced_space; [unfold space; cbn; tauto|]. apply spaced_plain; [now apply plain_check|].
  apply spaced_space; [unfold space; cbn; tauto|]. apply spaced_plain; [now apply plain_check|].
  apply spaced_space; [unfold space; cbn; tauto|]. apply spaced_plain; [now apply plain_check|].
  apply spaced_space; [unfold space; cbn; tauto|]. now apply (clean_ok 20).
Qed.
Example C51_meaning : means example [] (lit "2175") (lit "x") /\ means example [] (lit "355") [] /\ ~ means example [] (lit "2075") [].
Proof.
  split; [|split].
  - exists (lit "21"), (lit "75"). split; [reflexivity|]. split.
    + exists [], (lit "21"). split; [reflexivity|]. split; [reflexivity|]. left. exists (lit "2"), (lit "1"). split; [reflexivity|]. split.
      * exists [], (lit "2"). repeat split.
      * exists 49%N. split; [reflexivity|]. right. cbn. lia.
    + exists 2. split; [reflexivity|]. exists (lit "7"), (lit "5"). split; [reflexivity|]. split; [exists 55%N; repeat split|].
      exists (lit "5"), []. split; [reflexivity|]. split; [exists 53%N; repeat split|reflexivity].
  - exists (lit "3"), (lit "55"). split; [reflexivity|]. split.
    + exists [], (lit "3"). split; [reflexivity|]. split; [reflexivity|]. right. exists [], (lit "3"). repeat split.
    + exists 2. split; [reflexivity|]. exists (lit "5"), (lit "5"). split; [reflexivity|]. split; [exists 53%N; repeat split|].
      exists (lit "5"), []. split; [reflexivity|]. split; [exists 53%N; repeat split|reflexivity].
  - intros M. destruct (C51_pattern example (show example) ltac:(apply okb_ok; reflexivity) ltac:(apply (clean_ok 40); reflexivity))
      as (r & R & _ & _ & F). vm_compute in R. inversion R; subst r. specialize (F (lit "2075")). cbn [finds] in F.
    exact (F [] (lit "2075") [] eq_refl M).
Qed.
(** [([^\d&&[-a-\x{7A}]]+)$]: brackets within brackets, negation, a group, a repetition *)
Definition odd_example : pattern :=
  One (Then (Then Nil
    (AGroup (One (Then Nil (ASet true (SAnd (SOne false (IOne (INamed false Digit)))
       (IOne (INest false (SOne true (IOne (IRange (Plain 97%N) (Hex (lit "7A"))))))))) (Times CPlus false)))) Once) AEnd Once).
Example C51_odd : show odd_example = lit "([^\d&&[-a-\x{7A}]]+)$" /\ ok odd_example /\ groups odd_example = 1.
Proof.
  split; [reflexivity|]. split; [|reflexivity]. cbn. repeat split; try (unfold space; cbn; lia); try discriminate.
  - intros c I. cbn in I. destruct I as [<-|[<-|[]]]; reflexivity.
  - left. reflexivity.
  - intros (c & E & _). discriminate E.
Qed.

Print Assumptions C51_pattern.
Print Assumptions C51_description.
Print Assumptions C51_default.
Print Assumptions C51_builtin.
