(** * C29: what the loader reads out of an XML document

    A document is described as a tree of the elements the format documents,
    with the text and comments between them kept explicitly.  [render] writes
    it out as the events the XML reader delivers and [entries] says what it
    means: of repeated attributes or children the last one counts, and formats
    take the formatting rules of their territory unless they have their own. *)
From Verif Require Import Base CountryId Types Metadata Database Loader Api.
From Verif Require Import StrFacts DatabaseFacts PropsLoader.

(** ** Documents *)
(** what may stand between elements *)
Inductive noise := NText (t : str) | NComment.
Definition noise_event (n : noise) : event :=
  match n with NText t => EvText t | NComment => EvComment end.

(** the events of an element whose content is text (possibly in pieces);
    [tag] are its attributes *)
Definition text_element (name : str) (tag : list attr) (pieces : list str) : list event :=
  EvStart name tag :: map EvText pieces ++ [EvEnd name].

(** a number description: generalDesc, fixedLine, ... *)
Inductive desc_item :=
| DNoise (n : noise)
| DPattern (tag : list attr) (pieces : list str)
| DExample (tag : list attr) (pieces : list str)
| DLengths (attrs : list (str * str)).
Definition desc_item_events (i : desc_item) : list event :=
  match i with
  | DNoise n => [noise_event n]
  | DPattern tag ps => text_element (lit "nationalNumberPattern") tag ps
  | DExample tag ps => text_element (lit "exampleNumber") tag ps
  | DLengths attrs => [EvEmpty (lit "possibleLengths") (map Some attrs)]
  end.

(** a numberFormat element *)
Inductive fmt_item :=
| FNoise (n : noise)
| FLeading (tag : list attr) (pieces : list str)
| FFormat (tag : list attr) (pieces : list str)
| FIntl (tag : list attr) (pieces : list str).
Definition fmt_item_events (i : fmt_item) : list event :=
  match i with
  | FNoise n => [noise_event n]
  | FLeading tag ps => text_element (lit "leadingDigits") tag ps
  | FFormat tag ps => text_element (lit "format") tag ps
  | FIntl tag ps => text_element (lit "intlFormat") tag ps
  end.
Inductive fmts_item :=
| SNoise (n : noise)
| SNumber (attrs : list (str * str)) (items : list fmt_item).
Definition fmts_item_events (i : fmts_item) : list event :=
  match i with
  | SNoise n => [noise_event n]
  | SNumber attrs items =>
      EvStart (lit "numberFormat") (map Some attrs) :: flat_map fmt_item_events items ++ [EvEnd (lit "numberFormat")]
  end.

(** content of an element that is skipped: anything with matching tags *)
Inductive balanced : list event -> Prop :=
| bal_nil : balanced []
| bal_text t l : balanced l -> balanced (EvText t :: l)
| bal_comment l : balanced l -> balanced (EvComment :: l)
| bal_empty n a l : balanced l -> balanced (EvEmpty n a :: l)
| bal_elem n a l1 l2 : balanced l1 -> balanced l2 -> balanced (EvStart n a :: l1 ++ EvEnd n :: l2).
Definition skipped (name : str) (tag : list attr) (body : list event) : list event :=
  EvStart name tag :: body ++ [EvEnd name].

(** a child of a territory *)
Inductive terr_item :=
| TNoise (n : noise)
| TSkipped (name : str) (tag : list attr) (body : list event)
| TDesc (slot : dslot) (tag : list attr) (items : list desc_item)
| TFormats (tag : list attr) (items : list fmts_item).
Definition terr_item_events (i : terr_item) : list event :=
  match i with
  | TNoise n => [noise_event n]
  | TSkipped name tag body => skipped name tag body
  | TDesc slot tag items =>
      EvStart (dslot_name slot) tag :: flat_map desc_item_events items ++ [EvEnd (dslot_name slot)]
  | TFormats tag items =>
      EvStart (lit "availableFormats") tag :: flat_map fmts_item_events items ++ [EvEnd (lit "availableFormats")]
  end.

(** a child of the list of territories *)
Inductive terrs_item :=
| UNoise (n : noise)
| USkipped (name : str) (tag : list attr) (body : list event)
| UTerritory (attrs : list (str * str)) (items : list terr_item).
Definition terrs_item_events (i : terrs_item) : list event :=
  match i with
  | UNoise n => [noise_event n]
  | USkipped name tag body => skipped name tag body
  | UTerritory attrs items =>
      EvStart (lit "territory") (map Some attrs) :: flat_map terr_item_events items ++ [EvEnd (lit "territory")]
  end.

(** the document *)
Inductive doc_item :=
| ONoise (n : noise)
| ODocType
| ORoot (tag : list attr)
| OSkipped (name : str) (tag : list attr) (body : list event)
| OTerritories (tag : list attr) (items : list terrs_item).
Definition doc_item_events (i : doc_item) : list event :=
  match i with
  | ONoise n => [noise_event n]
  | ODocType => [EvDocType]
  | ORoot tag => [EvStart (lit "phoneNumberMetadata") tag]
  | OSkipped name tag body => skipped name tag body
  | OTerritories tag items =>
      EvStart (lit "territories") tag :: flat_map terrs_item_events items ++ [EvEnd (lit "territories")]
  end.
Definition document := list doc_item.
Definition render (d : document) : list event :=
  flat_map doc_item_events d ++ [EvEnd (lit "phoneNumberMetadata")].

(** ** Well-formed documents *)
Definition is_true_or_false (v : str) : Prop := v = lit "true" \/ v = lit "false".
Definition desc_attr_ok (kv : str * str) : Prop :=
  In (fst kv) [lit "national"; lit "localOnly"] /\ exists l, lengths (snd kv) = Ok l.
Definition fmt_attr_ok (kv : str * str) : Prop :=
  In (fst kv) [lit "pattern"; lit "nationalPrefixFormattingRule"; lit "carrierCodeFormattingRule"]
  \/ fst kv = lit "nationalPrefixOptionalWhenFormatting" /\ is_true_or_false (snd kv).
Definition terr_attr_ok (kv : str * str) : Prop :=
  In (fst kv) [lit "id"; lit "internationalPrefix"; lit "preferredInternationalPrefix"; lit "nationalPrefix";
    lit "preferredExtnPrefix"; lit "nationalPrefixForParsing"; lit "nationalPrefixTransformRule"; lit "leadingDigits";
    lit "nationalPrefixFormattingRule"; lit "carrierCodeFormattingRule"]
  \/ fst kv = lit "countryCode" /\ (exists n, parse_u16 (snd kv) = Some n)
  \/ In (fst kv) [lit "mainCountryForCode"; lit "mobileNumberPortableRegion"; lit "nationalPrefixOptionalWhenFormatting"]
     /\ is_true_or_false (snd kv).
Definition desc_item_ok (i : desc_item) : Prop :=
  match i with DLengths attrs => Forall desc_attr_ok attrs | _ => True end.
Definition fmts_item_ok (i : fmts_item) : Prop :=
  match i with SNumber attrs _ => Forall fmt_attr_ok attrs | _ => True end.
Definition terr_item_ok (i : terr_item) : Prop :=
  match i with
  | TNoise _ => True
  | TSkipped name _ body => In name [lit "references"; lit "areaCodeOptional"] /\ balanced body
  | TDesc _ _ items => Forall desc_item_ok items
  | TFormats _ items => Forall fmts_item_ok items
  end.
Definition terrs_item_ok (i : terrs_item) : Prop :=
  match i with
  | UNoise _ => True
  | USkipped name _ body => name <> lit "territory" /\ balanced body
  | UTerritory attrs items => Forall terr_attr_ok attrs /\ Forall terr_item_ok items
  end.
Definition doc_item_ok (i : doc_item) : Prop :=
  match i with
  | OSkipped name _ body => name <> lit "phoneNumberMetadata" /\ name <> lit "territories" /\ balanced body
  | OTerritories _ items => Forall terrs_item_ok items
  | _ => True
  end.
Definition well_formed (d : document) : Prop := Forall doc_item_ok d.

(** ** What a document means *)
(** the last thing in the list that [f] finds *)
Fixpoint last_of {A B} (f : A -> option B) (l : list A) : option B :=
  match l with
  | [] => None
  | a :: l' => match last_of f l' with Some b => Some b | None => f a end
  end.
Definition or_else {A} (o d : option A) : option A := match o with Some x => Some x | None => d end.
(** everything in the list that [f] finds, in order *)
Definition all_of {A B} (f : A -> option B) (l : list A) : list B :=
  flat_map (fun a => match f a with Some b => [b] | None => [] end) l.
Definition attr_in (k : str) (l : list (str * str)) : option str :=
  last_of (fun kv => if str_eqb (fst kv) k then Some (snd kv) else None) l.
Definition flag (o : option str) (d : bool) : bool :=
  match o with Some v => str_eqb v (lit "true") | None => d end.
(** the lengths a value lists (see C32) *)
Definition listed (o : option str) : list N :=
  match o with Some v => match lengths v with Ok l => l | _ => [] end | None => [] end.

Definition lengths_of (k : str) (i : desc_item) : option str :=
  match i with DLengths attrs => attr_in k attrs | _ => None end.
Definition description (l : list desc_item) : ldescriptor :=
  mk_ldescriptor
    (last_of (fun i => match i with DPattern _ ps => Some (concat ps) | _ => None end) l)
    (listed (last_of (lengths_of (lit "national")) l))
    (listed (last_of (lengths_of (lit "localOnly")) l))
    (last_of (fun i => match i with DExample _ ps => Some (concat ps) | _ => None end) l).

(** the formatting rules a territory passes on to its formats *)
Definition rules (attrs : list (str * str)) : lformat :=
  mk_lformat None None [] (attr_in (lit "nationalPrefixFormattingRule") attrs)
    (flag (attr_in (lit "nationalPrefixOptionalWhenFormatting") attrs) false)
    (attr_in (lit "carrierCodeFormattingRule") attrs).
Definition with_format (f : lformat) (t : option str) : lformat :=
  mk_lformat (lf_pattern f) t (lf_leading_digits f) (lf_national_prefix_formatting_rule f)
    (lf_national_prefix_optional_when_formatting f) (lf_domestic_carrier f).
Definition number_format (r : lformat) (attrs : list (str * str)) (l : list fmt_item) : lformat :=
  mk_lformat (attr_in (lit "pattern") attrs)
    (last_of (fun i => match i with FFormat _ ps => Some (concat ps) | _ => None end) l)
    (all_of (fun i => match i with FLeading _ ps => Some (concat ps) | _ => None end) l)
    (or_else (attr_in (lit "nationalPrefixFormattingRule") attrs) (lf_national_prefix_formatting_rule r))
    (flag (attr_in (lit "nationalPrefixOptionalWhenFormatting") attrs) (lf_national_prefix_optional_when_formatting r))
    (or_else (attr_in (lit "carrierCodeFormattingRule") attrs) (lf_domestic_carrier r)).
(** the template for international use: the last format or intlFormat, unless
    that is "NA" *)
Definition international_template (l : list fmt_item) : option str :=
  match last_of (fun i => match i with
      | FFormat _ ps => Some (Some (concat ps))
      | FIntl _ ps => Some (if str_eqb (concat ps) (lit "NA") then None else Some (concat ps))
      | _ => None end) l with
  | Some o => o
  | None => None
  end.
Definition national_formats (r : lformat) (l : list fmts_item) : list lformat :=
  all_of (fun i => match i with SNumber attrs items => Some (number_format r attrs items) | _ => None end) l.
Definition international_formats (r : lformat) (l : list fmts_item) : list lformat :=
  all_of (fun i => match i with
    | SNumber attrs items =>
        match international_template items with
        | Some t => Some (with_format (number_format r attrs items) (Some t))
        | None => None
        end
    | _ => None end) l.

Definition same_slot (a b : dslot) : bool := str_eqb (dslot_name a) (dslot_name b).
Definition child (s : dslot) (l : list terr_item) : option ldescriptor :=
  last_of (fun i => match i with TDesc t _ items => if same_slot s t then Some (description items) else None | _ => None end) l.
Definition formats_child (l : list terr_item) : list fmts_item :=
  match last_of (fun i => match i with TFormats _ items => Some items | _ => None end) l with
  | Some items => items
  | None => []
  end.
Definition code_of (o : option str) : option N := match o with Some v => parse_u16 v | None => None end.
Definition entry (attrs : list (str * str)) (l : list terr_item) : lmetadata :=
  mk_lmetadata (child DGeneral l) (child DFixedLine l) (child DMobile l) (child DTollFree l) (child DPremiumRate l)
    (child DSharedCost l) (child DPersonalNumber l) (child DVoip l) (child DPager l) (child DUan l)
    (child DEmergency l) (child DVoicemail l) None None None (child DNoInternational l)
    (attr_in (lit "id") attrs) (code_of (attr_in (lit "countryCode") attrs))
    (attr_in (lit "internationalPrefix") attrs) (attr_in (lit "preferredInternationalPrefix") attrs)
    (attr_in (lit "nationalPrefix") attrs) (attr_in (lit "preferredExtnPrefix") attrs)
    (attr_in (lit "nationalPrefixForParsing") attrs) (attr_in (lit "nationalPrefixTransformRule") attrs)
    (national_formats (rules attrs) (formats_child l)) (international_formats (rules attrs) (formats_child l))
    (flag (attr_in (lit "mainCountryForCode") attrs) false) (attr_in (lit "leadingDigits") attrs)
    (flag (attr_in (lit "mobileNumberPortableRegion") attrs) false)
    (rules attrs) (mk_ldescriptor None [] [] None).
Definition terrs_entries (l : list terrs_item) : list lmetadata :=
  all_of (fun i => match i with UTerritory attrs items => Some (entry attrs items) | _ => None end) l.
Definition entries (d : document) : list lmetadata :=
  flat_map (fun i => match i with OTerritories _ items => terrs_entries items | _ => [] end) d.

(** ** Facts about the meaning *)
Lemma last_of_cons : forall A B (f : A -> option B) a l, last_of f (a :: l) = or_else (last_of f l) (f a).
Proof. reflexivity. Qed.
Lemma or_else_assoc : forall A (a b c : option A), or_else (or_else a b) c = or_else a (or_else b c).
Proof. intros A [x|] b c; reflexivity. Qed.
Lemma attr_in_cons : forall k k' v l,
  attr_in k ((k', v) :: l) = or_else (attr_in k l) (if str_eqb k' k then Some v else None).
Proof. reflexivity. Qed.
Lemma or_none : forall A (a : option A), or_else a None = a.
Proof. intros A [x|]; reflexivity. Qed.
Lemma all_of_cons : forall A B (f : A -> option B) a l,
  all_of f (a :: l) = match f a with Some b => [b] | None => [] end ++ all_of f l.
Proof. reflexivity. Qed.

(** the texts of an element *)
Lemma text_spec : forall name evs acc t rest,
  l_text name acc evs = Ok (t, rest) <->
  exists ps, evs = map EvText ps ++ EvEnd name :: rest /\ t = acc ++ concat ps.
Proof.
  intros name evs. induction evs as [|e evs IH]; intros acc t rest; cbn [l_text].
  - split; [discriminate|]. intros ([|p ps] & H & _); discriminate.
  - split.
    + intros H. destruct e; try discriminate.
      * destruct (str_eqb name0 name) eqn:E; [|discriminate]. apply str_eqb_eq in E. inversion H; subst.
        exists []. split; [reflexivity|]. now rewrite app_nil_r.
      * apply IH in H as (ps & -> & ->). exists (text :: ps). split; [reflexivity|]. cbn [concat]. now rewrite app_assoc.
    + intros ([|p ps] & H & ->).
      * cbn [map app] in H. injection H as -> ->. rewrite str_eqb_refl. cbn [concat]. now rewrite app_nil_r.
      * cbn [map app] in H. injection H as -> ->. apply IH. exists ps. split; [reflexivity|]. cbn [concat]. now rewrite app_assoc.
Qed.
Lemma text_run : forall name ps rest, l_text name [] ((map EvText ps ++ [EvEnd name]) ++ rest) = Ok (concat ps, rest).
Proof. intros. apply text_spec. exists ps. rewrite <- app_assoc. split; reflexivity. Qed.

(** skipped elements *)
Inductive closes : list str -> list event -> list event -> Prop :=
| closes_nil rest : closes [] rest rest
| closes_cons n st b evs rest : balanced b -> closes st evs rest -> closes (n :: st) (b ++ EvEnd n :: evs) rest.
Lemma ignore_balanced : forall b, balanced b -> forall n st evs, l_ignore (n :: st) (b ++ evs) = l_ignore (n :: st) evs.
Proof.
  induction 1; intros m st evs; cbn [app l_ignore]; auto.
  rewrite <- app_assoc, IHbalanced1. cbn [app l_ignore]. rewrite str_eqb_refl. apply IHbalanced2.
Qed.
Lemma ignore_closes : forall evs st rest, l_ignore st evs = Ok (tt, rest) -> closes st evs rest.
Proof.
  induction evs as [|e evs IH]; intros [|n st] rest H; cbn [l_ignore] in H; try discriminate.
  - inversion H. constructor.
  - inversion H. constructor.
  - destruct e; try discriminate; apply IH in H || idtac.
    + inversion H as [|? ? b1 e1 ? B1 C1]; subst. inversion C1 as [|? ? b2 e2 ? B2 C2]; subst.
      replace (EvStart name attrs :: b1 ++ EvEnd name :: b2 ++ EvEnd n :: e2)
        with ((EvStart name attrs :: b1 ++ EvEnd name :: b2) ++ EvEnd n :: e2) by (cbn [app]; now rewrite <- app_assoc).
      constructor; [now constructor|exact C2].
    + destruct (str_eqb name n) eqn:E; [|discriminate]. apply str_eqb_eq in E. subst name.
      apply (closes_cons n st []); [constructor|]. destruct st; [inversion H; constructor|now apply IH].
    + inversion H as [|? ? b1 ? ? B1 C1]; subst. apply (closes_cons n st (EvEmpty name attrs :: b1)); [now constructor|exact C1].
    + inversion H as [|? ? b1 ? ? B1 C1]; subst. apply (closes_cons n st (EvText text :: b1)); [now constructor|exact C1].
    + inversion H as [|? ? b1 ? ? B1 C1]; subst. apply (closes_cons n st (EvComment :: b1)); [now constructor|exact C1].
Qed.
Lemma ignore_spec : forall name evs rest, l_ignore [name] evs = Ok (tt, rest) <->
  exists body, balanced body /\ evs = body ++ EvEnd name :: rest.
Proof.
  intros name evs rest. split.
  - intros H. apply ignore_closes in H. inversion H as [|? ? b ? ? B C]; subst. inversion C; subst. exists b. auto.
  - intros (b & B & ->). rewrite ignore_balanced by exact B. cbn [l_ignore]. now rewrite str_eqb_refl.
Qed.
Lemma ignore_run : forall name body rest, balanced body -> l_ignore [name] ((body ++ [EvEnd name]) ++ rest) = Ok (tt, rest).
Proof. intros. apply ignore_spec. exists body. rewrite <- app_assoc. auto. Qed.

(** descriptions *)
Definition len_or (o : option str) (d : list N) : list N :=
  match o with Some v => listed (Some v) | None => d end.
Definition pattern_of (i : desc_item) := match i with DPattern _ ps => Some (concat ps) | _ => None end.
Definition example_of (i : desc_item) := match i with DExample _ ps => Some (concat ps) | _ => None end.
Definition describe (d : ldescriptor) (l : list desc_item) : ldescriptor :=
  mk_ldescriptor (or_else (last_of pattern_of l) (ld_national_number d))
    (len_or (last_of (lengths_of (lit "national")) l) (ld_possible_length d))
    (len_or (last_of (lengths_of (lit "localOnly")) l) (ld_possible_local_length d))
    (or_else (last_of example_of l) (ld_example d)).
Lemma len_or_else : forall a b d, len_or a (len_or b d) = len_or (or_else a b) d.
Proof. intros [a|] b d; reflexivity. Qed.
Lemma describe_cons : forall d i l, describe d (i :: l) = describe (describe d [i]) l.
Proof.
  intros d i l. unfold describe. cbn [ld_national_number ld_possible_length ld_possible_local_length ld_example].
  rewrite !len_or_else, <- !or_else_assoc, !(last_of_cons _ _ _ i). cbn [last_of or_else]. reflexivity.
Qed.
Lemma describe_nil : forall d, describe d [] = d.
Proof. intros []. reflexivity. Qed.
Lemma describe_default : forall l, describe (mk_ldescriptor None [] [] None) l = description l.
Proof.
  intros l. unfold describe, description. cbn [ld_national_number ld_possible_length ld_possible_local_length ld_example].
  rewrite !or_none. f_equal; unfold len_or, listed; destruct (last_of _ _); reflexivity.
Qed.

Lemma fold_attrs_app : forall A (f : A -> str -> str -> outcome lerr A) kvs a,
  fold_attrs f a (map Some kvs) = fold_left (fun o kv => let* a := o in f a (fst kv) (snd kv)) kvs (Ok a).
Proof.
  intros A f. induction kvs as [|[k v] kvs IH]; intros a; cbn [map fold_attrs fold_left fst snd]; [reflexivity|].
  cbn [obind]. destruct (f a k v) as [a'| |]; cbn [obind]; [apply IH| |].
  - clear. induction kvs; cbn [fold_left]; auto.
  - clear. induction kvs; cbn [fold_left]; auto.
Qed.
Lemma fold_attrs_some : forall A (f : A -> str -> str -> outcome lerr A) l a a',
  fold_attrs f a l = Ok a' -> exists kvs, l = map Some kvs.
Proof.
  intros A f. induction l as [|[[k v]|] l IH]; intros a a' H; cbn [fold_attrs] in H.
  - exists []. reflexivity.
  - apply obind_ok in H as (b & _ & H). apply IH in H as (kvs & ->). exists ((k, v) :: kvs). reflexivity.
  - discriminate.
Qed.
(** Reading attributes one by one, when [ok] says which are accepted and
    [upd] what all of them together do. *)
Lemma fold_attrs_spec : forall A (f : A -> str -> str -> outcome lerr A) (ok : str * str -> Prop)
    (upd : A -> list (str * str) -> A),
  (forall a, upd a [] = a) ->
  (forall a kv l, upd a (kv :: l) = upd (upd a [kv]) l) ->
  (forall a k v a', f a k v = Ok a' <-> ok (k, v) /\ a' = upd a [(k, v)]) ->
  forall l a a', fold_attrs f a l = Ok a' <-> exists kvs, l = map Some kvs /\ Forall ok kvs /\ a' = upd a kvs.
Proof.
  intros A f ok upd Hn Hc Hf. induction l as [|[[k v]|] l IH]; intros a a'; cbn [fold_attrs].
  - split.
    + intros H. inversion H; subst. exists []. rewrite Hn. auto.
    + intros ([|] & E & _ & ->); [|discriminate]. now rewrite Hn.
  - split.
    + intros H. apply obind_ok in H as (b & Hb & H). apply Hf in Hb as [Hok ->]. apply IH in H as (kvs & -> & F & ->).
      exists ((k, v) :: kvs). split; [reflexivity|]. split; [now constructor|]. symmetry; apply Hc.
    + intros ([|[k' v'] kvs] & E & F & ->); [discriminate|]. cbn [map] in E. injection E as <- <- ->.
      inversion F; subst. assert (E : f a k v = Ok (upd a [(k, v)])) by (apply Hf; auto). rewrite E. cbn [obind].
      apply IH. exists kvs. split; [reflexivity|]. split; [assumption|]. apply Hc.
  - split; [discriminate|]. intros ([|] & E & _); discriminate.
Qed.

Definition describe_attrs (d : ldescriptor) (kvs : list (str * str)) : ldescriptor := describe d [DLengths kvs].
Lemma describe_attrs_eq : forall d kvs, describe_attrs d kvs =
  mk_ldescriptor (ld_national_number d) (len_or (attr_in (lit "national") kvs) (ld_possible_length d))
    (len_or (attr_in (lit "localOnly") kvs) (ld_possible_local_length d)) (ld_example d).
Proof. reflexivity. Qed.
Lemma descriptor_attrs_spec : forall l d d', fold_attrs descriptor_attr d l = Ok d' <->
  exists kvs, l = map Some kvs /\ Forall desc_attr_ok kvs /\ d' = describe_attrs d kvs.
Proof.
  apply fold_attrs_spec.
  - intros []. reflexivity.
  - intros a [k v] l. rewrite !describe_attrs_eq. cbn [ld_national_number ld_possible_length ld_possible_local_length ld_example].
    rewrite !len_or_else, !attr_in_cons. cbn [attr_in last_of or_else]. rewrite !or_none || idtac. reflexivity.
  - intros d k v d'. rewrite describe_attrs_eq. unfold descriptor_attr. cbn [attr_in last_of fst snd]. split.
    + intros H. destruct (str_eqb k (lit "national")) eqn:E1.
      * apply str_eqb_eq in E1. subst k. apply obind_ok in H as (l & Hl & H). inversion H; subst.
        split; [split; [now left|eauto]|]. cbn [len_or listed]. rewrite Hl. reflexivity.
      * destruct (str_eqb k (lit "localOnly")) eqn:E2; [|discriminate].
        apply str_eqb_eq in E2. subst k. apply obind_ok in H as (l & Hl & H). inversion H; subst.
        split; [split; [right; now left|eauto]|]. cbn [len_or listed]. rewrite Hl. reflexivity.
    + intros [[I (l & Hl)] ->]. cbn [fst snd] in *. destruct I as [<-|[<-|[]]].
      * change (str_eqb (lit "national") (lit "national")) with true. cbv iota. rewrite Hl. cbn [obind len_or listed]. now rewrite Hl.
      * change (str_eqb (lit "localOnly") (lit "localOnly")) with true.
        change (str_eqb (lit "localOnly") (lit "national")) with false. cbv iota. rewrite Hl. cbn [obind len_or listed]. now rewrite Hl.
Qed.

Lemma descriptor_step : forall fuel name d i evs, desc_item_ok i ->
  l_descriptor (S fuel) name d (desc_item_events i ++ evs) = l_descriptor fuel name (describe d [i]) evs.
Proof.
  intros fuel name d i evs Hi. destruct i as [[t|]|tag ps|tag ps|kvs]; cbn [desc_item_events noise_event app text_element].
  - cbn [l_descriptor]. destruct d. reflexivity.
  - cbn [l_descriptor]. destruct d. reflexivity.
  - cbn [l_descriptor]. rewrite str_eqb_refl, text_run. cbn [obind]. reflexivity.
  - cbn [l_descriptor]. rewrite str_eqb_refl, text_run.
    change (str_eqb (lit "exampleNumber") (lit "nationalNumberPattern")) with false. cbn [obind]. reflexivity.
  - cbn [l_descriptor]. rewrite str_eqb_refl.
    assert (E : fold_attrs descriptor_attr d (map Some kvs) = Ok (describe_attrs d kvs)).
    { apply descriptor_attrs_spec. exists kvs. auto. }
    rewrite E. reflexivity.
Qed.
Lemma flat_len : forall A (f : A -> list event) i l x, length ((f i ++ l) ++ x) = length (f i) + length (l ++ x).
Proof. intros. rewrite !app_length. lia. Qed.
Lemma descriptor_reads : forall items name d rest fuel, Forall desc_item_ok items ->
  length (flat_map desc_item_events items ++ EvEnd name :: rest) < fuel ->
  l_descriptor fuel name d (flat_map desc_item_events items ++ EvEnd name :: rest) = Ok (describe d items, rest).
Proof.
  induction items as [|i items IH]; intros name d rest fuel F L.
  - destruct fuel as [|fuel]; [clear - L; cbn in L; lia|]. cbn [flat_map app l_descriptor]. rewrite str_eqb_refl. now rewrite describe_nil.
  - inversion F; subst. cbn [flat_map] in *. rewrite flat_len in L. destruct fuel as [|fuel]; [clear - L; lia|].
    rewrite <- app_assoc, descriptor_step by assumption. rewrite (describe_cons d i items). apply IH; [assumption|].
    assert (1 <= length (desc_item_events i)) by (destruct i; cbn [desc_item_events text_element length]; clear; lia).
    clear - L H. lia.
Qed.
Lemma describe_then : forall d i l, describe (describe d [i]) l = describe d (i :: l).
Proof. intros. symmetry. apply describe_cons. Qed.
Lemma descriptor_only : forall fuel name d evs d' rest, l_descriptor fuel name d evs = Ok (d', rest) ->
  exists items, Forall desc_item_ok items /\ evs = flat_map desc_item_events items ++ EvEnd name :: rest /\ d' = describe d items.
Proof.
  induction fuel as [|fuel IH]; intros name d evs d' rest H; cbn [l_descriptor] in H; [discriminate|].
  assert (S : forall i r, desc_item_ok i -> evs = desc_item_events i ++ r ->
    l_descriptor fuel name (describe d [i]) r = Ok (d', rest) ->
    exists items, Forall desc_item_ok items /\ evs = flat_map desc_item_events items ++ EvEnd name :: rest /\ d' = describe d items).
  { intros i r Hi E K. apply IH in K as (items & F & -> & ->). exists (i :: items). split; [now constructor|].
    cbn [flat_map]. rewrite <- app_assoc. split; [exact E|]. apply describe_then. }
  destruct evs as [|e evs]; [discriminate|]. destruct e; try discriminate.
  - destruct (str_eqb name0 (lit "nationalNumberPattern")) eqn:E1.
    + apply str_eqb_eq in E1. subst name0. apply obind_ok in H as ([t r] & Ht & H). apply text_spec in Ht as (ps & -> & ->).
      apply (S (DPattern attrs ps) r); [exact I| |exact H]. cbn [desc_item_events text_element app]. now rewrite <- app_assoc.
    + destruct (str_eqb name0 (lit "exampleNumber")) eqn:E2; [|discriminate].
      apply str_eqb_eq in E2. subst name0. apply obind_ok in H as ([t r] & Ht & H). apply text_spec in Ht as (ps & -> & ->).
      apply (S (DExample attrs ps) r); [exact I| |exact H]. cbn [desc_item_events text_element app]. now rewrite <- app_assoc.
  - destruct (str_eqb name0 name) eqn:E; [|discriminate]. apply str_eqb_eq in E. inversion H; subst.
    exists []. split; [constructor|]. split; [reflexivity|]. now rewrite describe_nil.
  - destruct (str_eqb name0 (lit "possibleLengths")) eqn:E; [|discriminate]. apply str_eqb_eq in E. subst name0.
    apply obind_ok in H as (d1 & Hd & H). apply descriptor_attrs_spec in Hd as (kvs & -> & F & ->).
    exact (S (DLengths kvs) evs F eq_refl H).
  - apply (S (DNoise (NText text)) evs); [exact I|reflexivity|]. destruct d. exact H.
  - apply (S (DNoise NComment) evs); [exact I|reflexivity|]. destruct d. exact H.
Qed.

(** number formats *)
Definition fformat_of (i : fmt_item) := match i with FFormat _ ps => Some (concat ps) | _ => None end.
Definition fleading_of (i : fmt_item) := match i with FLeading _ ps => Some (concat ps) | _ => None end.
Definition fintl_of (i : fmt_item) := match i with
  | FFormat _ ps => Some (Some (concat ps))
  | FIntl _ ps => Some (if str_eqb (concat ps) (lit "NA") then None else Some (concat ps))
  | _ => None end.
Definition fmt_items (f : lformat) (l : list fmt_item) : lformat :=
  mk_lformat (lf_pattern f) (or_else (last_of fformat_of l) (lf_format f))
    (lf_leading_digits f ++ all_of fleading_of l) (lf_national_prefix_formatting_rule f)
    (lf_national_prefix_optional_when_formatting f) (lf_domestic_carrier f).
Definition intl_items (o : option str) (l : list fmt_item) : option str :=
  match last_of fintl_of l with Some x => x | None => o end.
Lemma fmt_items_cons : forall f i l, fmt_items f (i :: l) = fmt_items (fmt_items f [i]) l.
Proof.
  intros f i l. unfold fmt_items. cbn [lf_pattern lf_format lf_leading_digits lf_national_prefix_formatting_rule
    lf_national_prefix_optional_when_formatting lf_domestic_carrier].
  rewrite <- !or_else_assoc, !(last_of_cons _ _ _ i), (all_of_cons _ _ _ i l), <- app_assoc.
  cbn [last_of or_else]. rewrite (all_of_cons _ _ _ i []). cbn [all_of flat_map]. rewrite app_nil_r. reflexivity.
Qed.
Lemma intl_items_cons : forall o i l, intl_items o (i :: l) = intl_items (intl_items o [i]) l.
Proof. intros. unfold intl_items. rewrite (last_of_cons _ _ _ i l). destruct (last_of fintl_of l); reflexivity. Qed.
Lemma fmt_items_nil : forall f, fmt_items f [] = f.
Proof. intros [a b c e g h]. unfold fmt_items. cbn [lf_pattern lf_format lf_leading_digits lf_national_prefix_formatting_rule
    lf_national_prefix_optional_when_formatting lf_domestic_carrier all_of flat_map last_of or_else]. now rewrite app_nil_r. Qed.

Lemma fmt_leading : forall f tag ps, fmt_items f [FLeading tag ps] = lf_push_leading f (concat ps).
Proof. intros [] tag ps. reflexivity. Qed.
Lemma fmt_format : forall f tag ps, fmt_items f [FFormat tag ps] = lf_set_format f (Some (concat ps)).
Proof. intros [] tag ps. unfold fmt_items. cbn. now rewrite app_nil_r. Qed.
Lemma fmt_intl : forall f tag ps, fmt_items f [FIntl tag ps] = f.
Proof. intros [] tag ps. unfold fmt_items. cbn. now rewrite app_nil_r. Qed.
Lemma fmt_noise : forall f n, fmt_items f [FNoise n] = f.
Proof. intros [] n. unfold fmt_items. cbn. now rewrite app_nil_r. Qed.

Definition fmt_result (f : lformat) (o : option str) (l : list fmt_item) : lformat * option lformat :=
  (fmt_items f l, option_map (fun v => with_format (fmt_items f l) (Some v)) (intl_items o l)).
Lemma fmt_result_cons : forall f o i l, fmt_result f o (i :: l) = fmt_result (fmt_items f [i]) (intl_items o [i]) l.
Proof. intros. unfold fmt_result. rewrite (fmt_items_cons f i l), (intl_items_cons o i l). reflexivity. Qed.
Lemma format_step : forall fuel name f o i evs,
  l_format_loop (S fuel) name f o (fmt_item_events i ++ evs) = l_format_loop fuel name (fmt_items f [i]) (intl_items o [i]) evs.
Proof.
  intros fuel name f o i evs. destruct i as [[t|]|tag ps|tag ps|tag ps]; cbn [fmt_item_events noise_event app text_element].
  - cbn [l_format_loop]. now rewrite fmt_noise.
  - cbn [l_format_loop]. now rewrite fmt_noise.
  - cbn [l_format_loop]. rewrite str_eqb_refl, text_run, fmt_leading. reflexivity.
  - cbn [l_format_loop]. rewrite str_eqb_refl, text_run, fmt_format.
    change (str_eqb (lit "format") (lit "leadingDigits")) with false. reflexivity.
  - cbn [l_format_loop]. rewrite str_eqb_refl, text_run, fmt_intl.
    change (str_eqb (lit "intlFormat") (lit "leadingDigits")) with false.
    change (str_eqb (lit "intlFormat") (lit "format")) with false. reflexivity.
Qed.
Lemma format_loop_reads : forall items name f o rest fuel,
  length (flat_map fmt_item_events items ++ EvEnd name :: rest) < fuel ->
  l_format_loop fuel name f o (flat_map fmt_item_events items ++ EvEnd name :: rest) = Ok (fmt_result f o items, rest).
Proof.
  induction items as [|i items IH]; intros name f o rest fuel L.
  - destruct fuel as [|fuel]; [clear - L; cbn in L; lia|]. cbn [flat_map app l_format_loop]. rewrite str_eqb_refl.
    unfold fmt_result. rewrite fmt_items_nil. reflexivity.
  - cbn [flat_map] in *. rewrite flat_len in L. destruct fuel as [|fuel]; [clear - L; lia|].
    rewrite <- app_assoc, format_step. rewrite (fmt_result_cons f o i items). apply IH.
    assert (1 <= length (fmt_item_events i)) by (destruct i; cbn [fmt_item_events text_element length]; clear; lia).
    clear - L H. lia.
Qed.
Lemma format_loop_only : forall fuel name f o evs x rest, l_format_loop fuel name f o evs = Ok (x, rest) ->
  exists items, evs = flat_map fmt_item_events items ++ EvEnd name :: rest /\ x = fmt_result f o items.
Proof.
  induction fuel as [|fuel IH]; intros name f o evs x rest H; [discriminate|].
  assert (S : forall i r, evs = fmt_item_events i ++ r ->
    exists items, evs = flat_map fmt_item_events items ++ EvEnd name :: rest /\ x = fmt_result f o items).
  { intros i r E. rewrite E, format_step in H. apply IH in H as (items & Hr & ->). exists (i :: items).
    cbn [flat_map]. rewrite <- app_assoc, <- Hr. split; [exact E|]. symmetry. apply fmt_result_cons. }
  cbn [l_format_loop] in H.
  destruct evs as [|e evs]; [discriminate|]. destruct e; try discriminate.
  - destruct (str_eqb name0 (lit "leadingDigits")) eqn:E1.
    { apply str_eqb_eq in E1. subst name0. apply obind_ok in H as ([t r] & Ht & H). apply text_spec in Ht as (ps & -> & ->).
      apply (S (FLeading attrs ps) r). cbn [fmt_item_events text_element app]. now rewrite <- app_assoc. }
    destruct (str_eqb name0 (lit "format")) eqn:E2.
    { apply str_eqb_eq in E2. subst name0. apply obind_ok in H as ([t r] & Ht & H). apply text_spec in Ht as (ps & -> & ->).
      apply (S (FFormat attrs ps) r). cbn [fmt_item_events text_element app]. now rewrite <- app_assoc. }
    destruct (str_eqb name0 (lit "intlFormat")) eqn:E3; [|discriminate].
    apply str_eqb_eq in E3. subst name0. apply obind_ok in H as ([t r] & Ht & H). apply text_spec in Ht as (ps & -> & ->).
    apply (S (FIntl attrs ps) r). cbn [fmt_item_events text_element app]. now rewrite <- app_assoc.
  - destruct (str_eqb name0 name) eqn:E; [|discriminate]. apply str_eqb_eq in E. inversion H; subst.
    exists []. split; [reflexivity|]. unfold fmt_result. rewrite fmt_items_nil. reflexivity.
  - exact (S (FNoise (NText text)) evs eq_refl).
  - exact (S (FNoise NComment) evs eq_refl).
Qed.

(** the attributes of a number format *)
Definition fmt_attrs (f : lformat) (kvs : list (str * str)) : lformat :=
  mk_lformat (or_else (attr_in (lit "pattern") kvs) (lf_pattern f)) (lf_format f) (lf_leading_digits f)
    (or_else (attr_in (lit "nationalPrefixFormattingRule") kvs) (lf_national_prefix_formatting_rule f))
    (flag (attr_in (lit "nationalPrefixOptionalWhenFormatting") kvs) (lf_national_prefix_optional_when_formatting f))
    (or_else (attr_in (lit "carrierCodeFormattingRule") kvs) (lf_domestic_carrier f)).
Lemma flag_or_else : forall a b d, flag a (flag b d) = flag (or_else a b) d.
Proof. intros [a|] b d; reflexivity. Qed.
Lemma attr_in_one : forall k k' v, attr_in k [(k', v)] = if str_eqb k' k then Some v else None.
Proof. reflexivity. Qed.
(** compares literal names *)
Ltac names := repeat match goal with
  | |- context [str_eqb (lit ?a) (lit ?b)] =>
      let r := eval vm_compute in (str_eqb (lit a) (lit b)) in change (str_eqb (lit a) (lit b)) with r
  end; cbv iota.
Lemma parse_bool_ok : forall v b, parse_bool v = Ok b <-> is_true_or_false v /\ b = str_eqb v (lit "true").
Proof.
  intros v b. unfold parse_bool, is_true_or_false. split.
  - destruct (str_eqb v (lit "true")) eqn:E1; [intros H; inversion H; subst; apply str_eqb_eq in E1; auto|].
    destruct (str_eqb v (lit "false")) eqn:E2; [intros H; inversion H; subst; apply str_eqb_eq in E2; auto|discriminate].
  - intros [[->| ->] ->]; reflexivity.
Qed.
Lemma format_attrs_spec : forall l f f', fold_attrs format_attr f l = Ok f' <->
  exists kvs, l = map Some kvs /\ Forall fmt_attr_ok kvs /\ f' = fmt_attrs f kvs.
Proof.
  apply fold_attrs_spec.
  - intros []. reflexivity.
  - intros a [k v] l. unfold fmt_attrs. cbn [lf_pattern lf_format lf_leading_digits lf_national_prefix_formatting_rule
      lf_national_prefix_optional_when_formatting lf_domestic_carrier].
    rewrite !flag_or_else, <- !or_else_assoc, !attr_in_one, !attr_in_cons. reflexivity.
  - intros f k v f'. unfold fmt_attrs, format_attr, fmt_attr_ok. rewrite !attr_in_one. cbn [fst snd]. split.
    + intros H.
      destruct (str_eqb k (lit "pattern")) eqn:E1.
      { apply str_eqb_eq in E1. subst k. inversion H; subst. names. cbn [or_else flag]. split; [left; cbn [In]; tauto|reflexivity]. }
      destruct (str_eqb k (lit "nationalPrefixFormattingRule")) eqn:E2.
      { apply str_eqb_eq in E2. subst k. inversion H; subst. names. cbn [or_else flag]. split; [left; cbn [In]; tauto|reflexivity]. }
      destruct (str_eqb k (lit "nationalPrefixOptionalWhenFormatting")) eqn:E3.
      { apply str_eqb_eq in E3. subst k. apply obind_ok in H as (b & Hb & H). apply parse_bool_ok in Hb as [Hv ->].
        inversion H; subst. names. cbn [or_else flag]. split; [right; split; [reflexivity|exact Hv]|reflexivity]. }
      destruct (str_eqb k (lit "carrierCodeFormattingRule")) eqn:E4; [|discriminate].
      apply str_eqb_eq in E4. subst k. inversion H; subst. names. cbn [or_else flag]. split; [left; cbn [In]; tauto|reflexivity].
    + intros [[I|[-> Hv]] ->].
      * cbn [In] in I. destruct I as [<-|[<-|[<-|[]]]]; names; reflexivity.
      * names. assert (E : parse_bool v = Ok (str_eqb v (lit "true"))) by (apply parse_bool_ok; auto). rewrite E. reflexivity.
Qed.
Lemma number_format_eq : forall r kvs items, lf_pattern r = None -> lf_format r = None -> lf_leading_digits r = [] ->
  fmt_items (fmt_attrs r kvs) items = number_format r kvs items.
Proof.
  intros r kvs items H1 H2 H3. unfold fmt_items, fmt_attrs, number_format.
  cbn [lf_pattern lf_format lf_leading_digits lf_national_prefix_formatting_rule
      lf_national_prefix_optional_when_formatting lf_domestic_carrier].
  rewrite H1, H2, H3, !or_none. reflexivity.
Qed.

(** lists of formats *)
Definition plain_rules (r : lformat) : Prop := lf_pattern r = None /\ lf_format r = None /\ lf_leading_digits r = [].
Lemma fmt_result_eq : forall r kvs items, plain_rules r ->
  fmt_result (fmt_attrs r kvs) None items =
  (number_format r kvs items, option_map (fun v => with_format (number_format r kvs items) (Some v)) (international_template items)).
Proof. intros r kvs items (H1 & H2 & H3). unfold fmt_result. rewrite number_format_eq by assumption. reflexivity. Qed.
Definition intl_of (r : lformat) (i : fmts_item) : option lformat :=
  match i with
    | SNumber attrs items =>
        match international_template items with
        | Some t => Some (with_format (number_format r attrs items) (Some t))
        | None => None
        end
    | _ => None end.
Lemma international_formats_cons : forall r i l, international_formats r (i :: l) =
  match intl_of r i with Some x => [x] | None => [] end ++ international_formats r l.
Proof. reflexivity. Qed.
Lemma format_spec : forall fuel r kvs evs, Forall fmt_attr_ok kvs ->
  l_format fuel r (lit "numberFormat") (map Some kvs) evs = l_format_loop fuel (lit "numberFormat") (fmt_attrs r kvs) None evs.
Proof.
  intros. unfold l_format. assert (E : fold_attrs format_attr r (map Some kvs) = Ok (fmt_attrs r kvs)).
  { apply format_attrs_spec. exists kvs. auto. }
  rewrite E. reflexivity.
Qed.
Lemma formats_reads : forall items r name natl intl rest fuel, plain_rules r -> Forall fmts_item_ok items ->
  length (flat_map fmts_item_events items ++ EvEnd name :: rest) < fuel ->
  l_formats fuel r name natl intl (flat_map fmts_item_events items ++ EvEnd name :: rest)
  = Ok ((natl ++ national_formats r items, intl ++ international_formats r items), rest).
Proof.
  induction items as [|i items IH]; intros r name natl intl rest fuel P F L.
  - destruct fuel as [|fuel]; [clear - L; cbn in L; lia|]. cbn [flat_map app l_formats]. rewrite str_eqb_refl.
    cbn [national_formats international_formats all_of flat_map]. now rewrite !app_nil_r.
  - inversion F as [|? ? Fi Fr]; subst. cbn [flat_map] in *. rewrite flat_len in L. destruct fuel as [|fuel]; [clear - L; lia|].
    rewrite <- app_assoc. destruct i as [[t|]|kvs fi]; cbn [fmts_item_events noise_event app].
    + cbn [l_formats]. apply IH; auto. clear - L. cbn [fmts_item_events length] in L. lia.
    + cbn [l_formats]. apply IH; auto. clear - L. cbn [fmts_item_events length] in L. lia.
    + cbn [l_formats]. rewrite str_eqb_refl, (format_spec fuel r kvs _ Fi), <- app_assoc. cbn [app].
      rewrite format_loop_reads, fmt_result_eq by
        (exact P || (clear - L; cbn [fmts_item_events length] in L; rewrite !app_length in L; rewrite app_length; cbn [length] in *; rewrite !app_length in *; cbn [length] in *; lia)).
      cbn [obind].
      rewrite IH; auto.
      2:{ clear - L. cbn [fmts_item_events length] in L. lia. }
      f_equal. f_equal. unfold national_formats at 2. rewrite (all_of_cons _ _ _ (SNumber kvs fi) items), international_formats_cons.
      cbn [intl_of]. rewrite !app_assoc.
      destruct (international_template fi); cbn [option_map]; [reflexivity|]. now rewrite app_nil_r.
Qed.
Lemma formats_only : forall fuel r name natl intl evs x rest, plain_rules r ->
  l_formats fuel r name natl intl evs = Ok (x, rest) ->
  exists items, Forall fmts_item_ok items /\ evs = flat_map fmts_item_events items ++ EvEnd name :: rest.
Proof.
  induction fuel as [|fuel IH]; intros r name natl intl evs x rest P H; cbn [l_formats] in H; [discriminate|].
  destruct evs as [|e evs]; [discriminate|]. destruct e; try discriminate.
  - destruct (str_eqb name0 (lit "numberFormat")) eqn:E1; [|discriminate]. apply str_eqb_eq in E1. subst name0.
    apply obind_ok in H as ([[f fi] r1] & Hf & H). unfold l_format in Hf. apply obind_ok in Hf as (f0 & Ha & Hf).
    apply format_attrs_spec in Ha as (kvs & -> & Fk & ->). apply format_loop_only in Hf as (its & -> & _).
    apply IH in H as (items & F & ->); [|exact P]. exists (SNumber kvs its :: items). split; [now constructor|].
    cbn [flat_map fmts_item_events app]. rewrite <- !app_assoc. reflexivity.
  - destruct (str_eqb name0 name) eqn:E; [|discriminate]. apply str_eqb_eq in E. inversion H; subst.
    exists []. split; [constructor|reflexivity].
  - apply IH in H as (items & F & ->); [|exact P]. exists (SNoise (NText text) :: items). split; [now constructor|reflexivity].
  - apply IH in H as (items & F & ->); [|exact P]. exists (SNoise NComment :: items). split; [now constructor|reflexivity].
Qed.

(** the attributes of a territory *)
Definition code_or (o : option str) (d : option N) : option N := match o with Some v => parse_u16 v | None => d end.
Definition rules_attrs (f : lformat) (kvs : list (str * str)) : lformat :=
  mk_lformat (lf_pattern f) (lf_format f) (lf_leading_digits f)
    (or_else (attr_in (lit "nationalPrefixFormattingRule") kvs) (lf_national_prefix_formatting_rule f))
    (flag (attr_in (lit "nationalPrefixOptionalWhenFormatting") kvs) (lf_national_prefix_optional_when_formatting f))
    (or_else (attr_in (lit "carrierCodeFormattingRule") kvs) (lf_domestic_carrier f)).
Definition terr_attrs (m : lmetadata) (kvs : list (str * str)) : lmetadata :=
  lm_head m (or_else (attr_in (lit "id") kvs) (lm_id m))
    (code_or (attr_in (lit "countryCode") kvs) (lm_country_code m))
    (or_else (attr_in (lit "internationalPrefix") kvs) (lm_international_prefix m))
    (or_else (attr_in (lit "preferredInternationalPrefix") kvs) (lm_preferred_international_prefix m))
    (or_else (attr_in (lit "nationalPrefix") kvs) (lm_national_prefix m))
    (or_else (attr_in (lit "preferredExtnPrefix") kvs) (lm_preferred_extension_prefix m))
    (or_else (attr_in (lit "nationalPrefixForParsing") kvs) (lm_national_prefix_for_parsing m))
    (or_else (attr_in (lit "nationalPrefixTransformRule") kvs) (lm_national_prefix_transform_rule m))
    (flag (attr_in (lit "mainCountryForCode") kvs) (lm_main_country_for_code m))
    (or_else (attr_in (lit "leadingDigits") kvs) (lm_leading_digits m))
    (flag (attr_in (lit "mobileNumberPortableRegion") kvs) (lm_mobile_number_portable m))
    (rules_attrs (lm_default_format m) kvs).
Lemma code_or_else : forall a b d, code_or a (code_or b d) = code_or (or_else a b) d.
Proof. intros [a|] b d; reflexivity. Qed.
Ltac case_name H k s := let E := fresh in destruct (str_eqb k s) eqn:E;
  [apply str_eqb_eq in E; subst k|clear E].
Lemma terr_attrs_one : forall m k v m', territory_attr m k v = Ok m' <-> terr_attr_ok (k, v) /\ m' = terr_attrs m [(k, v)].
Proof.
  intros m k v m'. unfold terr_attr_ok, terr_attrs, rules_attrs. rewrite !attr_in_one. cbn [fst snd].
  destruct m as [m1 m2 m3 m4 m5 m6 m7 m8 m9 m10 m11 m12 m13 m14 m15 m16 m17 m18 m19 m20 m21 m22 m23 m24 m25 m26 m27 m28 m29 df dd].
  destruct df as [f1 f2 f3 f4 f5 f6]. unfold territory_attr. cbv zeta. split.
  - intros H.
    Ltac plain H := inversion H; subst; names; (split; [left; cbn [In]; tauto|reflexivity]).
    Ltac boolean H := let b := fresh "b" in let Hb := fresh "Hb" in let Hv := fresh "Hv" in
      apply obind_ok in H as (b & Hb & H); apply parse_bool_ok in Hb as [Hv ->]; inversion H; subst; names;
      (split; [right; right; split; [cbn [In]; tauto|exact Hv]|reflexivity]).
    case_name H k (lit "id"); [plain H|].
    case_name H k (lit "countryCode").
    { apply obind_ok in H as (n & Hn & H). apply ok_or_inv in Hn. inversion H; subst. names.
      split; [right; left; split; [reflexivity|exists n; exact Hn]|]. cbn [code_or]. rewrite Hn. reflexivity. }
    case_name H k (lit "internationalPrefix"); [plain H|].
    case_name H k (lit "preferredInternationalPrefix"); [plain H|].
    case_name H k (lit "nationalPrefix"); [plain H|].
    case_name H k (lit "preferredExtnPrefix"); [plain H|].
    case_name H k (lit "nationalPrefixForParsing"); [plain H|].
    case_name H k (lit "nationalPrefixTransformRule"); [plain H|].
    case_name H k (lit "mainCountryForCode"); [boolean H|].
    case_name H k (lit "leadingDigits"); [plain H|].
    case_name H k (lit "mobileNumberPortableRegion"); [boolean H|].
    case_name H k (lit "nationalPrefixFormattingRule"); [plain H|].
    case_name H k (lit "nationalPrefixOptionalWhenFormatting"); [boolean H|].
    case_name H k (lit "carrierCodeFormattingRule"); [plain H|].
    discriminate.
  - intros [[I|[[-> (n & Hn)]|[I Hv]]] ->].
    + cbn [In] in I. repeat (destruct I as [<-|I]; [names; reflexivity|]). destruct I.
    + names. rewrite Hn. cbn [ok_or obind code_or]. rewrite Hn. reflexivity.
    + assert (E : parse_bool v = Ok (str_eqb v (lit "true"))) by (apply parse_bool_ok; auto).
      cbn [In] in I. repeat (destruct I as [<-|I]; [names; rewrite E; reflexivity|]). destruct I.
Qed.
Lemma territory_attrs_spec : forall l m m', fold_attrs territory_attr m l = Ok m' <->
  exists kvs, l = map Some kvs /\ Forall terr_attr_ok kvs /\ m' = terr_attrs m kvs.
Proof.
  apply fold_attrs_spec.
  - intros m. destruct m as [m1 m2 m3 m4 m5 m6 m7 m8 m9 m10 m11 m12 m13 m14 m15 m16 m17 m18 m19 m20 m21 m22 m23 m24 m25 m26 m27 m28 m29 df dd].
    destruct df as [f1 f2 f3 f4 f5 f6]. reflexivity.
  - intros m [k v] l. unfold terr_attrs, lm_head, rules_attrs.
    cbn [lm_id lm_country_code lm_international_prefix lm_preferred_international_prefix lm_national_prefix
      lm_preferred_extension_prefix lm_national_prefix_for_parsing lm_national_prefix_transform_rule lm_main_country_for_code
      lm_leading_digits lm_mobile_number_portable lm_default_format lm_default_descriptor lm_general lm_fixed_line lm_mobile
      lm_toll_free lm_premium_rate lm_shared_cost lm_personal_number lm_voip lm_pager lm_uan lm_emergency lm_voicemail
      lm_short_code lm_standard_rate lm_carrier lm_no_international lm_formats lm_international_formats
      lf_pattern lf_format lf_leading_digits lf_national_prefix_formatting_rule
      lf_national_prefix_optional_when_formatting lf_domestic_carrier].
    rewrite !flag_or_else, !code_or_else, <- !or_else_assoc, !attr_in_one, !attr_in_cons. reflexivity.
  - apply terr_attrs_one.
Qed.

(** the children of a territory *)
Definition formats_of (i : terr_item) := match i with TFormats _ items => Some items | _ => None end.
Definition fmts_or (g : list fmts_item -> list lformat) (o : option (list fmts_item)) (d : list lformat) : list lformat :=
  match o with Some items => g items | None => d end.
Definition terr_children (m : lmetadata) (l : list terr_item) : lmetadata :=
  let c s d := or_else (child s l) d in
  let fs := last_of formats_of l in
  mk_lmetadata (c DGeneral (lm_general m)) (c DFixedLine (lm_fixed_line m)) (c DMobile (lm_mobile m)) (c DTollFree (lm_toll_free m))
    (c DPremiumRate (lm_premium_rate m)) (c DSharedCost (lm_shared_cost m)) (c DPersonalNumber (lm_personal_number m))
    (c DVoip (lm_voip m)) (c DPager (lm_pager m)) (c DUan (lm_uan m)) (c DEmergency (lm_emergency m))
    (c DVoicemail (lm_voicemail m)) (lm_short_code m) (lm_standard_rate m) (lm_carrier m)
    (c DNoInternational (lm_no_international m))
    (lm_id m) (lm_country_code m) (lm_international_prefix m) (lm_preferred_international_prefix m)
    (lm_national_prefix m) (lm_preferred_extension_prefix m) (lm_national_prefix_for_parsing m)
    (lm_national_prefix_transform_rule m)
    (fmts_or (national_formats (lm_default_format m)) fs (lm_formats m))
    (fmts_or (international_formats (lm_default_format m)) fs (lm_international_formats m))
    (lm_main_country_for_code m) (lm_leading_digits m) (lm_mobile_number_portable m)
    (lm_default_format m) (lm_default_descriptor m).
Lemma fmts_or_else : forall g a b d, fmts_or g a (fmts_or g b d) = fmts_or g (or_else a b) d.
Proof. intros g [a|] b d; reflexivity. Qed.
Lemma child_cons : forall s i l, child s (i :: l) = or_else (child s l) (child s [i]).
Proof. reflexivity. Qed.
Lemma terr_children_cons : forall m i l, terr_children m (i :: l) = terr_children (terr_children m [i]) l.
Proof.
  intros m i l. unfold terr_children. cbv zeta.
  cbn [lm_id lm_country_code lm_international_prefix lm_preferred_international_prefix lm_national_prefix
      lm_preferred_extension_prefix lm_national_prefix_for_parsing lm_national_prefix_transform_rule lm_main_country_for_code
      lm_leading_digits lm_mobile_number_portable lm_default_format lm_default_descriptor lm_general lm_fixed_line lm_mobile
      lm_toll_free lm_premium_rate lm_shared_cost lm_personal_number lm_voip lm_pager lm_uan lm_emergency lm_voicemail
      lm_short_code lm_standard_rate lm_carrier lm_no_international lm_formats lm_international_formats].
  rewrite !fmts_or_else, <- !or_else_assoc, !(child_cons _ i l), !(last_of_cons _ _ _ i l). reflexivity.
Qed.
Lemma terr_children_nil : forall m, terr_children m [] = m.
Proof. intros []. reflexivity. Qed.
Lemma terr_children_noise : forall m n, terr_children m [TNoise n] = m.
Proof. intros [] n. reflexivity. Qed.
Lemma terr_children_skipped : forall m n t b, terr_children m [TSkipped n t b] = m.
Proof. intros [] n t b. reflexivity. Qed.
Lemma terr_children_desc : forall m s tag items, terr_children m [TDesc s tag items] = lm_set_slot m s (description items).
Proof. intros [] s tag items. destruct s; reflexivity. Qed.
Lemma terr_children_formats : forall m tag items, terr_children m [TFormats tag items] =
  lm_set_formats m (national_formats (lm_default_format m) items) (international_formats (lm_default_format m) items).
Proof. intros [] tag items. reflexivity. Qed.
Lemma dslot_find_name : forall s, dslot_find (dslot_name s) all_dslots = Some s.
Proof. intros []; reflexivity. Qed.
Lemma dslot_not_skipped : forall s,
  (str_eqb (dslot_name s) (lit "references") || str_eqb (dslot_name s) (lit "areaCodeOptional"))%bool = false.
Proof. intros []; reflexivity. Qed.
Lemma dslot_find_some : forall n l s, dslot_find n l = Some s -> n = dslot_name s.
Proof.
  intros n. induction l as [|a l IH]; intros s H; cbn [dslot_find] in H; [discriminate|].
  destruct (str_eqb n (dslot_name a)) eqn:E; [|now apply IH]. inversion H; subst. now apply str_eqb_eq.
Qed.

(** the parts of an entry that its children do not touch *)
Definition fresh_entry (m : lmetadata) : Prop :=
  plain_rules (lm_default_format m) /\ lm_default_descriptor m = mk_ldescriptor None [] [] None.
Lemma fresh_children : forall m l, fresh_entry m -> fresh_entry (terr_children m l).
Proof. intros m l H. exact H. Qed.

Lemma territory_step : forall fuel m i evs, fresh_entry m -> terr_item_ok i ->
  length (terr_item_events i ++ evs) <= fuel ->
  l_territory_loop (S fuel) m (terr_item_events i ++ evs) = l_territory_loop fuel (terr_children m [i]) evs.
Proof.
  intros fuel m i evs [P D] Hi L. destruct i as [[t|]|name tag body|slot tag items|tag items]; cbn [terr_item_events noise_event app] in *.
  - cbn [l_territory_loop]. now rewrite terr_children_noise.
  - cbn [l_territory_loop]. now rewrite terr_children_noise.
  - destruct Hi as [I B]. cbn [skipped app]. cbn [l_territory_loop].
    assert (E : (str_eqb name (lit "references") || str_eqb name (lit "areaCodeOptional"))%bool = true).
    { destruct I as [<-|[<-|[]]]; reflexivity. }
    rewrite E, ignore_run by exact B. cbn [obind]. now rewrite terr_children_skipped.
  - cbn [l_territory_loop]. rewrite dslot_not_skipped, dslot_find_name, D, <- app_assoc. cbn [app].
    rewrite descriptor_reads.
    + cbn [obind]. now rewrite terr_children_desc, describe_default.
    + exact Hi.
    + rewrite <- app_assoc in L. exact L.
  - cbn [l_territory_loop].
    change (str_eqb (lit "availableFormats") (lit "references") || str_eqb (lit "availableFormats") (lit "areaCodeOptional"))%bool with false.
    change (dslot_find (lit "availableFormats") all_dslots) with (@None dslot). cbv iota. rewrite str_eqb_refl, <- app_assoc. cbn [app].
    rewrite formats_reads.
    + cbn [obind]. now rewrite terr_children_formats.
    + exact P.
    + exact Hi.
    + rewrite <- app_assoc in L. exact L.
Qed.
Lemma territory_loop_reads : forall items m rest fuel, fresh_entry m -> Forall terr_item_ok items ->
  length (flat_map terr_item_events items ++ EvEnd (lit "territory") :: rest) < fuel ->
  l_territory_loop fuel m (flat_map terr_item_events items ++ EvEnd (lit "territory") :: rest) = Ok (terr_children m items, rest).
Proof.
  induction items as [|i items IH]; intros m rest fuel P F L.
  - destruct fuel as [|fuel]; [clear - L; cbn in L; lia|]. cbn [flat_map app l_territory_loop]. rewrite str_eqb_refl. now rewrite terr_children_nil.
  - inversion F; subst. cbn [flat_map] in *. destruct fuel as [|fuel]; [clear - L; lia|].
    rewrite <- app_assoc in *. rewrite territory_step; [| exact P | assumption | clear - L; lia].
    rewrite (terr_children_cons m i items). apply IH; [now apply fresh_children|assumption|].
    assert (1 <= length (terr_item_events i)) by (destruct i; cbn [terr_item_events skipped length]; clear; lia).
    rewrite app_length in L. clear - L H. lia.
Qed.
Lemma territory_loop_only : forall fuel m evs x rest, fresh_entry m -> l_territory_loop fuel m evs = Ok (x, rest) ->
  exists items, Forall terr_item_ok items /\ evs = flat_map terr_item_events items ++ EvEnd (lit "territory") :: rest.
Proof.
  induction fuel as [|fuel IH]; intros m evs x rest P H; cbn [l_territory_loop] in H; [discriminate|].
  assert (S : forall i r m', terr_item_ok i -> evs = terr_item_events i ++ r -> fresh_entry m' ->
    l_territory_loop fuel m' r = Ok (x, rest) ->
    exists items, Forall terr_item_ok items /\ evs = flat_map terr_item_events items ++ EvEnd (lit "territory") :: rest).
  { intros i r m' Hi E P' K. apply IH in K as (items & F & ->); [|exact P']. exists (i :: items). split; [now constructor|].
    cbn [flat_map]. rewrite <- app_assoc. exact E. }
  destruct evs as [|e evs]; [discriminate|]. destruct e; try discriminate.
  - destruct (str_eqb name (lit "references") || str_eqb name (lit "areaCodeOptional"))%bool eqn:E1.
    { apply obind_ok in H as ([[] r] & Hi & H). apply ignore_spec in Hi as (body & B & ->).
      apply (S (TSkipped name attrs body) r m); [|cbn [terr_item_events skipped app]; now rewrite <- app_assoc|exact P|exact H].
      split; [|exact B]. apply Bool.orb_true_iff in E1 as [E|E]; apply str_eqb_eq in E; subst name; cbn [In]; tauto. }
    destruct (dslot_find name all_dslots) as [slot|] eqn:E2.
    { apply dslot_find_some in E2. subst name. apply obind_ok in H as ([d r] & Hd & H).
      apply descriptor_only in Hd as (items & F & -> & _).
      apply (S (TDesc slot attrs items) r (lm_set_slot m slot d)); [exact F|cbn [terr_item_events app]; now rewrite <- app_assoc|exact P|exact H]. }
    destruct (str_eqb name (lit "availableFormats")) eqn:E3; [|discriminate]. apply str_eqb_eq in E3. subst name.
    apply obind_ok in H as ([[natl intl] r] & Hf & H). apply formats_only in Hf as (items & F & ->); [|exact (proj1 P)].
    apply (S (TFormats attrs items) r (lm_set_formats m natl intl)); [exact F|cbn [terr_item_events app]; now rewrite <- app_assoc|exact P|exact H].
  - destruct (str_eqb name (lit "territory")) eqn:E; [|discriminate]. apply str_eqb_eq in E. inversion H; subst.
    exists []. split; [constructor|reflexivity].
  - apply (S (TNoise (NText text)) evs m); [exact I|reflexivity|exact P|exact H].
  - apply (S (TNoise NComment) evs m); [exact I|reflexivity|exact P|exact H].
Qed.
Lemma fresh_attrs : forall kvs, fresh_entry (terr_attrs lmetadata_default kvs).
Proof. intros kvs. split; [split; [|split]|]; reflexivity. Qed.
Lemma entry_eq : forall kvs items, terr_children (terr_attrs lmetadata_default kvs) items = entry kvs items.
Proof.
  intros kvs items. unfold terr_children, entry. cbv zeta. unfold terr_attrs, lm_head, lmetadata_default.
  cbn [lm_id lm_country_code lm_international_prefix lm_preferred_international_prefix lm_national_prefix
      lm_preferred_extension_prefix lm_national_prefix_for_parsing lm_national_prefix_transform_rule lm_main_country_for_code
      lm_leading_digits lm_mobile_number_portable lm_default_format lm_default_descriptor lm_general lm_fixed_line lm_mobile
      lm_toll_free lm_premium_rate lm_shared_cost lm_personal_number lm_voip lm_pager lm_uan lm_emergency lm_voicemail
      lm_short_code lm_standard_rate lm_carrier lm_no_international lm_formats lm_international_formats].
  rewrite !or_none.
  assert (R : rules_attrs lformat_default kvs = rules kvs).
  { unfold rules_attrs, rules, lformat_default.
    cbn [lf_pattern lf_format lf_leading_digits lf_national_prefix_formatting_rule
      lf_national_prefix_optional_when_formatting lf_domestic_carrier]. now rewrite !or_none. }
  rewrite R. unfold formats_child. fold formats_of. destruct (last_of formats_of items); reflexivity.
Qed.

(** the list of territories *)
Lemma territories_reads : forall items acc rest fuel, Forall terrs_item_ok items ->
  length (flat_map terrs_item_events items ++ EvEnd (lit "territories") :: rest) < fuel ->
  l_territories fuel acc (flat_map terrs_item_events items ++ EvEnd (lit "territories") :: rest)
  = Ok (rev acc ++ terrs_entries items, rest).
Proof.
  induction items as [|i items IH]; intros acc rest fuel F L.
  - destruct fuel as [|fuel]; [clear - L; cbn in L; lia|]. cbn [flat_map app l_territories]. rewrite str_eqb_refl.
    cbn [terrs_entries all_of flat_map]. now rewrite app_nil_r.
  - inversion F as [|? ? Fi Fr]; subst. cbn [flat_map] in *. destruct fuel as [|fuel]; [clear - L; lia|].
    rewrite <- app_assoc in *. rewrite app_length in L.
    destruct i as [[t|]|name tag body|kvs ts]; cbn [terrs_item_events noise_event app] in *.
    + cbn [l_territories]. apply IH; auto. clear - L. cbn [length] in L. lia.
    + cbn [l_territories]. apply IH; auto. clear - L. cbn [length] in L. lia.
    + destruct Fi as [N B]. cbn [skipped app]. cbn [l_territories]. apply str_eqb_neq in N. rewrite N, ignore_run by exact B. cbn [obind].
      apply IH; auto. clear - L. cbn [skipped length] in L. lia.
    + destruct Fi as [Fk Ft]. cbn [l_territories]. rewrite str_eqb_refl. unfold l_territory.
      assert (E : fold_attrs territory_attr lmetadata_default (map Some kvs) = Ok (terr_attrs lmetadata_default kvs)).
      { apply territory_attrs_spec. exists kvs. auto. }
      rewrite E. cbn [obind]. rewrite <- app_assoc. cbn [app].
      rewrite territory_loop_reads; [|apply fresh_attrs|exact Ft|].
      2:{ clear - L. cbn [length] in L. rewrite app_length in *. cbn [length] in *. rewrite ?app_length in *. cbn [length] in *. lia. }
      cbn [obind]. rewrite IH; auto.
      2:{ clear - L. cbn [length] in L. lia. }
      unfold terrs_entries. rewrite all_of_cons, entry_eq. cbn [rev]. rewrite <- app_assoc. reflexivity.
Qed.
Lemma territories_only : forall fuel acc evs x rest, l_territories fuel acc evs = Ok (x, rest) ->
  exists items, Forall terrs_item_ok items /\ evs = flat_map terrs_item_events items ++ EvEnd (lit "territories") :: rest.
Proof.
  induction fuel as [|fuel IH]; intros acc evs x rest H; cbn [l_territories] in H; [discriminate|].
  assert (S : forall i r acc', terrs_item_ok i -> evs = terrs_item_events i ++ r ->
    l_territories fuel acc' r = Ok (x, rest) ->
    exists items, Forall terrs_item_ok items /\ evs = flat_map terrs_item_events items ++ EvEnd (lit "territories") :: rest).
  { intros i r m' Hi E K. apply IH in K as (items & F & ->). exists (i :: items). split; [now constructor|].
    cbn [flat_map]. rewrite <- app_assoc. exact E. }
  destruct evs as [|e evs]; [discriminate|]. destruct e; try discriminate.
  - destruct (str_eqb name (lit "territory")) eqn:E1.
    + apply str_eqb_eq in E1. subst name. apply obind_ok in H as ([m r] & Hm & H). unfold l_territory in Hm.
      apply obind_ok in Hm as (m0 & Ha & Hm). apply territory_attrs_spec in Ha as (kvs & -> & Fk & ->).
      apply territory_loop_only in Hm as (ts & Ft & ->); [|apply fresh_attrs].
      apply (S (UTerritory kvs ts) r (m :: acc)); [split; assumption|cbn [terrs_item_events app]; now rewrite <- app_assoc|exact H].
    + apply str_eqb_neq in E1. apply obind_ok in H as ([[] r] & Hi & H). apply ignore_spec in Hi as (body & B & ->).
      apply (S (USkipped name attrs body) r acc); [split; assumption|cbn [terrs_item_events skipped app]; now rewrite <- app_assoc|exact H].
  - destruct (str_eqb name (lit "territories")) eqn:E; [|discriminate]. apply str_eqb_eq in E. inversion H; subst.
    exists []. split; [constructor|reflexivity].
  - exact (S (UNoise (NText text)) evs acc I eq_refl H).
  - exact (S (UNoise NComment) evs acc I eq_refl H).
Qed.

Lemma metadata_reads : forall d acc rest fuel, well_formed d -> length (render d ++ rest) < fuel ->
  l_metadata fuel acc (render d ++ rest) = Ok (acc ++ entries d).
Proof.
  unfold render. induction d as [|i d IH]; intros acc rest fuel F L.
  - destruct fuel as [|fuel]; [clear - L; cbn in L; lia|]. cbn [flat_map app l_metadata]. rewrite str_eqb_refl.
    cbn [entries flat_map]. now rewrite app_nil_r.
  - inversion F as [|? ? Fi Fr]; subst. cbn [flat_map] in *. destruct fuel as [|fuel]; [clear - L; lia|].
    rewrite <- !(app_assoc (doc_item_events i)) in *. rewrite app_length in L.
    destruct i as [[t|]| |tag|name tag body|tag ts]; cbn [doc_item_events noise_event app entries flat_map] in *.
    + cbn [l_metadata]. apply IH; [exact Fr|]. clear - L. cbn [length] in L. lia.
    + cbn [l_metadata]. apply IH; [exact Fr|]. clear - L. cbn [length] in L. lia.
    + cbn [l_metadata]. apply IH; [exact Fr|]. clear - L. cbn [length] in L. lia.
    + cbn [l_metadata]. rewrite str_eqb_refl. apply IH; [exact Fr|]. clear - L. cbn [length] in L. lia.
    + destruct Fi as (N1 & N2 & B). cbn [skipped app]. cbn [l_metadata]. apply str_eqb_neq in N1, N2.
      rewrite N1, N2, ignore_run by exact B. cbn [obind]. apply IH; [exact Fr|]. clear - L. cbn [skipped length] in L. lia.
    + cbn [l_metadata]. change (str_eqb (lit "territories") (lit "phoneNumberMetadata")) with false. cbv iota.
      rewrite str_eqb_refl, <- app_assoc. cbn [app].
      rewrite territories_reads; [|exact Fi|].
      2:{ clear - L. cbn [length] in L. rewrite ?app_length in *. cbn [length] in *. rewrite ?app_length in *. cbn [length] in *. lia. }
      cbn [obind rev app]. rewrite IH; [|exact Fr|clear - L; cbn [length] in L; lia].
      now rewrite <- app_assoc.
Qed.
Lemma metadata_only : forall fuel acc evs l, l_metadata fuel acc evs = Ok l ->
  exists d rest, well_formed d /\ evs = render d ++ rest.
Proof.
  induction fuel as [|fuel IH]; intros acc evs l H; cbn [l_metadata] in H; [discriminate|].
  assert (S : forall i r acc', doc_item_ok i -> evs = doc_item_events i ++ r -> l_metadata fuel acc' r = Ok l ->
    exists d rest, well_formed d /\ evs = render d ++ rest).
  { intros i r acc' Hi E K. apply IH in K as (d & rest & F & ->). exists (i :: d), rest. split; [now constructor|].
    unfold render. cbn [flat_map]. rewrite <- !app_assoc. rewrite E. unfold render. now rewrite <- app_assoc. }
  destruct evs as [|e evs]; [discriminate|]. destruct e; try discriminate.
  - destruct (str_eqb name (lit "phoneNumberMetadata")) eqn:E1.
    { apply str_eqb_eq in E1. subst name. exact (S (ORoot attrs) evs acc I eq_refl H). }
    destruct (str_eqb name (lit "territories")) eqn:E2.
    + apply str_eqb_eq in E2. subst name. apply obind_ok in H as ([ts r] & Ht & H).
      apply territories_only in Ht as (items & F & ->).
      apply (S (OTerritories attrs items) r (acc ++ ts)); [exact F|cbn [doc_item_events app]; now rewrite <- app_assoc|exact H].
    + apply str_eqb_neq in E1, E2. apply obind_ok in H as ([[] r] & Hi & H). apply ignore_spec in Hi as (body & B & ->).
      apply (S (OSkipped name attrs body) r acc); [repeat split; assumption|cbn [doc_item_events skipped app]; now rewrite <- app_assoc|exact H].
  - destruct (str_eqb name (lit "phoneNumberMetadata")) eqn:E; [|discriminate]. apply str_eqb_eq in E. subst name.
    exists [], evs. split; [constructor|reflexivity].
  - exact (S (ONoise (NText text)) evs acc I eq_refl H).
  - exact (S (ONoise NComment) evs acc I eq_refl H).
  - exact (S ODocType evs acc I eq_refl H).
Qed.

(** ** The claims *)
(** Every well-formed document is read, and as what it means. *)
Theorem C29_reads : forall d rest, well_formed d -> load (render d ++ rest) = Ok (entries d).
Proof. intros d rest H. unfold load. rewrite metadata_reads; [reflexivity|exact H|auto]. Qed.
Print Assumptions C29_reads.

(** Nothing else is read: whatever attribute or element the format does not
    document is rejected. *)
Theorem C29_only : forall evs l, load evs = Ok l ->
  exists d rest, well_formed d /\ evs = render d ++ rest /\ l = entries d.
Proof.
  intros evs l H. unfold load in H. destruct (metadata_only _ _ _ _ H) as (d & rest & F & E).
  exists d, rest. split; [exact F|]. split; [exact E|].
  pose proof (C29_reads d rest F) as R. rewrite <- E in R. unfold load in R. rewrite R in H. inversion H. reflexivity.
Qed.
Print Assumptions C29_only.

(** *** Text and comments between elements do not matter *)
Definition keep_desc (i : desc_item) := match i with DNoise _ => false | _ => true end.
Definition keep_fmt (i : fmt_item) := match i with FNoise _ => false | _ => true end.
Definition keep_fmts (i : fmts_item) := match i with SNoise _ => false | _ => true end.
Definition keep_terr (i : terr_item) := match i with TNoise _ => false | _ => true end.
Definition keep_terrs (i : terrs_item) := match i with UNoise _ => false | _ => true end.
Definition keep_doc (i : doc_item) := match i with ONoise _ | ODocType => false | _ => true end.
(** the document without any of it *)
Definition bare_fmts (i : fmts_item) : fmts_item :=
  match i with SNumber kvs items => SNumber kvs (filter keep_fmt items) | _ => i end.
Definition bare_terr (i : terr_item) : terr_item :=
  match i with
  | TDesc s tag items => TDesc s tag (filter keep_desc items)
  | TFormats tag items => TFormats tag (map bare_fmts (filter keep_fmts items))
  | _ => i
  end.
Definition bare_terrs (i : terrs_item) : terrs_item :=
  match i with UTerritory kvs items => UTerritory kvs (map bare_terr (filter keep_terr items)) | _ => i end.
Definition bare_doc (i : doc_item) : doc_item :=
  match i with OTerritories tag items => OTerritories tag (map bare_terrs (filter keep_terrs items)) | _ => i end.
Definition bare (d : document) : document := map bare_doc (filter keep_doc d).

Lemma last_of_filter : forall A B (f : A -> option B) keep l, (forall a, keep a = false -> f a = None) ->
  last_of f (filter keep l) = last_of f l.
Proof.
  intros A B f keep l H. induction l as [|a l IH]; [reflexivity|]. cbn [filter]. destruct (keep a) eqn:E.
  - rewrite !last_of_cons, IH. reflexivity.
  - rewrite last_of_cons, (H a E), or_none. exact IH.
Qed.
Lemma all_of_filter : forall A B (f : A -> option B) keep l, (forall a, keep a = false -> f a = None) ->
  all_of f (filter keep l) = all_of f l.
Proof.
  intros A B f keep l H. induction l as [|a l IH]; [reflexivity|]. cbn [filter]. destruct (keep a) eqn:E.
  - rewrite !all_of_cons, IH. reflexivity.
  - rewrite all_of_cons, (H a E). exact IH.
Qed.
Lemma last_of_map : forall A B (f : A -> option B) g l, (forall a, f (g a) = f a) -> last_of f (map g l) = last_of f l.
Proof. intros A B f g l H. induction l as [|a l IH]; [reflexivity|]. cbn [map]. now rewrite !last_of_cons, IH, H. Qed.
Lemma all_of_map : forall A B (f : A -> option B) g l, (forall a, f (g a) = f a) -> all_of f (map g l) = all_of f l.
Proof. intros A B f g l H. induction l as [|a l IH]; [reflexivity|]. cbn [map]. now rewrite !all_of_cons, IH, H. Qed.

Lemma description_bare : forall l, description (filter keep_desc l) = description l.
Proof. intros l. unfold description. now rewrite !last_of_filter by (intros [] H; try discriminate; reflexivity). Qed.
Lemma number_format_bare : forall r kvs l, number_format r kvs (filter keep_fmt l) = number_format r kvs l.
Proof.
  intros r kvs l. unfold number_format.
  rewrite !last_of_filter, !all_of_filter by (intros [] H; try discriminate; reflexivity). reflexivity.
Qed.
Lemma template_bare : forall l, international_template (filter keep_fmt l) = international_template l.
Proof. intros l. unfold international_template. now rewrite !last_of_filter by (intros [] H; try discriminate; reflexivity). Qed.
Lemma national_formats_bare : forall r l, national_formats r (map bare_fmts (filter keep_fmts l)) = national_formats r l.
Proof.
  intros r l. unfold national_formats. rewrite all_of_map, all_of_filter; [reflexivity| |].
  - intros [n|kvs items] H; [reflexivity|discriminate].
  - intros [n|kvs items]; cbn [bare_fmts]; [reflexivity|]. now rewrite number_format_bare.
Qed.
Lemma international_formats_bare : forall r l, international_formats r (map bare_fmts (filter keep_fmts l)) = international_formats r l.
Proof.
  intros r l. unfold international_formats. rewrite all_of_map, all_of_filter; [reflexivity| |].
  - intros [n|kvs items] H; [reflexivity|discriminate].
  - intros [n|kvs items]; cbn [bare_fmts]; [reflexivity|]. now rewrite number_format_bare, template_bare.
Qed.
Lemma child_bare : forall s l, child s (map bare_terr (filter keep_terr l)) = child s l.
Proof.
  intros s l. unfold child. rewrite last_of_map, last_of_filter; [reflexivity| |].
  - intros [n|n t b|t tag items|tag items] H; [reflexivity|discriminate..].
  - intros [n|n t b|t tag items|tag items]; cbn [bare_terr]; try reflexivity. now rewrite description_bare.
Qed.
Lemma last_of_map_some : forall A B (f : A -> option B) g h l, (forall a, f (g a) = option_map h (f a)) ->
  last_of f (map g l) = option_map h (last_of f l).
Proof.
  intros A B f g h l H. induction l as [|a l IH]; [reflexivity|]. cbn [map]. rewrite !last_of_cons, IH, H.
  destruct (last_of f l); reflexivity.
Qed.
Lemma formats_child_bare : forall l, formats_child (map bare_terr (filter keep_terr l)) = map bare_fmts (filter keep_fmts (formats_child l)).
Proof.
  intros l. unfold formats_child. rewrite (last_of_map_some _ _ _ _ (fun items => map bare_fmts (filter keep_fmts items))).
  - rewrite last_of_filter.
    + destruct (last_of _ l); reflexivity.
    + intros [n|n t b|t tag items|tag items] H; [reflexivity|discriminate..].
  - intros [n|n t b|t tag items|tag items]; reflexivity.
Qed.
Lemma entry_bare : forall kvs l, entry kvs (map bare_terr (filter keep_terr l)) = entry kvs l.
Proof.
  intros kvs l. unfold entry. rewrite !child_bare, formats_child_bare, national_formats_bare, international_formats_bare. reflexivity.
Qed.
Lemma entries_bare : forall d, entries (bare d) = entries d.
Proof.
  unfold bare. induction d as [|i d IH]; [reflexivity|].
  destruct i as [n| |tag|n t b|tag items]; cbn [filter keep_doc map bare_doc entries flat_map]; try exact IH.
  f_equal; [|exact IH]. unfold terrs_entries. rewrite all_of_map, all_of_filter; [reflexivity| |].
  - intros [n|n t b|kvs ts] H; [reflexivity|discriminate..].
  - intros [n|n t b|kvs ts]; cbn [bare_terrs]; try reflexivity. now rewrite entry_bare.
Qed.
Lemma Forall_bare : forall A (P : A -> Prop) keep g l, (forall a, P a -> P (g a)) -> Forall P l -> Forall P (map g (filter keep l)).
Proof.
  intros A P keep g l H F. apply Forall_forall. intros x I. apply in_map_iff in I as (y & <- & I).
  apply filter_In in I as [I _]. apply H. rewrite Forall_forall in F. now apply F.
Qed.
Lemma Forall_filter : forall A (P : A -> Prop) keep l, Forall P l -> Forall P (filter keep l).
Proof.
  intros A P keep l F. apply Forall_forall. intros x I. apply filter_In in I as [I _]. rewrite Forall_forall in F. now apply F.
Qed.
Lemma well_formed_bare : forall d, well_formed d -> well_formed (bare d).
Proof.
  intros d H. unfold bare. apply Forall_bare; [|exact H]. clear.
  intros [n| |tag|n t b|tag items] H; try exact H. cbn [bare_doc doc_item_ok] in *.
  apply Forall_bare; [|exact H]. clear. intros [n|n t b|kvs ts] H; try exact H. cbn [bare_terrs terrs_item_ok] in *.
  destruct H as [H1 H2]. split; [exact H1|]. apply Forall_bare; [|exact H2]. clear.
  intros [n|n t b|s tag items|tag items] H; try exact H; cbn [bare_terr terr_item_ok] in *.
  - now apply Forall_filter.
  - apply Forall_bare; [|exact H]. clear. intros [n|kvs items] H; exact H.
Qed.
Theorem C29_noise : forall d1 d2 r1 r2, well_formed d1 -> well_formed d2 -> bare d1 = bare d2 ->
  load (render d1 ++ r1) = load (render d2 ++ r2).
Proof.
  intros d1 d2 r1 r2 W1 W2 E. rewrite !C29_reads by assumption. f_equal.
  rewrite <- (entries_bare d1), <- (entries_bare d2), E. reflexivity.
Qed.
Print Assumptions C29_noise.

(** *** Every list of entries can be written down and read back *)
(** An entry the format can express: lengths and the calling code fit 16 bits,
    the parts without an element are absent, and the formats come with their
    international templates [fs] and do not lack a rule the territory has. *)
Definition lengths_fit (d : ldescriptor) : Prop :=
  forall n, In n (ld_possible_length d ++ ld_possible_local_length d) -> (n <= 65535)%N.
Definition format_fits (r : lformat) (fo : lformat * option str) : Prop :=
  (lf_national_prefix_formatting_rule (fst fo) = None -> lf_national_prefix_formatting_rule r = None)
  /\ (lf_domestic_carrier (fst fo) = None -> lf_domestic_carrier r = None)
  /\ snd fo <> Some (lit "NA").
Definition intl_formats (fs : list (lformat * option str)) : list lformat :=
  all_of (fun fo : lformat * option str => option_map (fun t => with_format (fst fo) (Some t)) (snd fo)) fs.
Definition expressible (m : lmetadata) : Prop :=
  lm_short_code m = None /\ lm_standard_rate m = None /\ lm_carrier m = None
  /\ lm_default_descriptor m = mk_ldescriptor None [] [] None
  /\ lf_pattern (lm_default_format m) = None /\ lf_format (lm_default_format m) = None
  /\ lf_leading_digits (lm_default_format m) = []
  /\ (forall d, has_description m d -> lengths_fit d)
  /\ (forall c, lm_country_code m = Some c -> (c <= 65535)%N)
  /\ exists fs, lm_formats m = map fst fs /\ lm_international_formats m = intl_formats fs
       /\ Forall (format_fits (lm_default_format m)) fs.

Definition opt_list {A B} (f : A -> B) (o : option A) : list B := match o with Some a => [f a] | None => [] end.
Definition length_attr (k : str) (l : list N) : list (str * str) :=
  match l with [] => [] | _ => [(k, commas (map dec l))] end.
Definition write_desc (d : ldescriptor) : list desc_item :=
  opt_list (fun t => DPattern [] [t]) (ld_national_number d)
  ++ [DLengths (length_attr (lit "national") (ld_possible_length d) ++ length_attr (lit "localOnly") (ld_possible_local_length d))]
  ++ opt_list (fun t => DExample [] [t]) (ld_example d).
Definition bool_text (b : bool) : str := if b then lit "true" else lit "false".
Definition write_format (fo : lformat * option str) : fmts_item :=
  let f := fst fo in
  SNumber (opt_list (pair (lit "pattern")) (lf_pattern f)
      ++ opt_list (pair (lit "nationalPrefixFormattingRule")) (lf_national_prefix_formatting_rule f)
      ++ [(lit "nationalPrefixOptionalWhenFormatting", bool_text (lf_national_prefix_optional_when_formatting f))]
      ++ opt_list (pair (lit "carrierCodeFormattingRule")) (lf_domestic_carrier f))
    (map (fun t => FLeading [] [t]) (lf_leading_digits f)
      ++ opt_list (fun t => FFormat [] [t]) (lf_format f)
      ++ [FIntl [] [match snd fo with Some t => t | None => lit "NA" end]]).
Definition write_attrs (m : lmetadata) : list (str * str) :=
  opt_list (pair (lit "id")) (lm_id m)
  ++ opt_list (fun c => (lit "countryCode", dec c)) (lm_country_code m)
  ++ opt_list (pair (lit "internationalPrefix")) (lm_international_prefix m)
  ++ opt_list (pair (lit "preferredInternationalPrefix")) (lm_preferred_international_prefix m)
  ++ opt_list (pair (lit "nationalPrefix")) (lm_national_prefix m)
  ++ opt_list (pair (lit "preferredExtnPrefix")) (lm_preferred_extension_prefix m)
  ++ opt_list (pair (lit "nationalPrefixForParsing")) (lm_national_prefix_for_parsing m)
  ++ opt_list (pair (lit "nationalPrefixTransformRule")) (lm_national_prefix_transform_rule m)
  ++ [(lit "mainCountryForCode", bool_text (lm_main_country_for_code m))]
  ++ opt_list (pair (lit "leadingDigits")) (lm_leading_digits m)
  ++ [(lit "mobileNumberPortableRegion", bool_text (lm_mobile_number_portable m))]
  ++ opt_list (pair (lit "nationalPrefixFormattingRule")) (lf_national_prefix_formatting_rule (lm_default_format m))
  ++ [(lit "nationalPrefixOptionalWhenFormatting", bool_text (lf_national_prefix_optional_when_formatting (lm_default_format m)))]
  ++ opt_list (pair (lit "carrierCodeFormattingRule")) (lf_domestic_carrier (lm_default_format m)).
Definition write_slot (s : dslot) (o : option ldescriptor) : list terr_item := opt_list (fun d => TDesc s [] (write_desc d)) o.
Definition write_children (m : lmetadata) (fs : list (lformat * option str)) : list terr_item :=
  write_slot DGeneral (lm_general m) ++ write_slot DFixedLine (lm_fixed_line m) ++ write_slot DMobile (lm_mobile m)
  ++ write_slot DTollFree (lm_toll_free m) ++ write_slot DPremiumRate (lm_premium_rate m)
  ++ write_slot DSharedCost (lm_shared_cost m) ++ write_slot DPersonalNumber (lm_personal_number m)
  ++ write_slot DVoip (lm_voip m) ++ write_slot DPager (lm_pager m) ++ write_slot DUan (lm_uan m)
  ++ write_slot DEmergency (lm_emergency m) ++ write_slot DVoicemail (lm_voicemail m)
  ++ write_slot DNoInternational (lm_no_international m)
  ++ [TFormats [] (map write_format fs)].

Lemma last_of_app : forall A B (f : A -> option B) a b, last_of f (a ++ b) = or_else (last_of f b) (last_of f a).
Proof.
  intros A B f a b. induction a as [|x a IH]; cbn [app]; [now rewrite or_none|].
  rewrite !last_of_cons, IH. apply or_else_assoc.
Qed.
Lemma attr_in_app : forall k a b, attr_in k (a ++ b) = or_else (attr_in k b) (attr_in k a).
Proof. intros. apply last_of_app. Qed.
Lemma attr_in_opt : forall k k' o, attr_in k (opt_list (pair k') o) = if str_eqb k' k then o else None.
Proof. intros k k' [v|]; cbn [opt_list]; [apply attr_in_one|]. destruct (str_eqb k' k); reflexivity. Qed.
Lemma attr_in_code : forall k o, attr_in k (opt_list (fun c => (lit "countryCode", dec c)) o)
  = if str_eqb (lit "countryCode") k then option_map dec o else None.
Proof. intros k [v|]; cbn [opt_list]; [apply attr_in_one|]. destruct (str_eqb _ k); reflexivity. Qed.
Lemma flag_bool : forall b d, flag (Some (bool_text b)) d = b.
Proof. intros [] d; reflexivity. Qed.
Lemma bool_text_ok : forall b, is_true_or_false (bool_text b).
Proof. intros []; [left|right]; reflexivity. Qed.
Lemma parse_u16_dec : forall n, (n <= 65535)%N -> parse_u16 (dec n) = Some n.
Proof. intros n H. unfold parse_u16. now rewrite parse_uint_dec. Qed.

Lemma lengths_dec : forall l, l <> [] -> (forall n, In n l -> (n <= 65535)%N) -> lengths (commas (map dec l)) = Ok l.
Proof.
  intros l Hne H.
  pose proof (C32_lengths (map (fun n => mk_padded [] (Num n) []) l)) as C.
  assert (E1 : map padded_text (map (fun n => mk_padded [] (Num n) []) l) = map dec l).
  { rewrite map_map. apply map_ext. intros n. unfold padded_text. cbn [before it after item_text app]. apply app_nil_r. }
  assert (E2 : concat (map (fun p => item_lengths (it p)) (map (fun n => mk_padded [] (Num n) []) l)) = l).
  { rewrite map_map. cbn [it item_lengths]. clear. induction l as [|n l IH]; [reflexivity|]. cbn [map concat app]. now rewrite IH. }
  rewrite E1, E2 in C. apply C.
  - destruct l; [now elim Hne|discriminate].
  - intros p I. apply in_map_iff in I as (n & <- & I). split; [intros c []|]. split; [intros c []|]. exact (H n I).
Qed.
Lemma attr_in_length : forall k k' l, attr_in k (length_attr k' l) =
  if str_eqb k' k then match l with [] => None | _ => Some (commas (map dec l)) end else None.
Proof. intros k k' [|n l]; cbn [length_attr]; [destruct (str_eqb k' k); reflexivity|apply attr_in_one]. Qed.
Lemma listed_length : forall l, (forall n, In n l -> (n <= 65535)%N) ->
  listed (match l with [] => None | _ => Some (commas (map dec l)) end) = l.
Proof.
  intros [|n l] H; [reflexivity|]. unfold listed. rewrite lengths_dec; [reflexivity|discriminate|exact H].
Qed.
Lemma length_attr_ok : forall k l, In k [lit "national"; lit "localOnly"] -> (forall n, In n l -> (n <= 65535)%N) ->
  Forall desc_attr_ok (length_attr k l).
Proof.
  intros k [|n l] K H; [constructor|]. constructor; [|constructor]. split; [exact K|]. exists (n :: l).
  apply lengths_dec; [discriminate|exact H].
Qed.
Lemma write_desc_ok : forall d, lengths_fit d -> Forall desc_item_ok (write_desc d).
Proof.
  intros d H. unfold write_desc. apply Forall_app. split; [destruct (ld_national_number d); repeat constructor|].
  apply Forall_app. split; [|destruct (ld_example d); repeat constructor].
  constructor; [|constructor]. cbn [desc_item_ok]. apply Forall_app. split; apply length_attr_ok.
  - now left.
  - intros n I. apply H. apply in_app_iff. now left.
  - right. now left.
  - intros n I. apply H. apply in_app_iff. now right.
Qed.
Lemma write_desc_eq : forall d, lengths_fit d -> description (write_desc d) = d.
Proof.
  intros [a b c e] H. unfold description, write_desc.
  cbn [ld_national_number ld_possible_length ld_possible_local_length ld_example]. rewrite !last_of_app.
  cbn [last_of or_else lengths_of]. rewrite !attr_in_app, !attr_in_length. names.
  assert (Hb : forall n, In n b -> (n <= 65535)%N) by (intros n I; apply H; apply in_app_iff; now left).
  assert (Hc : forall n, In n c -> (n <= 65535)%N) by (intros n I; apply H; apply in_app_iff; now right).
  assert (A : forall (f : desc_item -> option str) o g, (forall t, f (g t) = None) -> last_of f (@opt_list str desc_item g o) = None).
  { intros f [t|] g K; cbn [opt_list last_of]; [apply K|reflexivity]. }
  rewrite !(A (lengths_of (lit "national"))), !(A (lengths_of (lit "localOnly"))) by reflexivity.
  cbn [or_else]. rewrite !or_none, !listed_length by assumption.
  destruct a, e; cbn [opt_list last_of or_else concat]; rewrite ?app_nil_r; reflexivity.
Qed.

Lemma write_format_ok : forall fo, fmts_item_ok (write_format fo).
Proof.
  intros [f o]. cbn [write_format fmts_item_ok fst snd]. repeat (apply Forall_app; split).
  - destruct (lf_pattern f); [constructor; [left; cbn [fst In]; tauto|constructor]|constructor].
  - destruct (lf_national_prefix_formatting_rule f); [constructor; [left; cbn [fst In]; tauto|constructor]|constructor].
  - constructor; [|constructor]. right. split; [reflexivity|apply bool_text_ok].
  - destruct (lf_domestic_carrier f); [constructor; [left; cbn [fst In]; tauto|constructor]|constructor].
Qed.
Lemma last_leading : forall B (f : fmt_item -> option B) l, (forall t, f (FLeading [] [t]) = None) ->
  last_of f (map (fun t => FLeading [] [t]) l) = None.
Proof. intros B f l H. induction l as [|t l IH]; [reflexivity|]. cbn [map]. now rewrite last_of_cons, IH, H. Qed.
Lemma all_of_app : forall A B (f : A -> option B) a b, all_of f (a ++ b) = all_of f a ++ all_of f b.
Proof. intros. unfold all_of. apply flat_map_app. Qed.
Lemma write_number : forall r fo, format_fits r fo -> match write_format fo with
  | SNumber kvs items => number_format r kvs items = fst fo /\ international_template items = snd fo
  | SNoise _ => False end.
Proof.
  intros r [f o] (H1 & H2 & H3). cbn [write_format fst snd] in *. split.
  - unfold number_format. rewrite !attr_in_app, !attr_in_opt, !attr_in_one. names.
    rewrite !last_of_app, !all_of_app. rewrite last_leading by reflexivity.
    assert (L : all_of (fun i => match i with FLeading _ ps => Some (concat ps) | _ => None end)
      (map (fun t => FLeading [] [t]) (lf_leading_digits f)) = lf_leading_digits f).
    { clear. induction (lf_leading_digits f) as [|t l IH]; [reflexivity|]. cbn [map]. rewrite all_of_cons, IH. cbn [concat].
      rewrite app_nil_r. reflexivity. }
    rewrite L. destruct f as [a b c d e g]. cbn [lf_pattern lf_format lf_leading_digits lf_national_prefix_formatting_rule
      lf_national_prefix_optional_when_formatting lf_domestic_carrier] in *. cbn [or_else]. rewrite ?or_none, flag_bool.
    f_equal.
    + cbn [last_of or_else]. destruct b; cbn [opt_list last_of or_else concat]; rewrite ?app_nil_r; reflexivity.
    + destruct b; cbn [opt_list all_of flat_map app]; now rewrite app_nil_r.
    + destruct d; cbn [or_else]; [reflexivity|]. now apply H1.
    + destruct g; cbn [or_else]; [reflexivity|]. now apply H2.
  - unfold international_template. rewrite !last_of_app. cbn [last_of or_else concat].
    destruct o as [t|].
    + rewrite app_nil_r. destruct (str_eqb t (lit "NA")) eqn:E; [|reflexivity]. apply str_eqb_eq in E. subst t. now elim H3.
    + reflexivity.
Qed.
Lemma write_formats_eq : forall r fs, Forall (format_fits r) fs ->
  national_formats r (map write_format fs) = map fst fs /\ international_formats r (map write_format fs) = intl_formats fs.
Proof.
  intros r fs F. induction F as [|fo fs H F [IH1 IH2]]; [split; reflexivity|]. apply write_number in H. cbn [map].
  split.
  - unfold national_formats. rewrite (all_of_cons _ _ _ (write_format fo)). fold (national_formats r (map write_format fs)).
    rewrite IH1. destruct (write_format fo) as [|kvs items]; [destruct H|]. destruct H as [-> _]. reflexivity.
  - rewrite international_formats_cons, IH2. unfold intl_formats at 2. rewrite (all_of_cons _ _ _ fo).
    fold (intl_formats fs). destruct (write_format fo) as [|kvs items]; [destruct H|]. destruct H as [E1 E2].
    cbn [intl_of]. rewrite E1, E2. destruct (snd fo); reflexivity.
Qed.

Lemma child_app : forall s a b, child s (a ++ b) = or_else (child s b) (child s a).
Proof. intros. apply last_of_app. Qed.
Lemma child_write : forall s t o, (forall d, o = Some d -> lengths_fit d) ->
  child s (write_slot t o) = if same_slot s t then o else None.
Proof.
  intros s t [d|] H; cbn [write_slot opt_list]; [|destruct (same_slot s t); reflexivity].
  unfold child. cbn [last_of]. rewrite write_desc_eq by (now apply H). reflexivity.
Qed.
Lemma child_formats : forall s tag items, child s [TFormats tag items] = None.
Proof. reflexivity. Qed.
Ltac slots := repeat match goal with
  | |- context [same_slot ?a ?b] => let r := eval vm_compute in (same_slot a b) in change (same_slot a b) with r
  end; cbv iota.
Lemma write_slot_ok : forall s o, (forall d, o = Some d -> lengths_fit d) -> Forall terr_item_ok (write_slot s o).
Proof.
  intros s [d|] H; cbn [write_slot opt_list]; [|constructor]. constructor; [|constructor]. cbn [terr_item_ok].
  apply write_desc_ok. now apply H.
Qed.
Lemma formats_child_write : forall s o l, formats_child (write_slot s o ++ l) = formats_child l.
Proof.
  intros s o l. unfold formats_child. rewrite last_of_app. destruct (last_of _ l); [reflexivity|].
  destruct o; reflexivity.
Qed.
Lemma attr_in_skip : forall k k' (o : option str) l, str_eqb k' k = false -> attr_in k (opt_list (pair k') o ++ l) = attr_in k l.
Proof. intros k k' o l H. rewrite attr_in_app, attr_in_opt, H. apply or_none. Qed.
Lemma attr_in_skip_one : forall k k' v l, str_eqb k' k = false -> attr_in k ([(k', v)] ++ l) = attr_in k l.
Proof. intros k k' v l H. rewrite attr_in_app, attr_in_one, H. apply or_none. Qed.
Lemma attr_in_skip_code : forall k o l, str_eqb (lit "countryCode") k = false ->
  attr_in k (opt_list (fun c => (lit "countryCode", dec c)) o ++ l) = attr_in k l.
Proof. intros k o l H. rewrite attr_in_app, attr_in_code, H. apply or_none. Qed.
Lemma attr_in_last : forall k k' (o : option str), str_eqb k' k = false -> attr_in k (opt_list (pair k') o) = None.
Proof. intros k k' o H. now rewrite attr_in_opt, H. Qed.
Ltac find_attr := intros m; unfold write_attrs;
  repeat first [rewrite attr_in_skip by reflexivity | rewrite attr_in_skip_one by reflexivity | rewrite attr_in_skip_code by reflexivity];
  first [rewrite attr_in_opt, str_eqb_refl; reflexivity
        | rewrite attr_in_app; repeat first [rewrite attr_in_skip by reflexivity | rewrite attr_in_skip_one by reflexivity | rewrite attr_in_skip_code by reflexivity];
          rewrite attr_in_last by reflexivity; rewrite ?attr_in_opt, ?attr_in_one, ?attr_in_code; rewrite str_eqb_refl; reflexivity].
Lemma write_attr0 : forall m, attr_in (lit "id") (write_attrs m) = lm_id m.
Proof. find_attr. Qed.
Lemma write_attr1 : forall m, attr_in (lit "internationalPrefix") (write_attrs m) = lm_international_prefix m.
Proof. find_attr. Qed.
Lemma write_attr2 : forall m, attr_in (lit "preferredInternationalPrefix") (write_attrs m) = lm_preferred_international_prefix m.
Proof. find_attr. Qed.
Lemma write_attr3 : forall m, attr_in (lit "nationalPrefix") (write_attrs m) = lm_national_prefix m.
Proof. find_attr. Qed.
Lemma write_attr4 : forall m, attr_in (lit "preferredExtnPrefix") (write_attrs m) = lm_preferred_extension_prefix m.
Proof. find_attr. Qed.
Lemma write_attr5 : forall m, attr_in (lit "nationalPrefixForParsing") (write_attrs m) = lm_national_prefix_for_parsing m.
Proof. find_attr. Qed.
Lemma write_attr6 : forall m, attr_in (lit "nationalPrefixTransformRule") (write_attrs m) = lm_national_prefix_transform_rule m.
Proof. find_attr. Qed.
Lemma write_attr7 : forall m, attr_in (lit "leadingDigits") (write_attrs m) = lm_leading_digits m.
Proof. find_attr. Qed.
Lemma write_attr8 : forall m, attr_in (lit "nationalPrefixFormattingRule") (write_attrs m) = lf_national_prefix_formatting_rule (lm_default_format m).
Proof. find_attr. Qed.
Lemma write_attr9 : forall m, attr_in (lit "carrierCodeFormattingRule") (write_attrs m) = lf_domestic_carrier (lm_default_format m).
Proof. find_attr. Qed.
Lemma write_attr10 : forall m, attr_in (lit "countryCode") (write_attrs m) = option_map dec (lm_country_code m).
Proof. find_attr. Qed.
Lemma write_attr11 : forall m, attr_in (lit "mainCountryForCode") (write_attrs m) = Some (bool_text (lm_main_country_for_code m)).
Proof. find_attr. Qed.
Lemma write_attr12 : forall m, attr_in (lit "mobileNumberPortableRegion") (write_attrs m) = Some (bool_text (lm_mobile_number_portable m)).
Proof. find_attr. Qed.
Lemma write_attr13 : forall m, attr_in (lit "nationalPrefixOptionalWhenFormatting") (write_attrs m) = Some (bool_text (lf_national_prefix_optional_when_formatting (lm_default_format m))).
Proof. find_attr. Qed.
Definition all_fit (m : lmetadata) : Prop := forall d, has_description m d -> lengths_fit d.
Lemma child_skip : forall s t o l, same_slot s t = false -> child s (write_slot t o ++ l) = child s l.
Proof.
  intros s t [d|] l H; cbn [write_slot opt_list app]; [|reflexivity]. rewrite child_cons. unfold child at 2. cbn [last_of].
  rewrite H. apply or_none.
Qed.
Lemma child_here : forall s o l, (forall d, o = Some d -> lengths_fit d) -> child s l = None -> child s (write_slot s o ++ l) = o.
Proof.
  intros s o l H E. rewrite child_app, E. cbn [or_else]. rewrite child_write by exact H.
  unfold same_slot. now rewrite str_eqb_refl.
Qed.
Ltac find_child := intros m fs D; unfold write_children; repeat rewrite child_skip by reflexivity;
  apply child_here; [intros d E; apply D; unfold has_description; rewrite E; cbn [In]; tauto|];
  repeat rewrite child_skip by reflexivity; reflexivity.
Lemma write_childGeneral : forall m fs, all_fit m -> child DGeneral (write_children m fs) = lm_general m.
Proof. find_child. Qed.
Lemma write_childFixedLine : forall m fs, all_fit m -> child DFixedLine (write_children m fs) = lm_fixed_line m.
Proof. find_child. Qed.
Lemma write_childMobile : forall m fs, all_fit m -> child DMobile (write_children m fs) = lm_mobile m.
Proof. find_child. Qed.
Lemma write_childTollFree : forall m fs, all_fit m -> child DTollFree (write_children m fs) = lm_toll_free m.
Proof. find_child. Qed.
Lemma write_childPremiumRate : forall m fs, all_fit m -> child DPremiumRate (write_children m fs) = lm_premium_rate m.
Proof. find_child. Qed.
Lemma write_childSharedCost : forall m fs, all_fit m -> child DSharedCost (write_children m fs) = lm_shared_cost m.
Proof. find_child. Qed.
Lemma write_childPersonalNumber : forall m fs, all_fit m -> child DPersonalNumber (write_children m fs) = lm_personal_number m.
Proof. find_child. Qed.
Lemma write_childVoip : forall m fs, all_fit m -> child DVoip (write_children m fs) = lm_voip m.
Proof. find_child. Qed.
Lemma write_childPager : forall m fs, all_fit m -> child DPager (write_children m fs) = lm_pager m.
Proof. find_child. Qed.
Lemma write_childUan : forall m fs, all_fit m -> child DUan (write_children m fs) = lm_uan m.
Proof. find_child. Qed.
Lemma write_childEmergency : forall m fs, all_fit m -> child DEmergency (write_children m fs) = lm_emergency m.
Proof. find_child. Qed.
Lemma write_childVoicemail : forall m fs, all_fit m -> child DVoicemail (write_children m fs) = lm_voicemail m.
Proof. find_child. Qed.
Lemma write_childNoInternational : forall m fs, all_fit m -> child DNoInternational (write_children m fs) = lm_no_international m.
Proof. find_child. Qed.
Lemma write_entry : forall m fs, expressible m -> lm_formats m = map fst fs -> lm_international_formats m = intl_formats fs ->
  Forall (format_fits (lm_default_format m)) fs ->
  Forall terr_attr_ok (write_attrs m) /\ Forall terr_item_ok (write_children m fs) /\ entry (write_attrs m) (write_children m fs) = m.
Proof.
  intros m fs (S1 & S2 & S3 & S4 & P1 & P2 & P3 & D & C & _) F1 F2 Ff.
  split; [|split].
  - unfold write_attrs. repeat (apply Forall_app; split);
      match goal with
      | |- Forall _ (opt_list (fun c => (_, dec c)) ?o) => destruct o as [c|] eqn:E; [|constructor];
          constructor; [|constructor]; right; left; split; [reflexivity|]; exists c; apply parse_u16_dec; now apply C
      | |- Forall _ (opt_list _ ?o) => destruct o; [|constructor]; constructor; [|constructor]; left; cbn [fst In]; tauto
      | |- Forall _ [_] => constructor; [|constructor]; right; right; split; [cbn [fst In]; tauto|apply bool_text_ok]
      end.
  - unfold write_children. repeat (apply Forall_app; split);
      try (apply write_slot_ok; intros d E; apply D; unfold has_description; rewrite E; cbn [In]; tauto).
    constructor; [|constructor]. cbn [terr_item_ok]. apply Forall_forall. intros i I. apply in_map_iff in I as (fo & <- & _).
    apply write_format_ok.
  - assert (R : rules (write_attrs m) = lm_default_format m).
    { unfold rules. rewrite write_attr8, write_attr9, write_attr13, flag_bool. destruct (lm_default_format m) as [a b c d e g].
      cbn [lf_pattern lf_format lf_leading_digits lf_national_prefix_formatting_rule
        lf_national_prefix_optional_when_formatting lf_domestic_carrier] in *. now rewrite P1, P2, P3. }
    assert (FC : formats_child (write_children m fs) = map write_format fs).
    { unfold write_children. rewrite !formats_child_write. reflexivity. }
    destruct (write_formats_eq _ _ Ff) as [N1 N2].
    unfold entry. rewrite R, FC, N1, N2, <- F1, <- F2.
    rewrite write_childGeneral, write_childFixedLine, write_childMobile, write_childTollFree, write_childPremiumRate, write_childSharedCost, write_childPersonalNumber, write_childVoip, write_childPager, write_childUan, write_childEmergency, write_childVoicemail, write_childNoInternational by exact D.
    rewrite write_attr0, write_attr1, write_attr2, write_attr3, write_attr4, write_attr5, write_attr6, write_attr7, write_attr10, write_attr11, write_attr12, !flag_bool.
    assert (CC : code_of (option_map dec (lm_country_code m)) = lm_country_code m).
    { destruct (lm_country_code m) as [c|] eqn:E; [|reflexivity]. cbn [option_map code_of]. apply parse_u16_dec. now apply C. }
    rewrite CC. destruct m. cbn in S1, S2, S3, S4 |- *. now rewrite S1, S2, S3, S4.
Qed.

Theorem C29_round_trip : forall l, Forall expressible l ->
  exists d, well_formed d /\ entries d = l /\ forall rest, load (render d ++ rest) = Ok l.
Proof.
  intros l F.
  assert (G : exists ts, Forall terrs_item_ok ts /\ terrs_entries ts = l).
  { induction F as [|m l Hm F (ts & W & E)]; [exists []; split; [constructor|reflexivity]|].
    pose proof Hm as (_ & _ & _ & _ & _ & _ & _ & _ & _ & fs & F1 & F2 & Ff).
    destruct (write_entry m fs Hm F1 F2 Ff) as (W1 & W2 & E1).
    exists (UTerritory (write_attrs m) (write_children m fs) :: ts). split; [constructor; [split; assumption|exact W]|].
    unfold terrs_entries. rewrite all_of_cons, E1. fold (terrs_entries ts). now rewrite E. }
  destruct G as (ts & W & E).
  assert (Wd : well_formed [ORoot []; OTerritories [] ts]) by (repeat constructor; exact W).
  assert (Ed : entries [ORoot []; OTerritories [] ts] = l) by (cbn [entries flat_map app]; now rewrite app_nil_r).
  exists [ORoot []; OTerritories [] ts]. split; [exact Wd|]. split; [exact Ed|].
  intros rest. rewrite C29_reads by exact Wd. now rewrite Ed.
Qed.
Print Assumptions C29_round_trip.

(** *** Attributes that are dropped without notice *)
(** Of some elements - those with text content, the number descriptions, the
    lists - the attributes are never looked at.  So an attribute unknown to the
    format does not always make loading fail. *)
Theorem C29_unknown_attribute_refuted : exists d1 d2 : document,
  d1 = [ORoot []; OTerritories [] [UTerritory [(lit "id", lit "XX"); (lit "countryCode", lit "999")]
    [TDesc DGeneral [] [DPattern [Some (lit "unknown", lit "5")] [lit "\d{5}"]]]]] /\
  d2 = [ORoot []; OTerritories [] [UTerritory [(lit "id", lit "XX"); (lit "countryCode", lit "999")]
    [TDesc DGeneral [] [DPattern [] [lit "\d{5}"]]]]] /\
  exists l, load (render d1) = Ok l /\ load (render d2) = Ok l.
Proof.
  eexists. eexists. split; [reflexivity|]. split; [reflexivity|]. eexists. split; vm_compute; reflexivity.
Qed.

(** a document with everything in it, text and comments included *)
Definition ex_doc : document :=
  [ONoise (NText (lit " ")); ODocType; ORoot []; ONoise NComment;
   OTerritories [] [UNoise NComment;
     UTerritory [(lit "id", lit "XX"); (lit "countryCode", lit "999"); (lit "nationalPrefix", lit "0");
                 (lit "nationalPrefixFormattingRule", lit "$NP$FG"); (lit "mainCountryForCode", lit "true")]
      [TSkipped (lit "references") [] [EvStart (lit "sourceUrl") []; EvText (lit "x"); EvEnd (lit "sourceUrl")];
       TDesc DGeneral [] [DNoise NComment; DPattern [] [lit "\d"; lit "{5}"]];
       TFormats [] [SNoise (NText (lit " ")); SNumber [(lit "pattern", lit "(\d{2})(\d{3})")]
           [FLeading [] [lit "1"]; FFormat [] [lit "$1 $2"]];
         SNumber [(lit "pattern", lit "(\d)(\d{4})"); (lit "nationalPrefixFormattingRule", lit "$FG")]
           [FFormat [] [lit "$1-$2"]; FIntl [] [lit "NA"]]];
       TDesc DMobile [] [DPattern [] [lit "7\d{4}"]; DExample [] [lit "71234"];
         DLengths [(lit "national", lit "5,[7-9]"); (lit "localOnly", lit "4")]]]];
   OSkipped (lit "other") [None] [EvEmpty (lit "a") [None]]].
Example C29_ex : well_formed ex_doc /\ load (render ex_doc) = Ok (entries ex_doc)
  /\ map lm_country_code (entries ex_doc) = [Some 999%N]
  /\ map (fun m => option_map ld_possible_length (lm_mobile m)) (entries ex_doc) = [Some [5; 7; 8; 9]%N]
  /\ map (fun m => length (lm_formats m)) (entries ex_doc) = [2] /\ map (fun m => length (lm_international_formats m)) (entries ex_doc) = [1].
Proof.
  assert (W : well_formed ex_doc).
  { Ltac doc_ok := cbn [doc_item_ok terrs_item_ok terr_item_ok desc_item_ok fmts_item_ok];
      match goal with
      | |- Forall _ [] => apply Forall_nil
      | |- Forall _ (_ :: _) => apply Forall_cons
      | |- True => exact I
      | |- terr_attr_ok (lit "countryCode", _) => right; left; split; [reflexivity|exists 999%N; reflexivity]
      | |- terr_attr_ok (lit "mainCountryForCode", _) => right; right; split; [cbn [fst In]; tauto|now left]
      | |- terr_attr_ok _ => left; cbn [fst In]; tauto
      | |- fmt_attr_ok _ => left; cbn [fst In]; tauto
      | |- balanced [] => apply bal_nil
      | |- balanced (EvText _ :: _) => apply bal_text
      | |- balanced (EvEmpty _ _ :: _) => apply bal_empty
      | |- balanced [EvStart ?n ?a; ?x; EvEnd ?n] => apply (bal_elem n a [x] [])
      | |- desc_attr_ok (_, lit "4") => split; [cbn [fst In]; tauto|exists [4]%N; reflexivity]
      | |- desc_attr_ok _ => split; [cbn [fst In]; tauto|exists [5; 7; 8; 9]%N; reflexivity]
      | |- In _ _ => cbn [In]; tauto
      | |- _ <> _ => let E := fresh in intros E; vm_compute in E; discriminate E
      | |- _ /\ _ => split
      end.
    unfold ex_doc, well_formed. repeat doc_ok. }
  split; [exact W|]. split; [|repeat split; reflexivity].
  rewrite <- (app_nil_r (render ex_doc)). now apply C29_reads.
Qed.
Example C29_round_trip_ex : Forall expressible (entries ex_doc).
Proof.
  constructor; [|constructor]. repeat split.
  - intros d I. unfold has_description in I. vm_compute in I.
    repeat (destruct I as [I|I]; [try discriminate I|]); [..|destruct I].
    + injection I as <-. intros n J. destruct J.
    + injection I as <-. intros n J. repeat (destruct J as [<-|J]; [vm_compute; discriminate|]). destruct J.
  - intros c E. vm_compute in E. injection E as <-. vm_compute. discriminate.
  - exists [(mk_lformat (Some (lit "(\d{2})(\d{3})")) (Some (lit "$1 $2")) [lit "1"] (Some (lit "$NP$FG")) false None, Some (lit "$1 $2"));
      (mk_lformat (Some (lit "(\d)(\d{4})")) (Some (lit "$1-$2")) [] (Some (lit "$FG")) false None, None)].
    split; [reflexivity|]. split; [reflexivity|].
    repeat constructor; cbn [fst snd]; try discriminate; intros E; try (vm_compute in E; discriminate E); reflexivity.
Qed.
