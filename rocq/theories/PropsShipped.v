(** * C53: the built-in database is what the shipped document says

    assets/PhoneNumberMetadata.xml, byte for byte: it is UTF-8 text, and
    [Database::parse] of that text gives a database that reads, writes,
    validates and types every number exactly as the built-in one. *)
From Verif Require Import Base Unicode Regex RegexSyntax Consts CountryId Types NationalNumber
  Metadata Database Validator Valid Number Rfc3966 Helper Natural PhoneNumber Parser Formatter Loader
  DefaultDb DefaultDbOk Api Postcard Xml DbText.
From Verif Require Import StrFacts DatabaseFacts PropsLoader PropsXml PropsPostcard PropsSpace PropsDocument Bytes PropsBytes.

(** ** Checking that a pattern is another one with white space put in *)
(** the length of the first part of a pattern *)
Definition first_part (s : str) : option nat :=
  match s with
  | [] => None
  | c :: s1 =>
      if N.eqb c 92 then
        match s1 with
        | [] => None
        | x :: s2 =>
            if mem_char x (lit "pPxuU") then
              match s2 with
              | [] => None
              | b :: s3 => if N.eqb b 123 then
                  match after_brace s3 with Some t => Some (length s - length t) | None => None end
                  else None
              end
            else Some 2
        end
      else if N.eqb c 123 then match after_brace s1 with Some t => Some (length s - length t) | None => None end
      else if N.eqb c 40 then
        match s1 with
        | [] => Some 1
        | b :: s2 => if N.eqb b 63 then
            match s2 with
            | e :: _ => if N.eqb e 58 then Some 3 else None
            | [] => None
            end
            else Some 1
        end
      else if N.eqb c 38 then
        match s1 with [] => Some 1 | b :: _ => if N.eqb b 38 then Some 2 else Some 1 end
      else if is_pattern_ws c || N.eqb c 35 then None
      else Some 1
  end.
Fixpoint spacedb (fuel : nat) (s s' : str) : bool :=
  match fuel with
  | O => false
  | S fuel =>
      let s' := snd (span is_pattern_ws s') in
      match s with
      | [] => match s' with [] => true | _ => false end
      | _ => match first_part s with
             | Some n => if str_eqb (firstn n s) (firstn n s') then spacedb fuel (skipn n s) (skipn n s') else false
             | None => false
             end
      end
  end.
Lemma first_part_ok : forall s n, first_part s = Some n -> part (firstn n s) (skipn n s).
Proof.
  intros s n H. destruct s as [|c s]; [discriminate H|]. unfold first_part in H.
  assert (B : forall a t : str, firstn (length (a ++ t) - length t) (a ++ t) = a /\ skipn (length (a ++ t) - length t) (a ++ t) = t).
  { clear. intros a t. rewrite app_length. replace (length a + length t - length t) with (length a) by lia.
    now rewrite firstn_app, firstn_all, Nat.sub_diag, app_nil_r, skipn_app, skipn_all, Nat.sub_diag. }
  destruct (N.eqb_spec c 92) as [->|Hb].
  { destruct s as [|x s]; [discriminate H|]. destruct (mem_char x (lit "pPxuU")) eqn:M.
    - destruct s as [|b s]; [discriminate H|]. destruct (N.eqb_spec b 123) as [->|Nb]; [|discriminate H].
      destruct (after_brace s) as [t|] eqn:A; [|discriminate H]. apply after_brace_ok in A as (body & Hi & ->).
      injection H as <-. destruct (B (92%N :: x :: 123%N :: body ++ [125%N]) t) as [B1 B2].
      cbn [app] in B1, B2. rewrite <- app_assoc in B1, B2. cbn [app] in B1, B2.
      match goal with |- part ?u ?v => enough (K : u = 92%N :: x :: 123%N :: body ++ [125%N] /\ v = t)
        by (destruct K as [-> ->]; now constructor) end.
      split; [exact B1|exact B2].
    - injection H as <-. cbn [firstn skipn]. constructor. intros I. rewrite (in_mem_char x _ I) in M. discriminate M. }
  destruct (N.eqb_spec c 123) as [->|Hc].
  { destruct (after_brace s) as [t|] eqn:A; [|discriminate H]. apply after_brace_ok in A as (body & Hi & ->).
    injection H as <-. destruct (B (123%N :: body ++ [125%N]) t) as [B1 B2].
    cbn [app] in B1, B2. rewrite <- app_assoc in B1, B2. cbn [app] in B1, B2.
    match goal with |- part ?u ?v => enough (K : u = 123%N :: body ++ [125%N] /\ v = t)
      by (destruct K as [-> ->]; now constructor) end.
    split; [exact B1|exact B2]. }
  destruct (N.eqb_spec c 40) as [->|Hp].
  { destruct s as [|b s]; [injection H as <-; apply part_open, first_not_nil|].
    destruct (N.eqb_spec b 63) as [->|Nb].
    - destruct s as [|e s]; [discriminate H|]. destruct (N.eqb_spec e 58) as [->|]; [|discriminate H].
      injection H as <-. apply part_group.
    - injection H as <-. apply part_open. now apply first_not_other. }
  destruct (N.eqb_spec c 38) as [->|Ha].
  { destruct s as [|b s]; [injection H as <-; apply part_amp, first_not_nil|].
    destruct (N.eqb_spec b 38) as [->|Nb]; injection H as <-.
    - apply part_and.
    - apply part_amp. now apply first_not_other. }
  destruct (is_pattern_ws c) eqn:W; [discriminate H|]. cbn [orb] in H. destruct (N.eqb_spec c 35) as [|Hh]; [discriminate H|].
  injection H as <-. apply part_plain. split; [now apply not_space|]. intros I. cbn in I.
  destruct I as [<-|[<-|[<-|[<-|[<-|[]]]]]]; contradiction.
Qed.
Lemma spaced_skip : forall w s s', spaced s (snd (span is_pattern_ws w)) -> s' = w -> spaced s s'.
Proof.
  intros w s s' H ->. revert H. induction w as [|c w IH]; intros H; [exact H|]. cbn [span] in H.
  destruct (is_pattern_ws c) eqn:E; [|exact H]. destruct (span is_pattern_ws w) as [a b]. cbn [snd] in *.
  apply spaced_space; [now apply space_iff|now apply IH].
Qed.
Lemma spacedb_ok : forall fuel s s', spacedb fuel s s' = true -> spaced s s'.
Proof.
  induction fuel as [|fuel IH]; intros s s' H; [discriminate H|]. cbn [spacedb] in H. cbv zeta in H.
  apply (spaced_skip s'); [|reflexivity]. set (t := snd (span is_pattern_ws s')) in *. clearbody t. destruct s as [|c s].
  - destruct t; [constructor|discriminate H].
  - destruct (first_part (c :: s)) as [n|] eqn:F; [|discriminate H].
    destruct (str_eqb (firstn n (c :: s)) (firstn n t)) eqn:E; [|discriminate H]. apply str_eqb_eq in E.
    apply IH in H. apply first_part_ok in F.
    enough (K : forall u v, u = firstn n (c :: s) ++ skipn n (c :: s) -> v = firstn n (c :: s) ++ skipn n t -> spaced u v).
    { apply K; [symmetry; apply firstn_skipn|]. rewrite E. symmetry. apply firstn_skipn. }
    intros u v -> ->. now apply spaced_part.
Qed.

(** ... and an entry *)
Definition opt2b {A} (f : A -> A -> bool) (a b : option A) : bool :=
  match a, b with Some x, Some y => f x y | None, None => true | _, _ => false end.
Fixpoint list2b {A B} (f : A -> B -> bool) (a : list A) (b : list B) : bool :=
  match a, b with
  | [], [] => true
  | x :: a', y :: b' => if f x y then list2b f a' b' else false
  | _, _ => false
  end.
Definition patternb (s s' : str) : bool := spacedb (S (length s)) s s'.
Definition descb (d d' : ldescriptor) : bool :=
  if opt2b patternb (ld_national_number d) (ld_national_number d') then
  if str_eqb (ld_possible_length d) (ld_possible_length d') then
  if str_eqb (ld_possible_local_length d) (ld_possible_local_length d') then
  opt2b str_eqb (ld_example d) (ld_example d') else false else false else false.
Definition formatb (f f' : lformat) : bool :=
  if opt2b patternb (lf_pattern f) (lf_pattern f') then
  if opt2b str_eqb (lf_format f) (lf_format f') then
  if list2b patternb (lf_leading_digits f) (lf_leading_digits f') then
  if opt2b str_eqb (lf_national_prefix_formatting_rule f) (lf_national_prefix_formatting_rule f') then
  if Bool.eqb (lf_national_prefix_optional_when_formatting f) (lf_national_prefix_optional_when_formatting f') then
  opt2b str_eqb (lf_domestic_carrier f) (lf_domestic_carrier f') else false else false else false else false else false.
Definition entryb (m m' : lmetadata) : bool :=
  if list2b (opt2b descb) (all_descs m) (all_descs m') then
  if list2b (opt2b patternb) [lm_international_prefix m; lm_national_prefix_for_parsing m; lm_leading_digits m]
       [lm_international_prefix m'; lm_national_prefix_for_parsing m'; lm_leading_digits m'] then
  if list2b (opt2b str_eqb) [lm_id m; lm_preferred_international_prefix m; lm_national_prefix m;
       lm_preferred_extension_prefix m; lm_national_prefix_transform_rule m]
       [lm_id m'; lm_preferred_international_prefix m'; lm_national_prefix m';
       lm_preferred_extension_prefix m'; lm_national_prefix_transform_rule m'] then
  if opt2b N.eqb (lm_country_code m) (lm_country_code m') then
  if list2b formatb (lm_formats m) (lm_formats m') then
  if list2b formatb (lm_international_formats m) (lm_international_formats m') then
  if Bool.eqb (lm_main_country_for_code m) (lm_main_country_for_code m') then
  Bool.eqb (lm_mobile_number_portable m) (lm_mobile_number_portable m')
  else false else false else false else false else false else false else false.

Lemma if_true : forall a b : bool, (if a then b else false) = true -> a = true /\ b = true.
Proof. intros [] b H; [auto|discriminate H]. Qed.
Lemma opt2b_ok : forall A (f : A -> A -> bool) (R : A -> A -> Prop) a b, (forall x y, f x y = true -> R x y) ->
  opt2b f a b = true -> spaced_opt R a b.
Proof. intros A f R [x|] [y|] H K; try discriminate K; constructor. now apply H. Qed.
Lemma opt2b_eq : forall A (f : A -> A -> bool) a b, (forall x y, f x y = true -> x = y) -> opt2b f a b = true -> b = a.
Proof. intros A f [x|] [y|] H K; try discriminate K; [|reflexivity]. apply H in K. now subst y. Qed.
Lemma list2b_ok : forall A B (f : A -> B -> bool) (R : A -> B -> Prop) a b, (forall x y, f x y = true -> R x y) ->
  list2b f a b = true -> Forall2 R a b.
Proof.
  intros A B f R. induction a as [|x a IH]; intros [|y b] H K; try discriminate K; [constructor|].
  cbn [list2b] in K. apply if_true in K as [K1 K2]. constructor; [now apply H|now apply IH].
Qed.
Lemma patternb_ok : forall s s', patternb s s' = true -> spaced s s'.
Proof. intros s s'. apply spacedb_ok. Qed.
Lemma descb_ok : forall d d', descb d d' = true -> spaced_desc d d'.
Proof.
  intros d d' H. unfold descb in H. apply if_true in H as [H1 H]. apply if_true in H as [H2 H]. apply if_true in H as [H3 H].
  apply str_eqb_eq in H2, H3. split; [exact (opt2b_ok _ _ _ _ _ patternb_ok H1)| | |]; try (symmetry; assumption).
  exact (opt2b_eq _ _ _ _ (fun x y => proj1 (str_eqb_eq x y)) H).
Qed.
Lemma formatb_ok : forall d d', formatb d d' = true -> spaced_format d d'.
Proof.
  intros d d' H. unfold formatb in H. do 5 (let K := fresh "K" in apply if_true in H as [K H]).
  split.
  - exact (opt2b_ok _ _ _ _ _ patternb_ok K).
  - exact (opt2b_eq _ _ _ _ (fun x y => proj1 (str_eqb_eq x y)) K0).
  - exact (list2b_ok _ _ _ _ _ _ patternb_ok K1).
  - exact (opt2b_eq _ _ _ _ (fun x y => proj1 (str_eqb_eq x y)) K2).
  - symmetry. now apply Bool.eqb_prop.
  - exact (opt2b_eq _ _ _ _ (fun x y => proj1 (str_eqb_eq x y)) H).
Qed.
Lemma entryb_ok : forall m m', entryb m m' = true -> spaced_entry m m'.
Proof.
  intros m m' H. unfold entryb in H. do 7 (let K := fresh "K" in apply if_true in H as [K H]).
  unfold all_descs in K. cbn [list2b] in K, K0, K1.
  repeat match goal with
  | X : (if ?b then ?c else false) = true |- _ => let Y := fresh "Y" in apply if_true in X as [Y X]
  end.
  assert (SE : forall a b, opt2b str_eqb a b = true -> b = a)
    by (intros a b; exact (opt2b_eq _ _ _ _ (fun x y => proj1 (str_eqb_eq x y)))).
  split; try (apply (opt2b_ok _ _ _ _ _ descb_ok); assumption); try (apply (opt2b_ok _ _ _ _ _ patternb_ok); assumption);
    try (apply SE; assumption); try (apply (list2b_ok _ _ _ _ _ _ formatb_ok); assumption);
    try (symmetry; apply Bool.eqb_prop; assumption).
  apply (opt2b_eq _ N.eqb _ _ (fun x y => proj1 (N.eqb_eq x y))). assumption.
Qed.

(** ** Checking the parts of the document *)
Definition root : str := lit "phoneNumberMetadata".
Definition within : xml := mk_xml [lit "territories"; root] (XText []).
Definition encodedb (p : list bstr) : bool := str_eqb (flat_map enc_char (part_text p)) (part_bytes p).
(** the part reads as one territory, which is the given one but for white space;
    it is Unicode text and can be stored *)
Definition is_within (x : xml) : bool :=
  match x_open x, x_at x with
  | [a; b], XText [] => if str_eqb a (lit "territories") then str_eqb b root else false
  | _, _ => false
  end.
Definition territoryb (m : lmetadata) (p : list bstr) : bool :=
  let '(es, x) := xml_run within (part_text p) in
  if is_within x then
    match l_territories (S (S (length es))) [] (es ++ [EvEnd (lit "territories")]) with
    | Ok ([m'], []) => if entryb m m' then if metab m' then forallb eventb es else false else false
    | _ => false
    end
  else false.
Definition head_part : list bstr := hd [] text_parts.
Definition territory_parts : list (list bstr) := removelast (tl text_parts).
Definition tail_part : list bstr := last text_parts [].
Lemma parts_split : text_parts = head_part :: territory_parts ++ [tail_part].
Proof.
  unfold head_part, territory_parts, tail_part.
  assert (G : forall l : list (list bstr), (1 <? length l)%nat = true -> l = hd [] l :: removelast (tl l) ++ [last l []]).
  { intros [|a [|b l]] H; try discriminate H. cbn [hd tl]. f_equal.
    change (last (a :: b :: l) []) with (last (b :: l) []). apply app_removelast_last. discriminate. }
  apply G. vm_compute. reflexivity.
Qed.
Lemma all_encoded : list2b (fun (_ : unit) p => encodedb p) (map (fun _ => tt) text_parts) text_parts = true.
Proof. vm_cast_no_check (eq_refl true). Qed.
Lemma all_territories : list2b territoryb default_entries territory_parts = true.
Proof. vm_cast_no_check (eq_refl true). Qed.

(** what stands before and after the territories *)
Definition blanks (n : nat) : str := repeat 32%N n.
Lemma head_read : xml_run xml_start (part_text head_part) =
  ([EvText (lit " "); EvComment; EvText (nl ++ nl); EvDocType; EvText (nl ++ nl); EvStart root []; EvText (nl ++ blanks 2);
    EvStart (lit "territories") []], within).
Proof. vm_compute. reflexivity. Qed.
Lemma tail_read : xml_run within (part_text tail_part) =
  ([EvText (nl ++ nl ++ blanks 2); EvEnd (lit "territories"); EvText nl; EvEnd root], mk_xml [] (XText nl)).
Proof. vm_compute. reflexivity. Qed.

Lemma is_within_ok : forall x, is_within x = true -> x = within.
Proof.
  intros [o a] H. unfold is_within in H. cbn [x_open x_at] in H.
  destruct o as [|u [|v [|w o]]]; try discriminate H. destruct a as [s| | | | | | | | | | | | |]; try discriminate H.
  destruct s; [|discriminate H]. apply if_true in H as [H1 H2]. apply str_eqb_eq in H1, H2. now subst u v.
Qed.
Lemma territory_read : forall m p, territoryb m p = true -> exists items m',
  xml_run within (part_text p) = (flat_map terrs_item_events items, within) /\ Forall terrs_item_ok items
  /\ terrs_entries items = [m'] /\ spaced_entry m m'
  /\ meta_all (fun s => size_ok (blen s)) (fun _ => True) size_ok m' /\ Forall unicode_event (flat_map terrs_item_events items).
Proof.
  intros m p H. unfold territoryb in H. destruct (xml_run within (part_text p)) as [es x].
  destruct (is_within x) eqn:W; [|discriminate H]. apply is_within_ok in W. subst x.
  destruct (l_territories _ [] _) as [[[|m' [|? ?]] [|? ?]]| |] eqn:L; try discriminate H.
  apply if_true in H as [H H2]. apply if_true in H2 as [H2 H3]. apply entryb_ok in H. apply metab_ok in H2.
  apply (forallb_Forall _ _ _ _ eventb_ok) in H3.
  pose proof (territories_only _ _ _ _ _ L) as (items & F & E). apply app_inj_tail in E as [-> _].
  rewrite territories_reads in L; [|exact F|rewrite app_length; cbn [length]; lia].
  cbn [rev app] in L. exists items, m'. split; [reflexivity|]. split; [exact F|].
  split; [now inversion L|]. split; [exact H|]. split; [exact H2|exact H3].
Qed.
Lemma terrs_entries_app : forall a b, terrs_entries (a ++ b) = terrs_entries a ++ terrs_entries b.
Proof. intros a b. unfold terrs_entries, all_of. apply flat_map_app. Qed.
Lemma territories_read : forall ms ps, list2b territoryb ms ps = true -> exists items,
  xml_run within (concat (map part_text ps)) = (flat_map terrs_item_events items, within)
  /\ Forall terrs_item_ok items /\ spaced_document ms (terrs_entries items)
  /\ Forall (meta_all (fun s => size_ok (blen s)) (fun _ => True) size_ok) (terrs_entries items)
  /\ Forall unicode_event (flat_map terrs_item_events items).
Proof.
  induction ms as [|m ms IH]; intros [|p ps] H; try discriminate H.
  - exists []. repeat split; constructor.
  - cbn [list2b] in H. apply if_true in H as [H1 H2]. apply territory_read in H1 as (i1 & m' & R1 & F1 & E1 & S1 & M1 & U1).
    apply IH in H2 as (i2 & R2 & F2 & S2 & M2 & U2). exists (i1 ++ i2). cbn [map concat]. split; [|split; [|split; [|split]]].
    + rewrite flat_map_app. now apply run_app_eq with (x1 := within).
    + now apply Forall_app.
    + rewrite terrs_entries_app, E1. now constructor.
    + rewrite terrs_entries_app, E1. now constructor.
    + rewrite flat_map_app. now apply Forall_app.
Qed.

(** ** The claims *)
(** The characters below are those the bytes of the file encode. *)
Theorem C53_bytes : flat_map enc_char shipped_text = shipped_bytes.
Proof.
  unfold shipped_text, shipped_bytes. pose proof all_encoded as H. revert H. generalize text_parts as l.
  induction l as [|p l IH]; intros H; [reflexivity|]. cbn [map list2b concat] in *. apply if_true in H as [H1 H2].
  apply str_eqb_eq in H1. rewrite flat_map_app. now rewrite H1, (IH H2).
Qed.
Print Assumptions C53_bytes.

(** The document is loaded as the entries the built-in database is made of, but
    for the white space in their patterns. *)
Lemma shipped_loads : exists l, load_text shipped_text = Ok l /\ spaced_document default_entries l
  /\ (forall e, In e (xml_events shipped_text) -> unicode_event e) /\ in_memory l.
Proof.
  destruct (territories_read _ _ all_territories) as (items & R & F & S & M & U).
  exists (terrs_entries items). enough (K : load_text shipped_text = Ok (terrs_entries items)
    /\ Forall unicode_event (xml_events shipped_text)).
  { destruct K as [K1 K2]. rewrite Forall_forall in K2. split; [exact K1|]. split; [exact S|]. split; [exact K2|].
    split; [exact M|]. apply smallb_ok. assert (N : length default_entries = length (terrs_entries items))
      by (clear -S; induction S; cbn [length]; congruence).
    rewrite <- N. vm_compute. reflexivity. }
  unfold load_text, xml_events, shipped_text.
  rewrite parts_split. cbn [map concat]. rewrite map_app, concat_app. cbn [map concat]. rewrite app_nil_r.
  assert (B : xml_skip_bom (part_text head_part ++ concat (map part_text territory_parts) ++ part_text tail_part)
    = part_text head_part ++ concat (map part_text territory_parts) ++ part_text tail_part).
  { assert (G : forall s t, match s with c :: _ => negb (N.eqb c 65279) | [] => false end = true -> xml_skip_bom (s ++ t) = s ++ t).
    { intros [|c s] t H; [discriminate H|]. cbn [app xml_skip_bom]. apply negb_true_iff in H. now rewrite H. }
    apply G. vm_compute. reflexivity. }
  rewrite B. rewrite (run_app_eq _ _ _ _ _ _ _ head_read (run_app_eq _ _ _ _ _ _ _ R tail_read)).
  split.
  2:{ assert (Q : forall es, forallb eventb es = true -> Forall unicode_event es)
        by (intros es; apply forallb_Forall; exact eventb_ok).
      rewrite !Forall_app. split; [split; [|split; [exact U|]]|]; apply Q; vm_compute; reflexivity. }
  set (d := [ONoise (NText (lit " ")); ONoise NComment; ONoise (NText (nl ++ nl)); ODocType; ONoise (NText (nl ++ nl)); ORoot [];
    ONoise (NText (nl ++ blanks 2)); OTerritories [] (items ++ [UNoise (NText (nl ++ nl ++ blanks 2))]); ONoise (NText nl)]).
  assert (W : well_formed d).
  { unfold d, well_formed. repeat (apply Forall_cons; [try exact I|]); [|apply Forall_nil]. cbn [doc_item_ok].
    apply Forall_app. split; [exact F|repeat constructor]. }
  pose proof (C29_reads d [EvText nl] W) as K.
  assert (E : entries d = terrs_entries items).
  { unfold d, entries. cbn [flat_map app]. rewrite app_nil_r, terrs_entries_app. apply app_nil_r. }
  rewrite E in K. rewrite <- K. f_equal. unfold d, PropsXml.render. cbn [flat_map doc_item_events app noise_event].
  rewrite flat_map_app. cbn [flat_map app terrs_item_events noise_event]. repeat rewrite <- ?app_assoc; cbn [app]. reflexivity.
Qed.
Theorem C53_entries : exists l, load_text shipped_text = Ok l /\ spaced_document default_entries l.
Proof. destruct shipped_loads as (l & L & S & _). exists l. split; [exact L|exact S]. Qed.
Print Assumptions C53_entries.

(** So the library behaves on it as on the built-in database of the other claims... *)
Theorem C53_shipped : exists db, db_parse_text shipped_text = Ok db /\ behaves_alike default_db db /\
  forall p, number_type_with db p = number_type_with default_db p.
Proof.
  destruct C53_entries as (l & L & S). destruct (C50_default l S) as (db & D & B & T).
  exists db. split; [|split; [exact B|exact T]]. unfold db_parse_text. rewrite L. exact D.
Qed.
Print Assumptions C53_shipped.

(** ... and so does [Database::load] on the file itself... *)
Lemma parts_unicode : forall l, unicode (concat (map part_text l)).
Proof.
  induction l as [|p l IH]; [exact unicode_nil|]. cbn [map concat]. apply unicode_app. split; [|exact IH].
  unfold part_text. destruct (dec_utf8 (part_bytes p)) eqn:D; [now apply decoded in D|exact unicode_nil|exact unicode_nil].
Qed.
Lemma file_text : forall s b, unicode s -> flat_map enc_char s = b -> db_load_bytes b = db_parse_text s.
Proof. intros s b U <-. exact (proj2 (C64_text s U)). Qed.
Theorem C53_file : exists db, db_load_bytes shipped_bytes = Ok db /\ db_parse_text shipped_text = Ok db /\ behaves_alike default_db db.
Proof.
  destruct C53_shipped as (db & D & B & _). exists db. split; [|split; [exact D|exact B]].
  rewrite (file_text shipped_text shipped_bytes (parts_unicode text_parts) C53_bytes). exact D.
Qed.
Print Assumptions C53_file.

(** ... and that database is the one the crate decodes at run time from the
    bytes its build script wrote. *)
Lemma embed_text : forall s l db rest, load_text s = Ok l -> (forall e, In e (xml_events s) -> unicode_event e) ->
  in_memory l -> db_from l = Ok db -> embedded_db (to_bytes l ++ rest) = Ok db.
Proof.
  intros s l db rest L U M D. unfold load_text in L. destruct (C30_embedded (xml_events s) l rest L U M) as [_ E].
  apply E. unfold db_parse. rewrite L. exact D.
Qed.
Theorem C53_embedded : exists l db, load_text shipped_text = Ok l /\ db_parse_text shipped_text = Ok db
  /\ forall rest, embedded_db (to_bytes l ++ rest) = Ok db.
Proof.
  destruct shipped_loads as (l & L & S & U & M). destruct (C50_default l S) as (db & D & _).
  exists l, db. split; [exact L|]. split; [unfold db_parse_text; rewrite L; exact D|].
  intros rest. exact (embed_text shipped_text l db rest L U M D).
Qed.
Print Assumptions C53_embedded.

(** The text is the whole file: 981034 bytes, from the copyright notice on. *)
Example C53_ex : fold_left (fun n _ => N.succ n) shipped_bytes 0%N = 981034%N
  /\ firstn 46 (part_text head_part) = lit " <!-- Copyright (C) 2009 The Libphonenumber Au".
Proof. split; vm_compute; reflexivity. Qed.
