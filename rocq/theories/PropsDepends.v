(** * C60: which parts of the metadata a call looks at *)
From Verif Require Import Base Unicode Regex RegexSyntax Consts CountryId Types NationalNumber
  Metadata Database Validator Valid Number Rfc3966 Helper Natural PhoneNumber Parser Formatter Loader
  DefaultDb Api.
From Verif Require Import StrFacts DatabaseFacts ParserFacts FormatFacts PropsPanic PropsTemplate.

(** ** Vocabulary
    Two lists of entries are compared entry by entry. *)
Definition same_place (m m' : metadata) : Prop :=
  md_id m = md_id m' /\ md_country_code m = md_country_code m' /\ md_main_country_for_code m = md_main_country_for_code m'.

(** descriptions with the same pattern and the same possible lengths (local
    lengths and example may differ) *)
Definition same_numbers (d d' : descriptor) : Prop :=
  d_national_number d = d_national_number d' /\ d_possible_length d = d_possible_length d'.
Definition same_option {A} (R : A -> A -> Prop) (o o' : option A) : Prop :=
  match o, o' with Some x, Some y => R x y | None, None => True | _, _ => False end.
(** the ten types a number can have; nothing is said about emergency numbers,
    short codes, standard rate, carrier specific numbers and those that cannot be
    dialled from abroad *)
Definition typed (ds : descriptors) : list (option descriptor) :=
  [ds_fixed_line ds; ds_mobile ds; ds_toll_free ds; ds_premium_rate ds; ds_shared_cost ds; ds_personal_number ds;
   ds_voip ds; ds_pager ds; ds_uan ds; ds_voicemail ds].
Definition same_types (ds ds' : descriptors) : Prop :=
  same_numbers (ds_general ds) (ds_general ds') /\ Forall2 (same_option same_numbers) (typed ds) (typed ds').

(** what validity, type and country depend on *)
Definition same_classification (m m' : metadata) : Prop :=
  same_place m m' /\ md_leading_digits m = md_leading_digits m' /\ same_types (md_descriptors m) (md_descriptors m').
(** what parsing depends on *)
Definition same_reading (m m' : metadata) : Prop :=
  same_classification m m'
  /\ d_possible_local_length (ds_general (md_descriptors m)) = d_possible_local_length (ds_general (md_descriptors m'))
  /\ md_international_prefix m = md_international_prefix m' /\ md_national_prefix m = md_national_prefix m'
  /\ md_national_prefix_for_parsing m = md_national_prefix_for_parsing m'
  /\ md_national_prefix_transform_rule m = md_national_prefix_transform_rule m'.
(** formats that differ in their rules for the national prefix and the carrier code only *)
Definition same_layout (f f' : format) : Prop :=
  f_pattern f = f_pattern f' /\ f_format f = f_format f' /\ f_leading_digits f = f_leading_digits f'.
(** formats that differ in whether the national prefix is optional only *)
Definition same_rules (f f' : format) : Prop :=
  same_layout f f' /\ f_national_prefix f = f_national_prefix f' /\ f_domestic_carrier f = f_domestic_carrier f'.
(** what the text of a number depends on *)
Definition same_rfc (m m' : metadata) : Prop :=
  same_place m m' /\ Forall2 same_layout (formats_of Rfc3966 m) (formats_of Rfc3966 m').
Definition same_international (m m' : metadata) : Prop :=
  same_place m m' /\ Forall2 same_layout (formats_of International m) (formats_of International m')
  /\ md_preferred_extension_prefix m = md_preferred_extension_prefix m'.
Definition same_national (m m' : metadata) : Prop :=
  same_place m m' /\ Forall2 same_rules (md_formats m) (md_formats m')
  /\ md_preferred_extension_prefix m = md_preferred_extension_prefix m' /\ md_national_prefix m = md_national_prefix m'.
Definition same_for (md : mode) : metadata -> metadata -> Prop :=
  match md with E164 => same_place | International => same_international | National => same_national | Rfc3966 => same_rfc end.

(** [db] and [db'] are built from lists of entries that agree, one by one *)
Definition built_alike (R : metadata -> metadata -> Prop) (db db' : database) : Prop :=
  exists entries entries' mds mds', db_from entries = Ok db /\ db_from entries' = Ok db'
    /\ omap_list db_metadata entries = Ok mds /\ omap_list db_metadata entries' = Ok mds' /\ Forall2 R mds mds'.

(** ** Lookups *)
Lemma alike_of : forall R db db', built_alike R db db' -> exists mds mds', db = db_of mds /\ db' = db_of mds' /\ Forall2 R mds mds'.
Proof.
  intros R db db' (en & en' & mds & mds' & H & H' & M & M' & F).
  apply db_from_ok in H as (x & E & ->). apply db_from_ok in H' as (x' & E' & ->).
  exists mds, mds'. rewrite E in M. rewrite E' in M'. injection M as ->. injection M' as ->. auto.
Qed.
Lemma forall2_rev : forall A (R : A -> A -> Prop) l l', Forall2 R l l' -> Forall2 R (rev l) (rev l').
Proof. intros A R l l' H. induction H; cbn; [constructor|]. apply Forall2_app; auto. Qed.
Lemma forall2_filter : forall A (R : A -> A -> Prop) (f : A -> bool) l l', (forall x y, R x y -> f x = f y) ->
  Forall2 R l l' -> Forall2 R (filter f l) (filter f l').
Proof.
  intros A R f l l' K H. induction H; cbn; [constructor|]. rewrite (K _ _ H). destruct (f y); auto.
Qed.
Lemma forall2_find : forall A (R : A -> A -> Prop) (f : A -> bool) l l', (forall x y, R x y -> f x = f y) ->
  Forall2 R l l' -> same_option R (find f l) (find f l').
Proof.
  intros A R f l l' K H. induction H; cbn; [exact I|]. rewrite (K _ _ H). destruct (f y); auto.
Qed.
Section Lookups.
Variable R : metadata -> metadata -> Prop.
Hypothesis place : forall m m', R m m' -> same_place m m'.
Variables mds mds' : list metadata.
Hypothesis alike : Forall2 R mds mds'.
Lemma by_id_alike : forall k, same_option R (by_id (db_of mds) k) (by_id (db_of mds') k).
Proof.
  intros k. rewrite !db_of_by_id. apply forall2_find; [|now apply forall2_rev].
  intros x y H. destruct (place _ _ H) as (E & _). unfold has_id. now rewrite E.
Qed.
Lemma by_code_alike : forall c, same_option (Forall2 R) (by_code (db_of mds) c) (by_code (db_of mds') c).
Proof.
  intros c. rewrite !db_of_by_code.
  assert (F : Forall2 R (code_order (filter (has_code c) mds)) (code_order (filter (has_code c) mds'))).
  { assert (G : Forall2 R (filter (has_code c) mds) (filter (has_code c) mds')).
    { apply forall2_filter; [|exact alike]. intros x y H. destruct (place _ _ H) as (_ & E & _). unfold has_code. now rewrite E. }
    unfold code_order. apply Forall2_app; [apply forall2_rev|]; apply forall2_filter; try exact G;
      intros x y H; destruct (place _ _ H) as (_ & _ & E); unfold is_main; now rewrite E. }
  destruct F; cbn; [exact I|]. now constructor.
Qed.
Lemma region_alike : forall c, region (db_of mds) c = region (db_of mds') c.
Proof.
  intros c. rewrite !db_of_region. pose proof (by_code_alike c) as B.
  destruct (by_code (db_of mds) c) as [l|], (by_code (db_of mds') c) as [l'|]; cbn in B; try contradiction; [|reflexivity].
  cbn. f_equal. induction B; cbn; [reflexivity|]. destruct (place _ _ H) as (E & _). congruence.
Qed.
End Lookups.

(** ** Validity, type and country *)
Lemma match_alike : forall d d' v, same_numbers d d' -> d_is_match d v = d_is_match d' v.
Proof. intros d d' v (E1 & E2). unfold d_is_match. now rewrite E1, E2. Qed.
Lemma omatch_alike : forall o o' v, same_option same_numbers o o' -> od_is_match o v = od_is_match o' v.
Proof. intros [d|] [d'|] v H; cbn in H; try contradiction; [|reflexivity]. now apply match_alike. Qed.
Lemma osrc_alike : forall o o', same_option same_numbers o o' ->
  option_map (fun d => re_src (d_national_number d)) o = option_map (fun d => re_src (d_national_number d)) o'.
Proof. intros [d|] [d'|] H; cbn in H; try contradiction; [|reflexivity]. cbn. now rewrite (proj1 H). Qed.
Lemma type_alike : forall m m' v, same_types (md_descriptors m) (md_descriptors m') -> number_type m v = number_type m' v.
Proof.
  intros m m' v (G & F). unfold typed in F.
  repeat match goal with H : Forall2 _ (_ :: _) (_ :: _) |- _ => inversion_clear H end.
  unfold number_type. cbv zeta. rewrite (match_alike _ _ v G).
  repeat match goal with H : same_option same_numbers ?a ?b |- _ =>
    rewrite ?(omatch_alike a b v H), ?(osrc_alike a b H); clear H end.
  reflexivity.
Qed.
Lemma source_alike : forall mds mds' c v, Forall2 same_classification mds mds' ->
  source_for (db_of mds) c v = source_for (db_of mds') c v.
Proof.
  intros mds mds' c v F. unfold source_for. rewrite (region_alike _ (fun m m' H => proj1 H) mds mds' F c).
  assert (L : forall l, source_loop (db_of mds) v l = source_loop (db_of mds') v l).
  { induction l as [|r l IH]; [reflexivity|]. cbn [source_loop].
    pose proof (by_id_alike _ (fun m m' H => proj1 H) mds mds' F r) as B.
    destruct (by_id (db_of mds) r) as [m|], (by_id (db_of mds') r) as [m'|]; cbn in B; try contradiction; [|reflexivity].
    destruct B as (_ & E & T). cbn [unwrap obind]. rewrite E, (type_alike m m' v T), IH. reflexivity. }
  destruct (region (db_of mds') c) as [[|r [|r' l]]|]; auto.
Qed.
Lemma source_meta_alike : forall (R : metadata -> metadata -> Prop) mds mds' o, (forall m m', R m m' -> same_place m m') -> Forall2 R mds mds' ->
  same_option R (source_meta (db_of mds) o) (source_meta (db_of mds') o).
Proof.
  intros R mds mds' o P F. destruct o as [[i|c]|]; cbn [source_meta]; [now apply by_id_alike| |exact I].
  pose proof (by_code_alike R P mds mds' F c) as B.
  destruct (by_code (db_of mds) c) as [l|], (by_code (db_of mds') c) as [l'|]; cbn in B; try contradiction; [|exact I].
  destruct B; [exact I|exact H].
Qed.

Theorem C60_classification : forall db db' p, built_alike same_classification db db' ->
  is_valid_with db p = is_valid_with db' p /\ number_type_with db p = number_type_with db' p
  /\ country_id_with db p = country_id_with db' p.
Proof.
  intros db db' p H. apply alike_of in H as (mds & mds' & -> & -> & F).
  assert (S : forall c v, source_for (db_of mds) c v = source_for (db_of mds') c v) by (intros; now apply source_alike).
  assert (M : forall o, same_option same_classification (source_meta (db_of mds) o) (source_meta (db_of mds') o))
    by (intros; apply source_meta_alike; [intros m m' H; apply H|exact F]).
  unfold is_valid_with, number_type_with, country_id_with, ph_metadata. cbv zeta. rewrite !S. split; [|split].
  - destruct (source_for _ _ _) as [o|e|]; cbn [obind]; try reflexivity. specialize (M o).
    destruct (source_meta (db_of mds) o) as [m|], (source_meta (db_of mds') o) as [m'|]; cbn in M; try contradiction; [|reflexivity].
    rewrite (type_alike m m') by apply M. reflexivity.
  - destruct (source_for _ _ _) as [o|e|]; cbn [obind]; try reflexivity. specialize (M o).
    destruct (source_meta (db_of mds) o) as [m|], (source_meta (db_of mds') o) as [m'|]; cbn in M; try contradiction; [|reflexivity].
    rewrite (type_alike m m') by apply M. reflexivity.
  - destruct (source_for _ _ _) as [o|e|]; cbn [obind]; try reflexivity. specialize (M o).
    destruct (source_meta (db_of mds) o) as [m|], (source_meta (db_of mds') o) as [m'|]; cbn in M; try contradiction; [|reflexivity].
    destruct M as ((E & _) & _). now rewrite E.
Qed.
Print Assumptions C60_classification.

(** ** Parsing *)
Lemma reading_place : forall m m', same_reading m m' -> same_place m m'.
Proof. intros m m' H. apply H. Qed.
(** what finding the calling code and the entry depends on *)
Definition same_finding (m m' : metadata) : Prop :=
  same_classification m m'
  /\ d_possible_local_length (ds_general (md_descriptors m)) = d_possible_local_length (ds_general (md_descriptors m'))
  /\ md_international_prefix m = md_international_prefix m'.
Lemma reading_finding : forall m m', same_reading m m' -> same_finding m m'.
Proof. intros m m' (C & L & P & _). exact (conj C (conj L P)). Qed.
Lemma general_alike : forall m m' v, same_finding m m' ->
  d_is_match (ds_general (md_descriptors m)) v = d_is_match (ds_general (md_descriptors m')) v.
Proof. intros m m' v H. apply match_alike, H. Qed.
Lemma length_alike : forall m m' v, same_finding m m' -> v_length m v TUnknown = v_length m' v TUnknown.
Proof.
  intros m m' v H. destruct H as ((_ & _ & (_ & E) & _) & L & _). unfold v_length. cbn [ds_get]. now rewrite E, L.
Qed.
Lemma national_alike : forall E m m' n, same_reading m m' -> @national_number E m n = national_number m' n.
Proof.
  intros E m m' n H.
  assert (K : forall v, d_is_match (ds_general (md_descriptors m)) v = d_is_match (ds_general (md_descriptors m')) v)
    by (intros v; apply general_alike, reading_finding, H). destruct H as (H & L & I & N & P & T).
  unfold national_number. rewrite P, T, N. cbv zeta.
  destruct (md_national_prefix_for_parsing m') as [q|]; [|reflexivity]. destruct (re_find q _) as [r|]; [|reflexivity].
  destruct (negb _); [reflexivity|]. rewrite !K. destruct (md_national_prefix_transform_rule m') as [t|]; [|].
  - destruct (option_map cap_text _); [rewrite K; reflexivity|]. destruct (slice_from _ _); cbn [unwrap obind]; [rewrite K|]; reflexivity.
  - destruct (slice_from _ _); cbn [unwrap obind]; [rewrite K|]; reflexivity.
Qed.
Lemma strip_alike : forall o o' n, same_option same_reading o o' -> strip_national o n = strip_national o' n.
Proof.
  intros [m|] [m'|] n H; cbn in H; try contradiction; [|reflexivity]. cbn [strip_national].
  rewrite (national_alike _ m m' n H). destruct (national_number m' n) as [n1|e|]; cbn [obind]; try reflexivity.
  assert (E : md_national_prefix m = md_national_prefix m') by apply H. rewrite E.
  match goal with |- (let* x := ?X in _) = _ => destruct X as [n2|e|]; cbn [obind]; try reflexivity end.
  now rewrite (length_alike m m' _ (reading_finding _ _ H)).
Qed.
Section Find.
Variable R : metadata -> metadata -> Prop.
Hypothesis core : forall m m', R m m' -> same_finding m m'.
Variables mds mds' : list metadata.
Hypothesis alike : Forall2 R mds mds'.
Lemma core_place : forall m m', R m m' -> same_place m m'.
Proof. intros m m' H. apply (core m m' H). Qed.
Lemma code_alike : forall country n, country_code (db_of mds) country n = country_code (db_of mds') country n.
Proof.
  intros country. pose proof core_place as place.
  assert (Bi : forall k, same_option R (by_id (db_of mds) k) (by_id (db_of mds') k))
    by (intros; apply by_id_alike; [exact place|exact alike]).
  assert (Bc : forall c, is_some (by_code (db_of mds) c) = is_some (by_code (db_of mds') c)).
  { intros c. pose proof (by_code_alike _ place mds mds' alike c) as B.
    destruct (by_code (db_of mds) c), (by_code (db_of mds') c); cbn in B; try contradiction; reflexivity. }
  assert (S : forall c v, source_for (db_of mds) c v = source_for (db_of mds') c v).
  { intros c v. apply source_alike. pose proof alike as F. clear - core F. induction F as [|x y l l' H F IH]; constructor; [apply (core _ _ H)|exact IH]. }
  assert (M : forall o, same_option R (source_meta (db_of mds) o) (source_meta (db_of mds') o))
    by (intros; apply source_meta_alike; [exact place|exact alike]).
  assert (FC : forall l n, find_code (db_of mds) n l = find_code (db_of mds') n l).
  { induction l as [|k l IH]; intros n; [reflexivity|]. cbn [find_code]. destruct (slice_to _ _); cbn [unwrap obind]; [|reflexivity].
    destruct (parse_u16 _); cbn [unwrap obind]; [|reflexivity]. rewrite Bc, IH. reflexivity. }
  intros n. unfold country_code. cbv zeta.
    assert (E : match country with
                | Some c => match by_id (db_of mds) (id_name c) with Some m => md_international_prefix m | None => None end
                | None => None end =
                match country with
                | Some c => match by_id (db_of mds') (id_name c) with Some m => md_international_prefix m | None => None end
                | None => None end).
    { destruct country as [c|]; [|reflexivity]. specialize (Bi (id_name c)).
      destruct (by_id (db_of mds) (id_name c)), (by_id (db_of mds') (id_name c)); cbn in Bi; try contradiction; [apply (core _ _ Bi)|reflexivity]. }
    rewrite E. destruct (international_prefix _ n) as [n1|e|]; cbn [obind]; try reflexivity.
    assert (P : forall p, match by_code (db_of mds) p with None => Err InvalidCountryCode | Some _ => Ok n1 end
                        = match by_code (db_of mds') p with None => Err InvalidCountryCode | Some _ => @Ok perr _ n1 end).
    { intros p. specialize (Bc p). destruct (by_code (db_of mds) p), (by_code (db_of mds') p); cbn in Bc; congruence. }
    assert (Q : match pn_prefix n1 with
          | Some p => let* prefix := ok_or (parse_u16 p) MalformedInteger in
              match by_code (db_of mds) prefix with None => Err InvalidCountryCode | Some _ => Ok n1 end
          | None => if starts_with (pn_national n1) [ch_0] then Err InvalidCountryCode
                    else find_code (db_of mds) n1 (seq 1 MAX_LENGTH_FOR_COUNTRY_CODE) end
        = match pn_prefix n1 with
          | Some p => let* prefix := ok_or (parse_u16 p) MalformedInteger in
              match by_code (db_of mds') prefix with None => Err InvalidCountryCode | Some _ => Ok n1 end
          | None => if starts_with (pn_national n1) [ch_0] then Err InvalidCountryCode
                    else find_code (db_of mds') n1 (seq 1 MAX_LENGTH_FOR_COUNTRY_CODE) end).
    { destruct (pn_prefix n1) as [p|]; [|now rewrite FC]. destruct (parse_u16 p); cbn [ok_or obind]; [apply P|reflexivity]. }
    rewrite Q. destruct (pn_country n1); try reflexivity. destruct country as [c|]; [|reflexivity]. specialize (Bi (id_name c)).
    destruct (by_id (db_of mds) (id_name c)) as [m|], (by_id (db_of mds') (id_name c)) as [m'|]; cbn in Bi; try contradiction; [|reflexivity].
    cbn [unwrap obind]. assert (K : md_country_code m = md_country_code m') by apply (place _ _ Bi).
    rewrite K, (general_alike m m' _ (core _ _ Bi)), (length_alike m m' _ (core _ _ Bi)). reflexivity.
Qed.
Lemma select_alike : forall country n, match select_meta (db_of mds) country n, select_meta (db_of mds') country n with
  | Ok a, Ok b => same_option R a b | Err a, Err b => a = b | Panic, Panic => True | _, _ => False end.
Proof.
  intros country. pose proof core_place as place.
  assert (Bi : forall k, same_option R (by_id (db_of mds) k) (by_id (db_of mds') k))
    by (intros; apply by_id_alike; [exact place|exact alike]).
  assert (Bc : forall c, is_some (by_code (db_of mds) c) = is_some (by_code (db_of mds') c)).
  { intros c. pose proof (by_code_alike _ place mds mds' alike c) as B.
    destruct (by_code (db_of mds) c), (by_code (db_of mds') c); cbn in B; try contradiction; reflexivity. }
  assert (S : forall c v, source_for (db_of mds) c v = source_for (db_of mds') c v).
  { intros c v. apply source_alike. pose proof alike as F. clear - core F. induction F as [|x y l l' H F IH]; constructor; [apply (core _ _ H)|exact IH]. }
  assert (M : forall o, same_option R (source_meta (db_of mds) o) (source_meta (db_of mds') o))
    by (intros; apply source_meta_alike; [exact place|exact alike]).
  assert (FC : forall l n, find_code (db_of mds) n l = find_code (db_of mds') n l).
  { induction l as [|k l IH]; intros n; [reflexivity|]. cbn [find_code]. destruct (slice_to _ _); cbn [unwrap obind]; [|reflexivity].
    destruct (parse_u16 _); cbn [unwrap obind]; [|reflexivity]. rewrite Bc, IH. reflexivity. }
  intros n. unfold select_meta.
    assert (G : match (let* code := prefix_value n in let* s0 := source_for (db_of mds) code (trim_start_char ch_0 (pn_national n)) in Ok (source_meta (db_of mds) s0)),
                      (let* code := prefix_value n in let* s0 := source_for (db_of mds') code (trim_start_char ch_0 (pn_national n)) in Ok (source_meta (db_of mds') s0)) with
      | Ok a, Ok b => same_option R a b | Err a, Err b => a = b | Panic, Panic => True | _, _ => False end).
    { destruct (prefix_value n) as [c|e|]; cbn [obind]; auto. rewrite S. destruct (source_for _ _ _) as [o|e|]; cbn [obind]; auto. }
    destruct country as [c|]; [|exact G]. destruct (pn_country n); try exact G. apply Bi.
Qed.
End Find.
Theorem C60_parse : forall db db' country s, built_alike same_reading db db' -> parse_with db country s = parse_with db' country s.
Proof.
  intros db db' country s H. apply alike_of in H as (mds & mds' & -> & -> & F).
  pose proof (code_alike _ reading_finding mds mds' F country) as CC.
  pose proof (select_alike _ reading_finding mds mds' F country) as SM.
  unfold parse_with. destruct (p_phone_number s) as [n|e|]; cbn [obind]; try reflexivity. destruct (negb _); [reflexivity|].
  rewrite CC. destruct (country_code (db_of mds') country n) as [n1|e|]; cbn [obind]; try reflexivity. specialize (SM n1).
  destruct (select_meta (db_of mds) country n1) as [o|e|], (select_meta (db_of mds') country n1) as [o'|e'|]; try contradiction; cbn [obind].
  - now rewrite (strip_alike o o' n1 SM).
  - now rewrite SM.
  - reflexivity.
Qed.
Print Assumptions C60_parse.

(** ** Texts *)
Lemma choose_alike : forall (R : format -> format -> Prop) v l l', (forall f f', R f f' -> same_layout f f') -> Forall2 R l l' ->
  same_option R (choose_format v l) (choose_format v l').
Proof.
  intros R v l l' K F. induction F as [|f f' l l' H F IH]; cbn [choose_format]; [exact I|]. cbv zeta.
  destruct (K _ _ H) as (E1 & _ & E3). rewrite E1, E3.
  destruct (match f_leading_digits f' with [] => true | _ => _ end); [exact H|exact IH].
Qed.
Lemma replace_alike : forall w m m' f f', same_layout f f' -> fmt_replace w m f None None = fmt_replace w m' f' None None.
Proof. intros w m m' f f' (E1 & E2 & _). rewrite !fmt_replace_none, E1, E2. reflexivity. Qed.
Lemma rule_alike : forall w m m' f f' t c, same_layout f f' -> md_national_prefix m = md_national_prefix m' ->
  fmt_replace w m f t c = fmt_replace w m' f' t c.
Proof. intros w m m' f f' t c (E1 & E2 & _) E. unfold fmt_replace. now rewrite E1, E2, E. Qed.
Lemma used_alike : forall (R : format -> format -> Prop) md m m' fo p o o', (forall f, R f f) -> (forall f f', R f f' -> same_layout f f') ->
  Forall2 R (formats_of md m) (formats_of md m') -> format_used md m fo p o -> format_used md m' fo p o' -> same_option R o o'.
Proof.
  intros R md m m' fo p o o' Rf K F H H'. destruct fo as [f|]; cbn [format_used] in *.
  - subst. cbn. apply Rf.
  - apply first_unique in H, H'. subst. now apply choose_alike.
Qed.

Theorem C60_text : forall md db db' fo p, built_alike (same_for md) db db' -> render_with db md fo p = render_with db' md fo p.
Proof.
  intros md db db' fo p H. apply alike_of in H as (mds & mds' & -> & -> & F).
  assert (P : forall m m', same_for md m m' -> same_place m m') by (destruct md; cbn; intros m m' H; try exact H; apply H).
  pose proof (by_code_alike _ P mds mds' F (code_value (ph_code p))) as B.
  destruct (by_code (db_of mds) (code_value (ph_code p))) as [l|] eqn:E, (by_code (db_of mds') (code_value (ph_code p))) as [l'|] eqn:E'; cbn in B; try contradiction.
  2:{ unfold render_with, fmt_display. destruct fo; cbn [fm_with fm_set_mode fmt_format_with fm_database fm_number]; rewrite E, E'; reflexivity. }
  destruct B as [|m m' l l' Hm B].
  { unfold render_with, fmt_display. destruct fo; cbn [fm_with fm_set_mode fmt_format_with fm_database fm_number]; rewrite E, E'; reflexivity. }
  destruct (C41_used md m fo p) as (o & Ho & _). destruct (C41_used md m' fo p) as (o' & Ho' & _).
  rewrite (display_chosen _ md fo p m l o E Ho), (display_chosen _ md fo p m' l' o' E' Ho').
  assert (X : md_preferred_extension_prefix m = md_preferred_extension_prefix m' -> ext_text m p = ext_text m' p)
    by (intros K; unfold ext_text; now rewrite K).
  destruct md; cbn [same_for] in Hm.
  - reflexivity.
  - destruct Hm as (_ & Fl & Ex). pose proof (used_alike same_layout International m m' fo p o o' ltac:(repeat split) ltac:(auto) Fl Ho Ho') as U.
    cbn [frame]. rewrite (X Ex). destruct o as [f|], o' as [f'|]; cbn in U; try contradiction; [|reflexivity].
    now rewrite (replace_alike _ m m' f f' U).
  - destruct Hm as (_ & Fl & Ex & Np).
    pose proof (used_alike same_rules National m m' fo p o o' ltac:(repeat split) ltac:(intros f f' K; apply K) Fl Ho Ho') as U.
    cbn [frame]. rewrite (X Ex). destruct o as [f|], o' as [f'|]; cbn in U; try contradiction; [|reflexivity].
    destruct U as (Ul & Un & Ud). rewrite Un, Ud.
    destruct (ph_carrier p), (f_domestic_carrier f'); try (now rewrite (rule_alike _ m m' f f' _ _ Ul Np));
      (destruct (f_national_prefix f'); now rewrite (rule_alike _ m m' f f' _ _ Ul Np)).
  - destruct Hm as (_ & Fl). pose proof (used_alike same_layout Rfc3966 m m' fo p o o' ltac:(repeat split) ltac:(auto) Fl Ho Ho') as U.
    cbn [frame]. destruct o as [f|], o' as [f'|]; cbn in U; try contradiction; [|reflexivity].
    now rewrite (replace_alike _ m m' f f' U).
Qed.
Print Assumptions C60_text.

(** ** What nobody looks at
    Preferred international prefix, number portability, examples, whether the
    national prefix is optional, local lengths other than those of the general
    description, and the five descriptions left out of [typed]. *)
Definition same_used (m m' : metadata) : Prop :=
  same_reading m m' /\ Forall2 same_rules (md_formats m) (md_formats m')
  /\ Forall2 same_rules (md_international_formats m) (md_international_formats m')
  /\ md_preferred_extension_prefix m = md_preferred_extension_prefix m'.
Lemma alike_weaken : forall (R S : metadata -> metadata -> Prop) db db', (forall m m', R m m' -> S m m') ->
  built_alike R db db' -> built_alike S db db'.
Proof.
  intros R S db db' K (en & en' & mds & mds' & H1 & H2 & H3 & H4 & F). exists en, en', mds, mds'.
  repeat (split; [assumption|]). clear - F K. induction F; constructor; auto.
Qed.
Lemma used_for : forall md m m', same_used m m' -> same_for md m m'.
Proof.
  intros md m m' (R & F & Fi & X). pose proof (reading_place m m' R) as P.
  assert (L : forall l l', Forall2 same_rules l l' -> Forall2 same_layout l l') by (intros l l' H; induction H; constructor; [apply H|assumption]).
  assert (A : Forall2 same_layout (match md_international_formats m with [] => md_formats m | l => l end)
                                  (match md_international_formats m' with [] => md_formats m' | l => l end)).
  { destruct Fi; [now apply L|]. apply L. now constructor. }
  destruct md; cbn [same_for].
  - exact P.
  - split; [exact P|]. split; [exact A|exact X].
  - split; [exact P|]. split; [exact F|]. split; [exact X|]. apply R.
  - split; [exact P|exact A].
Qed.
Theorem C60_unused : forall db db', built_alike same_used db db' ->
  (forall country s, parse_with db country s = parse_with db' country s)
  /\ (forall p, is_valid_with db p = is_valid_with db' p /\ number_type_with db p = number_type_with db' p
        /\ country_id_with db p = country_id_with db' p)
  /\ (forall md fo p, render_with db md fo p = render_with db' md fo p).
Proof.
  intros db db' H. split; [|split].
  - intros country s. apply C60_parse. revert H. apply alike_weaken. intros m m' K. apply K.
  - intros p. apply C60_classification. revert H. apply alike_weaken. intros m m' K. apply K.
  - intros md fo p. apply C60_text. revert H. apply alike_weaken. intros m m'. apply used_for.
Qed.
Print Assumptions C60_unused.

(** ** Instances *)
(** A territory with a format; the second one has different rules, another
    template for texts abroad, an example, emergency numbers and a preferred prefix. *)
Definition territory_with (attrs : list attr) (rule intl : option bstr) (more : list event) : list event :=
  [EvStart (lit "territory") (Some (lit "id", lit "US") :: Some (lit "countryCode", lit "1") :: attrs);
   EvStart (lit "availableFormats") [];
   EvStart (lit "numberFormat") (Some (lit "pattern", lit "(\d{3})(\d{4})")
     :: match rule with Some r => [Some (lit "nationalPrefixFormattingRule", lit r)] | None => [] end);
   EvStart (lit "format") []; EvText (lit "$1 $2"); EvEnd (lit "format")]
  ++ match intl with Some t => [EvStart (lit "intlFormat") []; EvText (lit t); EvEnd (lit "intlFormat")] | None => [] end
  ++ [EvEnd (lit "numberFormat"); EvEnd (lit "availableFormats");
   EvStart (lit "generalDesc") []; EvStart (lit "nationalNumberPattern") []; EvText (lit "\d{7,9}");
   EvEnd (lit "nationalNumberPattern"); EvEnd (lit "generalDesc")]
  ++ more ++ [EvEnd (lit "territory")].
Definition emergency : list event :=
  [EvStart (lit "emergency") []; EvStart (lit "nationalNumberPattern") []; EvText (lit "911");
   EvEnd (lit "nationalNumberPattern"); EvStart (lit "exampleNumber") []; EvText (lit "911"); EvEnd (lit "exampleNumber"); EvEnd (lit "emergency")].
Definition plain_doc : list event := doc [territory_with [Some (lit "nationalPrefix", lit "0")] None None []].
Definition other_doc : list event :=
  doc [territory_with [Some (lit "nationalPrefix", lit "0"); Some (lit "preferredInternationalPrefix", lit "00")]
         (Some "($NP$FG)"%bstr) (Some "$1-$2"%bstr) emergency].
Lemma alike_by : forall R evs evs' en en' mds mds', load evs = Ok en -> load evs' = Ok en' ->
  omap_list db_metadata en = Ok mds -> omap_list db_metadata en' = Ok mds' -> Forall2 R mds mds' ->
  exists db db', db_parse evs = Ok db /\ db_parse evs' = Ok db' /\ built_alike R db db'.
Proof.
  intros R evs evs' en en' mds mds' L L' M M' F. exists (db_of mds), (db_of mds'). unfold db_parse. rewrite L, L'. cbn [obind].
  assert (D : db_from en = Ok (db_of mds)) by (apply db_from_ok; eauto).
  assert (D' : db_from en' = Ok (db_of mds')) by (apply db_from_ok; eauto).
  split; [exact D|]. split; [exact D'|]. exists en, en', mds, mds'. auto.
Qed.
Definition text_of (r : outcome lerr database) (md : mode) (p : phone) : outcome unit str :=
  match r with Ok db => render_with db md None p | _ => Panic end.
Definition some_phone : phone := mk_phone (mk_code 1 SrcPlus) (mk_national 2345678) None None.
Example C60_ex : exists db db', db_parse plain_doc = Ok db /\ db_parse other_doc = Ok db' /\ built_alike same_reading db db'
  /\ (forall country s, parse_with db country s = parse_with db' country s)
  /\ render_with db National None some_phone = Ok (lit "234 5678")
  /\ render_with db' National None some_phone = Ok (lit "(0234) 5678")
  /\ render_with db International None some_phone = Ok (lit "+1 234 5678")
  /\ render_with db' International None some_phone = Ok (lit "+1 234-5678").
Proof.
  edestruct (alike_by same_reading plain_doc other_doc) as (db & db' & H & H' & A); [vm_compute; reflexivity..| |].
  - repeat constructor.
  - exists db, db'. split; [exact H|]. split; [exact H'|]. split; [exact A|]. split; [intros; now apply C60_parse|].
    assert (T : forall md, render_with db md None some_phone = text_of (db_parse plain_doc) md some_phone) by (intros; now rewrite H).
    assert (T' : forall md, render_with db' md None some_phone = text_of (db_parse other_doc) md some_phone) by (intros; now rewrite H').
    rewrite !T, !T'. vm_compute. auto.
Qed.

(** The parts that are named do count: each pair of documents differs in one of them. *)
Definition with_attrs (attrs : list attr) : list event := doc [doc_territory "US" "1" attrs; doc_territory "FR" "33" []].
Definition shared (attrs attrs' : list attr) : list event := doc [doc_territory "US" "1" attrs; doc_territory "CA" "1" attrs'].
Definition digits_read (evs : list event) (s : bstr) : option N :=
  match db_parse evs with
  | Ok db => match parse_with db (Some ID_US) (lit s) with Ok p => Some (nn_value (ph_national p)) | _ => None end
  | _ => None
  end.
Arguments digits_read evs s%bstr.
Definition country_seen (evs : list event) : option (option id) :=
  match db_parse evs with
  | Ok db => match country_id_with db some_phone with Ok i => Some i | _ => None end
  | _ => None
  end.
Example C60_parts :
  (digits_read (with_attrs [Some (lit "internationalPrefix", lit "00")]) "0033123456789" = Some 123456789%N
   /\ digits_read (with_attrs [Some (lit "internationalPrefix", lit "011")]) "0033123456789" = Some 33123456789%N)
  /\ (digits_read (with_attrs [Some (lit "nationalPrefix", lit "8")]) "82345678" = Some 2345678%N
   /\ digits_read (with_attrs [Some (lit "nationalPrefix", lit "9")]) "82345678" = Some 82345678%N)
  /\ (digits_read (with_attrs [Some (lit "nationalPrefixForParsing", lit "8(\d)")]) "82345678" = Some 345678%N
   /\ digits_read (with_attrs [Some (lit "nationalPrefixForParsing", lit "8(\d\d)")]) "82345678" = Some 45678%N)
  /\ (digits_read (with_attrs [Some (lit "nationalPrefixForParsing", lit "8(\d)"); Some (lit "nationalPrefixTransformRule", lit "7$1")]) "82345678" = Some 72345678%N
   /\ digits_read (with_attrs [Some (lit "nationalPrefixForParsing", lit "8(\d)"); Some (lit "nationalPrefixTransformRule", lit "6$1")]) "82345678" = Some 62345678%N)
  /\ (country_seen (shared [] [Some (lit "leadingDigits", lit "2")]) = Some (Some ID_CA)
   /\ country_seen (shared [] [Some (lit "leadingDigits", lit "3")]) = Some None)
  /\ (country_seen (shared [Some (lit "leadingDigits", lit "2")] [Some (lit "leadingDigits", lit "2")]) = Some (Some ID_US)
   /\ country_seen (shared [Some (lit "leadingDigits", lit "2")] [Some (lit "leadingDigits", lit "2"); Some (lit "mainCountryForCode", lit "true")]) = Some (Some ID_CA)).
Proof. vm_compute. repeat split. Qed.
