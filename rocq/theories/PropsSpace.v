(** * C50: white space in the patterns of a metadata document does not matter

    The patterns of the shipped document are broken over many indented lines.
    Whatever white space (and whatever comments) a document puts between the
    parts of its patterns: it loads with the same result, every text is read
    as the same number, every number is written in the same way, and has the
    same validity and country.  The number type is the same too - with one
    exception, because the code compares the fixed-line pattern with the mobile
    one as texts: two documents that differ in white space only may disagree
    whether a number is "fixed line" or "fixed line or mobile".  In the built-in
    metadata that cannot happen. *)
From Verif Require Import Base Unicode Regex RegexSyntax Consts CountryId Types NationalNumber
  Metadata Database Validator Valid Number Rfc3966 Helper Natural PhoneNumber Parser Formatter Loader
  DefaultDb DefaultDbOk Api.
From Verif Require Import StrFacts DatabaseFacts PropsValid.

(** ** Vocabulary *)
(** blanks, tabs, line ends and the like *)
Definition space (c : char) : Prop := In c [9; 10; 11; 12; 13; 32; 133; 8206; 8207; 8232; 8233]%N.
(** characters that mean the same whatever comes next *)
Definition plain (c : char) : Prop := ~ space c /\ ~ In c (lit "\(&{#").
Definition inner (s : str) : Prop := forall c, In c s -> ~ space c /\ ~ In c (lit "\#}").
Definition first_not (x : char) (s : str) : Prop := forall s', s <> x :: s'.

(** Parts of a pattern that white space must not tear apart: [\d], [\p{Nd}],
    [(?:], [&&], [{3,4}]. *)
Inductive part : str -> str -> Prop :=    (* the part, what follows *)
| part_plain : forall c s, plain c -> part [c] s
| part_escape : forall c s, ~ In c (lit "pPxuU") -> part [92%N; c] s
| part_named : forall c body s, inner body -> part (92%N :: c :: 123%N :: body ++ [125%N]) s
| part_count : forall body s, inner body -> part (123%N :: body ++ [125%N]) s
| part_open : forall s, first_not 63%N s -> part (lit "(") s
| part_group : forall s, part (lit "(?:") s
| part_amp : forall s, first_not 38%N s -> part (lit "&") s
| part_and : forall s, part (lit "&&") s.

(** [spaced s s']: [s'] is the pattern [s] with white space and comments put
    between its parts. *)
Inductive spaced : str -> str -> Prop :=
| spaced_end : spaced [] []
| spaced_part : forall p s s', part p s -> spaced s s' -> spaced (p ++ s) (p ++ s')
| spaced_space : forall w s s', space w -> spaced s s' -> spaced s (w :: s')
| spaced_comment : forall text s s', ~ In 10%N text -> spaced s s' ->
    spaced s (lit "#" ++ text ++ 10%N :: s').

(** The same entry, with white space put into its patterns. *)
Inductive spaced_opt {A} (R : A -> A -> Prop) : option A -> option A -> Prop :=
| so_none : spaced_opt R None None
| so_some : forall a a', R a a' -> spaced_opt R (Some a) (Some a').
Record spaced_desc (d d' : ldescriptor) : Prop := mk_spaced_desc {
  sd_pattern : spaced_opt spaced (ld_national_number d) (ld_national_number d');
  sd_lengths : ld_possible_length d' = ld_possible_length d;
  sd_local : ld_possible_local_length d' = ld_possible_local_length d;
  sd_example : ld_example d' = ld_example d }.
Record spaced_format (f f' : lformat) : Prop := mk_spaced_format {
  sf_pattern : spaced_opt spaced (lf_pattern f) (lf_pattern f');
  sf_format : lf_format f' = lf_format f;
  sf_leading : Forall2 spaced (lf_leading_digits f) (lf_leading_digits f');
  sf_rule : lf_national_prefix_formatting_rule f' = lf_national_prefix_formatting_rule f;
  sf_optional : lf_national_prefix_optional_when_formatting f' = lf_national_prefix_optional_when_formatting f;
  sf_carrier : lf_domestic_carrier f' = lf_domestic_carrier f }.
Record spaced_entry (m m' : lmetadata) : Prop := mk_spaced_entry {
  se_general : spaced_opt spaced_desc (lm_general m) (lm_general m');
  se_fixed_line : spaced_opt spaced_desc (lm_fixed_line m) (lm_fixed_line m');
  se_mobile : spaced_opt spaced_desc (lm_mobile m) (lm_mobile m');
  se_toll_free : spaced_opt spaced_desc (lm_toll_free m) (lm_toll_free m');
  se_premium_rate : spaced_opt spaced_desc (lm_premium_rate m) (lm_premium_rate m');
  se_shared_cost : spaced_opt spaced_desc (lm_shared_cost m) (lm_shared_cost m');
  se_personal_number : spaced_opt spaced_desc (lm_personal_number m) (lm_personal_number m');
  se_voip : spaced_opt spaced_desc (lm_voip m) (lm_voip m');
  se_pager : spaced_opt spaced_desc (lm_pager m) (lm_pager m');
  se_uan : spaced_opt spaced_desc (lm_uan m) (lm_uan m');
  se_emergency : spaced_opt spaced_desc (lm_emergency m) (lm_emergency m');
  se_voicemail : spaced_opt spaced_desc (lm_voicemail m) (lm_voicemail m');
  se_short_code : spaced_opt spaced_desc (lm_short_code m) (lm_short_code m');
  se_standard_rate : spaced_opt spaced_desc (lm_standard_rate m) (lm_standard_rate m');
  se_carrier : spaced_opt spaced_desc (lm_carrier m) (lm_carrier m');
  se_no_international : spaced_opt spaced_desc (lm_no_international m) (lm_no_international m');
  se_id : lm_id m' = lm_id m;
  se_code : lm_country_code m' = lm_country_code m;
  se_international_prefix : spaced_opt spaced (lm_international_prefix m) (lm_international_prefix m');
  se_preferred_international_prefix :
    lm_preferred_international_prefix m' = lm_preferred_international_prefix m;
  se_national_prefix : lm_national_prefix m' = lm_national_prefix m;
  se_extension_prefix : lm_preferred_extension_prefix m' = lm_preferred_extension_prefix m;
  se_parsing : spaced_opt spaced (lm_national_prefix_for_parsing m) (lm_national_prefix_for_parsing m');
  se_transform : lm_national_prefix_transform_rule m' = lm_national_prefix_transform_rule m;
  se_formats : Forall2 spaced_format (lm_formats m) (lm_formats m');
  se_international_formats :
    Forall2 spaced_format (lm_international_formats m) (lm_international_formats m');
  se_main : lm_main_country_for_code m' = lm_main_country_for_code m;
  se_leading : spaced_opt spaced (lm_leading_digits m) (lm_leading_digits m');
  se_portable : lm_mobile_number_portable m' = lm_mobile_number_portable m }.
Definition spaced_document (l l' : list lmetadata) : Prop := Forall2 spaced_entry l l'.

(** ** Reading a pattern *)
Lemma space_iff : forall c, is_pattern_ws c = true <-> space c.
Proof.
  intros c. unfold is_pattern_ws, space, in_range. cbn [In]. rewrite !orb_true_iff, !andb_true_iff, !N.leb_le, !N.eqb_eq. lia.
Qed.
Lemma space_false : forall c, ~ space c -> is_pattern_ws c = false.
Proof. intros c H. destruct (is_pattern_ws c) eqn:E; [now elim H; apply space_iff|reflexivity]. Qed.
Lemma strip_ordinary : forall c s, ~ space c -> c <> 92%N -> c <> 35%N -> strip_ws (c :: s) = c :: strip_ws s.
Proof.
  intros c s H1 H2 H3. cbn [strip_ws]. rewrite (proj2 (N.eqb_neq c 92) H2), (space_false c H1), (proj2 (N.eqb_neq c 35) H3).
  reflexivity.
Qed.
Lemma strip_escape : forall c s, strip_ws (92%N :: c :: s) = 92%N :: c :: strip_ws s.
Proof. reflexivity. Qed.
Lemma strip_inner : forall b s, inner b -> strip_ws (b ++ s) = b ++ strip_ws s.
Proof.
  induction b as [|c b IH]; intros s H; [reflexivity|]. cbn [app]. destruct (H c (or_introl eq_refl)) as [Hs Hn].
  rewrite strip_ordinary; [rewrite IH; [reflexivity|intros x I; apply H; now right]|exact Hs|
    intros ->; apply Hn; cbn; tauto|intros ->; apply Hn; cbn; tauto].
Qed.
Lemma not_space : forall c, is_pattern_ws c = false -> ~ space c.
Proof. intros c H K. apply space_iff in K. congruence. Qed.
Lemma strip_part : forall p s t, part p s -> strip_ws (p ++ t) = p ++ strip_ws t.
Proof.
  intros p s t H. destruct H as [c s [H1 H2]|c s _|c body s H|body s H|s _|s|s _|s].
  - cbn [app]. apply strip_ordinary; [exact H1| |]; intros ->; apply H2; cbn; tauto.
  - reflexivity.
  - cbn [app]. rewrite strip_escape, (strip_ordinary 123%N) by (discriminate || now apply not_space).
    rewrite <- !app_assoc, strip_inner by exact H. cbn [app].
    rewrite (strip_ordinary 125%N) by (discriminate || now apply not_space). reflexivity.
  - cbn [app]. rewrite (strip_ordinary 123%N) by (discriminate || now apply not_space).
    rewrite <- !app_assoc, strip_inner by exact H. cbn [app].
    rewrite (strip_ordinary 125%N) by (discriminate || now apply not_space). reflexivity.
  - reflexivity.
  - reflexivity.
  - reflexivity.
  - reflexivity.
Qed.
Lemma strip_space : forall w s, space w -> strip_ws (w :: s) = strip_ws s.
Proof.
  intros w s H. cbn [strip_ws]. rewrite (proj2 (space_iff w) H).
  replace (N.eqb w 92) with false; [reflexivity|]. symmetry. apply N.eqb_neq. intros ->. unfold space in H. cbn in H. lia.
Qed.
Lemma strip_comment : forall text s, ~ In 10%N text -> strip_ws (35%N :: text ++ 10%N :: s) = strip_ws s.
Proof.
  intros text s. cbn [strip_ws]. replace (N.eqb 35 92) with false by reflexivity.
  replace (is_pattern_ws 35%N) with false by reflexivity. replace (N.eqb 35 35) with true by reflexivity. cbv iota.
  induction text as [|c text IH]; intros H; [reflexivity|]. cbn [app].
  destruct (N.eqb_spec c 10) as [->|]; [elim H; now left|]. apply IH. intros I. apply H. now right.
Qed.
Lemma spaced_strip : forall s s', spaced s s' -> strip_ws s' = strip_ws s.
Proof.
  induction 1 as [|p s s' P H IH|w s s' W H IH|text s s' T H IH]; [reflexivity| | |].
  - rewrite !(strip_part p s) by exact P. now rewrite IH.
  - now rewrite strip_space.
  - change (lit "#" ++ text ++ 10%N :: s') with (35%N :: text ++ 10%N :: s'). now rewrite strip_comment.
Qed.

Lemma spaced_clean : forall s s', spaced s s' -> strip_ws s = s.
Proof.
  induction 1 as [|p s s' P H IH|w s s' W H IH|text s s' T H IH]; [reflexivity| |exact IH|exact IH].
  rewrite (strip_part p s) by exact P. now rewrite IH.
Qed.

(** ** Forgetting how the patterns were written *)
Definition bare_re (r : regex) : regex := mk_regex (strip_ws (re_src r)) (re_ast r) (re_ngroups r).
Definition bare_desc (d : descriptor) : descriptor :=
  mk_descriptor (bare_re (d_national_number d)) (d_possible_length d) (d_possible_local_length d) (d_example d).
Definition bare_format (f : format) : format :=
  mk_format (bare_re (f_pattern f)) (f_format f) (map bare_re (f_leading_digits f)) (f_national_prefix f)
    (f_national_prefix_optional f) (f_domestic_carrier f).
Definition bare_ds (d : descriptors) : descriptors :=
  mk_descriptors (bare_desc (ds_general d)) (option_map bare_desc (ds_fixed_line d)) (option_map bare_desc (ds_mobile d))
    (option_map bare_desc (ds_toll_free d)) (option_map bare_desc (ds_premium_rate d))
    (option_map bare_desc (ds_shared_cost d)) (option_map bare_desc (ds_personal_number d))
    (option_map bare_desc (ds_voip d)) (option_map bare_desc (ds_pager d)) (option_map bare_desc (ds_uan d))
    (option_map bare_desc (ds_emergency d)) (option_map bare_desc (ds_voicemail d))
    (option_map bare_desc (ds_short_code d)) (option_map bare_desc (ds_standard_rate d))
    (option_map bare_desc (ds_carrier d)) (option_map bare_desc (ds_no_international d)).
Definition bare_md (m : metadata) : metadata :=
  mk_metadata (bare_ds (md_descriptors m)) (md_id m) (md_country_code m)
    (option_map bare_re (md_international_prefix m)) (md_preferred_international_prefix m) (md_national_prefix m)
    (md_preferred_extension_prefix m) (option_map bare_re (md_national_prefix_for_parsing m))
    (md_national_prefix_transform_rule m) (map bare_format (md_formats m)) (map bare_format (md_international_formats m))
    (md_main_country_for_code m) (option_map bare_re (md_leading_digits m)) (md_mobile_number_portable m).
Definition bare_db (db : database) : database :=
  mk_database (map (fun x => (fst x, bare_md (snd x))) (db_by_id db))
    (map (fun x => (fst x, map bare_md (snd x))) (db_by_code db)) (db_regions db).

(** ** Loading gives the same up to the written form *)
Definition omap {E A B} (f : A -> B) (x : outcome E A) : outcome E B :=
  match x with Ok a => Ok (f a) | Err e => Err e | Panic => Panic end.
Lemma bind_alike : forall E A B C D (f : A -> C) (g : B -> D) (x x' : outcome E A) (k k' : A -> outcome E B),
  omap f x' = omap f x -> (forall y y', f y' = f y -> omap g (k' y') = omap g (k y)) ->
  omap g (obind x' k') = omap g (obind x k).
Proof.
  intros E A B C D f g x x' k k' H K. destruct x, x'; cbn in *; try discriminate; try (now rewrite ?H); [|congruence].
  apply K. congruence.
Qed.
Lemma bind_same : forall E A B D (g : B -> D) (x x' : outcome E A) (k k' : A -> outcome E B),
  x' = x -> (forall y, omap g (k' y) = omap g (k y)) -> omap g (obind x' k') = omap g (obind x k).
Proof. intros E A B D g x x' k k' -> H. destruct x; cbn; auto. Qed.

Lemma alike_regex : forall s s', spaced s s' -> omap bare_re (db_regex s') = omap bare_re (db_regex s).
Proof.
  intros s s' H. unfold db_regex, regex_build. cbv zeta iota. rewrite (spaced_strip s s' H).
  destruct (p_re _ 0 1 None None (strip_ws s)) as [[[r ng] rest]|]; [|reflexivity].
  unfold ok_or, omap, bare_re. cbn [re_src re_ast re_ngroups]. now rewrite (spaced_strip s s' H).
Qed.
Lemma alike_opt : forall A B C (R : A -> A -> Prop) (f : A -> outcome lerr B) (g : B -> C) o o',
  (forall a a', R a a' -> omap g (f a') = omap g (f a)) -> spaced_opt R o o' ->
  omap (option_map g) (omap_opt f o') = omap (option_map g) (omap_opt f o).
Proof.
  intros A B C R f g o o' H K. destruct K as [|a a' K]; [reflexivity|]. cbn [omap_opt].
  eapply bind_alike; [apply H; exact K|]. intros y y' E. cbn. now rewrite E.
Qed.
Lemma alike_list : forall A B C (R : A -> A -> Prop) (f : A -> outcome lerr B) (g : B -> C) l l',
  (forall a a', R a a' -> omap g (f a') = omap g (f a)) -> Forall2 R l l' ->
  omap (map g) (omap_list f l') = omap (map g) (omap_list f l).
Proof.
  intros A B C R f g l l' H K. induction K as [|a a' l l' K _ IH]; [reflexivity|]. cbn [omap_list].
  eapply bind_alike; [apply H; exact K|]. intros y y' E1. eapply bind_alike; [exact IH|]. intros z z' E2. cbn. now rewrite E1, E2.
Qed.
Lemma alike_desc : forall d d', spaced_desc d d' -> omap bare_desc (db_descriptor d') = omap bare_desc (db_descriptor d).
Proof.
  intros d d' [H1 H2 H3 H4]. unfold db_descriptor. rewrite H2, H3, H4. destruct H1 as [|a a' H]; [reflexivity|]. cbn [unwrap ok_or obind].
  eapply bind_alike; [now apply alike_regex|]. intros y y' E. cbn [omap]. unfold bare_desc. cbn. now rewrite E.
Qed.
Lemma alike_format : forall f f', spaced_format f f' -> omap bare_format (db_format f') = omap bare_format (db_format f).
Proof.
  intros f f' [H1 H2 H3 H4 H5 H6]. unfold db_format. rewrite H2, H4, H5, H6. destruct H1 as [|a a' H]; [reflexivity|]. cbn [ok_or obind].
  eapply bind_alike; [now apply alike_regex|]. intros y y' E. apply bind_same; [reflexivity|]. intros fmt.
  eapply bind_alike; [eapply alike_list; [exact alike_regex|exact H3]|]. intros z z' E2.
  cbn [omap]. unfold bare_format. cbn. now rewrite E, E2.
Qed.
Lemma alike_entry : forall m m', spaced_entry m m' -> omap bare_md (db_metadata m') = omap bare_md (db_metadata m).
Proof.
  intros m m' H. unfold db_metadata.
  rewrite (se_id _ _ H), (se_code _ _ H), (se_preferred_international_prefix _ _ H), (se_national_prefix _ _ H),
    (se_extension_prefix _ _ H), (se_transform _ _ H), (se_main _ _ H), (se_portable _ _ H).
  destruct (se_general _ _ H) as [|g g' Hg]; [reflexivity|]. cbn [ok_or obind].
  eapply bind_alike; [now apply alike_desc|]; intros g0 g0' E0.
  eapply bind_alike; [eapply alike_opt; [exact alike_desc|exact (se_fixed_line _ _ H)]|]; intros x1 y1 E1.
  eapply bind_alike; [eapply alike_opt; [exact alike_desc|exact (se_mobile _ _ H)]|]; intros x2 y2 E2.
  eapply bind_alike; [eapply alike_opt; [exact alike_desc|exact (se_toll_free _ _ H)]|]; intros x3 y3 E3.
  eapply bind_alike; [eapply alike_opt; [exact alike_desc|exact (se_premium_rate _ _ H)]|]; intros x4 y4 E4.
  eapply bind_alike; [eapply alike_opt; [exact alike_desc|exact (se_shared_cost _ _ H)]|]; intros x5 y5 E5.
  eapply bind_alike; [eapply alike_opt; [exact alike_desc|exact (se_personal_number _ _ H)]|]; intros x6 y6 E6.
  eapply bind_alike; [eapply alike_opt; [exact alike_desc|exact (se_voip _ _ H)]|]; intros x7 y7 E7.
  eapply bind_alike; [eapply alike_opt; [exact alike_desc|exact (se_pager _ _ H)]|]; intros x8 y8 E8.
  eapply bind_alike; [eapply alike_opt; [exact alike_desc|exact (se_uan _ _ H)]|]; intros x9 y9 E9.
  eapply bind_alike; [eapply alike_opt; [exact alike_desc|exact (se_emergency _ _ H)]|]; intros x10 y10 E10.
  eapply bind_alike; [eapply alike_opt; [exact alike_desc|exact (se_voicemail _ _ H)]|]; intros x11 y11 E11.
  eapply bind_alike; [eapply alike_opt; [exact alike_desc|exact (se_short_code _ _ H)]|]; intros x12 y12 E12.
  eapply bind_alike; [eapply alike_opt; [exact alike_desc|exact (se_standard_rate _ _ H)]|]; intros x13 y13 E13.
  eapply bind_alike; [eapply alike_opt; [exact alike_desc|exact (se_carrier _ _ H)]|]; intros x14 y14 E14.
  eapply bind_alike; [eapply alike_opt; [exact alike_desc|exact (se_no_international _ _ H)]|]; intros x15 y15 E15.
  apply bind_same; [reflexivity|]; intros i. apply bind_same; [reflexivity|]; intros cc.
  eapply bind_alike; [eapply alike_opt; [exact alike_regex|exact (se_international_prefix _ _ H)]|]; intros x16 y16 E16.
  eapply bind_alike; [eapply alike_opt; [exact alike_regex|exact (se_parsing _ _ H)]|]; intros x17 y17 E17.
  eapply bind_alike; [eapply alike_list; [exact alike_format|exact (se_formats _ _ H)]|]; intros x18 y18 E18.
  eapply bind_alike; [eapply alike_list; [exact alike_format|exact (se_international_formats _ _ H)]|]; intros x19 y19 E19.
  eapply bind_alike; [eapply alike_opt; [exact alike_regex|exact (se_leading _ _ H)]|]; intros x20 y20 E20.
  cbn [omap]. unfold bare_md, bare_ds. cbn.
  rewrite E0, E1, E2, E3, E4, E5, E6, E7, E8, E9, E10, E11, E12, E13, E14, E15, E16, E17, E18, E19, E20. reflexivity.
Qed.

Lemma bare_sinsert : forall l k m,
  map (fun x => (fst x, bare_md (snd x))) (sinsert l k m) = sinsert (map (fun x => (fst x, bare_md (snd x))) l) k (bare_md m).
Proof.
  induction l as [|[k' v] l IH]; intros k m; [reflexivity|]. cbn [sinsert map fst snd].
  destruct (str_eqb k' k); [reflexivity|]. cbn [map fst snd]. now rewrite IH.
Qed.
Lemma bare_nupdate : forall l k (f g : list metadata -> list metadata), (forall x, map bare_md (f x) = g (map bare_md x)) ->
  map (fun x => (fst x, map bare_md (snd x))) (nupdate l k f)
  = nupdate (map (fun x => (fst x, map bare_md (snd x))) l) k g.
Proof.
  intros l k f g H. induction l as [|[k' v] l IH]; cbn [nupdate map fst snd].
  - now rewrite H.
  - destruct (N.eqb k' k); cbn [map fst snd]; [now rewrite H|now rewrite IH].
Qed.
Lemma bare_insert : forall db m, bare_db (db_insert db m) = db_insert (bare_db db) (bare_md m).
Proof.
  intros db m. unfold db_insert, bare_db. cbn [db_by_id db_by_code db_regions md_id md_country_code md_main_country_for_code bare_md].
  f_equal; [apply bare_sinsert|]. apply bare_nupdate. intros x.
  destruct (md_main_country_for_code m); [reflexivity|]. now rewrite map_app.
Qed.
Lemma alike_loop : forall l l', spaced_document l l' -> forall db db', bare_db db' = bare_db db ->
  omap bare_db (db_from_loop db' l') = omap bare_db (db_from_loop db l).
Proof.
  induction 1 as [|m m' l l' H _ IH]; intros db db' E; [cbn; now rewrite E|]. cbn [db_from_loop].
  eapply bind_alike; [apply alike_entry; exact H|]. intros y y' Ey. apply IH. now rewrite !bare_insert, E, Ey.
Qed.
Lemma alike_from : forall l l', spaced_document l l' -> omap bare_db (db_from l') = omap bare_db (db_from l).
Proof. intros l l' H. now apply alike_loop. Qed.

(** ** Nothing but the type looks at the written form *)
Lemma bare_match : forall d v, d_is_match (bare_desc d) v = d_is_match d v.
Proof. reflexivity. Qed.
Lemma bare_omatch : forall d v, od_is_match (option_map bare_desc d) v = od_is_match d v.
Proof. intros [d|] v; reflexivity. Qed.
Lemma bare_length : forall m v k, v_length (bare_md m) v k = v_length m v k.
Proof.
  intros m v k. unfold v_length.
  assert (G : ds_get (md_descriptors (bare_md m)) k = option_map bare_desc (ds_get (md_descriptors m) k)) by (destruct k; reflexivity).
  rewrite G. destruct (ds_get (md_descriptors m) k); reflexivity.
Qed.
Lemma bare_known : forall m v, ptype_eqb (number_type (bare_md m) v) TUnknown = ptype_eqb (number_type m v) TUnknown.
Proof.
  intros m v. unfold number_type.
  cbn [bare_md bare_ds md_descriptors ds_general ds_premium_rate ds_toll_free ds_shared_cost ds_voip ds_personal_number
       ds_pager ds_uan ds_voicemail ds_fixed_line ds_mobile].
  rewrite bare_match, !bare_omatch.
  destruct (negb _); [reflexivity|].
  do 8 (match goal with |- context [if od_is_match ?d v then _ else _] => destruct (od_is_match d v); [reflexivity|] end).
  destruct (od_is_match (ds_fixed_line (md_descriptors m)) v); [|reflexivity].
  repeat match goal with |- context [if ?b then _ else _] => destruct b end; reflexivity.
Qed.
Lemma bare_sget : forall l k, sget (map (fun x => (fst x, bare_md (snd x))) l) k = option_map bare_md (sget l k).
Proof. induction l as [|[k' v] l IH]; intros k; [reflexivity|]. cbn [map fst snd sget]. destruct (str_eqb k' k); auto. Qed.
Lemma bare_nget : forall l k, nget (map (fun x => (fst x, map bare_md (snd x))) l) k = option_map (map bare_md) (nget l k).
Proof. induction l as [|[k' v] l IH]; intros k; [reflexivity|]. cbn [map fst snd nget]. destruct (N.eqb k' k); auto. Qed.
Lemma bare_by_id : forall db k, by_id (bare_db db) k = option_map bare_md (by_id db k).
Proof. intros. apply bare_sget. Qed.
Lemma bare_by_code : forall db k, by_code (bare_db db) k = option_map (map bare_md) (by_code db k).
Proof. intros. apply bare_nget. Qed.

Lemma bare_find : forall r s, re_find (bare_re r) s = re_find r s.
Proof. reflexivity. Qed.
Lemma bare_source_loop : forall db v l, source_loop (bare_db db) v l = source_loop db v l.
Proof.
  intros db v l. induction l as [|r l IH]; [reflexivity|]. cbn [source_loop]. rewrite bare_by_id.
  destruct (by_id db r) as [m|]; [|reflexivity]. cbn [option_map unwrap obind].
  assert (E : match md_leading_digits (bare_md m) with
              | Some p => found_at_start (re_find p v)
              | None => negb (ptype_eqb (number_type (bare_md m) v) TUnknown) end
            = match md_leading_digits m with
              | Some p => found_at_start (re_find p v)
              | None => negb (ptype_eqb (number_type m v) TUnknown) end).
  { cbn [bare_md md_leading_digits]. destruct (md_leading_digits m) as [p|]; cbn [option_map]; [now rewrite bare_find|].
    f_equal. exact (bare_known m v). }
  rewrite E, IH. reflexivity.
Qed.
Lemma bare_source_for : forall db c v, source_for (bare_db db) c v = source_for db c v.
Proof.
  intros db c v. unfold source_for. change (region (bare_db db) c) with (region db c).
  destruct (region db c) as [[|r [|r2 l]]|]; try reflexivity; apply bare_source_loop.
Qed.
Lemma bare_source_meta : forall db s, source_meta (bare_db db) s = option_map bare_md (source_meta db s).
Proof.
  intros db [[i|c]|]; [apply bare_by_id| |reflexivity]. cbn [source_meta]. rewrite bare_by_code.
  destruct (by_code db c) as [[|m l]|]; reflexivity.
Qed.

Lemma bare_find_code : forall db n l, find_code (bare_db db) n l = find_code db n l.
Proof.
  intros db n l. induction l as [|k l IH]; [reflexivity|]. cbn [find_code].
  destruct (slice_to (pn_national n) k) as [pre|]; [|reflexivity]. cbn [unwrap obind].
  destruct (parse_u16 pre) as [c|]; [|reflexivity]. cbn [unwrap obind]. rewrite bare_by_code, IH.
  destruct (by_code db c); reflexivity.
Qed.
Lemma bare_strip_idd : forall E o n, @strip_idd E (option_map bare_re o) n = strip_idd o n.
Proof. intros E [r|] n; reflexivity. Qed.
Lemma bare_intl : forall E o n, @international_prefix E (option_map bare_re o) n = international_prefix o n.
Proof. intros E [r|] n; reflexivity. Qed.
Lemma bare_country_code : forall db c n, country_code (bare_db db) c n = country_code db c n.
Proof.
  intros db c n. unfold country_code.
  assert (E : match (match c with Some c => match by_id (bare_db db) (id_name c) with Some m => md_international_prefix m | None => None end
                     | None => None end) with Some r => Some r | None => match c with None => Some DEFAULT_IDD | Some _ => None end end
            = match c with
              | Some c => option_map bare_re (match by_id db (id_name c) with Some m => md_international_prefix m | None => None end)
              | None => Some DEFAULT_IDD end).
  { destruct c as [c|]; [|reflexivity]. rewrite bare_by_id. destruct (by_id db (id_name c)) as [m|]; [|reflexivity].
    cbn [option_map bare_md md_international_prefix]. destruct (md_international_prefix m); reflexivity. }
  assert (F : match (match c with Some c => match by_id db (id_name c) with Some m => md_international_prefix m | None => None end
                     | None => None end) with Some r => Some r | None => match c with None => Some DEFAULT_IDD | Some _ => None end end
            = match c with
              | Some c => match by_id db (id_name c) with Some m => md_international_prefix m | None => None end
              | None => Some DEFAULT_IDD end).
  { destruct c as [c|]; [|reflexivity]. destruct (by_id db (id_name c)) as [m|]; [|reflexivity]. destruct (md_international_prefix m); reflexivity. }
  cbv zeta. rewrite E, F. clear E F.
  assert (I : @international_prefix perr (match c with
              | Some c => option_map bare_re (match by_id db (id_name c) with Some m => md_international_prefix m | None => None end)
              | None => Some DEFAULT_IDD end) n = international_prefix (match c with
              | Some c => match by_id db (id_name c) with Some m => md_international_prefix m | None => None end
              | None => Some DEFAULT_IDD end) n).
  { destruct c as [c|]; [apply bare_intl|reflexivity]. }
  rewrite I. clear I. destruct (international_prefix _ n) as [n1| |]; [|reflexivity|reflexivity]. cbn [obind].
  assert (X : forall x, match by_code (bare_db db) x with None => Err InvalidCountryCode | Some _ => Ok n1 end
                      = match by_code db x with None => Err InvalidCountryCode | Some _ => @Ok perr _ n1 end).
  { intros x. rewrite bare_by_code. destruct (by_code db x); reflexivity. }
  assert (Y : forall p : str, (let* prefix := ok_or (parse_u16 p) MalformedInteger in
                        match by_code (bare_db db) prefix with None => Err InvalidCountryCode | Some _ => Ok n1 end)
                      = (let* prefix := ok_or (parse_u16 p) MalformedInteger in
                        match by_code db prefix with None => Err InvalidCountryCode | Some _ => @Ok perr _ n1 end)).
  { intros p. destruct (parse_u16 p) as [x|]; [cbn [ok_or obind]; apply X|reflexivity]. }
  destruct (pn_country n1).
  - destruct (_ <=? _); [reflexivity|]. destruct (pn_prefix n1) as [p|]; [apply Y|]. destruct (starts_with _ _); [reflexivity|apply bare_find_code].
  - destruct (_ <=? _); [reflexivity|]. destruct (pn_prefix n1) as [p|]; [apply Y|]. destruct (starts_with _ _); [reflexivity|apply bare_find_code].
  - destruct (_ <=? _); [reflexivity|]. destruct (pn_prefix n1) as [p|]; [apply Y|]. destruct (starts_with _ _); [reflexivity|apply bare_find_code].
  - destruct c as [c|]; [|reflexivity]. rewrite bare_by_id. destruct (by_id db (id_name c)) as [m|]; [|reflexivity].
    cbn [option_map unwrap obind]. rewrite bare_length. reflexivity.
Qed.
Lemma bare_select : forall db c n, select_meta (bare_db db) c n = omap (option_map bare_md) (select_meta db c n).
Proof.
  intros db c n. unfold select_meta.
  assert (X : (let* code := prefix_value n in let* s := source_for (bare_db db) code (trim_start_char ch_0 (pn_national n)) in
               Ok (source_meta (bare_db db) s))
            = omap (option_map bare_md) (let* code := prefix_value n in let* s := source_for db code (trim_start_char ch_0 (pn_national n)) in
               Ok (source_meta db s))).
  { destruct (prefix_value n) as [x| |]; [|reflexivity|reflexivity]. cbn [obind]. rewrite bare_source_for.
    destruct (source_for db x _) as [s| |]; [|reflexivity|reflexivity]. cbn [obind omap]. now rewrite bare_source_meta. }
  destruct c as [c|]; [|exact X]. destruct (pn_country n); try exact X. cbn [omap]. now rewrite bare_by_id.
Qed.
Lemma bare_national : forall E m n, @national_number E (bare_md m) n = national_number m n.
Proof.
  intros E m n. unfold national_number. cbn [bare_md md_national_prefix_transform_rule md_national_prefix_for_parsing md_national_prefix md_descriptors bare_ds ds_general].
  destruct (md_national_prefix_for_parsing m) as [r|]; reflexivity.
Qed.
Lemma bare_strip_national : forall m n, strip_national (option_map bare_md m) n = strip_national m n.
Proof.
  intros [m|] n; [|reflexivity]. cbn [option_map strip_national]. rewrite bare_national.
  cbn [bare_md md_national_prefix]. destruct (national_number m n) as [x| |]; [|reflexivity|reflexivity]. cbn [obind].
  match goal with |- obind ?a _ = _ => destruct a as [y| |]; [|reflexivity|reflexivity] end. cbn [obind].
  change (v_length _ (pn_national y) TUnknown) with (v_length (bare_md m) (pn_national y) TUnknown) at 1. now rewrite bare_length.
Qed.
Lemma bare_parse : forall db c s, parse_with (bare_db db) c s = parse_with db c s.
Proof.
  intros db c s. unfold parse_with. destruct (p_phone_number s) as [n| |]; [|reflexivity|reflexivity]. cbn [obind].
  destruct (negb _); [reflexivity|]. rewrite bare_country_code.
  destruct (country_code db c n) as [n1| |]; [|reflexivity|reflexivity]. cbn [obind]. rewrite bare_select.
  destruct (select_meta db c n1) as [m| |]; [|reflexivity|reflexivity]. cbn [obind omap]. now rewrite bare_strip_national.
Qed.
Lemma bare_metadata : forall db p, ph_metadata (bare_db db) p = omap (option_map bare_md) (ph_metadata db p).
Proof.
  intros db p. unfold ph_metadata. rewrite bare_source_for. destruct (source_for db _ _) as [s| |]; [|reflexivity|reflexivity].
  cbn [obind omap]. now rewrite bare_source_meta.
Qed.
Lemma bare_country : forall db p, country_id_with (bare_db db) p = country_id_with db p.
Proof.
  intros db p. unfold country_id_with. rewrite bare_metadata. destruct (ph_metadata db p) as [[m|]| |]; reflexivity.
Qed.
Lemma bare_valid : forall db p, is_valid_with (bare_db db) p = is_valid_with db p.
Proof.
  intros db p. unfold is_valid_with. cbv zeta. rewrite bare_source_for.
  destruct (source_for db _ _) as [s| |]; [|reflexivity|reflexivity]. cbn [obind]. f_equal. rewrite bare_source_meta.
  destruct (source_meta db s) as [m|]; [|reflexivity]. cbn [option_map]. f_equal. exact (bare_known m _).
Qed.

(** writing *)
Lemma last_map : forall l, re_ast (last (map bare_re l) regex_never) = re_ast (last l regex_never).
Proof. induction l as [|r [|r2 l] IH]; [reflexivity|reflexivity|exact IH]. Qed.
Lemma bare_choose : forall s l, choose_format s (map bare_format l) = option_map bare_format (choose_format s l).
Proof.
  intros s l. induction l as [|f l IH]; [reflexivity|]. cbn [map choose_format].
  assert (E : match f_leading_digits (bare_format f) with
              | [] => true
              | l => found_at_start (re_find (last l regex_never) s) && found_whole s (re_find (f_pattern (bare_format f)) s) end
            = match f_leading_digits f with
              | [] => true
              | l => found_at_start (re_find (last l regex_never) s) && found_whole s (re_find (f_pattern f) s) end).
  { cbn [bare_format f_leading_digits f_pattern]. destruct (f_leading_digits f) as [|r rs]; [reflexivity|].
    pose proof (last_map (r :: rs)) as L. cbn [map] in *. unfold re_find at 1. rewrite L. reflexivity. }
  rewrite E. rewrite IH. match goal with |- (if ?b then _ else _) = _ => destruct b; reflexivity end.
Qed.
Lemma bare_replace : forall s m f t c, fmt_replace s (bare_md m) (bare_format f) t c = fmt_replace s m f t c.
Proof. reflexivity. Qed.
Lemma bare_render : forall db md p, render (bare_db db) md p = render db md p.
Proof.
  intros db md p. unfold render, fmt_display.
  cbn [fm_set_mode fmt_format_with fm_database fm_number fm_mode fm_format]. cbv zeta. rewrite bare_by_code.
  destruct (by_code db (code_value (ph_code p))) as [[|m l]|]; [reflexivity| |reflexivity].
  cbn [option_map map ok_or obind].
  set (fs := match md_international_formats m with [] => md_formats m | x :: t => match md with National => md_formats m | _ => x :: t end end).
  assert (E : match md_international_formats (bare_md m) with [] => md_formats (bare_md m)
              | x :: t => match md with National => md_formats (bare_md m) | _ => x :: t end end = map bare_format fs).
  { cbn [bare_md md_international_formats md_formats]. unfold fs. destruct (md_international_formats m); [reflexivity|]. destruct md; reflexivity. }
  rewrite E. clear E. rewrite bare_choose.
  destruct (choose_format _ fs) as [f|]; cbn [option_map]; [|destruct md; reflexivity].
  destruct md; reflexivity.
Qed.

(** ** C50 *)
(** What a user can observe of a database, types aside. *)
Record behaves_alike (db db' : database) : Prop := mk_behaves_alike {
  ba_parse : forall country s, parse_with db' country s = parse_with db country s;
  ba_render : forall md p, render db' md p = render db md p;
  ba_valid : forall p, is_valid_with db' p = is_valid_with db p;
  ba_country : forall p, country_id_with db' p = country_id_with db p;
  ba_region : forall c, region db' c = region db c }.
Lemma same_bare_alike : forall db db', bare_db db' = bare_db db -> behaves_alike db db'.
Proof.
  intros db db' E. split; intros.
  - now rewrite <- bare_parse, E, bare_parse.
  - now rewrite <- bare_render, E, bare_render.
  - now rewrite <- bare_valid, E, bare_valid.
  - now rewrite <- bare_country, E, bare_country.
  - change (region (bare_db db') c = region (bare_db db) c). now rewrite E.
Qed.

(** Whether loading succeeds, with what error it fails, and all of the above. *)
Definition loads_alike (x x' : outcome lerr database) : Prop :=
  match x, x' with
  | Ok db, Ok db' => behaves_alike db db'
  | Err e, Err e' => e' = e
  | Panic, Panic => True
  | _, _ => False
  end.
Theorem C50_space : forall l l', spaced_document l l' -> loads_alike (db_from l) (db_from l').
Proof.
  intros l l' H. pose proof (alike_from l l' H) as E. destruct (db_from l) as [db| |], (db_from l') as [db'| |]; cbn [omap loads_alike] in *; try discriminate.
  - apply same_bare_alike. congruence.
  - congruence.
  - exact I.
Qed.

(** ** Types *)
(** Are the fixed-line and the mobile pattern written with the same characters? *)
Definition pattern_of (d : option ldescriptor) : option str :=
  match d with Some d => ld_national_number d | None => None end.
Definition lengths_of (d : option ldescriptor) : list N :=
  match d with Some d => ld_possible_length d | None => [] end.
Definition same_text (m : lmetadata) : Prop :=
  exists t, pattern_of (lm_fixed_line m) = Some t /\ pattern_of (lm_mobile m) = Some t.
(** If so, with the same possible lengths? *)
Definition settled (m : lmetadata) : Prop :=
  same_text m -> lengths_of (lm_fixed_line m) = lengths_of (lm_mobile m).

Definition compiled (d : option ldescriptor) (x : option descriptor) : Prop := omap_opt db_descriptor d = Ok x.
Lemma entry_compiled : forall lm m, db_metadata lm = Ok m ->
  compiled (lm_fixed_line lm) (ds_fixed_line (md_descriptors m)) /\ compiled (lm_mobile lm) (ds_mobile (md_descriptors m)).
Proof.
  intros lm m H. unfold db_metadata in H.
  do 2 (apply obind_ok in H as (? & ? & H)).
  apply obind_ok in H as (f & Hf & H). apply obind_ok in H as (mo & Hm & H).
  do 20 (apply obind_ok in H as (? & ? & H)). inversion H. split; [exact Hf|exact Hm].
Qed.
Lemma compiled_inv : forall d x, compiled d x ->
  match d, x with
  | None, None => True
  | Some d, Some x => exists t, ld_national_number d = Some t /\ db_regex t = Ok (d_national_number x) /\
      d_possible_length x = ld_possible_length d /\ re_src (d_national_number x) = t
  | _, _ => False
  end.
Proof.
  intros [d|] x H; unfold compiled in H; cbn [omap_opt] in H; [|inversion H; exact I].
  apply obind_ok in H as (y & Hy & H). inversion H; subst x. unfold db_descriptor in Hy.
  apply obind_ok in Hy as (t & Ht & Hy). destruct (ld_national_number d) as [t'|]; [|discriminate Ht].
  cbn [ok_or obind] in Hy. apply obind_ok in Hy as (r & Hr & Hy). inversion Hy; subst y. cbn [d_national_number d_possible_length].
  exists t'. repeat split; [exact Hr|]. unfold db_regex, regex_build in Hr. destruct (p_re _ _ _ _ _ _) as [[[a b] c]|]; [|discriminate Hr].
  inversion Hr. reflexivity.
Qed.
(** The comparison the code makes. *)
Definition src_eqb (m : metadata) : bool :=
  option_eqb str_eqb (option_map (fun d => re_src (d_national_number d)) (ds_fixed_line (md_descriptors m)))
    (option_map (fun d => re_src (d_national_number d)) (ds_mobile (md_descriptors m))).
Lemma src_eqb_iff : forall lm m, db_metadata lm = Ok m -> ds_fixed_line (md_descriptors m) <> None ->
  (src_eqb m = true <-> same_text lm).
Proof.
  intros lm m H Hf. apply entry_compiled in H as [H1 H2]. apply compiled_inv in H1, H2. unfold src_eqb, same_text, pattern_of.
  destruct (lm_fixed_line lm) as [f|], (ds_fixed_line (md_descriptors m)) as [x|]; try easy.
  destruct H1 as (t & T1 & _ & _ & T2).
  destruct (lm_mobile lm) as [g|], (ds_mobile (md_descriptors m)) as [y|]; try easy.
  - destruct H2 as (u & U1 & _ & _ & U2). cbn [option_map option_eqb]. rewrite T2, U2, T1, U1. rewrite str_eqb_eq.
    split; [intros ->; now exists u|intros (w & E1 & E2); congruence].
  - cbn [option_map option_eqb]. split; [discriminate|]. intros (w & _ & E). discriminate E.
Qed.
Lemma settled_match : forall lm m v, db_metadata lm = Ok m -> settled lm -> src_eqb m = true ->
  od_is_match (ds_fixed_line (md_descriptors m)) v = true -> od_is_match (ds_mobile (md_descriptors m)) v = true.
Proof.
  intros lm m v H S E Hv.
  assert (Hf : ds_fixed_line (md_descriptors m) <> None) by (intros N; rewrite N in Hv; discriminate Hv).
  assert (T : same_text lm) by (now apply (src_eqb_iff lm m H Hf)). pose proof (S T) as L. destruct T as (t & T1 & T2).
  apply entry_compiled in H as [H1 H2]. apply compiled_inv in H1, H2. unfold pattern_of, lengths_of in *.
  destruct (lm_fixed_line lm) as [f|]; [|discriminate T1]. destruct (lm_mobile lm) as [g|]; [|discriminate T2].
  destruct (ds_fixed_line (md_descriptors m)) as [x|]; [|easy]. destruct (ds_mobile (md_descriptors m)) as [y|]; [|easy].
  destruct H1 as (t1 & A1 & A2 & A3 & _). destruct H2 as (t2 & B1 & B2 & B3 & _). cbn [od_is_match] in *.
  assert (R : d_national_number y = d_national_number x) by congruence.
  unfold d_is_match in *. now rewrite R, B3, <- L, <- A3.
Qed.

Definition is_fixed (t : ptype) : Prop := t = TFixedLine \/ t = TFixedLineOrMobile.
Lemma bare_type : forall m m' v, bare_md m' = bare_md m ->
  number_type m' v = number_type m v \/
  (is_fixed (number_type m v) /\ is_fixed (number_type m' v) /\ src_eqb m' <> src_eqb m
   /\ od_is_match (ds_fixed_line (md_descriptors m)) v = true /\ od_is_match (ds_mobile (md_descriptors m)) v = false).
Proof.
  intros m m' v E. unfold is_fixed.
  assert (G : forall m, number_type m v =
    if negb (d_is_match (ds_general (md_descriptors (bare_md m))) v) then TUnknown
    else if od_is_match (ds_premium_rate (md_descriptors (bare_md m))) v then TPremiumRate
    else if od_is_match (ds_toll_free (md_descriptors (bare_md m))) v then TTollFree
    else if od_is_match (ds_shared_cost (md_descriptors (bare_md m))) v then TSharedCost
    else if od_is_match (ds_voip (md_descriptors (bare_md m))) v then TVoip
    else if od_is_match (ds_personal_number (md_descriptors (bare_md m))) v then TPersonalNumber
    else if od_is_match (ds_pager (md_descriptors (bare_md m))) v then TPager
    else if od_is_match (ds_uan (md_descriptors (bare_md m))) v then TUan
    else if od_is_match (ds_voicemail (md_descriptors (bare_md m))) v then TVoicemail
    else if od_is_match (ds_fixed_line (md_descriptors (bare_md m))) v then
      (if src_eqb m then TFixedLineOrMobile
       else if od_is_match (ds_mobile (md_descriptors (bare_md m))) v then TFixedLineOrMobile else TFixedLine)
    else if od_is_match (ds_mobile (md_descriptors (bare_md m))) v then TMobile
    else TUnknown).
  { intros x. unfold number_type.
    cbn [bare_md bare_ds md_descriptors ds_general ds_premium_rate ds_toll_free ds_shared_cost ds_voip ds_personal_number
       ds_pager ds_uan ds_voicemail ds_fixed_line ds_mobile]. rewrite bare_match, !bare_omatch. reflexivity. }
  assert (F1 : od_is_match (ds_fixed_line (md_descriptors (bare_md m))) v = od_is_match (ds_fixed_line (md_descriptors m)) v)
    by (cbn [bare_md bare_ds md_descriptors ds_fixed_line]; apply bare_omatch).
  assert (F2 : od_is_match (ds_mobile (md_descriptors (bare_md m))) v = od_is_match (ds_mobile (md_descriptors m)) v)
    by (cbn [bare_md bare_ds md_descriptors ds_mobile]; apply bare_omatch).
  rewrite (G m'), (G m), E. rewrite F1, F2. clear G F1 F2.
  destruct (negb _); [now left|].
  do 8 (match goal with |- context [if od_is_match ?d v then _ else _] => destruct (od_is_match d v); [now left|] end).
  destruct (od_is_match (ds_fixed_line (md_descriptors m)) v); [|now left].
  destruct (od_is_match (ds_mobile (md_descriptors m)) v); [left; now destruct (src_eqb m), (src_eqb m')|].
  destruct (src_eqb m), (src_eqb m'); try (now left); right; repeat split; auto; discriminate.
Qed.

(** Entries at the same place of both databases. *)
Lemma find_alike : forall A (R : A -> A -> Prop) (p : A -> bool) l l', (forall x y, R x y -> p y = p x) -> Forall2 R l l' ->
  match find p l, find p l' with Some x, Some y => R x y | None, None => True | _, _ => False end.
Proof.
  intros A R p l l' H K. induction K as [|x y l l' Rxy _ IH]; [exact I|]. cbn [find]. rewrite (H x y Rxy).
  destruct (p x); [exact Rxy|exact IH].
Qed.
Lemma filter_alike : forall A (R : A -> A -> Prop) (p : A -> bool) l l', (forall x y, R x y -> p y = p x) -> Forall2 R l l' ->
  Forall2 R (filter p l) (filter p l').
Proof.
  intros A R p l l' H K. induction K as [|x y l l' Rxy _ IH]; [constructor|]. cbn [filter]. rewrite (H x y Rxy).
  destruct (p x); [now constructor|exact IH].
Qed.
Lemma rev_alike : forall A (R : A -> A -> Prop) l l', Forall2 R l l' -> Forall2 R (rev l) (rev l').
Proof.
  intros A R l l' K. induction K as [|x y l l' Rxy _ IH]; [constructor|]. cbn [rev]. apply Forall2_app; [exact IH|now repeat constructor].
Qed.
Lemma source_meta_alike : forall (R : metadata -> metadata -> Prop) mds mds' s,
  (forall x y, R x y -> bare_md y = bare_md x) -> Forall2 R mds mds' ->
  match source_meta (db_of mds) s, source_meta (db_of mds') s with Some x, Some y => R x y | None, None => True | _, _ => False end.
Proof.
  intros R mds mds' s HR H.
  assert (Hid : forall x y, R x y -> md_id y = md_id x) by (intros x y K; apply HR in K; now inversion K).
  assert (Hcc : forall x y, R x y -> md_country_code y = md_country_code x) by (intros x y K; apply HR in K; now inversion K).
  assert (Hma : forall x y, R x y -> md_main_country_for_code y = md_main_country_for_code x) by (intros x y K; apply HR in K; now inversion K).
  destruct s as [[i|c]|]; cbn [source_meta]; [| |exact I].
  - rewrite !db_of_by_id. apply find_alike; [|now apply rev_alike]. intros x y K. unfold has_id. now rewrite (Hid x y K).
  - rewrite !db_of_by_code.
    assert (F : Forall2 R (code_order (filter (has_code c) mds)) (code_order (filter (has_code c) mds'))).
    { assert (F0 : Forall2 R (filter (has_code c) mds) (filter (has_code c) mds')).
      { apply filter_alike; [|exact H]. intros x y K. unfold has_code. now rewrite (Hcc x y K). }
      unfold code_order. apply Forall2_app; [apply rev_alike|]; (apply filter_alike; [|exact F0]);
        intros x y K; unfold is_main; now rewrite (Hma x y K). }
    destruct F as [|x y l l' K F]; [exact I|exact K].
Qed.

(** The entries of the two documents, compiled. *)
Definition twins (P : lmetadata -> lmetadata -> Prop) (m m' : metadata) : Prop :=
  bare_md m' = bare_md m /\ exists lm lm', P lm lm' /\ db_metadata lm = Ok m /\ db_metadata lm' = Ok m'.
Lemma twins_all : forall (P : lmetadata -> lmetadata -> Prop) l l' mds mds', (forall a b, P a b -> spaced_entry a b) ->
  Forall2 P l l' -> omap_list db_metadata l = Ok mds -> omap_list db_metadata l' = Ok mds' -> Forall2 (twins P) mds mds'.
Proof.
  intros P l l' mds mds' HP H. revert mds mds'. induction H as [|a b l l' Hab _ IH]; intros mds mds' E E'; cbn [omap_list] in *.
  - inversion E; inversion E'; constructor.
  - apply obind_ok in E as (m & Em & E). apply obind_ok in E as (ms & Ems & E). inversion E; subst mds.
    apply obind_ok in E' as (m' & Em' & E'). apply obind_ok in E' as (ms' & Ems' & E'). inversion E'; subst mds'.
    constructor; [|now apply IH]. split; [|now exists a, b].
    pose proof (alike_entry a b (HP a b Hab)) as K. rewrite Em, Em' in K. cbn in K. congruence.
Qed.
Lemma type_step : forall db db' p (Q : ptype -> ptype -> Prop), bare_db db' = bare_db db -> Q TUnknown TUnknown ->
  (forall s m m' v, source_meta db s = Some m -> source_meta db' s = Some m' -> bare_md m' = bare_md m -> Q (number_type m v) (number_type m' v)) ->
  match number_type_with db p, number_type_with db' p with
  | Ok t, Ok t' => Q t t' | Err e, Err e' => e' = e | Panic, Panic => True | _, _ => False end.
Proof.
  intros db db' p Q E Q0 H. unfold number_type_with, ph_metadata.
  assert (S : forall c v, source_for db' c v = source_for db c v) by (intros; now rewrite <- bare_source_for, E, bare_source_for).
  rewrite S. destruct (source_for db _ _) as [s| |]; cbn [obind]; [|reflexivity|exact I].
  pose proof (bare_source_meta db s) as B. pose proof (bare_source_meta db' s) as B'. rewrite E, B in B'.
  destruct (source_meta db s) as [m|] eqn:M, (source_meta db' s) as [m'|] eqn:M'; cbn [option_map] in B'; try discriminate.
  - apply (H s); [exact M|exact M'|congruence].
  - exact Q0.
Qed.

(** Whatever the white space, types agree up to this one distinction. *)
Definition same_kind (t t' : ptype) : Prop := t' = t \/ (is_fixed t /\ is_fixed t').
Theorem C50_kind : forall l l' db db' p, spaced_document l l' -> db_from l = Ok db -> db_from l' = Ok db' ->
  match number_type_with db p, number_type_with db' p with
  | Ok t, Ok t' => same_kind t t' | Err e, Err e' => e' = e | Panic, Panic => True | _, _ => False end.
Proof.
  intros l l' db db' p H E E'. apply type_step.
  - pose proof (alike_from l l' H) as K. rewrite E, E' in K. cbn in K. congruence.
  - now left.
  - intros s m m' v _ _ B. destruct (bare_type m m' v B) as [T|(T1 & T2 & _)]; [now left|right; now split].
Qed.

(** They agree altogether if in no entry the white space makes a difference to
    whether the fixed-line and the mobile pattern are the same text, or if
    those patterns come with the same lengths. *)
Definition spaced_evenly (m m' : lmetadata) : Prop :=
  spaced_entry m m' /\ ((same_text m <-> same_text m') \/ settled m).
Lemma spaced_patterns : forall d d' t, spaced_opt spaced_desc d d' -> pattern_of d' = Some t ->
  pattern_of d = Some (strip_ws t).
Proof.
  intros d d' t H. destruct H as [|a a' [P _ _ _]]; cbn [pattern_of]; [discriminate|].
  destruct P as [|s s' P]; [discriminate|]. intros E. inversion E; subst s'. now rewrite (spaced_strip s t P), (spaced_clean s t P).
Qed.
Lemma spaced_same_text : forall m m', spaced_entry m m' -> same_text m' -> same_text m.
Proof.
  intros m m' H (t & T1 & T2). exists (strip_ws t). split.
  - exact (spaced_patterns _ _ t (se_fixed_line _ _ H) T1).
  - exact (spaced_patterns _ _ t (se_mobile _ _ H) T2).
Qed.
Theorem C50_type : forall l l' db db', Forall2 spaced_evenly l l' -> db_from l = Ok db -> db_from l' = Ok db' ->
  forall p, number_type_with db' p = number_type_with db p.
Proof.
  intros l l' db db' H E E' p.
  assert (HS : spaced_document l l') by (clear -H; induction H as [|a b l l' [K _] _ IH]; now constructor).
  pose proof (alike_from l l' HS) as B. rewrite E, E' in B. cbn [omap] in B. assert (B' : bare_db db' = bare_db db) by congruence. clear B.
  enough (K : match number_type_with db p, number_type_with db' p with
              | Ok t, Ok t' => t' = t | Err e, Err e' => e' = e | Panic, Panic => True | _, _ => False end).
  { destruct (number_type_with db p), (number_type_with db' p); try easy; congruence. }
  apply (type_step db db' p (fun t t' => t' = t)); [exact B'|reflexivity|].
  intros s m m' v M M' Bm. apply db_from_ok in E as (mds & Em & ->). apply db_from_ok in E' as (mds' & Em' & ->).
  pose proof (twins_all spaced_evenly l l' mds mds' (fun a b K => proj1 K) H Em Em') as T.
  pose proof (source_meta_alike (twins spaced_evenly) mds mds' s (fun x y K => proj1 K) T) as K. rewrite M, M' in K.
  destruct K as (_ & lm & lm' & (Hse & Hev) & C & C').
  destruct (bare_type m m' v Bm) as [R|(_ & _ & Ne & Mf & Mm)]; [exact R|exfalso].
  assert (Hf : ds_fixed_line (md_descriptors m) <> None) by (intros X; rewrite X in Mf; discriminate Mf).
  assert (Hf' : ds_fixed_line (md_descriptors m') <> None).
  { intros X. assert (Y : option_map bare_desc (ds_fixed_line (md_descriptors m')) = option_map bare_desc (ds_fixed_line (md_descriptors m)))
      by (change (ds_fixed_line (md_descriptors (bare_md m')) = ds_fixed_line (md_descriptors (bare_md m))); now rewrite Bm).
    rewrite X in Y. destruct (ds_fixed_line (md_descriptors m)); [discriminate Y|now apply Hf]. }
  pose proof (src_eqb_iff lm m C Hf) as S. pose proof (src_eqb_iff lm' m' C' Hf') as S'.
  destruct Hev as [Hev|Hev].
  - destruct (src_eqb m), (src_eqb m'); try (now apply Ne).
    + assert (X : false = true) by (apply S', Hev, S; reflexivity). discriminate X.
    + assert (X : false = true) by (apply S, Hev, S'; reflexivity). discriminate X.
  - destruct (src_eqb m) eqn:Sm.
    + rewrite (settled_match lm m v C Hev Sm Mf) in Mm. discriminate Mm.
    + assert (X : src_eqb m' = false).
      { destruct (src_eqb m'); [|reflexivity]. assert (Y : false = true) by (apply S, (spaced_same_text lm lm' Hse), S'; reflexivity). discriminate Y. }
      congruence.
Qed.

(** ** The built-in metadata *)
Definition settledb (m : lmetadata) : bool :=
  match pattern_of (lm_fixed_line m), pattern_of (lm_mobile m) with
  | Some a, Some b => if str_eqb a b then str_eqb (lengths_of (lm_fixed_line m)) (lengths_of (lm_mobile m)) else true
  | _, _ => true
  end.
Lemma settledb_ok : forall m, settledb m = true -> settled m.
Proof.
  intros m H (t & T1 & T2). unfold settledb in H. rewrite T1, T2 in H.
  replace (str_eqb t t) with true in H by (symmetry; now apply str_eqb_eq). now apply str_eqb_eq in H.
Qed.
Lemma default_settled : forallb settledb default_entries = true.
Proof. vm_cast_no_check (eq_refl true). Qed.

(** The document the crate ships is the one modelled here with white space put
    into its patterns; however that is done, nothing changes. *)
Theorem C50_default : forall l', spaced_document default_entries l' ->
  exists db', db_from l' = Ok db' /\ behaves_alike default_db db' /\
    forall p, number_type_with db' p = number_type_with default_db p.
Proof.
  intros l' H. pose proof (C50_space _ _ H) as L. rewrite default_db_built in L.
  destruct (db_from l') as [db'| |] eqn:E; cbn [loads_alike] in L; [|destruct L|destruct L].
  exists db'. split; [reflexivity|]. split; [exact L|].
  apply (C50_type default_entries l'); [|exact default_db_built|exact E].
  pose proof default_settled as S. rewrite forallb_forall in S.
  assert (G : forall l, (forall m, In m l -> settledb m = true) -> spaced_document l l' -> Forall2 spaced_evenly l l').
  { clear. intros l HS K. induction K as [|a b l l' Hab _ IH]; [constructor|]. constructor.
    - split; [exact Hab|right]. apply settledb_ok, HS. now left.
    - apply IH. intros m I. apply HS. now right. }
  now apply G.
Qed.

(** ** The exception is real *)
(** Fixed-line and mobile patterns that agree but for one blank, with different
    lengths: "fixed line or mobile" without it, "fixed line" with it. *)
Definition two_entries (mobile : str) : list lmetadata :=
  let d p n := Some (mk_ldescriptor (Some p) n [] None) in
  [mk_lmetadata (d (lit "\d{8,9}") []) (d (lit "[1-9]\d+") [8%N]) (d mobile [9%N]) None None None None None None None None None None None None None
     (Some (lit "BE")) (Some 32%N) None None None None None None [] [] false None false lformat_default ldescriptor_default].
Lemma spaced_plain : forall c s s', plain c -> spaced s s' -> spaced (c :: s) (c :: s').
Proof. intros c s s' H K. apply (spaced_part [c]); [now constructor|exact K]. Qed.
Lemma in_mem_char : forall c l, In c l -> mem_char c l = true.
Proof.
  intros c l I. apply existsb_exists. exists c. split; [exact I|apply N.eqb_refl].
Qed.
Lemma plain_check : forall c, negb (is_pattern_ws c) && negb (mem_char c (lit "\(&{#")) = true -> plain c.
Proof.
  intros c H. apply andb_prop in H as [H1 H2]. split; [apply not_space; now apply negb_true_iff|].
  intros I. apply negb_true_iff in H2. rewrite (in_mem_char c _ I) in H2. discriminate H2.
Qed.

(** A check that a pattern consists of the parts above. *)
Fixpoint after_brace (s : str) : option str :=
  match s with
  | [] => None
  | c :: s' => if N.eqb c 125 then Some s'
               else if is_pattern_ws c || mem_char c (lit "\#") then None else after_brace s'
  end.
Fixpoint clean (fuel : nat) (s : str) : bool :=
  match fuel with
  | O => false
  | S fuel =>
      match s with
      | [] => true
      | c :: s1 =>
          if N.eqb c 92 then
            match s1 with
            | [] => false
            | x :: s2 =>
                if mem_char x (lit "pPxuU") then
                  match s2 with
                  | [] => false
                  | b :: s3 => if N.eqb b 123 then match after_brace s3 with Some t => clean fuel t | None => false end
                               else false
                  end
                else clean fuel s2
            end
          else if N.eqb c 123 then match after_brace s1 with Some t => clean fuel t | None => false end
          else if N.eqb c 40 then
            match s1 with
            | [] => true
            | b :: s2 => if N.eqb b 63 then
                           match s2 with
                           | e :: s3 => if N.eqb e 58 then clean fuel s3 else false
                           | [] => false
                           end
                         else clean fuel s1
            end
          else if N.eqb c 38 then
            match s1 with
            | [] => true
            | b :: s2 => if N.eqb b 38 then clean fuel s2 else clean fuel s1
            end
          else if is_pattern_ws c || N.eqb c 35 then false
          else clean fuel s1
      end
  end.
Lemma after_brace_ok : forall s t, after_brace s = Some t -> exists b, inner b /\ s = b ++ 125%N :: t.
Proof.
  induction s as [|c s IH]; intros t H; [discriminate H|]. cbn [after_brace] in H. destruct (N.eqb_spec c 125) as [->|N125].
  - inversion H; subst. exists []. split; [intros x []|reflexivity].
  - destruct (is_pattern_ws c) eqn:W; [discriminate H|]. cbn [orb] in H. destruct (mem_char c (lit "\#")) eqn:M; [discriminate H|].
    apply IH in H as (b & Hb & ->). exists (c :: b). split; [|reflexivity]. intros x [<-|I]; [|now apply Hb].
    split; [now apply not_space|]. intros I. cbn in I. destruct I as [<-|[<-|[<-|[]]]]; [discriminate M|discriminate M|now apply N125].
Qed.
Lemma first_not_other : forall x c s, c <> x -> first_not x (c :: s).
Proof. intros x c s H s' E. inversion E. contradiction. Qed.
Lemma first_not_nil : forall x, first_not x [].
Proof. intros x s'. discriminate. Qed.
Lemma clean_ok : forall fuel s, clean fuel s = true -> spaced s s.
Proof.
  induction fuel as [|fuel IH]; intros s H; [discriminate H|]. cbn [clean] in H. destruct s as [|c s]; [constructor|].
  destruct (N.eqb_spec c 92) as [->|Hb].
  { destruct s as [|x s]; [discriminate H|]. destruct (mem_char x (lit "pPxuU")) eqn:M.
    - destruct s as [|b s]; [discriminate H|]. destruct (N.eqb_spec b 123) as [->|Nb]; [|discriminate H].
      destruct (after_brace s) as [t|] eqn:A; [|discriminate H]. apply after_brace_ok in A as (body & Hi & ->).
      enough (K : forall u, u = ((92%N :: x :: 123%N :: body ++ [125%N]) ++ t) -> spaced u u) by (apply K; cbn [app]; now rewrite <- app_assoc).
      intros u ->. apply spaced_part; [now constructor|now apply IH].
    - apply (spaced_part [92%N; x]); [constructor|now apply IH].
      intros I. rewrite (in_mem_char x _ I) in M. discriminate M. }
  destruct (N.eqb_spec c 123) as [->|Hc].
  { destruct (after_brace s) as [t|] eqn:A; [|discriminate H]. apply after_brace_ok in A as (body & Hi & ->).
    enough (K : forall u, u = ((123%N :: body ++ [125%N]) ++ t) -> spaced u u) by (apply K; cbn [app]; now rewrite <- app_assoc).
    intros u ->. apply spaced_part; [now constructor|now apply IH]. }
  destruct (N.eqb_spec c 40) as [->|Hp].
  { destruct s as [|b s]; [apply (spaced_part (lit "(")); [constructor; apply first_not_nil|constructor]|].
    destruct (N.eqb_spec b 63) as [->|Nb].
    - destruct s as [|e s]; [discriminate H|]. destruct (N.eqb_spec e 58) as [->|]; [|discriminate H].
      apply (spaced_part (lit "(?:")); [constructor|now apply IH].
    - apply (spaced_part (lit "(")); [constructor; now apply first_not_other|now apply IH]. }
  destruct (N.eqb_spec c 38) as [->|Ha].
  { destruct s as [|b s]; [apply (spaced_part (lit "&")); [constructor; apply first_not_nil|constructor]|].
    destruct (N.eqb_spec b 38) as [->|Nb].
    - apply (spaced_part (lit "&&")); [constructor|now apply IH].
    - apply (spaced_part (lit "&")); [constructor; now apply first_not_other|now apply IH]. }
  destruct (is_pattern_ws c) eqn:W; [discriminate H|]. cbn [orb] in H. destruct (N.eqb_spec c 35) as [|Hh]; [discriminate H|].
  apply spaced_plain; [|now apply IH]. split; [now apply not_space|]. intros I. cbn in I.
  destruct I as [<-|[<-|[<-|[<-|[<-|[]]]]]]; contradiction.
Qed.

Theorem C50_type_refuted : exists l l' db db' p, spaced_document l l' /\ db_from l = Ok db /\ db_from l' = Ok db' /\
  number_type_with db p = Ok TFixedLineOrMobile /\ number_type_with db' p = Ok TFixedLine.
Proof.
  exists (two_entries (lit "[1-9]\d+")), (two_entries (lit "[1-9] \d+")).
  destruct (db_from (two_entries (lit "[1-9]\d+"))) as [db| |] eqn:E; [|vm_compute in E; discriminate E|vm_compute in E; discriminate E].
  destruct (db_from (two_entries (lit "[1-9] \d+"))) as [db'| |] eqn:E'; [|vm_compute in E'; discriminate E'|vm_compute in E'; discriminate E'].
  exists db, db', (mk_phone (mk_code 32 SrcPlus) (mk_national 25551234) None None).
  split; [|split; [reflexivity|split; [reflexivity|]]].
  - unfold two_entries. constructor; [|constructor]. split; cbn [lm_general lm_fixed_line lm_mobile lm_toll_free lm_premium_rate lm_shared_cost
      lm_personal_number lm_voip lm_pager lm_uan lm_emergency lm_voicemail lm_short_code lm_standard_rate lm_carrier lm_no_international
      lm_id lm_country_code lm_international_prefix lm_preferred_international_prefix lm_national_prefix lm_preferred_extension_prefix
      lm_national_prefix_for_parsing lm_national_prefix_transform_rule lm_formats lm_international_formats lm_main_country_for_code
      lm_leading_digits lm_mobile_number_portable]; try reflexivity; try constructor; try (split; cbn; try reflexivity; constructor; now apply (clean_ok 20)).
    split; cbn [ld_national_number ld_possible_length ld_possible_local_length ld_example]; try reflexivity. constructor.
    change (lit "[1-9]\d+") with (lit "[1-9]" ++ lit "\d+"). change (lit "[1-9] \d+") with (lit "[1-9]" ++ 32%N :: lit "\d+").
    cbn [lit app map]. do 5 (apply spaced_plain; [now apply plain_check|]). apply spaced_space; [unfold space; cbn; tauto|]. now apply (clean_ok 20).
  - vm_compute in E. vm_compute in E'. inversion E; subst db. inversion E'; subst db'. split; vm_compute; reflexivity.
Qed.

(** ** Documents the theorems are about *)
(** Every pattern on a line of its own, with a comment above. *)
Definition on_own_line (s : str) : str := lit "# pattern" ++ 10%N :: lit "  " ++ s.
Definition spread_desc (d : ldescriptor) : ldescriptor :=
  mk_ldescriptor (option_map on_own_line (ld_national_number d)) (ld_possible_length d) (ld_possible_local_length d) (ld_example d).
Definition spread_format (f : lformat) : lformat :=
  mk_lformat (option_map on_own_line (lf_pattern f)) (lf_format f) (map on_own_line (lf_leading_digits f))
    (lf_national_prefix_formatting_rule f) (lf_national_prefix_optional_when_formatting f) (lf_domestic_carrier f).
Definition spread (m : lmetadata) : lmetadata :=
  let d := option_map spread_desc in
  mk_lmetadata (d (lm_general m)) (d (lm_fixed_line m)) (d (lm_mobile m)) (d (lm_toll_free m)) (d (lm_premium_rate m))
    (d (lm_shared_cost m)) (d (lm_personal_number m)) (d (lm_voip m)) (d (lm_pager m)) (d (lm_uan m)) (d (lm_emergency m))
    (d (lm_voicemail m)) (d (lm_short_code m)) (d (lm_standard_rate m)) (d (lm_carrier m)) (d (lm_no_international m))
    (lm_id m) (lm_country_code m) (option_map on_own_line (lm_international_prefix m)) (lm_preferred_international_prefix m)
    (lm_national_prefix m) (lm_preferred_extension_prefix m) (option_map on_own_line (lm_national_prefix_for_parsing m))
    (lm_national_prefix_transform_rule m) (map spread_format (lm_formats m)) (map spread_format (lm_international_formats m))
    (lm_main_country_for_code m) (option_map on_own_line (lm_leading_digits m)) (lm_mobile_number_portable m)
    (lm_default_format m) (lm_default_descriptor m).
Definition clean_pattern (s : str) : bool := clean (S (length s)) s.
Definition clean_opt {A} (f : A -> bool) (o : option A) : bool := match o with Some a => f a | None => true end.
Definition clean_desc (d : ldescriptor) : bool := clean_opt clean_pattern (ld_national_number d).
Definition clean_format (f : lformat) : bool :=
  if clean_opt clean_pattern (lf_pattern f) then forallb clean_pattern (lf_leading_digits f) else false.
Definition all_descs (m : lmetadata) : list (option ldescriptor) :=
  [lm_general m; lm_fixed_line m; lm_mobile m; lm_toll_free m; lm_premium_rate m; lm_shared_cost m; lm_personal_number m;
   lm_voip m; lm_pager m; lm_uan m; lm_emergency m; lm_voicemail m; lm_short_code m; lm_standard_rate m; lm_carrier m;
   lm_no_international m].
Definition clean_entry (m : lmetadata) : bool :=
  if forallb (clean_opt clean_desc) (all_descs m) then
    if forallb (clean_opt clean_pattern) [lm_international_prefix m; lm_national_prefix_for_parsing m; lm_leading_digits m]
    then if forallb clean_format (lm_formats m) then forallb clean_format (lm_international_formats m) else false
    else false
  else false.
Lemma own_line : forall s, clean_pattern s = true -> spaced s (on_own_line s).
Proof.
  intros s H. unfold on_own_line.
  change (lit "# pattern" ++ 10%N :: lit "  " ++ s) with (lit "#" ++ lit " pattern" ++ 10%N :: 32%N :: 32%N :: s).
  apply spaced_comment; [cbn; lia|]. do 2 (apply spaced_space; [unfold space; cbn; tauto|]). now apply clean_ok in H.
Qed.
Lemma spread_opt : forall A (R : A -> A -> Prop) (f : A -> bool) g o, (forall a, f a = true -> R a (g a)) ->
  clean_opt f o = true -> spaced_opt R o (option_map g o).
Proof. intros A R f g [a|] H K; constructor. now apply H. Qed.
Lemma spread_list : forall A (R : A -> A -> Prop) (f : A -> bool) g l, (forall a, f a = true -> R a (g a)) ->
  forallb f l = true -> Forall2 R l (map g l).
Proof.
  intros A R f g l H. induction l as [|a l IH]; intros K; [constructor|]. cbn [forallb] in K. apply andb_prop in K as [K1 K2].
  constructor; [now apply H|now apply IH].
Qed.
Lemma spread_desc_ok : forall d, clean_desc d = true -> spaced_desc d (spread_desc d).
Proof. intros d H. split; try reflexivity. exact (spread_opt _ _ _ _ _ own_line H). Qed.
Lemma spread_format_ok : forall f, clean_format f = true -> spaced_format f (spread_format f).
Proof.
  intros f H. unfold clean_format in H. destruct (clean_opt clean_pattern (lf_pattern f)) eqn:E; [|discriminate H].
  split; try reflexivity; [exact (spread_opt _ _ _ _ _ own_line E)|exact (spread_list _ _ _ _ _ own_line H)].
Qed.
Lemma spread_ok : forall m, clean_entry m = true -> spaced_entry m (spread m).
Proof.
  intros m H. unfold clean_entry in H. destruct (forallb (clean_opt clean_desc) (all_descs m)) eqn:E1; [|discriminate H].
  destruct (forallb (clean_opt clean_pattern) _) eqn:E2; [|discriminate H].
  destruct (forallb clean_format (lm_formats m)) eqn:E3; [|discriminate H].
  rewrite forallb_forall in E1, E2. unfold all_descs in E1.
  split; try reflexivity; try (refine (spread_opt _ _ _ _ _ spread_desc_ok (E1 _ _)); cbn [In]; tauto);
    try (refine (spread_opt _ _ _ _ _ own_line (E2 _ _)); cbn [In]; tauto).
  - exact (spread_list _ _ _ _ _ spread_format_ok E3).
  - exact (spread_list _ _ _ _ _ spread_format_ok H).
Qed.
Lemma default_clean : forallb clean_entry default_entries = true.
Proof. vm_cast_no_check (eq_refl true). Qed.
Example C50_spread : spaced_document default_entries (map spread default_entries).
Proof. exact (spread_list _ _ _ _ _ spread_ok default_clean). Qed.
Example C50_parts : spaced (lit "(?:2[1-9]|3)\d{2}") (lit "(?: 2 [1-9] | 3 )" ++ 10%N :: lit " \d {2} ").
Proof.
  apply (spaced_part (lit "(?:") (lit "2[1-9]|3)\d{2}")); [constructor|].
  apply spaced_space; [unfold space; cbn; tauto|]. apply spaced_plain; [now apply plain_check|].
  apply spaced_space; [unfold space; cbn; tauto|]. do 5 (apply spaced_plain; [now apply plain_check|]).
  apply spaced_space; [unfold space; cbn; tauto|]. apply spaced_plain; [now apply plain_check|].
  apply spaced_space; [unfold space; cbn; tauto|]. apply spaced_plain; [now apply plain_check|].
  apply spaced_space; [unfold space; cbn; tauto|]. apply spaced_plain; [now apply plain_check|].
  apply spaced_space; [unfold space; cbn; tauto|].
  apply spaced_space; [unfold space; cbn; tauto|].
  apply (spaced_part (lit "\d") (lit "{2}")); [constructor; cbn; lia|].
  apply spaced_space; [unfold space; cbn; tauto|].
  apply (spaced_part (123%N :: lit "2" ++ [125%N]) []); [constructor; intros x [<-|[]]; split; [now apply not_space|cbn; lia]|].
  apply spaced_space; [unfold space; cbn; tauto|]. constructor.
Qed.
