(** * C39-C40: numbers as they are dialled *)
From Verif Require Import Base Unicode Regex RegexSyntax Consts CountryId Types NationalNumber
  Metadata Database Validator Valid Number Rfc3966 Helper Natural PhoneNumber Parser Formatter Loader
  DefaultDb DefaultDbOk Api.
From Verif Require Import StrFacts NationalFacts RegexLang RegexFacts RegexCaps RegexDeriv RegexMany RegexExact DatabaseFacts ParserFacts
  ParseInv TextFacts ViableFacts PhoneText E164Facts CoreFacts DialFacts FormatFacts PropsPanic PropsE164.

(** ** C39: national digits, with and without the trunk prefix *)

(** the digits are those of one of the kinds of number the entry describes: a
    listed length, and the kind's pattern matches at the start *)
Definition number_of (m : metadata) (e : str) : Prop :=
  exists d, In d (types_of (md_descriptors m)) /\ In (N.of_nat (length e)) (d_possible_length d)
    /\ matches_prefix (re_ast (d_national_number d)) e.
Definition begins (s p : str) : Prop := exists rest, s = p ++ rest.
(** not below the shortest length of the entry's general description, if it has one *)
Definition not_short (m : metadata) (e : str) : Prop :=
  match d_possible_length (ds_general (md_descriptors m)) with
  | [] => True
  | n :: _ => (n <= N.of_nat (length e))%N
  end.

Lemma begins_false : forall s p, ~ begins s p -> starts_with s p = false.
Proof. intros s p H. destruct (starts_with s p) eqn:E; [|easy]. apply starts_with_spec in E. now elim H. Qed.
Lemma not_short_length : forall m e, digits e = true -> length e < 1000 -> not_short m e -> v_length m e TUnknown <> TooShort.
Proof.
  intros m e Hd Hl H. unfold v_length. cbn [ds_get]. unfold not_short in H.
  destruct (d_possible_length (ds_general (md_descriptors m))) as [|n l]; [discriminate|].
  rewrite digits_blen by exact Hd. unfold as_u16. rewrite N.mod_small by lia.
  destruct (memN _ _); [discriminate|]. destruct (N.eqb_spec (N.of_nat (length e)) n); [discriminate|].
  destruct (N.ltb_spec (N.of_nat (length e)) n); [lia|]. destruct (N.ltb _ _); [discriminate|].
  destruct (memN _ _); discriminate.
Qed.

Lemma finish_carrier : forall n e c ca nat_, finish (mk_number SrcDefault e (Some (dec c)) None None)
     = Ok (mk_phone (mk_code c SrcDefault) nat_ None None) ->
  n = mk_number SrcDefault e (Some (dec c)) None ca -> finish n = Ok (mk_phone (mk_code c SrcDefault) nat_ None ca).
Proof.
  intros n e c ca nat_ H ->. unfold finish in *. cbn [pn_national pn_country pn_extension pn_carrier] in *.
  destruct (blen e <? MIN_LENGTH_FOR_NSN); [discriminate|]. destruct (MAX_LENGTH_FOR_NSN <? blen e); [discriminate|].
  unfold prefix_value in *. cbn [pn_prefix] in *.
  destruct (ok_or (parse_u16 (dec c)) MalformedInteger); try discriminate. cbn [obind] in *.
  destruct (nn_parse e); try discriminate. cbn [obind] in *. congruence.
Qed.

Theorem C39_any_database : forall db r m e,
  all_digits e -> 2 <= length e <= 17 -> (1 <= value_of e < 2 ^ 56)%N ->
  by_id db (id_name r) = Some m -> (md_country_code m < 65536)%N ->
  not_dialled db (Some r) e -> ~ begins e (dec (md_country_code m)) -> ~ rule_applies m e ->
  exists p, parse_with db (Some r) e = Ok p
    /\ code_value (ph_code p) = md_country_code m /\ code_source (ph_code p) = SrcDefault
    /\ nn_show (ph_national p) = e /\ ph_extension p = None /\ ph_carrier p = None.
Proof.
  intros db r m e He Hl Hv Hm Hc Hdial Hb Hr. apply all_digits_iff in He.
  apply not_dialled_free in Hdial. unfold idd_of in Hdial. rewrite Hm in Hdial.
  rewrite (parse_national_digits db r m e); auto; [|lia| |left; now apply begins_false].
  2:{ destruct (md_international_prefix m); exact Hdial. }
  rewrite strip_national_silent; [|intros m' E; inversion E; subst m'; now apply no_rule_silent|reflexivity].
  cbn [obind]. destruct (finish_digits SrcDefault e (md_country_code m) He Hl) as (n & Hn & Hs & _);
    [unfold u16_max; lia|exact Hv|]. eexists. split; [exact Hn|]. cbn. auto.
Qed.
Print Assumptions C39_any_database.

(** The trunk prefix [np]: either it is taken off as it stands, or the parsing
    rule matches exactly it (and has nothing to transform). *)
Definition strips (m : metadata) (np e : str) : Prop :=
  md_national_prefix m = Some np /\ ~ begins e np /\ not_short m e /\
  forall r, md_national_prefix_for_parsing m = Some r ->
    lang (re_ast r) [] np e /\ (forall t a, np ++ e = t ++ a -> lang (re_ast r) [] t a -> t = np)
    /\ md_national_prefix_transform_rule m = None.

Lemma trunk_any : forall db r m np e,
  digits np = true -> digits e = true -> 2 <= length e <= 17 -> (1 <= value_of e < 2 ^ 56)%N ->
  by_id db (id_name r) = Some m -> (md_country_code m < 65536)%N ->
  not_dialled db (Some r) (np ++ e) -> ~ begins (np ++ e) (dec (md_country_code m)) ->
  md_national_prefix m = Some np -> ~ begins e np -> not_short m e ->
  (forall r, md_national_prefix_for_parsing m = Some r -> only_match r np e /\
     (md_national_prefix_transform_rule m = None \/
      forall mr, re_find r (np ++ e) = Some mr -> cap_get mr (re_ngroups r) = None)) ->
  exists p, parse_with db (Some r) (np ++ e) = Ok p
    /\ code_value (ph_code p) = md_country_code m /\ code_source (ph_code p) = SrcDefault
    /\ nn_show (ph_national p) = e /\ ph_extension p = None
    /\ (md_national_prefix_for_parsing m = None -> ph_carrier p = None).
Proof.
  intros db r m np e Dnp He Hl Hv Hm Hc Hdial Hb Hnp Hbe Hs Hr.
  apply not_dialled_free in Hdial. unfold idd_of in Hdial. rewrite Hm in Hdial.
  rewrite (parse_national_digits db r m (np ++ e)); auto; [|now rewrite digits_app, Dnp|rewrite app_length; lia| |left; now apply begins_false].
  2:{ destruct (md_international_prefix m); exact Hdial. }
  destruct (strip_national_prefix m (mk_number SrcDefault (np ++ e) (Some (dec (md_country_code m))) None None) np e)
    as (ca & E & Hca); auto.
  - now apply begins_false.
  - apply not_short_length; [exact He|lia|exact Hs].
  - rewrite E. cbn [obind].
    destruct (finish_digits SrcDefault e (md_country_code m) He Hl) as (n & Hn & Hsh & _);
      [unfold u16_max; lia|exact Hv|].
    eexists. split; [eapply finish_carrier; [exact Hn|reflexivity]|]. cbn. auto.
Qed.

Theorem C39_trunk_any_database : forall db r m np e,
  all_digits np -> all_digits e -> 2 <= length e <= 17 -> (1 <= value_of e < 2 ^ 56)%N ->
  by_id db (id_name r) = Some m -> (md_country_code m < 65536)%N ->
  not_dialled db (Some r) (np ++ e) -> ~ begins (np ++ e) (dec (md_country_code m)) ->
  strips m np e ->
  exists p, parse_with db (Some r) (np ++ e) = Ok p
    /\ code_value (ph_code p) = md_country_code m /\ code_source (ph_code p) = SrcDefault
    /\ nn_show (ph_national p) = e /\ ph_extension p = None
    /\ (md_national_prefix_for_parsing m = None -> ph_carrier p = None).
Proof.
  intros db r m np e Dnp He Hl Hv Hm Hc Hdial Hb (Hnp & Hbe & Hs & Hr). apply all_digits_iff in He, Dnp.
  apply trunk_any; auto. intros rx Hrx. destruct (Hr rx Hrx) as (L & U & T). split; [split; auto|now left].
Qed.
Print Assumptions C39_trunk_any_database.

(** *** The built-in metadata *)
Definition idd_check (m : metadata) (q : str) (d : descriptor) : bool :=
  match md_international_prefix m with
  | Some r => forallb (fun n => front_check ascii_digits q (N.to_nat n) (re_ast (d_national_number d)) (re_ast r))
                      (d_possible_length d)
  | None => true
  end.
Definition kept_check (m : metadata) (q : str) (d : descriptor) : bool :=
  match md_international_prefix m with
  | Some r => forallb (fun n => front_check ascii_digits q (N.to_nat n) (re_ast (d_national_number d)) (idd_then (re_ast r)))
                      (d_possible_length d)
  | None => true
  end.
(** all the numbers of the kind are matched by the general description *)
Definition general_check (d : descriptor) (m : metadata) : bool :=
  let g := ds_general (md_descriptors m) in
  match d_possible_length g with
  | [] => forallb (fun n => combos ascii_digits (N.to_nat n) (forallb (fun x => x)) (re_ast (d_national_number d))
                                   [re_ast (d_national_number g)]) (d_possible_length d)
  | _ => false
  end.
Lemma general_use : forall d m e, general_check d m = true -> digits e = true ->
  In (N.of_nat (length e)) (d_possible_length d) -> matches_prefix (re_ast (d_national_number d)) e ->
  d_is_match (ds_general (md_descriptors m)) e = true.
Proof.
  intros d m e H De I Hm. unfold general_check in H. unfold d_is_match.
  destruct (d_possible_length (ds_general (md_descriptors m))); [|discriminate].
  rewrite forallb_forall in H. apply H in I. rewrite Nnat.Nat2N.id in I.
  assert (Hc : forall c, In c e -> In c ascii_digits).
  { intros c Ic. apply digit_in. unfold digits in De. rewrite forallb_forall in De. auto. }
  destruct (combos_sound ascii_digits _ _ _ e Hc I Hm) as (v & Hv & HF).
  inversion HF as [|t r v' l' Ht HF']; subst. cbn [forallb] in Hv. apply andb_prop in Hv as [Hv _].
  apply found_at_start_spec. now apply Ht.
Qed.
Definition code_check (m : metadata) (q : str) (d : descriptor) : bool :=
  forallb (fun n => front_check ascii_digits q (N.to_nat n) (re_ast (d_national_number d))
                                (lit_re (dec (md_country_code m)))) (d_possible_length d).
Definition last_group_long (r : regex) (np : str) : bool :=
  match re_ngroups r with
  | O => false
  | S _ => forallb (fun g => if Nat.eqb (fst g) (re_ngroups r) then length np <? minlen (snd g) else true)
                   (grps (re_ast r))
  end.
Definition strip_check (m : metadata) (np : str) (d : descriptor) : bool :=
  match md_national_prefix_for_parsing m with
  | None => true
  | Some r =>
      if match md_national_prefix_transform_rule m with Some _ => last_group_long r np | None => true end
      then forallb (fun n => exact_check ascii_digits np (N.to_nat n) (re_ast (d_national_number d)) (re_ast r))
                   (d_possible_length d)
      else false
  end.
Definition twice_check (np : str) (d : descriptor) : bool :=
  forallb (fun n => front_check ascii_digits [] (N.to_nat n) (re_ast (d_national_number d)) (lit_re np))
          (d_possible_length d).

Lemma front_use : forall d q e rb, digits q = true -> digits e = true ->
  forallb (fun n => front_check ascii_digits q (N.to_nat n) (re_ast (d_national_number d)) rb) (d_possible_length d) = true ->
  In (N.of_nat (length e)) (d_possible_length d) -> matches_prefix (re_ast (d_national_number d)) e ->
  ~ matches_prefix rb (q ++ e).
Proof.
  intros d q e rb Dq De H I Hm. rewrite forallb_forall in H. apply H in I. rewrite Nnat.Nat2N.id in I.
  eapply front_check_sound; [|exact I|exact Hm]. intros c Ic. apply digit_in.
  unfold digits in Dq, De. rewrite forallb_forall in Dq, De. destruct Ic; auto.
Qed.
Lemma begins_lit : forall s p, begins s p -> matches_prefix (lit_re p) s.
Proof. intros s p (t & ->). exists p, t. split; [reflexivity|]. apply lit_re_lang. Qed.

Lemma strip_check_use : forall m np d e, digits e = true -> strip_check m np d = true ->
  In (N.of_nat (length e)) (d_possible_length d) -> matches_prefix (re_ast (d_national_number d)) e ->
  forall r, md_national_prefix_for_parsing m = Some r -> only_match r np e /\
     (md_national_prefix_transform_rule m = None \/
      forall mr, re_find r (np ++ e) = Some mr -> cap_get mr (re_ngroups r) = None).
Proof.
  intros m np d e De H I Hm r Hr. unfold strip_check in H. rewrite Hr in H.
  destruct (match md_national_prefix_transform_rule m with Some _ => _ | None => _ end) eqn:Ht; [|discriminate].
  assert (Ho : only_match r np e).
  { rewrite forallb_forall in H. apply H in I. rewrite Nnat.Nat2N.id in I.
    eapply exact_check_sound; [|exact I|exact Hm]. intros c Ic. apply digit_in.
    unfold digits in De. rewrite forallb_forall in De. auto. }
  split; [exact Ho|]. destruct (md_national_prefix_transform_rule m); [|now left]. right.
  intros mr Em. destruct (only_match_find r np e Ho) as (mr' & Em' & Hpre & Htx & Hpost).
  rewrite Em in Em'. inversion Em'; subst mr'. clear Em'. unfold last_group_long in Ht.
  destruct (cap_get mr (re_ngroups r)) as [g|] eqn:Eg; [|reflexivity]. exfalso.
  destruct (re_ngroups r) as [|k] eqn:Ek; [discriminate|].
  destruct (re_find_cap _ _ _ _ _ Em Eg) as (r' & x & y & Ig & Et & L').
  rewrite forallb_forall in Ht. apply Ht in Ig. cbn [fst snd] in Ig. rewrite Nat.eqb_refl in Ig. apply Nat.ltb_lt in Ig.
  apply (proj1 minlen_sound) in L'. rewrite Htx in Et. apply (f_equal (@length char)) in Et.
  rewrite !app_length in Et. lia.
Qed.

Definition entries_forall (f : str -> metadata -> bool) (db : database) : bool :=
  forallb (fun p => f (fst p) (snd p)) (db_by_id db).
Lemma entries_forall_use : forall f db k m, entries_forall f db = true -> by_id db k = Some m -> f k m = true.
Proof.
  intros f db k m H E. apply sget_in in E. unfold entries_forall in H. rewrite forallb_forall in H. exact (H _ E).
Qed.
Fixpoint str_mem (s : str) (l : list str) : bool :=
  match l with [] => false | x :: l => if str_eqb s x then true else str_mem s l end.
Lemma str_mem_in : forall s l, str_mem s l = true -> In s l.
Proof.
  induction l as [|x l IH]; cbn; intros H; [discriminate|]. destruct (str_eqb s x) eqn:E; [|auto].
  left. symmetry. now apply str_eqb_eq.
Qed.

Definition entry_basic (k : str) (m : metadata) : bool :=
  if N.ltb (md_country_code m) 65536 then
  if match d_possible_length (ds_general (md_descriptors m)) with [] => true | _ => false end then
  if forallb (fun d => if at_nil (map (fun _ => ch_0) (d_possible_length d)) then false else lens_ok d) (types_of (md_descriptors m)) then
    match md_national_prefix m with Some np => digits np | None => true end
  else false else false else false.
Lemma default_basic : entries_forall entry_basic default_db = true.
Proof. vm_cast_no_check (eq_refl true). Qed.

Lemma in_str_mem : forall s l, In s l -> str_mem s l = true.
Proof.
  induction l as [|x l IH]; cbn [In str_mem]; intros H; [easy|]. destruct (str_eqb s x) eqn:E; [reflexivity|].
  destruct H as [->|H]; [now rewrite str_eqb_refl in E|auto].
Qed.
(** regions where some number starts with the dialling prefix or with what the
    national-prefix rule removes *)
Definition plain_not_covered : list str :=
  [lit "BG"; lit "BR"; lit "BY"; lit "ID"; lit "IN"; lit "JP"; lit "KR"; lit "KZ"; lit "LT"; lit "PA"; lit "QA"; lit "RU"; lit "RW"; lit "TH"; lit "UY"].
Definition plain_check (k : str) (m : metadata) : bool :=
  if str_mem k plain_not_covered then true
  else if empty_check m then if prefix_nonempty m then
  forallb (fun d => if kept_check m [] d then if pair_check d m then true else if rewrite_check d m then general_check d m else false else false) (types_of (md_descriptors m))
  else false else false.
Lemma default_plain_check : entries_forall plain_check default_db = true.
Proof. vm_cast_no_check (eq_refl true). Qed.

Lemma basic_use : forall db r m e, entries_forall entry_basic db = true -> by_id db (id_name r) = Some m ->
  number_of m e ->
  (md_country_code m < 65536)%N /\ 2 <= length e <= 17 /\ not_short m e
  /\ forall np, md_national_prefix m = Some np -> digits np = true.
Proof.
  intros db r m e Hdb Hm (d & Id & Il & _). pose proof (entries_forall_use _ _ _ _ Hdb Hm) as B. unfold entry_basic in B.
  destruct (N.ltb_spec (md_country_code m) 65536) as [Hc|]; [|discriminate]. split; [exact Hc|].
  unfold not_short. destruct (d_possible_length (ds_general (md_descriptors m))); [|discriminate].
  destruct (forallb _ (types_of (md_descriptors m))) eqn:El; [|discriminate].
  rewrite forallb_forall in El. apply El in Id. destruct (at_nil _); [discriminate|]. unfold lens_ok in Id. rewrite forallb_forall in Id. apply Id in Il.
  destruct (N.leb_spec 2 (N.of_nat (length e))); [|discriminate]. apply N.leb_le in Il.
  split; [clear - H Il; lia|]. split; [exact I|]. intros np E. rewrite E in B. exact B.
Qed.

Lemma plain_with : forall db r m e, entries_forall entry_basic db = true -> entries_forall plain_check db = true ->
  by_id db (id_name r) = Some m -> ~ In (id_name r) plain_not_covered ->
  all_digits e -> (1 <= value_of e < 2 ^ 56)%N -> number_of m e -> ~ begins e (dec (md_country_code m)) ->
  exists p, parse_with db (Some r) e = Ok p
    /\ code_value (ph_code p) = md_country_code m /\ code_source (ph_code p) = SrcDefault
    /\ nn_show (ph_national p) = e /\ ph_extension p = None /\ ph_carrier p = None.
Proof.
  intros db r m e Hdb1 Hdb2 Hm Hx He Hv Hn Hb. destruct (basic_use db r m e Hdb1 Hm Hn) as (Hc & Hl & _ & _).
  pose proof (entries_forall_use _ _ _ _ Hdb2 Hm) as P. unfold plain_check in P.
  destruct (str_mem (id_name r) plain_not_covered) eqn:Es; [now apply str_mem_in in Es|].
  destruct (empty_check m) eqn:Hem; [|discriminate]. destruct (prefix_nonempty m) eqn:Hpn; [|discriminate].
  destruct Hn as (d & Id & Il & Hmp). rewrite forallb_forall in P. apply P in Id.
  destruct (kept_check m [] d) eqn:Hidd; [|discriminate]. apply all_digits_iff in He.
  assert (Hfree : idd_kept (md_international_prefix m) e).
  { unfold kept_check in Hidd. destruct (md_international_prefix m) as [rx|]; [|exact I].
    exact (front_use d [] e (idd_then (re_ast rx)) eq_refl He Hidd Il Hmp). }
  rewrite (parse_national_kept db r m e); [|exact He|lia|exact Hm|exact Hfree|left; now apply begins_false].
  rewrite strip_national_silent; [|intros m' E; inversion E; subst m'|reflexivity].
  - cbn [obind]. destruct (finish_digits SrcDefault e (md_country_code m) He Hl) as (n & Hn & Hs & _);
      [unfold u16_max; clear - Hc; lia|exact Hv|]. eexists. split; [exact Hn|]. cbn. auto.
  - cbn [pn_national].
    assert (Hdm : d_is_match d e = true).
    { unfold d_is_match. destruct (d_possible_length d) as [|n0 l0] eqn:El; [now elim Il|]. rewrite <- El in *.
      rewrite digits_blen by exact He. unfold as_u16. rewrite N.mod_small by (clear - Hl; lia).
      assert (Em : memN (N.of_nat (length e)) (d_possible_length d) = true) by now apply memN_in.
      destruct (d_possible_length d); [now elim Il|]. rewrite Em. cbn [negb]. now apply found_at_start_spec. }
    destruct (pair_check d m) eqn:Hpc.
    + apply (pair_check_silent d); [exact Hpc|exact Hem|exact Hpn|exact He|clear - Hl; lia|exact Hdm].
    + destruct (rewrite_check d m) eqn:Hrc; [|discriminate].
      apply (rewrite_check_silent d); [exact Hrc|exact He|clear - Hl; lia|exact Hdm|].
      exact (general_use d m e Id He Il Hmp).
Qed.

(** A number of the region, dialled without any prefix. *)
Theorem C39_plain : forall r m e, by_id default_db (id_name r) = Some m -> ~ In (id_name r) plain_not_covered ->
  all_digits e -> (1 <= value_of e < 2 ^ 56)%N -> number_of m e -> ~ begins e (dec (md_country_code m)) ->
  exists p, parse (Some r) e = Ok p
    /\ code_value (ph_code p) = md_country_code m /\ code_source (ph_code p) = SrcDefault
    /\ nn_show (ph_national p) = e /\ ph_extension p = None /\ ph_carrier p = None.
Proof. intros r m e. exact (plain_with default_db r m e default_basic default_plain_check). Qed.
Print Assumptions C39_plain.

(** Behind the trunk prefix, for every region but two; the text must not read as
    one that starts with a dialling prefix or the calling code, and the number
    itself must not start with the trunk prefix. *)
Definition trunk_not_covered : list str := [lit "AR"; lit "CO"].
Definition trunk_check (k : str) (m : metadata) : bool :=
  if str_mem k trunk_not_covered then true
  else match md_national_prefix m with
       | Some np => forallb (strip_check m np) (types_of (md_descriptors m))
       | None => true
       end.
Lemma default_trunk_check : entries_forall trunk_check default_db = true.
Proof. vm_cast_no_check (eq_refl true). Qed.

Lemma trunk_with : forall db r m np e, entries_forall entry_basic db = true -> entries_forall trunk_check db = true ->
  by_id db (id_name r) = Some m -> ~ In (id_name r) trunk_not_covered ->
  md_national_prefix m = Some np -> all_digits e -> (1 <= value_of e < 2 ^ 56)%N -> number_of m e ->
  not_dialled db (Some r) (np ++ e) -> ~ begins (np ++ e) (dec (md_country_code m)) -> ~ begins e np ->
  exists p, parse_with db (Some r) (np ++ e) = Ok p
    /\ code_value (ph_code p) = md_country_code m /\ code_source (ph_code p) = SrcDefault
    /\ nn_show (ph_national p) = e /\ ph_extension p = None
    /\ (md_national_prefix_for_parsing m = None -> ph_carrier p = None).
Proof.
  intros db r m np e Hdb1 Hdb2 Hm Hx Hnp He Hv Hn Hd Hb Hbe.
  destruct (basic_use db r m e Hdb1 Hm Hn) as (Hc & Hl & Hs & Hdn). pose proof (Hdn np Hnp) as Dnp.
  pose proof (entries_forall_use _ _ _ _ Hdb2 Hm) as P. unfold trunk_check in P.
  destruct (str_mem (id_name r) trunk_not_covered) eqn:Es; [now apply str_mem_in in Es|]. rewrite Hnp in P.
  destruct Hn as (d & Id & Il & Hmp). rewrite forallb_forall in P. apply P in Id. apply all_digits_iff in He.
  apply trunk_any; auto. exact (strip_check_use m np d e He Id Il Hmp).
Qed.

Theorem C39_trunk : forall r m np e, by_id default_db (id_name r) = Some m -> ~ In (id_name r) trunk_not_covered ->
  md_national_prefix m = Some np -> all_digits e -> (1 <= value_of e < 2 ^ 56)%N -> number_of m e ->
  not_dialled default_db (Some r) (np ++ e) -> ~ begins (np ++ e) (dec (md_country_code m)) -> ~ begins e np ->
  exists p, parse (Some r) (np ++ e) = Ok p
    /\ code_value (ph_code p) = md_country_code m /\ code_source (ph_code p) = SrcDefault
    /\ nn_show (ph_national p) = e /\ ph_extension p = None
    /\ (md_national_prefix_for_parsing m = None -> ph_carrier p = None).
Proof. intros r m np e. exact (trunk_with default_db r m np e default_basic default_trunk_check). Qed.
Print Assumptions C39_trunk.

(** The three conditions hold of every number of a region outside this list: the
    regions of the North American plan (their trunk prefix is their calling code)
    and twelve others. *)
Definition nanp : list str :=
  [lit "AG"; lit "AI"; lit "AS"; lit "BB"; lit "BM"; lit "BS"; lit "CA"; lit "DM"; lit "DO"; lit "GD"; lit "GU"; lit "JM"; lit "KN"; lit "KY"; lit "LC"; lit "MP"; lit "MS";
           lit "PR"; lit "SX"; lit "TC"; lit "TT"; lit "US"; lit "VC"; lit "VG"; lit "VI"].
Definition trunk_unclear : list str :=
  [lit "BG"; lit "BY"; lit "ID"; lit "IL"; lit "IN"; lit "JP"; lit "KR"; lit "KZ"; lit "RU"; lit "RW"; lit "TH"; lit "UY"] ++ nanp.
Definition clear_check (k : str) (m : metadata) : bool :=
  if str_mem k trunk_unclear then true
  else match md_national_prefix m with
       | Some np => forallb (fun d => if idd_check m np d then if code_check m np d then twice_check np d else false else false)
                            (types_of (md_descriptors m))
       | None => true
       end.
Lemma default_clear_check : entries_forall clear_check default_db = true.
Proof. vm_cast_no_check (eq_refl true). Qed.
Lemma clear_with : forall db r m np e, entries_forall entry_basic db = true -> entries_forall clear_check db = true ->
  by_id db (id_name r) = Some m -> ~ In (id_name r) trunk_unclear ->
  md_national_prefix m = Some np -> all_digits e -> number_of m e ->
  not_dialled db (Some r) (np ++ e) /\ ~ begins (np ++ e) (dec (md_country_code m)) /\ ~ begins e np.
Proof.
  intros db r m np e Hdb1 Hdb2 Hm Hx Hnp He Hn. destruct (basic_use db r m e Hdb1 Hm Hn) as (_ & _ & _ & Hdn).
  pose proof (Hdn np Hnp) as Dnp. clear Hdn Hdb1. pose proof (entries_forall_use _ _ _ _ Hdb2 Hm) as P. unfold clear_check in P.
  destruct (str_mem (id_name r) trunk_unclear) eqn:Es; [now apply str_mem_in in Es|]. rewrite Hnp in P.
  destruct Hn as (d & Id & Il & Hmp). rewrite forallb_forall in P. apply P in Id. apply all_digits_iff in He.
  destruct (idd_check m np d) eqn:H1; [|discriminate]. destruct (code_check m np d) eqn:H2; [|discriminate].
  split; [|split].
  - intros rx (m' & Hm' & Hrx). rewrite Hm in Hm'. inversion Hm'; subst m'. unfold idd_check in H1. rewrite Hrx in H1.
    exact (front_use d np e (re_ast rx) Dnp He H1 Il Hmp).
  - intros B. apply begins_lit in B. revert B. exact (front_use d np e _ Dnp He H2 Il Hmp).
  - intros B. apply begins_lit in B. revert B. exact (front_use d [] e _ eq_refl He Id Il Hmp).
Qed.
Theorem C39_trunk_clear : forall r m np e, by_id default_db (id_name r) = Some m ->
  ~ In (id_name r) (trunk_not_covered ++ trunk_unclear) ->
  md_national_prefix m = Some np -> all_digits e -> (1 <= value_of e < 2 ^ 56)%N -> number_of m e ->
  exists p, parse (Some r) (np ++ e) = Ok p
    /\ code_value (ph_code p) = md_country_code m /\ code_source (ph_code p) = SrcDefault
    /\ nn_show (ph_national p) = e /\ ph_extension p = None
    /\ (md_national_prefix_for_parsing m = None -> ph_carrier p = None).
Proof.
  intros r m np e Hm Hx Hnp He Hv Hn.
  assert (Hx1 : ~ In (id_name r) trunk_not_covered) by (intros I; apply Hx, in_app_iff; now left).
  assert (Hx2 : ~ In (id_name r) trunk_unclear) by (intros I; apply Hx, in_app_iff; now right).
  destruct (clear_with default_db r m np e default_basic default_clear_check Hm Hx2 Hnp He Hn) as (A & B & C).
  exact (C39_trunk r m np e Hm Hx1 Hnp He Hv Hn A B C).
Qed.
Print Assumptions C39_trunk_clear.

(** What [number_of] means for the API: the number type is known. *)
Lemma type_number_with : forall db k m e, entries_forall entry_basic db = true -> by_id db k = Some m ->
  all_digits e -> length e < 1000 -> number_type m e <> TUnknown -> number_of m e.
Proof.
  intros db k m e Hdb Hm He Hl Ht. apply all_digits_iff in He. apply number_type_known in Ht as (d & Id & Hd).
  pose proof (entries_forall_use _ _ _ _ Hdb Hm) as B. unfold entry_basic in B.
  destruct (N.ltb _ _); [|discriminate]. destruct (match d_possible_length _ with [] => true | _ => false end); [|discriminate].
  destruct (forallb _ (types_of (md_descriptors m))) eqn:El; [|discriminate].
  rewrite forallb_forall in El. pose proof (El _ Id) as Hne. apply d_is_match_inv in Hd as [Hlen Hp].
  - exists d. rewrite digits_blen in Hlen by exact He. auto.
  - intros E. rewrite E in Hne. discriminate.
  - now rewrite digits_blen.
Qed.
Theorem C39_typed : forall r m e, by_id default_db (id_name r) = Some m -> all_digits e -> length e < 1000 ->
  number_type m e <> TUnknown -> number_of m e.
Proof. intros r m e. exact (type_number_with default_db (id_name r) m e default_basic). Qed.
Print Assumptions C39_typed.

(** Hypotheses met: a Brussels number and a Paris one, the latter also behind "0". *)
Definition entry_of (r : id) : option metadata := by_id default_db (id_name r).
Lemma entry_of_eq : forall r, entry_of r = by_id default_db (id_name r).
Proof. intros r. unfold entry_of. reflexivity. Qed.
Lemma type_number_of : forall r e, match entry_of r with Some m => if digits e then if length e <? 1000 then
    match number_type m e with TUnknown => false | _ => true end else false else false | None => false end = true ->
  exists m, by_id default_db (id_name r) = Some m /\ all_digits e /\ number_of m e.
Proof.
  intros r e H. rewrite entry_of_eq in H. destruct (by_id default_db (id_name r)) as [m|] eqn:Hm; [|discriminate].
  destruct (digits e) eqn:He; [|discriminate]. apply all_digits_iff in He.
  destruct (Nat.ltb_spec (length e) 1000); [|discriminate]. exists m. split; [reflexivity|]. split; [exact He|].
  apply (C39_typed r m e Hm He); [assumption|]. intros E. rewrite E in H. discriminate.
Qed.
Example C39_ex_plain : exists m, by_id default_db (id_name ID_BE) = Some m /\ all_digits (lit "25551234")
  /\ number_of m (lit "25551234") /\ ~ In (id_name ID_BE) plain_not_covered
  /\ parse (Some ID_BE) (lit "25551234") = Ok (mk_phone (mk_code 32 SrcDefault) (mk_national 25551234) None None).
Proof.
  destruct (type_number_of ID_BE (lit "25551234")) as (m & A & B & C); [vm_compute; reflexivity|].
  exists m. split; [exact A|]. split; [exact B|]. split; [exact C|]. split; [cbn; intuition discriminate|vm_compute; reflexivity].
Qed.
Example C39_ex_trunk : exists m, by_id default_db (id_name ID_FR) = Some m /\ all_digits (lit "142685300")
  /\ number_of m (lit "142685300") /\ ~ In (id_name ID_FR) (trunk_not_covered ++ trunk_unclear)
  /\ match entry_of ID_FR with Some m => md_national_prefix m = Some (lit "0") | None => False end
  /\ parse (Some ID_FR) (lit "0142685300") = Ok (mk_phone (mk_code 33 SrcDefault) (mk_national 142685300) None None).
Proof.
  destruct (type_number_of ID_FR (lit "142685300")) as (m & A & B & C); [vm_compute; reflexivity|].
  exists m. split; [exact A|]. split; [exact B|]. split; [exact C|]. split; [cbn; intuition discriminate|vm_compute; auto].
Qed.

(** The exceptions are real.  In each case the digits are of a known type in the
    region. *)
Definition known_in (o : option metadata) (e : str) : bool :=
  match o with Some m => match number_type m e with TUnknown => false | _ => true end | None => false end.
Definition known_type (r : id) (e : str) : bool := known_in (entry_of r) e.
Lemma known_number : forall r e m, entry_of r = Some m -> digits e = true -> (length e <? 1000) = true ->
  known_type r e = true -> number_of m e.
Proof.
  intros r e m Hm De Hl Hk. unfold known_type in Hk. rewrite Hm in Hk. rewrite entry_of_eq in Hm. apply (C39_typed r m e Hm).
  - now apply all_digits_iff.
  - now apply Nat.ltb_lt.
  - intros E. unfold known_in in Hk. rewrite E in Hk. discriminate.
Qed.
Definition shows (r : outcome perr phone) (c : N) (s : source) (e : str) (ca : option str) : Prop :=
  match r with
  | Ok p => code_value (ph_code p) = c /\ code_source (ph_code p) = s /\ nn_show (ph_national p) = e /\ ph_carrier p = ca
  | _ => False
  end.
(** a number of each region left out of [C39_plain] that is not read as it stands *)
Definition plain_witness (r : id) : option str :=
  match r with
  | ID_BG => Some (lit "008000000000") | ID_BR => Some (lit "900000001")
  | ID_BY => Some (lit "8100000000") | ID_ID => Some (lit "00180300000") | ID_IN => Some (lit "0008000000000")
  | ID_JP => Some (lit "00777000") | ID_KR => Some (lit "00308000000") | ID_KZ => Some (lit "8090000000")
  | ID_LT => Some (lit "80100000") | ID_PA => Some (lit "00800000000") | ID_QA => Some (lit "00800000000")
  | ID_RU => Some (lit "8030000000") | ID_RW => Some (lit "06000000") | ID_TH => Some (lit "0018000000000")
  | ID_UY => Some (lit "000400")
  | _ => None
  end.
Definition value_fine (e : str) : bool := if N.leb 1 (value_of e) then N.ltb (value_of e) (2 ^ 56) else false.
Definition misread_in (o : option metadata) (known : bool) (e : str) (x : outcome perr phone) : bool :=
  match o with
  | None => false
  | Some m =>
      if digits e then if length e <? 1000 then if value_fine e then if known then
      if starts_with e (dec (md_country_code m)) then false else
      match x with Ok p => negb (str_eqb (nn_show (ph_national p)) e) | _ => true end
      else false else false else false else false
  end.
Definition misread (r : id) (e : str) : bool := misread_in (entry_of r) (known_type r e) e (parse (Some r) e).
Definition plain_witnesses : bool :=
  forallb (fun r => if str_mem (id_name r) plain_not_covered
                    then match plain_witness r with Some e => misread r e | None => false end else true) all_ids.
Lemma default_plain_witnesses : plain_witnesses = true.
Proof. vm_cast_no_check (eq_refl true). Qed.
Lemma starts_begins : forall s p, begins s p -> starts_with s p = true.
Proof. intros s p (rest & ->). apply starts_with_app. Qed.
Lemma misread_sound : forall r e, misread r e = true -> exists m, by_id default_db (id_name r) = Some m /\ all_digits e
  /\ (1 <= value_of e < 2 ^ 56)%N /\ number_of m e /\ ~ begins e (dec (md_country_code m))
  /\ ~ exists p, parse (Some r) e = Ok p /\ nn_show (ph_national p) = e.
Proof.
  intros r e H. unfold misread in H. destruct (entry_of r) as [m|] eqn:Hm; [|discriminate]. unfold misread_in in H.
  destruct (digits e) eqn:De; [|discriminate]. destruct (length e <? 1000) eqn:Hl; [|discriminate].
  destruct (value_fine e) eqn:Hv; [|discriminate]. destruct (known_type r e) eqn:Hk; [|discriminate].
  destruct (starts_with e _) eqn:Hs; [discriminate|].
  pose proof (known_number r e m Hm De Hl Hk) as C. rewrite entry_of_eq in Hm.
  exists m. split; [exact Hm|]. split; [now apply all_digits_iff|]. split.
  { unfold value_fine in Hv. destruct (N.leb_spec 1 (value_of e)); [|discriminate]. apply N.ltb_lt in Hv. split; assumption. }
  split; [exact C|]. split.
  - intros K. apply starts_begins in K. rewrite K in Hs. discriminate.
  - intros (p & Ep & Es). rewrite Ep, Es, str_eqb_refl in H. discriminate.
Qed.
(** The regions of [C39_plain] are exactly the right ones. *)
Theorem C39_plain_exact : forall r m, by_id default_db (id_name r) = Some m ->
  (~ In (id_name r) plain_not_covered <->
   forall e, all_digits e -> (1 <= value_of e < 2 ^ 56)%N -> number_of m e -> ~ begins e (dec (md_country_code m)) ->
   exists p, parse (Some r) e = Ok p
     /\ code_value (ph_code p) = md_country_code m /\ code_source (ph_code p) = SrcDefault
     /\ nn_show (ph_national p) = e /\ ph_extension p = None /\ ph_carrier p = None).
Proof.
  intros r m Hm. split; [intros Hx e; exact (C39_plain r m e Hm Hx)|].
  intros H I. pose proof default_plain_witnesses as W. unfold plain_witnesses in W. rewrite forallb_forall in W.
  pose proof (W r (all_ids_complete r)) as K. clear W. rewrite (in_str_mem _ _ I) in K.
  destruct (plain_witness r) as [e|]; [|discriminate]. apply misread_sound in K as (m' & A & B & C & D & E & F).
  rewrite Hm in A. inversion A; subst m'. apply F. destruct (H e B C D E) as (p & P1 & _ & _ & P2 & _). exists p. auto.
Qed.
Print Assumptions C39_plain_exact.

(** a Russian freephone number dialled with the trunk prefix 8: the 8 is taken off twice *)
Theorem C39_russia_refuted : exists e, known_type ID_RU e = true
  /\ shows (parse (Some ID_RU) (lit "8" ++ e)) 7 SrcDefault (lit "001234567") None /\ e = lit "8001234567".
Proof. exists (lit "8001234567"). vm_compute. repeat split. Qed.
(** a number of Emden, area code 4921: taken for +49 21... *)
Theorem C39_own_code_refuted : exists e, known_type ID_DE e = true
  /\ shows (parse (Some ID_DE) e) 49 SrcNumber (lit "21123456") None /\ e = lit "4921123456".
Proof. exists (lit "4921123456"). vm_compute. repeat split. Qed.
(** an Israeli freephone number behind the trunk prefix: taken for a call to Brazil *)
Theorem C39_dialled_refuted : exists e, known_type ID_IL e = true
  /\ shows (parse (Some ID_IL) (lit "0" ++ e)) 55 SrcIdd (lit "123") None /\ e = lit "1255123".
Proof. exists (lit "1255123"). vm_compute. repeat split. Qed.
(** a Colombian mobile number behind the trunk prefix: its first digit is taken for a carrier *)
Theorem C39_colombia_refuted : exists e, known_type ID_CO e = true
  /\ shows (parse (Some ID_CO) (lit "0" ++ e)) 57 SrcDefault (lit "211234567") (Some (lit "3")) /\ e = lit "3211234567".
Proof. exists (lit "3211234567"). vm_compute. repeat split. Qed.
(** with a parsing rule, the trunk prefix itself is reported as the carrier *)
Theorem C39_carrier_refuted : exists e, known_type ID_GB e = true
  /\ shows (parse (Some ID_GB) (lit "0" ++ e)) 44 SrcDefault e (Some (lit "0")) /\ e = lit "2070313000".
Proof. exists (lit "2070313000"). vm_compute. repeat split. Qed.
(** a Lithuanian shared-cost number: the leading 80 is taken off *)
Theorem C39_lithuania_refuted : exists e, known_type ID_LT e = true
  /\ shows (parse (Some ID_LT) e) 370 SrcDefault (lit "800000") (Some (lit "8")) /\ e = lit "80800000".
Proof. exists (lit "80800000"). vm_compute. repeat split. Qed.

(** ** C40: the dialling prefix and the calling code without '+' *)

(** the same result, but for where the calling code came from *)
Definition but_source (s : source) (r : outcome perr phone) : outcome perr phone :=
  match r with
  | Ok p => Ok (mk_phone (mk_code (code_value (ph_code p)) s) (ph_national p) (ph_extension p) (ph_carrier p))
  | Err e => Err e
  | Panic => Panic
  end.
Lemma but_source_omap : forall s r, but_source s r = omap (relabel_phone s) r.
Proof. intros s [p|e|]; reflexivity. Qed.

Lemma dial_prefix_idd : forall db country r, dial_prefix db country r -> idd_of db country = Some r.
Proof.
  intros db [c|] r H; cbn in H; unfold idd_of.
  - destruct H as (m & -> & ->). reflexivity.
  - now subst.
Qed.

(** [x] is what the dialling-prefix pattern matches at the start of [x ++ d], and
    the only thing it matches there *)
Definition dials (db : database) (country : option id) (x d : str) : Prop :=
  exists r, dial_prefix db country r /\ lang (re_ast r) [] x d
    /\ forall t a, x ++ d = t ++ a -> lang (re_ast r) [] t a -> t = x.

Theorem C40_dialled : forall db country country' x d,
  dials db country x d -> all_digits x -> all_digits d -> 3 <= length d -> ~ begins d (lit "0") ->
  not_dialled db country' d ->
  parse_with db country (x ++ d) = but_source SrcIdd (parse_with db country' (lit "+" ++ d)).
Proof.
  intros db country country' x d (r & Hr & L & U) Hx Hd Hl H0 Hd'. apply all_digits_iff in Hx, Hd.
  apply dial_prefix_idd in Hr. apply not_dialled_free in Hd'. apply begins_false in H0.
  rewrite (parse_idd_digits db country r x d); auto; [|now split].
  change (lit "+" ++ d) with (ch_plus :: d). rewrite parse_plus_digits by assumption.
  destruct (Nat.ltb_spec (length d) 3); [lia|]. change (lit "0") with [ch_0] in H0. rewrite H0.
  destruct (code_len db d) as [k|]; [|reflexivity]. cbv zeta.
  destruct (source_for db _ _) as [src|e|]; cbn [obind]; try reflexivity.
  rewrite but_source_omap. rewrite <- tail_country. reflexivity.
Qed.
Print Assumptions C40_dialled.

(** without a reference country the dialling prefix is "00" *)
Lemma only_00 : forall d t a, lit "00" ++ d = t ++ a -> lang (re_ast DEFAULT_IDD) [] t a -> t = lit "00".
Proof.
  intros d t a E L. cbn in L. inversion L as [| |r1 r2 b t1 t2 a' L1 L2| | | | | |]; subst.
  inversion L1; subst. inversion L2; subst. cbn in E. inversion E; subst. reflexivity.
Qed.
Theorem C40_default_prefix : forall db d, all_digits d -> 3 <= length d -> ~ begins d (lit "0") ->
  parse_with db None (lit "00" ++ d) = but_source SrcIdd (parse_with db None (lit "+" ++ d)).
Proof.
  intros db d Hd Hl H0. apply C40_dialled; auto.
  - exists DEFAULT_IDD. split; [reflexivity|]. split; [|apply only_00].
    apply can_match_sound. reflexivity.
  - apply all_digits_iff. reflexivity.
  - intros r Hr (t & a & E & L). cbn in Hr. subst r. apply all_digits_iff in Hd.
    destruct t as [|y t]. { eapply never_empty_sound; [|exact L]. reflexivity. }
    rewrite E in Hd. cbn [app digits forallb] in Hd. apply andb_true_iff in Hd as [Hy _].
    eapply (first_in_sound ascii_digits [ch_0]) in L; [|reflexivity|now apply digit_in].
    destruct L as [L|[]]. apply H0. exists (t ++ a). rewrite E, <- L. reflexivity.
Qed.
Print Assumptions C40_default_prefix.

(** in the built-in metadata: wherever the dialling prefix is plain digits *)
Fixpoint lit_text (r : re) : option str :=
  match r with
  | REps => Some []
  | RCls (CRange lo hi) => if N.eqb lo hi then Some [lo] else None
  | RCat a b => match lit_text a, lit_text b with Some x, Some y => Some (x ++ y) | _, _ => None end
  | _ => None
  end.
Lemma lit_text_lang : forall r x, lit_text r = Some x -> forall b t a, lang r b t a <-> t = x.
Proof.
  induction r as [|c|r1 IH1 r2 IH2| | | | |]; intros x H b t a; cbn [lit_text] in H; try discriminate.
  - inversion H; subst. split; [intros L; now inversion L|intros ->; constructor].
  - destruct c as [lo hi| | | | |]; try discriminate. destruct (N.eqb_spec lo hi); [|discriminate]. inversion H; subst. split.
    + intros L. inversion L; subst. match goal with H : in_cls _ _ = true |- _ => cbn in H; rewrite in_range_single in H; apply N.eqb_eq in H; now subst end.
    + intros ->. constructor. cbn. rewrite in_range_single. apply N.eqb_refl.
  - destruct (lit_text r1) as [x1|]; [|discriminate]. destruct (lit_text r2) as [x2|]; [|discriminate]. inversion H; subst. split.
    + intros L. inversion L as [| |s1 s2 b' t1 t2 a' L1 L2| | | | | |]; subst. apply (IH1 x1 eq_refl) in L1.
      apply (IH2 x2 eq_refl) in L2. now subst.
    + intros ->. constructor; [now apply (IH1 x1)|now apply (IH2 x2)].
Qed.
Definition plain_idd (k : str) (m : metadata) : bool :=
  match md_international_prefix m with
  | Some r => if digits (re_src r) then match lit_text (re_ast r) with Some t => str_eqb t (re_src r) | None => false end else true
  | None => true
  end.
Lemma default_plain_idd : entries_forall plain_idd default_db = true.
Proof. vm_cast_no_check (eq_refl true). Qed.
Lemma plain_idd_dials : forall db r m rx d, entries_forall plain_idd db = true -> by_id db (id_name r) = Some m ->
  md_international_prefix m = Some rx -> all_digits (re_src rx) -> dials db (Some r) (re_src rx) d.
Proof.
  intros db r m rx d Hdb Hm Hrx Hd. exists rx. split; [exists m; auto|].
  pose proof (entries_forall_use _ _ _ _ Hdb Hm) as B. unfold plain_idd in B. rewrite Hrx in B.
  apply all_digits_iff in Hd. rewrite Hd in B. destruct (lit_text (re_ast rx)) as [t|] eqn:Et; [|discriminate].
  apply str_eqb_eq in B. subst t. split; [now apply (lit_text_lang _ _ Et)|]. intros t a _ L.
  now apply (lit_text_lang _ _ Et) in L.
Qed.
Theorem C40_from_region : forall r m rx d, by_id default_db (id_name r) = Some m ->
  md_international_prefix m = Some rx -> all_digits (re_src rx) ->
  all_digits d -> 3 <= length d -> ~ begins d (lit "0") ->
  parse (Some r) (re_src rx ++ d) = but_source SrcIdd (parse None (lit "+" ++ d)).
Proof.
  intros r m rx d Hm Hrx Hx Hd Hl H0.
  apply (C40_dialled default_db (Some r) None); auto.
  - exact (plain_idd_dials default_db r m rx d default_plain_idd Hm Hrx Hx).
  - intros r' Hr (t & a & E & L). cbn in Hr. subst r'. apply all_digits_iff in Hd.
    destruct t as [|y t]. { eapply never_empty_sound; [|exact L]. reflexivity. }
    rewrite E in Hd. cbn [app digits forallb] in Hd. apply andb_true_iff in Hd as [Hy _].
    eapply (first_in_sound ascii_digits [ch_0]) in L; [|reflexivity|now apply digit_in].
    destruct L as [L|[]]. apply H0. exists (t ++ a). rewrite E, <- L. reflexivity.
Qed.
Print Assumptions C40_from_region.

(** *** The calling code of the reference country without any prefix *)
(** the digits are, as they stand, of a length and shape the entry's general
    description allows *)
Definition as_it_stands (m : metadata) (w : str) : Prop :=
  In (N.of_nat (length w)) (d_possible_length (ds_general (md_descriptors m)))
  /\ matches_prefix (re_ast (d_national_number (ds_general (md_descriptors m)))) w.

Lemma not_as_it_stands : forall m w, digits w = true -> length w < 1000 -> ~ as_it_stands m w ->
  d_is_match (ds_general (md_descriptors m)) w = false \/ is_possible (v_length m w TUnknown) = false.
Proof.
  intros m w Hd Hl H. destruct (d_is_match (ds_general (md_descriptors m)) w) eqn:E; [|now left]. right.
  destruct (d_possible_length (ds_general (md_descriptors m))) as [|n l] eqn:El.
  - unfold v_length. cbn [ds_get]. rewrite El. reflexivity.
  - exfalso. apply H. apply d_is_match_inv in E as [I Hp]; [|rewrite El; discriminate|now rewrite digits_blen].
    rewrite digits_blen in I by exact Hd. now split.
Qed.

Lemma code_len_known : forall db c e, digits e = true -> c <> 0%N -> (c <= 999)%N -> by_code db c <> None ->
  (forall c' rest, by_code db c' <> None -> (c' <= 999)%N -> dec c = dec c' ++ rest -> rest = []) ->
  exists k, code_len db (dec c ++ e) = Some k /\ digits_val (firstn k (dec c ++ e)) = c /\ skipn k (dec c ++ e) = e.
Proof.
  intros db c e He Hc Hc9 Hk Huniq. destruct (dec_head _ Hc) as (x & t & Edec & Hx).
  assert (Dd : digits (dec c ++ e) = true) by now rewrite digits_app, digits_dec.
  pose proof (code_len_spec db x (t ++ e)) as S. change (x :: t ++ e) with ((x :: t) ++ e) in S. rewrite <- Edec in S.
  specialize (S Dd Hx). destruct (code_len db (dec c ++ e)) as [k|].
  2: { exfalso. apply (S c e Hk Hc9). reflexivity. }
  destruct S as (Hk3 & code & Kc & Hle & Ecode & Es & Hmin).
  assert (Hcc : code = c).
  { pose proof (Hmin c e Hk Hc9 eq_refl) as Hm.
    assert (E : dec c = dec code ++ skipn (length (dec code)) (dec c)).
    { assert (F : firstn (length (dec code)) (dec c ++ e) = dec code).
      { rewrite Es, firstn_app, Nat.sub_diag, firstn_all, firstn_O. apply app_nil_r. }
      rewrite firstn_app in F. replace (length (dec code) - length (dec c)) with 0 in F by lia.
      rewrite firstn_O, app_nil_r in F. rewrite <- F at 1. symmetry. apply firstn_skipn. }
    pose proof (Huniq code _ Kc Hle E) as R. rewrite R, app_nil_r in E. now apply dec_inj. }
  rewrite Hcc in *. clear Hcc. exists k. split; [reflexivity|]. split; [now symmetry|].
  apply app_inv_head in Es. now symmetry.
Qed.

Theorem C40_own_code : forall db r m country' w, by_id db (id_name r) = Some m ->
  let c := md_country_code m in
  (1 <= c <= 999)%N -> by_code db c <> None ->
  (forall c' rest, by_code db c' <> None -> (c' <= 999)%N -> dec c = dec c' ++ rest -> rest = []) ->
  all_digits w -> 3 <= length (dec c ++ w) < 1000 ->
  not_dialled db (Some r) (dec c ++ w) -> not_dialled db country' (dec c ++ w) ->
  ~ as_it_stands m (dec c ++ w) ->
  parse_with db (Some r) (dec c ++ w) = but_source SrcNumber (parse_with db country' (lit "+" ++ dec c ++ w)).
Proof.
  intros db r m country' w Hm c Hc Hk Hu Hw Hl Hd Hd' Hs. apply all_digits_iff in Hw.
  assert (Dcw : digits (dec c ++ w) = true) by (rewrite digits_app, digits_dec; exact Hw).
  apply not_dialled_free in Hd, Hd'. unfold idd_of in Hd. rewrite Hm in Hd.
  assert (H : parse_with db (Some r) (dec c ++ w) =
    let* src := source_for db c (trim_start_char ch_0 w) in
    let* n := strip_national (source_meta db src) (mk_number SrcNumber w (Some (dec c)) None None) in finish n).
  { apply (parse_code_digits db r m w); auto; fold c; [lia| |unfold u16_max; lia|apply not_as_it_stands; auto; lia].
    destruct (md_international_prefix m); exact Hd. }
  rewrite H. clear H. change (lit "+" ++ dec c ++ w) with (ch_plus :: dec c ++ w). rewrite parse_plus_digits by assumption.
  destruct (Nat.ltb_spec (length (dec c ++ w)) 3); [lia|].
  assert (H0 : starts_with (dec c ++ w) [ch_0] = false).
  { assert (Hz : c <> 0%N) by lia. destruct (dec_head _ Hz) as (x & t & Ex & Hx). rewrite Ex. cbn.
    destruct (N.eqb_spec x ch_0); [now elim Hx|reflexivity]. }
  rewrite H0. assert (Hz : c <> 0%N) by lia. assert (H9 : (c <= 999)%N) by lia.
  destruct (code_len_known db c w Hw Hz H9 Hk Hu) as (k & -> & E1 & E2). cbv zeta. rewrite E1, E2.
  destruct (source_for db c (trim_start_char ch_0 w)) as [src|e|]; cbn [obind]; try reflexivity.
  rewrite but_source_omap, <- tail_country. reflexivity.
Qed.
Print Assumptions C40_own_code.

Lemma nget_listed : forall A (l : list (N * A)) k v, In (k, v) l -> nget l k <> None.
Proof.
  induction l as [|[k' v'] l IH]; intros k v I; [now elim I|]. cbn [nget]. destruct (N.eqb_spec k' k); [discriminate|].
  destruct I as [E|I]; [inversion E; now subst|]. exact (IH k v I).
Qed.
Definition code_listed (k : str) (m : metadata) : bool := memN (md_country_code m) default_codes.
Lemma default_code_listed : entries_forall code_listed default_db = true.
Proof. vm_cast_no_check (eq_refl true). Qed.
Lemma default_as_it_stands : forall k m w, by_id default_db k = Some m -> ~ as_it_stands m w.
Proof.
  intros k m w Hm. pose proof (entries_forall_use _ _ _ _ default_basic Hm) as B. unfold entry_basic in B. intros [I _].
  destruct (N.ltb _ _); [|discriminate]. destruct (d_possible_length (ds_general (md_descriptors m))); [|discriminate]. exact I.
Qed.
(** With the built-in metadata: whatever follows the region's own calling code. *)
Theorem C40_own_code_default : forall r m w, by_id default_db (id_name r) = Some m ->
  all_digits w -> 3 <= length (dec (md_country_code m) ++ w) < 1000 ->
  not_dialled default_db (Some r) (dec (md_country_code m) ++ w) ->
  parse (Some r) (dec (md_country_code m) ++ w)
  = but_source SrcNumber (parse None (lit "+" ++ dec (md_country_code m) ++ w)).
Proof.
  intros r m w Hm Hw Hl Hd.
  assert (Hk : by_code default_db (md_country_code m) <> None).
  { pose proof (entries_forall_use _ _ _ _ default_code_listed Hm) as B. apply memN_in in B.
    rewrite <- default_codes_ok in B. apply in_map_iff in B as ((c & l) & E & I). cbn [fst] in E. subst c.
    apply (nget_listed _ _ _ _ I). }
  pose proof (code_range _ Hk) as Hr.
  apply (C40_own_code default_db r m None w Hm); auto.
  - intros c' rest Hk' _ E. exact (codes_unique _ _ _ Hk' Hk E).
  - apply default_idd_free. lia.
  - exact (default_as_it_stands _ m _ Hm).
Qed.
Print Assumptions C40_own_code_default.

(** But digits that are possible as they stand keep what looks like the calling
    code (the lengths of the general description being in order). *)
Lemma as_it_stands_possible : forall m w n l, digits w = true -> length w < 1000 ->
  d_possible_length (ds_general (md_descriptors m)) = n :: l ->
  (forall x, In x (n :: l) -> (n <= x <= last (n :: l) 0)%N) -> as_it_stands m w ->
  d_is_match (ds_general (md_descriptors m)) w = true /\ is_possible (v_length m w TUnknown) = true.
Proof.
  intros m w n l Hd Hl El Ho [I Hp]. rewrite El in I. pose proof (Ho _ I) as B.
  assert (Em : memN (N.of_nat (length w)) (n :: l) = true) by now apply memN_in. split.
  - unfold d_is_match. rewrite El, digits_blen by exact Hd. unfold as_u16. rewrite N.mod_small by lia. rewrite Em.
    cbn [negb]. now apply found_at_start_spec.
  - unfold v_length. cbn [ds_get]. rewrite El, digits_blen by exact Hd. unfold as_u16. rewrite N.mod_small by lia.
    destruct (memN _ (d_possible_local_length _)); [reflexivity|].
    destruct (N.eqb _ n); [reflexivity|]. destruct (N.ltb_spec (N.of_nat (length w)) n); [lia|].
    destruct (N.ltb_spec (last (n :: l) 0%N) (N.of_nat (length w))); [lia|]. rewrite Em. reflexivity.
Qed.
Theorem C40_possible_kept : forall db r m e n l,
  all_digits e -> 2 <= length e <= 17 -> (1 <= value_of e < 2 ^ 56)%N ->
  by_id db (id_name r) = Some m -> (md_country_code m < 65536)%N ->
  not_dialled db (Some r) e -> ~ rule_applies m e ->
  d_possible_length (ds_general (md_descriptors m)) = n :: l ->
  (forall x, In x (n :: l) -> (n <= x <= last (n :: l) 0)%N) -> as_it_stands m e ->
  exists p, parse_with db (Some r) e = Ok p
    /\ code_value (ph_code p) = md_country_code m /\ code_source (ph_code p) = SrcDefault
    /\ nn_show (ph_national p) = e /\ ph_extension p = None /\ ph_carrier p = None.
Proof.
  intros db r m e n0 l He Hl Hv Hm Hc Hdial Hr El Ho Hs. apply all_digits_iff in He.
  apply not_dialled_free in Hdial. unfold idd_of in Hdial. rewrite Hm in Hdial.
  rewrite (parse_national_digits db r m e); auto; [|lia| |right; eapply as_it_stands_possible; eauto; lia].
  2:{ destruct (md_international_prefix m); exact Hdial. }
  rewrite strip_national_silent; [|intros m' E; inversion E; subst m'; now apply no_rule_silent|reflexivity].
  cbn [obind]. destruct (finish_digits SrcDefault e (md_country_code m) He Hl) as (n & Hn & Hsh & _);
    [unfold u16_max; lia|exact Hv|]. eexists. split; [exact Hn|]. cbn. auto.
Qed.
Print Assumptions C40_possible_kept.

(** Hypotheses met: Brussels from the United States and from anywhere, and with
    its calling code but no prefix. *)
Example C40_ex_region : exists m rx, by_id default_db (id_name ID_US) = Some m /\ md_international_prefix m = Some rx
  /\ re_src rx = lit "011"
  /\ parse (Some ID_US) (lit "01132" ++ lit "25551234") = Ok (mk_phone (mk_code 32 SrcIdd) (mk_national 25551234) None None).
Proof.
  assert (H : match entry_of ID_US with Some m => match md_international_prefix m with Some rx => re_src rx = lit "011" | None => False end
              | None => False end) by (vm_compute; reflexivity).
  unfold entry_of in H. destruct (by_id default_db (id_name ID_US)) as [m|]; [|easy].
  destruct (md_international_prefix m) as [rx|] eqn:E; [|easy]. exists m, rx.
  split; [reflexivity|]. split; [exact E|]. split; [exact H|]. vm_compute. reflexivity.
Qed.
Example C40_ex_default : parse None (lit "0032" ++ lit "25551234") = Ok (mk_phone (mk_code 32 SrcIdd) (mk_national 25551234) None None)
  /\ parse None (lit "+32" ++ lit "25551234") = Ok (mk_phone (mk_code 32 SrcPlus) (mk_national 25551234) None None)
  /\ parse (Some ID_BE) (lit "32" ++ lit "25551234") = Ok (mk_phone (mk_code 32 SrcNumber) (mk_national 25551234) None None).
Proof. vm_compute. auto. Qed.
(** an Australian dialling prefix, one of several *)
Example C40_ex_dials : dials default_db (Some ID_AU) (lit "0011") (lit "3225551234")
  /\ parse (Some ID_AU) (lit "0011" ++ lit "3225551234") = Ok (mk_phone (mk_code 32 SrcIdd) (mk_national 25551234) None None).
Proof.
  split; [|vm_compute; reflexivity].
  assert (H : match entry_of ID_AU with
    | Some m => match md_international_prefix m with
                | Some rx => exact_check ascii_digits (lit "0011") 10 (lit_re (lit "3225551234")) (re_ast rx) | None => false end
    | None => false end = true) by (vm_compute; reflexivity).
  unfold entry_of in H. destruct (by_id default_db (id_name ID_AU)) as [m|] eqn:Em; [|easy].
  destruct (md_international_prefix m) as [rx|] eqn:Er; [|easy].
  destruct (exact_check_sound ascii_digits (lit "0011") (lit_re (lit "3225551234")) rx (lit "3225551234")) as [L U].
  - intros c I. apply digit_in. assert (D : digits (lit "3225551234") = true) by reflexivity. unfold digits in D.
    rewrite forallb_forall in D. auto.
  - exact H.
  - apply begins_lit. exists []. reflexivity.
  - exists rx. split; [exists m; auto|auto].
Qed.
(** below three digits the two forms fail differently *)
Theorem C40_short_refuted : exists d, parse None (lit "00" ++ d) = Err TooShortNsn
  /\ parse None (lit "+" ++ d) = Err NoNumber /\ d = lit "32".
Proof. exists (lit "32"). vm_compute. auto. Qed.

(** A database whose entry gives general lengths: nine and ten digits.  Then the
    number of Emden is read as such, with and without the trunk prefix, and the
    calling code is still taken off where the digits are too many. *)
Definition tiny_desc : descriptor :=
  mk_descriptor (mk_regex (lit "\d") (RCls (CUni UNd)) 0) [9; 10]%N [] None.
Definition tiny_entry : metadata :=
  mk_metadata (mk_descriptors tiny_desc None None None None None None None None None None None None None None None)
    (lit "DE") 49 None None (Some (lit "0")) None None None [] [] false None false.
Definition tiny_db : database := db_of [tiny_entry].
Lemma tiny_stands : forall e, digits e = true -> In (length e) [9; 10] -> as_it_stands tiny_entry e.
Proof.
  intros e De I. split.
  - cbn in I. destruct I as [<-|[<-|[]]]; vm_compute; auto.
  - destruct e as [|c e]; [cbn in I; intuition discriminate|]. exists [c], e. split; [reflexivity|].
    cbn in De. apply andb_true_iff in De as [Hc _]. apply is_digit_spec in Hc. constructor. cbn [in_cls ucat_tbl].
    change tbl_Nd with ((48%N, 57%N) :: tl tbl_Nd). cbn [in_ranges]. unfold in_range.
    destruct (N.leb_spec 48 c), (N.leb_spec c 57); try lia. reflexivity.
Qed.
Example C40_ex_kept : let e := lit "4921123456" in
  all_digits e /\ by_id tiny_db (id_name ID_DE) = Some tiny_entry /\ as_it_stands tiny_entry e
  /\ not_dialled tiny_db (Some ID_DE) e /\ ~ rule_applies tiny_entry e
  /\ (forall x, In x [9; 10] -> (9 <= x <= last [9; 10] 0))%N
  /\ parse_with tiny_db (Some ID_DE) e = Ok (mk_phone (mk_code 49 SrcDefault) (mk_national 4921123456) None None)
  /\ parse_with tiny_db (Some ID_DE) (lit "0" ++ e) = Ok (mk_phone (mk_code 49 SrcDefault) (mk_national 4921123456) None None)
  /\ parse_with tiny_db (Some ID_DE) (lit "49" ++ e) = Ok (mk_phone (mk_code 49 SrcNumber) (mk_national 4921123456) None None).
Proof.
  cbv zeta. split; [apply all_digits_iff; reflexivity|]. split; [vm_compute; reflexivity|].
  split; [apply tiny_stands; [reflexivity|cbn; auto]|].
  split; [intros r (m & Hm & Hr); vm_compute in Hm; inversion Hm; subst m; discriminate Hr|].
  split; [intros [(r & Hr & _)|(p & rest & Hp & E)]; [discriminate Hr|inversion Hp; subst p; discriminate E]|].
  split; [intros x [<-|[<-|[]]]; cbn; lia|]. vm_compute. repeat split.
Qed.
Example C39_ex_any : let e := lit "301234567" in
  by_id tiny_db (id_name ID_DE) = Some tiny_entry /\ strips tiny_entry (lit "0") e
  /\ ~ begins (lit "0" ++ e) (dec 49) /\ ~ begins e (dec 49)
  /\ parse_with tiny_db (Some ID_DE) (lit "0" ++ e) = Ok (mk_phone (mk_code 49 SrcDefault) (mk_national 301234567) None None)
  /\ parse_with tiny_db (Some ID_DE) e = Ok (mk_phone (mk_code 49 SrcDefault) (mk_national 301234567) None None).
Proof.
  cbv zeta. split; [vm_compute; reflexivity|]. split.
  { split; [reflexivity|]. split; [intros (t & E); discriminate E|]. split; [cbn; lia|]. intros r Hr. discriminate Hr. }
  split; [intros (t & E); discriminate E|]. split; [intros (t & E); discriminate E|]. vm_compute. auto.
Qed.

(** The trunk prefix is not taken off where that would leave fewer digits than
    the shortest length of the general description. *)
Theorem C39_too_short_kept : forall db r m np e n l,
  all_digits np -> all_digits e -> 2 <= length (np ++ e) <= 17 -> (1 <= value_of (np ++ e) < 2 ^ 56)%N ->
  by_id db (id_name r) = Some m -> (md_country_code m < 65536)%N ->
  not_dialled db (Some r) (np ++ e) -> ~ begins (np ++ e) (dec (md_country_code m)) ->
  md_national_prefix m = Some np -> md_national_prefix_for_parsing m = None -> ~ begins e np ->
  d_possible_length (ds_general (md_descriptors m)) = n :: l -> (N.of_nat (length e) < n)%N ->
  ~ In (N.of_nat (length e)) (d_possible_local_length (ds_general (md_descriptors m))) ->
  exists p, parse_with db (Some r) (np ++ e) = Ok p
    /\ code_value (ph_code p) = md_country_code m /\ code_source (ph_code p) = SrcDefault
    /\ nn_show (ph_national p) = np ++ e /\ ph_extension p = None /\ ph_carrier p = None.
Proof.
  intros db r m np e n l Dnp De Hl Hv Hm Hc Hdial Hb Hnp Hp Hbe El Hs Hloc. apply all_digits_iff in Dnp, De.
  assert (D : digits (np ++ e) = true) by now rewrite digits_app, Dnp.
  apply not_dialled_free in Hdial. unfold idd_of in Hdial. rewrite Hm in Hdial.
  rewrite (parse_national_digits db r m (np ++ e)); auto; [|lia| |left; now apply begins_false].
  2:{ destruct (md_international_prefix m); exact Hdial. }
  assert (Hle : length e < 1000) by (rewrite app_length in Hl; lia).
  assert (V : v_length m e TUnknown = TooShort).
  { unfold v_length. cbn [ds_get]. rewrite El, digits_blen by exact De. unfold as_u16. rewrite N.mod_small by lia.
    destruct (memN _ (d_possible_local_length _)) eqn:E; [now apply memN_in in E|].
    destruct (N.eqb_spec (N.of_nat (length e)) n); [lia|]. destruct (N.ltb_spec (N.of_nat (length e)) n); [reflexivity|lia]. }
  unfold strip_national. rewrite (national_number_prefix perr m _ np e); auto. cbn [obind]. rewrite Hnp.
  change (pn_national (set_national (mk_number SrcDefault (np ++ e) (Some (dec (md_country_code m))) None None) e)) with e.
  rewrite begins_false by exact Hbe. cbn [obind].
  change (pn_national (set_national (mk_number SrcDefault (np ++ e) (Some (dec (md_country_code m))) None None) e)) with e.
  rewrite V. cbn [obind].
  destruct (finish_digits SrcDefault (np ++ e) (md_country_code m) D Hl) as (k & Hn & Hsh & _);
    [unfold u16_max; lia|exact Hv|]. eexists. split; [exact Hn|]. cbn. auto.
Qed.
Print Assumptions C39_too_short_kept.
Example C39_ex_short :
  parse_with tiny_db (Some ID_DE) (lit "0" ++ lit "30123456") = Ok (mk_phone (mk_code 49 SrcDefault) (mk_national (2 ^ 56 + 30123456)) None None)
  /\ (N.of_nat (length (lit "30123456")) < 9)%N
  /\ d_possible_length (ds_general (md_descriptors tiny_entry)) = [9; 10]%N.
Proof. vm_compute. auto. Qed.
