(** * DialFacts: numbers dialled from inside a country *)
From Verif Require Import Base Unicode Regex RegexSyntax Consts CountryId Types NationalNumber
  Metadata Database Validator Valid Number Rfc3966 Helper Natural PhoneNumber Parser.
From Verif Require Import StrFacts NationalFacts RegexLang RegexFacts RegexCaps RegexDeriv DatabaseFacts ParserFacts
  ParseInv TextFacts ViableFacts PhoneText E164Facts CoreFacts.

(** ** A text of digits *)
Lemma digits_span_number : forall w, digits w = true -> span r_number w = (w, []).
Proof.
  intros w H. apply span_all. unfold digits in H. rewrite forallb_forall in *. intros x I. apply H in I.
  unfold r_number, r_digit. now rewrite I.
Qed.
Lemma p_phone_digits : forall w, digits w = true -> w <> [] -> p_phone_number w = Ok (bare w).
Proof.
  intros w H Hne. unfold p_phone_number, rfc3966. rewrite mem_space_digits by exact H.
  rewrite tag_tel_digit_sep by now apply digits_plain.
  assert (Hp : r_prefix w = None).
  { destruct w as [|c w]; [reflexivity|]. cbn in H. apply andb_true_iff in H as [Hc _]. apply is_digit_spec in Hc.
    cbn [r_prefix]. destruct (N.eqb_spec c 43); [lia|reflexivity]. }
  rewrite Hp, digits_span_number by exact H. destruct w; [now elim Hne|]. reflexivity.
Qed.
Lemma viable_digits : forall w, digits w = true -> 2 <= length w -> is_viable w = true.
Proof.
  intros w H Hl. apply is_viable_spec. destruct w as [|a [|b [|c w]]]; cbn [length] in Hl; try lia.
  - left. cbn in H. exists a, b. apply andb_true_iff in H as [Ha H]. apply andb_true_iff in H as [Hb _]. auto.
  - right. cbn in H. repeat (apply andb_true_iff in H as [? H]).
    exists [], [], a, [], b, [], c, w. repeat split; auto.
    apply forallb_forall. intros x I. rewrite forallb_forall in H. apply H in I. unfold tail_char. rewrite I.
    now rewrite orb_true_r.
Qed.

Lemma starts_plus_digits : forall w, digits w = true -> starts_plus w = false.
Proof. intros [|c w] H; [reflexivity|]. cbn in *. apply andb_true_iff in H as [Hc _]. now apply digit_not_plus. Qed.

Lemma international_prefix_digits : forall E idd w, digits w = true ->
  @international_prefix E idd (bare w) = strip_idd idd (bare w).
Proof.
  intros E idd w H. unfold international_prefix, bare. cbn [pn_prefix pn_national].
  rewrite ignore_plus_len_0, starts_plus_digits by exact H.
  unfold normalize, set_country. cbn [pn_national pn_prefix pn_extension pn_carrier pn_country option_map].
  now rewrite act_id by exact H.
Qed.

Lemma strip_idd_free : forall E idd n, idd_free idd (pn_national n) -> @strip_idd E idd n = Ok n.
Proof.
  intros E idd n H. unfold strip_idd. destruct idd as [r|]; [|reflexivity].
  destruct (re_find r (pn_national n)) as [m|] eqn:Em; [|reflexivity].
  destruct (Nat.eqb_spec (mr_start m) 0) as [Es|]; [|reflexivity]. exfalso. apply H.
  apply found_at_start_spec. unfold found_at_start. rewrite Em. now apply Nat.eqb_eq.
Qed.

(** the prefix does not match at the start, or only before a zero: it is kept *)
Definition idd_then (r : re) : re := RCat r (RAlt REnd (RCls (CNeg (CRange 48 48)))).
Definition idd_kept (idd : option regex) (d : str) : Prop :=
  match idd with Some r => ~ matches_prefix (idd_then (re_ast r)) d | None => True end.
Lemma idd_free_kept : forall idd d, idd_free idd d -> idd_kept idd d.
Proof.
  intros [r|] d H; [|exact I]. cbn in *. intros (t & a & E & L). apply H.
  inversion L as [| |r1 r2 b' t1 t2 a' L1 L2| | | | | |]; subst. exists t1, (t2 ++ a). split; [now rewrite <- app_assoc|exact L1].
Qed.
Lemma strip_idd_kept : forall E idd n, idd_kept idd (pn_national n) -> @strip_idd E idd n = Ok n.
Proof.
  intros E idd n H. unfold strip_idd. destruct idd as [r|]; [|reflexivity].
  destruct (re_find r (pn_national n)) as [m|] eqn:Em; [|reflexivity].
  destruct (Nat.eqb_spec (mr_start m) 0) as [Es|]; [|reflexivity].
  pose proof (re_find_some _ _ _ Em) as (F & L & _). unfold mr_start in Es.
  assert (Hp : mr_pre m = []) by (destruct (mr_pre m) as [|c p]; [reflexivity|cbn in Es; pose proof (utf8_len_pos c); lia]).
  rewrite Hp in *. cbn [app] in F. unfold mr_end. rewrite Hp. cbn [blen Nat.add]. rewrite F, slice_from_app.
  cbn [unwrap obind]. destruct (starts_with (mr_post m) [ch_0]) eqn:E0; [reflexivity|]. exfalso.
  apply H. rewrite F. destruct (mr_post m) as [|c a] eqn:Ep.
  - exists (mr_text m), []. split; [reflexivity|]. rewrite <- (app_nil_r (mr_text m)). constructor; [exact L|].
    apply L_alt1. constructor.
  - exists (mr_text m ++ [c]), a. split; [now rewrite <- app_assoc|]. constructor; [exact L|]. apply L_alt2. constructor.
    cbn [starts_with] in E0. assert (Hc : c <> ch_0) by (intros ->; rewrite N.eqb_refl in E0; destruct a; discriminate). cbn [in_cls].
    destruct (in_range 48 48 c) eqn:Er; [|reflexivity]. exfalso. apply Hc. unfold in_range in Er. unfold ch_0.
    apply andb_prop in Er as [E1 E2]. apply N.leb_le in E1, E2. lia.
Qed.

(** the only match of [r] at the start of [x ++ w] is [x] *)
Definition only_match (r : regex) (x w : str) : Prop :=
  lang (re_ast r) [] x w /\ forall t a, x ++ w = t ++ a -> lang (re_ast r) [] t a -> t = x.
Lemma only_match_find : forall r x w, only_match r x w ->
  exists m, re_find r (x ++ w) = Some m /\ mr_pre m = [] /\ mr_text m = x /\ mr_post m = w.
Proof.
  intros r x w [L U]. destruct (re_find r (x ++ w)) as [m|] eqn:Em.
  2:{ exfalso. apply re_find_none in Em. apply Em. exists [], x, w. auto. }
  exists m. split; [reflexivity|]. pose proof (re_find_some _ _ _ Em) as (E & Lm & Hleft).
  assert (Hp : mr_pre m = []).
  { destruct (mr_pre m) as [|c p] eqn:Ep; [reflexivity|]. exfalso. apply (Hleft [] c p x w); auto. }
  rewrite Hp in *. cbn [app] in E. assert (Ht : mr_text m = x) by (apply (U _ (mr_post m)); auto).
  split; [reflexivity|]. split; [exact Ht|]. rewrite Ht in E. apply app_inv_head in E. now symmetry.
Qed.

Lemma strip_idd_match : forall E r x w, only_match r x w -> starts_with w [ch_0] = false ->
  @strip_idd E (Some r) (bare (x ++ w)) = Ok (mk_number SrcIdd w None None None).
Proof.
  intros E r x w H Hw. destruct (only_match_find r x w H) as (m & Em & Hp & Ht & Hq). unfold strip_idd, bare.
  cbn [pn_national pn_country]. rewrite Em. unfold mr_start, mr_end, mr_start. rewrite Hp, Ht. change (blen []) with 0.
  cbn [Nat.eqb Nat.add]. rewrite slice_from_app. cbn [unwrap obind]. rewrite Hw. unfold trim. rewrite slice_from_app. reflexivity.
Qed.

(** ** National digits: the reference country's entry is used *)
Lemma prefix_value_dec : forall src w c x y, (c <= u16_max)%N ->
  prefix_value (mk_number src w (Some (dec c)) x y) = Ok c.
Proof. intros src w c x y H. unfold prefix_value. cbn [pn_prefix]. unfold parse_u16. now rewrite parse_uint_dec. Qed.

Theorem parse_national_kept : forall db c m w, digits w = true -> 2 <= length w ->
  by_id db (id_name c) = Some m -> idd_kept (md_international_prefix m) w ->
  starts_with w (dec (md_country_code m)) = false
  \/ (d_is_match (ds_general (md_descriptors m)) w = true /\ is_possible (v_length m w TUnknown) = true) ->
  parse_with db (Some c) w =
  let* n := strip_national (Some m) (mk_number SrcDefault w (Some (dec (md_country_code m))) None None) in finish n.
Proof.
  intros db c m w Hd Hl Hm Hi Hc. unfold parse_with. rewrite p_phone_digits; [|exact Hd|intros ->; cbn in Hl; lia].
  cbn [obind]. change (pn_national (bare w)) with w. rewrite viable_digits by assumption. cbn [negb].
  unfold country_code. rewrite Hm. cbn [obind unwrap].
  replace (match md_international_prefix m with Some r => Some r | None => None end) with (md_international_prefix m)
    by (destruct (md_international_prefix m); reflexivity).
  rewrite international_prefix_digits by exact Hd. rewrite strip_idd_kept by exact Hi. cbn [obind bare pn_country pn_national unwrap].
  assert (Hn : starts_with w (dec (md_country_code m)) && (negb (d_is_match (ds_general (md_descriptors m)) w)
     || negb (is_possible (v_length m w TUnknown))) = false).
  { destruct Hc as [->|[-> ->]]; [reflexivity|apply andb_false_r]. }
  rewrite Hn. cbn [andb obind set_prefix pn_country pn_national pn_extension pn_carrier select_meta]. rewrite Hm. reflexivity.
Qed.

Theorem parse_national_digits : forall db c m w, digits w = true -> 2 <= length w ->
  by_id db (id_name c) = Some m -> idd_free (md_international_prefix m) w ->
  starts_with w (dec (md_country_code m)) = false
  \/ (d_is_match (ds_general (md_descriptors m)) w = true /\ is_possible (v_length m w TUnknown) = true) ->
  parse_with db (Some c) w =
  let* n := strip_national (Some m) (mk_number SrcDefault w (Some (dec (md_country_code m))) None None) in finish n.
Proof. intros db c m w Hd Hl Hm Hi. apply parse_national_kept; auto. now apply idd_free_kept. Qed.

(** Digits that start with the calling code, unless they are a possible number
    as they stand: the code is taken off and the rest read like after '+'. *)
Theorem parse_code_digits : forall db c m w, digits w = true -> 2 <= length (dec (md_country_code m) ++ w) ->
  by_id db (id_name c) = Some m -> idd_free (md_international_prefix m) (dec (md_country_code m) ++ w) ->
  (md_country_code m <= u16_max)%N ->
  d_is_match (ds_general (md_descriptors m)) (dec (md_country_code m) ++ w) = false
  \/ is_possible (v_length m (dec (md_country_code m) ++ w) TUnknown) = false ->
  parse_with db (Some c) (dec (md_country_code m) ++ w) =
  let* src := source_for db (md_country_code m) (trim_start_char ch_0 w) in
  let* n := strip_national (source_meta db src) (mk_number SrcNumber w (Some (dec (md_country_code m))) None None) in finish n.
Proof.
  intros db c m w Hd Hl Hm Hi Hu Hp. set (k := dec (md_country_code m)) in *.
  assert (Hdw : digits (k ++ w) = true) by (rewrite digits_app; unfold k; now rewrite digits_dec, Hd).
  unfold parse_with. rewrite p_phone_digits; [|exact Hdw|intros E; rewrite E in Hl; cbn in Hl; lia].
  cbn [obind]. change (pn_national (bare (k ++ w))) with (k ++ w). rewrite viable_digits by assumption. cbn [negb].
  unfold country_code. rewrite Hm. cbn [obind unwrap].
  replace (match md_international_prefix m with Some r => Some r | None => None end) with (md_international_prefix m)
    by (destruct (md_international_prefix m); reflexivity).
  rewrite international_prefix_digits by exact Hdw. rewrite strip_idd_free by exact Hi. cbn [obind bare pn_country pn_national unwrap].
  fold k. rewrite starts_with_app. cbn [andb].
  assert (Hb : negb (d_is_match (ds_general (md_descriptors m)) (k ++ w)) || negb (is_possible (v_length m (k ++ w) TUnknown)) = true).
  { destruct Hp as [-> | ->]; [reflexivity|apply orb_true_r]. }
  rewrite Hb. unfold trim. rewrite slice_from_app. cbn [unwrap obind].
  unfold set_prefix, set_national, set_country. cbn [pn_country pn_national pn_prefix pn_extension pn_carrier select_meta].
  unfold k. rewrite prefix_value_dec by exact Hu. cbn [obind].
  destruct (source_for db (md_country_code m) (trim_start_char ch_0 w)); reflexivity.
Qed.

(** ** The dialling prefix in front of a calling code: as after '+' *)
Theorem parse_idd_digits : forall db country r x d, idd_of db country = Some r -> only_match r x d ->
  digits x = true -> digits d = true -> 3 <= length d -> starts_with d [ch_0] = false ->
  parse_with db country (x ++ d) =
  match code_len db d with
  | None => Err InvalidCountryCode
  | Some k =>
      let code := digits_val (firstn k d) in
      let e := skipn k d in
      let* src := source_for db code (trim_start_char ch_0 e) in
      let* n := strip_national (source_meta db src) (mk_number SrcIdd e (Some (dec code)) None None) in
      finish n
  end.
Proof.
  intros db country r x d Hr Hm Hx Hd Hl H0.
  assert (Hw : digits (x ++ d) = true) by now rewrite digits_app, Hx, Hd.
  assert (Lw : 2 <= length (x ++ d)) by (rewrite app_length; lia).
  unfold parse_with. rewrite p_phone_digits; [|exact Hw|intros E; rewrite E in Lw; cbn in Lw; lia].
  cbn [obind]. change (pn_national (bare (x ++ d))) with (x ++ d). rewrite viable_digits by assumption. cbn [negb].
  unfold country_code. fold (idd_of db country). rewrite Hr.
  rewrite international_prefix_digits by exact Hw. rewrite strip_idd_match by assumption.
  cbn [obind pn_country pn_national pn_prefix]. rewrite digits_blen by exact Hd.
  destruct (Nat.leb_spec (length d) MIN_LENGTH_FOR_NSN); [unfold MIN_LENGTH_FOR_NSN in *; lia|]. rewrite H0.
  rewrite find_code_spec; [|now constructor|exact Hl]. cbn [pn_national].
  destruct (code_len db d) as [k|] eqn:Ek; [|reflexivity]. cbn [obind]. cbn zeta.
  unfold set_prefix, set_national. cbn [pn_country pn_national pn_prefix pn_extension pn_carrier].
  assert (Hk : k <= 3).
  { unfold code_len in Ek. apply find_some in Ek as [I _]. cbn in I. intuition lia. }
  assert (Hu : (digits_val (firstn k d) <= u16_max)%N).
  { apply digits_val_3; [now apply digits_firstn|]. rewrite firstn_length. lia. }
  unfold select_meta. cbn [pn_country pn_national]. rewrite prefix_value_dec by exact Hu.
  destruct country; cbn [obind];
  destruct (source_for db (digits_val (firstn k d)) (trim_start_char ch_0 (skipn k d))); reflexivity.
Qed.

(** ** Taking the national prefix off *)
Lemma national_number_prefix : forall E m n np e, pn_national n = np ++ e ->
  md_national_prefix_for_parsing m = None -> md_national_prefix m = Some np ->
  @national_number E m n = Ok (set_national n e).
Proof.
  intros E m n np e Hn Hp Hm. unfold national_number. rewrite Hp, Hm, Hn, starts_with_app. unfold trim.
  now rewrite slice_from_app.
Qed.

Lemma national_number_rule : forall E m n np e r, pn_national n = np ++ e ->
  md_national_prefix_for_parsing m = Some r -> only_match r np e ->
  (md_national_prefix_transform_rule m = None \/
   forall mr, re_find r (np ++ e) = Some mr -> cap_get mr (re_ngroups r) = None) ->
  exists ca, @national_number E m n = Ok (set_carrier (set_national n e) ca).
Proof.
  intros E m n np e r Hn Hp Ho Ht. unfold national_number. rewrite Hp, Hn.
  destruct (only_match_find r np e Ho) as (mr & Em & Hpre & Htx & Hpost). rewrite Em.
  assert (Hs : mr_start mr = 0) by (unfold mr_start; now rewrite Hpre). cbv zeta. rewrite Hs. cbn [Nat.eqb negb].
  set (last := cap_get mr (re_captures_len r - 1)) in *.
  assert (Hend : slice_from (np ++ e) (mr_end mr) = Some e).
  { unfold mr_end. rewrite Hpre, Htx. cbn [Nat.add blen]. apply slice_from_app. }
  assert (G : exists ca, (let* tail := unwrap (slice_from (np ++ e) 0) in
                 if d_is_match (ds_general (md_descriptors m)) (np ++ e)
                    && negb (d_is_match (ds_general (md_descriptors m)) tail) then Ok n
                 else let n1 := set_carrier n (if 0 <? re_captures_len r then option_map cap_text last else None) in
                      let* t := trim (np ++ e) (mr_end mr) in Ok (set_national n1 t))
               = @Ok E number (set_carrier (set_national n e) ca)).
  { eexists. rewrite slice_from_0. cbn [unwrap obind]. rewrite andb_negb_r. unfold trim. rewrite Hend. cbn [unwrap obind].
    reflexivity. }
  destruct Ht as [Ht|Ht].
  - rewrite Ht. exact G.
  - assert (Hl : last = None).
    { unfold last, re_captures_len. replace (S (re_ngroups r) - 1) with (re_ngroups r) by lia. now apply Ht. }
    rewrite Hl in *. cbn [option_map] in *. destruct (md_national_prefix_transform_rule m); exact G.
Qed.

Lemma strip_national_prefix : forall m n np e, pn_national n = np ++ e -> pn_carrier n = None ->
  md_national_prefix m = Some np -> starts_with e np = false ->
  v_length m e TUnknown <> TooShort ->
  (forall r, md_national_prefix_for_parsing m = Some r -> only_match r np e /\
     (md_national_prefix_transform_rule m = None \/
      forall mr, re_find r (np ++ e) = Some mr -> cap_get mr (re_ngroups r) = None)) ->
  exists ca, strip_national (Some m) n = Ok (set_carrier (set_national n e) ca)
    /\ (md_national_prefix_for_parsing m = None -> ca = None).
Proof.
  intros m n np e Hn Hca Hnp Hs Hv Hr. unfold strip_national.
  assert (G : exists ca, @national_number perr m n = Ok (set_carrier (set_national n e) ca)
              /\ (md_national_prefix_for_parsing m = None -> ca = None)).
  { destruct (md_national_prefix_for_parsing m) as [r|] eqn:Ep.
    - destruct (Hr r eq_refl) as [Ho Ht]. destruct (national_number_rule perr m n np e r Hn Ep Ho Ht) as (ca & H).
      exists ca. split; [exact H|discriminate].
    - exists None. split; [|reflexivity]. rewrite (national_number_prefix perr m n np e Hn Ep Hnp).
      destruct n. cbn in *. subst. reflexivity. }
  destruct G as (ca & G & Hc). rewrite G. cbn [obind].
  set (n' := set_carrier (set_national n e) ca). assert (En : pn_national n' = e) by reflexivity.
  rewrite Hnp, En, Hs. cbn [obind]. rewrite En.
  exists ca. split; [|exact Hc]. destruct (v_length m e TUnknown); try reflexivity. now elim Hv.
Qed.

(** ** Patterns on digits behind a fixed text *)
Fixpoint no_start (r : re) : bool :=
  match r with
  | REps | RCls _ | REnd => true
  | RStart => false
  | RCat a b | RAlt a b => if no_start a then no_start b else false
  | RRep _ _ _ r | RGrp _ r => no_start r
  end.
Lemma no_start_lang :
  (forall r b t a, lang r b t a -> forall b', no_start r = true -> lang r b' t a) /\
  (forall r n b t a, langs r n b t a -> forall b', no_start r = true -> langs r n b' t a).
Proof.
  apply lang_langs_ind; intros; cbn [no_start] in *.
  - constructor.
  - now constructor.
  - destruct (no_start r1) eqn:E; [|discriminate]. constructor; auto.
  - destruct (no_start r1) eqn:E; [|discriminate]. apply L_alt1. auto.
  - destruct (no_start r1) eqn:E; [|discriminate]. apply L_alt2. auto.
  - econstructor; eauto.
  - constructor. auto.
  - discriminate.
  - constructor.
  - constructor.
  - econstructor; eauto.
Qed.

(** the pattern matches a prefix of [e], hence [cat (lit_re q)] one of [q ++ e] *)
Fixpoint lit_re' (s : str) (r : re) : re :=
  match s with [] => r | c :: s => RCat (RCls (CRange c c)) (lit_re' s r) end.
Lemma lit_behind : forall q r e, no_start r = true -> matches_prefix r e -> matches_prefix (lit_re' q r) (q ++ e).
Proof.
  intros q r e Hn (t & a & -> & L). exists (q ++ t), a. split; [now rewrite app_assoc|].
  assert (G : forall b, lang (lit_re' q r) b (q ++ t) a); [|apply G].
  induction q as [|c q IH]; intros b; cbn [lit_re' app].
  - now apply (proj1 no_start_lang) with (b := []).
  - change (c :: q ++ t) with ([c] ++ (q ++ t)). constructor; [|apply IH]. constructor. cbn.
    rewrite in_range_single. apply N.eqb_refl.
Qed.

(** the states of the patterns in [l] after the text [q], unless one of them
    can match before its end *)
Fixpoint after (s : bool) (l : list re) (q : str) : option (list re) :=
  match q with
  | [] => Some l
  | c :: q' => if nuls s false l then None else after false (pds s c l) q'
  end.
Lemma after_sound : forall q b l l' r t a e, after (at_nil b) l q = Some l' -> In r l -> lang r b t a ->
  t ++ a = q ++ e -> exists t' r', t = q ++ t' /\ t' ++ a = e /\ In r' l' /\ lang r' (b ++ q) t' a.
Proof.
  induction q as [|c q IH]; intros b l l' r t a e H I L E; cbn [after] in H.
  - inversion H; subst l'. exists t, r. rewrite app_nil_r. easy.
  - destruct (nuls (at_nil b) false l) eqn:En; [discriminate|]. destruct t as [|x t].
    + exfalso. cbn [app] in E. subst a. assert (nuls (at_nil b) false l = true); [|congruence].
      apply existsb_exists. exists r. split; [exact I|]. exact (proj1 nul_sound _ _ _ _ L eq_refl).
    + cbn [app] in E. inversion E; subst x. destruct (proj1 pd_sound _ _ _ _ L c t eq_refl) as (r' & I' & L').
      destruct (IH (b ++ [c]) (pds (at_nil b) c l) l' r' t a e) as (t' & r2 & -> & E' & I2 & L2); auto.
      * destruct b; exact H.
      * unfold pds. apply dedup_in. left. apply in_flat_map. eauto.
      * exists t', r2. rewrite <- app_assoc in L2. auto.
Qed.

Fixpoint run (s : bool) (n : nat) (A : st) (q : str) : st :=
  match q with
  | [] => A
  | c :: q' => run false n (st_step s (if Nat.eqb n 0 then at_nil q' else false) c A) q'
  end.
Lemma run_leads : forall q b A e, leads A b (q ++ e) -> leads (run (at_nil b) (length e) A q) (b ++ q) e.
Proof.
  induction q as [|c q IH]; intros b A e H; cbn [run app] in *.
  - now rewrite app_nil_r.
  - apply step_leads in H. replace (b ++ c :: q) with ((b ++ [c]) ++ q) by now rewrite <- app_assoc.
    assert (En : at_nil (q ++ e) = if Nat.eqb (length e) 0 then at_nil q else false).
    { destruct e; cbn [length Nat.eqb]; [now rewrite app_nil_r|]. destruct q; reflexivity. }
    rewrite En in H. specialize (IH _ _ _ H). now replace (at_nil (b ++ [c])) with false in IH by (destruct b; reflexivity).
Qed.

(** a match that needs no end of text can be followed by anything *)
Definition cls_none : cls := CInter (CRange 0 0) (CRange 1 1).
Lemma cls_none_in : forall x, in_cls cls_none x = false.
Proof. intros x. cbn. unfold in_range. destruct (N.leb_spec 0 x), (N.leb_spec x 0), (N.leb_spec 1 x); cbn; try reflexivity; lia. Qed.
Fixpoint noend (r : re) : re :=
  match r with
  | REps => REps | RCls c => RCls c | RStart => RStart
  | REnd => RCls cls_none
  | RCat a b => RCat (noend a) (noend b)
  | RAlt a b => RAlt (noend a) (noend b)
  | RRep g mn mx r => RRep g mn mx (noend r)
  | RGrp i r => RGrp i (noend r)
  end.
Lemma noend_lang : forall r b t a a', lang (noend r) b t a -> lang r b t a'.
Proof.
  induction r; intros b t a a' H; cbn [noend] in H; inversion H; subst; clear H.
  - constructor.
  - now constructor.
  - econstructor; eauto.
  - apply L_alt1; eauto.
  - apply L_alt2; eauto.
  - econstructor; eauto. match goal with H : langs _ _ _ _ _ |- _ => rename H into LS end.
    clear - IHr LS. revert a'.
    remember (noend r) as r0 eqn:E0. induction LS; subst; intros a'; econstructor; eauto.
  - constructor; eauto.
  - constructor.
  - rewrite cls_none_in in *. discriminate.
Qed.
Definition can_match (r : re) (q : str) : bool :=
  existsb (fun s => at_nil (m_rest s)) (ms (noend r) (mk_mst 0 q [])).
Lemma can_match_sound : forall r q e, can_match r q = true -> lang r [] q e.
Proof.
  intros r q e H. unfold can_match in H. apply existsb_exists in H as (s & I & Hs).
  destruct (ms_sound _ _ _ [] I eq_refl) as (t & [R _] & L). cbn [m_rest] in R.
  destruct (m_rest s); [|discriminate]. rewrite app_nil_r in R. subst t. eapply noend_lang; exact L.
Qed.

(** every match of [rb] at the start of [q ++ e], where [ra] matches at the start
    of [e], is [q] itself *)
Definition exact_check (sigma : list char) (q : str) (n : nat) (ra rb : re) : bool :=
  match q with
  | [] => false
  | _ =>
    if no_start ra then
    if can_match rb q then
    match after true [rb] q with
    | Some l => apart sigma n false (run true n (start_st (lit_re' q ra) (length q + n)) q) (Some l)
    | None => false
    end else false else false
  end.
Lemma start_leads : forall r w, matches_prefix r w -> leads (start_st r (length w)) [] w.
Proof.
  intros r w (t & a & E & L). unfold start_st, settle. destruct (nuls _ _ [r]) eqn:En; [easy|]. cbn. exists r, t, a.
  split; [now left|]. split; [easy|]. split; [|easy]. intros ->. cbn in E. subst w.
  assert (nuls true (Nat.eqb (length a) 0) [r] = true); [|congruence].
  cbn. pose proof (proj1 nul_sound _ _ _ _ L eq_refl) as N. cbn in N.
  replace (Nat.eqb (length a) 0) with (at_nil a) by (destruct a; easy). now rewrite N.
Qed.
Theorem exact_check_sound : forall sigma q ra r e, (forall c, In c e -> In c sigma) ->
  exact_check sigma q (length e) ra (re_ast r) = true -> matches_prefix ra e -> only_match r q e.
Proof.
  intros sigma q ra r e He H Hm. unfold exact_check in H. destruct q as [|c0 q0]; [discriminate|].
  set (q := c0 :: q0) in *. destruct (no_start ra) eqn:Hns; [|discriminate].
  destruct (can_match (re_ast r) q) eqn:Hcm; [|discriminate].
  destruct (after true [re_ast r] q) as [l|] eqn:Ha; [|discriminate].
  split; [now apply can_match_sound|]. intros t a E L.
  destruct (after_sound q [] [re_ast r] l (re_ast r) t a e Ha) as (t' & r' & -> & E' & I' & L');
    [now left|exact L|now symmetry|].
  destruct t' as [|x t']; [now rewrite app_nil_r|]. exfalso.
  apply (apart_sound sigma e q _ _ He H).
  - change q with ([] ++ q). change true with (at_nil []). apply run_leads. rewrite <- app_length.
    apply start_leads. now apply lit_behind.
  - cbn. exists r', (x :: t'), a. split; [exact I'|]. split; [now symmetry|]. split; [discriminate|exact L'].
Qed.

(** [q ++ e] has no match of [rb] at its start *)
Definition front_check (sigma : list char) (q : str) (n : nat) (ra rb : re) : bool :=
  if no_start ra then
  if nul true true rb then false else if nul true false rb then false else
  re_apart sigma (length q + n) (lit_re' q ra) rb
  else false.
Lemma front_check_sound : forall sigma q ra rb e, (forall c, In c q \/ In c e -> In c sigma) ->
  front_check sigma q (length e) ra rb = true -> matches_prefix ra e -> ~ matches_prefix rb (q ++ e).
Proof.
  intros sigma q ra rb e He H Hm (t & a & E & L). unfold front_check in H.
  destruct (no_start ra) eqn:Hns; [|discriminate]. destruct (nul true true rb) eqn:N1; [discriminate|].
  destruct (nul true false rb) eqn:N2; [discriminate|]. rewrite <- app_length in H.
  apply (re_apart_sound sigma (lit_re' q ra) rb (q ++ e)); auto.
  - intros c I. apply He. now apply in_app_iff in I.
  - now apply lit_behind.
  - exists t, a. split; [exact E|]. split; [|exact L]. intros ->.
    pose proof (proj1 nul_sound _ _ _ _ L eq_refl) as N. cbn in N. destruct (at_nil a); congruence.
Qed.

(** ** The source of the calling code does not influence the rest *)
Definition omap {E A} (f : A -> A) (r : outcome E A) : outcome E A := obind r (fun x => Ok (f x)).
Lemma national_number_country : forall E m n s,
  @national_number E m (set_country n s) = omap (fun n => set_country n s) (national_number m n).
Proof.
  intros E m n s. unfold national_number. cbn [set_country pn_national]. cbv zeta. set (w := pn_national n).
  destruct (md_national_prefix_for_parsing m) as [r|].
  - destruct (re_find r w) as [mr|]; [|reflexivity]. destruct (negb (Nat.eqb (mr_start mr) 0)); [reflexivity|].
    set (viable := d_is_match _ w). set (last := option_map cap_text (cap_get mr (re_captures_len r - 1))).
    set (first := option_map cap_text (cap_get mr 1)).
    assert (G : forall ca, (let* tail := unwrap (slice_from w (mr_start mr)) in
        if viable && negb (d_is_match (ds_general (md_descriptors m)) tail) then Ok (set_country n s)
        else let* t := trim w (mr_end mr) in Ok (set_national (set_carrier (set_country n s) ca) t))
      = @omap E number (fun n => set_country n s) (let* tail := unwrap (slice_from w (mr_start mr)) in
        if viable && negb (d_is_match (ds_general (md_descriptors m)) tail) then Ok n
        else let* t := trim w (mr_end mr) in Ok (set_national (set_carrier n ca) t))).
    { intros ca. unfold omap. destruct (slice_from w (mr_start mr)) as [tl|]; cbn [unwrap obind]; [|reflexivity].
      destruct (viable && _); [reflexivity|]. destruct (@trim E w (mr_end mr)); reflexivity. }
    destruct (md_national_prefix_transform_rule m) as [tr|]; [|apply G]. destruct last as [l|]; [|apply G].
    destruct (viable && _); [reflexivity|]. destruct first; reflexivity.
  - destruct (md_national_prefix m) as [p|]; [|reflexivity]. destruct (starts_with w p); [|reflexivity].
    destruct (@trim E w (blen p)); reflexivity.
Qed.
Lemma strip_national_country : forall om n s,
  strip_national om (set_country n s) = omap (fun n => set_country n s) (strip_national om n).
Proof.
  intros [m|] n s; [|reflexivity]. unfold strip_national. rewrite national_number_country.
  destruct (@national_number perr m n) as [k|e|]; cbn [omap obind]; [|reflexivity|reflexivity].
  cbn [set_country pn_national].
  destruct (md_national_prefix m) as [p|]; [destruct (starts_with (pn_national k) p); [destruct (@trim perr (pn_national k) (blen p))|]|];
    cbn [obind omap set_national set_country pn_national]; try reflexivity;
    match goal with |- context[v_length ?a ?b ?c] => destruct (v_length a b c) end; reflexivity.
Qed.
Definition relabel_phone (s : source) (p : phone) : phone :=
  mk_phone (mk_code (code_value (ph_code p)) s) (ph_national p) (ph_extension p) (ph_carrier p).
Lemma finish_country : forall n s, finish (set_country n s) = omap (relabel_phone s) (finish n).
Proof.
  intros n s. unfold finish. cbn [set_country pn_national pn_country pn_extension pn_carrier].
  destruct (blen (pn_national n) <? MIN_LENGTH_FOR_NSN); [reflexivity|].
  destruct (MAX_LENGTH_FOR_NSN <? blen (pn_national n)); [reflexivity|].
  change (prefix_value (set_country n s)) with (prefix_value n).
  destruct (prefix_value n); cbn [obind omap]; try reflexivity.
  destruct (nn_parse (pn_national n)); reflexivity.
Qed.
Lemma tail_country : forall om n s,
  (let* k := strip_national om (set_country n s) in finish k)
  = omap (relabel_phone s) (let* k := strip_national om n in finish k).
Proof.
  intros om n s. rewrite strip_national_country. destruct (strip_national om n); cbn [omap obind]; try reflexivity.
  apply finish_country.
Qed.
