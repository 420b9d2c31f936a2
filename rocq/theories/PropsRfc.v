(** * C23: RFC 3966 text round-trips *)
From Verif Require Import Base Unicode Regex RegexSyntax Consts CountryId Types NationalNumber
  Metadata Database Validator Valid Number Rfc3966 Helper Natural PhoneNumber Parser Formatter Loader
  DefaultDb DefaultDbOk Api.
From Verif Require Import StrFacts NationalFacts RegexLang RegexFacts RegexCaps DatabaseFacts ParserFacts
  ParseInv TextFacts ViableFacts PhoneText E164Facts CoreFacts FormatFacts FormatDigits FormatDollar PropsPanic PropsE164
  PropsFormat.

(** ** Reading "tel:+code-body;ext=digits" *)
Definition ext_part (ext : option str) : str := match ext with Some e => lit ";ext=" ++ e | None => [] end.

Lemma mem_char_in : forall c s, mem_char c s = true <-> In c s.
Proof.
  intros c s. unfold mem_char. rewrite existsb_exists. split.
  - intros (x & I & E). apply N.eqb_eq in E. now subst x.
  - intros I. exists c. split; [exact I|apply N.eqb_refl].
Qed.
Lemma not_mem_char : forall c s, ~ In c s -> mem_char c s = false.
Proof. intros c s H. destruct (mem_char c s) eqn:E; [|easy]. apply mem_char_in in E. contradiction. Qed.

Lemma digit_pchar : forall c, is_digit c = true -> r_pchar c = true.
Proof.
  intros c H. unfold r_pchar, is_alphanum. rewrite H. rewrite orb_true_r. rewrite orb_true_r. reflexivity.
Qed.
Lemma digit_number : forall c, is_digit c = true -> r_number c = true.
Proof. intros c H. unfold r_number, r_digit. rewrite H. reflexivity. Qed.

Definition body_ok (s : str) : Prop := digits_and (lit "-") s.
Lemma body_number : forall s, body_ok s -> forallb r_number s = true.
Proof.
  intros s H. apply forallb_forall. intros c I. destruct (H c I) as [D|[<-|[]]]; [|reflexivity].
  apply digit_number, is_digit_spec, D.
Qed.
Lemma body_unsigned : forall s, body_ok s -> unsigned s.
Proof.
  intros s H c I. destruct (H c I) as [D|[<-|[]]].
  - apply is_digit_spec, digit_in in D. revert D. cbn. tauto.
  - cbn. tauto.
Qed.
Lemma digits_body : forall s, digits s = true -> body_ok s.
Proof. intros s H c I. left. apply is_digit_spec. unfold digits in H. rewrite forallb_forall in H. auto. Qed.

Lemma ext_param : forall ext, match ext with Some e => digits e = true | None => True end ->
  params_get (r_parameters (ext_part ext)) (lit "ext") = ext
  /\ params_get (r_parameters (ext_part ext)) (lit "phone-context") = None /\ r_check (ext_part ext) = true.
Proof.
  intros [e|] H; [|vm_compute; auto]. unfold r_parameters, ext_part.
  assert (P : r_parameter (lit ";ext=" ++ e) = Some ((lit "ext", e), [])).
  { transitivity (let '(value, s4) := span r_pchar e in Some ((lit "ext", value), s4)); [reflexivity|].
    rewrite (span_all r_pchar e); [reflexivity|].
    apply forallb_forall. intros c I. apply digit_pchar. unfold digits in H. rewrite forallb_forall in H. auto. }
  assert (M : r_many (length (lit ";ext=" ++ e)) (lit ";ext=" ++ e) = ([(lit "ext", e)], [])).
  { change (length (lit ";ext=" ++ e)) with (S (S (S (S (S (length e)))))). cbn [r_many]. rewrite P. reflexivity. }
  rewrite M. cbn [fst params_get]. change (str_eqb (lit "ext") (lit "ext")) with true.
  change (str_eqb (lit "ext") (lit "phone-context")) with false. auto.
Qed.

Lemma tag_tel_text : forall s, tag_tel (lit "tel:" ++ s) = Some s.
Proof. reflexivity. Qed.

Lemma rfc_text : forall cc body ext, digits cc = true -> cc <> [] -> body_ok body ->
  match ext with Some e => digits e = true | None => True end ->
  rfc3966 (lit "tel:+" ++ cc ++ lit "-" ++ body ++ ext_part ext)
  = Some (mk_number SrcDefault (lit "-" ++ body) (Some cc) ext None).
Proof.
  intros cc body ext Hcc Hne Hb He. unfold rfc3966.
  assert (Dc : forall c, In c cc -> is_digit c = true) by (apply forallb_forall; exact Hcc).
  rewrite not_mem_char.
  2:{ intros I. apply in_app_iff in I as [I|I]; [revert I; cbn; intuition discriminate|].
      apply in_app_iff in I as [I|I]; [apply Dc in I; discriminate I|].
      apply in_app_iff in I as [I|I]; [revert I; cbn; intuition discriminate|].
      apply in_app_iff in I as [I|I].
      - destruct (Hb _ I) as [D|D]; [clear - D; lia|revert D; cbn; intuition discriminate].
      - destruct ext as [e|]; [|destruct I]. apply in_app_iff in I as [I|I]; [revert I; cbn; intuition discriminate|].
        unfold digits in He. rewrite forallb_forall in He. apply He in I. discriminate I. }
  change (lit "tel:+" ++ cc ++ lit "-" ++ body ++ ext_part ext)
    with (lit "tel:" ++ 43%N :: cc ++ 45%N :: body ++ ext_part ext). rewrite tag_tel_text.
  assert (P : r_prefix (43%N :: cc ++ 45%N :: body ++ ext_part ext) = Some (cc, 45%N :: body ++ ext_part ext)).
  { unfold r_prefix. change (N.eqb 43 43) with true. cbv iota.
    rewrite (span_app_stop (fun c => negb (r_separator c)) cc 45%N); [destruct cc; [now elim Hne|reflexivity]| |reflexivity].
    apply forallb_forall. intros c I. apply negb_true_iff, sep_not_digit_r, Dc, I. }
  rewrite P.
  assert (S : span r_number (45%N :: body ++ ext_part ext) = (lit "-" ++ body, ext_part ext)).
  { change (45%N :: body ++ ext_part ext) with ((45%N :: body) ++ ext_part ext).
    assert (N1 : forallb r_number (45%N :: body) = true).
    { cbn [forallb]. rewrite (body_number body Hb). reflexivity. }
    destruct ext as [e|].
    - change (ext_part (Some e)) with (59%N :: lit "ext=" ++ e). rewrite (span_app_stop r_number (45%N :: body)); [reflexivity|exact N1|reflexivity].
    - cbn [ext_part]. rewrite app_nil_r. rewrite span_all; [reflexivity|exact N1]. }
  rewrite S. destruct (ext_param ext He) as (E1 & E2 & E3). rewrite E3. cbv zeta. rewrite E1. reflexivity.
Qed.

Lemma act_digits : forall m s, digits s = true -> act m s = s.
Proof. intros m s H. now apply act_id. Qed.

(** ** The whole parse *)
Lemma finish_ext : forall src e p ext,
  finish (mk_number src e p ext None) =
  let* q := finish (mk_number src e p None None) in Ok (mk_phone (ph_code q) (ph_national q) ext None).
Proof.
  intros src e p ext. unfold finish, prefix_value. cbn [pn_national pn_prefix pn_country pn_extension pn_carrier].
  destruct (blen e <? MIN_LENGTH_FOR_NSN); [reflexivity|]. destruct (MAX_LENGTH_FOR_NSN <? blen e); [reflexivity|].
  destruct p as [p|]; [destruct (parse_u16 p)|]; cbn [ok_or obind]; try reflexivity; destruct (nn_parse e); reflexivity.
Qed.

Lemma parse_rfc : forall db country c body ext src, body_ok body ->
  3 <= length (filter is_digit body) <= 17 ->
  match ext with Some e => digits e = true | None => True end ->
  (c <= u16_max)%N -> by_code db c <> None ->
  source_for db c (trim_start_char ch_0 (filter is_digit body)) = Ok src ->
  (forall m, source_meta db src = Some m -> rules_silent m (filter is_digit body)) ->
  (1 <= digits_val (filter is_digit body) < 2 ^ 56)%N ->
  exists n, parse_with db country (lit "tel:+" ++ dec c ++ lit "-" ++ body ++ ext_part ext)
      = Ok (mk_phone (mk_code c SrcPlus) n ext None)
    /\ nn_parse (filter is_digit body) = Ok n.
Proof.
  intros db country c body ext src Hb Hl He Hc Hk Hsrc Hrules Hv. set (e := filter is_digit body) in *.
  assert (De : digits e = true) by apply digits_filter.
  assert (Hb' : body_ok (lit "-" ++ body)).
  { intros x I. apply in_app_iff in I as [I|I]; [now right|auto]. }
  pose proof (body_unsigned _ Hb') as U.
  unfold parse_with, p_phone_number. rewrite rfc_text by (auto using digits_dec, dec_nonempty).
  cbn [obind pn_national].
  assert (V : is_viable (lit "-" ++ body) = true).
  { replace (lit "-" ++ body) with ([] ++ (lit "-" ++ body) ++ []) by (cbn [app]; now rewrite app_nil_r).
    apply viable_enough; [reflexivity|now apply unsigned_sep| |reflexivity].
    unfold count_digits. rewrite filter_app. change (filter is_digit (lit "-")) with (@nil char). cbn [app].
    fold e. lia. }
  rewrite V. cbn [negb]. unfold country_code. fold (idd_of db country). unfold international_prefix.
  cbn [pn_national pn_prefix]. fold (choose_mappings (lit "-" ++ body)).
  rewrite plain_alpha by now apply unsigned_plain.
  assert (N : normalize ASCII_MAPPINGS (set_country (mk_number SrcDefault (lit "-" ++ body) (Some (dec c)) ext None) SrcPlus)
              = mk_number SrcPlus e (Some (dec c)) ext None).
  { unfold normalize, set_country. cbn [pn_country pn_national pn_prefix pn_extension pn_carrier option_map].
    rewrite act_plain by now apply unsigned_plain. rewrite filter_app. change (filter is_digit (lit "-")) with (@nil char).
    rewrite (act_digits _ (dec c)) by apply digits_dec. f_equal.
    destruct ext as [x|]; [|reflexivity]. cbn [option_map]. now rewrite act_digits. }
  rewrite N. cbn [obind pn_country pn_national pn_prefix].
  rewrite digits_blen by exact De. destruct (Nat.leb_spec (length e) MIN_LENGTH_FOR_NSN) as [L|L].
  { unfold MIN_LENGTH_FOR_NSN in L. lia. }
  unfold parse_u16. rewrite parse_uint_dec by exact Hc. cbn [ok_or obind].
  destruct (by_code db c) as [l|]; [|now elim Hk]. cbn [obind].
  unfold select_meta, prefix_value. cbn [pn_country pn_prefix pn_national]. unfold parse_u16. rewrite parse_uint_dec by exact Hc.
  cbn [ok_or obind]. rewrite Hsrc.
  assert (G : match country with Some _ => let* s := Ok src in Ok (source_meta db s) | None => let* s := Ok src in Ok (source_meta db s) end
              = @Ok perr _ (source_meta db src)) by (destruct country; reflexivity).
  cbn [obind] in *. rewrite G. cbn [obind]. rewrite strip_national_silent; [|exact Hrules|reflexivity]. cbn [obind].
  rewrite finish_ext.
  destruct (finish_digits SrcPlus e c De) as (n & Hn & _ & Hp); [lia|exact Hc|exact Hv|].
  rewrite Hn. cbn [obind ph_code ph_national]. exists n. split; [reflexivity|exact Hp].
Qed.

Lemma clean_round_trip : forall db country p m l src, entry_clean m = true ->
  by_code db (code_value (ph_code p)) = Some (m :: l) -> (code_value (ph_code p) <= u16_max)%N ->
  (nn_raw (ph_national p) < 2 ^ 64)%N -> nn_value (ph_national p) <> 0%N ->
  3 <= length (nn_show (ph_national p)) <= 17 ->
  match ph_extension p with Some e => digits e = true | None => True end ->
  source_for db (code_value (ph_code p)) (trim_start_char ch_0 (nn_show (ph_national p))) = Ok src ->
  (forall m', source_meta db src = Some m' -> rules_silent m' (nn_show (ph_national p))) ->
  exists t, render db Rfc3966 p = Ok t
    /\ parse_with db country t
       = Ok (mk_phone (mk_code (code_value (ph_code p)) SrcPlus) (ph_national p) (ph_extension p) None).
Proof.
  intros db country p m l src Hm Hc Hu Hraw Hv Hl He Hsrc Hr.
  destruct (render_rfc3966 db p m l Hm Hc) as (body & Ht & Hd & Hb). rewrite Ht. eexists. split; [reflexivity|].
  rewrite digits_in_filter in Hd. rewrite <- Hd in Hsrc, Hl, Hr.
  assert (Hk : by_code db (code_value (ph_code p)) <> None) by (rewrite Hc; discriminate).
  assert (Hval : (1 <= digits_val (filter is_digit body) < 2 ^ 56)%N).
  { rewrite Hd. pose proof (nn_value_bound (ph_national p)) as B. unfold nn_show. rewrite digits_val_zeros, digits_val_dec.
    clear - B Hv. lia. }
  destruct (parse_rfc db country (code_value (ph_code p)) body (ph_extension p) src Hb Hl He Hu Hk Hsrc Hr Hval) as (n & Hp & Hn).
  pose proof (nn_show_parse (ph_national p) Hraw Hv) as Hq. rewrite Hd, Hq in Hn.
  injection Hn as <-. exact Hp.
Qed.

(** ** C23 *)
(** With the built-in metadata: a number with three to seventeen national digits
    (of a value other than zero) and an extension of digits, if any; no
    national-prefix rule of the region the digits select applies to them.  Its RFC
    3966 text gives it back, whatever the reference country. *)
Theorem C23_no_rule : forall country p src,
  by_code default_db (code_value (ph_code p)) <> None ->
  (nn_raw (ph_national p) < 2 ^ 64)%N -> nn_value (ph_national p) <> 0%N ->
  3 <= length (nn_show (ph_national p)) <= 17 ->
  all_digits (ext_of p) ->
  source_for default_db (code_value (ph_code p)) (trim_start_char ch_0 (nn_show (ph_national p))) = Ok src ->
  (forall m, source_meta default_db src = Some m -> ~ rule_applies m (nn_show (ph_national p))) ->
  exists t, render default_db Rfc3966 p = Ok t
    /\ parse country t
       = Ok (mk_phone (mk_code (code_value (ph_code p)) SrcPlus) (ph_national p) (ph_extension p) None).
Proof.
  intros country p src Hk Hraw Hv Hl He Hsrc Hr. destruct (known_head _ Hk) as (m & l & Hc).
  pose proof (heads_forall_head _ _ _ _ _ default_clean Hc) as Hm. pose proof (code_range _ Hk) as R.
  unfold parse. revert Hsrc Hr Hc. generalize default_db as db. intros db Hsrc Hr Hc.
  apply (clean_round_trip db country p m l src); [exact Hm|exact Hc| |exact Hraw|exact Hv|exact Hl| |exact Hsrc|].
  - unfold u16_max. clear - R. lia.
  - unfold ext_of in He. destruct (ph_extension p); [apply all_digits_iff; exact He|exact I].
  - intros m' Hm'. apply no_rule_silent, Hr, Hm'.
Qed.
Print Assumptions C23_no_rule.

(** For every valid number, but for the calling codes for which the E.164 round
    trip fails as well. *)
Theorem C23_valid : forall country p,
  (nn_raw (ph_national p) < 2 ^ 64)%N -> nn_value (ph_national p) <> 0%N ->
  is_valid p = Ok true -> ~ In (code_value (ph_code p)) not_covered ->
  3 <= length (nn_show (ph_national p)) -> all_digits (ext_of p) ->
  exists t, render default_db Rfc3966 p = Ok t
    /\ parse country t
       = Ok (mk_phone (mk_code (code_value (ph_code p)) SrcPlus) (ph_national p) (ph_extension p) None).
Proof.
  intros country p Hraw Hv Hvalid Hnc Hl He.
  destruct (valid_silent default_db p (db_check_sane _ _ default_db_check) default_codes_check Hvalid Hnc)
    as (Lr & (regions & Hreg) & src & Hsrc & Hr).
  assert (Hk : by_code default_db (code_value (ph_code p)) <> None).
  { intros E. pose proof (ok_region _ default_db_ok (code_value (ph_code p))) as R. rewrite E in R.
    cbn [option_map] in R. rewrite R in Hreg. discriminate Hreg. }
  destruct (known_head _ Hk) as (m & l & Hc).
  pose proof (heads_forall_head _ _ _ _ _ default_clean Hc) as Hm. pose proof (code_range _ Hk) as R.
  unfold parse. clear Hvalid Hreg Hk. revert Hsrc Hr Hc. generalize default_db as db. intros db Hsrc Hr Hc.
  apply (clean_round_trip db country p m l src); [exact Hm|exact Hc| |exact Hraw|exact Hv| | |exact Hsrc|exact Hr].
  - unfold u16_max. clear - R. lia.
  - clear - Hl Lr. lia.
  - unfold ext_of in He. destruct (ph_extension p); [apply all_digits_iff; exact He|exact I].
Qed.
Print Assumptions C23_valid.

Example C23_ex :
  let p := mk_phone (mk_code 44 SrcDefault) (mk_national 2079460123) (Some (lit "0045")) None in
  ((nn_raw (ph_national p) < 2 ^ 64)%N /\ nn_value (ph_national p) <> 0%N /\ ~ In (code_value (ph_code p)) not_covered)
  /\ is_valid p = Ok true /\ 3 <= length (nn_show (ph_national p))
  /\ render default_db Rfc3966 p = Ok (lit "tel:+44-20-7946-0123;ext=0045")
  /\ parse (Some ID_FR) (lit "tel:+44-20-7946-0123;ext=0045")
     = Ok (mk_phone (mk_code 44 SrcPlus) (mk_national 2079460123) (Some (lit "0045")) None).
Proof.
  split; [|split; [vm_compute; reflexivity|split; [vm_compute; lia|vm_compute; auto]]].
  split; [vm_compute; reflexivity|]. split; [vm_compute; discriminate|]. cbn. intuition discriminate.
Qed.

(** The conditions are needed: two national digits, a rule that applies. *)
Theorem C23_two_digits_refuted : exists p t,
  by_code default_db (code_value (ph_code p)) <> None /\ length (nn_show (ph_national p)) = 2
  /\ ph_extension p = None /\ render default_db Rfc3966 p = Ok t
  /\ (forall q, parse None t <> Ok q) /\ exists u q, render default_db E164 p = Ok u /\ parse None u = Ok q.
Proof.
  exists (mk_phone (mk_code 49 SrcDefault) (mk_national 33) None None), (lit "tel:+49-33").
  split; [vm_compute; discriminate|]. split; [reflexivity|]. split; [reflexivity|]. split; [vm_compute; reflexivity|].
  split; [intros q; vm_compute; discriminate|].
  exists (lit "+4933"), (mk_phone (mk_code 49 SrcPlus) (mk_national 33) None None). split; vm_compute; reflexivity.
Qed.
Print Assumptions C23_two_digits_refuted.

Theorem C23_rule_refuted : exists p t q, is_valid p = Ok true
  /\ ph_extension p = None /\ render default_db Rfc3966 p = Ok t /\ parse None t = Ok q
  /\ nn_show (ph_national q) <> nn_show (ph_national p).
Proof.
  exists (mk_phone (mk_code 7 SrcDefault) (mk_national 8121234567) None None), (lit "tel:+7-812-123-45-67").
  exists (mk_phone (mk_code 7 SrcPlus) (mk_national 121234567) None None).
  split; [vm_compute; reflexivity|]. split; [reflexivity|]. split; [vm_compute; reflexivity|].
  split; [vm_compute; reflexivity|]. vm_compute. discriminate.
Qed.
Print Assumptions C23_rule_refuted.
