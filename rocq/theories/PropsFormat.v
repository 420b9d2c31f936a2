(** * C21, C22, C31: what formatted text is made of *)
From Verif Require Import Base Unicode Regex RegexSyntax Consts CountryId Types NationalNumber
  Metadata Database Validator Valid Number Rfc3966 Helper Natural PhoneNumber Parser Formatter Loader
  DefaultDb DefaultDbOk Api.
From Verif Require Import StrFacts NationalFacts RegexLang RegexFacts RegexCaps DatabaseFacts ParserFacts
  TextFacts FormatFacts FormatDigits FormatDollar PropsE164 PropsParse.

(** ** Vocabulary *)
(** the ASCII digits of a text, in order *)
Definition digits_in (s : str) : str := filter (fun c => (48 <=? c) && (c <=? 57))%N s.
(** only ASCII digits and characters of [extra] *)
Definition digits_and (extra : str) (s : str) : Prop := forall c, In c s -> (48 <= c <= 57)%N \/ In c extra.
(** the extension, or nothing *)
Definition ext_of (p : phone) : str := match ph_extension p with Some e => e | None => [] end.

Lemma digits_in_filter : forall s, digits_in s = filter is_digit s.
Proof. intros s. apply filter_ext. intros c. unfold is_digit, in_range. reflexivity. Qed.
Lemma digits_in_app : forall a b, digits_in (a ++ b) = digits_in a ++ digits_in b.
Proof. intros. apply filter_app. Qed.
Lemma digits_in_digits : forall s, digits s = true -> digits_in s = s.
Proof. intros s H. rewrite digits_in_filter. now apply filter_digits. Qed.

(** ** The formats in use *)
Definition intl_formats (m : metadata) : list format :=
  match md_international_formats m with [] => md_formats m | l => l end.
Definition ext_text_of (m : metadata) : str :=
  match md_preferred_extension_prefix m with Some p => p | None => DEFAULT_EXTN_PREFIX end.
Definition entry_clean (m : metadata) : bool :=
  if forallb clean_format (intl_formats m)
  then if forallb (fun c => negb (is_digit c)) (ext_text_of m) then no_dollar (ext_text_of m) else false
  else false.
Definition entry_dollar (m : metadata) : bool :=
  if forallb (dollar_ok m) (md_formats m) then forallb (fun f => simple (f_format f)) (md_international_formats m)
  else false.
Definition heads_forall (f : metadata -> bool) (db : database) : bool :=
  forallb (fun p => match snd p with m :: _ => f m | [] => true end) (db_by_code db).

Lemma heads_forall_head : forall f db c m l, heads_forall f db = true -> by_code db c = Some (m :: l) -> f m = true.
Proof.
  intros f db c m l H E. apply nget_in in E. unfold heads_forall in H. rewrite forallb_forall in H. exact (H _ E).
Qed.

Lemma default_clean : heads_forall entry_clean default_db = true.
Proof. vm_cast_no_check (eq_refl true). Qed.
Lemma default_dollar : heads_forall entry_dollar default_db = true.
Proof. vm_cast_no_check (eq_refl true). Qed.

(** ** The body of an international or RFC 3966 rendering *)
Lemma intl_body : forall db p m l f, entry_clean m = true ->
  by_code db (code_value (ph_code p)) = Some (m :: l) ->
  choose_format (nn_show (ph_national p)) (intl_formats m) = Some f ->
  let t := re_replace (f_pattern f) (nn_show (ph_national p)) (f_format f) in
  filter is_digit t = nn_show (ph_national p)
  /\ forall c, In c t -> is_digit c = true \/ is_template_sep c = true.
Proof.
  intros db p m l f Hm Hc Hf. apply choose_format_in in Hf. unfold entry_clean in Hm.
  destruct (forallb clean_format (intl_formats m)) eqn:E; [|discriminate]. rewrite forallb_forall in E.
  apply clean_replace; [auto|apply nn_show_digits].
Qed.

Lemma intl_formats_eq : forall m,
  match md_international_formats m with [] => md_formats m | f :: l => f :: l end = intl_formats m.
Proof. reflexivity. Qed.

Lemma render_international : forall db p m l, entry_clean m = true ->
  by_code db (code_value (ph_code p)) = Some (m :: l) ->
  exists body, render db International p
      = Ok (lit "+" ++ dec (code_value (ph_code p)) ++ lit " " ++ body ++ ext_suffix m p)
    /\ digits_in body = nn_show (ph_national p) /\ digits_and (lit " -.()") body.
Proof.
  intros db p m l Hm Hc. unfold render, fmt_display.
  cbn [fm_database fm_number fm_set_mode fmt_format_with fm_mode fm_format]. rewrite Hc. cbn [ok_or obind].
  rewrite (intl_formats_eq m). destruct (choose_format (nn_show (ph_national p)) (intl_formats m)) as [f|] eqn:Ef.
  - rewrite fmt_replace_none. cbn [obind]. eexists. split; [reflexivity|].
    destruct (intl_body db p m l f Hm Hc Ef) as [H1 H2]. rewrite digits_in_filter. split; [exact H1|].
    intros c I. destruct (H2 c I) as [D|D]; [left; apply is_digit_spec; exact D|right].
    apply existsb_exists in D as (x & J & K). apply N.eqb_eq in K. subst x. exact J.
  - cbn [obind]. eexists. split; [reflexivity|]. split; [apply digits_in_digits, nn_show_digits|].
    intros c I. left. apply is_digit_spec. pose proof (nn_show_digits (ph_national p)) as D.
    unfold digits in D. rewrite forallb_forall in D. exact (D c I).
Qed.

Lemma render_rfc3966 : forall db p m l, entry_clean m = true ->
  by_code db (code_value (ph_code p)) = Some (m :: l) ->
  exists body, render db Rfc3966 p
      = Ok (lit "tel:+" ++ dec (code_value (ph_code p)) ++ lit "-" ++ body
            ++ match ph_extension p with Some e => lit ";ext=" ++ e | None => [] end)
    /\ digits_in body = nn_show (ph_national p) /\ digits_and (lit "-") body.
Proof.
  intros db p m l Hm Hc. unfold render, fmt_display.
  cbn [fm_database fm_number fm_set_mode fmt_format_with fm_mode fm_format]. rewrite Hc. cbn [ok_or obind].
  rewrite (intl_formats_eq m). destruct (choose_format (nn_show (ph_national p)) (intl_formats m)) as [f|] eqn:Ef.
  - rewrite fmt_replace_none. cbn [obind]. eexists. split; [reflexivity|].
    destruct (intl_body db p m l f Hm Hc Ef) as [H1 H2].
    destruct (hyphenate (re_replace (f_pattern f) (nn_show (ph_national p)) (f_format f))) as [H3 H4].
    rewrite digits_in_filter. split; [exact (eq_trans H3 H1)|].
    intros c I. destruct (H4 H2 c I) as [D|D]; [left; apply is_digit_spec; exact D|right; left; symmetry; exact D].
  - cbn [obind]. eexists. split; [reflexivity|]. split; [apply digits_in_digits, nn_show_digits|].
    intros c I. left. apply is_digit_spec. pose proof (nn_show_digits (ph_national p)) as D.
    unfold digits in D. rewrite forallb_forall in D. exact (D c I).
Qed.

Lemma known_head : forall c, by_code default_db c <> None -> exists m l, by_code default_db c = Some (m :: l).
Proof.
  intros c H. destruct (by_code default_db c) as [[|m l]|] eqn:E; [|eauto|easy].
  now apply (ok_code_ne _ default_db_ok) in E.
Qed.

Lemma ext_suffix_digits : forall m p, entry_clean m = true -> digits_in (ext_suffix m p) = digits_in (ext_of p).
Proof.
  intros m p H. unfold entry_clean in H. destruct (forallb clean_format _); [|discriminate].
  destruct (forallb _ (ext_text_of m)) eqn:E; [|discriminate]. unfold ext_suffix, ext_of.
  destruct (ph_extension p) as [e|]; [|reflexivity]. change (digits_in (ext_text_of m ++ e) = digits_in e).
  rewrite digits_in_app.
  assert (Z : digits_in (ext_text_of m) = []).
  { rewrite digits_in_filter. clear H. induction (ext_text_of m) as [|c s IH]; [reflexivity|].
    cbn [forallb] in E. apply andb_prop in E as [E1 E2]. apply negb_true_iff in E1. cbn [filter]. rewrite E1. auto. }
  now rewrite Z.
Qed.

(** ** C21: formatting keeps every digit *)
(** With the built-in metadata, for every number whose calling code is known: the
    digits of the two renderings are those of the code, then of the national
    number, then of the extension. *)
Theorem C21_international : forall p, by_code default_db (code_value (ph_code p)) <> None ->
  exists t, render default_db International p = Ok t
    /\ digits_in t = dec (code_value (ph_code p)) ++ nn_show (ph_national p) ++ digits_in (ext_of p).
Proof.
  intros p H. destruct (known_head _ H) as (m & l & Hc).
  pose proof (heads_forall_head _ _ _ _ _ default_clean Hc) as Hm.
  destruct (render_international default_db p m l Hm Hc) as (body & -> & Hb & _). eexists. split; [reflexivity|].
  rewrite !digits_in_app, Hb, ext_suffix_digits by exact Hm.
  rewrite (digits_in_digits (dec _)) by apply digits_dec. reflexivity.
Qed.
Print Assumptions C21_international.

Theorem C21_rfc3966 : forall p, by_code default_db (code_value (ph_code p)) <> None ->
  exists t, render default_db Rfc3966 p = Ok t
    /\ digits_in t = dec (code_value (ph_code p)) ++ nn_show (ph_national p) ++ digits_in (ext_of p).
Proof.
  intros p H. destruct (known_head _ H) as (m & l & Hc).
  pose proof (heads_forall_head _ _ _ _ _ default_clean Hc) as Hm.
  destruct (render_rfc3966 default_db p m l Hm Hc) as (body & -> & Hb & _). eexists. split; [reflexivity|].
  rewrite !digits_in_app, Hb. rewrite (digits_in_digits (dec _)) by apply digits_dec.
  unfold ext_of. destruct (ph_extension p); [rewrite digits_in_app|]; reflexivity.
Qed.
Print Assumptions C21_rfc3966.

(** What separates those digits: one '+', one space after the code, blanks, dots,
    hyphens and parentheses in the national part, and the region's extension
    text. *)
Theorem C21_international_shape : forall p m l,
  by_code default_db (code_value (ph_code p)) = Some (m :: l) ->
  exists body, render default_db International p
      = Ok (lit "+" ++ dec (code_value (ph_code p)) ++ lit " " ++ body
            ++ match ph_extension p with
               | Some e => match md_preferred_extension_prefix m with Some x => x | None => lit " ext. " end ++ e
               | None => []
               end)
    /\ digits_in body = nn_show (ph_national p) /\ digits_and (lit " -.()") body.
Proof.
  intros p m l Hc. pose proof (heads_forall_head _ _ _ _ _ default_clean Hc) as Hm.
  exact (render_international default_db p m l Hm Hc).
Qed.
Print Assumptions C21_international_shape.

Definition us_number : phone := mk_phone (mk_code 1 SrcDefault) (mk_national 6502530000) (Some (lit "123")) None.
Example C21_ex : by_code default_db (code_value (ph_code us_number)) <> None
  /\ render default_db International us_number = Ok (lit "+1 650-253-0000 ext. 123")
  /\ render default_db Rfc3966 us_number = Ok (lit "tel:+1-650-253-0000;ext=123")
  /\ digits_in (lit "+1 650-253-0000 ext. 123") = lit "16502530000123".
Proof. split; [vm_compute; discriminate|]. vm_compute. auto. Qed.

(** National formatting is another matter: an Argentine mobile number loses its
    leading 9 and gains a 15. *)
Theorem C21_national_refuted : exists p t, by_code default_db (code_value (ph_code p)) <> None
  /\ ph_extension p = None /\ ph_carrier p = None
  /\ render default_db National p = Ok t
  /\ (forall a b, digits_in t <> a ++ nn_show (ph_national p) ++ b).
Proof.
  exists (mk_phone (mk_code 54 SrcPlus) (mk_national 91123456789) None None), (lit "011 15-2345-6789").
  split; [vm_compute; discriminate|]. split; [reflexivity|]. split; [reflexivity|]. split; [vm_compute; reflexivity|].
  intros a b. change (digits_in (lit "011 15-2345-6789")) with (lit "0111523456789").
  change (nn_show _) with (lit "91123456789").
  intros E. assert (L : length a + length b = 2).
  { apply (f_equal (@length char)) in E. rewrite !app_length in E.
    change (length (lit "91123456789")) with 11 in E. change (length (lit "0111523456789")) with 13 in E. lia. }
  destruct a as [|x [|y [|z a]]]; cbn [app] in E; try (discriminate E). cbn in L. lia.
Qed.
Print Assumptions C21_national_refuted.

(** ** C22: RFC 3966 text *)
Theorem C22_shape : forall p, by_code default_db (code_value (ph_code p)) <> None ->
  exists body, render default_db Rfc3966 p
      = Ok (lit "tel:+" ++ dec (code_value (ph_code p)) ++ lit "-" ++ body
            ++ match ph_extension p with Some e => lit ";ext=" ++ e | None => [] end)
    /\ digits_and (lit "-") body /\ digits_in body = nn_show (ph_national p).
Proof.
  intros p H. destruct (known_head _ H) as (m & l & Hc).
  pose proof (heads_forall_head _ _ _ _ _ default_clean Hc) as Hm.
  destruct (render_rfc3966 default_db p m l Hm Hc) as (body & -> & Hb & Hs). exists body. auto.
Qed.
Print Assumptions C22_shape.

(** A French number, whose format has blanks. *)
Example C22_ex :
  let p := mk_phone (mk_code 33 SrcPlus) (mk_national 123456789) (Some (lit "7")) None in
  by_code default_db (code_value (ph_code p)) <> None
  /\ render default_db International p = Ok (lit "+33 1 23 45 67 89 ext. 7")
  /\ render default_db Rfc3966 p = Ok (lit "tel:+33-1-23-45-67-89;ext=7").
Proof. split; [vm_compute; discriminate|]. vm_compute. auto. Qed.

(** ** C31: no '$' in formatted text *)
Lemma clean_no_dollar : forall m, entry_clean m = true -> no_dollar (ext_text_of m) = true.
Proof.
  intros m H. unfold entry_clean in H. destruct (forallb clean_format _); [|discriminate].
  destruct (forallb _ (ext_text_of m)); [exact H|discriminate].
Qed.

Lemma nn_show_no_dollar : forall n, ~ In 36%N (nn_show n).
Proof.
  intros n I. pose proof (nn_show_digits n) as D. unfold digits in D. rewrite forallb_forall in D. apply D in I.
  discriminate I.
Qed.
Lemma dec_no_dollar : forall n, ~ In 36%N (dec n).
Proof.
  intros n I. pose proof (digits_dec n) as D. unfold digits in D. rewrite forallb_forall in D. apply D in I.
  discriminate I.
Qed.

Lemma national_body_dollar : forall m f n rule carrier t, rule_ok m f rule = true -> ~ In 36%N n ->
  match carrier with Some k => ~ In 36%N k | None => True end ->
  fmt_replace n m f (Some rule) carrier = Ok t -> ~ In 36%N t.
Proof.
  intros m f n rule carrier t Hr Hn Hk Ht I. apply Hn. eapply rule_ok_in; [exact Hr| |exact Ht|exact I|reflexivity].
  destruct carrier; [now apply no_dollar_in|exact Logic.I].
Qed.

Lemma plain_body_dollar : forall m f n carrier t, simple (f_format f) = true -> ~ In 36%N n ->
  fmt_replace n m f None carrier = Ok t -> ~ In 36%N t.
Proof.
  intros m f n carrier t Hf Hn Ht I. rewrite fmt_replace_none in Ht. inversion Ht as [E]. rewrite <- E in I.
  apply simple_replace_in in I as [I|I]; [now apply Hn| |exact Hf]. apply simple_lits, no_dollar_in in Hf. now apply Hf.
Qed.

Lemma render_no_dollar : forall db mode p m l t, entry_clean m = true -> entry_dollar m = true ->
  by_code db (code_value (ph_code p)) = Some (m :: l) ->
  ~ In 36%N (ext_of p) -> match ph_carrier p with Some k => ~ In 36%N k | None => True end ->
  render db mode p = Ok t -> ~ In 36%N t.
Proof.
  intros db md p m l t Hcl Hd Hc He Hk Ht.
  pose proof (nn_show_no_dollar (ph_national p)) as Hn. pose proof (dec_no_dollar (code_value (ph_code p))) as Hcc.
  assert (Hext : ~ In 36%N (ext_suffix m p)).
  { unfold ext_suffix. unfold ext_of in He. destruct (ph_extension p) as [e|]; [|exact He]. fold (ext_text_of m).
    intros I. apply in_app_iff in I as [I|I]; [|exact (He I)]. apply clean_no_dollar, no_dollar_in in Hcl. exact (Hcl I). }
  destruct md.
  - unfold render, fmt_display in Ht. cbn [fm_database fm_number fm_set_mode fmt_format_with fm_mode fm_format] in Ht.
    rewrite Hc in Ht. cbn [ok_or obind] in Ht. injection Ht as <-. intros I.
    destruct I as [I|I]; [discriminate I|]. apply in_app_iff in I as [I|I]; [exact (Hcc I)|exact (Hn I)].
  - destruct (render_international db p m l Hcl Hc) as (body & E & _ & Hb). rewrite E in Ht. injection Ht as <-.
    intros I. destruct I as [I|I]; [discriminate I|]. apply in_app_iff in I as [I|I]; [exact (Hcc I)|].
    destruct I as [I|I]; [discriminate I|]. apply in_app_iff in I as [I|I]; [|exact (Hext I)].
    destruct (Hb _ I) as [J|J]; [clear - J; lia|]. revert J. cbn. intuition discriminate.
  - unfold render, fmt_display in Ht. cbn [fm_database fm_number fm_set_mode fmt_format_with fm_mode fm_format] in Ht.
    rewrite Hc in Ht. cbn [ok_or obind] in Ht. unfold entry_dollar in Hd.
    destruct (forallb (dollar_ok m) (md_formats m)) eqn:Ef; [|discriminate]. rewrite forallb_forall in Ef.
    assert (X : match md_international_formats m with [] => md_formats m | _ :: _ => md_formats m end = md_formats m)
      by (destruct (md_international_formats m); reflexivity). rewrite X in Ht. clear X.
    apply obind_ok in Ht as (body & Hb & Ht). injection Ht as <-. intros I. apply in_app_iff in I as [I|I]; [|exact (Hext I)].
    revert I. destruct (choose_format _ (md_formats m)) as [f|] eqn:Ec; [|injection Hb as <-; exact Hn].
    apply choose_format_in, Ef in Ec. unfold dollar_ok in Ec. destruct (simple (f_format f)) eqn:Es; [|discriminate].
    destruct (opt_ok (rule_ok m f) (f_national_prefix f)) eqn:En; [|discriminate].
    assert (Q : match f_national_prefix f with
                | Some rule => fmt_replace (nn_show (ph_national p)) m f (Some rule) None
                | None => fmt_replace (nn_show (ph_national p)) m f None None end = Ok body -> ~ In 36%N body).
    { destruct (f_national_prefix f) as [rule|]; cbn [opt_ok] in En; intros K.
      - eapply national_body_dollar; [exact En|exact Hn| |exact K]. exact Logic.I.
      - eapply plain_body_dollar; [exact Es|exact Hn|exact K]. }
    destruct (ph_carrier p) as [k|]; [|exact (Q Hb)].
    destruct (f_domestic_carrier f) as [rule|]; [|exact (Q Hb)]. cbn [opt_ok] in Ec.
    eapply national_body_dollar; [exact Ec|exact Hn| |exact Hb]. exact Hk.
  - destruct (render_rfc3966 db p m l Hcl Hc) as (body & E & _ & Hb). rewrite E in Ht. injection Ht as <-.
    intros I. repeat (destruct I as [I|I]; [discriminate I|]). apply in_app_iff in I as [I|I]; [exact (Hcc I)|].
    destruct I as [I|I]; [discriminate I|]. apply in_app_iff in I as [I|I].
    + destruct (Hb _ I) as [J|J]; [clear - J; lia|]. revert J. cbn. intuition discriminate.
    + unfold ext_of in He. destruct (ph_extension p) as [e|]; [|destruct I].
      repeat (destruct I as [I|I]; [discriminate I|]). exact (He I).
Qed.

Theorem C31_no_placeholder : forall mode p, by_code default_db (code_value (ph_code p)) <> None ->
  ~ In 36%N (ext_of p) -> match ph_carrier p with Some k => ~ In 36%N k | None => True end ->
  exists t, render default_db mode p = Ok t /\ ~ In 36%N t.
Proof.
  intros md p H He Hk. destruct (known_head _ H) as (m & l & Hc).
  pose proof (heads_forall_head _ _ _ _ _ default_clean Hc) as Hcl.
  pose proof (heads_forall_head _ _ _ _ _ default_dollar Hc) as Hd.
  destruct (render_ok default_db md p m l Hc) as (t & Ht).
  { intros f I. eapply default_format_ok; [|exact I]. right. exists (code_value (ph_code p)), (m :: l). split; [exact Hc|now left]. }
  exists t. split; [exact Ht|]. exact (render_no_dollar default_db md p m l t Hcl Hd Hc He Hk Ht).
Qed.
Print Assumptions C31_no_placeholder.

(** A Brazilian number with a carrier code: the national rule uses the carrier, the
    national prefix and the first group. *)
Example C31_ex :
  let p := mk_phone (mk_code 55 SrcDefault) (mk_national 1123456789) (Some (lit "9")) (Some (lit "15")) in
  by_code default_db (code_value (ph_code p)) <> None /\ ~ In 36%N (ext_of p)
  /\ render default_db National p = Ok (lit "0 15 (11) 2345-6789 ext. 9").
Proof. split; [vm_compute; discriminate|]. split; [cbn; intuition discriminate|]. vm_compute. reflexivity. Qed.

(** The carrier has to be free of '$': one taken from elsewhere leaks. *)
Theorem C31_any_carrier_refuted : exists p t, by_code default_db (code_value (ph_code p)) <> None
  /\ ph_extension p = None /\ render default_db National p = Ok t /\ In 36%N t.
Proof.
  exists (mk_phone (mk_code 55 SrcDefault) (mk_national 1123456789) None (Some (lit "$$$"))).
  eexists. split; [vm_compute; discriminate|]. split; [reflexivity|]. split; [vm_compute; reflexivity|].
  cbn. tauto.
Qed.
Print Assumptions C31_any_carrier_refuted.
