(** * C03, C04, C10, C26, C27, C28: what a successful parse returns *)
From Verif Require Import Base Unicode Regex RegexSyntax Consts CountryId Types NationalNumber
  Metadata Database Validator Valid Number Rfc3966 Helper Natural PhoneNumber Parser Formatter Loader
  DefaultDb DefaultDbOk Api.
From Verif Require Import StrFacts NationalFacts RegexLang RegexFacts RegexCaps DatabaseFacts ParserFacts
  ParseInv TextFacts ViableFacts PhoneText FormatFacts PropsPanic.

(** ** C03: a parsed number can be formatted *)

Lemma parsed_code : forall db country s p, db_ok db -> parse_with db country s = Ok p ->
  exists m l, by_code db (code_value (ph_code p)) = Some (m :: l).
Proof.
  intros db country s p OK H. apply parse_with_inv in H as (n0 & n1 & meta & n2 & H0 & Hv & H1 & H2 & H3 & H4).
  apply finish_inv in H4 as (code & nat_ & Hc & Hn & -> & Hl). cbn.
  apply strip_national_same in H3 as (Hs & Hp & _). apply country_code_inv in H1. destruct H1 as [_ _ _ _ C].
  unfold prefix_value in Hc. rewrite Hp in Hc.
  assert (G : by_code db code <> None).
  { assert (A : (exists pre code, pn_prefix n1 = Some pre /\ parse_u16 pre = Some code /\ by_code db code <> None)
      \/ (exists c m, country = Some c /\ by_id db (id_name c) = Some m /\ pn_prefix n1 = Some (dec (md_country_code m)))).
    { destruct (pn_country n1); auto. }
    destruct A as [(pre & c & E1 & E2 & E3)|(c & m & _ & E2 & E3)].
    - rewrite E1 in Hc. cbn in Hc. rewrite E2 in Hc. inversion Hc; subst. exact E3.
    - rewrite E3 in Hc. destruct (parse_u16 (dec (md_country_code m))) as [v|] eqn:Ev; [|discriminate].
      cbn in Hc. inversion Hc; subst v. apply parse_u16_dec_inv in Ev. subst code.
      destruct (ok_id_code _ OK _ _ E2) as (l & -> & _). easy. }
  destruct (by_code db code) as [[|m l]|] eqn:E; [|eauto|easy]. now apply (ok_code_ne _ OK) in E.
Qed.

(** For every database: if each format with a national-prefix or carrier rule
    refers to some group of its pattern ('$' and a digit), a number parsed with
    the database can be rendered with it in every mode. *)
Theorem C03_format_parsed : forall entries db country s p,
  db_from entries = Ok db ->
  (forall m f, db_has db m -> In f (md_formats m) \/ In f (md_international_formats m) ->
     f_national_prefix f <> None \/ f_domestic_carrier f <> None ->
     exists a d b, f_format f = a ++ 36%N :: d :: b /\ (48 <= d <= 57)%N) ->
  parse_with db country s = Ok p ->
  forall mode, exists t, render db mode p = Ok t.
Proof.
  intros entries db country s p Hdb Hf H mode. pose proof (db_from_db_ok _ _ Hdb) as OK.
  destruct (parsed_code _ _ _ _ OK H) as (m & l & Hc). eapply render_ok; [exact Hc|].
  intros f I Hr. destruct (Hf m f) as (a & d & b & E & Hd); auto.
  - right. exists (code_value (ph_code p)), (m :: l). split; [easy|now left].
  - exists a, d, b. split; [easy|]. now apply digit_Nd, is_digit_spec.
Qed.
Print Assumptions C03_format_parsed.

Definition format_check (f : format) : bool :=
  if is_some (f_national_prefix f) || is_some (f_domestic_carrier f)
  then is_some (re_find FIRST_GROUP (f_format f)) else true.
Lemma default_formats : db_forall (fun m => forallb format_check (md_formats m)
                                       && forallb format_check (md_international_formats m)) default_db = true.
Proof. vm_cast_no_check (eq_refl true). Qed.

Lemma default_format_ok : forall m f, db_has default_db m ->
  In f (md_formats m) \/ In f (md_international_formats m) -> format_ok f.
Proof.
  intros m f Hm I Hr. apply (db_forall_has _ _ _ default_formats) in Hm.
  apply andb_true_iff in Hm as [H1 H2]. rewrite forallb_forall in H1, H2.
  assert (H : format_check f = true) by (destruct I; auto). unfold format_check in H.
  pose proof (first_group_find (f_format f)) as F.
  destruct (re_find FIRST_GROUP (f_format f)) as [mr|].
  - destruct F as (d & c & _ & Hd & E & _). exists (mr_pre mr), d, (mr_post mr). auto.
  - destruct (f_national_prefix f), (f_domestic_carrier f); cbn in H; try discriminate. destruct Hr; congruence.
Qed.

(** With the built-in metadata there is no condition, and [to_string()] does
    not panic. *)
Theorem C03_default : forall country s p, parse country s = Ok p ->
  (exists t, phone_to_string p = Ok t) /\ forall mode, exists t, render default_db mode p = Ok t.
Proof.
  intros country s p H. destruct (parsed_code _ _ _ _ default_db_ok H) as (m & l & Hc).
  assert (R : forall mode, exists t, render default_db mode p = Ok t).
  { intros mode. eapply render_ok; [exact Hc|]. intros f I. eapply default_format_ok; [|exact I].
    right. exists (code_value (ph_code p)), (m :: l). split; [easy|now left]. }
  split; [|exact R]. destruct (R E164) as (t & Ht). exists t. unfold phone_to_string.
  replace (fmt_display default_db (fmt_format p)) with (render default_db E164 p) by reflexivity.
  now rewrite Ht.
Qed.
Print Assumptions C03_default.

Example C03_ex :
  let p := parse (Some ID_GB) (lit "020 7031 3000 ext 12") in
  (let* p := p in match render default_db National p with Ok t => Ok t | _ => Panic end)
     = Ok (lit "020 7031 3000 x12")
  /\ (let* p := p in match phone_to_string p with Ok t => Ok t | _ => Panic end) = Ok (lit "+442070313000").
Proof. vm_compute. split; reflexivity. Qed.

(** The condition is needed: this document is accepted, a number parses, and
    the National rendering panics. *)
Definition doc_noref : list event :=
  [EvStart (lit "phoneNumberMetadata") []; EvStart (lit "territories") [];
   EvStart (lit "territory") [Some (lit "id", lit "US"); Some (lit "countryCode", lit "1")];
   EvStart (lit "availableFormats") [];
   EvStart (lit "numberFormat") [Some (lit "pattern", lit "(\d+)"); Some (lit "nationalPrefixFormattingRule", lit "$NP$FG")];
   EvStart (lit "format") []; EvText (lit "none"); EvEnd (lit "format"); EvEnd (lit "numberFormat"); EvEnd (lit "availableFormats");
   EvStart (lit "generalDesc") []; EvStart (lit "nationalNumberPattern") []; EvText (lit "\d+");
   EvEnd (lit "nationalNumberPattern"); EvEnd (lit "generalDesc"); EvEnd (lit "territory");
   EvEnd (lit "territories"); EvEnd (lit "phoneNumberMetadata")].
Theorem C03_any_database_refuted :
  exists db p, db_parse doc_noref = Ok db /\ parse_with db None (lit "+12015550123") = Ok p
    /\ render db National p = Panic.
Proof.
  eexists _, _. split; [vm_compute; reflexivity|]. split; [vm_compute; reflexivity|]. vm_compute. reflexivity.
Qed.
Print Assumptions C03_any_database_refuted.

(** ** C04: the national number of a parsed number *)

Definition no_plus_check (m : metadata) : bool :=
  match md_national_prefix_transform_rule m with
  | Some tr => negb (mem_char ch_plus tr)
  | None => true
  end.
Lemma default_no_plus : db_forall no_plus_check default_db = true.
Proof. vm_cast_no_check (eq_refl true). Qed.
Lemma default_rules_no_plus : rules_no_plus default_db.
Proof.
  intros m tr Hm Htr I. apply (db_forall_has _ _ _ default_no_plus) in Hm. unfold no_plus_check in Hm.
  rewrite Htr in Hm. apply negb_true_iff in Hm. unfold mem_char in Hm.
  assert (existsb (N.eqb ch_plus) tr = true); [|congruence]. apply existsb_exists. exists ch_plus. split; [easy|].
  apply N.eqb_refl.
Qed.

(** For every database none of whose transform rules writes a '+'. *)
Theorem C04_national : forall db country s p,
  (forall m rule, db_has db m -> md_national_prefix_transform_rule m = Some rule -> ~ In 43%N rule) ->
  parse_with db country s = Ok p ->
  exists t, nn_show (ph_national p) = t
    /\ (forall c, In c t -> (48 <= c <= 57)%N) /\ 2 <= length t <= 17
    /\ nn_value (ph_national p) = fold_left (fun v c => v * 10 + (c - 48))%N t 0%N
    /\ (exists rest, t = repeat 48%N (N.to_nat (nn_zeros (ph_national p))) ++ rest
          /\ hd_error rest <> Some 48%N)
    /\ (1 <= nn_value (ph_national p) < 2 ^ 56)%N.
Proof.
  intros db country s p Hr H. destruct (parsed_national _ _ _ _ Hr H) as (t & E & D & L & V & Z & B & _).
  exists t. split; [easy|]. split; [intros c I; apply is_digit_spec; unfold digits in D; rewrite forallb_forall in D; auto|].
  split; [easy|]. split; [exact V|]. split; [|easy].
  rewrite Z, Nnat.Nat2N.id. destruct (leading_zeros t) as (rest & E1 & E2). exists rest.
  split; [exact E1|]. destruct rest; cbn; congruence.
Qed.
Print Assumptions C04_national.

Theorem C04_default : forall country s p, parse country s = Ok p ->
  exists t, nn_show (ph_national p) = t
    /\ (forall c, In c t -> (48 <= c <= 57)%N) /\ 2 <= length t <= 17
    /\ nn_value (ph_national p) = fold_left (fun v c => v * 10 + (c - 48))%N t 0%N
    /\ (exists rest, t = repeat 48%N (N.to_nat (nn_zeros (ph_national p))) ++ rest
          /\ hd_error rest <> Some 48%N)
    /\ (1 <= nn_value (ph_national p) < 2 ^ 56)%N.
Proof. intros country s p H. eapply C04_national; [|exact H]. exact default_rules_no_plus. Qed.
Print Assumptions C04_default.

Example C04_ex : exists p, parse (Some ID_IT) (lit "+39 02 3661 8300") = Ok p
  /\ nn_show (ph_national p) = lit "0236618300" /\ nn_zeros (ph_national p) = 1%N
  /\ nn_value (ph_national p) = 236618300%N.
Proof. eexists. split; [vm_compute; reflexivity|]. vm_compute. auto. Qed.

(** The condition is needed: with a '+' in a transform rule the printed number
    can be shorter than what was counted (here one digit). *)
Definition doc_plus_rule : list event :=
  [EvStart (lit "phoneNumberMetadata") []; EvStart (lit "territories") [];
   EvStart (lit "territory") [Some (lit "id", lit "US"); Some (lit "countryCode", lit "1");
     Some (lit "nationalPrefixForParsing", lit "(0)"); Some (lit "nationalPrefixTransformRule", lit "+")];
   EvStart (lit "generalDesc") []; EvStart (lit "nationalNumberPattern") []; EvText (lit "[+\d]+");
   EvEnd (lit "nationalNumberPattern"); EvEnd (lit "generalDesc"); EvEnd (lit "territory");
   EvEnd (lit "territories"); EvEnd (lit "phoneNumberMetadata")].
Theorem C04_any_database_refuted :
  exists db p, db_parse doc_plus_rule = Ok db
    /\ parse_with db (Some ID_US) (lit "00000005") = Ok p /\ length (nn_show (ph_national p)) < 2.
Proof.
  eexists _, _. split; [vm_compute; reflexivity|]. split; [vm_compute; reflexivity|].
  vm_compute. auto.
Qed.
Print Assumptions C04_any_database_refuted.

(** ** C10: the reported source of the calling code *)

(** Without a reference country the code was written in the text: after a '+'
    or after an international dialling prefix. *)
Theorem C10_no_country : forall db s p, parse_with db None s = Ok p ->
  code_source (ph_code p) = SrcPlus \/ code_source (ph_code p) = SrcIdd.
Proof.
  intros db s p H. apply parse_with_inv in H as (n0 & n1 & meta & n2 & H0 & Hv & H1 & H2 & H3 & H4).
  apply finish_inv in H4 as (code & nat_ & Hc & Hn & -> & Hl). cbn.
  apply strip_national_same in H3 as (-> & _). apply country_code_inv in H1. destruct H1 as [_ _ _ _ C].
  destruct (pn_country n1); auto; destruct C as (c & m & C & _); discriminate.
Qed.
Print Assumptions C10_no_country.

(** When the source is the reference country or the bare number, there is a
    reference country and the calling code is its code. *)
Theorem C10_reference_code : forall db country s p, parse_with db country s = Ok p ->
  code_source (ph_code p) = SrcDefault \/ code_source (ph_code p) = SrcNumber ->
  exists c m, country = Some c /\ by_id db (id_name c) = Some m
    /\ code_value (ph_code p) = md_country_code m.
Proof.
  intros db country s p H Hs. apply parse_with_inv in H as (n0 & n1 & meta & n2 & H0 & Hv & H1 & H2 & H3 & H4).
  apply finish_inv in H4 as (code & nat_ & Hc & Hn & -> & Hl). cbn in *.
  apply strip_national_same in H3 as (E1 & E2 & _). apply country_code_inv in H1. destruct H1 as [_ _ _ _ C].
  rewrite E1 in Hs. assert (C' : exists c m, country = Some c /\ by_id db (id_name c) = Some m
                                  /\ pn_prefix n1 = Some (dec (md_country_code m))).
  { destruct Hs as [Hs|Hs]; rewrite Hs in C; exact C. }
  destruct C' as (c & m & A & B & D). exists c, m. split; [easy|]. split; [easy|].
  unfold prefix_value in Hc. rewrite E2, D in Hc.
  destruct (parse_u16 (dec (md_country_code m))) as [v|] eqn:Ev; [|discriminate].
  cbn in Hc. inversion Hc; subst v. now apply parse_u16_dec_inv in Ev.
Qed.
Print Assumptions C10_reference_code.

Lemma parsed_source : forall db country s p, parse_with db country s = Ok p ->
  exists n0, p_phone_number s = Ok n0 /\ is_viable (pn_national n0) = true /\
   if is_some (pn_prefix n0) || starts_plus (pn_national n0)
   then code_source (ph_code p) = SrcPlus else code_source (ph_code p) <> SrcPlus.
Proof.
  intros db country s p H. apply parse_with_inv in H as (n0 & n1 & meta & n2 & H0 & Hv & H1 & H2 & H3 & H4).
  apply finish_inv in H4 as (code & nat_ & Hc & Hn & -> & Hl). cbn.
  apply strip_national_same in H3 as (-> & _). apply country_code_inv in H1. destruct H1 as [_ _ _ C _].
  exists n0. auto.
Qed.

(** Plus is reported only when the text has a plus sign ('+' or the full-width
    one) or a phone-context parameter. *)
Theorem C10_plus_only_if_written : forall db country s p, parse_with db country s = Ok p ->
  code_source (ph_code p) = SrcPlus ->
  In 43%N s \/ In 65291%N s \/ exists a b, s = a ++ lit ";phone-context=" ++ b.
Proof.
  intros db country s p H Hs. apply parsed_source in H as (n0 & H0 & _ & C).
  destruct (is_some (pn_prefix n0) || starts_plus (pn_national n0)) eqn:E; [|easy].
  apply p_phone_number_inv in H0 as [[_ _ _ (tel & rest & _ & _ & Hn & Hsh & _)]|[_ [_ _ Hp (pre & post & -> & _) _]]].
  - destruct Hsh as [(q & _ & ->)|[Es Hctx]].
    + left. apply in_app_iff. right. now left.
    + destruct (pn_prefix n0) as [q|].
      * right. right. destruct Hctx as [(a & b & ->)|(a & b & ->)].
        -- exists a, (q ++ b). now rewrite <- app_assoc.
        -- exists a, (ch_plus :: q ++ b). reflexivity.
      * exfalso. cbn in E. unfold starts_plus in E. destruct (pn_national n0) as [|c t]; [discriminate|].
        cbn in Hn. apply andb_true_iff in Hn as [Hn _]. apply r_number_not_plus in Hn. congruence.
  - rewrite Hp in E. cbn in E. unfold starts_plus in E. destruct (pn_national n0) as [|c t]; [discriminate|].
    unfold is_plus in E. apply orb_true_iff in E as [E|E]; apply N.eqb_eq in E; subst c.
    + left. apply in_app_iff. right. now left.
    + right. left. apply in_app_iff. right. now left.
Qed.
Print Assumptions C10_plus_only_if_written.

(** Conversely: if the first digit or plus sign of the text is a plus sign, the
    source of a successful parse is Plus, whatever the reference country. *)
Theorem C10_plus_if_written : forall db country pre c rest p,
  c = 43%N \/ c = 65291%N ->
  (forall x, In x pre -> x <> 43%N /\ x <> 65291%N /\ in_ranges tbl_Nd x = false) ->
  parse_with db country (pre ++ c :: rest) = Ok p -> code_source (ph_code p) = SrcPlus.
Proof.
  intros db country pre c rest p Hc Hpre H. apply parsed_source in H as (n0 & H0 & Hv & C).
  destruct (is_some (pn_prefix n0) || starts_plus (pn_national n0)) eqn:E; [easy|]. exfalso.
  apply orb_false_iff in E as [E1 E2]. destruct (pn_prefix n0) eqn:Ep; [discriminate|].
  assert (Hpc : is_plus c = true) by (destruct Hc as [->| ->]; reflexivity).
  assert (Hns : forallb (fun x => negb (start_char x)) pre = true).
  { apply forallb_forall. intros x I. apply Hpre in I as (I1 & I2 & I3). unfold start_char, is_plus.
    apply N.eqb_neq in I1, I2. now rewrite I1, I2, I3. }
  assert (Huniq : forall pre' y rest', pre ++ c :: rest = pre' ++ y :: rest' ->
            forallb (fun x => negb (start_char x)) pre' = true -> start_char y = true -> y = c).
  { intros pre' y rest' Heq Hns' Hy. clear - Heq Hns Hns' Hy Hpc. revert pre' Heq Hns'.
    induction pre as [|x q IH]; intros [|z pre'] Heq Hns'; cbn in *.
    - now inversion Heq.
    - inversion Heq; subst. apply andb_true_iff in Hns' as [Hz _]. unfold start_char in Hz. rewrite Hpc in Hz. discriminate.
    - inversion Heq; subst. apply andb_true_iff in Hns as [Hx _]. rewrite Hy in Hx. discriminate.
    - inversion Heq; subst. apply andb_true_iff in Hns as [_ Hns]. apply andb_true_iff in Hns' as [_ Hns'].
      now apply (IH Hns pre'). }
  apply p_phone_number_inv in H0 as [[_ _ _ (tel & rst & Htel & _ & Hn & Hsh & _)]|[_ [_ _ _ (pre' & post & Es & Hns' & Hst) _]]].
  - destruct Hsh as [(q & Hq & _)|[Es _]]; [congruence|].
    apply viable_digit in Hv as (d & I & Hd).
    (* the first start character of the national part *)
    destruct (span (fun x => negb (start_char x)) (pn_national n0)) as [u v] eqn:Eu.
    apply span_spec in Eu as (Eu & Hu & Hvv). destruct Hvv as [->|(y & v' & -> & Hy)].
    + rewrite app_nil_r in Eu. rewrite <- Eu in Hu. rewrite forallb_forall in Hu. apply Hu in I.
      apply digit_start in Hd. now rewrite Hd in I.
    + apply negb_false_iff in Hy. assert (y = c).
      { apply (Huniq (tel ++ u) y (v' ++ rst)); [|now rewrite forallb_app, Htel, Hu|easy].
        rewrite Es, Eu. now rewrite <- !app_assoc. }
      subst y. assert (Hcn : r_number c = true).
      { rewrite forallb_forall in Hn. apply Hn. rewrite Eu. apply in_app_iff. right. now left. }
      apply r_number_not_plus in Hcn. congruence.
  - destruct (pn_national n0) as [|y t] eqn:Et; [discriminate|]. cbn in E2.
    assert (y = c) by (apply (Huniq pre' y (t ++ post)); auto). subst y. congruence.
Qed.
Print Assumptions C10_plus_if_written.

Example C10_ex :
  let src country s := let* p := parse country (lit s) in Ok (code_source (ph_code p), code_value (ph_code p)) in
  src None "tel: +44 20 7031 3000"%bstr = Ok (SrcPlus, 44%N)
  /\ src (Some ID_GB) "020 7031 3000"%bstr = Ok (SrcDefault, 44%N)
  /\ src (Some ID_GB) "44 20 7031 3000"%bstr = Ok (SrcNumber, 44%N)
  /\ src (Some ID_GB) "001 650 253 0000"%bstr = Ok (SrcIdd, 1%N)
  /\ src None "6502530000;phone-context=+1"%bstr = Ok (SrcPlus, 1%N).
Proof. vm_compute. repeat split; reflexivity. Qed.

(** ** C26: extensions *)
Lemma act_length : forall m v, length (act m v) <= length v.
Proof.
  intros m v. rewrite act_flat_map. induction v as [|c v IH]; cbn [flat_map length]; [lia|].
  rewrite app_length. assert (length (act_push m c) <= 1); [|lia].
  unfold act_push. destruct (as_dec_digit c); [cbn; lia|]. destruct (map_get m c); cbn; lia.
Qed.

Lemma parsed_extension : forall db country s p, parse_with db country s = Ok p ->
  exists n0 mp, p_phone_number s = Ok n0 /\ mapping_ok mp
    /\ ph_extension p = option_map (act mp) (pn_extension n0).
Proof.
  intros db country s p H. apply parse_with_inv in H as (n0 & n1 & meta & n2 & H0 & Hv & H1 & H2 & H3 & H4).
  apply finish_inv in H4 as (code & nat_ & Hc & Hn & -> & Hl). cbn.
  apply strip_national_same in H3 as (_ & _ & ->). apply country_code_inv in H1.
  exists n0, (choose_mappings (pn_national n0)). split; [easy|]. split; [apply choose_mappings_ok|apply H1].
Qed.

(** For every database: an extension consists of ASCII digits. *)
Theorem C26_digits : forall db country s p e, parse_with db country s = Ok p -> ph_extension p = Some e ->
  forall c, In c e -> (48 <= c <= 57)%N.
Proof.
  intros db country s p e H He c I. apply parsed_extension in H as (n0 & mp & _ & Hm & Hx).
  rewrite Hx in He. destruct (pn_extension n0); [|discriminate]. cbn in He. inversion He; subst e.
  apply is_digit_spec. pose proof (act_digits mp s0 Hm) as D. unfold digits in D. rewrite forallb_forall in D. auto.
Qed.
Print Assumptions C26_digits.

(** If the text has a space or no ';' (so that it is not in the RFC 3966 form
    with an ext parameter), the extension has at most seven digits. *)
Theorem C26_length : forall db country s p e, parse_with db country s = Ok p -> ph_extension p = Some e ->
  In 32%N s \/ ~ In 59%N s -> length e <= 7.
Proof.
  intros db country s p e H He Hs. apply parsed_extension in H as (n0 & mp & H0 & Hm & Hx).
  rewrite Hx in He. destruct (pn_extension n0) as [e0|] eqn:E0; [|discriminate]. cbn in He. inversion He; subst e.
  apply p_phone_number_inv in H0 as [[Hsp _ _ (tel & rest & _ & _ & _ & Hsh & He0)]|[_ [_ _ _ _ He0]]];
    rewrite E0 in He0.
  - exfalso. destruct Hs as [Hs|Hs]; [auto|]. apply Hs.
    assert (I : In 59%N rest) by (eapply part_in; [exact He0|now left]).
    destruct Hsh as [(q & _ & ->)|[-> _]]; apply in_app_iff; right; [right|];
      apply in_app_iff; right; [apply in_app_iff; now right|exact I].
  - destruct He0 as [He0 _]. pose proof (act_length mp e0). lia.
Qed.
Print Assumptions C26_length.

Example C26_ex :
  let ext country s := let* p := parse country (lit s) in Ok (ph_extension p) in
  ext (Some ID_US) "650-253-0000 x1234567"%bstr = Ok (Some (lit "1234567"))
  /\ ext None "tel:+1-650-253-0000;ext=12.34-5678901"%bstr = Ok (Some (lit "12345678901")).
Proof. vm_compute. split; reflexivity. Qed.
