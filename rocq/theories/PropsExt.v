(** * C37-C38: extensions written after the number *)
From Verif Require Import Base Unicode Regex RegexSyntax Consts CountryId Types NationalNumber
  Metadata Database Validator Valid Number Rfc3966 Helper Natural PhoneNumber Parser Formatter Loader
  DefaultDb DefaultDbOk Api.
From Verif Require Import StrFacts NationalFacts RegexLang RegexFacts RegexCaps DatabaseFacts ParserFacts
  ParseInv TextFacts ViableFacts PhoneText E164Facts CoreFacts ExtFacts FormatFacts PropsParse PropsE164 PropsText PropsFormat.

(** ** C37: the words that introduce an extension *)
(** In any case: [lower] is the ASCII lower-casing. *)
Definition lower (c : char) : char := if in_range 65 90 c then (c + 32)%N else c.
(** the last two are "extensión", composed and decomposed *)
Definition ext_words : list str :=
  [lit "ext"; lit "extn"; lit "xt"; lit "xtn"; lit "extension"; lit "extensio"; lit "xtension";
   lit "x"; lit "int"; lit "anexo"; lit "#"; lit "~"; lit ","; lit ";";
   lit "extensi" ++ [243%N] ++ lit "n"; lit "extensio" ++ [769%N] ++ lit "n"].
(** space, no-break space, tab and comma *)
Definition blanks : str := [32; 160; 9; 44]%N.
(** blanks, a word, perhaps a colon or a full stop, blanks and hyphens *)
Definition ext_marker (mk : str) : Prop := exists sp w dot sp2,
  mk = sp ++ w ++ dot ++ sp2 /\ made_of blanks sp /\ In (map lower w) ext_words /\
  In dot [[]; lit ":"; lit "."] /\ made_of (blanks ++ lit "-") sp2.

Lemma words_match : forall w, In (map lower w) ext_words -> forall b a, lang extn_word b w a.
Proof.
  intros w H b a.
  assert (G : forallb (fun t => existsb (fun st => match m_rest st with [] => true | _ => false end)
                (ms extn_word (mk_mst 0 t []))) ext_words = true) by (vm_compute; reflexivity).
  rewrite forallb_forall in G. apply G in H. apply existsb_exists in H as (st & Hin & Hr).
  destruct (ms_sound _ _ _ [] Hin eq_refl) as (t & (R1 & _) & L). cbn [m_rest] in R1.
  destruct (m_rest st); [|discriminate Hr]. rewrite app_nil_r in R1. subst t.
  refine (proj1 lang_folded _ _ _ _ L _ b a w eq_refl). vm_compute. reflexivity.
Qed.

Lemma all_in : forall (p : char -> bool) l s, forallb p l = true -> made_of l s -> forallb p s = true.
Proof. intros p l s H M. apply forallb_forall. intros c I. rewrite forallb_forall in H. apply H, M, I. Qed.

Lemma marker_match : forall mk, ext_marker mk -> forall z b a, forallb (in_cls extn_sp) z = true ->
  lang extn_mark b (z ++ mk) a.
Proof.
  intros mk (sp & w & dot & sp2 & -> & Hsp & Hw & Hd & Hsp2) z b a Hz. rewrite extn_mark_shape.
  replace (z ++ sp ++ w ++ dot ++ sp2) with ((((z ++ sp) ++ w) ++ dot) ++ sp2) by now rewrite <- !app_assoc.
  constructor; [constructor; [constructor|]|].
  - apply lang_rep_cls. split; [lia|]. split; [exact I|]. rewrite forallb_app, Hz.
    apply (all_in _ blanks); [vm_compute; reflexivity|exact Hsp].
  - apply words_match, Hw.
  - apply lang_rep_cls. split; [lia|]. destruct Hd as [<-|[<-|[<-|[]]]]; (split; [cbn; lia|vm_compute; reflexivity]).
  - apply lang_rep_cls. split; [lia|]. split; [exact I|]. apply (all_in _ (blanks ++ lit "-")); [vm_compute; reflexivity|exact Hsp2].
Qed.

(** every character of a marker is a blank, a hyphen, a letter or sign of a word *)
Definition marker_chars : str := blanks ++ lit "-:." ++ upper_letters ++ concat ext_words.
Lemma marker_char : forall mk c, ext_marker mk -> In c mk -> In c marker_chars.
Proof.
  intros mk c (sp & w & dot & sp2 & -> & Hsp & Hw & Hd & Hsp2) I. unfold marker_chars. rewrite !in_app_iff in *.
  destruct I as [I|[I|[I|I]]].
  - left. apply Hsp, I.
  - right. right. apply (in_map lower) in I. unfold lower at 1 in I. destruct (in_range 65 90 c) eqn:R.
    + left. apply upper_in, R.
    + right. apply in_concat. eauto.
  - right. left. destruct Hd as [<-|[<-|[<-|[]]]]; [destruct I| |]; revert I; vm_compute; tauto.
  - apply Hsp2, in_app_iff in I as [I|I]; [now left|right; left]. revert I. vm_compute. tauto.
Qed.
Lemma marker_all : forall (p : char -> bool) mk c, forallb p marker_chars = true -> ext_marker mk -> In c mk -> p c = true.
Proof. intros p mk c H M I. rewrite forallb_forall in H. apply H. eapply marker_char; eauto. Qed.

Lemma marker_not_number : forall mk, ext_marker mk -> ~ forallb r_number mk = true.
Proof.
  intros mk (sp & w & dot & sp2 & -> & Hsp & Hw & Hd & Hsp2) H. rewrite !forallb_app in H.
  apply andb_true_iff in H as [_ H]. apply andb_true_iff in H as [H _].
  assert (G : forallb (fun t => existsb (fun c => negb (r_number c || r_number (c - 32)%N)) t) ext_words = true)
    by (vm_compute; reflexivity).
  rewrite forallb_forall in G. apply G in Hw. apply existsb_exists in Hw as (c & I & Hc).
  apply in_map_iff in I as (y & Ey & I). rewrite forallb_forall in H. apply H in I.
  apply negb_true_iff, orb_false_iff in Hc as [H1 H2]. unfold lower in Ey. destruct (in_range 65 90 y) eqn:R.
  - subst c. replace (y + 32 - 32)%N with y in H2 by lia. congruence.
  - subst c. congruence.
Qed.

(** the result with the extension filled in *)
Definition add_extension (e : str) (p : phone) : phone :=
  mk_phone (ph_code p) (ph_national p) (Some e) (ph_carrier p).

(** A number written with digits and separators, a marker, one to seven digits:
    the digits are the extension, and everything else is as if the number had
    been given alone (success or error).  Either there is a space somewhere, or
    the marker has no ';', '-' or '.'. *)
Theorem C37_extension : forall db country sign t mk e,
  In sign [[]; lit "+"] -> made_of (lit "0123456789 -.()") t -> 3 <= length (without_separators t) ->
  ext_marker mk -> made_of (lit "0123456789") e -> 1 <= length e <= 7 ->
  In 32%N (t ++ mk) \/ (forall c, In c mk -> ~ In c (lit ";-.")) ->
  parse_with db country (sign ++ t ++ mk ++ e) =
  let* p := parse_with db country (sign ++ without_separators t) in Ok (add_extension e p).
Proof.
  intros db country sign t mk e Hsign Ht Hn Hmk He Hl Hcond.
  assert (Hd : digits e = true).
  { apply forallb_forall. intros c I. apply He in I. revert c I. apply forallb_forall. vm_compute. reflexivity. }
  assert (Ht' : made_of (lit "0123456789" ++ separators) t).
  { intros c I. apply Ht in I. revert I. vm_compute. tauto. }
  apply without_unsigned in Ht' as [Ut Ew]. rewrite Ew in *. clear Ew.
  assert (Rfc : rfc3966 (sign ++ t ++ mk ++ e) = None).
  { destruct (in_dec N.eq_dec 32%N (t ++ mk)) as [I|Ns].
    - apply rfc_space. rewrite !in_app_iff in *. tauto.
    - destruct Hcond as [C|C]; [contradiction|]. apply rfc_refuses.
      + destruct Hsign as [<-|[<-|[]]]; [now left|now right].
      + intros c I. pose proof (Ht c I) as J.
        assert (c <> 32%N) by (intros ->; apply Ns, in_app_iff; now left).
        revert J. clear - H. cbn. intuition.
      + intros ->. cbn in Hn. lia.
      + exact Hd.
      + intros I. apply C in I. apply I. vm_compute. tauto.
      + intros c I. pose proof (C c I) as J. destruct (r_separator c) eqn:R; [exfalso|reflexivity].
        assert (G : (if r_separator c then existsb (N.eqb c) (lit "-.") else true) = true).
        { apply (marker_all (fun c => if r_separator c then existsb (N.eqb c) (lit "-.") else true) mk); [vm_compute; reflexivity|exact Hmk|exact I]. }
        rewrite R in G. apply existsb_exists in G as (y & Iy & Ey). apply N.eqb_eq in Ey. subst y.
        apply J. revert Iy. vm_compute. tauto.
      + now apply marker_not_number. }
  assert (M1 : forall c, In c mk -> c <> 92%N /\ c <> 47%N /\ c <> 61%N /\ in_ranges tbl_Nd c = false).
  { intros c I.
    assert (G : (if N.eqb c 92 then false else if N.eqb c 47 then false else if N.eqb c 61 then false else negb (in_ranges tbl_Nd c)) = true).
    { apply (marker_all (fun c => if N.eqb c 92 then false else if N.eqb c 47 then false else if N.eqb c 61 then false else negb (in_ranges tbl_Nd c)) mk); [vm_compute; reflexivity|exact Hmk|exact I]. }
    destruct (N.eqb_spec c 92); [discriminate G|]. destruct (N.eqb_spec c 47); [discriminate G|].
    destruct (N.eqb_spec c 61); [discriminate G|]. apply negb_true_iff in G. auto. }
  assert (T1 : forall c, In c t -> c <> 92%N /\ c <> 47%N).
  { intros c I. apply Ht in I. split; intros ->; revert I; vm_compute; intuition discriminate. }
  assert (Hnat : exists s, natural (sign ++ t ++ mk ++ e) = Ok (xt (Some e) (bare (sign ++ s)))
            /\ unsigned s /\ filter is_digit s = filter is_digit t).
  { destruct Hsign as [<-|[<-|[]]].
    - cbn [app]. replace (natural (t ++ mk ++ e)) with
        (natural ((fst (span (fun c => negb (start_char c)) t) ++ snd (span (fun c => negb (start_char c)) t)) ++ mk ++ e))
        by now rewrite span_app.
      destruct (span (fun c => negb (start_char c)) t) as [pre r0] eqn:Es. cbn [fst snd].
      pose proof (filter_skip_start t) as F. rewrite Es in F. cbn [snd] in F.
      apply span_spec in Es as (Et & Hpre & Hr0). rewrite <- app_assoc, natural_skip by exact Hpre.
      destruct Hr0 as [->|(x & r & -> & Hx)]; [rewrite <- F in Hn; cbn in Hn; lia|]. apply negb_false_iff in Hx.
      assert (Sub : forall c, In c (x :: r) -> In c t) by (intros c I; rewrite Et; apply in_app_iff; now right).
      destruct (natural_extension x r mk e) as (t' & Hnat & Hsub & Hf); auto.
      + apply unsigned_plain. eapply unsigned_sub; [exact Ut|exact Sub].
      + split; intros I; now apply Sub, T1 in I.
      + split; intros I; now apply M1 in I.
      + intros z b a. now apply marker_match.
      + intros c I. now apply M1.
      + intros I. now apply M1 in I.
      + exists (x :: t'). split; [exact Hnat|]. split.
        * eapply unsigned_sub; [exact Ut|]. intros c [<-|I]; [apply Sub; now left|apply Sub; right; auto].
        * rewrite <- F. cbn [filter]. rewrite Hf. reflexivity.
    - destruct (natural_extension ch_plus t mk e) as (t' & Hnat & Hsub & Hf); auto.
      + intros c [<-|I]; [vm_compute; tauto|apply (unsigned_plain _ Ut c I)].
      + split; intros [I|I]; try discriminate I; now apply T1 in I.
      + split; intros I; now apply M1 in I.
      + intros z b a. now apply marker_match.
      + intros c I. now apply M1.
      + intros I. now apply M1 in I.
      + exists t'. split; [exact Hnat|]. split; [|exact Hf]. eapply unsigned_sub; [exact Ut|exact Hsub]. }
  destruct Hnat as (s & Hnat & Us & Fs).
  assert (Hy : exists s', p_phone_number (sign ++ filter is_digit t) = Ok (bare (sign ++ s'))
            /\ unsigned s' /\ filter is_digit s' = filter is_digit t).
  { destruct Hsign as [<-|[<-|[]]].
    - destruct (p_phone_unsigned (filter is_digit t)) as (u & Hu & Uu & Fu); [apply unsigned_digits|unfold count_digits; rewrite filter_idem; lia|].
      exists u. rewrite filter_idem in Fu. auto.
    - exists (filter is_digit t). split; [|split; [apply unsigned_digits|apply filter_idem]].
      apply p_phone_plus_digits; [apply digits_filter|]. intros E. rewrite E in Hn. cbn in Hn. lia. }
  destruct Hy as (s' & Hy & Us' & Fs').
  assert (Pl : forall u, unsigned u -> plain (sign ++ u)).
  { intros u Hu c I. apply in_app_iff in I as [I|I]; [|exact (unsigned_plain _ Hu c I)].
    destruct Hsign as [<-|[<-|[]]]; [destruct I|]. destruct I as [<-|[]]. vm_compute. tauto. }
  assert (V : forall u, unsigned u -> filter is_digit u = filter is_digit t -> is_viable (sign ++ u) = true).
  { intros u Hu Fu. rewrite <- (app_nil_r u). apply viable_enough; auto using unsigned_sep.
    - destruct Hsign as [<-|[<-|[]]]; reflexivity.
    - unfold count_digits. rewrite Fu. exact Hn. }
  rewrite (parse_xt db country (sign ++ t ++ mk ++ e) (sign ++ filter is_digit t) (sign ++ s) (sign ++ s') e); auto.
  - unfold p_phone_number. now rewrite Rfc, Hnat.
  - now rewrite !V.
  - destruct Hsign as [<-|[<-|[]]]; [cbn [app]; now rewrite !unsigned_no_plus|reflexivity].
  - rewrite !plus_digits_plain_eq by now apply Pl. rewrite !filter_app. now rewrite Fs, Fs'.
Qed.
Print Assumptions C37_extension.
(** Hypotheses met, with and without a plus sign, with and without a space. *)
Example C37_ex1 :
  let t := lit "(650) 253-0000" in let mk := lit " ext. " in
  made_of (lit "0123456789 -.()") t /\ 3 <= length (without_separators t) /\ ext_marker mk /\ In 32%N (t ++ mk)
  /\ parse (Some ID_US) (t ++ mk ++ lit "007")
     = Ok (mk_phone (mk_code 1 SrcDefault) (mk_national 6502530000) (Some (lit "007")) None).
Proof.
  split; [refine (forallb_mem _ _ _); vm_compute; reflexivity|]. split; [vm_compute; lia|].
  split; [|split; [vm_compute; tauto|vm_compute; reflexivity]].
  exists (lit " "), (lit "ext"), (lit "."), (lit " "). split; [reflexivity|].
  split; [refine (forallb_mem _ _ _); vm_compute; reflexivity|]. split; [vm_compute; tauto|]. split; [vm_compute; tauto|].
  refine (forallb_mem _ _ _); vm_compute; reflexivity.
Qed.
Example C37_ex2 :
  let t := lit "3225551234" in let mk := lit "EXTN:" in
  made_of (lit "0123456789 -.()") t /\ 3 <= length (without_separators t) /\ ext_marker mk
  /\ (forall c, In c mk -> ~ In c (lit ";-."))
  /\ parse None (lit "+" ++ t ++ mk ++ lit "12")
     = Ok (mk_phone (mk_code 32 SrcPlus) (mk_national 25551234) (Some (lit "12")) None).
Proof.
  split; [refine (forallb_mem _ _ _); vm_compute; reflexivity|]. split; [vm_compute; lia|].
  split; [|split; [|vm_compute; reflexivity]].
  - exists [], (lit "EXTN"), (lit ":"), []. split; [reflexivity|].
    split; [intros c []|]. split; [vm_compute; tauto|]. split; [vm_compute; tauto|]. intros c [].
  - intros c I J. cbn in I, J. intuition (subst; discriminate).
Qed.

(** The conditions are needed.  Without a space, a full stop in the marker ends
    what the RFC 3966 reader takes for the calling code. *)
Theorem C37_no_space_refuted : exists t mk e, ext_marker mk
  /\ parse None (lit "+" ++ t ++ mk ++ e) = Err MalformedInteger
  /\ parse None (lit "+" ++ t ++ lit " " ++ mk ++ e)
     = Ok (mk_phone (mk_code 32 SrcPlus) (mk_national 25551234) (Some e) None).
Proof.
  exists (lit "3225551234"), (lit "ext.-"), (lit "125"). split; [|vm_compute; auto].
  exists [], (lit "ext"), (lit "."), (lit "-"). split; [reflexivity|].
  split; [intros c []|]. split; [vm_compute; tauto|]. split; [vm_compute; tauto|].
  refine (forallb_mem _ _ _); vm_compute; reflexivity.
Qed.
(** Eight digits are not an extension: they are glued to the number. *)
Theorem C37_eight_digits_refuted : exists t mk e, ext_marker mk /\ length e = 8
  /\ parse None (lit "+" ++ t ++ mk ++ e)
     = Ok (mk_phone (mk_code 32 SrcPlus) (mk_national 2555123412345678) None None).
Proof.
  exists (lit "32 2 555 12 34"), (lit " x"), (lit "12345678"). split; [|vm_compute; auto].
  exists (lit " "), (lit "x"), [], []. split; [reflexivity|].
  split; [refine (forallb_mem _ _ _); vm_compute; reflexivity|]. split; [vm_compute; tauto|]. split; [vm_compute; tauto|]. intros c [].
Qed.
(** The two other ways to write an extension that the pattern allows, ";ext=" and
    a hyphen before digits ended by '#', make the whole number unreadable when the
    text has a space. *)
Theorem C37_other_forms_refuted : exists t,
  parse None (lit "+" ++ t) = Ok (mk_phone (mk_code 32 SrcPlus) (mk_national 25551234) None None)
  /\ parse None (lit "+" ++ t ++ lit ";ext=12") = Err NoNumber
  /\ parse None (lit "+" ++ t ++ lit " - 12#") = Err NoNumber.
Proof. exists (lit "32 2 555 12 34"). vm_compute. auto. Qed.

(** ** C38: the international text and its extension *)
(** the extension prefixes of the built-in metadata *)
Definition known_prefixes : list str := [lit " ext. "; lit " x"; lit " Anexo "; lit " int "; lit "#"; lit " int. "].
Definition prefix_of_meta (m : metadata) : str :=
  match md_preferred_extension_prefix m with Some x => x | None => lit " ext. " end.
Lemma default_prefixes : heads_forall (fun m => existsb (str_eqb (prefix_of_meta m)) known_prefixes) default_db = true.
Proof. vm_cast_no_check (eq_refl true). Qed.
Lemma known_marker : forall x, In x known_prefixes -> ext_marker x.
Proof.
  assert (G : forall sp w dot sp2, forallb (fun c => existsb (N.eqb c) blanks) sp = true ->
    existsb (str_eqb (map lower w)) ext_words = true -> In dot [[]; lit ":"; lit "."] ->
    forallb (fun c => existsb (N.eqb c) (blanks ++ lit "-")) sp2 = true -> ext_marker (sp ++ w ++ dot ++ sp2)).
  { intros sp w dot sp2 H1 H2 H3 H4. exists sp, w, dot, sp2. split; [reflexivity|].
    split; [intros c I; exact (forallb_mem _ _ H1 c I)|]. split; [|split; [exact H3|intros c I; exact (forallb_mem _ _ H4 c I)]].
    apply existsb_exists in H2 as (y & I & E). apply str_eqb_eq in E. now rewrite E. }
  intros x [<-|[<-|[<-|[<-|[<-|[<-|[]]]]]]].
  - apply (G (lit " ") (lit "ext") (lit ".") (lit " ")); vm_compute; auto.
  - apply (G (lit " ") (lit "x") [] []); vm_compute; auto.
  - apply (G (lit " ") (lit "Anexo") [] (lit " ")); vm_compute; auto.
  - apply (G (lit " ") (lit "int") [] (lit " ")); vm_compute; auto.
  - apply (G [] (lit "#") [] []); vm_compute; auto.
  - apply (G (lit " ") (lit "int") (lit ".") (lit " ")); vm_compute; auto.
Qed.

Lemma render_international_parse : forall db country p m l, entry_clean m = true ->
  existsb (str_eqb (prefix_of_meta m)) known_prefixes = true ->
  by_code db (code_value (ph_code p)) = Some (m :: l) ->
  match ph_extension p with
  | Some e => all_digits e /\ 1 <= length e <= 7 /\ 3 <= length (dec (code_value (ph_code p)) ++ nn_show (ph_national p))
  | None => True end ->
  exists t, render db International p = Ok t
    /\ parse_with db country t
       = let* q := parse_with db country (lit "+" ++ dec (code_value (ph_code p)) ++ nn_show (ph_national p)) in
         Ok (match ph_extension p with Some e => add_extension e q | None => q end).
Proof.
  intros db country p m l Hm Hx Hc He. destruct (render_international db p m l Hm Hc) as (body & Ht & Hd & Hb).
  rewrite Ht. eexists. split; [reflexivity|].
  set (cc := dec (code_value (ph_code p))) in *.
  assert (ten : forall c, (48 <= c <= 57)%N -> In c (lit "0123456789")).
  { intros c D. assert (E : (c = 48 \/ c = 49 \/ c = 50 \/ c = 51 \/ c = 52 \/ c = 53 \/ c = 54 \/ c = 55 \/ c = 56 \/ c = 57)%N) by (clear - D; lia).
    clear - E. cbn. intuition. }
  assert (Hcc : all_digits cc) by (apply all_digits_iff, digits_dec).
  set (t := cc ++ lit " " ++ body).
  assert (Mt : made_of (lit "0123456789 -.()") t).
  { intros c I. unfold t in I. rewrite !in_app_iff in I. destruct I as [I|[I|I]].
    - apply Hcc, ten in I. revert I. vm_compute. tauto.
    - revert I. vm_compute. tauto.
    - apply Hb in I as [I|I]; [apply ten in I|]; revert I; vm_compute; tauto. }
  assert (Mt' : made_of (lit "0123456789" ++ separators) t).
  { intros c I. apply Mt in I. revert I. vm_compute. tauto. }
  assert (Sp : In 32%N t). { unfold t. rewrite !in_app_iff. right. left. now left. }
  assert (Ew : without_separators t = cc ++ nn_show (ph_national p)).
  { destruct (without_unsigned t Mt') as [_ ->]. unfold t. rewrite !filter_app.
    rewrite digits_in_filter in Hd. rewrite Hd. change (filter is_digit (lit " ")) with (@nil char). cbn [app].
    f_equal. apply all_digits_iff in Hcc. clear - Hcc. unfold digits in Hcc. induction cc as [|c l IH]; [reflexivity|].
    cbn [forallb filter] in *. apply andb_true_iff in Hcc as [Hc Hl]. now rewrite Hc, IH. }
  unfold ext_suffix. destruct (ph_extension p) as [e|].
  - destruct He as (De & Le & L3). rewrite <- Ew.
    transitivity (parse_with db country (lit "+" ++ t ++ prefix_of_meta m ++ e)).
    { f_equal. unfold t, prefix_of_meta. rewrite <- !app_assoc. reflexivity. }
    apply C37_extension.
    + now right; left.
    + exact Mt.
    + rewrite Ew. exact L3.
    + apply existsb_exists in Hx as (y & I & E). apply str_eqb_eq in E. rewrite E. now apply known_marker.
    + intros c I. apply ten, De, I.
    + exact Le.
    + left. apply in_app_iff. now left.
  - rewrite app_nil_r. rewrite <- Ew. fold t.
    rewrite <- (C12_with_plus db country [] t); [cbn [app]|intros c []|exact Mt'|exact Sp].
    destruct (parse_with db country (lit "+" ++ t)); reflexivity.
Qed.

Lemma render_e164 : forall db p m l, by_code db (code_value (ph_code p)) = Some (m :: l) ->
  render db E164 p = Ok (lit "+" ++ dec (code_value (ph_code p)) ++ nn_show (ph_national p)).
Proof.
  intros db p m l Hc. unfold render, fmt_display. cbn [fm_database fm_number fm_set_mode fmt_format_with fm_mode fm_format].
  rewrite Hc. reflexivity.
Qed.
Lemma display_known : forall db p u, fmt_display db (fmt_format p) = Ok u -> by_code db (code_value (ph_code p)) <> None.
Proof.
  intros db p u H E. unfold fmt_display in H. cbn [fmt_format fm_number fm_database fm_mode fm_format] in H.
  rewrite E in H. discriminate H.
Qed.

(** With the built-in metadata, the international text parses like the E.164 text,
    with the extension added; whatever the reference country, and also when both
    are refused. *)
Theorem C38_like_e164 : forall country p,
  by_code default_db (code_value (ph_code p)) <> None ->
  match ph_extension p with
  | Some e => all_digits e /\ 1 <= length e <= 7 /\ 3 <= length (dec (code_value (ph_code p)) ++ nn_show (ph_national p))
  | None => True end ->
  exists t u, render default_db International p = Ok t /\ render default_db E164 p = Ok u
    /\ parse country t
       = let* q := parse country u in Ok (match ph_extension p with Some e => add_extension e q | None => q end).
Proof.
  intros country p Hk He. destruct (known_head _ Hk) as (m & l & Hc).
  pose proof (heads_forall_head _ _ _ _ _ default_clean Hc) as Hm.
  pose proof (heads_forall_head _ _ _ _ _ default_prefixes Hc) as Hx. cbv beta in Hx.
  destruct (render_international_parse default_db country p m l Hm Hx Hc He) as (t & Ht & Hp).
  exists t. eexists. split; [exact Ht|]. split; [exact (render_e164 _ _ _ _ Hc)|exact Hp].
Qed.
Print Assumptions C38_like_e164.

(** So the international text of a valid number gives it back with its extension,
    where the E.164 text gives back the number. *)
Theorem C38_valid : forall country p,
  (nn_raw (ph_national p) < 2 ^ 64)%N -> nn_value (ph_national p) <> 0%N ->
  is_valid p = Ok true -> ~ In (code_value (ph_code p)) not_covered ->
  country = None \/ not_dialled default_db country (dec (code_value (ph_code p)) ++ nn_show (ph_national p)) ->
  match ph_extension p with
  | Some e => all_digits e /\ 1 <= length e <= 7 /\ 3 <= length (dec (code_value (ph_code p)) ++ nn_show (ph_national p))
  | None => True end ->
  exists t, render default_db International p = Ok t
    /\ parse country t
       = Ok (mk_phone (mk_code (code_value (ph_code p)) SrcPlus) (ph_national p) (ph_extension p) None).
Proof.
  intros country p Hraw Hv Hvalid Hnc Hdial He.
  destruct (C08_default country p Hraw Hv Hvalid Hnc Hdial) as (u & q & Hu & Hq & Eu & Q1 & Q2 & Q3 & Q4 & Q5).
  assert (Hk : by_code default_db (code_value (ph_code p)) <> None).
  { unfold phone_to_string in Hu. revert Hu. generalize default_db as db. intros db Hu.
    destruct (fmt_display db (fmt_format p)) as [t|[]|] eqn:Ed; try discriminate Hu. exact (display_known _ _ _ Ed). }
  destruct (C38_like_e164 country p Hk He) as (t & u' & Ht & Hu' & Hp). exists t. split; [exact Ht|].
  assert (u' = u).
  { destruct (known_head _ Hk) as (m & l & Hc).
    rewrite (render_e164 _ _ _ _ Hc) in Hu'. injection Hu' as <-. symmetry. exact Eu. }
  subst u'. rewrite Hp, Hq. cbn [obind]. destruct q as [[cv cs] qn qx qc]. cbn in Q1, Q2, Q3, Q4, Q5. subst.
  unfold add_extension. cbn [ph_code ph_national ph_carrier]. destruct (ph_extension p); reflexivity.
Qed.
Print Assumptions C38_valid.

Example C38_ex :
  let p := mk_phone (mk_code 51 SrcDefault) (mk_national 11234567) (Some (lit "0042")) None in
  ((nn_raw (ph_national p) < 2 ^ 64)%N /\ nn_value (ph_national p) <> 0%N /\ ~ In (code_value (ph_code p)) not_covered)
  /\ is_valid p = Ok true /\ all_digits (lit "0042")
  /\ render default_db International p = Ok (lit "+51 1 1234567 Anexo 0042")
  /\ parse None (lit "+51 1 1234567 Anexo 0042")
     = Ok (mk_phone (mk_code 51 SrcPlus) (mk_national 11234567) (Some (lit "0042")) None).
Proof.
  split; [|split; [vm_compute; reflexivity|split; [apply all_digits_iff; vm_compute; reflexivity|vm_compute; auto]]].
  split; [vm_compute; reflexivity|]. split; [vm_compute; discriminate|]. cbn. intuition discriminate.
Qed.
(** An extension of eight digits does not survive. *)
Theorem C38_long_extension_refuted : exists p t q, is_valid p = Ok true /\ ph_extension p = Some (lit "12345678")
  /\ render default_db International p = Ok t /\ parse None t = Ok q
  /\ ph_extension q = None /\ nn_show (ph_national q) = lit "800111112345678".
Proof.
  exists (mk_phone (mk_code 44 SrcDefault) (mk_national 8001111) (Some (lit "12345678")) None).
  exists (lit "+44 800 1111 x12345678"), (mk_phone (mk_code 44 SrcPlus) (mk_national 800111112345678) None None).
  split; [vm_compute; reflexivity|]. split; [reflexivity|]. split; [vm_compute; reflexivity|]. vm_compute. auto.
Qed.
