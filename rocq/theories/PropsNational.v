(** * C44: national text is read back *)
From Verif Require Import Base Unicode Regex RegexSyntax Consts CountryId Types NationalNumber
  Metadata Database Validator Valid Number Rfc3966 Helper Natural PhoneNumber Parser Formatter Loader
  DefaultDb DefaultDbOk Api.
From Verif Require Import StrFacts NationalFacts RegexLang RegexFacts RegexCaps RegexDeriv RegexMany RegexExact DatabaseFacts ParserFacts
  ParseInv TextFacts ViableFacts PhoneText E164Facts CoreFacts DialFacts FormatFacts FormatDigits FormatDollar
  PropsPanic PropsE164 PropsText PropsFormat PropsTemplate PropsDial.

(** ** The digits of the text *)

(** [q]: the digits a rule puts in front of the first group, if it puts nothing
    else but separators around it *)
Fixpoint rule_front (np : str) (rs : list rtok) : option str :=
  match rs with
  | [] => None
  | RFG :: rs' =>
      if forallb (fun t => match t with RTxt s => forallb is_template_sep s | _ => false end) rs' then Some [] else None
  | RTxt s :: rs' =>
      if forallb (fun c => if is_digit c then true else is_template_sep c) s
      then match rule_front np rs' with Some q => Some (filter is_digit s ++ q) | None => None end
      else None
  | RNP :: rs' => match rule_front np rs' with Some q => Some (np ++ q) | None => None end
  | RCC :: _ => None
  end.
Definition fine (c : char) : Prop := is_digit c = true \/ is_template_sep c = true.
Lemma seps_fine : forall s, forallb is_template_sep s = true -> filter is_digit s = [] /\ Forall fine s.
Proof.
  induction s as [|c s IH]; cbn [forallb filter]; intros H; [auto|]. apply andb_prop in H as [H1 H2].
  rewrite digit_not_sep by exact H1. destruct (IH H2) as [A B]. split; [exact A|]. constructor; [now right|exact B].
Qed.
Lemma digits_fine : forall s, digits s = true -> Forall fine s.
Proof. intros s H. apply Forall_forall. intros c I. left. unfold digits in H. rewrite forallb_forall in H. auto. Qed.
Lemma rule_front_spec : forall np rs q x, digits np = true -> digits x = true -> rule_front np rs = Some q ->
  filter is_digit (put_rule np [] x rs) = q ++ x /\ Forall fine (put_rule np [] x rs) /\ digits q = true.
Proof.
  intros np rs q x Dn Dx. revert q. induction rs as [|[s| | |] rs IH]; intros q H; cbn [rule_front] in H; try discriminate.
  - destruct (forallb _ s) eqn:Es; [|discriminate]. destruct (rule_front np rs) as [q'|]; [|discriminate].
    destruct (IH q' eq_refl) as (A & B & C). inversion H; subst q. clear H.
    change (put_rule np [] x (RTxt s :: rs)) with (s ++ put_rule np [] x rs).
    rewrite filter_app, A, <- app_assoc. split; [reflexivity|]. split.
    + apply Forall_app. split; [|exact B]. apply Forall_forall. intros c I. rewrite forallb_forall in Es. apply Es in I.
      unfold fine. destruct (is_digit c); auto.
    + rewrite digits_app, C, andb_true_r. apply forallb_forall. intros c I. now apply filter_In in I.
  - destruct (rule_front np rs) as [q'|]; [|discriminate]. destruct (IH q' eq_refl) as (A & B & C).
    inversion H; subst q. clear H. change (put_rule np [] x (RNP :: rs)) with (np ++ put_rule np [] x rs).
    rewrite filter_app, A, <- app_assoc, (filter_digits np Dn). split; [reflexivity|]. split.
    + apply Forall_app. split; [now apply digits_fine|exact B].
    + now rewrite digits_app, Dn, C.
  - destruct (forallb _ rs) eqn:Er; [|discriminate]. inversion H; subst q. clear H IH.
    change (put_rule np [] x (RFG :: rs)) with (x ++ put_rule np [] x rs).
    assert (G : filter is_digit (put_rule np [] x rs) = [] /\ Forall fine (put_rule np [] x rs)).
    { induction rs as [|[s| | |] rs IH]; cbn [forallb] in Er; try discriminate; [split; [reflexivity|constructor]|].
      apply andb_prop in Er as [E1 E2]. destruct (IH E2) as [A B].
      change (put_rule np [] x (RTxt s :: rs)) with (s ++ put_rule np [] x rs).
      destruct (seps_fine s E1) as [C D]. rewrite filter_app, A, C. split; [reflexivity|]. apply Forall_app. auto. }
    destruct G as [A B]. rewrite filter_app, A, app_nil_r, (filter_digits x Dx). split; [reflexivity|].
    split; [|reflexivity]. apply Forall_app. split; [now apply digits_fine|exact B].
Qed.

(** a template that shows the groups in order, with separators between them *)
Fixpoint tok_refs (ts : list tok) : list nat :=
  match ts with [] => [] | Txt _ :: ts' => tok_refs ts' | Grp k :: ts' => k :: tok_refs ts' end.
Definition seps_only (ts : list tok) : bool :=
  forallb (fun t => match t with Txt s => forallb is_template_sep s | Grp _ => true end) ts.
Lemma put_digits : forall g ts, seps_only ts = true -> (forall k, digits (g k) = true) ->
  filter is_digit (put g ts) = concat (map g (tok_refs ts)) /\ Forall fine (put g ts).
Proof.
  intros g ts H D. induction ts as [|[s|k] ts IH]; cbn [seps_only forallb] in H; [split; [reflexivity|constructor]| |].
  - apply andb_prop in H as [H1 H2]. destruct (IH H2) as [A B]. destruct (seps_fine s H1) as [C E].
    change (put g (Txt s :: ts)) with (s ++ put g ts). rewrite filter_app, C. split; [exact A|]. apply Forall_app. auto.
  - destruct (IH H) as [A B]. change (put g (Grp k :: ts)) with (g k ++ put g ts). rewrite filter_app, A, filter_digits by apply D.
    split; [reflexivity|]. apply Forall_app. split; [now apply digits_fine|exact B].
Qed.

(** what a format puts in front of the digits in national text; [None] if the
    format does more than that, or if it does so without looking at the digits *)
Definition front_of (m : metadata) (f : format) : option str :=
  if shape_ok m f then
  let '(k, a, j, ts) := parts f in
  if seps_only (Txt a :: Grp j :: ts) then
  if list_eq_dec Nat.eq_dec (j :: tok_refs ts) (seq 1 k) then
  if digits (prefix_of m) then
    match f_national_prefix f with
    | None => Some []
    | Some r => match rule_front (prefix_of m) (rule_parts r), f_leading_digits f with
                | Some [], _ => Some []
                | Some q, _ :: _ => Some q
                | _, _ => None
                end
    end
  else None else None else None else None.

Lemma pieces_all : forall gs, concat (map (piece gs) (seq 1 (length gs))) = concat gs.
Proof.
  intros gs. f_equal. apply nth_ext with (d := []) (d' := []); [now rewrite map_length, seq_length|].
  intros i Hi. rewrite map_length, seq_length in Hi.
  rewrite nth_indep with (d' := piece gs 0) by (now rewrite map_length, seq_length).
  rewrite map_nth, seq_nth by exact Hi. unfold piece. f_equal. lia.
Qed.
Lemma piece_digits : forall gs k, digits (concat gs) = true -> digits (piece gs k) = true.
Proof.
  intros gs k H. unfold piece. generalize (k - 1) as i. intros i. revert i.
  induction gs as [|g gs IH]; intros [|i]; cbn [nth]; try reflexivity;
    cbn [concat] in H; rewrite digits_app in H; apply andb_prop in H as [H1 H2]; auto.
Qed.

(** the patterns that match at the start of the digits when the format is used *)
Definition needed (f : format) : list re :=
  match f_leading_digits f with [] => [] | l => [re_ast (last l regex_never); RCat (re_ast (f_pattern f)) REnd] end.
Lemma usable_needed : forall f w, usable f w -> Forall (fun r => matches_prefix r w) (needed f).
Proof.
  intros f w [H|[(ls & r & E & H) (m & Em & Hp & Hq)]]; unfold needed.
  - rewrite H. constructor.
  - rewrite E. destruct (ls ++ [r]) as [|x y] eqn:El; [constructor|]. rewrite <- El, last_last.
    constructor; [exact H|]. constructor; [|constructor]. pose proof (re_find_some _ _ _ Em) as (F & L & _).
    rewrite Hp, Hq in *. cbn [app] in F, L. exists (mr_text m), []. split; [exact F|].
    rewrite <- (app_nil_r (mr_text m)). constructor; [exact L|constructor].
Qed.
(** and, if the pattern prefers the longest match, conversely *)
Lemma needed_usable : forall f w, longest (re_ast (f_pattern f)) = true ->
  Forall (fun r => matches_prefix r w) (needed f) -> usable f w.
Proof.
  intros f w Hl H. unfold needed in H. destruct (f_leading_digits f) as [|x l] eqn:El; [now left|]. right.
  inversion H as [|r1 l1 H1 H2]; subst. inversion H2 as [|r2 l2 H3 _]; subst. clear H H2. split.
  - exists (removelast (x :: l)), (last (x :: l) regex_never). split; [|exact H1].
    rewrite El. apply app_removelast_last. discriminate.
  - destruct H3 as (t & a & -> & L). inversion L as [| |r1 r2 b' t1 t2 a' L1 L2| | | | | |]; subst.
    inversion L2; subst. rewrite !app_nil_r in *. now apply longest_whole.
Qed.

Lemma format_text : forall db p m l f q, by_code db (code_value (ph_code p)) = Some (m :: l) ->
  ph_carrier p = None -> ph_extension p = None -> digits (digits_of p) = true ->
  format_used National m None p (Some f) -> usable f (digits_of p) -> front_of m f = Some q ->
  exists t, render_with db National None p = Ok t /\ filter is_digit t = q ++ digits_of p /\ Forall fine t /\ digits q = true.
Proof.
  intros db p m l f q Hc Hca Hx Hd Hu Hus Hf. unfold front_of in Hf.
  destruct (shape_ok m f) eqn:Hs; [|discriminate]. unfold shape_ok in Hs.
  destruct (parts f) as [[[k a] j] ts]. destruct (seps_only _) eqn:Hsep; [|discriminate].
  destruct (list_eq_dec Nat.eq_dec (j :: tok_refs ts) (seq 1 k)) as [Hrefs|]; [|discriminate].
  destruct (digits (prefix_of m)) eqn:Hnp; [|discriminate].
  destruct (top_groups _) as [is|] eqn:E1; [|discriminate].
  destruct (list_eq_dec Nat.eq_dec is (seq 1 k)) as [E2|]; [|discriminate]. subst is.
  destruct (str_eqb (f_format f) _) eqn:E3; [|discriminate]. apply str_eqb_eq in E3.
  destruct (template_okb _) eqn:E4; [|discriminate]. apply template_ok_sound in E4.
  destruct (no_dollar (prefix_of m)) eqn:E5; [|discriminate]. apply no_mark_dollar in E5.
  destruct (opt_ok _ (f_national_prefix f)) eqn:E6; [|discriminate]. clear Hs.
  assert (Hext : ext_text m p = []) by (unfold ext_text; now rewrite Hx).
  assert (P : forall gs, length gs = k -> digits (concat gs) = true ->
    filter is_digit (put (piece gs) (Txt a :: Grp j :: ts)) = concat gs /\ Forall fine (put (piece gs) (Txt a :: Grp j :: ts))).
  { intros gs Hl Hg. destruct (put_digits (piece gs) (Txt a :: Grp j :: ts) Hsep) as [A B]; [intros; now apply piece_digits|].
    split; [|exact B]. rewrite A. cbn [tok_refs]. rewrite Hrefs, <- Hl. apply pieces_all. }
  destruct (f_national_prefix f) as [r|] eqn:Hr.
  - destruct (rule_front (prefix_of m) (rule_parts r)) as [q'|] eqn:Hrf; [|discriminate].
    cbn [opt_ok] in E6. destruct (str_eqb r _) eqn:E7; [|discriminate]. apply str_eqb_eq in E7.
    assert (Hrs : rule_tok_ok (prefix_of m) [] (rule_parts r)) by (apply rule_ok_sound; auto; intros []).
    destruct (C41_national_rule db None p m l f k a j ts (rule_parts r) [] Hc Hu) as (body & Et & S); auto.
    { rewrite <- E7. apply by_prefix; auto. }
    rewrite Hext, app_nil_r in Et. exists body. split; [exact Et|].
    assert (Hq : digits q' = true) by (destruct (rule_front_spec _ _ q' [] Hnp eq_refl Hrf) as (_ & _ & G); exact G).
    assert (G : forall pre gs post, digits_of p = pre ++ concat gs ++ post -> length gs = k -> (q' = [] \/ pre = []) ->
      let body := pre ++ (a ++ put_rule (prefix_of m) [] (piece gs j) (rule_parts r) ++ put (piece gs) ts) ++ post in
      filter is_digit body = q' ++ digits_of p /\ Forall fine body).
    { intros pre gs post Ew Hl Hpre. rewrite Ew in Hd. rewrite !digits_app in Hd.
      apply andb_prop in Hd as [D1 D2]. apply andb_prop in D2 as [D2 D3].
      destruct (P gs Hl D2) as [P1 P2]. change (put (piece gs) (Txt a :: Grp j :: ts)) with (a ++ piece gs j ++ put (piece gs) ts) in P1, P2.
      destruct (rule_front_spec _ _ _ (piece gs j) Hnp (piece_digits gs j D2) Hrf) as (R1 & R2 & _).
      rewrite !filter_app in P1. rewrite !Forall_app in P2. destruct P2 as (P2 & P3 & P4).
      assert (Ha : filter is_digit a = []).
      { cbn [seps_only forallb] in Hsep. apply andb_prop in Hsep as [Hsep _]. now apply seps_fine in Hsep. }
      rewrite Ha in P1. cbn [app] in P1. rewrite (filter_digits _ (piece_digits gs j D2)) in P1.
      split.
      - rewrite !filter_app, Ha, R1, (filter_digits pre D1), (filter_digits post D3). cbn [app].
        rewrite <- !app_assoc, (app_assoc (piece gs j)), P1, Ew. destruct Hpre as [-> | ->]; reflexivity.
      - rewrite !Forall_app. auto using digits_fine. }
    destruct (f_leading_digits f) as [|l0 ls0] eqn:El.
    + assert (q' = [] /\ q = []) as [Eq' Eq] by (destruct q'; [inversion Hf; auto|discriminate]).
      destruct S as [(pre & gs & post & Ew & Hl & _ & _ & _ & Eb)|[_ Eb]].
      * subst q. rewrite Eb. destruct (G pre gs post Ew Hl (or_introl Eq')) as [G1 G2]. rewrite Eq' in G1. auto.
      * subst q. rewrite Eb. split; [now apply filter_digits|]. split; [now apply digits_fine|reflexivity].
    + assert (Eq : q' = q) by (destruct q'; inversion Hf; reflexivity). subst q'.
      destruct Hus as [Hus|[_ (mr & Em & Hp & _)]]; [rewrite El in Hus; discriminate|].
      destruct S as [(pre & gs & post & Ew & Hl & _ & _ & Hm & Eb)|[Hno _]].
      * destruct (Hm mr Em) as [Epre _]. rewrite Hp in Epre. rewrite Eb.
        destruct (G pre gs post Ew Hl (or_intror Epre)) as [G1 G2]. auto.
      * exfalso. apply Hno. pose proof (re_find_some _ _ _ Em) as (F & L & _). exists (mr_pre mr), (mr_text mr), (mr_post mr). auto.
  - inversion Hf; subst q.
    destruct (C41_national_plain db None p m l f k (Txt a :: Grp j :: ts) Hc Hu) as (body & Et & S); auto.
    { apply by_none; auto. }
    rewrite Hext, app_nil_r in Et. exists body. split; [exact Et|]. cbn [app].
    destruct S as [(pre & gs & post & Ew & Hl & _ & _ & _ & Eb)|[_ Eb]].
    + rewrite Ew in Hd. rewrite !digits_app in Hd. apply andb_prop in Hd as [D1 D2]. apply andb_prop in D2 as [D2 D3].
      destruct (P gs Hl D2) as [P1 P2]. rewrite Eb, !filter_app, P1, (filter_digits pre D1), (filter_digits post D3), <- Ew.
      split; [reflexivity|]. split; [|reflexivity]. rewrite !Forall_app. auto using digits_fine.
    + rewrite Eb. split; [now apply filter_digits|]. split; [now apply digits_fine|reflexivity].
Qed.

(** ** Reading the digits of the text *)
Lemma strip_front : forall m n q e, pn_national n = q ++ e -> pn_carrier n = None ->
  (md_national_prefix_for_parsing m = None -> md_national_prefix m = Some q) ->
  (forall np, md_national_prefix m = Some np -> starts_with e np = false) ->
  v_length m e TUnknown <> TooShort ->
  (forall r, md_national_prefix_for_parsing m = Some r -> only_match r q e /\
     (md_national_prefix_transform_rule m = None \/
      forall mr, re_find r (q ++ e) = Some mr -> cap_get mr (re_ngroups r) = None)) ->
  exists ca, strip_national (Some m) n = Ok (set_carrier (set_national n e) ca)
    /\ (md_national_prefix_for_parsing m = None -> ca = None).
Proof.
  intros m n q e Hn Hca Hnp Hs Hv Hr. unfold strip_national.
  assert (G : exists ca, @national_number perr m n = Ok (set_carrier (set_national n e) ca)
              /\ (md_national_prefix_for_parsing m = None -> ca = None)).
  { destruct (md_national_prefix_for_parsing m) as [r|] eqn:Ep.
    - destruct (Hr r eq_refl) as [Ho Ht]. destruct (national_number_rule perr m n q e r Hn Ep Ho Ht) as (ca & H).
      exists ca. split; [exact H|discriminate].
    - exists None. split; [|reflexivity]. rewrite (national_number_prefix perr m n q e Hn Ep (Hnp eq_refl)).
      destruct n. cbn in *. subst. reflexivity. }
  destruct G as (ca & G & Hc). rewrite G. cbn [obind].
  set (n' := set_carrier (set_national n e) ca). assert (En : pn_national n' = e) by reflexivity.
  exists ca. split; [|exact Hc]. rewrite En.
  assert (K : match md_national_prefix m with
              | Some p => if starts_with e p then let* t := trim e (blen p) in Ok (set_national n' t) else Ok n'
              | None => Ok n' end = @Ok perr number n').
  { destruct (md_national_prefix m) as [np|]; [|reflexivity]. now rewrite (Hs np eq_refl). }
  rewrite K. cbn [obind]. rewrite En. destruct (v_length m e TUnknown); try reflexivity. now elim Hv.
Qed.

(** what has to hold of digits of length [n] that the patterns [ras] match at the
    start, read behind the digits [q]: no dialling prefix (before anything but
    a zero), nothing left to take off, and the rule for the national prefix takes off exactly [q] *)
Definition reads (m : metadata) (q : str) (n : nat) (ras : list re) : bool :=
  if match md_international_prefix m with Some r => front_all ascii_digits q n ras (idd_then (re_ast r)) | None => true end then
  if match md_national_prefix m with Some np => front_all ascii_digits [] n ras (lit_re np) | None => true end then
  match q with
  | [] => match md_national_prefix_for_parsing m with
          | Some r => if forallb no_start ras then apartn ascii_digits n true [Some [re_ast r] :: starts n ras] else false
          | None => true
          end
  | _ => match md_national_prefix_for_parsing m with
         | Some r => if exact_all ascii_digits q n ras (re_ast r)
                     then match md_national_prefix_transform_rule m with Some _ => last_group_long r q | None => true end
                     else false
         | None => match md_national_prefix m with Some np => str_eqb np q | None => false end
         end
  end else false else false.
(** the digits do not start with the calling code *)
Definition codeless (m : metadata) (q : str) (n : nat) (ras : list re) : bool :=
  front_all ascii_digits q n ras (lit_re (dec (md_country_code m))).

Lemma in_ascii : forall e, digits e = true -> forall c, In c e -> In c ascii_digits.
Proof. intros e H c I. apply digit_in. unfold digits in H. rewrite forallb_forall in H. auto. Qed.

Lemma empty_captures : forall m r e mr, empty_check m = true -> md_national_prefix_for_parsing m = Some r ->
  re_find r e = Some mr -> mr_pre mr = [] -> mr_text mr = [] -> cap_get mr (re_ngroups r) = None.
Proof.
  intros m r e mr He Hr Hf Hpr Ht. pose proof (re_find_some _ _ _ Hf) as (_ & L & _). rewrite Hpr, Ht in L.
  unfold empty_check in He. rewrite Hr in He. destruct (Nat.eqb_spec (re_ngroups r) 0).
  - exfalso. eapply never_empty_sound; eauto.
  - destruct (cap_get mr (re_ngroups r)) as [g|] eqn:Eg; [|reflexivity]. exfalso.
    destruct (re_ngroups r) as [|k] eqn:Ek; [easy|].
    destruct (re_find_cap _ _ _ _ _ Hf Eg) as (r' & x & y & Ig & Et & L'). rewrite Hpr in L'. cbn [app fst snd] in *.
    rewrite Ht in Et. symmetry in Et. apply app_eq_nil in Et as [-> Et]. apply app_eq_nil in Et as [Et ->].
    rewrite forallb_forall in He. apply He in Ig. cbn [fst snd] in Ig. rewrite Nat.eqb_refl in Ig.
    rewrite Et in L'. cbn in L'. eapply never_empty_sound; eauto.
Qed.
(** a match no longer than the shortest text of the last group leaves it unset *)
Lemma short_captures : forall r q e mr, only_match r q e -> last_group_long r q = true -> re_find r (q ++ e) = Some mr ->
  cap_get mr (re_ngroups r) = None.
Proof.
  intros r q e mr Ho Ht Em. destruct (only_match_find r q e Ho) as (mr' & Em' & Hpre & Htx & Hpost).
  rewrite Em in Em'. inversion Em'; subst mr'. clear Em'. unfold last_group_long in Ht.
  destruct (cap_get mr (re_ngroups r)) as [g|] eqn:Eg; [|reflexivity]. exfalso.
  destruct (re_ngroups r) as [|k] eqn:Ek; [discriminate|].
  destruct (re_find_cap _ _ _ _ _ Em Eg) as (r' & x & y & Ig & Et & L').
  rewrite forallb_forall in Ht. apply Ht in Ig. cbn [fst snd] in Ig. rewrite Nat.eqb_refl in Ig. apply Nat.ltb_lt in Ig.
  apply (proj1 minlen_sound) in L'. rewrite Htx in Et. apply (f_equal (@length char)) in Et.
  rewrite !app_length in Et. lia.
Qed.

Lemma reads_sound : forall db r m q e ras,
  digits q = true -> digits e = true -> 2 <= length e <= 17 -> (1 <= value_of e < 2 ^ 56)%N ->
  by_id db (id_name r) = Some m -> (md_country_code m < 65536)%N -> not_short m e ->
  empty_check m = true ->
  Forall (fun x => matches_prefix x e) ras -> reads m q (length e) ras = true ->
  ~ begins (q ++ e) (dec (md_country_code m)) ->
  exists p, parse_with db (Some r) (q ++ e) = Ok p
    /\ code_value (ph_code p) = md_country_code m /\ code_source (ph_code p) = SrcDefault
    /\ nn_parse e = Ok (ph_national p) /\ ph_extension p = None
    /\ (md_national_prefix_for_parsing m = None -> ph_carrier p = None).
Proof.
  intros db r m q e ras Dq De Hl Hv Hm Hc Hs Hem Hra Hr Hb. unfold reads in Hr.
  destruct (match md_international_prefix m with Some _ => _ | None => _ end) eqn:H1; [|discriminate].
  destruct (match md_national_prefix m with Some _ => _ | None => _ end) eqn:H2; [|discriminate].
  assert (Hfree : idd_kept (md_international_prefix m) (q ++ e)).
  { destruct (md_international_prefix m) as [rx|]; [|exact I]. cbn [idd_kept].
    exact (front_all_sound ascii_digits q ras (idd_then (re_ast rx)) e (in_ascii e De) H1 Hra). }
  assert (Htw : forall np, md_national_prefix m = Some np -> starts_with e np = false).
  { intros np E. rewrite E in H2. apply begins_false. intros B. apply begins_lit in B. revert B.
    exact (front_all_sound ascii_digits [] ras (lit_re np) e (in_ascii e De) H2 Hra). }
  rewrite (parse_national_kept db r m (q ++ e)); auto;
    [|now rewrite digits_app, Dq|rewrite app_length; lia|left; now apply begins_false].
  destruct (finish_digits SrcDefault e (md_country_code m) De Hl) as (n & Hn & Hsh & Hnp);
    [unfold u16_max; lia|exact Hv|].
  set (num := mk_number SrcDefault (q ++ e) (Some (dec (md_country_code m))) None None).
  assert (G : exists ca, strip_national (Some m) num = Ok (set_carrier (set_national num e) ca)
    /\ (md_national_prefix_for_parsing m = None -> ca = None)).
  { destruct q as [|c0 q0].
    - exists None. split; [|reflexivity]. rewrite strip_national_silent; [reflexivity| |reflexivity].
      intros m' E. inversion E; subst m'. change (pn_national num) with e. split; [|exact Htw].
      intros rx mr Hrx Hf Hpre. rewrite Hrx in Hr. destruct (forallb no_start ras) eqn:Hns; [|discriminate].
      pose proof (re_find_some _ _ _ Hf) as (F & L & _). rewrite Hpre in *. cbn [app] in F.
      destruct (mr_text mr) as [|x t] eqn:Et; [left; split; [reflexivity|]|exfalso].
      + exact (empty_captures m rx e mr Hem Hrx Hf Hpre Et).
      + refine (apartn_sound ascii_digits e [] _ _ (in_ascii e De) Hr (or_introl eq_refl) _). constructor.
        * cbn. exists (re_ast rx), (x :: t), (mr_post mr). split; [now left|]. split; [exact F|]. split; [discriminate|exact L].
        * now apply starts_lead.
    - set (q := c0 :: q0) in *. apply (strip_front m num q e); auto.
      + intros Hrx. rewrite Hrx in Hr. destruct (md_national_prefix m) as [np|]; [|discriminate].
        apply str_eqb_eq in Hr. now rewrite Hr.
      + apply not_short_length; [exact De|clear - Hl; lia|exact Hs].
      + intros rx Hrx. rewrite Hrx in Hr. destruct (exact_all _ _ _ _ _) eqn:Hx; [|discriminate].
        pose proof (exact_all_sound ascii_digits q ras rx e (in_ascii e De) Hx Hra) as Ho. split; [exact Ho|].
        destruct (md_national_prefix_transform_rule m); [|now left]. right. intros mr Em.
        exact (short_captures rx q e mr Ho Hr Em). }
  destruct G as (ca & G & Hca). fold num. rewrite G. cbn [obind].
  eexists. split; [eapply finish_carrier; [exact Hn|reflexivity]|]. cbn. auto.
Qed.

(** ** Every region of the built-in metadata *)
(** *** Is there a format for every number? *)
Fixpoint some_pair (v : list bool) : bool :=
  match v with a :: b :: v' => if a then if b then true else some_pair v' else some_pair v' | _ => false end.
Definition leadless (f : format) : bool := match f_leading_digits f with [] => true | _ => false end.
(** for the texts of length [n] that [a] matches, [P] of which further patterns
    match and whether some format can be used *)
Definition fmt_check (h : metadata) (rs : list re) (P : list bool -> bool -> bool) (n : nat) (a : re) : bool :=
  if existsb leadless (md_formats h) then true
  else if forallb (fun f => longest (re_ast (f_pattern f))) (md_formats h) then
    combos ascii_digits n (fun v => P (firstn (length rs) v) (some_pair (skipn (length rs) v))) a
           (rs ++ flat_map needed (md_formats h))
  else false.
Lemma some_pair_usable : forall e fs v, forallb (fun f => longest (re_ast (f_pattern f))) fs = true -> existsb leadless fs = false ->
  Forall2 (fun t r => t = true <-> matches_prefix r e) v (flat_map needed fs) -> some_pair v = true ->
  exists f, In f fs /\ usable f e.
Proof.
  intros e. induction fs as [|f fs IH]; intros v Hl Hn HF Hv.
  - inversion HF; subst. discriminate.
  - cbn [forallb existsb flat_map] in *. apply andb_prop in Hl as [Hl1 Hl2]. apply orb_false_iff in Hn as [Hn1 Hn2].
    pose proof (needed_usable f e Hl1) as U. unfold needed in *. unfold leadless in Hn1.
    destruct (f_leading_digits f) as [|x l]; [discriminate|]. cbn [app] in HF.
    inversion HF as [|t1 r1 v1 l1 A1 HF1]; subst. inversion HF1 as [|t2 r2 v2 l2 A2 HF2]; subst. clear HF HF1.
    cbn [some_pair] in Hv. destruct t1, t2; try (destruct (IH v2 Hl2 Hn2 HF2 Hv) as (g & Ig & Ug); exists g; split; [now right|exact Ug]).
    exists f. split; [now left|]. apply U. constructor; [now apply A1|]. constructor; [now apply A2|constructor].
Qed.
Lemma Forall2_len : forall A B (R : A -> B -> Prop) l k, Forall2 R l k -> length l = length k.
Proof. intros A B R l k H. induction H; cbn; auto. Qed.
Lemma fmt_check_use : forall h rs P a e, fmt_check h rs P (length e) a = true -> digits e = true -> matches_prefix a e ->
  (exists f, In f (md_formats h) /\ usable f e)
  \/ exists v, Forall2 (fun t r => t = true <-> matches_prefix r e) v rs /\ P v false = true.
Proof.
  intros h rs P a e H De Ha. unfold fmt_check in H. destruct (existsb leadless _) eqn:Hn.
  { left. apply existsb_exists in Hn as (f & If & Hf). exists f. split; [exact If|]. left. unfold leadless in Hf.
    destruct (f_leading_digits f); [reflexivity|discriminate]. }
  destruct (forallb _ (md_formats h)) eqn:Hl; [|discriminate].
  destruct (combos_sound ascii_digits _ a _ e (in_ascii e De) H Ha) as (v & Hv & HF).
  apply Forall2_app_inv_r in HF as (v1 & v2 & F1 & F2 & ->).
  assert (E : length rs = length v1) by (symmetry; eapply Forall2_len; eauto). rewrite E in Hv.
  rewrite firstn_app, Nat.sub_diag, firstn_all, skipn_app, Nat.sub_diag, skipn_all in Hv. cbn [firstn skipn app] in Hv.
  rewrite app_nil_r in Hv. destruct (some_pair v2) eqn:Ep; [left; now apply some_pair_usable with v2|].
  right. exists v1. auto.
Qed.
(** the formats of the entry: what they put in front, and the formats before them *)
Fixpoint uses (h : metadata) (bs fs : list format) : option (list (str * format * list format)) :=
  match fs with
  | [] => Some []
  | f :: fs' => match front_of h f, uses h (bs ++ [f]) fs' with Some q, Some l => Some ((q, f, bs) :: l) | _, _ => None end
  end.
Lemma uses_in : forall h f b a bs us, uses h bs (a ++ f :: b) = Some us ->
  exists q, front_of h f = Some q /\ In (q, f, bs ++ a) us.
Proof.
  intros h f b. induction a as [|x a IH]; intros bs us H; cbn [app uses] in H.
  - destruct (front_of h f) as [q|]; [|discriminate]. destruct (uses _ _ b) as [l|]; [|discriminate].
    inversion H; subst us. exists q. rewrite app_nil_r. split; [reflexivity|now left].
  - destruct (front_of h x) as [qx|]; [|discriminate]. destruct (uses h (bs ++ [x]) (a ++ f :: b)) as [l|] eqn:El; [|discriminate].
    inversion H; subst us. destruct (IH _ _ El) as (q & A & B). exists q. split; [exact A|]. right.
    now rewrite <- app_assoc in B.
Qed.
(** whenever the format can be used, one of those before it can *)
Definition shadowed (bs : list format) (f : format) (n : nat) (a : re) : bool :=
  if existsb leadless bs then true
  else if forallb (fun f => longest (re_ast (f_pattern f))) bs then
    combos ascii_digits n (fun v => if forallb (fun x => x) (firstn (length (needed f)) v)
                                    then some_pair (skipn (length (needed f)) v) else true) a
           (needed f ++ flat_map needed bs)
  else false.
Lemma shadowed_use : forall bs f a e, shadowed bs f (length e) a = true -> digits e = true -> matches_prefix a e ->
  usable f e -> exists g, In g bs /\ usable g e.
Proof.
  intros bs f a e H De Ha Hf. unfold shadowed in H. destruct (existsb leadless bs) eqn:Hn.
  { apply existsb_exists in Hn as (g & Ig & Hg). exists g. split; [exact Ig|]. left. unfold leadless in Hg.
    destruct (f_leading_digits g); [reflexivity|discriminate]. }
  destruct (forallb _ bs) eqn:Hl; [|discriminate].
  destruct (combos_sound ascii_digits _ a _ e (in_ascii e De) H Ha) as (v & Hv & HF).
  apply Forall2_app_inv_r in HF as (v1 & v2 & F1 & F2 & ->).
  assert (E : length (needed f) = length v1) by (symmetry; eapply Forall2_len; eauto). rewrite E in Hv.
  rewrite firstn_app, Nat.sub_diag, firstn_all, skipn_app, Nat.sub_diag, skipn_all in Hv. cbn [firstn skipn app] in Hv.
  rewrite app_nil_r in Hv. apply usable_needed in Hf.
  assert (A : forallb (fun x => x) v1 = true).
  { clear - F1 Hf. induction F1 as [|t r v rs Ht F IH]; [reflexivity|]. inversion Hf; subst. cbn [forallb].
    rewrite (proj2 Ht) by assumption. now apply IH. }
  rewrite A in Hv. now apply some_pair_usable with v2.
Qed.
Definition front (u : str * format * list format) : str := fst (fst u).
Definition fronts (us : list (str * format * list format)) : list str := nodup (list_eq_dec N.eq_dec) (map front us).
Definition use_check (check : str -> list re -> bool) (n : nat) (a : re) (us : list (str * format * list format)) : bool :=
  forallb (fun q => if check q [a] then true
                    else forallb (fun u => if str_eqb (front u) q
                                           then if check q (a :: needed (snd (fst u))) then true
                                                else shadowed (snd u) (snd (fst u)) n a
                                           else true) us) (fronts us).
Lemma use_check_use : forall check n a us q f bs, use_check check n a us = true -> In (q, f, bs) us ->
  check q [a] = true \/ check q (a :: needed f) = true \/ shadowed bs f n a = true.
Proof.
  intros check n a us q f bs H I. unfold use_check in H. rewrite forallb_forall in H.
  assert (Iq : In q (fronts us)) by (apply nodup_In; change q with (front (q, f, bs)); now apply in_map).
  apply H in Iq. destruct (check q [a]); [now left|]. right. rewrite forallb_forall in Iq. apply Iq in I.
  unfold front in I. cbn [fst snd] in I. rewrite str_eqb_refl in I. destruct (check q (a :: needed f)); auto.
Qed.
(** [check] for every kind of number of the entry [m] and every length *)
Definition kinds_check (check : str -> nat -> list re -> bool) (m : metadata) (us : list (str * format * list format)) : bool :=
  forallb (fun d => forallb (fun n => use_check (fun q => check q (N.to_nat n)) (N.to_nat n) (re_ast (d_national_number d)) us)
                            (d_possible_length d)) (types_of (md_descriptors m)).
Lemma kinds_check_use : forall check m us q f bs e, kinds_check check m us = true -> In (q, f, bs) us ->
  number_of m e -> digits e = true -> usable f e -> (forall g, In g bs -> ~ usable g e) ->
  exists ras, check q (length e) ras = true /\ Forall (fun r => matches_prefix r e) ras.
Proof.
  intros check m us q f bs e H I (d & Id & Il & Hd) De Hf Hbs. unfold kinds_check in H. rewrite forallb_forall in H.
  apply H in Id. rewrite forallb_forall in Id. apply Id in Il. rewrite Nnat.Nat2N.id in Il.
  destruct (use_check_use _ _ _ _ _ _ _ Il I) as [K|[K|K]].
  - exists [re_ast (d_national_number d)]. auto.
  - exists (re_ast (d_national_number d) :: needed f). split; [exact K|]. constructor; [exact Hd|now apply usable_needed].
  - destruct (shadowed_use _ _ _ _ K De Hd Hf) as (g & Ig & Ug). now elim (Hbs g Ig).
Qed.

Definition kinds1 (m : metadata) (check : nat -> re -> bool) : bool :=
  forallb (fun d => forallb (fun n => check (N.to_nat n) (re_ast (d_national_number d))) (d_possible_length d))
          (types_of (md_descriptors m)).
Lemma kinds1_use : forall m check e, kinds1 m check = true -> number_of m e ->
  exists a, check (length e) a = true /\ matches_prefix a e.
Proof.
  intros m check e H (d & Id & Il & Hd). unfold kinds1 in H. rewrite forallb_forall in H. apply H in Id.
  rewrite forallb_forall in Id. apply Id in Il. rewrite Nnat.Nat2N.id in Il. eauto.
Qed.

(** regions where some national text is not read back, its digits not starting with
    the calling code; in the second list only texts that no format was used for *)
Definition not_read : list str :=
  [lit "AR"; lit "BY"; lit "GA"; lit "ID"; lit "IN"; lit "JP"; lit "KR"; lit "KZ"; lit "RU"; lit "RW"; lit "UY"].
Definition unformatted_not_read : list str := [lit "BG"; lit "PA"; lit "QA"; lit "TH"].
(** further regions, where some national text starts with the calling code; in the
    second list only such texts *)
Definition own_code : list str :=
  [lit "AD"; lit "AO"; lit "BH"; lit "BR"; lit "BZ"; lit "CR"; lit "CV"; lit "DK"; lit "FJ"; lit "FO"; lit "GL"; lit "GM"; lit "GT"; lit "IT";
   lit "KW"; lit "LB"; lit "LS"; lit "MC"; lit "MN"; lit "MO"; lit "MR"; lit "MU"; lit "MV"; lit "NO"; lit "OM"; lit "PL"; lit "PW";
   lit "SG"; lit "SJ"; lit "SO"; lit "SV"; lit "TJ"; lit "TN"; lit "UZ"; lit "VA"; lit "WS"; lit "001"].
Definition unformatted_own_code : list str :=
  [lit "CD"; lit "DZ"; lit "FK"; lit "IL"; lit "KP"; lit "NU"; lit "PH"; lit "PM"; lit "SB"; lit "SH"; lit "ZW"].
Definition with_head (db : database) (m : metadata) (f : metadata -> bool) : bool :=
  match by_code db (md_country_code m) with Some (h :: _) => f h | _ => false end.
Definition read_check (db : database) (k : str) (m : metadata) : bool :=
  if str_mem k not_read then true
  else if empty_check m then
    with_head db m (fun h => match uses h [] (md_formats h) with Some us => kinds_check (reads m) m us | None => false end)
  else false.
Definition bare_check (db : database) (k : str) (m : metadata) : bool :=
  if str_mem k (not_read ++ unformatted_not_read) then true
  else with_head db m (fun h => kinds1 m (fun n a =>
         if reads m [] n [a] then true else fmt_check h [] (fun _ b => b) n a)).
Definition clear_code_check (db : database) (k : str) (m : metadata) : bool :=
  if str_mem k (not_read ++ unformatted_not_read ++ own_code) then true
  else with_head db m (fun h => match uses h [] (md_formats h) with Some us => kinds_check (codeless m) m us | None => false end).
Definition bare_code_check (db : database) (k : str) (m : metadata) : bool :=
  if str_mem k (not_read ++ unformatted_not_read ++ own_code ++ unformatted_own_code) then true
  else with_head db m (fun h => kinds1 m (fun n a =>
         if codeless m [] n [a] then true
         else fmt_check h [lit_re (dec (md_country_code m))] (fun v b => if forallb negb v then true else b) n a)).
Lemma default_read : entries_forall (read_check default_db) default_db = true.
Proof. vm_cast_no_check (eq_refl true). Qed.
Lemma default_bare : entries_forall (bare_check default_db) default_db = true.
Proof. vm_cast_no_check (eq_refl true). Qed.
Lemma default_clear_code : entries_forall (clear_code_check default_db) default_db = true.
Proof. vm_cast_no_check (eq_refl true). Qed.
Lemma default_bare_code : entries_forall (bare_code_check default_db) default_db = true.
Proof. vm_cast_no_check (eq_refl true). Qed.

Lemma str_mem_iff : forall s l, In s l -> str_mem s l = true.
Proof.
  induction l as [|x l IH]; cbn [In str_mem]; intros H; [easy|]. destruct (str_eqb s x) eqn:E; [reflexivity|].
  destruct H as [->|H]; [now rewrite str_eqb_refl in E|auto].
Qed.
Lemma str_mem_not : forall s l, ~ In s l -> str_mem s l = false.
Proof. intros s l H. destruct (str_mem s l) eqn:E; [|reflexivity]. now apply str_mem_in in E. Qed.

(** the digits of the national text of the number, and how they are read *)
Lemma national_text_read : forall db r m h l p, 
  entries_forall entry_basic db = true -> entries_forall (read_check db) db = true -> entries_forall (bare_check db) db = true ->
  by_id db (id_name r) = Some m -> by_code db (md_country_code m) = Some (h :: l) ->
  ~ In (id_name r) not_read ->
  ~ In (id_name r) unformatted_not_read \/ (exists f, In f (md_formats h) /\ usable f (digits_of p)) ->
  code_value (ph_code p) = md_country_code m -> ph_extension p = None -> ph_carrier p = None ->
  (nn_raw (ph_national p) < 2 ^ 64)%N -> nn_value (ph_national p) <> 0%N -> number_of m (digits_of p) ->
  exists t q, render db National p = Ok t /\ Forall fine t /\ filter is_digit t = q ++ digits_of p /\ digits q = true
    /\ (exists ras, Forall (fun x => matches_prefix x (digits_of p)) ras /\ reads m q (length (digits_of p)) ras = true)
    /\ ((exists f, In f (md_formats h) /\ usable f (digits_of p)) ->
        forall us, uses h [] (md_formats h) = Some us ->
        exists f bs, In (q, f, bs) us /\ usable f (digits_of p) /\ forall g, In g bs -> ~ usable g (digits_of p))
    /\ (q = [] \/ exists f, In f (md_formats h) /\ usable f (digits_of p)).
Proof.
  intros db r m h l p Hb Hr Hba Hm Hh Hx Hf Hc He Hca Hraw Hv Hn.
  assert (De : digits (digits_of p) = true) by (unfold digits_of; apply nn_show_digits).
  pose proof (entries_forall_use _ _ _ _ Hr Hm) as R. unfold read_check in R. rewrite str_mem_not in R by exact Hx.
  destruct (empty_check m) eqn:Hem; [|discriminate]. unfold with_head in R. rewrite Hh in R.
  destruct (uses h [] (md_formats h)) as [us|] eqn:Hus; [|discriminate].
  assert (Hh' : by_code db (code_value (ph_code p)) = Some (h :: l)) by (rewrite Hc; exact Hh).
  assert (Erender : render db National p = render_with db National None p) by reflexivity.
  destruct (C41_used National h None p) as (o & Ho & _). cbn [format_used formats_of] in Ho.
  destruct o as [f|].
  - pose proof Ho as (a & b & Efs & Huse & Hbs). assert (If : In f (md_formats h)) by (rewrite Efs; apply in_app_iff; right; now left).
    rewrite Efs in Hus. destruct (uses_in h f b a [] us Hus) as (q & Hq & Iq). rewrite <- Efs in Hus. cbn [app] in Iq.
    destruct (format_text db p h l f q Hh' Hca He De Ho Huse Hq) as (t & Et & Ed & Ef & Dq).
    destruct (kinds_check_use _ m us q f a (digits_of p) R Iq Hn De Huse Hbs) as (ras & K1 & K2).
    exists t, q. rewrite Erender. split; [exact Et|]. split; [exact Ef|]. split; [exact Ed|]. split; [exact Dq|].
    split; [exists ras; auto|]. split; [|right; exists f; auto].
    intros _ us' E. inversion E; subst us'. exists f, a. auto.
  - exists (digits_of p), []. rewrite Erender. rewrite (C41_no_format db National p h l Hh' Ho).
    split; [unfold frame, ext_text; rewrite He; now rewrite app_nil_r|]. split; [now apply digits_fine|].
    split; [now apply filter_digits|]. split; [reflexivity|].
    assert (Hno : ~ exists f, In f (md_formats h) /\ usable f (digits_of p)) by (intros (f & I & U); exact (Ho f I U)).
    split; [|split; [intros K; now elim Hno|now left]]. destruct Hf as [Hf|Hf]; [|now elim Hno].
    pose proof (entries_forall_use _ _ _ _ Hba Hm) as B. unfold bare_check in B. rewrite str_mem_not in B.
    + unfold with_head in B. rewrite Hh in B. destruct (kinds1_use _ _ _ B Hn) as (a & K1 & K2).
      destruct (reads m [] (length (digits_of p)) [a]) eqn:Hre; [exists [a]; auto|].
      destruct (fmt_check_use _ _ _ _ _ K1 De K2) as [K|(v & _ & K)]; [now elim Hno|discriminate].
    + intros I. apply in_app_iff in I as [I|I]; auto.
Qed.

Lemma count_zeros_length : forall s, count_zeros s <= length s.
Proof. induction s as [|c s IH]; cbn [count_zeros length]; [lia|]. destruct (N.eqb c 48); lia. Qed.
Definition three_digits (k : str) (m : metadata) : bool :=
  forallb (fun d => forallb (fun n => N.leb 3 n) (d_possible_length d)) (types_of (md_descriptors m)).
Lemma default_three : entries_forall three_digits default_db = true.
Proof. vm_cast_no_check (eq_refl true). Qed.

Lemma fine_made_of : forall t, Forall fine t -> made_of (lit "0123456789" ++ separators) t.
Proof.
  intros t H c I. rewrite Forall_forall in H. apply H in I as [I|I]; apply in_app_iff.
  - left. apply is_digit_spec in I. clear - I.
    assert (E : exists n, c = N.of_nat (48 + n) /\ n < 10) by (exists (N.to_nat c - 48); lia).
    destruct E as (n & -> & Hn). do 10 (destruct n as [|n]; [vm_compute; tauto|]). lia.
  - right. apply existsb_exists in I as (x & Ix & E). apply N.eqb_eq in E. subst x. revert Ix. vm_compute. tauto.
Qed.

(** the number the text is read as: the same, the calling code being that of the
    reference country *)
Definition read_back (m : metadata) (p : phone) (r : outcome perr phone) : Prop :=
  exists q, r = Ok q
    /\ code_value (ph_code q) = code_value (ph_code p) /\ code_source (ph_code q) = SrcDefault
    /\ ph_national q = ph_national p /\ ph_extension q = None
    /\ (md_national_prefix_for_parsing m = None -> ph_carrier q = None).
(** a number of the region, without extension or carrier *)
Definition plain_number (m : metadata) (p : phone) : Prop :=
  code_value (ph_code p) = md_country_code m /\ ph_extension p = None /\ ph_carrier p = None
  /\ (nn_raw (ph_national p) < 2 ^ 64)%N /\ nn_value (ph_national p) <> 0%N /\ number_of m (digits_of p).
(** some format of the entry used for the calling code can be used *)
Definition formatted (db : database) (p : phone) : Prop :=
  exists h l f, by_code db (code_value (ph_code p)) = Some (h :: l) /\ In f (md_formats h) /\ usable f (digits_of p).

Lemma round_trip_with : forall db r m p t,
  entries_forall entry_basic db = true -> entries_forall (read_check db) db = true -> entries_forall (bare_check db) db = true ->
  entries_forall three_digits db = true -> entries_forall (clear_code_check db) db = true ->
  entries_forall (bare_code_check db) db = true ->
  by_id db (id_name r) = Some m -> plain_number m p -> ~ In (id_name r) not_read ->
  ~ In (id_name r) unformatted_not_read \/ formatted db p ->
  render db National p = Ok t ->
  ~ begins (digits_in t) (code_of p)
  \/ ~ In (id_name r) (unformatted_not_read ++ own_code) /\ (formatted db p \/ ~ In (id_name r) unformatted_own_code) ->
  read_back m p (parse_with db (Some r) t).
Proof.
  intros db r m p t D1 D2 D3 D4 D5 D6 Hm (Hc & Hx & Hca & Hraw & Hv & Hn) Hr Hu Ht Hb.
  destruct (basic_use db r m (digits_of p) D1 Hm Hn) as (Hc16 & Hl & Hs & _).
  pose proof (entries_forall_use _ _ _ _ D2 Hm) as R. unfold read_check in R. rewrite str_mem_not in R by exact Hr.
  destruct (empty_check m) eqn:Hem; [|discriminate]. unfold with_head in R.
  destruct (by_code db (md_country_code m)) as [[|h l]|] eqn:Hh; [discriminate| |discriminate].
  destruct (uses h [] (md_formats h)) as [us|] eqn:Hus; [|discriminate]. clear R.
  assert (HF : formatted db p -> exists f, In f (md_formats h) /\ usable f (digits_of p)).
  { intros (h' & l' & f & E & I & U). rewrite Hc, Hh in E. inversion E; subst. eauto. }
  destruct (national_text_read db r m h l p D1 D2 D3 Hm Hh Hr) as (t' & q & Et & Ef & Ed & Dq & (ras & K1 & K2) & K3 & K4); auto.
  { destruct Hu; auto. }
  rewrite Ht in Et. inversion Et; subst t'. clear Et.
  assert (De : digits (digits_of p) = true) by (unfold digits_of; apply nn_show_digits).
  assert (H3 : 3 <= length (digits_of p)).
  { pose proof (entries_forall_use _ _ _ _ D4 Hm) as T. destruct Hn as (d & Id & Il & _). unfold three_digits in T.
    rewrite forallb_forall in T. apply T in Id. rewrite forallb_forall in Id. apply Id in Il. apply N.leb_le in Il. clear - Il. lia. }
  assert (Ew : without_separators t = q ++ digits_of p).
  { destruct (without_unsigned t (fine_made_of t Ef)) as [_ W]. now rewrite W. }
  rewrite (C12_without_plus db (Some r) t (fine_made_of t Ef)) by (rewrite Ew, app_length; clear - H3; lia).
  rewrite Ew.
  assert (Hbeg : ~ begins (q ++ digits_of p) (dec (md_country_code m))).
  { destruct Hb as [Hb|[Hb Ho]].
    - rewrite digits_in_filter, Ed in Hb. unfold code_of in Hb. now rewrite Hc in Hb.
    - assert (C1 : (exists f, In f (md_formats h) /\ usable f (digits_of p)) -> ~ begins (q ++ digits_of p) (dec (md_country_code m))).
      { intros F. destruct (K3 F us Hus) as (f & bs & Iq & Hf & Hbs).
        pose proof (entries_forall_use _ _ _ _ D5 Hm) as C. unfold clear_code_check in C.
        rewrite str_mem_not in C by (intros I; apply in_app_iff in I as [I|I]; auto).
        unfold with_head in C. rewrite Hh, Hus in C.
        destruct (kinds_check_use _ m us q f bs (digits_of p) C Iq Hn De Hf Hbs) as (ras' & L1 & L2).
        intros B. apply begins_lit in B. revert B. unfold codeless in L1.
        exact (front_all_sound ascii_digits q ras' _ (digits_of p) (in_ascii _ De) L1 L2). }
      destruct Ho as [Ho|Ho]; [now apply C1, HF|]. destruct K4 as [->|K4]; [|now apply C1].
      pose proof (entries_forall_use _ _ _ _ D6 Hm) as C. unfold bare_code_check in C. rewrite str_mem_not in C.
      2:{ intros I. apply in_app_iff in I as [I|I]; [auto|]. rewrite app_assoc in I. apply in_app_iff in I as [I|I]; auto. }
      unfold with_head in C. rewrite Hh in C. destruct (kinds1_use _ _ _ C Hn) as (a & L1 & L2).
      destruct (codeless m [] (length (digits_of p)) [a]) eqn:Hcl.
      + intros B. apply begins_lit in B. revert B. unfold codeless in Hcl.
        refine (front_all_sound ascii_digits [] [a] _ (digits_of p) (in_ascii _ De) Hcl _). constructor; [exact L2|constructor].
      + destruct (fmt_check_use _ _ _ _ _ L1 De L2) as [F|(v & V1 & V2)]; [now apply C1|].
        inversion V1 as [|t0 r0 v0 l0 V3 V4]; subst. inversion V4; subst. cbn [forallb] in V2. destruct t0; [discriminate|].
        intros B. apply begins_lit in B. apply V3 in B. discriminate. }
  pose proof (nn_show_parse (ph_national p) Hraw Hv) as Hparse. fold (digits_of p) in Hparse.
  assert (Hval : (1 <= value_of (digits_of p) < 2 ^ 56)%N).
  { destruct (nn_parse_ok (digits_of p) (ph_national p) Hparse) as (_ & V & _ & B & _).
    - intros I. unfold digits in De. rewrite forallb_forall in De. apply De in I. discriminate.
    - pose proof (count_zeros_length (digits_of p)). clear - H Hl. lia.
    - rewrite V in B. exact B. }
  destruct (reads_sound db r m q (digits_of p) ras Dq De Hl Hval Hm Hc16 Hs Hem K1 K2 Hbeg)
    as (p' & P1 & P2 & P3 & P4 & P5 & P6).
  exists p'. split; [exact P1|]. split; [congruence|]. split; [exact P3|]. split; [|auto].
  rewrite Hparse in P4. congruence.
Qed.

Lemma default_round_trip : forall r m p t, by_id default_db (id_name r) = Some m -> plain_number m p ->
  ~ In (id_name r) not_read -> ~ In (id_name r) unformatted_not_read \/ formatted default_db p ->
  render default_db National p = Ok t ->
  ~ begins (digits_in t) (code_of p)
  \/ ~ In (id_name r) (unformatted_not_read ++ own_code)
     /\ (formatted default_db p \/ ~ In (id_name r) unformatted_own_code) ->
  read_back m p (parse (Some r) t).
Proof.
  intros r m p t Hm Hp. exact (round_trip_with default_db r m p t default_basic default_read default_bare default_three
    default_clear_code default_bare_code Hm Hp).
Qed.
(** The national text of a number of a region, read with that region as the
    reference country, gives the number back, unless its digits start with the
    calling code.  All regions but fifteen. *)
Theorem C44_round_trip : forall r m p t, by_id default_db (id_name r) = Some m -> plain_number m p ->
  ~ In (id_name r) (not_read ++ unformatted_not_read) ->
  render default_db National p = Ok t -> ~ begins (digits_in t) (code_of p) ->
  read_back m p (parse (Some r) t).
Proof.
  intros r m p t Hm Hp Hx Ht Hb. rewrite in_app_iff in Hx. apply (default_round_trip r m p t Hm Hp); auto.
Qed.
Print Assumptions C44_round_trip.
(** All but eleven, if the metadata has a format for the number. *)
Theorem C44_formatted : forall r m p t, by_id default_db (id_name r) = Some m -> plain_number m p ->
  ~ In (id_name r) not_read -> formatted default_db p ->
  render default_db National p = Ok t -> ~ begins (digits_in t) (code_of p) ->
  read_back m p (parse (Some r) t).
Proof. intros r m p t Hm Hp Hx Hf Ht Hb. apply (default_round_trip r m p t Hm Hp); auto. Qed.
Print Assumptions C44_formatted.
(** In the other regions, no proviso at all. *)
Theorem C44_always : forall r m p t, by_id default_db (id_name r) = Some m -> plain_number m p ->
  ~ In (id_name r) (not_read ++ unformatted_not_read ++ own_code ++ unformatted_own_code) ->
  render default_db National p = Ok t -> read_back m p (parse (Some r) t).
Proof.
  intros r m p t Hm Hp Hx Ht. rewrite !in_app_iff in Hx. apply (default_round_trip r m p t Hm Hp); [tauto|tauto|exact Ht|].
  right. rewrite in_app_iff. split; [tauto|right; tauto].
Qed.
Print Assumptions C44_always.

(** *** The regions left out are the right ones *)
(** a number of each, by its digits; the first list without the calling code in front *)
Definition not_read_witness (r : id) : option str :=
  match r with
  | ID_AR => Some (lit "1115000000") | ID_BY => Some (lit "8100000000")
  | ID_GA => Some (lit "2000000") | ID_ID => Some (lit "00180300000") | ID_IN => Some (lit "0008000000000")
  | ID_JP => Some (lit "00777000") | ID_KR => Some (lit "00308000000") | ID_KZ => Some (lit "8090000000")
  | ID_RU => Some (lit "8030000000") | ID_RW => Some (lit "06000000") | ID_UY => Some (lit "000400")
  | ID_BG => Some (lit "008000000000") | ID_PA => Some (lit "00800000000") | ID_QA => Some (lit "00800000000")
  | ID_TH => Some (lit "0018000000000")
  | _ => None
  end.
Definition own_code_witness (r : id) : option str :=
  match r with
  | ID_AD => Some (lit "376000") | ID_AO => Some (lit "244200000") | ID_BH => Some (lit "97300000")
  | ID_BR => Some (lit "5520000000")
  | ID_BZ => Some (lit "5010000") | ID_CR => Some (lit "50600000") | ID_CV => Some (lit "2380000")
  | ID_DK => Some (lit "45100000") | ID_FJ => Some (lit "6790000") | ID_FO => Some (lit "298000")
  | ID_GL => Some (lit "299000") | ID_GM => Some (lit "2200000") | ID_GT => Some (lit "50200000")
  | ID_IT => Some (lit "390000000") | ID_KW => Some (lit "96500000") | ID_LB => Some (lit "96100000")
  | ID_LS => Some (lit "26600000") | ID_MC => Some (lit "37700000") | ID_MN => Some (lit "97600000")
  | ID_MO => Some (lit "85300000") | ID_MR => Some (lit "22200000") | ID_MU => Some (lit "2300000")
  | ID_MV => Some (lit "9600000") | ID_NO => Some (lit "47000000") | ID_OM => Some (lit "96800000")
  | ID_PL => Some (lit "4819000") | ID_PW => Some (lit "6800000") | ID_SG => Some (lit "65000000")
  | ID_SJ => Some (lit "47000000") | ID_SO => Some (lit "2520000") | ID_SV => Some (lit "50300000")
  | ID_TJ => Some (lit "992000000") | ID_TN => Some (lit "21600000") | ID_UZ => Some (lit "998000000")
  | ID_VA => Some (lit "390000000") | ID_WS => Some (lit "68500")
  | ID_CD => Some (lit "243000000") | ID_DZ => Some (lit "213000000") | ID_FK => Some (lit "50000")
  | ID_IL => Some (lit "97200000000") | ID_KP => Some (lit "8500000000") | ID_NU => Some (lit "6830")
  | ID_PH => Some (lit "6300000000") | ID_PM => Some (lit "508000000") | ID_SB => Some (lit "67700")
  | ID_SH => Some (lit "29000") | ID_ZW => Some (lit "26300000")
  | _ => None
  end.
(** the number with these digits; is its national text not read back? *)
Definition number_with (m : metadata) (e : str) : option phone :=
  match nn_parse e with
  | Ok n => Some (mk_phone (mk_code (md_country_code m) SrcDefault) n None None)
  | _ => None
  end.
Definition not_back_in (clear : bool) (r : id) (e : str) (o : option metadata) : bool :=
  match o with
  | None => false
  | Some m =>
      match number_with m e with
      | None => false
      | Some p =>
          if digits e then if length e <? 1000 then if known_type r e then
          if str_eqb (digits_of p) e then if N.ltb (nn_raw (ph_national p)) (2 ^ 64) then
          if N.eqb (nn_value (ph_national p)) 0 then false else
          match render default_db National p with
          | Ok t =>
              if (if clear then starts_with (digits_in t) (code_of p) else false) then false
              else match parse (Some r) t with
                   | Ok q => negb (N.eqb (nn_raw (ph_national q)) (nn_raw (ph_national p)))
                   | _ => true
                   end
          | _ => false
          end else false else false else false else false else false
      end
  end.
Definition not_back (clear : bool) (r : id) (e : str) : bool := not_back_in clear r e (entry_of r).
Definition witnessed (clear : bool) (w : id -> option str) (l : list str) : bool :=
  forallb (fun r => if str_mem (id_name r) l then match w r with Some e => not_back clear r e | None => false end else true) all_ids.
Lemma default_not_read : witnessed true not_read_witness (not_read ++ unformatted_not_read) = true.
Proof. vm_cast_no_check (eq_refl true). Qed.
Lemma default_own_code : witnessed false own_code_witness (own_code ++ unformatted_own_code) = true.
Proof. vm_cast_no_check (eq_refl true). Qed.
Lemma not_back_sound : forall clear r e, not_back clear r e = true ->
  exists m p t, by_id default_db (id_name r) = Some m /\ plain_number m p /\ digits_of p = e
    /\ render default_db National p = Ok t /\ (clear = true -> ~ begins (digits_in t) (code_of p))
    /\ ~ read_back m p (parse (Some r) t).
Proof.
  intros clear r e H. unfold not_back in H. destruct (entry_of r) as [m|] eqn:Hm; [|discriminate]. unfold not_back_in in H.
  destruct (number_with m e) as [p|] eqn:Hp; [|discriminate].
  destruct (digits e) eqn:De; [|discriminate]. destruct (length e <? 1000) eqn:Hl; [|discriminate].
  destruct (known_type r e) eqn:Hk; [|discriminate]. destruct (str_eqb (digits_of p) e) eqn:Es; [|discriminate].
  apply str_eqb_eq in Es. destruct (N.ltb_spec (nn_raw (ph_national p)) (2 ^ 64)) as [Hraw|]; [|discriminate].
  destruct (N.eqb_spec (nn_value (ph_national p)) 0) as [|Hv]; [discriminate|].
  destruct (render default_db National p) as [t|x|] eqn:Ht; [|discriminate..].
  assert (Hc : clear = true -> ~ begins (digits_in t) (code_of p)).
  { intros ->. destruct (starts_with _ _) eqn:Hs; [discriminate|]. intros B. apply starts_begins in B. congruence. }
  assert (Hnb : ~ read_back m p (parse (Some r) t)).
  { destruct (if clear then _ else _); [discriminate|]. intros (q & Eq & _ & _ & En & _). rewrite Eq, En, N.eqb_refl in H. discriminate. }
  pose proof (known_number r e m Hm De Hl Hk) as C. rewrite entry_of_eq in Hm. exists m, p, t. split; [exact Hm|]. split.
  - unfold number_with in Hp. destruct (nn_parse e) as [n|x|] eqn:En; [|discriminate..]. inversion Hp; subst p. clear Hp.
    unfold plain_number. rewrite Es. repeat (split; [first [reflexivity|assumption]|]). assumption.
  - repeat (split; [assumption|]). assumption.
Qed.
Lemma witnessed_use : forall clear w l r, witnessed clear w l = true -> In (id_name r) l ->
  exists m p t, by_id default_db (id_name r) = Some m /\ plain_number m p
    /\ render default_db National p = Ok t /\ (clear = true -> ~ begins (digits_in t) (code_of p))
    /\ ~ read_back m p (parse (Some r) t).
Proof.
  intros clear w l r H I. unfold witnessed in H. rewrite forallb_forall in H. pose proof (H r (all_ids_complete r)) as K.
  rewrite (in_str_mem _ _ I) in K. destruct (w r) as [e|]; [|discriminate].
  apply not_back_sound in K as (m & p & t & A & B & _ & C). exists m, p, t. auto.
Qed.
(** The exceptions are exactly these. *)
Theorem C44_exact : forall r m, by_id default_db (id_name r) = Some m ->
  (~ In (id_name r) (not_read ++ unformatted_not_read) <->
   forall p t, plain_number m p -> render default_db National p = Ok t -> ~ begins (digits_in t) (code_of p) ->
   read_back m p (parse (Some r) t))
  /\ (~ In (id_name r) (not_read ++ unformatted_not_read ++ own_code ++ unformatted_own_code) <->
      forall p t, plain_number m p -> render default_db National p = Ok t -> read_back m p (parse (Some r) t)).
Proof.
  intros r m Hm. split; split.
  - intros Hx p t Hp Ht Hb. exact (C44_round_trip r m p t Hm Hp Hx Ht Hb).
  - intros H I. destruct (witnessed_use _ _ _ _ default_not_read I) as (m' & p & t & A & B & C & D & E).
    rewrite Hm in A. inversion A; subst m'. apply E. apply (H p t B C). now apply D.
  - intros Hx p t Hp Ht. exact (C44_always r m p t Hm Hp Hx Ht).
  - intros H I. rewrite app_assoc in I. apply in_app_iff in I as [I|I].
    + destruct (witnessed_use _ _ _ _ default_not_read I) as (m' & p & t & A & B & C & D & E).
      rewrite Hm in A. inversion A; subst m'. apply E. now apply (H p t B C).
    + destruct (witnessed_use _ _ _ _ default_own_code I) as (m' & p & t & A & B & C & D & E).
      rewrite Hm in A. inversion A; subst m'. apply E. now apply (H p t B C).
Qed.
Print Assumptions C44_exact.

(** Hypotheses met: a Paris number, a London one and one of New York. *)
Definition back (r : id) (e t : str) (ca : option str) : Prop :=
  match entry_of r with
  | Some m => match number_with m e with
              | Some p => plain_number m p /\ render default_db National p = Ok t
                          /\ parse (Some r) t = Ok (mk_phone (ph_code p) (ph_national p) None ca)
              | None => False
              end
  | None => False
  end.
Lemma back_ex : forall r e t ca m p, entry_of r = Some m -> number_with m e = Some p ->
  digits e = true -> length e <? 1000 = true -> known_type r e = true -> digits_of p = e ->
  (nn_raw (ph_national p) < 2 ^ 64)%N -> nn_value (ph_national p) <> 0%N ->
  render default_db National p = Ok t -> parse (Some r) t = Ok (mk_phone (ph_code p) (ph_national p) None ca) -> back r e t ca.
Proof.
  intros r e t ca m p Hm Hp De Hl Hk Es Hr Hv Ht Hq. unfold back. rewrite Hm, Hp. split; [|split; assumption].
  pose proof (known_number r e m Hm De Hl Hk) as C.
  unfold number_with in Hp. destruct (nn_parse e) as [n|x|] eqn:En; [|discriminate..]. inversion Hp; subst p.
  unfold plain_number. rewrite Es. repeat (split; [first [reflexivity|assumption]|]). assumption.
Qed.
Ltac back_tac := eapply back_ex; [vm_compute; reflexivity|vm_compute; reflexivity|reflexivity|reflexivity
  |vm_compute; reflexivity|vm_compute; reflexivity|vm_compute; reflexivity|vm_compute; discriminate
  |vm_compute; reflexivity|vm_compute; reflexivity].
Example C44_ex_paris : back ID_FR (lit "142685300") (lit "01 42 68 53 00") None /\ ~ In (id_name ID_FR) (not_read ++ unformatted_not_read ++ own_code ++ unformatted_own_code).
Proof. split; [back_tac|vm_compute; intuition discriminate]. Qed.
Example C44_ex_london : back ID_GB (lit "2079460018") (lit "020 7946 0018") (Some (lit "0")).
Proof. back_tac. Qed.
Example C44_ex_new_york : back ID_US (lit "2125550123") (lit "(212) 555-0123") None.
Proof. back_tac. Qed.
