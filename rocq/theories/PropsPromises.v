(** * C61: what the documentation of the metadata promises *)
From Verif Require Import Base Unicode Regex RegexSyntax RegexLang RegexFacts RegexDeriv Consts CountryId Types NationalNumber
  Metadata Database Validator Valid Number Rfc3966 Helper Natural PhoneNumber Parser Formatter Loader Xml
  DefaultDb DefaultDbOk Api.
From Verif Require Import StrFacts DatabaseFacts ParserFacts FormatFacts ClaimFacts PropsSpace PropsPattern PropsXml PropsTemplate PropsDepends.

(** ** Formats for use at home and abroad *)
(** A numberFormat element as documented: one format, and after it at most one intlFormat. *)
Definition beside (i : fmt_item) : Prop := match i with FFormat _ _ | FIntl _ _ => False | _ => True end.
Definition documented (items : list fmt_item) (d : str * option str) : Prop :=
  exists l1 tag ps l2, fst d = concat ps /\ Forall beside l1 /\ Forall beside l2 /\
    ((snd d = None /\ items = l1 ++ FFormat tag ps :: l2) \/
     exists tag' ps' l3, snd d = Some (concat ps') /\ Forall beside l3 /\
       items = l1 ++ FFormat tag ps :: l2 ++ FIntl tag' ps' :: l3).
(** the template for use abroad: the intlFormat if there is one, none if that is "NA" *)
Definition abroad (d : str * option str) : option str :=
  match snd d with
  | None => Some (fst d)
  | Some i => if str_eqb i (lit "NA") then None else Some i
  end.
Inductive lists : list fmts_item -> list (str * option str) -> Prop :=
| lists_nil : lists [] []
| lists_noise n l ds : lists l ds -> lists (SNoise n :: l) ds
| lists_number attrs items l d ds : documented items d -> lists l ds -> lists (SNumber attrs items :: l) (d :: ds).
(** a territory with one list of formats *)
Definition no_formats (i : terr_item) : Prop := match i with TFormats _ _ => False | _ => True end.
Definition formats_as (items : list terr_item) (ds : list (str * option str)) : Prop :=
  exists l1 tag fs l2, items = l1 ++ TFormats tag fs :: l2 /\ Forall no_formats l1 /\ Forall no_formats l2 /\ lists fs ds.

Lemma last_of_app : forall A B (f : A -> option B) l1 l2, last_of f (l1 ++ l2) = or_else (last_of f l2) (last_of f l1).
Proof.
  intros A B f l1 l2. induction l1 as [|a l1 IH]; cbn [app]; [now rewrite or_none|]. now rewrite !last_of_cons, IH, or_else_assoc.
Qed.
Lemma last_of_none : forall A B (f : A -> option B) l, Forall (fun a => f a = None) l -> last_of f l = None.
Proof. intros A B f l H. induction H as [|a l E H IH]; [reflexivity|]. now rewrite last_of_cons, IH, E. Qed.
Lemma documented_templates : forall r attrs items d, documented items d ->
  lf_format (number_format r attrs items) = Some (fst d) /\ international_template items = abroad d.
Proof.
  intros r attrs items d (l1 & tag & ps & l2 & E & B1 & B2 & H).
  assert (N1 : forall (f : fmt_item -> option str) l, (forall i, beside i -> f i = None) -> Forall beside l -> last_of f l = None).
  { intros f l K F. apply last_of_none. eapply Forall_impl; [exact K|exact F]. }
  assert (N2 : forall (f : fmt_item -> option (option str)) l, (forall i, beside i -> f i = None) -> Forall beside l -> last_of f l = None).
  { intros f l K F. apply last_of_none. eapply Forall_impl; [exact K|exact F]. }
  unfold number_format, international_template, abroad. cbn [lf_format]. rewrite E.
  destruct H as [[-> ->]|(tag' & ps' & l3 & -> & B3 & ->)].
  - split.
    + rewrite last_of_app, last_of_cons, (N1 _ l2), (N1 _ l1); try assumption; try reflexivity; intros [] K; cbn in *; tauto.
    + rewrite last_of_app, last_of_cons, (N2 _ l2), (N2 _ l1); try assumption; try reflexivity; intros [] K; cbn in *; tauto.
  - split.
    + rewrite last_of_app, last_of_cons, last_of_app, last_of_cons, (N1 _ l3), (N1 _ l2), (N1 _ l1); try assumption; try reflexivity;
        intros [] K; cbn in *; tauto.
    + rewrite last_of_app, last_of_cons, last_of_app, last_of_cons, (N2 _ l3), (N2 _ l2), (N2 _ l1); try assumption; try reflexivity;
        intros [] K; cbn in *; tauto.
Qed.
Lemma listed_templates : forall r fs ds, lists fs ds ->
  map lf_format (national_formats r fs) = map (fun d => Some (fst d)) ds /\
  map lf_format (international_formats r fs) = map Some (all_of abroad ds).
Proof.
  intros r fs ds H. unfold national_formats, international_formats.
  induction H as [|n l ds H [IH1 IH2]|attrs items l d ds D H [IH1 IH2]]; [now split|now rewrite !all_of_cons|].
  destruct (documented_templates r attrs items d D) as [E1 E2]. rewrite !all_of_cons, E2. cbn [app map]. split.
  - now rewrite E1, IH1.
  - destruct (abroad d) as [t|]; cbn [app map]; [|exact IH2]. now rewrite IH2.
Qed.
Lemma formats_child_one : forall items ds, formats_as items ds -> lists (formats_child items) ds.
Proof.
  intros items ds (l1 & tag & fs & l2 & -> & N1 & N2 & L). unfold formats_child.
  assert (N : forall l, Forall no_formats l -> last_of (fun i => match i with TFormats _ items => Some items | _ => None end) l = None).
  { intros l F. apply last_of_none. eapply Forall_impl; [|exact F]. intros [] K; cbn in *; tauto. }
  rewrite last_of_app, last_of_cons, (N l2 N2), (N l1 N1). exact L.
Qed.
Lemma omap_formats : forall l fs ts, omap_list db_format l = Ok fs -> map lf_format l = map Some ts -> map f_format fs = ts.
Proof.
  induction l as [|f l IH]; intros fs ts H E; cbn [omap_list] in H.
  - injection H as <-. destruct ts; [reflexivity|discriminate].
  - apply obind_ok in H as (x & Hx & H). apply obind_ok in H as (xs & Hxs & H). injection H as <-.
    destruct ts as [|t ts]; [discriminate|]. cbn [map] in E. injection E as E1 E2. cbn [map]. f_equal; [|now apply IH].
    unfold db_format in Hx. apply obind_ok in Hx as (p & _ & Hx). apply obind_ok in Hx as (q & _ & Hx).
    rewrite E1 in Hx. cbn [ok_or obind] in Hx. apply obind_ok in Hx as (z & _ & Hx). injection Hx as <-. reflexivity.
Qed.
Lemma built_formats : forall e m, db_metadata e = Ok m ->
  omap_list db_format (lm_formats e) = Ok (md_formats m) /\
  omap_list db_format (lm_international_formats e) = Ok (md_international_formats m).
Proof.
  intros e m H. unfold db_metadata in H.
  repeat match type of H with (let* x := ?X in _) = Ok _ => let E := fresh "E" in destruct X eqn:E; cbn [obind] in H; try discriminate H end.
  injection H as <-. cbn [md_formats md_international_formats]. now split.
Qed.

(** Whatever else the document has: the entry of a territory so written has the templates written, and
    those for use abroad in its list for that; as soon as there is one of these, only they are used there. *)
Theorem C61_templates : forall d tag us attrs items ds rest, well_formed d ->
  In (OTerritories tag us) d -> In (UTerritory attrs items) us -> formats_as items ds ->
  exists es e, load (render d ++ rest) = Ok es /\ In e es /\ lm_id e = attr_in (lit "id") attrs /\
    forall m, db_metadata e = Ok m ->
      map f_format (md_formats m) = map fst ds /\
      map f_format (md_international_formats m) = all_of abroad ds /\
      forall md p f, In md [International; Rfc3966] -> all_of abroad ds <> [] -> format_used md m None p (Some f) ->
        In (f_format f) (all_of abroad ds).
Proof.
  intros d tag us attrs items ds rest W I1 I2 F. exists (entries d), (entry attrs items).
  split; [now apply C29_reads|]. split.
  { unfold entries. apply in_flat_map. exists (OTerritories tag us). split; [exact I1|].
    unfold terrs_entries, all_of. apply in_flat_map. exists (UTerritory attrs items). split; [exact I2|now left]. }
  split; [reflexivity|]. intros m H. apply built_formats in H as [H1 H2]. unfold entry in H1, H2.
  cbn [lm_formats lm_international_formats] in H1, H2.
  destruct (listed_templates (rules attrs) _ ds (formats_child_one items ds F)) as [E1 E2].
  pose proof (omap_formats _ _ _ H2 E2) as A. split; [|split; [exact A|]].
  - apply (omap_formats _ _ _ H1). rewrite E1. symmetry. apply map_map.
  - intros md p f M NE U. rewrite <- A in *. cbn [format_used] in U.
    assert (L : formats_of md m = md_international_formats m).
    { destruct M as [<-|[<-|[]]]; cbn [formats_of]; destruct (md_international_formats m); try reflexivity; now elim NE. }
    rewrite L in U. apply in_map. apply first_unique in U. now apply choose_format_in in U.
Qed.
Print Assumptions C61_templates.

(** The promise "a format only used for national formatting: set intlFormat to NA" is not kept
    when every format of the territory is such, nor when the intlFormat is written first. *)
Definition one_format (formats : str) : str :=
  lit "<phoneNumberMetadata><territories><territory id='XX' countryCode='999'><generalDesc><nationalNumberPattern>\d{5}</nationalNumberPattern></generalDesc><availableFormats>"
  ++ formats ++ lit "</availableFormats></territory></territories></phoneNumberMetadata>".
Definition na : str := lit "<intlFormat>NA</intlFormat>".
Definition template (t : str) : str := lit "<format>" ++ t ++ lit "</format>".
Definition number_element (body : str) : str := lit "<numberFormat pattern='(\d\d)(\d{3})'>" ++ body ++ lit "</numberFormat>".
Definition shown_abroad (formats : str) (shown : str) : Prop :=
  exists es db p, load_text (one_format formats) = Ok es /\ db_from es = Ok db /\
    parse_with db None (lit "+999 12345") = Ok p /\ render_with db International None p = Ok shown.
Theorem C61_national_only_refuted :
  shown_abroad (number_element (template (lit "$1-$2") ++ na)) (lit "+999 12-345") /\
  shown_abroad (number_element (na ++ template (lit "$1-$2")) ++ number_element (template (lit "$1$2"))) (lit "+999 12-345") /\
  (* kept, with another format for use abroad and the elements in order *)
  shown_abroad (number_element (template (lit "$1-$2") ++ na) ++ number_element (template (lit "$1$2"))) (lit "+999 12345").
Proof.
  split; [|split]; (eexists; eexists; eexists; split; [vm_compute; reflexivity|]; split; [vm_compute; reflexivity|];
    split; [vm_compute; reflexivity|]; vm_compute; reflexivity).
Qed.
Print Assumptions C61_national_only_refuted.

(** ** The built-in metadata *)
(** main countries only where a calling code is shared, and then exactly one, which is listed
    first; leading digits only there; every rule for the national prefix keeps the first group *)
Definition begins_fg (s : str) : bool := starts_with s (lit "$FG").
Fixpoint has_fg (s : str) : bool := match s with [] => false | _ :: s' => if begins_fg s then true else has_fg s' end.
Definition shared_ok (ms : list metadata) : bool :=
  match ms with
  | [] => false
  | m :: others =>
      if match others with
         | [] => if md_main_country_for_code m then false else match md_leading_digits m with None => true | Some _ => false end
         | _ => if md_main_country_for_code m then forallb (fun x => negb (md_main_country_for_code x)) others else false
         end
      then forallb (fun m => forallb (fun f => match f_national_prefix f with Some r => has_fg r | None => true end)
                               (md_formats m ++ md_international_formats m)) ms
      else false
  end.
Lemma has_fg_spec : forall s, has_fg s = true -> exists a b, s = a ++ lit "$FG" ++ b.
Proof.
  induction s as [|c s IH]; intros H; [discriminate|]. cbn [has_fg] in H. destruct (begins_fg (c :: s)) eqn:E.
  - apply starts_with_spec in E as (b & ->). now exists [], b.
  - destruct (IH H) as (a & b & ->). now exists (c :: a), b.
Qed.
Lemma default_shared : forallb (fun e => shared_ok (snd e)) (db_by_code default_db) = true.
Proof. vm_cast_no_check (eq_refl true). Qed.
Definition promises (ms : list metadata) : Prop :=
  (forall m, ms = [m] -> md_main_country_for_code m = false /\ md_leading_digits m = None) /\
  (2 <= length ms -> exists m others, ms = m :: others /\ md_main_country_for_code m = true /\
     forall x, In x others -> md_main_country_for_code x = false) /\
  (forall m f rule, In m ms -> In f (md_formats m ++ md_international_formats m) -> f_national_prefix f = Some rule ->
     exists a b, rule = a ++ lit "$FG" ++ b).
Lemma shared_promises : forall ms, shared_ok ms = true -> promises ms.
Proof.
  intros ms H. unfold shared_ok in H. destruct ms as [|m others]; [discriminate|].
  match type of H with (if ?b then _ else _) = _ => destruct b eqn:E; [|discriminate] end. split; [|split].
  - intros x K. injection K as <- ->. destruct (md_main_country_for_code m); [discriminate|].
    destruct (md_leading_digits m); [discriminate|]. now split.
  - intros L. destruct others as [|y l]; [cbn in L; lia|]. exists m, (y :: l). split; [reflexivity|].
    destruct (md_main_country_for_code m); [|discriminate]. split; [reflexivity|]. intros x I.
    rewrite forallb_forall in E. apply E in I. now apply negb_true_iff in I.
  - intros x f rule I J K. rewrite forallb_forall in H. apply H in I. rewrite forallb_forall in I. apply I in J.
    rewrite K in J. now apply has_fg_spec.
Qed.
Lemma shared_any : forall db, forallb (fun e => shared_ok (snd e)) (db_by_code db) = true ->
  forall code ms, by_code db code = Some ms -> promises ms.
Proof.
  intros db H code ms B. apply nget_in in B. rewrite forallb_forall in H. apply H in B. now apply shared_promises.
Qed.
Theorem C61_default : forall code ms, by_code default_db code = Some ms -> promises ms.
Proof. exact (shared_any default_db default_shared). Qed.
Print Assumptions C61_default.

(** Leading digits of the regions of a calling code do not overlap: whatever the digits, at most
    one region has a pattern that is found at their start. *)
Definition ten : str := lit "0123456789".
Definition apart5 (a b : re) : bool :=
  if bounded 5 a then if bounded 5 b then if 1 <=? minlen b then forallb (fun n => re_apart ten n a b) (seq 0 6) else false else false else false.
Fixpoint all_apart (rs : list re) : bool :=
  match rs with [] => true | r :: rs' => if forallb (apart5 r) rs' then all_apart rs' else false end.
Definition leads_of (ms : list metadata) : list re :=
  flat_map (fun m => match md_leading_digits m with Some r => [re_ast r] | None => [] end) ms.
Lemma default_leads : forallb (fun e => all_apart (leads_of (snd e))) (db_by_code default_db) = true.
Proof. vm_cast_no_check (eq_refl true). Qed.
Lemma apart5_sound : forall a b v, apart5 a b = true -> digits v = true -> matches_prefix a v -> matches_prefix b v -> False.
Proof.
  intros a b v H D A B. unfold apart5 in H. destruct (bounded 5 a) eqn:Ea; [|discriminate]. destruct (bounded 5 b) eqn:Eb; [|discriminate].
  destruct (1 <=? minlen b) eqn:M; [|discriminate]. apply Nat.leb_le in M.
  apply (prefix_cut 5 a v Ea) in A. apply (prefix_cut 5 b v Eb) in B. rewrite forallb_forall in H.
  apply (re_apart_sound ten a b (firstn 5 v)); [| |exact A|].
  - intros c I. assert (J : In c v) by (rewrite <- (firstn_skipn 5 v); apply in_app_iff; now left).
    unfold digits in D. rewrite forallb_forall in D. apply D, is_digit_spec in J. clear - J.
    assert (K : exists n, (n < 10)%nat /\ c = (48 + N.of_nat n)%N) by (exists (N.to_nat (c - 48)); lia).
    destruct K as (n & Hn & ->). do 10 (destruct n as [|n]; [cbn; tauto|]). lia.
  - apply H. apply in_seq. rewrite firstn_length. lia.
  - destruct B as (t & x & E & L). exists t, x. split; [exact E|]. split; [|exact L]. intros ->.
    apply (proj1 minlen_sound) in L. cbn in L. lia.
Qed.
Lemma all_apart_pair : forall rs i j a b, all_apart rs = true -> nth_error rs i = Some a -> nth_error rs j = Some b -> i < j -> apart5 a b = true.
Proof.
  induction rs as [|r rs IH]; intros i j a b H A B L; [destruct i; discriminate|]. cbn [all_apart] in H.
  match type of H with (if ?x then _ else _) = _ => destruct x eqn:E; [|discriminate] end.
  destruct j as [|j]; [lia|]. destruct i as [|i]; cbn [nth_error] in A, B.
  - injection A as ->. rewrite forallb_forall in E. apply E. now apply nth_error_In with j.
  - apply (IH i j); [exact H|exact A|exact B|lia].
Qed.
Lemma leads_nth : forall ms i j x y r s, i < j -> nth_error ms i = Some x -> nth_error ms j = Some y ->
  md_leading_digits x = Some r -> md_leading_digits y = Some s ->
  exists i' j', i' < j' /\ nth_error (leads_of ms) i' = Some (re_ast r) /\ nth_error (leads_of ms) j' = Some (re_ast s).
Proof.
  assert (G : forall ms j y s, nth_error ms j = Some y -> md_leading_digits y = Some s -> exists j', nth_error (leads_of ms) j' = Some (re_ast s)).
  { intros ms j y s H L. apply In_nth_error. apply in_flat_map. exists y. split; [now apply nth_error_In with j|]. rewrite L. now left. }
  induction ms as [|m ms IH]; intros i j x y r s L A B X Y; [destruct i; discriminate|].
  destruct j as [|j]; [lia|]. destruct i as [|i]; cbn [nth_error] in A, B.
  - injection A as ->. unfold leads_of. cbn [flat_map]. rewrite X. fold (leads_of ms). destruct (G ms j y s B Y) as (j' & J).
    exists 0, (S j'). split; [lia|]. now split.
  - destruct (IH i j x y r s ltac:(lia) A B X Y) as (i' & j' & L' & I' & J'). unfold leads_of. cbn [flat_map]. fold (leads_of ms).
    destruct (md_leading_digits m) as [q|]; [exists (S i'), (S j'); split; [lia|now split]|exists i', j'; now split].
Qed.
Lemma leads_any : forall db, forallb (fun e => all_apart (leads_of (snd e))) (db_by_code db) = true ->
  forall code ms i j x y r s v, by_code db code = Some ms -> nth_error ms i = Some x -> nth_error ms j = Some y -> i <> j ->
  md_leading_digits x = Some r -> md_leading_digits y = Some s -> digits v = true ->
  found_at_start (re_find r v) = true -> found_at_start (re_find s v) = true -> False.
Proof.
  intros db H code ms i j x y r s v B A1 A2 N X Y D F1 F2. apply nget_in in B. rewrite forallb_forall in H. apply H in B. cbn [snd] in B.
  apply found_iff in F1, F2.
  assert (W : forall q, (exists t a, v = t ++ a /\ lang (re_ast q) [] t a) -> matches_prefix (re_ast q) v) by (intros q K; exact K).
  destruct (Nat.lt_ge_cases i j) as [L|L].
  - destruct (leads_nth ms i j x y r s L A1 A2 X Y) as (i' & j' & L' & I' & J').
    exact (apart5_sound _ _ v (all_apart_pair _ _ _ _ _ B I' J' L') D (W r F1) (W s F2)).
  - destruct (leads_nth ms j i y x s r ltac:(lia) A2 A1 Y X) as (i' & j' & L' & I' & J').
    exact (apart5_sound _ _ v (all_apart_pair _ _ _ _ _ B I' J' L') D (W s F2) (W r F1)).
Qed.
Theorem C61_leading : forall code ms i j x y r s v, by_code default_db code = Some ms ->
  nth_error ms i = Some x -> nth_error ms j = Some y -> i <> j ->
  md_leading_digits x = Some r -> md_leading_digits y = Some s -> digits v = true ->
  ~ (found_at_start (re_find r v) = true /\ found_at_start (re_find s v) = true).
Proof. intros code ms i j x y r s v B A1 A2 N X Y D [F1 F2]. exact (leads_any default_db default_leads code ms i j x y r s v B A1 A2 N X Y D F1 F2). Qed.
Print Assumptions C61_leading.

(** ** The national prefix for parsing
    The documentation says the value of nationalPrefix is inherited when nationalPrefixForParsing
    is missing.  The accessor of the metadata does not do that, but parsing reads every text the
    same as if it were so: only the carrier code of the result could tell. *)
Definition with_default (m : lmetadata) : lmetadata :=
  let np := lm_national_prefix m in
  let npp := match lm_national_prefix_for_parsing m with Some r => Some r | None => np end in
  lm_head m (lm_id m) (lm_country_code m) (lm_international_prefix m) (lm_preferred_international_prefix m)
    np (lm_preferred_extension_prefix m) npp (lm_national_prefix_transform_rule m)
    (lm_main_country_for_code m) (lm_leading_digits m) (lm_mobile_number_portable m) (lm_default_format m).
(** where it is missing the national prefix, if any, consists of digits and there is no transform rule *)
Definition plain_prefix (m : lmetadata) : Prop :=
  lm_national_prefix_for_parsing m = None ->
  forall np, lm_national_prefix m = Some np -> digits np = true /\ lm_national_prefix_transform_rule m = None.
Definition same_result (es : list lmetadata) (a b : outcome perr phone) : Prop :=
  match a, b with
  | Ok p, Ok q => ph_code q = ph_code p /\ ph_national q = ph_national p /\ ph_extension q = ph_extension p
      /\ (ph_carrier q = ph_carrier p \/ exists m, In m es /\ lm_national_prefix_for_parsing m = None /\ ph_carrier q = lm_national_prefix m)
  | Err e, Err f => f = e
  | Panic, Panic => True
  | _, _ => False
  end.

Definition letters (t : str) : branch := fold_left (fun b c => Then b (AChar (Plain c)) Once) t Nil.
Definition literally (t : str) : pattern := One (letters t).
Lemma letters_snoc : forall t c, letters (t ++ [c]) = Then (letters t) (AChar (Plain c)) Once.
Proof. intros t c. unfold letters. now rewrite fold_left_app. Qed.
Lemma letters_facts : forall t, digits t = true ->
  ok_branch (letters t) /\ show_branch (letters t) = t /\ branch_groups (letters t) = 0 /\ forall b x a, branch_means (letters t) b x a <-> x = t.
Proof.
  induction t as [|c t IH] using rev_ind; intros D; [repeat split; auto|].
  unfold digits in D. rewrite forallb_app in D. apply andb_true_iff in D as [D1 D2]. cbn [forallb] in D2. rewrite andb_true_r in D2. apply is_digit_spec in D2.
  destruct (IH D1) as (O & S & G & M). rewrite letters_snoc. cbn [ok_branch show_branch branch_groups branch_means ok_atom ok_spelling ok_quant show_atom show_spelling show_quant atom_groups repeated atom_means spelled].
  split; [|split; [now rewrite S, app_nil_r|split; [now rewrite G|]]].
  - split; [exact O|]. split; [|exact I]. unfold ok_plain, space. split; [|split].
    + clear - D2. intros K. cbn in K. lia.
    + clear - D2. lia.
    + clear - D2. intros K. cbn in K. repeat (destruct K as [K|K]; [lia|]). exact K.
  - intros b x a. split.
    + intros (t1 & t2 & -> & H & ->). apply M in H. now rewrite H.
    + intros ->. exists t, [c]. split; [reflexivity|]. split; [now apply M|reflexivity].
Qed.
Lemma literal_found : forall np, digits np = true -> exists r, db_regex np = Ok r /\ re_captures_len r = 1 /\
  forall v, match re_find r v with
            | Some m => mr_text m = np /\ v = mr_pre m ++ np ++ mr_post m /\ (mr_pre m = [] \/ starts_with v np = false)
            | None => starts_with v np = false end.
Proof.
  intros np D. destruct (letters_facts np D) as (O & S & G & M).
  assert (Sp : spaced (show (literally np)) np) by (pose proof (show_spaced (literally np) O) as K; cbn [literally show] in K |- *; now rewrite S in K |- *).
  destruct (C51_pattern (literally np) np O Sp) as (r & R & _ & N & F). exists r. split; [exact R|]. split; [unfold re_captures_len; rewrite N; cbn [literally groups]; now rewrite G|].
  intros v. specialize (F v). destruct (re_find r v) as [m|]; cbn [finds literally means] in F.
  - destruct F as (E & H & L). apply M in H. split; [exact H|]. rewrite H in E. split; [exact E|].
    destruct (starts_with v np) eqn:B; [left|now right]. apply starts_with_spec in B as (x & B).
    specialize (L [] np x B (proj2 (M [] np x) eq_refl)). destruct (mr_pre m); [reflexivity|cbn in L; lia].
  - destruct (starts_with v np) eqn:B; [|reflexivity]. exfalso. apply starts_with_spec in B as (x & B). apply (F [] np x B). now apply M.
Qed.
Definition given (es : list lmetadata) (m m' : metadata) : Prop :=
  same_finding m m' /\ md_national_prefix m = md_national_prefix m' /\ md_national_prefix_transform_rule m = md_national_prefix_transform_rule m' /\
  (md_national_prefix_for_parsing m = md_national_prefix_for_parsing m' \/
   exists np lm, In lm es /\ lm_national_prefix_for_parsing lm = None /\ lm_national_prefix lm = Some np /\
     md_national_prefix m = Some np /\ digits np = true /\ md_national_prefix_transform_rule m = None /\
     md_national_prefix_for_parsing m = None /\ omap_opt db_regex (Some np) = Ok (md_national_prefix_for_parsing m')).
Lemma same_option_refl : forall A (R : A -> A -> Prop) o, (forall x, R x x) -> same_option R o o.
Proof. intros A R [x|] H; cbn; [apply H|exact I]. Qed.
Lemma same_finding_of : forall m m', same_place m m' -> md_leading_digits m = md_leading_digits m' ->
  md_descriptors m = md_descriptors m' -> md_international_prefix m = md_international_prefix m' -> same_finding m m'.
Proof.
  intros m m' P L D I. split; [|rewrite D, I; split; reflexivity]. split; [exact P|]. split; [exact L|]. rewrite D.
  assert (N : forall d, same_numbers d d) by (intros d; repeat split).
  split; [apply N|]. unfold typed. repeat (constructor; [now apply same_option_refl|]). constructor.
Qed.
Lemma given_entry : forall es lm m, In lm es -> plain_prefix lm -> db_metadata lm = Ok m ->
  exists m', db_metadata (with_default lm) = Ok m' /\ given es m m'.
Proof.
  intros es lm m I P H. unfold db_metadata in H. apply obind_ok in H as (g0 & E0 & H). apply obind_ok in H as (g1 & E1 & H).
  do 15 (let x := fresh "x" in let E := fresh "E" in apply obind_ok in H as (x & E & H)).
  apply obind_ok in H as (i & Ei & H). apply obind_ok in H as (cc & Ec & H). apply obind_ok in H as (ip & Ep & H).
  apply obind_ok in H as (npp & En & H). apply obind_ok in H as (fs & Ef & H). apply obind_ok in H as (ifs & Eg & H).
  apply obind_ok in H as (ld & El & H). inversion H as [Hm]. clear H.
  unfold db_metadata, with_default, lm_head.
  cbn [lm_general lm_fixed_line lm_mobile lm_toll_free lm_premium_rate lm_shared_cost lm_personal_number lm_voip lm_pager lm_uan lm_emergency
       lm_voicemail lm_short_code lm_standard_rate lm_carrier lm_no_international lm_id lm_country_code lm_international_prefix
       lm_preferred_international_prefix lm_national_prefix lm_preferred_extension_prefix lm_national_prefix_for_parsing
       lm_national_prefix_transform_rule lm_formats lm_international_formats lm_main_country_for_code lm_leading_digits lm_mobile_number_portable].
  repeat match goal with E : ?x = Ok ?y |- context [obind ?x _] => rewrite E; cbn [obind]; clear E end.
  destruct (lm_national_prefix_for_parsing lm) as [t|] eqn:T.
  - rewrite En. cbn [obind]. eexists. split; [reflexivity|]. split; [apply same_finding_of; cbn; repeat split|]. split; [reflexivity|].
    split; [reflexivity|]. left. reflexivity.
  - cbn [omap_opt] in En. inversion En; subst npp. destruct (lm_national_prefix lm) as [np|] eqn:N.
    + destruct (P T np N) as [D R]. destruct (literal_found np D) as (r & Er & _). cbn [omap_opt]. rewrite Er. cbn [obind].
      eexists. split; [reflexivity|]. split; [apply same_finding_of; cbn; repeat split|]. split; [reflexivity|]. split; [reflexivity|].
      right. exists np, lm. cbn [md_national_prefix md_national_prefix_transform_rule md_national_prefix_for_parsing omap_opt]. rewrite Er. now repeat split.
    + cbn [omap_opt obind]. eexists. split; [reflexivity|]. split; [apply same_finding_of; cbn; repeat split|]. split; [reflexivity|].
      split; [reflexivity|]. left. reflexivity.
Qed.
Lemma given_all : forall es l mds, incl l es -> (forall lm, In lm l -> plain_prefix lm) -> omap_list db_metadata l = Ok mds ->
  exists mds', omap_list db_metadata (map with_default l) = Ok mds' /\ Forall2 (given es) mds mds'.
Proof.
  intros es. induction l as [|lm l IH]; intros mds I P H; cbn [omap_list map] in *.
  - inversion H. exists []. now split.
  - apply obind_ok in H as (m & Hm & H). apply obind_ok in H as (ms & Hms & H). inversion H. subst mds.
    destruct (given_entry es lm m (I lm (or_introl eq_refl)) (P lm (or_introl eq_refl)) Hm) as (m' & Hm' & G).
    destruct (IH ms (fun x K => I x (or_intror K)) (fun x K => P x (or_intror K)) Hms) as (ms' & Hms' & F).
    exists (m' :: ms'). rewrite Hm'. cbn [obind]. rewrite Hms'. split; [reflexivity|now constructor].
Qed.
(** the same number but for the carrier *)
Definition same_number (es : list lmetadata) (a b : outcome perr number) : Prop :=
  match a, b with
  | Ok n, Ok n' => exists c, n' = set_carrier n c /\ (c = pn_carrier n \/ exists m, In m es /\ lm_national_prefix_for_parsing m = None /\ c = lm_national_prefix m)
  | Err e, Err f => f = e
  | Panic, Panic => True
  | _, _ => False
  end.
Lemma same_number_refl : forall es a, same_number es a a.
Proof. intros es [n|e|]; cbn; auto. exists (pn_carrier n). split; [now destruct n|now left]. Qed.
Lemma strip_given : forall es m m' n, given es m m' -> same_number es (strip_national (Some m) n) (strip_national (Some m') n).
Proof.
  intros es m m' n (F & N & T & [P|(np & lm & Il & Q & L & M & D & Tr & P0 & P)]); cbn [strip_national].
  - assert (X : @national_number perr m n = national_number m' n).
    { unfold national_number. rewrite P, N, T. destruct (md_national_prefix_for_parsing m') as [r|]; [|reflexivity].
      destruct (re_find r (pn_national n)) as [x|]; [|reflexivity]. cbv zeta. rewrite (general_alike m m' _ F).
      destruct (negb _); [reflexivity|]. destruct (md_national_prefix_transform_rule m'), (option_map cap_text (cap_get x (re_captures_len r - 1)));
        rewrite ?(general_alike m m' _ F); try reflexivity;
        (destruct (unwrap _) as [y|e|]; cbn [obind]; try reflexivity; rewrite (general_alike m m' _ F); reflexivity). }
    rewrite X, N. destruct (national_number m' n) as [p|e|]; cbn [obind]; [|reflexivity|exact I].
    set (o := match md_national_prefix m' with Some prefix => _ | None => _ end). destruct o as [q|e|]; cbn [obind]; [|reflexivity|exact I].
    rewrite (length_alike m m' _ F). apply same_number_refl.
  - destruct (literal_found np D) as (r & Er & C & Fd). cbn [omap_opt] in P. rewrite Er in P. cbn [obind] in P. injection P as P.
    assert (X : exists c, @national_number perr m' n = (let* p := @national_number perr m n in Ok (set_carrier p c)) /\
                (c = pn_carrier n \/ c = Some np)).
    { unfold national_number. rewrite <- P, P0, M, <- T, Tr. cbv zeta. specialize (Fd (pn_national n)).
      destruct (re_find r (pn_national n)) as [x|].
      - destruct Fd as (Tx & Ev & [Z|Z]).
        + unfold mr_start, mr_end. rewrite Z. cbn [blen Nat.eqb negb]. rewrite slice_from_0. cbn [unwrap obind].
          rewrite andb_negb_r. rewrite C. cbn [Nat.sub cap_get option_map Nat.ltb Nat.leb cap_text]. rewrite Tx.
          rewrite Z in Ev. cbn [app] in Ev. rewrite Ev, starts_with_app. cbn [Nat.add]. unfold trim. rewrite slice_from_app. cbn [unwrap obind].
          exists (Some np). split; [reflexivity|now right].
        + rewrite Z. exists (pn_carrier n). split; [|now left].
          assert (Q1 : negb (Nat.eqb (mr_start x) 0) = true).
          { apply negb_true_iff, Nat.eqb_neq. unfold mr_start. destruct (mr_pre x) as [|c l] eqn:W.
            - rewrite Ev in Z. cbn [app] in Z. now rewrite starts_with_app in Z.
            - cbn [blen]. pose proof (utf8_len_pos c). lia. }
          rewrite Q1. cbn [obind]. now destruct n.
      - rewrite Fd. exists (pn_carrier n). split; [cbn [obind]; now destruct n|now left]. }
    destruct X as (c & X & Y). rewrite X, <- N, M.
    assert (K : @national_number perr m n = Panic \/ exists p, @national_number perr m n = Ok p /\ pn_carrier p = pn_carrier n).
    { unfold national_number. rewrite P0, M. destruct (starts_with _ np); [|right; now exists n].
      destruct (trim _ _) as [t|e|] eqn:W; cbn [obind]; [right; eexists; split; reflexivity| |now left].
      unfold trim, unwrap in W. destruct (slice_from _ _); discriminate. }
    destruct K as [K|(p & K & Kc)]; rewrite K; cbn [obind]; [exact I|].
    replace (pn_national (set_carrier p c)) with (pn_national p) by now destruct p.
    assert (W : forall u, pn_carrier u = pn_carrier n -> same_number es (match v_length m (pn_national u) TUnknown with TooShort => Ok n | _ => Ok u end)
                  (match v_length m' (pn_national (set_carrier u c)) TUnknown with TooShort => Ok n | _ => Ok (set_carrier u c) end)).
    { intros u U.
      replace (pn_national (set_carrier u c)) with (pn_national u) by now destruct u. rewrite (length_alike m m' _ F).
      assert (V : same_number es (Ok u) (Ok (set_carrier u c))).
      { exists c. split; [reflexivity|]. destruct Y as [->| ->]; [left; now rewrite U|]. right. exists lm. now rewrite L. }
      destruct (v_length m' (pn_national u) TUnknown); try exact V. apply same_number_refl. }
    destruct (starts_with (pn_national p) np); cbn [obind].
    + unfold trim, unwrap. destruct (slice_from _ _) as [t|]; cbn [obind]; [|exact I].
      specialize (W (set_national p t)). replace (set_national (set_carrier p c) t) with (set_carrier (set_national p t) c) by now destruct p.
      apply W. rewrite <- Kc. now destruct p.
    + now apply W.
Qed.
Theorem C61_inherits : forall es db, db_from es = Ok db -> (forall m, In m es -> plain_prefix m) ->
  exists db', db_from (map with_default es) = Ok db' /\
    forall country s, same_result es (parse_with db country s) (parse_with db' country s).
Proof.
  intros es db H P. apply db_from_ok in H as (mds & H & ->). destruct (given_all es es mds (fun x K => K) P H) as (mds' & H' & F).
  exists (db_of mds'). split; [apply db_from_ok; now exists mds'|]. intros country s.
  pose proof (code_alike (given es) (fun m m' H => proj1 H) mds mds' F country) as CC.
  pose proof (select_alike (given es) (fun m m' H => proj1 H) mds mds' F country) as SM.
  unfold parse_with. destruct (p_phone_number s) as [n|e|]; cbn [obind]; try solve [reflexivity | exact I]. destruct (negb _); [reflexivity|].
  rewrite CC. destruct (country_code (db_of mds') country n) as [n1|e|]; cbn [obind]; try solve [reflexivity | exact I]. specialize (SM n1).
  destruct (select_meta (db_of mds) country n1) as [o|e|], (select_meta (db_of mds') country n1) as [o'|e'|]; try contradiction; cbn [obind];
    [|now rewrite SM|exact I].
  assert (G : same_number es (strip_national o n1) (strip_national o' n1)).
  { destruct o as [m|], o' as [m'|]; cbn in SM; try contradiction; [now apply strip_given|apply same_number_refl]. }
  destruct (strip_national o n1) as [x|e|], (strip_national o' n1) as [y|e'|]; cbn in G; try contradiction; cbn [obind]; [|now cbn|exact I].
  destruct G as (c & -> & G). unfold finish. replace (pn_national (set_carrier x c)) with (pn_national x) by now destruct x.
  replace (prefix_value (set_carrier x c)) with (prefix_value x) by now destruct x.
  destruct (_ <? _); [reflexivity|]. destruct (_ <? _); [reflexivity|]. destruct (prefix_value x) as [k|e|]; cbn [obind]; try solve [reflexivity | exact I].
  destruct (nn_parse (pn_national x)) as [v|e|]; cbn [obind]; try solve [reflexivity | exact I]. cbn [same_result ph_code ph_national ph_extension ph_carrier].
  destruct x. cbn in *. split; [reflexivity|]. split; [reflexivity|]. split; [reflexivity|]. exact G.
Qed.
Print Assumptions C61_inherits.
Definition plain_prefix_b (m : lmetadata) : bool :=
  match lm_national_prefix_for_parsing m, lm_national_prefix m, lm_national_prefix_transform_rule m with
  | None, Some np, None => digits np
  | None, Some _, Some _ => false
  | _, _, _ => true
  end.
Lemma plain_any : forall es, forallb plain_prefix_b es = true -> forall m, In m es -> plain_prefix m.
Proof.
  intros es H m I. rewrite forallb_forall in H. apply H in I. unfold plain_prefix_b in I. intros E np N. rewrite E, N in I.
  destruct (lm_national_prefix_transform_rule m); [discriminate|]. now split.
Qed.
Lemma default_plain : forallb plain_prefix_b default_entries = true.
Proof. vm_cast_no_check (eq_refl true). Qed.
(** so for the built-in metadata *)
Theorem C61_inherits_default : exists db', db_from (map with_default default_entries) = Ok db' /\
  forall country s, same_result default_entries (parse_with default_db country s) (parse_with db' country s).
Proof. exact (C61_inherits default_entries default_db default_db_built (plain_any _ default_plain)). Qed.
Print Assumptions C61_inherits_default.
(** The accessor, however, has nothing to show for Belgium, whose national prefix is 0. *)
Theorem C61_inherits_refuted : exists m, by_id default_db (lit "BE") = Some m /\
  md_national_prefix m = Some (lit "0") /\ md_national_prefix_for_parsing m = None.
Proof. eexists. split; [vm_compute; reflexivity|]. split; vm_compute; reflexivity. Qed.
Print Assumptions C61_inherits_refuted.

(** Examples.  The difference the carrier makes, with a trunk prefix 0: *)
Definition trunk (extra : str) : str :=
  lit "<phoneNumberMetadata><territories><territory id='BE' countryCode='32' nationalPrefix='0'" ++ extra ++
  lit "><generalDesc><possibleLengths national='5'/><nationalNumberPattern>\d{5}</nationalNumberPattern></generalDesc></territory></territories></phoneNumberMetadata>".
Definition carrier_read (doc text : str) : option (option str) :=
  match load_text doc with
  | Ok es => match db_from es with
             | Ok db => match parse_with db (Some ID_BE) text with Ok p => Some (ph_carrier p) | _ => None end
             | _ => None end
  | _ => None end.
Example C61_carrier_ex : carrier_read (trunk []) (lit "012345") = Some None /\
  carrier_read (trunk (lit " nationalPrefixForParsing='0'")) (lit "012345") = Some (Some (lit "0")).
Proof. split; vm_compute; reflexivity. Qed.
Example C61_with_default_ex : omap_opt load_text (Some (trunk (lit " nationalPrefixForParsing='0'"))) =
  obind (load_text (trunk [])) (fun es => Ok (Some (map with_default es))).
Proof. vm_compute. reflexivity. Qed.
(** +44: the main region is listed first *)
Example C61_default_ex : exists m ms, by_code default_db 44 = Some (m :: ms) /\ 1 <= length ms /\ md_id m = lit "GB".
Proof. eexists; eexists. split; [vm_compute; reflexivity|]. split; [apply Nat.leb_le; vm_compute; reflexivity|vm_compute; reflexivity]. Qed.
Definition leading_regions (code : N) (v : str) : list str :=
  match by_code default_db code with
  | Some ms => map md_id (filter (fun m => match md_leading_digits m with Some r => found_at_start (re_find r v) | None => false end) ms)
  | None => []
  end.
Example C61_leading_ex : leading_regions 1 (lit "2423456789") = [lit "BS"] /\ leading_regions 7 (lit "7710009998") = [lit "KZ"]
  /\ leading_regions 1 (lit "2125551234") = [].
Proof. repeat split; vm_compute; reflexivity. Qed.
(** Documented formats, with and without a template for use abroad. *)
Example C61_documented_ex :
  lists [SNumber [(lit "pattern", lit "(\d)(\d+)")] [FFormat [] [lit "$1 $2"]; FIntl [] [lit "NA"]]; SNumber [] [FFormat [] [lit "$1"]]]
        [(lit "$1 $2", Some (lit "NA")); (lit "$1", None)]
  /\ all_of abroad [(lit "$1 $2", Some (lit "NA")); (lit "$1", None)] = [lit "$1"].
Proof.
  split; [|reflexivity]. constructor; [|constructor; [|constructor]].
  - exists [], [], [lit "$1 $2"], []. split; [reflexivity|]. split; [constructor|]. split; [constructor|].
    right. exists [], [lit "NA"], []. split; [reflexivity|]. split; [constructor|reflexivity].
  - exists [], [], [lit "$1"], []. split; [reflexivity|]. split; [constructor|]. split; [constructor|]. left. now split.
Qed.
