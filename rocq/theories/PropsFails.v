(** * C59: exactly when a call fails or panics *)
From Verif Require Import Base Unicode Regex RegexSyntax Consts CountryId Types NationalNumber
  Metadata Database Validator Valid Number Rfc3966 Helper Natural PhoneNumber Parser Formatter Loader
  DefaultDb DefaultDbOk Api.
From Verif Require Import StrFacts NationalFacts RegexLang RegexFacts RegexCaps RegexDeriv RegexWords DatabaseFacts ParserFacts
  ParseInv TextFacts ViableFacts PhoneText E164Facts CoreFacts FormatFacts FormatDigits FormatDollar DialFacts ExtFacts ReadFacts
  PropsPanic PropsParse PropsE164 PropsValid PropsDial PropsOutcome PropsZeros PropsText PropsRfc PropsTel PropsReading PropsGives PropsTemplate.

(** ** Vocabulary
    The numbers below are any values of the type, however they came about:
    parsed with another database, or deserialised. *)
Definition listed (db : database) (p : phone) : Prop := by_code db (code_value (ph_code p)) <> None.
Definition main_entry (db : database) (p : phone) (m : metadata) : Prop :=
  exists others, by_code db (code_value (ph_code p)) = Some (m :: others).
(** the template has a "$" with a decimal digit (of any script) behind it *)
Definition mentions_group (t : str) : Prop := exists a d b, t = a ++ 36%N :: d :: b /\ in_ranges tbl_Nd d = true.
(** national text of this number needs a rule of the format *)
Definition rule_needed (f : format) (p : phone) : Prop :=
  f_national_prefix f <> None \/ (f_domestic_carrier f <> None /\ ph_carrier p <> None).

(** the first of several territories that claims the digits is none of the countries *)
Definition claimed (db : database) (m : metadata) (v : str) : Prop :=
  exists m', by_id db (md_id m) = Some m' /\ claims m' v.
Definition stuck (db : database) (p : phone) (v : str) : Prop :=
  exists before m after, by_code db (code_value (ph_code p)) = Some (before ++ m :: after) /\ before ++ after <> []
    /\ (forall x, In x before -> ~ claimed db x v) /\ claimed db m v
    /\ forall i, md_id m <> id_name i.

(** an unsigned number without a calling code is to be read in a country the database does not have *)
Definition lost (db : database) (country : option id) (s : str) : Prop :=
  exists i n x, country = Some i /\ by_id db (id_name i) = None
    /\ reads s (Some (None, n, x)) /\ viable_grammar n /\ sign n = [].

(** ** Formatting *)
Lemma mode_national : forall md : mode, {md = National} + {md <> National}.
Proof. intros []; (left; reflexivity) || (right; discriminate). Qed.

Theorem C59_format_error : forall entries db md fo p, db_from entries = Ok db ->
  (render_with db md fo p = Err tt <-> ~ listed db p).
Proof.
  intros entries db md fo p Hdb. pose proof (db_from_db_ok _ _ Hdb) as OK. unfold listed.
  destruct (by_code db (code_value (ph_code p))) as [[|m l]|] eqn:E; [now apply (ok_code_ne _ OK) in E| |].
  - split; [|intros H; exfalso; apply H; discriminate]. destruct (C41_used md m fo p) as (o & Ho & _).
    rewrite (display_chosen db md fo p m l o E Ho). intros H. exfalso. revert H.
    assert (R : forall w f tr c, fmt_replace w m f tr c <> Err tt).
    { intros w f [tr|] c; [|discriminate]. destruct (re_find FIRST_GROUP (f_format f)) as [r|] eqn:F; unfold fmt_replace; rewrite F; [|discriminate].
      cbn [unwrap obind]. destruct (cap_get r 1); discriminate. }
    assert (B : forall (x : outcome unit str) k, x <> Err tt -> (let* b := x in @Ok unit str (k b)) <> Err tt).
    { intros [x|[]|] k H; cbn [obind]; [discriminate|now elim H|discriminate]. }
    destruct md; try discriminate; apply B; destruct o as [f|]; try discriminate; auto.
    destruct (ph_carrier p), (f_domestic_carrier f); auto; destruct (f_national_prefix f); auto.
  - split; [intros _ H; now apply H|]. intros _. unfold render_with, fmt_display.
    destruct fo; cbn [fm_with fm_set_mode fmt_format_with fm_database fm_number]; rewrite E; reflexivity.
Qed.
Print Assumptions C59_format_error.

Theorem C59_format_panic : forall entries db md fo p, db_from entries = Ok db ->
  (render_with db md fo p = Panic <->
   md = National /\ exists m f, main_entry db p m /\ format_used National m fo p (Some f)
     /\ rule_needed f p /\ ~ mentions_group (f_format f)).
Proof.
  intros entries db md fo p Hdb. pose proof (db_from_db_ok _ _ Hdb) as OK. unfold main_entry.
  destruct (by_code db (code_value (ph_code p))) as [[|m l]|] eqn:E; [now apply (ok_code_ne _ OK) in E| |].
  2:{ split; [|intros (_ & m & f & (l & H) & _); congruence].
      unfold render_with, fmt_display. destruct fo; cbn [fm_with fm_set_mode fmt_format_with fm_database fm_number]; rewrite E; discriminate. }
  destruct (C41_used md m fo p) as (o & Ho & U). rewrite (display_chosen db md fo p m l o E Ho).
  destruct (mode_national md) as [->|Hmd].
  2:{ split; [|intros [H _]; contradiction]. destruct md, o as [f|]; try (now elim Hmd); rewrite ?fmt_replace_none; discriminate. }
  assert (B : forall x : outcome unit str, (let* b := x in Ok (frame National m p b)) = Panic <-> x = Panic)
    by (intros [x|x|]; cbn [obind]; split; congruence).
  rewrite B. clear B. destruct o as [f|].
  2:{ split; [discriminate|]. intros (_ & m' & f & (l' & H) & H' & _). injection H as <- _. apply U in H'. discriminate. }
  assert (K : forall tr c, fmt_replace (digits_of p) m f (Some tr) c = Panic <-> ~ mentions_group (f_format f)).
  { intros tr c. split; [|apply fmt_replace_panic]. intros H N. destruct (fmt_replace_some (digits_of p) m f tr c N) as (t & Ht). congruence. }
  assert (S : rule_needed f p -> (~ mentions_group (f_format f) <-> National = National /\
     exists m0 f0, (exists others, Some (m :: l) = Some (m0 :: others)) /\ format_used National m0 fo p (Some f0) /\ rule_needed f0 p /\ ~ mentions_group (f_format f0))).
  { intros N. split.
    - intros M. split; [reflexivity|]. exists m, f. eauto.
    - intros (_ & m0 & f0 & (l0 & H0) & H1 & _ & M). injection H0 as <- _. apply U in H1. injection H1 as ->. exact M. }
  destruct (ph_carrier p) as [c|] eqn:Ec, (f_domestic_carrier f) as [r|] eqn:Er.
  1:{ rewrite K. apply S. right. split; congruence. }
  all: destruct (f_national_prefix f) as [np|] eqn:En; [rewrite K; apply S; left; congruence|].
  all: rewrite fmt_replace_none; split; [discriminate|].
  all: intros (_ & m0 & f0 & (l0 & H0) & H1 & N & _); injection H0 as <- _; apply U in H1; injection H1 as ->; unfold rule_needed in N.
  all: destruct N as [N|[N N']]; congruence.
Qed.
Print Assumptions C59_format_panic.

Lemma render_is : forall db md p, render db md p = render_with db md None p.
Proof. reflexivity. Qed.
Lemma to_string_is : forall db p, fmt_display db (fmt_format p) = render_with db E164 None p.
Proof. reflexivity. Qed.
(** With the built-in database and its own formats national text never panics;
    [to_string] panics for the codes it does not list, and only for those. *)
Theorem C59_format_default : forall md p, (listed default_db p /\ exists t, render_with default_db md None p = Ok t)
  \/ (~ listed default_db p /\ render_with default_db md None p = Err tt).
Proof.
  intros md p. destruct (by_code default_db (code_value (ph_code p))) as [[|m l]|] eqn:E.
  - exfalso. now apply (ok_code_ne _ default_db_ok) in E.
  - left. split; [unfold listed; congruence|]. rewrite <- render_is.
    eapply render_ok; [exact E|]. intros f. apply default_format_ok. right. do 2 eexists. split; [exact E|now left].
  - right. split; [unfold listed; congruence|]. apply (C59_format_error _ _ md None p default_db_built). unfold listed. congruence.
Qed.
Print Assumptions C59_format_default.
Theorem C59_to_string : forall p, phone_to_string p = Panic <-> ~ listed default_db p.
Proof.
  intros p. unfold phone_to_string. rewrite to_string_is.
  destruct (C59_format_default E164 p) as [[L (t & ->)]|[L ->]]; split; try discriminate; auto. contradiction.
Qed.
Print Assumptions C59_to_string.

(** ** Validity, type and country *)
Lemma id_none_iff : forall k, id_of_name k = None <-> forall i, k <> id_name i.
Proof.
  intros k. destruct (id_of_name k) as [i|] eqn:E.
  - apply id_of_name_inv in E. split; [discriminate|]. intros H. now elim (H i).
  - split; [|reflexivity]. intros _ i ->. assert (K : id_of_name (id_name i) = Some i) by (destruct i; vm_compute; reflexivity). congruence.
Qed.
Lemma loop_panic : forall db v l, digits v = true -> length v < 1000 ->
  (forall m, In m l -> exists m', by_id db (md_id m) = Some m') ->
  (source_loop db v (map md_id l) = Panic <->
   exists before m after, l = before ++ m :: after /\ (forall x, In x before -> ~ claimed db x v) /\ claimed db m v /\ forall i, md_id m <> id_name i).
Proof.
  intros db v l Dv Lv. induction l as [|m l IH]; intros H; cbn [map source_loop].
  { split; [discriminate|]. intros (b & m & a & E & _). destruct b; discriminate. }
  destruct (H m (or_introl eq_refl)) as (m' & Hm). rewrite Hm. cbn [unwrap obind].
  pose proof (claims_iff m' v Dv Lv) as C.
  destruct (match md_leading_digits m' with Some _ => _ | None => _ end) eqn:Hit.
  - assert (Cm : claimed db m v) by (exists m'; split; [exact Hm|now apply C]).
    pose proof (id_none_iff (md_id m)) as I. destruct (id_of_name (md_id m)) as [i|]; cbn [unwrap obind].
    + split; [discriminate|]. intros (b & x & a & E & N & Cx & Ix). exfalso. destruct b as [|y b]; injection E as -> E.
      * apply I in Ix. discriminate.
      * now apply (N y); [left|].
    + split; [|reflexivity]. intros _. exists [], m, l. split; [reflexivity|]. split; [intros x []|]. split; [exact Cm|now apply I].
  - assert (Cm : ~ claimed db m v).
    { intros (y & Hy & K). rewrite Hm in Hy. injection Hy as <-. apply C in K. discriminate. }
    rewrite IH by (intros x Ix; apply H; now right). split.
    + intros (b & x & a & -> & N & R). exists (m :: b), x, a. split; [reflexivity|]. split; [|exact R]. intros y [<-|Iy]; auto.
    + intros (b & x & a & E & N & R). destruct b as [|y b]; injection E as -> E; [now elim Cm|].
      exists b, x, a. split; [exact E|]. split; [|exact R]. intros z Iz. apply N. now right.
Qed.
Lemma source_panic : forall entries db p v, db_from entries = Ok db -> digits v = true -> length v < 1000 ->
  (source_for db (code_value (ph_code p)) v = Panic <-> stuck db p v).
Proof.
  intros entries db p v Hdb Dv Lv. pose proof (db_from_db_ok _ _ Hdb) as OK. unfold source_for, stuck. rewrite (ok_region _ OK).
  destruct (by_code db (code_value (ph_code p))) as [l|] eqn:E; cbn [option_map].
  2:{ split; [discriminate|]. intros (b & m & a & H & _). discriminate. }
  assert (L : source_loop db v (map md_id l) = Panic <->
    exists b m a, Some l = Some (b ++ m :: a) /\ (forall x, In x b -> ~ claimed db x v) /\ claimed db m v /\ forall i, md_id m <> id_name i).
  { rewrite (loop_panic db v l Dv Lv (fun m I => ok_code_id _ OK _ _ _ E I)).
    split; intros (b & m & a & H & R); exists b, m, a; (split; [congruence|exact R]). }
  destruct l as [|m0 [|m1 l]]; [now apply (ok_code_ne _ OK) in E| |].
  - cbn [map]. split.
    + destruct (str_eqb _ _); [discriminate|]. destruct (id_of_name _); discriminate.
    + intros (b & m & a & H & N & _). exfalso. apply N. destruct b as [|x [|y b]]; injection H as; subst; try discriminate; reflexivity.
  - cbn [map] in L |- *. rewrite L. clear L. split; intros (b & m & a & H & R); exists b, m, a.
    + split; [exact H|]. split; [|exact R]. intros Z. apply app_eq_nil in Z as [-> ->]. discriminate H.
    + split; [exact H|]. apply R.
Qed.
Lemma source_never_err : forall db c v e, source_for db c v <> Err e.
Proof. intros db c v e H. now apply source_for_no_err in H. Qed.

(** The digits are those with leading zeros for [is_valid], those without for
    the type and the country. *)
Theorem C59_is_valid : forall entries db p, db_from entries = Ok db ->
  (is_valid_with db p = Panic <-> stuck db p (nn_show (ph_national p))).
Proof.
  intros entries db p Hdb. rewrite <- (source_panic entries db p _ Hdb (nn_show_digits _) (nn_show_length _)).
  unfold is_valid_with. cbv zeta. destruct (source_for _ _ _); cbn [obind]; split; congruence.
Qed.
Print Assumptions C59_is_valid.
Theorem C59_type : forall entries db p, db_from entries = Ok db ->
  (number_type_with db p = Panic <-> stuck db p (dec (nn_value (ph_national p)))).
Proof.
  intros entries db p Hdb. destruct (dec_value_ok (ph_national p)) as [Dv Lv].
  rewrite <- (source_panic entries db p _ Hdb Dv Lv). unfold number_type_with, ph_metadata.
  destruct (source_for _ _ _); cbn [obind]; split; congruence.
Qed.
Print Assumptions C59_type.
Theorem C59_country : forall entries db p, db_from entries = Ok db ->
  (country_id_with db p = Panic <-> stuck db p (dec (nn_value (ph_national p)))).
Proof.
  intros entries db p Hdb. destruct (dec_value_ok (ph_national p)) as [Dv Lv].
  rewrite <- (source_panic entries db p _ Hdb Dv Lv). unfold country_id_with, ph_metadata.
  destruct (source_for _ _ _) as [o|e|]; cbn [obind]; split; try congruence.
  destruct (source_meta db o) as [m|]; [|discriminate]. destruct (id_of_name _); discriminate.
Qed.
Print Assumptions C59_country.
(** Nothing is stuck in the built-in database, whatever the value. *)
Theorem C59_default : forall p, (exists b, is_valid p = Ok b) /\ (exists t, ph_number_type p = Ok t) /\ country_id p <> Panic.
Proof.
  intros p. unfold is_valid, ph_number_type, country_id.
  assert (S : forall v, digits v = true -> length v < 1000 -> exists o, source_for default_db (code_value (ph_code p)) v = Ok o).
  { intros v Dv Lv. destruct (source_responsible default_db (code_value (ph_code p)) v default_regular Dv Lv) as (o & E & _). eauto. }
  destruct (S _ (nn_show_digits (ph_national p)) (nn_show_length _)) as (o & E).
  destruct (dec_value_ok (ph_national p)) as [Dv Lv]. destruct (S _ Dv Lv) as (o' & E').
  unfold is_valid_with, number_type_with, country_id_with, ph_metadata. cbv zeta. rewrite E, E'. cbn [obind].
  split; [eauto|]. split; [eauto|]. destruct (source_meta default_db o') as [m|]; [|discriminate]. destruct (id_of_name _); discriminate.
Qed.
Print Assumptions C59_default.

(** ** Parsing *)
Lemma sign_plus : forall n, starts_plus n = true -> sign n <> [].
Proof. intros n H. rewrite (sign_starts n H). discriminate. Qed.

Lemma lost_panics : forall db country s, lost db country s -> parse_with db country s = Panic.
Proof.
  intros db country s (i & n & x & -> & Hi & R & G & Sg).
  rewrite (number_start db (Some i) s n x R G), Sg. unfold at_start. unfold idd_of. rewrite Hi. unfold strip_idd. cbn [obind pn_country].
  reflexivity.
Qed.

Lemma loaded_sane : forall entries mds db, omap_list db_metadata entries = Ok mds -> db_from entries = Ok db ->
  (forall code m, 2 <= length (filter (fun m => N.eqb (md_country_code m) code) mds) ->
     In m mds -> md_country_code m = code -> exists i, id_of_name (md_id m) = Some i) ->
  (forall m, In m mds -> transform_usable m) -> db_sane db None.
Proof.
  intros entries mds db Hm Hdb Hr Ht.
  apply db_from_ok in Hdb as (mds' & E & ->). assert (mds' = mds) by congruence. subst mds'. clear E.
  pose proof (db_of_ok mds) as OK. constructor.
  - discriminate.
  - intros c l r Hl Hlen I. rewrite (ok_region _ OK) in Hl.
    destruct (by_code (db_of mds) c) as [ms|] eqn:Ec; [|discriminate]. cbn in Hl.
    inversion Hl; subst l. apply in_map_iff in I as (m & <- & I). split.
    + destruct (ok_code_id _ OK _ _ _ Ec I) as (m' & ->). easy.
    + rewrite map_length in Hlen.
      assert (Hin : In m mds) by (apply db_of_has_in; right; eauto).
      pose proof (ok_code _ OK _ _ _ Ec I) as Hcode.
      rewrite db_of_by_code in Ec. unfold some_if_any in Ec. destruct (code_order _) eqn:Eo; [discriminate|].
      inversion Ec; subst ms. rewrite <- Eo, code_order_length in Hlen.
      destruct (Hr c m Hlen Hin Hcode) as (i & ->). easy.
  - intros c H. rewrite (ok_region _ OK) in H. destruct (by_code (db_of mds) c) eqn:E; [|discriminate].
    cbn in H. destruct l; [|discriminate]. now apply (ok_code_ne _ OK) in E.
  - intros m Hh p tr t mr H1 H2 H3 H4. apply db_of_has_in in Hh.
    apply (Ht m Hh p tr t mr); auto. unfold re_captures_len. now rewrite Nat.sub_succ, Nat.sub_0_r.
Qed.
Lemma tail_no_panic : forall db country n, db_sane db None -> pn_country n <> SrcDefault ->
  (let* meta := select_meta db country n in tail_of meta n) <> Panic.
Proof.
  intros db country n [_ H2 H3 H4] Hn.
  assert (E : select_meta db country n = (let* code := prefix_value n in
            let* s0 := source_for db code (trim_start_char ch_0 (pn_national n)) in Ok (source_meta db s0))).
  { unfold select_meta. destruct country, (pn_country n); try reflexivity. now elim Hn. }
  rewrite E. apply no_panic_bind.
  - apply no_panic_bind; [apply prefix_value_no_panic|]. intros code _.
    apply no_panic_bind; [now apply source_for_no_panic|]. easy.
  - intros meta Hmeta. unfold tail_of. apply no_panic_bind; [|intros; apply finish_no_panic].
    apply strip_national_no_panic. intros m ->. apply H4.
    apply obind_ok in Hmeta as (code & _ & Hx). apply obind_ok in Hx as (s0 & _ & Hx).
    inversion Hx. eapply source_meta_has; eauto.
Qed.
Lemma find_code_country : forall db l n n1, find_code db n l = Ok n1 -> pn_country n1 = pn_country n.
Proof.
  induction l as [|k l IH]; intros n n1 H; cbn [find_code] in H; [discriminate|].
  apply obind_ok in H as (a & _ & H). apply obind_ok in H as (b & _ & H). destruct (is_some _); [|auto].
  apply obind_ok in H as (t & _ & H). injection H as <-. reflexivity.
Qed.
(** A database as in C02, but not necessarily one that has the country of reference. *)
Theorem C59_parse : forall entries mds db country s,
  omap_list db_metadata entries = Ok mds -> db_from entries = Ok db ->
  (forall code m, 2 <= length (filter (fun m => N.eqb (md_country_code m) code) mds) ->
     In m mds -> md_country_code m = code -> exists i, id_of_name (md_id m) = Some i) ->
  (forall m, In m mds -> transform_usable m) ->
  (parse_with db country s = Panic <-> lost db country s).
Proof.
  intros entries mds db country s Hm Hdb Hr Ht. split; [|apply lost_panics]. intros HP.
  pose proof (loaded_sane entries mds db Hm Hdb Hr Ht) as Sane.
  destruct country as [i|].
  2:{ exfalso. exact (parse_with_no_panic db None s Sane HP). }
  destruct (by_id db (id_name i)) as [m0|] eqn:Hi.
  { exfalso. apply (parse_with_no_panic db (Some i) s); [|exact HP]. destruct Sane as [_ S2 S3 S4]. constructor; try assumption.
    intros c [= <-]. congruence. }
  pose proof (reads_sound s) as R. destruct (reading_of s) as [[[k n] x]|].
  2:{ rewrite (C46_unread db _ s R) in HP. discriminate. }
  destruct (is_viable n) eqn:V.
  2:{ assert (N : ~ viable_grammar n) by (intros G; apply C14_viable_iff_grammar in G; congruence).
      rewrite (C46_not_viable db _ s k n x R N) in HP. discriminate. }
  pose proof (proj1 (C14_viable_iff_grammar n) V) as G. destruct k as [k|].
  - exfalso. apply (parse_with_no_panic db None s Sane). rewrite <- HP. rewrite !(coded_start db _ s k n x R G). reflexivity.
  - destruct (sign n) as [|y z] eqn:Sg.
    { exists i, n, x. auto. }
    exfalso. rewrite (number_start db (Some i) s n x R G), Sg in HP. unfold at_start, idd_of in HP. rewrite Hi in HP.
    cbn [strip_idd obind pn_country pn_prefix pn_national] in HP. revert HP. apply no_panic_bind.
    + destruct (Nat.leb_spec (blen (PropsReading.digits_of n n)) MIN_LENGTH_FOR_NSN) as [L|L]; [discriminate|].
      destruct (starts_with _ _); [discriminate|]. pose proof (digits_of_digits n n V) as Dd. rewrite digits_blen in L by exact Dd. unfold MIN_LENGTH_FOR_NSN in L.
      match goal with |- find_code db ?k ?l <> Panic => destruct (find_code_ok db k l) as [->|(len & _ & _ & ->)] end;
        [constructor; cbn [pn_national pn_prefix pn_extension]; [exact Dd|reflexivity|destruct x; [cbn [option_map odigits]; now apply digits_of_digits|reflexivity]]| | |discriminate|discriminate].
      * intros j I. apply in_seq in I. unfold MAX_LENGTH_FOR_COUNTRY_CODE in I. lia.
      * cbn [pn_national]. lia.
    + intros n1 H1. apply tail_no_panic; [exact Sane|].
      destruct (_ <=? _); [discriminate H1|]. destruct (starts_with _ _); [discriminate H1|].
      apply find_code_country in H1. rewrite H1. discriminate.
Qed.
Print Assumptions C59_parse.

(** ** Instances *)
(** a calling code nobody has: an error from [format], a panic from [to_string] *)
Definition nowhere : phone := mk_phone (mk_code 999 SrcPlus) (mk_national 12345) None None.
Example C59_to_string_ex : ~ listed default_db nowhere /\ phone_to_string nowhere = Panic
  /\ render_with default_db National None nowhere = Err tt
  /\ is_valid nowhere = Ok false /\ ph_number_type nowhere = Ok TUnknown /\ country_id nowhere = Ok None.
Proof.
  assert (N : ~ listed default_db nowhere) by (intros H; apply H; vm_compute; reflexivity).
  split; [exact N|]. split; [now apply C59_to_string|]. split; [|vm_compute; auto].
  now apply (C59_format_error _ _ National None nowhere default_db_built).
Qed.
(** a template without a group: only national text that needs its rule panics *)
Definition all_digits_pattern : regex := Eval vm_compute in force_regex (regex_new (lit "(\d+)")).
Definition plain_rule : format := mk_format all_digits_pattern (lit "none") [] (Some (lit "0$1")) false None.
Definition carrier_rule : format := mk_format all_digits_pattern (lit "none") [] None false (Some (lit "0 $CC $1")).
Definition london (carrier : option str) : phone := mk_phone (mk_code 44 SrcPlus) (mk_national 2070313000) None carrier.
Example C59_format_ex :
  render_with default_db National (Some plain_rule) (london None) = Panic
  /\ render_with default_db International (Some plain_rule) (london None) = Ok (lit "+44 none")
  /\ render_with default_db National (Some carrier_rule) (london None) = Ok (lit "none")
  /\ render_with default_db National (Some carrier_rule) (london (Some (lit "15"))) = Panic
  /\ rule_needed carrier_rule (london (Some (lit "15"))) /\ ~ rule_needed carrier_rule (london None)
  /\ mentions_group (lit "$1") /\ mentions_group [36; 1635]%N /\ ~ mentions_group (lit "none").
Proof.
  repeat (split; [vm_compute; reflexivity|]). split; [right; split; discriminate|]. split; [intros [H|[_ H]]; now elim H|].
  split; [exists [], 49%N, []; split; reflexivity|]. split; [exists [], 1635%N, []; split; reflexivity|].
  intros (a & d & b & E & _). assert (I : In 36%N (lit "none")) by (rewrite E; apply in_app_iff; right; now left).
  vm_compute in I. repeat destruct I as [I|I]; discriminate || contradiction.
Qed.
(** two territories with one code and no country: validity and type panic for the claimed digits only *)
Definition doc_stuck : list event :=
  doc [doc_territory "X1" "1" [Some (lit "leadingDigits", lit "2")]; doc_territory "CA" "1" [Some (lit "leadingDigits", lit "3")]].
Example C59_stuck_ex : exists db, db_parse doc_stuck = Ok db
  /\ (let p := mk_phone (mk_code 1 SrcPlus) (mk_national 2015550123) None None in
      is_valid_with db p = Panic /\ number_type_with db p = Panic /\ country_id_with db p = Panic
      /\ stuck db p (lit "2015550123"))
  /\ (let p := mk_phone (mk_code 1 SrcPlus) (mk_national 3015550123) None None in
      is_valid_with db p = Ok false /\ country_id_with db p = Ok (Some ID_CA) /\ ~ stuck db p (lit "3015550123")).
Proof.
  eexists. split; [vm_compute; reflexivity|].
  match goal with |- context [is_valid_with ?d _] => set (db := d) end.
  assert (H : exists entries, db_from entries = Ok db).
  { assert (P : db_parse doc_stuck = Ok db) by (vm_compute; reflexivity). unfold db_parse in P.
    destruct (load doc_stuck) as [en| |]; try discriminate. exists en. exact P. }
  destruct H as (entries & Hdb). cbv zeta. split.
  - assert (V : is_valid_with db (mk_phone (mk_code 1 SrcPlus) (mk_national 2015550123) None None) = Panic) by (vm_compute; reflexivity).
    split; [exact V|]. split; [vm_compute; reflexivity|]. split; [vm_compute; reflexivity|]. exact (proj1 (C59_is_valid entries db _ Hdb) V).
  - assert (V : is_valid_with db (mk_phone (mk_code 1 SrcPlus) (mk_national 3015550123) None None) = Ok false) by (vm_compute; reflexivity).
    split; [exact V|]. split; [vm_compute; reflexivity|]. intros S.
    change (lit "3015550123") with (nn_show (ph_national (mk_phone (mk_code 1 SrcPlus) (mk_national 3015550123) None None))) in S.
    apply (proj2 (C59_is_valid entries db _ Hdb)) in S. rewrite S in V. discriminate V.
Qed.
Lemma not_lost : forall db country s, is_ok (parse_with db country s) = true -> ~ lost db country s.
Proof. intros db country s P K. apply lost_panics in K. rewrite K in P. discriminate. Qed.
(** a database without France: national digits panic with France as the reference, everything else is answered *)
Example C59_parse_ex : exists db, db_parse (doc [doc_territory "US" "1" []]) = Ok db
  /\ lost db (Some ID_FR) (lit "201 555 0123") /\ parse_with db (Some ID_FR) (lit "201 555 0123") = Panic
  /\ ~ lost db (Some ID_FR) (lit "+1 201 555 0123") /\ is_ok (parse_with db (Some ID_FR) (lit "+1 201 555 0123")) = true
  /\ is_ok (parse_with db (Some ID_FR) (lit "tel:201-555-0123;phone-context=+1")) = true
  /\ parse_with db None (lit "201 555 0123") = Err InvalidCountryCode
  /\ parse_with db (Some ID_FR) (lit "hello") = Err NoNumber.
Proof.
  eexists. split; [vm_compute; reflexivity|].
  match goal with |- context [parse_with ?d _] => set (db := d) end.
  assert (L : lost db (Some ID_FR) (lit "201 555 0123")).
  { exists ID_FR, (lit "201 555 0123"), None. split; [reflexivity|]. split; [vm_compute; reflexivity|].
    split; [apply read_as; vm_compute; reflexivity|]. split; [apply viable_by; vm_compute; reflexivity|vm_compute; reflexivity]. }
  split; [exact L|]. split; [now apply lost_panics|].
  assert (P : is_ok (parse_with db (Some ID_FR) (lit "+1 201 555 0123")) = true) by (vm_compute; reflexivity).
  split; [exact (not_lost _ _ _ P)|]. split; [exact P|].
  repeat (split; [vm_compute; reflexivity|]). vm_compute. reflexivity.
Qed.
