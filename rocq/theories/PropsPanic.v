(** * C01, C02: parsing never panics *)
From Verif Require Import Base Regex RegexSyntax CountryId Types NationalNumber Metadata Database
  Validator PhoneNumber Parser Formatter Loader DefaultDb Api.
From Verif Require Import StrFacts DatabaseFacts ParserFacts.

Lemma default_db_check : db_check default_db = true.
Proof. vm_cast_no_check (eq_refl true). Qed.

(** C01: whatever the reference country and the text, [parse] gives a number or
    an error value. *)
Theorem C01_parse_returns : forall country s,
  (exists p, parse country s = Ok p) \/ (exists e, parse country s = Err e).
Proof.
  intros country s. unfold parse.
  pose proof (parse_with_no_panic _ country s (db_check_sane _ country default_db_check)) as H.
  destruct (parse_with default_db country s); eauto. now elim H.
Qed.
Print Assumptions C01_parse_returns.

(** Non-vacuity: both outcomes occur, on text with multi-byte characters too. *)
Example C01_ex :
  parse (Some ID_US) (lit "1800FLOWERS") <> Panic
  /\ is_ok (parse (Some ID_US) (lit "1800FLOWERS")) = true
  /\ parse None [8364; 43; 52; 52]%N = Err NoNumber
  /\ is_ok (parse None (65291 :: lit " 44 2012345678")%N) = true.
Proof. vm_compute. repeat split; discriminate. Qed.

(** The transform rule of an entry never fires without its first group: when
    the prefix pattern matches and its last group took part, so did the first. *)
Definition transform_usable (m : metadata) : Prop :=
  forall pattern rule text found,
    md_national_prefix_for_parsing m = Some pattern ->
    md_national_prefix_transform_rule m = Some rule ->
    re_find pattern text = Some found ->
    cap_get found (re_captures_len pattern - 1) <> None -> cap_get found 1 <> None.

Lemma db_of_has_in : forall mds m, db_has (db_of mds) m -> In m mds.
Proof.
  intros mds m [(k & H)|(c & l & H & I)].
  - rewrite db_of_by_id in H. apply find_some in H as [H _]. now apply in_rev.
  - rewrite db_of_by_code in H. destruct (code_order _) eqn:E; [discriminate|].
    cbn in H. inversion H; subst. rewrite <- E in I. apply (proj1 (code_order_in _ _)) in I.
    now apply filter_In in I.
Qed.

Lemma code_order_length : forall l, length (code_order l) = length l.
Proof.
  intros l. unfold code_order. rewrite app_length, rev_length.
  induction l as [|m l IH]; cbn; [easy|]. destruct (is_main m); cbn; lia.
Qed.

(** C02: a database built from any list of entries, provided the reference
    country has an entry, every entry that shares its calling code with another
    one is named by a country id, and the transform rules are usable. *)
Theorem C02_parse_with_no_panic : forall entries mds db country s,
  omap_list db_metadata entries = Ok mds -> db_from entries = Ok db ->
  (forall c, country = Some c -> exists m, In m mds /\ md_id m = id_name c) ->
  (forall code m, 2 <= length (filter (fun m => N.eqb (md_country_code m) code) mds) ->
     In m mds -> md_country_code m = code -> exists i, id_of_name (md_id m) = Some i) ->
  (forall m, In m mds -> transform_usable m) ->
  parse_with db country s <> Panic.
Proof.
  intros entries mds db country s Hm Hdb Hc Hr Ht.
  apply db_from_ok in Hdb as (mds' & E & ->). assert (mds' = mds) by congruence. subst mds'. clear E.
  pose proof (db_of_ok mds) as OK. apply parse_with_no_panic. constructor.
  - intros c Hcc. destruct (Hc c Hcc) as (m & I & Hid). rewrite db_of_by_id.
    destruct (find_some_in _ (has_id (id_name c)) (rev mds) m) as (y & ->); [now apply in_rev in I| |easy].
    unfold has_id. rewrite Hid. apply str_eqb_refl.
  - intros c l r Hl Hlen I. rewrite (ok_region _ OK) in Hl.
    destruct (by_code (db_of mds) c) as [ms|] eqn:Ec; [|discriminate]. cbn in Hl.
    inversion Hl; subst l. apply in_map_iff in I as (m & <- & I). split.
    + destruct (ok_code_id _ OK _ _ _ Ec I) as (m' & ->). easy.
    + rewrite map_length in Hlen.
      assert (Hin : In m mds) by (apply db_of_has_in; right; eauto).
      pose proof (ok_code _ OK _ _ _ Ec I) as Hcode.
      rewrite db_of_by_code in Ec. unfold some_if_any in Ec. destruct (code_order _) eqn:Eo; [discriminate|].
      inversion Ec; subst ms. rewrite <- Eo, code_order_length in Hlen.
      destruct (Hr c m Hlen Hin Hcode) as (i & ->). easy.
  - intros c H. rewrite (ok_region _ OK) in H. destruct (by_code (db_of mds) c) eqn:E; [|discriminate].
    cbn in H. destruct l; [|discriminate]. now apply (ok_code_ne _ OK) in E.
  - intros m Hh p tr t mr H1 H2 H3 H4. apply db_of_has_in in Hh.
    apply (Ht m Hh p tr t mr); auto. unfold re_captures_len. now rewrite Nat.sub_succ, Nat.sub_0_r.
Qed.
Print Assumptions C02_parse_with_no_panic.

(** A small document: one territory per line (id, code, attributes, pattern of
    the general description). *)
Definition doc_territory (i cc : bstr) (extra : list attr) : list event :=
  [EvStart (lit "territory") (Some (lit "id", lit i) :: Some (lit "countryCode", lit cc) :: extra);
   EvStart (lit "generalDesc") []; EvStart (lit "nationalNumberPattern") []; EvText (lit "\d+");
   EvEnd (lit "nationalNumberPattern"); EvEnd (lit "generalDesc"); EvEnd (lit "territory")].
Arguments doc_territory i%bstr cc%bstr extra.
Definition doc (ts : list (list event)) : list event :=
  EvStart (lit "phoneNumberMetadata") [] :: EvStart (lit "territories") [] :: concat ts
  ++ [EvEnd (lit "territories"); EvEnd (lit "phoneNumberMetadata")].

Definition doc_two : list event :=
  doc [doc_territory "US" "1" []; doc_territory "CA" "1" [];
       doc_territory "AR" "54" [Some (lit "nationalPrefixForParsing", lit "0?(?:(11)(15))?");
                                Some (lit "nationalPrefixTransformRule", lit "9$1")]].

(** Non-vacuity: a database with a shared code and a transform rule meets the
    hypotheses, and parses a number through the rule. *)
Example C02_ex : exists entries mds db,
  load doc_two = Ok entries /\ omap_list db_metadata entries = Ok mds /\ db_from entries = Ok db
  /\ forallb transform_check mds = true
  /\ forallb (fun m => is_some (id_of_name (md_id m))) mds = true
  /\ option_map (@length _) (region db 1) = Some 2
  /\ is_ok (parse_with db (Some ID_AR) (lit "011152345678")) = true
  /\ is_ok (parse_with db (Some ID_US) (lit "2015550123")) = true.
Proof.
  eexists _, _, _. split; [vm_compute; reflexivity|].
  split; [vm_compute; reflexivity|]. split; [vm_compute; reflexivity|].
  vm_compute. repeat split.
Qed.

(** The conditions are needed: [Database::parse] accepts each of these three
    documents, and then parsing panics. *)
Theorem C02_unconditional_refuted :
  (* no entry for the reference country *)
  (exists db, db_parse (doc [doc_territory "US" "1" []]) = Ok db
     /\ parse_with db (Some ID_FR) (lit "2015550123") = Panic)
  (* a shared code whose region is no country id *)
  /\ (exists db, db_parse (doc [doc_territory "X1" "1" [Some (lit "leadingDigits", lit "\d")]; doc_territory "X2" "1" []]) = Ok db
     /\ parse_with db None (lit "+12015550123") = Panic)
  (* two non-geographical entities with one code *)
  /\ (exists db, db_parse (doc [doc_territory "001" "800" []; doc_territory "001" "800" [Some (lit "leadingDigits", lit "\d")]]) = Ok db
     /\ parse_with db None (lit "+80012345678") = Panic)
  (* a transform rule on a pattern without groups *)
  /\ (exists db, db_parse (doc [doc_territory "US" "1"
            [Some (lit "nationalPrefixForParsing", lit "0"); Some (lit "nationalPrefixTransformRule", lit "2")]]) = Ok db
     /\ parse_with db (Some ID_US) (lit "02015550123") = Panic).
Proof.
  repeat split; (eexists; split; [vm_compute; reflexivity|vm_compute; reflexivity]).
Qed.
Print Assumptions C02_unconditional_refuted.
