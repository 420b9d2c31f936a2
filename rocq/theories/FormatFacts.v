(** * FormatFacts: formatting does not fail *)
From Verif Require Import Base Unicode Regex RegexSyntax Consts CountryId Types NationalNumber
  Metadata Database Validator PhoneNumber Parser Formatter DefaultDb DefaultDbOk Api.
From Verif Require Import StrFacts RegexLang RegexFacts RegexCaps DatabaseFacts ParserFacts TextFacts.

(** ** Checking all the entries of a database *)
Definition db_forall (f : metadata -> bool) (db : database) : bool :=
  if forallb (fun p => f (snd p)) (db_by_id db) then forallb (fun p => forallb f (snd p)) (db_by_code db) else false.

Lemma db_forall_has : forall f db m, db_forall f db = true -> db_has db m -> f m = true.
Proof.
  intros f db m H Hm. unfold db_forall in H. destruct (forallb _ (db_by_id db)) eqn:E; [|discriminate].
  rewrite forallb_forall in E, H. destruct Hm as [(k & Hk)|(c & l & Hc & I)].
  - apply sget_in in Hk. now apply E in Hk.
  - apply nget_in in Hc. apply H in Hc. cbn in Hc. rewrite forallb_forall in Hc. auto.
Qed.

Lemma default_db_ok : db_ok default_db.
Proof. exact (db_from_db_ok _ _ default_db_built). Qed.

(** ** A group reference in a template *)
Definition has_ref (t : str) : Prop := exists a d b, t = a ++ 36%N :: d :: b /\ in_ranges tbl_Nd d = true.

Lemma lang_first_group : forall b t a, lang (re_ast FIRST_GROUP) b t a <->
  exists d, t = [36%N; d] /\ in_ranges tbl_Nd d = true.
Proof.
  intros b t a. cbn [FIRST_GROUP re_ast]. split.
  - intros H. inversion H as [| | | | | |i r b' t' a' H1| |]; subst.
    inversion H1 as [| |r1 r2 b' t1 t2 a' H2 H3| | | | | |]; subst.
    apply lang_cls in H2 as (x & -> & Hx). apply lang_cls in H3 as (d & -> & Hd).
    cbn [in_cls] in Hx. rewrite in_range_single in Hx. apply N.eqb_eq in Hx. subst x. exists d. auto.
  - intros (d & -> & Hd). constructor. change [36%N; d] with ([36%N] ++ [d]). constructor; now constructor.
Qed.

Lemma re_find_always : forall r s m i, always i (re_ast r) = true -> re_find r s = Some m ->
  exists c, cap_lookup i (mr_caps m) = Some c.
Proof.
  intros r s m i Ha H. apply re_find_run in H as (st & I & _ & Hc).
  destruct (always_sound _ _ _ _ Ha I) as (n & E & Q). cbn in E. rewrite app_nil_r in E.
  rewrite <- E, Hc, <- cap_lookup_has in Q. destruct (cap_lookup i (mr_caps m)); [eauto|discriminate].
Qed.

Lemma first_group_find : forall t, match re_find FIRST_GROUP t with
  | Some m => exists d c, mr_text m = [36%N; d] /\ in_ranges tbl_Nd d = true
      /\ t = mr_pre m ++ 36%N :: d :: mr_post m
      /\ cap_get m 1 = Some c /\ cap_text c = [36%N; d]
  | None => ~ has_ref t end.
Proof.
  intros t. destruct (re_find FIRST_GROUP t) as [m|] eqn:E.
  - pose proof E as F. apply re_find_some in F as (F1 & F2 & F3). apply lang_first_group in F2 as (d & Hd & Hn).
    destruct (re_find_always FIRST_GROUP t m 1 eq_refl E) as (c & Hc).
    exists d, c. split; [easy|]. split; [easy|]. rewrite Hd in F1. split; [exact F1|]. split; [exact Hc|].
    destruct (re_find_cap _ _ _ 0 c E Hc) as (r' & x & y & Hg & Ht & L). cbn [fst snd] in *.
    destruct Hg as [Hg|[]]. inversion Hg; subst r'. clear Hg.
    revert Ht L. generalize (cap_text c) as ct. intros ct Ht L.
    inversion L as [| |r1 r2 b' t1 t2 a' H2 H3| | | | | |]; subst.
    apply lang_cls in H2 as (x1 & -> & Hx). apply lang_cls in H3 as (d' & -> & Hd').
    rewrite Hd in Ht.
    destruct x as [|x0 [|x1' [|x2 x]]]; cbn in Ht; inversion Ht; try (now destruct x); subst; reflexivity.
  - intros (a & d & b & -> & Hd). apply re_find_none in E. apply E. exists a, [36%N; d], b. split; [easy|].
    apply lang_first_group. eauto.
Qed.

(** ** fmt_replace *)
Lemma fmt_replace_none : forall nat_ meta f c,
  fmt_replace nat_ meta f None c = Ok (re_replace (f_pattern f) nat_ (f_format f)).
Proof. easy. Qed.

Lemma fmt_replace_some : forall nat_ meta f tr c, has_ref (f_format f) ->
  exists t, fmt_replace nat_ meta f (Some tr) c = Ok t.
Proof.
  intros nat_ meta f tr c H. unfold fmt_replace. pose proof (first_group_find (f_format f)) as F.
  destruct (re_find FIRST_GROUP (f_format f)) as [m|]; [|easy].
  destruct F as (d & g & _ & _ & _ & Hg & _). cbn [unwrap obind]. rewrite Hg. cbn [unwrap obind]. eauto.
Qed.

Lemma fmt_replace_panic : forall nat_ meta f tr c, ~ has_ref (f_format f) ->
  fmt_replace nat_ meta f (Some tr) c = Panic.
Proof.
  intros nat_ meta f tr c H. unfold fmt_replace. pose proof (first_group_find (f_format f)) as F.
  destruct (re_find FIRST_GROUP (f_format f)) as [m|]; [|easy].
  exfalso. apply H. destruct F as (d & g & _ & Hd & E & _). exists (mr_pre m), d, (mr_post m). auto.
Qed.

Lemma choose_format_in : forall n l f, choose_format n l = Some f -> In f l.
Proof.
  induction l as [|g l IH]; intros f H; cbn [choose_format] in H; [discriminate|].
  destruct (match f_leading_digits g with [] => true | _ => _ end); [inversion H; now left|right; auto].
Qed.

(** the formats that carry a rule refer to a group *)
Definition format_ok (f : format) : Prop :=
  f_national_prefix f <> None \/ f_domestic_carrier f <> None -> has_ref (f_format f).

Theorem render_ok : forall db mode p m l,
  by_code db (code_value (ph_code p)) = Some (m :: l) ->
  (forall f, In f (md_formats m) \/ In f (md_international_formats m) -> format_ok f) ->
  exists t, render db mode p = Ok t.
Proof.
  intros db md p m l Hc Hf. unfold render, fmt_display.
  cbn [fm_database fm_number fm_set_mode fmt_format_with fm_mode fm_format]. rewrite Hc. cbn [ok_or obind].
  set (formats := match md_international_formats m, md with | [], _ => md_formats m | _, National => md_formats m | l, _ => l end).
  assert (Hin : forall f, In f formats -> format_ok f).
  { intros f I. apply Hf. unfold formats in I. destruct (md_international_formats m); [auto|].
    destruct md; auto. }
  destruct md; cbn [obind].
  - eauto.
  - destruct (choose_format _ formats); cbn [fmt_replace obind]; eauto.
  - destruct (choose_format _ formats) as [f|] eqn:E; [|cbn; eauto].
    apply choose_format_in, Hin in E.
    destruct (ph_carrier p) as [c|], (f_domestic_carrier f) as [rule|] eqn:Ed.
    1: destruct (fmt_replace_some (nn_show (ph_national p)) m f rule (Some c)) as (t & Ht);
       [apply E; right; congruence|]; rewrite Ht; cbn; eauto.
    all: destruct (f_national_prefix f) as [rule'|] eqn:En; [|rewrite fmt_replace_none; cbn; eauto].
    all: destruct (fmt_replace_some (nn_show (ph_national p)) m f rule' None) as (t & Ht);
       [apply E; left; congruence|]; rewrite Ht; cbn; eauto.
  - destruct (choose_format _ formats); cbn [fmt_replace obind]; eauto.
Qed.
