(** * FormatDollar: templates with a national prefix or carrier rule *)
From Verif Require Import Base Unicode Regex RegexSyntax Consts CountryId Types NationalNumber
  Metadata Database Validator PhoneNumber Formatter.
From Verif Require Import StrFacts RegexLang RegexFacts RegexCaps ParserFacts TextFacts FormatFacts FormatDigits.

Definition no_dollar (s : str) : bool := forallb (fun c => negb (N.eqb c 36)) s.
Lemma no_dollar_in : forall s, no_dollar s = true <-> ~ In 36%N s.
Proof.
  intros s. unfold no_dollar. rewrite forallb_forall. split.
  - intros H I. apply H in I. discriminate I.
  - intros H c I. apply negb_true_iff, N.eqb_neq. intros ->. now apply H.
Qed.
Lemma no_dollar_app : forall a b, no_dollar (a ++ b) = (no_dollar a && no_dollar b)%bool.
Proof. intros. apply forallb_app. Qed.

Lemma simple_lits : forall t, simple t = true -> no_dollar (lits t) = true.
Proof.
  apply (simple_cases (fun t => no_dollar (lits t) = true)).
  - reflexivity.
  - intros c t Hc Ht IH. cbn [lits]. apply N.eqb_neq in Hc. rewrite Hc. cbn [no_dollar forallb].
    rewrite Hc. exact IH.
  - intros d t Hd Hx Ht IH. cbn [lits]. change (N.eqb 36 36) with true. exact IH.
Qed.

Lemma simple_plain : forall a t, no_dollar a = true -> simple (a ++ t) = simple t.
Proof.
  induction a as [|c a IH]; intros t H; [reflexivity|]. cbn [no_dollar forallb] in H. apply andb_prop in H as [H1 H2].
  cbn [app simple]. apply negb_true_iff in H1. rewrite H1. auto.
Qed.

(** a reference stands for a part of the text *)
Lemma ref_text_in : forall r s m i c, re_find r s = Some m -> In c (ref_text m i) -> In c s.
Proof.
  intros r s m i c H I. pose proof H as F. apply re_find_some in F as (F1 & _).
  assert (J : In c (mr_text m)).
  { unfold ref_text in I. destruct i as [|i]; [exact I|]. cbn [cap_get] in I.
    destruct (cap_lookup (S i) (mr_caps m)) as [k|] eqn:E; [|destruct I].
    destruct (re_find_cap _ _ _ i k H E) as (r' & x & y & _ & Ht & _).
    rewrite Ht. apply in_app_iff. right. apply in_app_iff. now left. }
  rewrite F1. apply in_app_iff. right. apply in_app_iff. now left.
Qed.

Lemma simple_replace_in : forall r s t c, simple t = true -> In c (re_replace r s t) -> In c s \/ In c (lits t).
Proof.
  intros r s t c Ht I. unfold re_replace in I. destruct (re_find r s) as [m|] eqn:E; [|now left].
  rewrite (expand_fill m t Ht) in I. pose proof E as F. apply re_find_some in F as (F1 & _).
  apply in_app_iff in I as [I|I]; [left; rewrite F1; apply in_app_iff; now left|].
  apply in_app_iff in I as [I|I].
  - apply fill_in in I as [I|(i & _ & I)]; [now right| |exact Ht]. left. eapply ref_text_in; eauto.
  - left. rewrite F1. apply in_app_iff. right. apply in_app_iff. now right.
Qed.

(** ** Expansion does not depend on the fuel *)
Lemma span_length : forall p s, length (snd (span p s)) <= length s.
Proof.
  intros p s. pose proof (span_app p s) as H. apply (f_equal (@length char)) in H.
  rewrite app_length in H. lia.
Qed.
Lemma expand_fuel_eq : forall m f1 f2 t, length t < f1 -> length t < f2 -> expand_fuel f1 m t = expand_fuel f2 m t.
Proof.
  intros m. induction f1 as [|f1 IH]; intros f2 t H1 H2; [inversion H1|].
  destruct f2 as [|f2]; [inversion H2|]. destruct t as [|c t]; [reflexivity|]. cbn [length] in *.
  cbn [expand_fuel]. destruct (N.eqb c 36); [|f_equal; apply IH; lia].
  destruct t as [|d t]; [reflexivity|]. cbn [length] in *.
  destruct (N.eqb d 36); [f_equal; apply IH; lia|].
  destruct (N.eqb d 123).
  - pose proof (span_length (fun x => negb (N.eqb x 125)) t) as L. destruct (span _ t) as [a b]. cbn [snd] in L.
    destruct b as [|e b]; [f_equal; apply IH; cbn [length]; lia|]. cbn [length] in L. f_equal. apply IH; lia.
  - pose proof (span_app is_cap_letter (d :: t)) as L. destruct (span is_cap_letter (d :: t)) as [a b]. cbn [fst snd] in L.
    apply (f_equal (@length char)) in L. rewrite app_length in L. cbn [length] in L.
    destruct a as [|e a]; [f_equal; apply IH; cbn [length]; lia|]. cbn [length] in L. f_equal. apply IH; lia.
Qed.

Lemma expand_plain : forall m a t, no_dollar a = true -> expand m (a ++ t) = a ++ expand m t.
Proof.
  intros m a t H. unfold expand. rewrite app_length.
  induction a as [|c a IH]; [reflexivity|]. cbn [no_dollar forallb] in H. apply andb_prop in H as [H1 H2].
  apply negb_true_iff in H1. cbn [app length plus expand_fuel]. rewrite H1. f_equal.
  exact (IH H2).
Qed.

(** ** Replacing the carrier mark *)
Fixpoint split_at (needle s : str) : str * option str :=
  match s with
  | [] => ([], None)
  | c :: s' =>
      if starts_with s needle then ([], Some (skipn (length needle) s))
      else let '(a, b) := split_at needle s' in (c :: a, b)
  end.

Lemma skipn_le : forall A n (l : list A), length (skipn n l) <= length l.
Proof. intros. rewrite skipn_length. lia. Qed.

Lemma replace_fuel_eq : forall needle by_ f1 f2 s, needle <> [] -> length s < f1 -> length s < f2 ->
  str_replace_fuel f1 s needle by_ = str_replace_fuel f2 s needle by_.
Proof.
  intros needle by_. induction f1 as [|f1 IH]; intros f2 s Hn H1 H2; [inversion H1|].
  destruct f2 as [|f2]; [inversion H2|]. destruct s as [|c s]; [reflexivity|]. cbn [str_replace_fuel].
  destruct (starts_with (c :: s) needle).
  - f_equal. destruct needle as [|x needle]; [now destruct Hn|]. cbn [length skipn] in *.
    pose proof (skipn_le _ (length needle) s). apply IH; [easy|lia|lia].
  - f_equal. cbn [length] in *. apply IH; [easy|lia|lia].
Qed.

Lemma split_at_replace : forall needle by_ s, needle <> [] ->
  str_replace s needle by_ = match split_at needle s with
    | (a, None) => a
    | (a, Some b) => a ++ by_ ++ str_replace b needle by_
    end.
Proof.
  intros needle by_ s Hn.
  assert (R : forall s, str_replace s needle by_ = str_replace_fuel (S (length s)) s needle by_)
    by (destruct needle; [now destruct Hn|reflexivity]).
  rewrite R. induction s as [|c s IH]; [reflexivity|]. cbn [split_at str_replace_fuel].
  destruct (starts_with (c :: s) needle) eqn:E.
  - cbn [app]. f_equal. rewrite R. apply replace_fuel_eq; [easy| |lia].
    destruct needle as [|x needle]; [now destruct Hn|]. cbn [length skipn].
    pose proof (skipn_le _ (length needle) s). lia.
  - cbn [length]. rewrite IH. destruct (split_at needle s) as [a [b|]]; reflexivity.
Qed.

Lemma split_at_none : forall needle s a, split_at needle s = (a, None) -> a = s.
Proof.
  induction s as [|c s IH]; intros a H; cbn [split_at] in H; [inversion H; easy|].
  destruct (starts_with (c :: s) needle); [discriminate|]. destruct (split_at needle s) as [x [y|]]; [discriminate|].
  inversion H; subst. f_equal. now apply IH.
Qed.

(** ** The rules of a format *)
Definition rule_ok (m : metadata) (f : format) (tr : str) : bool :=
  match re_find FIRST_GROUP (f_format f) with
  | Some first =>
      match cap_get first 1 with
      | Some g =>
          let np := match md_national_prefix m with Some p => p | None => [] end in
          let fmt2 := str_replace (str_replace tr NP np) FG (36%N :: cap_text g) in
          match split_at CC fmt2 with
          | (a, None) => simple (mr_pre first ++ expand first a ++ mr_post first)
          | (a, Some b) =>
              if no_dollar (mr_pre first) then
                if no_dollar a then
                  match split_at CC b with
                  | (_, None) => simple (expand first b ++ mr_post first)
                  | _ => false
                  end
                else false
              else false
          end
      | None => false
      end
  | None => false
  end.

Lemma CC_ne : CC <> [].
Proof. discriminate. Qed.

Lemma rule_ok_in : forall m f tr carrier n t c, rule_ok m f tr = true ->
  match carrier with Some k => no_dollar k = true | None => True end ->
  fmt_replace n m f (Some tr) carrier = Ok t -> In c t -> c = 36%N -> In c n.
Proof.
  intros m f tr carrier n t c Hr Hk Ht I ->. unfold rule_ok in Hr. unfold fmt_replace in Ht.
  destruct (re_find FIRST_GROUP (f_format f)) as [first|] eqn:E; [|discriminate]. cbn [unwrap obind] in Ht.
  destruct (cap_get first 1) as [g|]; [|discriminate]. cbn [unwrap obind] in Ht. inversion Ht as [Et]. clear Ht.
  set (fmt2 := str_replace (str_replace tr NP match md_national_prefix m with Some p => p | None => [] end)
                 FG (36%N :: cap_text g)) in *.
  cbv zeta in Hr. set (k := match carrier with Some k => k | None => [] end) in *.
  assert (Nk : no_dollar k = true) by (unfold k; destruct carrier; [exact Hk|reflexivity]).
  rewrite <- Et in I.
  assert (S : simple (re_replace FIRST_GROUP (f_format f) (str_replace fmt2 CC k)) = true).
  { unfold re_replace. rewrite E. rewrite (split_at_replace CC k fmt2 CC_ne).
    destruct (split_at CC fmt2) as [a [b|]]; [|exact Hr].
    destruct (no_dollar (mr_pre first)) eqn:Np; [|discriminate]. destruct (no_dollar a) eqn:Na; [|discriminate].
    rewrite (split_at_replace CC k b CC_ne). destruct (split_at CC b) as [b' [|]] eqn:Eb; [discriminate|].
    apply split_at_none in Eb. subst b'.
    rewrite simple_plain by exact Np. rewrite expand_plain by exact Na. rewrite <- app_assoc, simple_plain by exact Na.
    rewrite expand_plain by exact Nk. rewrite <- app_assoc, simple_plain by exact Nk. exact Hr. }
  apply simple_replace_in in I as [I|I]; [exact I| |exact S].
  apply simple_lits, no_dollar_in in S. now elim S.
Qed.

Definition opt_ok {A} (f : A -> bool) (o : option A) : bool := match o with Some a => f a | None => true end.
Definition dollar_ok (m : metadata) (f : format) : bool :=
  if simple (f_format f) then
    if opt_ok (rule_ok m f) (f_national_prefix f) then opt_ok (rule_ok m f) (f_domestic_carrier f) else false
  else false.
