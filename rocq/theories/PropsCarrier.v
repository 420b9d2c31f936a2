(** * C27: what [carrier()] reports *)
From Verif Require Import Base Unicode Regex RegexSyntax Consts CountryId Types NationalNumber
  Metadata Database Validator Valid Number Rfc3966 Helper Natural PhoneNumber Parser Formatter Loader
  DefaultDb DefaultDbOk Api.
From Verif Require Import StrFacts NationalFacts RegexLang RegexFacts RegexCaps RegexDeriv DatabaseFacts ParserFacts
  ParseInv TextFacts ViableFacts PhoneText E164Facts FormatFacts PropsPanic PropsParse PropsE164 CoreFacts PropsText.

(** ** Vocabulary *)
(** The national-prefix pattern [r] matches at the start of the digits [d]; [c]
    is the text of one of its groups, or all that it matched if it has none. *)
Definition reported (r : regex) (d c : str) : Prop :=
  exists t rest, d = t ++ rest /\ lang (re_ast r) [] t rest /\
    ((re_ngroups r = 0 /\ c = t) \/
     exists i g x y, In (S i, g) (grps (re_ast r)) /\ t = x ++ c ++ y /\ lang g x c (y ++ rest)).

Lemma reported_part : forall r d c, reported r d c -> exists a b, d = a ++ c ++ b.
Proof.
  intros r d c (t & rest & -> & _ & [[_ ->]|(i & g & x & y & _ & -> & _)]).
  - now exists [], rest.
  - exists x, (y ++ rest). now rewrite <- !app_assoc.
Qed.

(** ** Where the dialled digits go *)
Lemma strip_idd_part : forall E idd n n' w, @strip_idd E idd n = Ok n' -> pn_national n = w ->
  exists pre, w = pre ++ pn_national n'.
Proof. intros E idd n n' w H <-. eapply strip_idd_suffix; eauto. Qed.

Lemma international_prefix_part : forall E idd u n, @international_prefix E idd (bare u) = Ok n ->
  exists pre, plus_digits (bare u) = pre ++ pn_national n.
Proof.
  intros E idd u n H. unfold international_prefix in H. cbn [bare pn_prefix pn_national] in H.
  fold (choose_mappings u) in H. unfold plus_digits. cbn [bare pn_national].
  rewrite ignore_plus_len_0 in H. destruct (starts_plus u) eqn:Es.
  - unfold trim, ignore_plus_len in H. rewrite slice_from_plus in H. cbn [unwrap obind] in H.
    destruct (negb _); [inversion H; subst; now exists []|]. eapply strip_idd_part in H; [exact H|reflexivity].
  - rewrite starts_plus_span by exact Es. eapply strip_idd_part in H; [exact H|reflexivity].
Qed.

Lemma find_code_part : forall db lens n n', find_code db n lens = Ok n' ->
  exists pre, pn_national n = pre ++ pn_national n'.
Proof.
  intros db lens n n'. induction lens as [|l lens IH]; cbn [find_code]; [discriminate|]. intros H.
  apply obind_ok in H as (pre & _ & H). apply obind_ok in H as (code & _ & H).
  destruct (is_some _); [|auto]. apply obind_ok in H as (t & Ht & H). inversion H; subst n'.
  unfold trim in Ht. destruct (slice_from (pn_national n) l) eqn:Es; [|discriminate]. inversion Ht; subst.
  apply slice_from_inv in Es as (a & Es & _). exists a. exact Es.
Qed.

Lemma country_code_part : forall db country u n, country_code db country (bare u) = Ok n ->
  exists pre, plus_digits (bare u) = pre ++ pn_national n.
Proof.
  intros db country u n H. unfold country_code in H. apply obind_ok in H as (x & Hx & H).
  apply international_prefix_part in Hx as (p0 & E0). rewrite E0. clear E0.
  assert (G : (exists pre, pn_national x = pre ++ pn_national n) -> exists pre, p0 ++ pn_national x = pre ++ pn_national n).
  { intros (pre & ->). exists (p0 ++ pre). now rewrite app_assoc. }
  apply G. clear G p0.
  assert (F : (if blen (pn_national x) <=? MIN_LENGTH_FOR_NSN then Err TooShortNsn
      else match pn_prefix x with
        | Some p => let* prefix := ok_or (parse_u16 p) MalformedInteger in
                    match by_code db prefix with None => Err InvalidCountryCode | Some _ => Ok x end
        | None => if starts_with (pn_national x) [ch_0] then Err InvalidCountryCode
                  else find_code db x (seq 1 MAX_LENGTH_FOR_COUNTRY_CODE)
        end) = Ok n -> exists pre, pn_national x = pre ++ pn_national n).
  { intros H'. destruct (_ <=? _); [discriminate|]. destruct (pn_prefix x).
    - apply obind_ok in H' as (v & _ & H'). destruct (by_code db v); inversion H'; subst. now exists [].
    - destruct (starts_with _ _); [discriminate|]. eapply find_code_part; eauto. }
  destruct (pn_country x); [exact (F H)|exact (F H)|exact (F H)|]. clear F.
  destruct country as [c|]; [|discriminate]. apply obind_ok in H as (meta & _ & H).
  apply obind_ok in H as (y & Hy & H). inversion H; subst n. cbn [set_prefix pn_national].
  destruct (_ && _)%bool in Hy.
  - apply obind_ok in Hy as (t & Ht & Hy). inversion Hy; subst y. cbn [set_national set_country pn_national].
    unfold trim in Ht. destruct (slice_from (pn_national x) _) eqn:Es; [|discriminate]. inversion Ht; subst.
    apply slice_from_inv in Es as (a & Es & _). exists a. exact Es.
  - inversion Hy; subst. now exists [].
Qed.

(** ** The carrier *)
Lemma nr_reported : forall m n n' c, nn_result m n n' -> pn_carrier n = None -> pn_carrier n' = Some c ->
  exists r, md_national_prefix_for_parsing m = Some r /\ reported r (pn_national n) c.
Proof.
  intros m n n' c R Hn Hc. destruct (nr_carrier _ _ _ R) as [E|(r & mr & g & Hr & Hf & Hpre & E & Hg)]; [congruence|].
  rewrite Hc in E. destruct g as [g|]; [|discriminate]. inversion E; subst c. exists r. split; [exact Hr|].
  pose proof (re_find_some _ _ _ Hf) as (Es & L & _). rewrite Hpre in *. cbn [app] in *.
  exists (mr_text mr), (mr_post mr). split; [exact Es|]. split; [exact L|].
  assert (G : forall i, cap_get mr (S i) = Some g -> exists i g0 x y, In (S i, g0) (grps (re_ast r)) /\
      mr_text mr = x ++ cap_text g ++ y /\ lang g0 x (cap_text g) (y ++ mr_post mr)).
  { intros i Hi. eapply re_find_cap in Hi as (r' & x & y & H1 & H2 & H3); [|exact Hf]. cbn [fst snd] in *. rewrite Hpre in H3.
    exists i, r', x, y. auto. }
  destruct Hg as [Hg|[Hg _]]; [|right; eapply G; eauto].
  unfold re_captures_len in Hg. rewrite Nat.sub_succ, Nat.sub_0_r in Hg. destruct (re_ngroups r) as [|k] eqn:Ek.
  - left. split; [reflexivity|]. inversion Hg; subst g. reflexivity.
  - right. eapply G; eauto.
Qed.

(** A reported carrier was captured by the national-prefix rule of an entry. *)
Theorem C27_from_rule : forall db country s p c, parse_with db country s = Ok p -> ph_carrier p = Some c ->
  exists m r d, db_has db m /\ md_national_prefix_for_parsing m = Some r /\ all_digits d /\ reported r d c.
Proof.
  intros db country s p c H Hc. apply parse_with_inv in H as (n0 & n1 & meta & n2 & H0 & _ & H1 & H2 & H3 & H4).
  apply finish_inv in H4 as (code & nat_ & _ & _ & -> & _). cbn [ph_carrier] in Hc.
  apply p_phone_number_start in H0 as (_ & Hcar & _). apply country_code_inv in H1. pose proof (cr_carrier _ _ _ _ H1) as Hc1.
  rewrite Hcar in Hc1. apply strip_national_inv in H3 as [->|(m & -> & R)]; [congruence|].
  destruct (nr_reported _ _ _ _ R Hc1 Hc) as (r & Hr & Hrep). exists m, r, (pn_national n1).
  split; [eapply select_meta_has; eauto|]. split; [exact Hr|]. split; [|exact Hrep].
  apply all_digits_iff. apply (norm_nat _ (cr_norm _ _ _ _ H1)).
Qed.
Print Assumptions C27_from_rule.

Lemma carrier_part : forall db country s u p c, p_phone_number s = Ok (bare u) ->
  parse_with db country s = Ok p -> ph_carrier p = Some c -> exists a b, plus_digits (bare u) = a ++ c ++ b.
Proof.
  intros db country s u p c Hu H Hc. apply parse_with_inv in H as (n0 & n1 & meta & n2 & H0 & _ & H1 & H2 & H3 & H4).
  apply finish_inv in H4 as (code & nat_ & _ & _ & -> & _). cbn [ph_carrier] in Hc.
  rewrite H0 in Hu. inversion Hu; subst n0. pose proof (country_code_part _ _ _ _ H1) as (pre & E).
  apply country_code_inv in H1. pose proof (cr_carrier _ _ _ _ H1) as Hc1. cbn [bare pn_carrier] in Hc1.
  apply strip_national_inv in H3 as [->|(m & -> & R)]; [congruence|].
  destruct (nr_reported _ _ _ _ R Hc1 Hc) as (r & _ & Hrep). apply reported_part in Hrep as (a & b & Ed).
  exists (pre ++ a), b. rewrite E, Ed. now rewrite app_assoc.
Qed.

(** For a text of digits and separators (with a space if it has a plus sign) it
    is a contiguous part of the dialled digits. *)
Theorem C27_dialled : forall db country sign t p c,
  sign = [] \/ (sign = lit "+" /\ In 32%N t) -> made_of (lit "0123456789" ++ separators) t ->
  parse_with db country (sign ++ t) = Ok p -> ph_carrier p = Some c ->
  exists a b, without_separators t = a ++ c ++ b.
Proof.
  intros db country sign t p c Hsign Ht H Hc. pose proof (without_unsigned t Ht) as [Ut Ew]. rewrite Ew.
  destruct Hsign as [->|[-> Hsp]].
  - assert (Hn : 1 <= count_digits t).
    { destruct (count_digits t) as [|k] eqn:E; [|lia]. exfalso.
      change (([] : str) ++ t) with t in H. rewrite C28_no_digit in H; [discriminate|].
      intros x I D. apply adigit_iff in D. unfold count_digits in E. apply length_zero_iff_nil in E.
      assert (I' : In x (filter is_digit t)) by (apply filter_In; auto). rewrite E in I'. destruct I'. }
    destruct (p_phone_unsigned t Ut Hn) as (u & Hu & Uu & Fu). change (([] : str) ++ t) with t in H.
    destruct (carrier_part _ _ _ _ _ _ Hu H Hc) as (a & b & E). exists a, b. rewrite <- E, <- Fu.
    symmetry. apply plus_digits_plain_eq. now apply unsigned_plain.
  - change (lit "+" ++ t) with (([] : str) ++ lit "+" ++ t) in H. rewrite C12_with_plus in H; [|intros x []|exact Ht|exact Hsp].
    rewrite Ew in H. change (lit "+" ++ filter is_digit t) with (ch_plus :: filter is_digit t) in H.
    assert (Hd : digits (filter is_digit t) = true) by apply digits_filter.
    assert (Hne : filter is_digit t <> []).
    { intros Z. rewrite Z in H. vm_compute in H. discriminate. }
    pose proof (p_phone_plus_digits _ Hd Hne) as Hu.
    destruct (carrier_part _ _ _ (ch_plus :: filter is_digit t) _ _ Hu H Hc) as (a & b & E). exists a, b. rewrite <- E.
    rewrite plus_digits_plain_eq by now apply plus_digits_plain.
    cbn [filter]. change (is_digit ch_plus) with false. cbv iota. symmetry. apply filter_idem.
Qed.
Print Assumptions C27_dialled.

(** Non-vacuity: a Brazilian number dialled with carrier 12. *)
Example C27_ex : exists p, parse (Some ID_BR) (lit "0 12 3121286979") = Ok p /\ ph_carrier p = Some (lit "12").
Proof. eexists. split; [vm_compute; reflexivity|]. vm_compute. reflexivity. Qed.

(** It need not be a carrier code: the British trunk prefix "0" is reported as
    a carrier, and so is the whole of a local number of Antigua. *)
Theorem C27_trunk_prefix_refuted : exists s p,
  parse (Some ID_GB) s = Ok p /\ is_valid p = Ok true /\ ph_carrier p = Some (lit "0").
Proof. exists (lit "020 7031 3000"). eexists. split; [vm_compute; reflexivity|]. vm_compute. auto. Qed.
Theorem C27_local_number_refuted : exists s p,
  parse (Some ID_AG) s = Ok p /\ is_valid p = Ok true /\ ph_carrier p = Some (without_separators s).
Proof. exists (lit "460-1234"). eexists. split; [vm_compute; reflexivity|]. vm_compute. auto. Qed.
