(** * C45: what becomes of '+' or national digits: every digit and every error accounted for *)
From Verif Require Import Base Unicode Regex RegexSyntax Consts CountryId Types NationalNumber
  Metadata Database Validator Valid Number Rfc3966 Helper Natural PhoneNumber Parser Formatter Loader
  DefaultDb DefaultDbOk Api.
From Verif Require Import StrFacts NationalFacts RegexLang RegexFacts RegexCaps RegexDeriv DatabaseFacts ParserFacts
  ParseInv TextFacts ViableFacts PhoneText E164Facts CoreFacts FormatFacts FormatDigits FormatDollar DialFacts
  PropsPanic PropsE164 PropsValid PropsTemplate PropsDial.

(** ** Vocabulary *)
Definition general_pattern (m : metadata) : re := re_ast (d_national_number (ds_general (md_descriptors m))).
(** A transform rule: digits, then a reference to a group of the pattern. *)
Definition rule_text (a : str) (k : nat) : str := a ++ [36%N; (48 + N.of_nat k)%N].
(** The pattern [p] has matched [x] in front of [rest], and its [k]-th group the part [g]. *)
Definition took_part (p : regex) (k : nat) (x rest g : str) : Prop :=
  exists r b c, x = b ++ g ++ c /\ In (k, r) (grps (re_ast p)) /\ lang r b g (c ++ rest).
(** The digits are completed to [e1]: the rule's own digits, what the group has
    matched (if it took part), the rest. *)
Definition completed (p : regex) (tr x rest e1 : str) : Prop :=
  exists a k g, tr = rule_text a k /\ all_digits a /\ 1 <= k <= 9 /\ e1 = a ++ g ++ rest
    /\ (took_part p k x rest g \/ g = [] /\ always k (re_ast p) = false).
(** The entry's national-prefix pattern (else its national prefix) turns [e] into
    [e1].  A transform rule is followed when the last group of the pattern takes part. *)
Definition first_off (m : metadata) (e e1 : str) : Prop :=
  match md_national_prefix_for_parsing m with
  | None =>
      (exists np, md_national_prefix m = Some np /\ e = np ++ e1)
      \/ (e1 = e /\ forall np, md_national_prefix m = Some np -> ~ begins e np)
  | Some p =>
      (~ matches_prefix (re_ast p) e /\ e1 = e)
      \/ exists x rest, e = x ++ rest /\ lang (re_ast p) [] x rest
           /\ ((e1 = rest /\ (md_national_prefix_transform_rule m = None \/ always (re_ngroups p) (re_ast p) = false))
               \/ exists tr, md_national_prefix_transform_rule m = Some tr
                    /\ (re_ngroups p = 0 \/ exists g, took_part p (re_ngroups p) x rest g)
                    /\ (completed p tr x rest e1 \/ e1 = e /\ matches_prefix (general_pattern m) e))
  end.
(** Then the national prefix itself is taken off, if it is there. *)
Definition second_off (m : metadata) (e1 e2 : str) : Prop :=
  (exists np, md_national_prefix m = Some np /\ e1 = np ++ e2)
  \/ (e2 = e1 /\ forall np, md_national_prefix m = Some np -> ~ begins e1 np).
(** not below the shortest length of the general description, if it lists any
    (lengths are kept in sixteen bits) *)
Definition long_enough (m : metadata) (e : str) : Prop :=
  let l := (N.of_nat (length e) mod 65536)%N in
  match d_possible_length (ds_general (md_descriptors m)) with
  | [] => True
  | n :: _ => (n <= l)%N \/ In l (d_possible_local_length (ds_general (md_descriptors m)))
  end.
(** [e'] is what is left of the digits [e] of a number of the entry [m]. *)
Definition left_over (m : metadata) (e e' : str) : Prop :=
  exists e1 e2, first_off m e e1 /\ second_off m e1 e2
    /\ (long_enough m e2 /\ e' = e2 \/ ~ long_enough m e2 /\ e' = e).

(** What is said of the national digits [e] of a number with calling code [c]. *)
Inductive verdict (c : N) (s : source) (e : str) : outcome perr phone -> Prop :=
| V_short : length e < 2 -> verdict c s e (Err TooShortNsn)
| V_long : 17 < length e -> verdict c s e (Err TooLong)
| V_zero : 2 <= length e <= 17 -> value_of e = 0%N -> verdict c s e (Err MalformedInteger)
| V_big : length e = 17 -> (2 ^ 56 <= value_of e)%N -> verdict c s e (Err TooLong)
| V_ok : forall n ca, 2 <= length e <= 17 -> (1 <= value_of e < 2 ^ 56)%N -> nn_show n = e -> nn_value n = value_of e ->
    verdict c s e (Ok (mk_phone (mk_code c s) n None ca)).

Fixpoint strip_zeros (e : str) : str := match e with c :: e' => if N.eqb c 48 then strip_zeros e' else e | [] => [] end.
(** The entry whose rules are used for national digits [e] behind the calling code [c], if any. *)
Definition entry_used (db : database) (c : N) (e : str) (o : option metadata) : Prop :=
  (forall m, o = Some m -> exists l, by_code db c = Some l /\ In m l)
  /\ (length e < 1000 -> forall m, o = Some m <-> responsible db c (strip_zeros e) m).
Definition left_over_of (o : option metadata) (e e' : str) : Prop :=
  match o with Some m => left_over m e e' | None => e' = e end.

(** Digits [d] behind a '+' or a dialling prefix. *)
Inductive international (db : database) (s : source) (d : str) : outcome perr phone -> Prop :=
| I_unknown :
    (forall c rest, by_code db c <> None -> (c <= 999)%N -> d = dec c ++ rest -> c = 0%N) ->
    international db s d (Err InvalidCountryCode)
| I_known : forall c e o e' r, by_code db c <> None -> (1 <= c <= 999)%N -> d = dec c ++ e ->
    (forall c' rest, by_code db c' <> None -> (1 <= c' <= 999)%N -> d = dec c' ++ rest -> length (dec c) <= length (dec c')) ->
    entry_used db c e o -> left_over_of o e e' -> verdict c s e' r ->
    international db s d r.

(** Digits [d] without a '+'.  The dialling prefix is not taken off: *)
Definition not_taken (db : database) (country : option id) (d : str) : Prop :=
  forall r, dial_prefix db country r ->
    ~ matches_prefix (re_ast r) d \/ exists x rest, d = x ++ lit "0" ++ rest /\ lang (re_ast r) [] x (lit "0" ++ rest).
(** the digits are, as they stand, of a shape and length the general description
    allows (lengths are kept in sixteen bits) *)
Definition written_out (m : metadata) (d : str) : Prop :=
  let g := ds_general (md_descriptors m) in
  let l := (N.of_nat (length d) mod 65536)%N in
  matches_prefix (general_pattern m) d
  /\ exists n ls, d_possible_length g = n :: ls /\ In l (n :: ls)
       /\ (In l (d_possible_local_length g) \/ (n <= l <= last (n :: ls) 0 \/ l = n)%N).
Inductive unsigned_digits (db : database) (country : option id) (d : str) : outcome perr phone -> Prop :=
| U_few : length d < 2 -> unsigned_digits db country d (Err NoNumber)
| U_dialled_few : forall r x d', dial_prefix db country r -> d = x ++ d' -> lang (re_ast r) [] x d' -> ~ begins d' (lit "0") ->
    length d' < 3 -> unsigned_digits db country d (Err TooShortNsn)
| U_dialled : forall r x d' o, dial_prefix db country r -> d = x ++ d' -> lang (re_ast r) [] x d' -> ~ begins d' (lit "0") ->
    3 <= length d' -> international db SrcIdd d' o -> unsigned_digits db country d o
| U_nowhere : country = None -> not_taken db country d -> unsigned_digits db country d (Err InvalidCountryCode)
| U_code : forall i m e o e' r, country = Some i -> by_id db (id_name i) = Some m -> not_taken db country d ->
    d = dec (md_country_code m) ++ e -> ~ written_out m d ->
    entry_used db (md_country_code m) e o -> left_over_of o e e' -> verdict (md_country_code m) SrcNumber e' r ->
    unsigned_digits db country d r
| U_plain : forall i m e' r, country = Some i -> by_id db (id_name i) = Some m -> not_taken db country d ->
    (~ begins d (dec (md_country_code m)) \/ written_out m d) ->
    left_over m d e' -> verdict (md_country_code m) SrcDefault e' r ->
    unsigned_digits db country d r.

(** Every transform rule is made of digits and one reference. *)
Definition rules_shaped (db : database) : Prop :=
  forall m tr, db_has db m -> md_national_prefix_transform_rule m = Some tr ->
  exists a k, tr = rule_text a k /\ all_digits a /\ 1 <= k <= 9.

(** ** Proofs *)
Lemma strip_zeros_eq : forall e, strip_zeros e = trim_start_char ch_0 e.
Proof. induction e as [|c e IH]; [reflexivity|]. cbn [strip_zeros trim_start_char]. unfold ch_0. destruct (N.eqb c 48); [exact IH|reflexivity]. Qed.
Lemma value_digits : forall e, value_of e = digits_val e.
Proof. intros e. rewrite digits_val_dv. reflexivity. Qed.

Lemma finish_verdict : forall c s e ca, digits e = true -> (c <= u16_max)%N ->
  verdict c s e (finish (mk_number s e (Some (dec c)) None ca)).
Proof.
  intros c s e ca De Hc. unfold finish. cbn [pn_national pn_country pn_extension pn_carrier].
  rewrite digits_blen by easy. unfold MIN_LENGTH_FOR_NSN, MAX_LENGTH_FOR_NSN.
  destruct (Nat.ltb_spec (length e) 2); [now constructor|]. destruct (Nat.ltb_spec 17 (length e)); [now apply V_long|].
  unfold prefix_value. cbn [pn_prefix]. unfold parse_u16. rewrite parse_uint_dec by easy. cbn [ok_or obind].
  destruct (leading_zeros e) as (t & Et & Ht). set (k := count_zeros e) in *.
  assert (Dt : digits t = true). { rewrite Et, digits_app in De. now apply andb_true_iff in De. }
  assert (Vt : digits_val t = value_of e). { change (value_of e) with (digits_val e). rewrite Et. symmetry. apply digits_val_zeros. }
  destruct t as [|c0 t].
  - rewrite app_nil_r in Et. rewrite Et at 2. rewrite nn_parse_zeros. cbn [obind]. apply V_zero; [lia|]. now rewrite <- Vt.
  - assert (Hk : k < 256) by (rewrite Et, app_length, repeat_length in *; lia).
    destruct (N.lt_ge_cases (value_of e) (2 ^ 56)) as [Hv|Hv].
    + destruct (nn_parse_digits k (c0 :: t)) as (n & Hn & Hnv & _ & Hs & _); auto; [now rewrite Vt|].
      rewrite <- Et in Hn, Hs. rewrite Hn. cbn [obind]. apply V_ok; try lia; auto.
      split; [|exact Hv]. rewrite <- Vt, digits_val_dv. cbn [dv fold_left]. change (fold_left _ t ?a) with (dv a t).
      rewrite dv_acc. cbn [digits forallb] in Dt. apply andb_true_iff in Dt as [D0 _]. apply is_digit_spec in D0.
      assert (10 ^ N.of_nat (length t) <> 0)%N by (apply N.pow_nonzero; lia). nia.
    + rewrite Et at 2. unfold nn_parse. rewrite count_zeros_repeat by exact Ht. rewrite slice_from_repeat0. cbn [unwrap obind].
      assert (L17 : (value_of e < 10 ^ N.of_nat (length e))%N) by (rewrite value_digits; now apply digits_val_lt_pow).
      assert (Hl : length e = 17).
      { destruct (Nat.eq_dec (length e) 17); [easy|]. exfalso.
        assert (10 ^ N.of_nat (length e) <= 10 ^ 16)%N by (apply N.pow_le_mono_r; lia).
        change (10 ^ 16)%N with 10000000000000000%N in *. change (2 ^ 56)%N with 72057594037927936%N in Hv. lia. }
      unfold parse_u64. rewrite parse_uint_digits; [|exact Dt|discriminate|].
      * cbn [ok_or obind]. unfold nn_new. rewrite Vt. change two56 with (2 ^ 56)%N.
        destruct (N.leb_spec (2 ^ 56) (value_of e)); [|lia]. now apply V_big.
      * rewrite Vt. rewrite Hl in L17. change (10 ^ N.of_nat 17)%N with 100000000000000000%N in L17. 
        change (value_of e <= 18446744073709551615)%N. lia.
Qed.

(** *** National prefixes *)
Lemma simple_rule : forall a k, all_digits a -> 1 <= k <= 9 ->
  simple (rule_text a k) = true /\ forall g, fill g (rule_text a k) = a ++ g k.
Proof.
  intros a k Ha Hk. destruct (template_simple (fun _ => []) [Txt a; Grp k]) as [S _].
  { cbn. repeat split; try lia. intros I. apply Ha in I. lia. }
  assert (E : template [Txt a; Grp k] = rule_text a k) by (unfold template, rule_text; cbn; now rewrite ?app_nil_r).
  rewrite E in S. split; [exact S|]. intros g. destruct (template_simple g [Txt a; Grp k]) as [_ F].
  { cbn. repeat split; try lia. intros I. apply Ha in I. lia. }
  rewrite E in F. rewrite F. unfold put. cbn. now rewrite app_nil_r.
Qed.
Lemma cap_took_part : forall p e mr k c, re_find p e = Some mr -> mr_pre mr = [] -> 1 <= k -> cap_get mr k = Some c ->
  took_part p k (mr_text mr) (mr_post mr) (cap_text c).
Proof.
  intros p e mr k c Hf Hp Hk Ec. destruct k as [|k]; [lia|]. destruct (re_find_cap _ _ _ _ _ Hf Ec) as (r & x & y & I & Ht & L).
  exists r, x, y. rewrite Hp in L. cbn [app] in L. auto.
Qed.
Lemma replace_completed : forall p tr e mr a k, tr = rule_text a k -> all_digits a -> 1 <= k <= 9 ->
  re_find p e = Some mr -> mr_pre mr = [] ->
  completed p tr (mr_text mr) (mr_post mr) (re_replace p e tr).
Proof.
  intros p tr e mr a k -> Ha Hk Hf Hp. destruct (simple_rule a k Ha Hk) as [S F].
  unfold re_replace. rewrite Hf, Hp. cbn [app]. rewrite (expand_fill _ _ S), F.
  exists a, k, (ref_text mr k). split; [reflexivity|]. split; [exact Ha|]. split; [exact Hk|].
  split; [now rewrite <- app_assoc|]. unfold ref_text. destruct (cap_get mr k) as [c|] eqn:Ec.
  - left. apply (cap_took_part _ e); auto; lia.
  - right. split; [reflexivity|]. destruct (always k (re_ast p)) eqn:Ea; [|reflexivity]. exfalso.
    destruct k as [|k]; [lia|]. destruct (re_find_always _ _ _ _ Ea Hf) as (c & K). cbn [cap_get] in Ec. congruence.
Qed.
Lemma digits_completed : forall p tr e x rest, digits (x ++ rest) = true -> completed p tr x rest e -> digits e = true.
Proof.
  intros p tr e x rest D (a & k & g & _ & Ha & _ & -> & Hg). rewrite digits_app in D. apply andb_true_iff in D as [Dx Dr].
  apply all_digits_iff in Ha. rewrite !digits_app, Ha, Dr, andb_true_r. destruct Hg as [(r & b & c & -> & _)|[-> _]]; [|reflexivity].
  rewrite !digits_app in Dx. now destruct (digits b), (digits g), (digits c).
Qed.

Lemma national_number_off : forall E m s e c n', digits e = true ->
  (forall tr, md_national_prefix_transform_rule m = Some tr -> exists a k, tr = rule_text a k /\ all_digits a /\ 1 <= k <= 9) ->
  @national_number E m (mk_number s e (Some c) None None) = Ok n' ->
  exists e1 ca, n' = mk_number s e1 (Some c) None ca /\ first_off m e e1 /\ digits e1 = true.
Proof.
  intros E m s e c n' De Hr H. unfold national_number, first_off in *. cbn [pn_national] in H.
  destruct (md_national_prefix_for_parsing m) as [p|].
  - destruct (re_find p e) as [mr|] eqn:Ef.
    2:{ inversion H; subst n'. exists e, None. repeat split; auto. left. split; [|reflexivity].
        intros (t & a & -> & L). eapply re_find_none in Ef. apply Ef. exists [], t, a. auto. }
    pose proof Ef as F. apply re_find_some in F as (F1 & F2 & F3).
    destruct (Nat.eqb_spec (mr_start mr) 0) as [E0|E0]; cbn [negb] in H.
    2:{ inversion H; subst n'. exists e, None. repeat split; auto. left. split; [|reflexivity].
        intros (t & a & Et & L). apply E0. apply Nat.eqb_eq, mr_start_0. destruct (mr_pre mr) as [|z zs] eqn:Ez; [reflexivity|].
        exfalso. apply (F3 [] z zs t a); auto. }
    assert (Hp : mr_pre mr = []) by (apply mr_start_0, Nat.eqb_eq; exact E0).
    rewrite Hp in F1, F2. cbn [app] in F1, F2.
    assert (G : d_is_match (ds_general (md_descriptors m)) e = true -> matches_prefix (general_pattern m) e).
    { intros K. unfold d_is_match in K. destruct (match d_possible_length _ with [] => _ | _ => _ end); [discriminate|].
      now apply found_at_start_spec in K. }
    assert (NP : option_map cap_text (cap_get mr (re_captures_len p - 1)) = None -> always (re_ngroups p) (re_ast p) = false).
    { unfold re_captures_len. replace (S (re_ngroups p) - 1) with (re_ngroups p) by lia. intros K.
      destruct (re_ngroups p) as [|k]; [discriminate K|]. destruct (always (S k) (re_ast p)) eqn:Ea; [|reflexivity].
      destruct (re_find_always _ _ _ _ Ea Ef) as (x & Kx). cbn [cap_get] in K. rewrite Kx in K. discriminate K. }
    assert (Plain : forall ca,
      (let* tail := unwrap (slice_from e (mr_start mr)) in
       if d_is_match (ds_general (md_descriptors m)) e && negb (d_is_match (ds_general (md_descriptors m)) tail)
       then Ok (mk_number s e (Some c) None None)
       else let* t := trim e (mr_end mr) in Ok (set_national (set_carrier (mk_number s e (Some c) None None) ca) t)) = @Ok E _ n' ->
      exists e1 ca, n' = mk_number s e1 (Some c) None ca /\ e1 = mr_post mr).
    { intros ca K. rewrite E0 in K. rewrite slice_from_0 in K. cbn [unwrap obind] in K. rewrite andb_negb_r in K.
      unfold trim in K. rewrite (slice_from_end _ _ _ Ef) in K. cbn [unwrap obind] in K. inversion K; subst n'.
      exists (mr_post mr), ca. auto. }
    assert (Dr : digits (mr_post mr) = true) by (rewrite F1, digits_app in De; now apply andb_true_iff in De).
    assert (P : (exists e1 ca, n' = mk_number s e1 (Some c) None ca /\ e1 = mr_post mr) -> forall Q R : Prop, Q \/ R ->
      exists e1 ca, n' = mk_number s e1 (Some c) None ca /\
        ((~ matches_prefix (re_ast p) e /\ e1 = e) \/ exists x rest, e = x ++ rest /\ lang (re_ast p) [] x rest
           /\ ((e1 = rest /\ (Q \/ R)) \/ exists tr, md_national_prefix_transform_rule m = Some tr
                    /\ (re_ngroups p = 0 \/ exists g, took_part p (re_ngroups p) x rest g)
                    /\ (completed p tr x rest e1 \/ e1 = e /\ matches_prefix (general_pattern m) e))) /\ digits e1 = true).
    { intros (e1 & ca & -> & ->) Q R QR. exists (mr_post mr), ca. split; [reflexivity|]. split; [|exact Dr]. right.
      exists (mr_text mr), (mr_post mr). auto. }
    destruct (md_national_prefix_transform_rule m) as [tr|] eqn:Etr; [|apply P; [eapply Plain; exact H|now left]].
    destruct (option_map cap_text (cap_get mr (re_captures_len p - 1))) as [lc|] eqn:El; [|apply P; [eapply Plain; exact H|right; now apply NP]].
    assert (TP : re_ngroups p = 0 \/ exists g, took_part p (re_ngroups p) (mr_text mr) (mr_post mr) g).
    { unfold re_captures_len in El. replace (S (re_ngroups p) - 1) with (re_ngroups p) in El by lia.
      destruct (re_ngroups p) as [|k]; [now left|]. right. destruct (cap_get mr (S k)) as [c0|] eqn:Ec; [|discriminate].
      exists (cap_text c0). apply (cap_took_part _ e); auto. lia. }
    destruct (Hr tr eq_refl) as (a & k & Ht & Ha & Hk).
    pose proof (replace_completed p tr e mr a k Ht Ha Hk Ef Hp) as C.
    destruct (d_is_match (ds_general (md_descriptors m)) e && negb _) eqn:Ev.
    + inversion H; subst n'. exists e, None. split; [reflexivity|]. split; [|exact De]. right.
      exists (mr_text mr), (mr_post mr). split; [exact F1|]. split; [exact F2|]. right. exists tr. split; [reflexivity|]. split; [exact TP|]. right.
      split; [reflexivity|]. apply G. now apply andb_true_iff in Ev.
    + apply obind_ok in H as (f & Hf & H). inversion H; subst n'.
      exists (re_replace p e tr), (Some f). split; [reflexivity|]. split.
      * right. exists (mr_text mr), (mr_post mr). split; [exact F1|]. split; [exact F2|]. right. exists tr. auto.
      * eapply digits_completed; [|exact C]. now rewrite <- F1.
  - destruct (md_national_prefix m) as [np|].
    2:{ inversion H; subst n'. exists e, None. repeat split; auto. right. split; [reflexivity|]. discriminate. }
    destruct (starts_with e np) eqn:Es.
    + apply starts_with_spec in Es as (t & Es). unfold trim in H. rewrite Es, slice_from_app in H. cbn [unwrap obind] in H.
      inversion H; subst n'. exists t, None. split; [reflexivity|]. split; [left; eauto|].
      rewrite Es, digits_app in De. now apply andb_true_iff in De.
    + inversion H; subst n'. exists e, None. split; [reflexivity|]. split; [|exact De]. right. split; [reflexivity|].
      intros x Ex (r & Er). inversion Ex; subst x. rewrite (proj2 (starts_with_spec _ _)) in Es; [discriminate|eauto].
Qed.

Lemma long_enough_iff : forall m e, digits e = true ->
  (v_length m e TUnknown <> TooShort <-> long_enough m e).
Proof.
  intros m e De. unfold v_length, long_enough. cbn [ds_get]. cbv zeta.
  destruct (d_possible_length (ds_general (md_descriptors m))) as [|n l]; [easy|].
  rewrite digits_blen by exact De. unfold as_u16. change (N.of_nat (length e) mod 65536)%N with (N.of_nat (length e) mod 65536)%N.
  set (L := (N.of_nat (length e) mod 65536)%N). destruct (memN L _) eqn:M.
  { apply memN_in in M. split; [auto|discriminate]. }
  assert (NM : ~ In L (d_possible_local_length (ds_general (md_descriptors m)))).
  { intros I. apply memN_in in I. congruence. }
  destruct (N.eqb_spec L n); [split; [intros _; left; lia|discriminate]|]. destruct (N.ltb_spec L n).
  - split; [easy|]. intros [K|K]; [lia|contradiction].
  - split; [intros _; left; lia|]. intros _. destruct (N.ltb (last (n :: l) 0%N) L); [discriminate|]. now destruct (memN L (n :: l)).
Qed.

Lemma strip_national_off : forall o s e c n', digits e = true ->
  (forall m tr, o = Some m -> md_national_prefix_transform_rule m = Some tr -> exists a k, tr = rule_text a k /\ all_digits a /\ 1 <= k <= 9) ->
  strip_national o (mk_number s e (Some c) None None) = Ok n' ->
  exists e' ca, n' = mk_number s e' (Some c) None ca /\ left_over_of o e e' /\ digits e' = true.
Proof.
  intros [m|] s e c n' De Hr H; cbn [strip_national left_over_of] in *; [|inversion H; eauto 6].
  apply obind_ok in H as (n1 & H1 & H). apply national_number_off in H1 as (e1 & ca & -> & F & D1); [|exact De|intros tr; now apply Hr].
  apply obind_ok in H as (n2 & H2 & H).
  assert (S : exists e2, n2 = mk_number s e2 (Some c) None ca /\ second_off m e1 e2 /\ digits e2 = true).
  { unfold second_off. destruct (md_national_prefix m) as [np|].
    2:{ inversion H2; subst. exists e1. split; [reflexivity|]. split; [|exact D1]. right. split; [reflexivity|discriminate]. }
    cbn [pn_national] in H2. destruct (starts_with e1 np) eqn:Es.
    - apply starts_with_spec in Es as (t & Es). unfold trim in H2. rewrite Es, slice_from_app in H2. cbn [unwrap obind] in H2.
      inversion H2; subst n2. exists t. split; [reflexivity|]. split; [left; eauto|]. rewrite Es, digits_app in D1. now apply andb_true_iff in D1.
    - inversion H2; subst n2. exists e1. split; [reflexivity|]. split; [|exact D1]. right. split; [reflexivity|].
      intros x Ex (r & Er). inversion Ex; subst x. rewrite (proj2 (starts_with_spec _ _)) in Es; [discriminate|eauto]. }
  destruct S as (e2 & -> & S & D2). cbn [pn_national] in H. pose proof (long_enough_iff m e2 D2) as L.
  assert (K : (long_enough m e2 /\ n' = mk_number s e2 (Some c) None ca) \/ (~ long_enough m e2 /\ n' = mk_number s e (Some c) None None)).
  { destruct (v_length m e2 TUnknown); inversion H; subst n'.
    all: first [left; split; [apply L; discriminate|reflexivity]|right; split; [intros K; apply L in K; now apply K|reflexivity]]. }
  unfold left_over. destruct K as [[K ->]|[K ->]].
  - exists e2, ca. split; [reflexivity|]. split; [|exact D2]. exists e1, e2. auto.
  - exists e, None. split; [reflexivity|]. split; [|exact De]. exists e1, e2. auto.
Qed.

(** *** The entry used *)
Lemma source_loop_in : forall db v l s, source_loop db v (map md_id l) = Ok s ->
  (forall m, In m l -> by_id db (md_id m) = Some m) ->
  forall m, source_meta db s = Some m -> In m l.
Proof.
  intros db v l s. induction l as [|x l IH]; intros H Hl m Hm; cbn [map source_loop] in H.
  - inversion H; subst. discriminate.
  - rewrite (Hl x) in H by now left. cbn [unwrap obind] in H.
    destruct (match md_leading_digits x with Some _ => _ | None => _ end).
    + destruct (id_of_name (md_id x)) as [i|] eqn:Ei; [|discriminate]. cbn [unwrap obind] in H. inversion H; subst.
      cbn [source_meta] in Hm. apply id_of_name_inv in Ei. rewrite Ei in Hm.
      rewrite (Hl x) in Hm by now left. inversion Hm. now left.
    + right. apply IH; auto. intros y I. apply Hl. now right.
Qed.
Lemma source_used : forall db c e src, PropsValid.regular db -> digits e = true ->
  source_for db c (trim_start_char ch_0 e) = Ok src -> entry_used db c e (source_meta db src).
Proof.
  intros db c e src R De H. split.
  - intros m Hm. destruct R as [(entries & Hdb) Hids]. pose proof (db_from_db_ok _ _ Hdb) as OK.
    unfold source_for in H. rewrite (ok_region _ OK c) in H. destruct (by_code db c) as [l|] eqn:E; cbn [option_map] in H.
    2:{ inversion H; subst. discriminate. }
    exists l. split; [reflexivity|]. destruct (Hids _ _ E) as [(m' & -> & H1)|H1].
    + cbn [map] in H. rewrite H1, str_eqb_refl in H. inversion H; subst. cbn [source_meta] in Hm. rewrite E in Hm.
      inversion Hm. now left.
    + assert (Hl : forall x, In x l -> by_id db (md_id x) = Some x) by (intros x I; now apply H1).
      destruct l as [|m0 [|m1 l]]; [now apply (ok_code_ne _ OK) in E| |].
      * cbn [map] in H. destruct (H1 m0) as [Hid (i & Hi)]; [now left|].
        destruct (str_eqb (md_id m0) (lit "001")) eqn:E1.
        { apply str_eqb_eq in E1. rewrite E1, id_of_name_001 in Hi. discriminate. }
        rewrite Hi in H. inversion H; subst. cbn [source_meta] in Hm. apply id_of_name_inv in Hi. rewrite Hi, Hid in Hm.
        inversion Hm. now left.
      * exact (source_loop_in db _ (m0 :: m1 :: l) src H Hl m Hm).
  - intros Hl. destruct (trim_start_char_spec ch_0 e) as (n & En & _).
    assert (D : digits (trim_start_char ch_0 e) = true). { rewrite En, digits_app in De. now apply andb_true_iff in De. }
    assert (L : length (trim_start_char ch_0 e) < 1000). { rewrite En, app_length in Hl. lia. }
    destruct (source_responsible db c _ R D L) as (s & Es & S). rewrite Es in H. inversion H; subst.
    rewrite strip_zeros_eq. exact S.
Qed.

Lemma source_for_no_err : forall db c v er, source_for db c v <> Err er.
Proof.
  intros db c v er. unfold source_for. destruct (region db c) as [l|]; [|discriminate].
  assert (G : forall l, source_loop db v l <> Err er).
  { induction l0 as [|y l0 IH]; cbn [source_loop]; [discriminate|]. destruct (by_id db y) as [m|]; cbn [unwrap obind]; [|discriminate].
    destruct (match md_leading_digits m with Some _ => _ | None => _ end); [|exact IH].
    destruct (id_of_name y); cbn [unwrap obind]; discriminate. }
  destruct l as [|r0 [|r1 l]]; [apply G| |apply G].
  destruct (str_eqb _ _); [discriminate|]. destruct (id_of_name r0); discriminate.
Qed.
Lemma national_number_no_err : forall E m n er, @national_number E m n <> Err er.
Proof.
  intros E m n er. unfold national_number, trim. destruct (md_national_prefix_for_parsing m) as [p|].
  2:{ destruct (md_national_prefix m); [|discriminate]. destruct (starts_with _ _); [|discriminate].
      destruct (slice_from _ _); discriminate. }
  destruct (re_find p (pn_national n)) as [mr|]; [|discriminate]. destruct (negb _); [discriminate|]. cbv zeta.
  assert (G : (let* tail := unwrap (slice_from (pn_national n) (mr_start mr)) in
    if d_is_match (ds_general (md_descriptors m)) (pn_national n) && negb (d_is_match (ds_general (md_descriptors m)) tail)
    then Ok n
    else let* t := unwrap (slice_from (pn_national n) (mr_end mr)) in
      Ok (set_national (set_carrier n (if 0 <? re_captures_len p then option_map cap_text (cap_get mr (re_captures_len p - 1)) else None)) t))
    <> @Err E _ er).
  { destruct (slice_from _ (mr_start mr)); cbn [unwrap obind]; [|discriminate]. destruct (_ && _); [discriminate|].
    destruct (slice_from _ _); discriminate. }
  destruct (md_national_prefix_transform_rule m); [|exact G]. destruct (option_map cap_text (cap_get mr (_ - 1))); [|exact G].
  destruct (_ && _); [discriminate|]. destruct (option_map _ _); discriminate.
Qed.
Lemma strip_national_no_err : forall o n er, strip_national o n <> Err er.
Proof.
  intros [m|] n er; cbn [strip_national]; [|discriminate].
  destruct (national_number m n) as [n1|x|] eqn:E; cbn [obind]; [|now apply national_number_no_err in E|discriminate].
  assert (G : match md_national_prefix m with
    | Some prefix => if starts_with (pn_national n1) prefix
        then let* t := trim (pn_national n1) (blen prefix) in Ok (set_national n1 t) else Ok n1
    | None => Ok n1 end <> @Err perr number er).
  { destruct (md_national_prefix m); [|discriminate]. destruct (starts_with _ _); [|discriminate]. unfold trim.
    destruct (slice_from _ _); discriminate. }
  destruct (match md_national_prefix m with Some _ => _ | None => _ end) as [n2|x|]; cbn [obind]; [|intros K; inversion K; subst; now apply G|discriminate].
  destruct (v_length _ _ _); discriminate.
Qed.

Lemma international_read : forall db s d, PropsValid.regular db -> rules_shaped db ->
  digits d = true -> 3 <= length d ->
  let r := if starts_with d [ch_0] then Err InvalidCountryCode
           else match code_len db d with
                | None => Err InvalidCountryCode
                | Some k =>
                    let code := digits_val (firstn k d) in
                    let e := skipn k d in
                    let* src := source_for db code (trim_start_char ch_0 e) in
                    let* n := strip_national (source_meta db src) (mk_number s e (Some (dec code)) None None) in
                    finish n
                end in
  r <> Panic -> international db s d r.
Proof.
  intros db s d R Sh Dd Hl r HP. subst r. destruct d as [|x d]; [cbn in Hl; lia|].
  destruct (starts_with (x :: d) [ch_0]) eqn:E0.
  { constructor. intros c rest _ _ E. destruct (N.eq_dec c 0) as [|Hz]; [assumption|]. exfalso.
    destruct (dec_head _ Hz) as (y & t & Ed & Hy). rewrite Ed in E. cbn in E. inversion E; subst.
    cbn [starts_with] in E0. destruct (N.eqb_spec y ch_0); [easy|discriminate]. }
  assert (Hx : x <> 48%N). { intros ->. destruct d; discriminate E0. }
  pose proof (code_len_spec db x d Dd Hx) as S. destruct (code_len db (x :: d)) as [k|].
  2:{ constructor. intros c rest K Hc E. exfalso. exact (S c rest K Hc E). }
  destruct S as (Hk & c & Kc & Hc & Ec & Es & Hmin). cbv zeta in *. rewrite <- Ec in *. set (e := skipn k (x :: d)) in *.
  assert (De : digits e = true). { rewrite Es, digits_app in Dd. now apply andb_true_iff in Dd. }
  assert (Hz : c <> 0%N). { intros ->. rewrite dec_0 in Es. inversion Es. now apply Hx. }
  destruct (source_for db c (trim_start_char ch_0 e)) as [src|er|] eqn:Esrc; cbn [obind] in *; [| |now elim HP].
  2:{ exfalso. exact (source_for_no_err _ _ _ _ Esrc). }
  pose proof (source_used db c e src R De Esrc) as U.
  destruct (strip_national _ _) as [n'|er|] eqn:En; cbn [obind] in *; [| |now elim HP].
  - apply strip_national_off in En as (e' & ca & -> & Lo & De'); [|exact De|].
    2:{ intros m tr Hm. apply Sh. eapply source_meta_has; exact Hm. }
    eapply (I_known db s (x :: d) c e (source_meta db src) e'); auto; [lia| |].
    + intros c' rest K' H' E'. apply (Hmin c' rest K'); [lia|exact E'].
    + apply finish_verdict; [exact De'|]. unfold u16_max. lia.
  - exfalso. exact (strip_national_no_err _ _ _ En).
Qed.

(** ** C45: a '+' and digits *)
Theorem C45_plus : forall db country d, PropsValid.regular db -> rules_shaped db ->
  all_digits d -> not_dialled db country d -> parse_with db country (lit "+" ++ d) <> Panic ->
  (length d < 3 /\ parse_with db country (lit "+" ++ d) = Err NoNumber)
  \/ (3 <= length d /\ international db SrcPlus d (parse_with db country (lit "+" ++ d))).
Proof.
  intros db country d R Sh Hd Hi HP. apply all_digits_iff in Hd. apply not_dialled_free in Hi.
  change (lit "+" ++ d) with (ch_plus :: d) in *. rewrite parse_plus_digits in * by assumption.
  destruct (Nat.ltb_spec (length d) 3) as [Hl|Hl]; [now left|]. right. split; [exact Hl|].
  apply international_read; assumption.
Qed.
Print Assumptions C45_plus.

Lemma written_out_iff : forall m d, digits d = true ->
  (d_is_match (ds_general (md_descriptors m)) d && is_possible (v_length m d TUnknown) = true <-> written_out m d).
Proof.
  intros m d Dd. unfold written_out, d_is_match, v_length. cbn [ds_get]. cbv zeta. rewrite digits_blen by exact Dd. unfold as_u16.
  set (L := (N.of_nat (length d) mod 65536)%N). pose proof (found_at_start_spec (d_national_number (ds_general (md_descriptors m))) d) as F.
  fold (general_pattern m) in F. destruct (d_possible_length (ds_general (md_descriptors m))) as [|n ls].
  { split; [|intros (_ & n & ls & K & _); discriminate K]. intros H. apply andb_true_iff in H as [_ H]. discriminate H. }
  destruct (memN L (n :: ls)) eqn:M; cbn [negb].
  2:{ split; [discriminate|]. intros (_ & n' & ls' & K & I & _). inversion K; subst. apply memN_in in I. congruence. }
  apply memN_in in M. split.
  - intros H. apply andb_true_iff in H as [H1 H2]. split; [now apply F|]. exists n, ls. split; [reflexivity|]. split; [exact M|].
    destruct (memN L (d_possible_local_length _)) eqn:ML; [left; now apply memN_in|]. right.
    destruct (N.eqb_spec L n); [now right|]. destruct (N.ltb_spec L n); [discriminate|]. left.
    destruct (N.ltb_spec (last (n :: ls) 0%N) L); [discriminate|]. lia.
  - intros (H1 & n' & ls' & K & I & H2). inversion K; subst n' ls'. apply F in H1. rewrite H1. cbn [andb].
    destruct (memN L (d_possible_local_length _)) eqn:ML; [reflexivity|].
    destruct H2 as [H2|H2]; [apply memN_in in H2; congruence|].
    destruct (N.eqb_spec L n); [reflexivity|]. destruct (N.ltb_spec L n); [lia|].
    destruct (N.ltb_spec (last (n :: ls) 0%N) L); [lia|]. reflexivity.
Qed.

Lemma strip_idd_cases : forall db country d, digits d = true ->
  (@strip_idd perr (idd_of db country) (bare d) = Ok (bare d) /\ not_taken db country d)
  \/ exists r x d', dial_prefix db country r /\ d = x ++ d' /\ lang (re_ast r) [] x d' /\ starts_with d' [ch_0] = false
       /\ @strip_idd perr (idd_of db country) (bare d) = Ok (mk_number SrcIdd d' None None None).
Proof.
  intros db country d Dd.
  assert (U : forall r, dial_prefix db country r -> idd_of db country = Some r) by (intros; now apply dial_prefix_idd).
  destruct (idd_of db country) as [r|] eqn:Er.
  2:{ left. split; [reflexivity|]. intros r Hr. apply U in Hr. discriminate. }
  assert (Hr : dial_prefix db country r).
  { unfold idd_of in Er. destruct country as [c|]; cbn.
    - destruct (by_id db (id_name c)) as [m|]; [|discriminate]. exists m. destruct (md_international_prefix m); [|discriminate]. now inversion Er.
    - now inversion Er. }
  unfold strip_idd. change (pn_national (bare d)) with d. destruct (re_find r d) as [mr|] eqn:Ef.
  2:{ left. split; [reflexivity|]. intros r' H'. apply U in H'. inversion H'; subst r'. left. intros (t & a & E & L).
      apply re_find_none in Ef. apply Ef. exists [], t, a. auto. }
  pose proof (re_find_some _ _ _ Ef) as (F1 & F2 & F3). destruct (Nat.eqb_spec (mr_start mr) 0) as [E0|E0].
  2:{ left. split; [reflexivity|]. intros r' H'. apply U in H'. inversion H'; subst r'. left. intros (t & a & E & L).
      apply E0. apply Nat.eqb_eq, mr_start_0. destruct (mr_pre mr) as [|z zs] eqn:Ez; [reflexivity|].
      exfalso. apply (F3 [] z zs t a); auto. }
  assert (Hp : mr_pre mr = []) by (apply mr_start_0, Nat.eqb_eq; exact E0). rewrite Hp in F1, F2. cbn [app] in F1.
  rewrite (slice_from_end _ _ _ Ef). cbn [unwrap obind]. destruct (starts_with (mr_post mr) [ch_0]) eqn:Es.
  - left. split; [reflexivity|]. intros r' H'. apply U in H'. inversion H'; subst r'. right.
    apply starts_with_spec in Es as (rest & Es). exists (mr_text mr), rest. change (lit "0") with [ch_0]. rewrite <- Es. auto.
  - right. exists r, (mr_text mr), (mr_post mr). repeat (split; [assumption|]). unfold trim.
    rewrite (slice_from_end _ _ _ Ef). reflexivity.
Qed.

(** ** C45: digits alone *)
Theorem C45_digits : forall db country d, PropsValid.regular db -> rules_shaped db ->
  (forall i m, by_id db (id_name i) = Some m -> (md_country_code m < 2 ^ 16)%N) ->
  all_digits d -> parse_with db country d <> Panic ->
  unsigned_digits db country d (parse_with db country d).
Proof.
  intros db country d R Sh H16 Hd. apply all_digits_iff in Hd. intros HP.
  destruct (Nat.lt_ge_cases (length d) 2) as [Hl|Hl].
  { assert (E : parse_with db country d = Err NoNumber); [|rewrite E; now constructor].
    destruct d as [|x [|y d]]; [reflexivity| |cbn in Hl; lia]. unfold parse_with. rewrite p_phone_digits by easy. cbn [obind].
    change (pn_national (bare [x])) with [x]. destruct (is_viable [x]) eqn:Ev; [|reflexivity]. exfalso.
    apply viable_two_digits in Ev as (a & b & c & b' & z & E & _).
    apply (f_equal (@length _)) in E. rewrite app_length in E. cbn [length] in E. rewrite app_length in E. cbn [length] in E. lia. }
  assert (Hne : d <> []) by (intros ->; cbn in Hl; lia).
  unfold parse_with in *. rewrite p_phone_digits in * by assumption. cbn [obind] in *.
  change (pn_national (bare d)) with d in *. rewrite viable_digits in * by assumption. cbn [negb] in *.
  unfold country_code in *. fold (idd_of db country) in *. rewrite international_prefix_digits in * by exact Hd.
  destruct (strip_idd_cases db country d Hd) as [(E & Hq)|(r & x & d' & Hr & Ed & L & H0 & E)]; rewrite E in *; cbn [obind] in *;
    cbn [bare pn_country pn_national pn_prefix] in *.
  - destruct country as [c|]; [|cbn [obind]; now constructor].
    destruct (by_id db (id_name c)) as [m|] eqn:Hm; cbn [unwrap obind] in *; [|now elim HP].
    set (k := dec (md_country_code m)) in *.
    assert (Hu : (md_country_code m <= u16_max)%N) by (specialize (H16 c m Hm); unfold u16_max; change (2 ^ 16)%N with 65536%N in H16; lia).
    pose proof (written_out_iff m d Hd) as W.
    assert (B : negb (d_is_match (ds_general (md_descriptors m)) d) || negb (is_possible (v_length m d TUnknown))
       = negb (d_is_match (ds_general (md_descriptors m)) d && is_possible (v_length m d TUnknown))) by now rewrite negb_andb.
    rewrite B in *. clear B. destruct (starts_with d k && negb (d_is_match _ d && _)) eqn:Ec.
    + apply andb_true_iff in Ec as [Es Ew]. apply starts_with_spec in Es as (e & Es). 
      assert (ET : @trim perr d (blen k) = Ok e) by (unfold trim; rewrite Es, slice_from_app; reflexivity).
      rewrite ET in *. cbn [obind] in *.
      assert (NW : ~ written_out m d). { intros K. apply W in K. rewrite K in Ew. discriminate. }
      assert (De : digits e = true). { rewrite Es, digits_app in Hd. now apply andb_true_iff in Hd. }
      unfold set_prefix, set_national, set_country in *. cbn [pn_country pn_national pn_prefix pn_extension pn_carrier select_meta bare] in *.
      unfold k in *. rewrite prefix_value_dec in * by exact Hu. cbn [obind] in *.
      destruct (source_for db (md_country_code m) (trim_start_char ch_0 e)) as [src|er|] eqn:Esrc; cbn [obind] in *;
        [|now apply source_for_no_err in Esrc|now elim HP].
      destruct (strip_national _ _) as [n'|er|] eqn:En; cbn [obind] in *; [|now apply strip_national_no_err in En|now elim HP].
      apply strip_national_off in En as (e' & ca & -> & Lo & De'); [|exact De|].
      2:{ intros m' tr Hm'. apply Sh. eapply source_meta_has; exact Hm'. }
      apply (U_code db (Some c) d c m e (source_meta db src) e'); auto.
      * now apply source_used.
      * apply finish_verdict; [exact De'|exact Hu].
    + assert (Hc : ~ begins d k \/ written_out m d).
      { apply andb_false_iff in Ec as [Ec|Ec].
        - left. intros (rest & K). rewrite K, starts_with_app in Ec. discriminate.
        - right. apply W. now apply negb_false_iff in Ec. }
      cbn [obind set_prefix pn_country pn_national pn_extension pn_carrier select_meta bare] in *. rewrite Hm in *. cbn [obind] in *.
      destruct (strip_national _ _) as [n'|er|] eqn:En; cbn [obind] in *; [|now apply strip_national_no_err in En|now elim HP].
      unfold set_prefix in En. cbn [pn_country pn_national pn_extension pn_carrier] in En.
      apply strip_national_off in En as (e' & ca & -> & Lo & De'); [|exact Hd|].
      2:{ intros m' tr Hm'. apply Sh. inversion Hm'; subst. left. eauto. }
      apply (U_plain db (Some c) d c m e'); auto. apply finish_verdict; [exact De'|exact Hu].
  - assert (Dd' : digits d' = true). { rewrite Ed, digits_app in Hd. now apply andb_true_iff in Hd. }
    assert (Hb : ~ begins d' (lit "0")).
    { intros (rest & K). change (lit "0") with [ch_0] in K. rewrite K, starts_with_app in H0. discriminate. }
    rewrite digits_blen in * by exact Dd'. destruct (Nat.leb_spec (length d') MIN_LENGTH_FOR_NSN) as [Hs|Hs]; unfold MIN_LENGTH_FOR_NSN in Hs.
    { apply (U_dialled_few db country d r x d'); auto. lia. }
    eapply (U_dialled db country d r x d'); eauto.
    pose proof (international_read db SrcIdd d' R Sh Dd' Hs) as IR. cbv zeta in IR. rewrite H0 in *.
    rewrite find_code_spec in * by (try exact Hs; now constructor). cbn [pn_national] in *.
    destruct (code_len db d') as [kk|] eqn:Ek; [|apply IR; discriminate]. cbn [obind] in *.
    unfold set_prefix, set_national in *. cbn [pn_country pn_national pn_prefix pn_extension pn_carrier] in *.
    assert (Hk : kk <= 3). { unfold code_len in Ek. apply find_some in Ek as [I _]. cbn in I. intuition lia. }
    assert (Hu : (digits_val (firstn kk d') <= u16_max)%N).
    { apply digits_val_3; [now apply digits_firstn|]. rewrite firstn_length. lia. }
    assert (Sel : forall o, select_meta db o (mk_number SrcIdd (skipn kk d') (Some (dec (digits_val (firstn kk d')))) None None)
      = let* src := source_for db (digits_val (firstn kk d')) (trim_start_char ch_0 (skipn kk d')) in Ok (source_meta db src)).
    { intros o. unfold select_meta. cbn [pn_country pn_national]. rewrite prefix_value_dec by exact Hu. now destruct o. }
    rewrite Sel in *. destruct (source_for _ _ _) as [src|er|]; cbn [obind] in *; auto.
Qed.
Print Assumptions C45_digits.
