(** * C57: what parsing gives, exactly *)
From Verif Require Import Base Unicode Regex RegexSyntax Consts CountryId Types NationalNumber
  Metadata Database Validator Valid Number Rfc3966 Helper Natural PhoneNumber Parser Formatter Loader
  DefaultDb DefaultDbOk Api.
From Verif Require Import StrFacts NationalFacts RegexLang RegexFacts RegexCaps RegexDeriv RegexWords DatabaseFacts ParserFacts
  ParseInv TextFacts ViableFacts PhoneText E164Facts CoreFacts FormatFacts FormatDigits FormatDollar DialFacts ExtFacts ReadFacts
  PropsPanic PropsE164 PropsValid PropsTemplate PropsDial PropsOutcome PropsZeros PropsText PropsRfc PropsTel PropsReading.

(** ** The specification
    Nothing below mentions the parser.  [reads], [viable_grammar], [digits_of] and
    [sign] are those of C46 and C14, [responsible] and [fits] those of C16. *)
Definition starts (e p : str) : Prop := exists rest, e = p ++ rest.
Definition general (m : metadata) : descriptor := ds_general (md_descriptors m).
Definition last_group (p : regex) (x : str) (gs : list (nat * str)) : option str := group x gs (re_ngroups p).
Definition text_or_none (o : option str) : str := match o with Some t => t | None => [] end.

(** *** National digits
    [first_step m e e1 ca]: the entry's rule for national prefixes turns [e] into
    [e1]; [ca] is reported as the carrier. *)
Inductive first_step (m : metadata) (e : str) : str -> option str -> Prop :=
| F_none : md_national_prefix_for_parsing m = None ->
    (forall np, md_national_prefix m = Some np -> ~ starts e np) -> first_step m e e None
| F_prefix : forall np e1, md_national_prefix_for_parsing m = None -> md_national_prefix m = Some np ->
    e = np ++ e1 -> first_step m e e1 None
| F_unmatched : forall p, md_national_prefix_for_parsing m = Some p -> ~ matches_prefix (re_ast p) e -> first_step m e e None
| F_off : forall p x rest gs, md_national_prefix_for_parsing m = Some p -> found p e x rest gs ->
    md_national_prefix_transform_rule m = None \/ last_group p x gs = None ->
    first_step m e rest (last_group p x gs)
| F_idle : forall p x rest gs a k, md_national_prefix_for_parsing m = Some p -> found p e x rest gs ->
    md_national_prefix_transform_rule m = Some (rule_text a k) -> last_group p x gs <> None -> 1 <= k <= 9 ->
    fits (general m) e -> ~ fits (general m) (a ++ text_or_none (group x gs k) ++ rest) ->
    first_step m e e None
| F_rule : forall p x rest gs a k g, md_national_prefix_for_parsing m = Some p -> found p e x rest gs ->
    md_national_prefix_transform_rule m = Some (rule_text a k) -> last_group p x gs <> None -> 1 <= k <= 9 ->
    ~ fits (general m) e \/ fits (general m) (a ++ text_or_none (group x gs k) ++ rest) ->
    group x gs 1 = Some g ->
    first_step m e (a ++ text_or_none (group x gs k) ++ rest) (Some g).
(** then the national prefix itself, if it is there *)
Definition second_step (m : metadata) (e1 e2 : str) : Prop :=
  (exists np, md_national_prefix m = Some np /\ e1 = np ++ e2)
  \/ (e2 = e1 /\ forall np, md_national_prefix m = Some np -> ~ starts e1 np).
(** not below the first length listed, unless it is a local length; no length need be listed *)
Definition not_too_short (m : metadata) (e : str) : Prop :=
  match d_possible_length (general m) with
  | [] => True
  | n :: _ => (n <= N.of_nat (length e))%N \/ In (N.of_nat (length e)) (d_possible_local_length (general m))
  end.
(** if too little is left everything is put back *)
Definition remains (m : metadata) (e e' : str) (ca : option str) : Prop :=
  exists e1 e2 c1, first_step m e e1 c1 /\ second_step m e1 e2
    /\ (not_too_short m e2 /\ e' = e2 /\ ca = c1 \/ ~ not_too_short m e2 /\ e' = e /\ ca = None).

(** the value of the digits and how many zeros they begin with, in one number *)
Definition packed (e : str) : national :=
  mk_national (N.of_nat (length e - length (strip_zeros e)) * 2 ^ 56 + value_of e).
Inductive judged (c : N) (s : source) (x : option str) (e : str) (ca : option str) : outcome perr phone -> Prop :=
| J_short : length e < 2 -> judged c s x e ca (Err TooShortNsn)
| J_long : 17 < length e -> judged c s x e ca (Err TooLong)
| J_zero : 2 <= length e <= 17 -> value_of e = 0%N -> judged c s x e ca (Err MalformedInteger)
| J_big : length e = 17 -> (2 ^ 56 <= value_of e)%N -> judged c s x e ca (Err TooLong)
| J_ok : 2 <= length e <= 17 -> (1 <= value_of e < 2 ^ 56)%N ->
    judged c s x e ca (Ok (mk_phone (mk_code c s) (packed e) x ca)).

(** the entry [o], if any, is the one whose rules count for the digits [e] *)
Inductive with_entry (c : N) (s : source) (x : option str) (e : str) : option metadata -> outcome perr phone -> Prop :=
| W_endless : forall o, 100 < length e -> with_entry c s x e o (Err TooLong)
| W_entry : forall m e' ca r, length e <= 100 -> remains m e e' ca -> judged c s x e' ca r -> with_entry c s x e (Some m) r
| W_none : forall r, length e <= 100 -> judged c s x e None r -> with_entry c s x e None r.
Definition after_code (db : database) (c : N) (s : source) (x : option str) (e : str) (r : outcome perr phone) : Prop :=
  exists o, (length e <= 100 -> forall m, o = Some m <-> responsible db c (strip_zeros e) m) /\ with_entry c s x e o r.

(** *** Digits that begin with a calling code *)
Inductive international (db : database) (s : source) (x : option str) (d : str) : outcome perr phone -> Prop :=
| I_few : length d < 3 -> international db s x d (Err TooShortNsn)
| I_unknown : 3 <= length d -> (forall c, by_code db c <> None -> ~ starts d (dec c)) ->
    international db s x d (Err InvalidCountryCode)
| I_known : forall c e r, 3 <= length d -> by_code db c <> None -> d = dec c ++ e -> after_code db c s x e r ->
    international db s x d r.

(** *** Digits [d], with or without a sign *)
(** the dialling prefix is taken off, unless a zero follows *)
Definition dialled (db : database) (country : option id) (d d' : str) : Prop :=
  exists r x gs, dial_prefix db country r /\ found r d x d' gs /\ ~ starts d' (lit "0").
(** the digits are, as they stand, of a shape and length the general description allows *)
Definition as_it_stands (m : metadata) (d : str) : Prop := d_possible_length (general m) <> [] /\ fits (general m) d.
Inductive number (db : database) (country : option id) (signed : bool) (x : option str) (d : str) : outcome perr phone -> Prop :=
| D_dialled : forall d' r, dialled db country d d' ->
    international db (if signed then SrcPlus else SrcIdd) x d' r -> number db country signed x d r
| D_signed : forall r, (forall d', ~ dialled db country d d') -> signed = true ->
    international db SrcPlus x d r -> number db country signed x d r
| D_nowhere : (forall d', ~ dialled db country d d') -> signed = false -> country = None ->
    number db country signed x d (Err InvalidCountryCode)
| D_code : forall i m e r, (forall d', ~ dialled db country d d') -> signed = false -> country = Some i ->
    by_id db (id_name i) = Some m -> d = dec (md_country_code m) ++ e -> ~ as_it_stands m d ->
    after_code db (md_country_code m) SrcNumber x e r -> number db country signed x d r
| D_plain : forall i m r, (forall d', ~ dialled db country d d') -> signed = false -> country = Some i ->
    by_id db (id_name i) = Some m -> ~ starts d (dec (md_country_code m)) \/ as_it_stands m d ->
    with_entry (md_country_code m) SrcDefault x d (Some m) r -> number db country signed x d r.

(** *** A calling code [k] that stands apart from the digits [d] *)
Inductive coded (db : database) (x : option str) (k d : str) : outcome perr phone -> Prop :=
| K_few : length d < 3 -> coded db x k d (Err TooShortNsn)
| K_malformed : 3 <= length d -> k = [] \/ (65535 < value_of k)%N -> coded db x k d (Err MalformedInteger)
| K_unknown : 3 <= length d -> k <> [] -> (value_of k <= 65535)%N -> by_code db (value_of k) = None ->
    coded db x k d (Err InvalidCountryCode)
| K_known : forall r, 3 <= length d -> k <> [] -> by_code db (value_of k) <> None ->
    after_code db (value_of k) SrcPlus x d r -> coded db x k d r.

(** *** Any text *)
Inductive gives (db : database) (country : option id) (s : str) : outcome perr phone -> Prop :=
| P_unread : reads s None -> gives db country s (Err NoNumber)
| P_not_viable : forall k n x, reads s (Some (k, n, x)) -> ~ viable_grammar n -> gives db country s (Err NoNumber)
| P_number : forall n x r, reads s (Some (None, n, x)) -> viable_grammar n ->
    number db country (match sign n with [] => false | _ => true end) (option_map (digits_of n) x) (digits_of n n) r ->
    gives db country s r
| P_coded : forall k n x r, reads s (Some (Some k, n, x)) -> viable_grammar n ->
    coded db (option_map (digits_of n) x) (digits_of n k) (digits_of n n) r -> gives db country s r.

(** ** Databases for which this is exact *)
Definition entry_tame (m : metadata) : bool :=
  let opt (o : option regex) := match o with Some r => good_pattern r | None => true end in
  if opt (md_international_prefix m) then
  if opt (md_national_prefix_for_parsing m) then
  if match md_national_prefix m with Some np => length np <=? 30 | None => true end then
  if match md_national_prefix_transform_rule m with Some t => length t <=? 100 | None => true end then
  match d_possible_length (general m) with
  | [] => true
  | n :: l => forallb (fun k => if N.leb n k then N.leb k (last (n :: l) 0%N) else false) (n :: l) && N.leb (last (n :: l) 0%N) 90
  end
  else false else false else false else false.
Record tame (db : database) : Prop := {
  t_regular : PropsValid.regular db;
  t_rules : rules_shaped db;
  t_codes : forall c, by_code db c <> None -> (1 <= c <= 999)%N;
  t_free : forall c1 c2 rest, by_code db c1 <> None -> by_code db c2 <> None -> dec c2 = dec c1 ++ rest -> rest = [];
  t_ids : forall i m, by_id db (id_name i) = Some m -> (md_country_code m < 2 ^ 16)%N;
  t_entries : forall m, db_has db m -> entry_tame m = true }.

(** ** Proofs: what the parser does satisfies the specification *)
Lemma zeros_count : forall e, length e - length (strip_zeros e) = count_zeros e.
Proof.
  assert (B : forall e, length (strip_zeros e) <= length e).
  { induction e as [|c e IH]; [reflexivity|]. cbn [strip_zeros length]. destruct (N.eqb c 48); cbn [length]; lia. }
  induction e as [|c e IH]; [reflexivity|]. cbn [strip_zeros count_zeros length]. specialize (B e).
  destruct (N.eqb c 48); [lia|]. cbn [length]. lia.
Qed.
Lemma judged_finish : forall c s x e ca p, digits e = true -> parse_u16 p = Some c ->
  judged c s x e ca (finish (mk_number s e (Some p) x ca)).
Proof.
  intros c s x e ca p De Hp. unfold finish. cbn [pn_national pn_country pn_extension pn_carrier].
  rewrite digits_blen by exact De. unfold MIN_LENGTH_FOR_NSN, MAX_LENGTH_FOR_NSN.
  destruct (Nat.ltb_spec (length e) 2); [now apply J_short|]. destruct (Nat.ltb_spec 17 (length e)); [now apply J_long|].
  unfold prefix_value. cbn [pn_prefix]. rewrite Hp. cbn [ok_or obind].
  destruct (leading_zeros e) as (t & Et & Ht). pose proof (zeros_count e) as Z. set (k := count_zeros e) in *.
  assert (Dt : digits t = true). { rewrite Et, digits_app in De. now apply andb_true_iff in De. }
  assert (Vt : digits_val t = value_of e). { change (value_of e) with (digits_val e). rewrite Et. symmetry. apply digits_val_zeros. }
  destruct t as [|c0 t].
  - rewrite app_nil_r in Et. rewrite Et at 2. rewrite nn_parse_zeros. cbn [obind]. apply J_zero; [lia|]. now rewrite <- Vt.
  - assert (Hk : k < 256) by (rewrite Et, app_length, repeat_length in *; lia).
    rewrite Et at 2. unfold nn_parse. rewrite count_zeros_repeat by exact Ht. rewrite slice_from_repeat0. cbn [unwrap obind].
    assert (L17 : (value_of e < 10 ^ N.of_nat (length e))%N) by (rewrite value_digits; now apply digits_val_lt_pow).
    assert (L18 : (value_of e < 100000000000000000)%N).
    { assert (10 ^ N.of_nat (length e) <= 10 ^ 17)%N by (apply N.pow_le_mono_r; lia). change (10 ^ 17)%N with 100000000000000000%N in *. lia. }
    unfold parse_u64. rewrite parse_uint_digits; [|exact Dt|discriminate|rewrite Vt; change (value_of e <= 18446744073709551615)%N; lia].
    cbn [ok_or obind]. unfold nn_new. rewrite Vt. change two56 with (2 ^ 56)%N.
    destruct (N.leb_spec (2 ^ 56) (value_of e)) as [Hv|Hv]; cbn [obind].
    + apply J_big; [|exact Hv]. destruct (Nat.eq_dec (length e) 17); [easy|]. exfalso.
      assert (10 ^ N.of_nat (length e) <= 10 ^ 16)%N by (apply N.pow_le_mono_r; lia).
      change (10 ^ 16)%N with 10000000000000000%N in *. change (2 ^ 56)%N with 72057594037927936%N in Hv. lia.
    + assert (E : mk_national (N.lor (N.shiftl (as_u8 k) 56) (value_of e)) = packed e).
      { unfold packed. f_equal. rewrite lor_disjoint by exact Hv. rewrite Z. do 2 f_equal. unfold as_u8. rewrite N.mod_small; [reflexivity|]. lia. }
      rewrite E. apply J_ok; [lia|]. split; [|exact Hv].
      rewrite <- Vt, digits_val_dv. cbn [dv fold_left]. change (fold_left _ t ?a) with (dv a t).
      rewrite dv_acc. cbn [digits forallb] in Dt. apply andb_true_iff in Dt as [D0 _]. apply is_digit_spec in D0.
      assert (10 ^ N.of_nat (length t) <> 0)%N by (apply N.pow_nonzero; lia). nia.
Qed.

Lemma entry_tame_use : forall m, entry_tame m = true ->
  (forall r, md_international_prefix m = Some r -> good_pattern r = true)
  /\ (forall r, md_national_prefix_for_parsing m = Some r -> good_pattern r = true)
  /\ (forall np, md_national_prefix m = Some np -> length np <= 30)
  /\ (forall t, md_national_prefix_transform_rule m = Some t -> length t <= 100)
  /\ (forall n l, d_possible_length (general m) = n :: l -> forall k, In k (n :: l) -> (n <= k <= last (n :: l) 0)%N /\ (k <= 90)%N).
Proof.
  intros m H. unfold entry_tame in H. cbv zeta in H.
  destruct (md_international_prefix m) as [r1|]; [destruct (good_pattern r1) eqn:G1; [|discriminate]|];
  (destruct (md_national_prefix_for_parsing m) as [r2|]; [destruct (good_pattern r2) eqn:G2; [|discriminate]|]);
  (destruct (match md_national_prefix m with Some np => length np <=? 30 | None => true end) eqn:G3; [|discriminate]);
  (destruct (match md_national_prefix_transform_rule m with Some t => length t <=? 100 | None => true end) eqn:G4; [|discriminate]);
  (split; [intros r E; inversion E; subst; try assumption|]);
  (split; [intros r E; inversion E; subst; try assumption|]);
  (split; [intros np E; rewrite E in G3; now apply Nat.leb_le in G3|]);
  (split; [intros np E; rewrite E in G4; now apply Nat.leb_le in G4|]);
  (intros n l E k I; rewrite E in H; apply andb_true_iff in H as [H1 H2]; rewrite forallb_forall in H1; apply H1 in I;
   apply N.leb_le in H2; destruct (N.leb_spec n k); [|discriminate]; apply N.leb_le in I; lia).
Qed.

Lemma cap_text_length : forall p e mr k c, re_find p e = Some mr -> mr_pre mr = [] -> cap_get mr (S k) = Some c ->
  length (cap_text c) <= length (mr_text mr) /\ (digits (mr_text mr) = true -> digits (cap_text c) = true).
Proof.
  intros p e mr k c Hf Hp Hc. destruct (cap_took_part p e mr (S k) c Hf Hp ltac:(lia) Hc) as (r & b & d & E & _).
  rewrite E, !app_length, !digits_app. split; [lia|]. intros H. apply andb_true_iff in H as [_ H]. now apply andb_true_iff in H.
Qed.

Lemma first_sound : forall E m s e p x n', entry_tame m = true -> digits e = true ->
  (forall tr, md_national_prefix_transform_rule m = Some tr -> exists a k, tr = rule_text a k /\ all_digits a /\ 1 <= k <= 9) ->
  @national_number E m (mk_number s e (Some p) x None) = Ok n' ->
  exists e1 ca, n' = mk_number s e1 (Some p) x ca /\ digits e1 = true /\ length e <= length e1 + 30 /\ length e1 <= length e + 100
    /\ (length e <= 100 -> first_step m e e1 ca).
Proof.
  intros E m s e p x n' T De Hr H. destruct (entry_tame_use m T) as (_ & Tp & Tn & Tt & _).
  unfold national_number in H. cbn [pn_national] in H.
  destruct (md_national_prefix_for_parsing m) as [q|] eqn:Eq.
  - specialize (Tp q eq_refl). destruct (re_find q e) as [mr|] eqn:Ef.
    2:{ inversion H; subst n'. exists e, None. repeat (split; [auto; lia|]). intros _. apply (F_unmatched m e q); [exact Eq|].
        intros (t & a & -> & L). eapply re_find_none in Ef. apply Ef. exists [], t, a. auto. }
    pose proof Ef as F. apply re_find_some in F as (F1 & F2 & F3).
    destruct (Nat.eqb_spec (mr_start mr) 0) as [E0|E0]; cbn [negb] in H.
    2:{ inversion H; subst n'. exists e, None. repeat (split; [auto; lia|]). intros _. apply (F_unmatched m e q); [exact Eq|].
        intros (t & a & Et & L). apply E0. apply Nat.eqb_eq, mr_start_0. destruct (mr_pre mr) as [|z zs] eqn:Ez; [reflexivity|].
        exfalso. apply (F3 [] z zs t a); auto. }
    assert (Hp : mr_pre mr = []) by (apply mr_start_0, Nat.eqb_eq; exact E0).
    rewrite Hp in F1. cbn [app] in F1.
    destruct (find_found q e mr Tp De Ef Hp) as (gs & Fd & Gs & L30).
    assert (LG : option_map cap_text (cap_get mr (re_captures_len q - 1)) = last_group q (mr_text mr) gs).
    { unfold re_captures_len, last_group. replace (S (re_ngroups q) - 1) with (re_ngroups q) by lia. apply Gs. }
    assert (Le : length e = length (mr_text mr) + length (mr_post mr)) by (rewrite F1 at 1; apply app_length).
    assert (Dxr : digits (mr_text mr) = true /\ digits (mr_post mr) = true) by (rewrite F1, digits_app in De; now apply andb_true_iff in De).
    destruct Dxr as [Dx Dr].
    assert (Plain :
      (let* tail := unwrap (slice_from e (mr_start mr)) in
       if d_is_match (ds_general (md_descriptors m)) e && negb (d_is_match (ds_general (md_descriptors m)) tail)
       then Ok (mk_number s e (Some p) x None)
       else let* t := trim e (mr_end mr) in
         Ok (set_national (set_carrier (mk_number s e (Some p) x None)
           (if 0 <? re_captures_len q then option_map cap_text (cap_get mr (re_captures_len q - 1)) else None)) t)) = @Ok E _ n' ->
      md_national_prefix_transform_rule m = None \/ last_group q (mr_text mr) gs = None ->
      exists e1 ca, n' = mk_number s e1 (Some p) x ca /\ digits e1 = true /\ length e <= length e1 + 30 /\ length e1 <= length e + 100
        /\ (length e <= 100 -> first_step m e e1 ca)).
    { intros K C. rewrite E0 in K. rewrite slice_from_0 in K. cbn [unwrap obind] in K. rewrite andb_negb_r in K.
      unfold trim in K. rewrite (slice_from_end _ _ _ Ef) in K. cbn [unwrap obind] in K. rewrite LG in K.
      change (0 <? re_captures_len q) with true in K. cbv iota in K. inversion K; subst n'.
      exists (mr_post mr), (last_group q (mr_text mr) gs). split; [reflexivity|]. split; [exact Dr|]. split; [lia|]. split; [lia|].
      intros _. now apply (F_off m e q (mr_text mr) (mr_post mr) gs). }
    rewrite LG in H.
    destruct (md_national_prefix_transform_rule m) as [tr|] eqn:Etr; [|apply Plain; [rewrite LG; exact H|now left]].
    destruct (last_group q (mr_text mr) gs) as [lc|] eqn:El; [|apply Plain; [rewrite LG; exact H|now right]].
    destruct (Hr tr eq_refl) as (a & k & Ht & Ha & Hk). specialize (Tt tr eq_refl).
    assert (La : length a <= 98). { rewrite Ht in Tt. unfold rule_text in Tt. rewrite app_length in Tt. cbn [length] in Tt. lia. }
    assert (Rep : re_replace q e tr = a ++ text_or_none (group (mr_text mr) gs k) ++ mr_post mr).
    { destruct (simple_rule a k Ha Hk) as [S Fl]. unfold re_replace. rewrite Ef, Hp, Ht. cbn [app].
      rewrite (expand_fill _ _ S), Fl, <- app_assoc. f_equal. f_equal. rewrite <- Gs. unfold ref_text, text_or_none.
      destruct (cap_get mr k); reflexivity. }
    assert (Lg : length (text_or_none (group (mr_text mr) gs k)) <= 30 /\ digits (text_or_none (group (mr_text mr) gs k)) = true).
    { rewrite <- Gs. destruct k as [|k]; [lia|]. destruct (cap_get mr (S k)) as [c|] eqn:Ec; cbn [option_map text_or_none length]; [|split; [lia|reflexivity]].
      destruct (cap_text_length _ _ _ _ _ Ef Hp Ec) as [K1 K2]. split; [lia|auto]. }
    destruct Lg as [Lg Dg].
    assert (D1 : digits (re_replace q e tr) = true).
    { rewrite Rep, !digits_app, Dg, Dr. apply all_digits_iff in Ha. now rewrite Ha. }
    assert (L1 : length (mr_post mr) <= length (re_replace q e tr)) by (rewrite Rep, !app_length; clear; lia).
    assert (L2 : length (re_replace q e tr) <= length e + 98).
    { rewrite Rep, !app_length. rewrite <- Gs. destruct k as [|k]; [clear - Hk; lia|].
      destruct (cap_get mr (S k)) as [c|] eqn:Ec; cbn [option_map text_or_none length]; [|clear - La Le; lia].
      destruct (cap_text_length _ _ _ _ _ Ef Hp Ec) as [K1 _]. clear - K1 La Le. lia. }
    assert (L3 : length e <= length (re_replace q e tr) + 30) by (clear - L1 L30 Le; lia).
    assert (L4 : length (re_replace q e tr) <= length e + 100) by (clear - L2; lia).
    assert (L5 : length e <= 100 -> length e < 1000 /\ length (re_replace q e tr) < 1000) by (clear - L2; lia).
    destruct (d_is_match (ds_general (md_descriptors m)) e && negb (d_is_match (ds_general (md_descriptors m)) (re_replace q e tr))) eqn:Ev.
    + inversion H; subst n'. exists e, None. split; [reflexivity|]. split; [exact De|]. split; [apply Nat.le_add_r|]. split; [apply Nat.le_add_r|]. intros Hle. destruct (L5 Hle) as [L6 L7].
      apply andb_true_iff in Ev as [V1 V2]. apply negb_true_iff in V2.
      apply (F_idle m e q (mr_text mr) (mr_post mr) gs a k); auto; [now rewrite <- Ht|unfold last_group in *; congruence| |].
      * apply fits_iff in V1; [exact V1|exact De|exact L6].
      * rewrite <- Rep. intros K. apply fits_iff in K; [|exact D1|exact L7]. unfold general in K. congruence.
    + apply obind_ok in H as (f & Hf & H). inversion H; subst n'. rewrite Gs in Hf.
      destruct (group (mr_text mr) gs 1) as [g|] eqn:Eg; [|discriminate]. cbn [unwrap] in Hf. inversion Hf; subst g.
      exists (re_replace q e tr), (Some f). split; [reflexivity|]. split; [exact D1|]. split; [exact L3|]. split; [exact L4|]. intros Hle. destruct (L5 Hle) as [L6 L7].
      rewrite Rep. apply (F_rule m e q (mr_text mr) (mr_post mr) gs a k f); auto; [now rewrite <- Ht|unfold last_group in *; congruence|].
      rewrite <- Rep. apply andb_false_iff in Ev as [Ev|Ev].
      * left. intros K. apply fits_iff in K; [|exact De|exact L6]. unfold general in K. congruence.
      * right. apply negb_false_iff in Ev. apply fits_iff in Ev; [exact Ev|exact D1|exact L7].
  - destruct (md_national_prefix m) as [np|] eqn:En.
    2:{ inversion H; subst n'. exists e, None. repeat (split; [auto; lia|]). intros _. apply F_none; [exact Eq|]. congruence. }
    destruct (starts_with e np) eqn:Es.
    + specialize (Tn np eq_refl). apply starts_with_spec in Es as (t & Es). unfold trim in H. rewrite Es, slice_from_app in H. cbn [unwrap obind] in H.
      inversion H; subst n'. exists t, None. split; [reflexivity|].
      split; [rewrite Es, digits_app in De; now apply andb_true_iff in De|]. rewrite Es, app_length. split; [lia|]. split; [lia|].
      intros _. apply (F_prefix m _ np t); auto.
    + inversion H; subst n'. exists e, None. repeat (split; [auto; lia|]). intros _. apply F_none; [exact Eq|].
      intros y Ey (r & Er). rewrite En in Ey. inversion Ey; subst y. rewrite (proj2 (starts_with_spec _ _)) in Es; [discriminate|eauto].
Qed.

Lemma too_short_iff : forall m e, digits e = true -> length e < 1000 -> (v_length m e TUnknown <> TooShort <-> not_too_short m e).
Proof.
  intros m e De Hl. rewrite long_enough_iff by exact De. unfold long_enough, not_too_short. cbv zeta.
  rewrite N.mod_small by lia. reflexivity.
Qed.

Lemma remains_sound : forall m s e p x n', entry_tame m = true -> digits e = true ->
  (forall tr, md_national_prefix_transform_rule m = Some tr -> exists a k, tr = rule_text a k /\ all_digits a /\ 1 <= k <= 9) ->
  strip_national (Some m) (mk_number s e (Some p) x None) = Ok n' ->
  exists e' ca, n' = mk_number s e' (Some p) x ca /\ digits e' = true /\ length e <= length e' + 60 /\ (length e <= 100 -> remains m e e' ca).
Proof.
  intros m s e p x n' T De Hr H. destruct (entry_tame_use m T) as (_ & _ & Tn & _ & _). cbn [strip_national] in H.
  apply obind_ok in H as (n1 & H1 & H). apply first_sound in H1 as (e1 & ca & -> & D1 & B1 & B2 & F); [|assumption..].
  apply obind_ok in H as (n2 & H2 & H).
  assert (S : exists e2, n2 = mk_number s e2 (Some p) x ca /\ second_step m e1 e2 /\ digits e2 = true /\ length e1 <= length e2 + 30 /\ length e2 <= length e1).
  { unfold second_step. destruct (md_national_prefix m) as [np|].
    2:{ inversion H2; subst. exists e1. split; [reflexivity|]. split; [|split; [exact D1|lia]]. right. split; [reflexivity|discriminate]. }
    specialize (Tn np eq_refl). cbn [pn_national] in H2. destruct (starts_with e1 np) eqn:Es.
    - apply starts_with_spec in Es as (t & Es). unfold trim in H2. rewrite Es, slice_from_app in H2. cbn [unwrap obind] in H2.
      inversion H2; subst n2. exists t. split; [reflexivity|]. split; [left; eauto|].
      split; [rewrite Es, digits_app in D1; now apply andb_true_iff in D1|]. rewrite Es, app_length. lia.
    - inversion H2; subst n2. exists e1. split; [reflexivity|]. split; [|split; [exact D1|lia]]. right. split; [reflexivity|].
      intros y Ey (r & Er). inversion Ey; subst y. rewrite (proj2 (starts_with_spec _ _)) in Es; [discriminate|eauto]. }
  destruct S as (e2 & -> & S & D2 & B3 & B4). cbn [pn_national] in H. pose proof (too_short_iff m e2 D2) as L.
  assert (K : (v_length m e2 TUnknown <> TooShort /\ n' = mk_number s e2 (Some p) x ca)
              \/ (v_length m e2 TUnknown = TooShort /\ n' = mk_number s e (Some p) x None)).
  { destruct (v_length m e2 TUnknown); inversion H; subst n'; auto; left; (split; [discriminate|reflexivity]). }
  destruct K as [[K ->]|[K ->]].
  - exists e2, ca. split; [reflexivity|]. split; [exact D2|]. split; [lia|]. intros Hle. exists e1, e2, ca. split; [auto|]. split; [exact S|].
    left. split; [|auto]. apply L; [lia|exact K].
  - exists e, None. split; [reflexivity|]. split; [exact De|]. split; [lia|]. intros Hle. exists e1, e2, ca. split; [auto|]. split; [exact S|].
    right. split; [|auto]. intros K'. apply L in K'; [|lia]. now apply K'.
Qed.

Definition tail_of (o : option metadata) (n : Number.number) : outcome perr phone := let* n' := strip_national o n in finish n'.
Lemma entry_sound : forall db o s e p c x, tame db -> (forall m, o = Some m -> db_has db m) -> digits e = true -> parse_u16 p = Some c ->
  tail_of o (mk_number s e (Some p) x None) <> Panic ->
  with_entry c s x e o (tail_of o (mk_number s e (Some p) x None)).
Proof.
  intros db o s e p c x T Ho De Hp HP. unfold tail_of in *.
  assert (Long : forall e' ca, length e <= length e' + 60 -> digits e' = true -> 100 < length e ->
    finish (mk_number s e' (Some p) x ca) = Err TooLong).
  { intros e' ca B D' B'. pose proof (judged_finish c s x e' ca p D' Hp) as J.
    inversion J; try reflexivity; exfalso; lia. }
  destruct o as [m|].
  - destruct (strip_national (Some m) _) as [n'|er|] eqn:En; cbn [obind] in *; [|now apply strip_national_no_err in En|now elim HP].
    apply remains_sound in En as (e' & ca & -> & D' & B & R);
      [|apply (t_entries _ T); auto|exact De|intros tr Htr; apply (t_rules _ T m tr); auto].
    destruct (Nat.le_gt_cases (length e) 100) as [Hle|Hgt].
    + apply (W_entry c s x e m e' ca); auto. now apply judged_finish.
    + rewrite Long by assumption. now apply W_endless.
  - cbn [strip_national obind] in *. destruct (Nat.le_gt_cases (length e) 100) as [Hle|Hgt].
    + apply W_none; [exact Hle|]. now apply judged_finish.
    + rewrite Long by (try assumption; lia). now apply W_endless.
Qed.
Lemma after_sound : forall db s e p c x r, tame db -> digits e = true -> parse_u16 p = Some c ->
  r = (let* src := source_for db c (trim_start_char ch_0 e) in
       tail_of (source_meta db src) (mk_number s e (Some p) x None)) -> r <> Panic ->
  after_code db c s x e r.
Proof.
  intros db s e p c x r T De Hp -> HP.
  destruct (source_for db c (trim_start_char ch_0 e)) as [src|er|] eqn:Es; cbn [obind] in *; [|now apply source_for_no_err in Es|now elim HP].
  destruct (source_used db c e src (t_regular _ T) De Es) as [_ U].
  exists (source_meta db src). split; [intros Hle; apply U; lia|].
  apply (entry_sound db); auto. intros m Hm. eapply source_meta_has; exact Hm.
Qed.

Lemma international_sound : forall db s x d r, tame db -> digits d = true ->
  r = (if length d <=? 2 then Err TooShortNsn
       else if starts_with d [ch_0] then Err InvalidCountryCode
       else match code_len db d with
            | None => Err InvalidCountryCode
            | Some k => let* src := source_for db (digits_val (firstn k d)) (trim_start_char ch_0 (skipn k d)) in
                        tail_of (source_meta db src) (mk_number s (skipn k d) (Some (dec (digits_val (firstn k d)))) x None)
            end) -> r <> Panic -> international db s x d r.
Proof.
  intros db s x d r T Dd -> HP. destruct (Nat.leb_spec (length d) 2); [apply I_few; lia|].
  destruct d as [|y d]; [cbn in *; lia|]. destruct (starts_with (y :: d) [ch_0]) eqn:E0.
  { apply I_unknown; [lia|]. intros c K (rest & E). pose proof (t_codes _ T c K).
    assert (Hz : c <> 0%N) by lia. destruct (dec_head _ Hz) as (z & t & Ed & Hy). rewrite Ed in E. cbn in E. inversion E; subst.
    cbn [starts_with] in E0. destruct (N.eqb_spec z ch_0); [easy|discriminate]. }
  assert (Hy : y <> 48%N). { intros ->. destruct d; discriminate E0. }
  pose proof (code_len_spec db y d Dd Hy) as S. destruct (code_len db (y :: d)) as [k|].
  2:{ apply I_unknown; [lia|]. intros c K (rest & E). pose proof (t_codes _ T c K). apply (S c rest K); [lia|exact E]. }
  destruct S as (Hk & c & Kc & Hc & Ec & Es & _). rewrite <- Ec in *. set (e := skipn k (y :: d)) in *.
  assert (De : digits e = true). { rewrite Es, digits_app in Dd. now apply andb_true_iff in Dd. }
  apply (I_known db s x (y :: d) c e); [lia|exact Kc|exact Es|].
  apply (after_sound db s e (dec c) c x); auto. apply parse_uint_dec. unfold u16_max. lia.
Qed.

Definition at_start (db : database) (country : option id) (n : Number.number) : outcome perr phone :=
  let* n := strip_idd (idd_of db country) n in
  let* n := match pn_country n with
    | SrcPlus | SrcIdd | SrcNumber =>
        if blen (pn_national n) <=? MIN_LENGTH_FOR_NSN then Err TooShortNsn
        else match pn_prefix n with
          | Some p => let* prefix := ok_or (parse_u16 p) MalformedInteger in
                      match by_code db prefix with None => Err InvalidCountryCode | Some _ => Ok n end
          | None => if starts_with (pn_national n) [ch_0] then Err InvalidCountryCode
                    else find_code db n (seq 1 MAX_LENGTH_FOR_COUNTRY_CODE)
          end
    | SrcDefault =>
        match country with
        | None => Err InvalidCountryCode
        | Some c =>
            let* meta := unwrap (by_id db (id_name c)) in
            let code := dec (md_country_code meta) in
            let* n :=
              if starts_with (pn_national n) code
                 && (negb (d_is_match (ds_general (md_descriptors meta)) (pn_national n))
                     || negb (is_possible (v_length meta (pn_national n) TUnknown)))
              then let* t := trim (pn_national n) (blen code) in Ok (set_national (set_country n SrcNumber) t)
              else Ok n in
            Ok (set_prefix n (Some code))
        end
    end in
  let* meta := select_meta db country n in tail_of meta n.
Lemma number_start : forall db country s n x, reads s (Some (None, n, x)) -> viable_grammar n ->
  parse_with db country s =
  at_start db country (mk_number (match sign n with [] => SrcDefault | _ => SrcPlus end) (digits_of n n) None (option_map (digits_of n) x) None).
Proof.
  intros db country s n x R G. apply reads_parts in R. pose proof (proj2 (C14_viable_iff_grammar n) G) as V.
  unfold parse_with, at_start, tail_of. rewrite R. cbn [obind pn_national]. rewrite V. cbn [negb].
  unfold country_code. fold (idd_of db country). unfold international_prefix. cbn [pn_prefix pn_national]. fold (choose_mappings n).
  rewrite ignore_plus_len_0. destruct (starts_plus n) eqn:Sp.
  - rewrite (sign_starts n Sp). change (match lit "+" with [] => SrcDefault | _ => SrcPlus end) with SrcPlus.
    unfold trim at 1. rewrite slice_from_plus. cbn [unwrap obind].
    unfold normalize, set_national, set_country. cbn [pn_country pn_national pn_prefix pn_extension pn_carrier option_map].
    rewrite act_digits_of, digits_of_span by exact V.
    replace (option_map (act (choose_mappings n)) x) with (option_map (digits_of n) x)
      by (destruct x; cbn [option_map]; [now rewrite act_digits_of|reflexivity]).
    match goal with |- context [if negb ?b then Ok ?k else strip_idd ?i ?k] =>
      assert (E : (if negb b then Ok k else @strip_idd perr i k) = strip_idd i k) end.
    { destruct (found_at_start _) eqn:F; [reflexivity|]. cbn [negb]. unfold strip_idd. cbn [pn_national].
      destruct (idd_of db country) as [r|]; [|reflexivity]. destruct (re_find r (digits_of n n)) as [mr|]; [|reflexivity].
      unfold found_at_start in F. now rewrite F. }
    rewrite E. destruct (strip_idd _ _); reflexivity.
  - rewrite (sign_none n Sp). cbv iota. cbn [negb].
    unfold normalize, set_national, set_country. cbn [pn_country pn_national pn_prefix pn_extension pn_carrier option_map].
    rewrite act_digits_of by exact V.
    replace (option_map (act (choose_mappings n)) x) with (option_map (digits_of n) x)
      by (destruct x; cbn [option_map]; [now rewrite act_digits_of|reflexivity]).
    destruct (strip_idd _ _); reflexivity.
Qed.

Lemma good_dial : forall db country r, tame db -> dial_prefix db country r -> good_pattern r = true.
Proof.
  intros db [i|] r T H; cbn in H.
  - destruct H as (m & Hm & Hr). assert (E : entry_tame m = true) by (apply (t_entries _ T); left; eauto).
    exact (proj1 (entry_tame_use m E) r Hr).
  - subst r. vm_compute. reflexivity.
Qed.
Lemma strip_idd_sound : forall db country s d x, tame db -> digits d = true ->
  (@strip_idd perr (idd_of db country) (mk_number s d None x None) = Ok (mk_number s d None x None) /\ forall d', ~ dialled db country d d')
  \/ exists d', dialled db country d d' /\ digits d' = true
       /\ @strip_idd perr (idd_of db country) (mk_number s d None x None)
          = Ok (mk_number (match s with SrcPlus => SrcPlus | _ => SrcIdd end) d' None x None).
Proof.
  intros db country s d x T Dd.
  assert (U : forall r, dial_prefix db country r -> idd_of db country = Some r) by (intros; now apply dial_prefix_idd).
  destruct (idd_of db country) as [r|] eqn:Er.
  2:{ left. split; [reflexivity|]. intros d' (r & y & gs & Hr & _). apply U in Hr. discriminate. }
  assert (Hr : dial_prefix db country r).
  { unfold idd_of in Er. destruct country as [c|]; cbn.
    - destruct (by_id db (id_name c)) as [m|]; [|discriminate]. exists m. destruct (md_international_prefix m); [|discriminate]. now inversion Er.
    - now inversion Er. }
  pose proof (good_dial db country r T Hr) as G.
  unfold strip_idd. cbn [pn_national]. destruct (re_find r d) as [mr|] eqn:Ef.
  2:{ left. split; [reflexivity|]. intros d' (r' & y & gs & H' & F & _). apply U in H'. inversion H'; subst r'.
      apply found_prefix in F as (t & a & E & L). apply re_find_none in Ef. apply Ef. exists [], t, a. auto. }
  pose proof (re_find_some _ _ _ Ef) as (F1 & F2 & F3). destruct (Nat.eqb_spec (mr_start mr) 0) as [E0|E0].
  2:{ left. split; [reflexivity|]. intros d' (r' & y & gs & H' & F & _). apply U in H'. inversion H'; subst r'.
      apply found_prefix in F as (t & a & E & L).
      apply E0. apply Nat.eqb_eq, mr_start_0. destruct (mr_pre mr) as [|z zs] eqn:Ez; [reflexivity|].
      exfalso. apply (F3 [] z zs t a); auto. }
  assert (Hp : mr_pre mr = []) by (apply mr_start_0, Nat.eqb_eq; exact E0). rewrite Hp in F1. cbn [app] in F1.
  destruct (find_found r d mr G Dd Ef Hp) as (gs & Fd & _ & _).
  rewrite (slice_from_end _ _ _ Ef). cbn [unwrap obind]. destruct (starts_with (mr_post mr) [ch_0]) eqn:Es.
  - left. split; [reflexivity|]. intros d' (r' & y & gs' & H' & F & N). apply U in H'. inversion H'; subst r'.
    destruct (found_once r d _ _ _ _ _ _ G Dd F Fd) as (_ & Ep & _). apply N.
    apply starts_with_spec in Es as (rest & Es). exists rest. rewrite <- Ep. exact Es.
  - right. exists (mr_post mr). split.
    { exists r, (mr_text mr), gs. split; [exact Hr|]. split; [exact Fd|]. intros (rest & E). change (lit "0") with [ch_0] in E.
      rewrite E, starts_with_app in Es. discriminate. }
    split; [rewrite F1, digits_app in Dd; now apply andb_true_iff in Dd|].
    unfold trim. rewrite (slice_from_end _ _ _ Ef). cbn [unwrap obind pn_country]. destruct s; reflexivity.
Qed.

Lemma as_it_stands_iff : forall m d, entry_tame m = true -> digits d = true -> length d < 1000 ->
  (written_out m d <-> as_it_stands m d).
Proof.
  intros m d T Dd Hl. destruct (entry_tame_use m T) as (_ & _ & _ & _ & Tl).
  unfold written_out, as_it_stands, fits, general_pattern. cbv zeta. rewrite N.mod_small by lia.
  change (ds_general (md_descriptors m)) with (general m). split.
  - intros (M & n & ls & E & I & _). rewrite E. split; [discriminate|]. auto.
  - intros (Ne & [K|K] & M); [contradiction|]. split; [exact M|].
    destruct (d_possible_length (general m)) as [|n ls] eqn:E; [contradiction|]. exists n, ls. split; [reflexivity|]. split; [exact K|].
    right. left. apply (Tl n ls eq_refl). exact K.
Qed.
Lemma not_as_it_stands_long : forall m d, entry_tame m = true -> 100 < length d -> ~ as_it_stands m d.
Proof.
  intros m d T Hl (Ne & [K|K] & _); [contradiction|]. destruct (entry_tame_use m T) as (_ & _ & _ & _ & Tl).
  destruct (d_possible_length (general m)) as [|n ls]; [contradiction|]. apply (Tl n ls eq_refl) in K. lia.
Qed.
Lemma after_long : forall db c s x e r, after_code db c s x e r -> 100 < length e -> r = Err TooLong.
Proof. intros db c s x e r (o & _ & H) Hl. inversion H; [reflexivity|exfalso; lia..]. Qed.
Lemma entry_long : forall c s x e o r, with_entry c s x e o r -> 100 < length e -> r = Err TooLong.
Proof. intros c s x e o r H Hl. inversion H; [reflexivity|exfalso; lia..]. Qed.
Lemma after_endless : forall db c s x e, 100 < length e -> after_code db c s x e (Err TooLong).
Proof. intros. exists None. split; [intros; exfalso; lia|now constructor]. Qed.
Lemma dec_short : forall c, (c < 2 ^ 16)%N -> length (dec c) <= 5.
Proof.
  intros c H. destruct (N.eq_dec c 0) as [->|Hz]; [rewrite dec_0; cbn; lia|].
  destruct (Nat.le_gt_cases (length (dec c)) 5) as [|G]; [assumption|]. exfalso.
  pose proof (digits_val_dec c) as V. destruct (dec_head _ Hz) as (z & t & E & Hz0). rewrite E in *.
  rewrite digits_val_dv in V. cbn [dv fold_left] in V. change (fold_left _ t ?a) with (dv a t) in V. rewrite dv_acc in V.
  pose proof (digits_dec c) as D. rewrite E in D. cbn [digits forallb] in D. apply andb_true_iff in D as [D _]. apply is_digit_spec in D.
  cbn [length] in G. assert (10 ^ 5 <= 10 ^ N.of_nat (length t))%N by (apply N.pow_le_mono_r; lia).
  change (10 ^ 5)%N with 100000%N in *. change (2 ^ 16)%N with 65536%N in H. unfold ch_0 in *. nia.
Qed.

Lemma number_sound : forall db country (signed : bool) d x r, tame db -> digits d = true -> odigits x = true ->
  r = at_start db country (mk_number (if signed then SrcPlus else SrcDefault) d None x None) -> r <> Panic ->
  number db country signed x d r.
Proof.
  intros db country signed d x r T Dd Dx -> HP. unfold at_start in *.
  assert (Inter : forall s d', s <> SrcDefault -> digits d' = true ->
    let r := (let* n := if blen d' <=? MIN_LENGTH_FOR_NSN then Err TooShortNsn
                        else if starts_with d' [ch_0] then Err InvalidCountryCode
                        else find_code db (mk_number s d' None x None) (seq 1 MAX_LENGTH_FOR_COUNTRY_CODE) in
              let* meta := select_meta db country n in tail_of meta n) in
    r <> Panic -> international db s x d' r).
  { intros s d' Hs Dd' r HPr. subst r. eapply international_sound; [exact T|exact Dd'| |exact HPr].
    rewrite digits_blen by exact Dd'. unfold MIN_LENGTH_FOR_NSN. destruct (Nat.leb_spec (length d') 2); [reflexivity|].
    destruct (starts_with d' [ch_0]); [reflexivity|]. assert (Hs3 : 3 <= length d') by lia. rewrite find_code_spec by (try exact Hs3; now constructor).
    cbn [pn_national]. destruct (code_len db d') as [kk|] eqn:Ek; [|reflexivity]. cbn [obind].
    unfold set_prefix, set_national. cbn [pn_country pn_national pn_prefix pn_extension pn_carrier].
    assert (Hk : kk <= 3). { unfold code_len in Ek. apply find_some in Ek as [I _]. cbn in I. intuition lia. }
    assert (Hu : (digits_val (firstn kk d') <= u16_max)%N).
    { apply digits_val_3; [now apply digits_firstn|]. rewrite firstn_length. lia. }
    unfold select_meta. cbn [pn_country pn_national]. rewrite prefix_value_dec by exact Hu. cbn [obind].
    destruct country, s; try (now elim Hs); destruct (source_for _ _ _); reflexivity. }
  destruct (strip_idd_sound db country (if signed then SrcPlus else SrcDefault) d x T Dd) as [(E & Hq)|(d' & Hd & Dd' & E)];
    rewrite E in *; cbn [obind pn_country pn_national pn_prefix] in *.
  - destruct signed; [apply D_signed; auto; apply Inter; auto; discriminate|].
    destruct country as [c|]; [|cbn [obind]; now apply D_nowhere].
    destruct (by_id db (id_name c)) as [m|] eqn:Hm; cbn [unwrap obind] in *; [|now elim HP].
    assert (Hh : db_has db m) by (left; eauto). pose proof (t_entries _ T m Hh) as Tm.
    pose proof (t_ids _ T c m Hm) as H16.
    assert (Hu : (md_country_code m <= u16_max)%N) by (unfold u16_max; change (2 ^ 16)%N with 65536%N in H16; lia).
    assert (Pu : parse_u16 (dec (md_country_code m)) = Some (md_country_code m)) by now apply parse_uint_dec.
    pose proof (dec_short _ H16) as L5. set (k := dec (md_country_code m)) in *.
    match goal with |- context [negb ?a || negb ?b] => replace (negb a || negb b) with (negb (a && b)) in * by apply negb_andb end.
    pose proof (written_out_iff m d Dd) as W.
    set (w := d_is_match (ds_general (md_descriptors m)) d && is_possible (v_length m d TUnknown)) in *. clearbody w.
    assert (Coded : forall e, d = k ++ e -> forall r, r = (let* meta := select_meta db (Some c) (mk_number SrcNumber e (Some k) x None) in
       tail_of meta (mk_number SrcNumber e (Some k) x None)) -> r <> Panic -> after_code db (md_country_code m) SrcNumber x e r).
    { intros e Ed r Hr HPr. assert (De : digits e = true) by (rewrite Ed, digits_app in Dd; now apply andb_true_iff in Dd).
      apply (after_sound db SrcNumber e k (md_country_code m) x r T De Pu); [|exact HPr]. rewrite Hr.
      unfold select_meta, prefix_value. cbn [pn_country pn_national pn_prefix]. rewrite Pu. cbn [ok_or obind].
      destruct (source_for _ _ _); reflexivity. }
    assert (Plain : forall r, r = (let* meta := select_meta db (Some c) (mk_number SrcDefault d (Some k) x None) in
       tail_of meta (mk_number SrcDefault d (Some k) x None)) -> r <> Panic -> with_entry (md_country_code m) SrcDefault x d (Some m) r).
    { intros r Hr HPr. cbn [select_meta pn_country] in Hr. rewrite Hm in Hr. cbn [obind] in Hr. subst r.
      apply (entry_sound db); auto. now intros m' [= <-]. }
    destruct (starts_with d k) eqn:Es.
    + apply starts_with_spec in Es as (e & Es). cbn [andb] in HP |- *.
      assert (ET : @trim perr d (blen k) = Ok e) by (unfold trim; rewrite Es, slice_from_app; reflexivity).
      destruct w; cbn [negb] in HP |- *.
      * cbn [obind] in HP |- *. unfold set_prefix in HP |- *. cbn [pn_country pn_national pn_extension pn_carrier] in HP |- *.
        pose proof (Plain _ eq_refl HP) as P. destruct (Nat.lt_ge_cases (length d) 1000) as [Ls|Ls].
        { apply (D_plain db (Some c) false x d c m); auto. right. apply as_it_stands_iff; auto. now apply W. }
        apply (D_code db (Some c) false x d c m e); auto; [apply not_as_it_stands_long; [exact Tm|lia]|].
        assert (Lw : 100 < length d) by lia. assert (Le : length d <= length e + 5) by (rewrite Es, app_length; lia).
        rewrite (entry_long _ _ _ _ _ _ P Lw). apply after_endless. lia.
      * rewrite ET in HP |- *. cbn [obind] in HP |- *. unfold set_prefix, set_national, set_country in HP |- *.
        cbn [pn_country pn_national pn_prefix pn_extension pn_carrier] in HP |- *.
        apply (D_code db (Some c) false x d c m e); auto. intros A.
        destruct (Nat.le_gt_cases (length d) 100) as [Ls|Ls]; [|revert A; now apply not_as_it_stands_long].
        apply as_it_stands_iff in A; [|exact Tm|exact Dd|lia]. apply W in A. discriminate A.
    + cbn [andb obind] in HP |- *. unfold set_prefix in HP |- *. cbn [pn_country pn_national pn_extension pn_carrier] in HP |- *.
      apply (D_plain db (Some c) false x d c m); auto. left. intros (rest & K).
      unfold k in Es. rewrite K, starts_with_app in Es. discriminate.
  - apply (D_dialled db country signed x d d'); [exact Hd|]. destruct signed; apply Inter; auto; discriminate.
Qed.

Theorem C57_sound : forall db country s, tame db -> parse_with db country s <> Panic -> gives db country s (parse_with db country s).
Proof.
  intros db country s T HP. pose proof (reads_sound s) as R. destruct (reading_of s) as [[[k n] x]|].
  2:{ rewrite (C46_unread db country s R). now apply P_unread. }
  destruct (is_viable n) eqn:V.
  2:{ assert (N : ~ viable_grammar n) by (intros G; apply C14_viable_iff_grammar in G; congruence).
      rewrite (C46_not_viable db country s k n x R N). now apply (P_not_viable db country s k n x). }
  pose proof (proj1 (C14_viable_iff_grammar n) V) as G. destruct k as [k|].
  - apply (P_coded db country s k n x); auto. pose proof (digits_of_digits n n V) as Dd.
    rewrite (coded_start db country s k n x R G) in *. destruct (Nat.ltb_spec (length (digits_of n n)) 3); [now apply K_few|].
    rewrite (u16_of n k V) in *. pose proof (u16_of n k V) as Pu.
    destruct (digits_of n k) as [|a kd] eqn:Ek; [apply K_malformed; auto|].
    destruct (N.leb_spec (value_of (a :: kd)) 65535) as [Lv|Lv]; [|apply K_malformed; auto].
    destruct (by_code db (value_of (a :: kd))) as [l|] eqn:Eb; [|apply K_unknown; auto; discriminate].
    apply K_known; auto; [discriminate|congruence|].
    apply (after_sound db SrcPlus (digits_of n n) (a :: kd) _ _ _ T Dd Pu); [reflexivity|exact HP].
  - apply (P_number db country s n x); auto. rewrite (number_start db country s n x R G) in *.
    apply number_sound; auto using digits_of_digits; [|destruct (sign n); reflexivity].
    destruct x; [cbn [option_map odigits]; now apply digits_of_digits|reflexivity].
Qed.
Print Assumptions C57_sound.

(** ** Proofs: the specification leaves no choice *)
Lemma rule_text_inj : forall a k a' k', rule_text a k = rule_text a' k' -> a = a' /\ k = k'.
Proof.
  intros a k a' k' E. unfold rule_text in E. change [36%N; (48 + N.of_nat k)%N] with ([36%N] ++ [(48 + N.of_nat k)%N]) in E.
  change [36%N; (48 + N.of_nat k')%N] with ([36%N] ++ [(48 + N.of_nat k')%N]) in E. rewrite !app_assoc in E.
  apply app_inj_tail in E as [E K]. apply app_inj_tail in E as [-> _]. split; [reflexivity|lia].
Qed.
Lemma first_once : forall m e e1 c1 e2 c2, entry_tame m = true -> digits e = true ->
  first_step m e e1 c1 -> first_step m e e2 c2 -> e1 = e2 /\ c1 = c2.
Proof.
  intros m e e1 c1 e2 c2 T De H1 H2. destruct (entry_tame_use m T) as (_ & Tp & _).
  assert (Once : forall p q x r g x' r' g', md_national_prefix_for_parsing m = Some p -> md_national_prefix_for_parsing m = Some q ->
    found p e x r g -> found q e x' r' g' -> q = p /\ x' = x /\ r' = r /\ g' = g).
  { intros p q x r g x' r' g' Ep Eq F F'. rewrite Ep in Eq. injection Eq as <-. split; [reflexivity|].
    exact (found_once p e x r g x' r' g' (Tp p Ep) De F F'). }
  assert (None_ : forall p q x r g, md_national_prefix_for_parsing m = Some p -> md_national_prefix_for_parsing m = Some q ->
    ~ matches_prefix (re_ast p) e -> found q e x r g -> False).
  { intros p q x r g Ep Eq N F. rewrite Ep in Eq. injection Eq as <-. apply N. now apply found_prefix in F. }
  destruct H1 as [A1 B1|np f1 A1 B1 C1|p A1 B1|p x rest gs A1 B1 C1|p x rest gs a k A1 B1 C1 D1 K1 V1 W1|p x rest gs a k g A1 B1 C1 D1 K1 V1 W1];
  destruct H2 as [A2 B2|np' f2 A2 B2 C2|p' A2 B2|p' x' rest' gs' A2 B2 C2|p' x' rest' gs' a' k' A2 B2 C2 D2 K2 V2 W2|p' x' rest' gs' a' k' g' A2 B2 C2 D2 K2 V2 W2];
  try (exfalso; congruence); try (exfalso; first [exact (None_ _ _ _ _ _ A1 A2 B1 B2)|exact (None_ _ _ _ _ _ A2 A1 B2 B1)]).
  - auto.
  - exfalso. apply (B1 np' B2). now exists f2.
  - exfalso. apply (B2 np B1). now exists f1.
  - rewrite B1 in B2. injection B2 as <-. rewrite C1 in C2. apply app_inv_head in C2. auto.
  - auto.
  - destruct (Once _ _ _ _ _ _ _ _ A1 A2 B1 B2) as (-> & -> & -> & ->). auto.
  - exfalso. destruct (Once _ _ _ _ _ _ _ _ A1 A2 B1 B2) as (-> & -> & -> & ->). destruct C1; congruence.
  - exfalso. destruct (Once _ _ _ _ _ _ _ _ A1 A2 B1 B2) as (-> & -> & -> & ->). destruct C1; congruence.
  - exfalso. destruct (Once _ _ _ _ _ _ _ _ A1 A2 B1 B2) as (-> & -> & -> & ->). destruct C2; congruence.
  - auto.
  - exfalso. destruct (Once _ _ _ _ _ _ _ _ A1 A2 B1 B2) as (-> & -> & -> & ->).
    rewrite C1 in C2. injection C2 as C2. apply rule_text_inj in C2 as [-> ->]. destruct V2; contradiction.
  - exfalso. destruct (Once _ _ _ _ _ _ _ _ A1 A2 B1 B2) as (-> & -> & -> & ->). destruct C2; congruence.
  - exfalso. destruct (Once _ _ _ _ _ _ _ _ A1 A2 B1 B2) as (-> & -> & -> & ->).
    rewrite C1 in C2. injection C2 as C2. apply rule_text_inj in C2 as [-> ->]. destruct V1; contradiction.
  - destruct (Once _ _ _ _ _ _ _ _ A1 A2 B1 B2) as (-> & -> & -> & ->).
    rewrite C1 in C2. injection C2 as C2. apply rule_text_inj in C2 as [-> ->]. split; [reflexivity|congruence].
Qed.
Lemma second_once : forall m e e1 e2, second_step m e e1 -> second_step m e e2 -> e1 = e2.
Proof.
  intros m e e1 e2 [(np & A1 & B1)|[-> B1]] [(np' & A2 & B2)|[-> B2]].
  - rewrite A1 in A2. injection A2 as <-. rewrite B1 in B2. now apply app_inv_head in B2.
  - exfalso. apply (B2 np A1). now exists e1.
  - exfalso. apply (B1 np' A2). now exists e2.
  - reflexivity.
Qed.
Lemma remains_once : forall m e e1 c1 e2 c2, entry_tame m = true -> digits e = true ->
  remains m e e1 c1 -> remains m e e2 c2 -> e1 = e2 /\ c1 = c2.
Proof.
  intros m e e1 c1 e2 c2 T De (u & v & w & F & S & C) (u' & v' & w' & F' & S' & C').
  destruct (first_once m e u w u' w' T De F F') as [<- <-]. pose proof (second_once m u v v' S S'). subst v'.
  destruct C as [(L & -> & ->)|(L & -> & ->)], C' as [(L' & -> & ->)|(L' & -> & ->)]; auto; contradiction.
Qed.
Lemma judged_once : forall c s x e ca r r', judged c s x e ca r -> judged c s x e ca r' -> r = r'.
Proof.
  intros c s x e ca r r' H H'. destruct H, H'; try reflexivity; exfalso; try lia;
  try (change (2 ^ 56)%N with 72057594037927936%N in *; lia).
Qed.
Lemma entry_once : forall db c s x e o r r', tame db -> (forall m, o = Some m -> db_has db m) -> digits e = true ->
  with_entry c s x e o r -> with_entry c s x e o r' -> r = r'.
Proof.
  intros db c s x e o r r' T Ho De H H'. destruct H as [o L|m e1 ca r L R J|r L J]; inversion H' as [o' L'|m' e1' ca' r0 L' R' J'|r0 L' J']; subst;
    try reflexivity; try (exfalso; lia).
  - destruct (remains_once m e e1 ca e1' ca' (t_entries _ T m (Ho m eq_refl)) De R R') as [-> ->]. eapply judged_once; eassumption.
  - eapply judged_once; eassumption.
Qed.
Lemma responsible_has : forall db c v m, responsible db c v m -> db_has db m.
Proof.
  intros db c v m [H|(b & a & H & _)]; right; do 2 eexists; (split; [exact H|]); [now left|]. apply in_app_iff. right. now left.
Qed.
Lemma after_once : forall db c s x e r r', tame db -> digits e = true ->
  after_code db c s x e r -> after_code db c s x e r' -> r = r'.
Proof.
  intros db c s x e r r' T De H H'. destruct (Nat.le_gt_cases (length e) 100) as [L|L].
  - destruct H as (o & U & W), H' as (o' & U' & W'). specialize (U L). specialize (U' L).
    assert (E : o' = o).
    { destruct o as [m|]; [apply U', U; reflexivity|]. destruct o' as [m|]; [symmetry; apply U, U'; reflexivity|reflexivity]. }
    subst o'. apply (entry_once db c s x e o r r' T); auto. intros m Hm. apply U in Hm. eapply responsible_has; exact Hm.
  - rewrite (after_long _ _ _ _ _ _ H L). symmetry. exact (after_long _ _ _ _ _ _ H' L).
Qed.
Lemma codes_same : forall db c c' e e', tame db -> by_code db c <> None -> by_code db c' <> None -> dec c ++ e = dec c' ++ e' -> c' = c /\ e' = e.
Proof.
  intros db c c' e e' T K K' E.
  assert (C : c' = c).
  { destruct (app_split _ _ _ _ _ E) as [(z & Ez)|(z & w & Ez)].
    - pose proof (t_free _ T c' c z K' K Ez). subst z. rewrite app_nil_r in Ez. symmetry. now apply dec_inj.
    - pose proof (t_free _ T c c' (z :: w) K K' Ez). discriminate. }
  subst c'. apply app_inv_head in E. auto.
Qed.
Lemma international_once : forall db s x d r r', tame db -> digits d = true ->
  international db s x d r -> international db s x d r' -> r = r'.
Proof.
  intros db s x d r r' T Dd H H'. destruct H as [L|L N|c e r L K E A], H' as [L'|L' N'|c' e' r' L' K' E' A'];
    try reflexivity; try (exfalso; lia).
  - exfalso. apply (N c' K'). now exists e'.
  - exfalso. apply (N' c K). now exists e.
  - rewrite E in E'. destruct (codes_same db c c' e e' T K K' E') as [-> ->]. apply (after_once db c s x e); auto.
    rewrite E, digits_app in Dd. now apply andb_true_iff in Dd.
Qed.
Lemma dialled_once : forall db country d d1 d2, tame db -> digits d = true ->
  dialled db country d d1 -> dialled db country d d2 -> d1 = d2.
Proof.
  intros db country d d1 d2 T Dd (r & x & gs & R & F & _) (r' & x' & gs' & R' & F' & _).
  assert (E : r' = r). { apply dial_prefix_idd in R, R'. congruence. } subst r'.
  destruct (found_once r d _ _ _ _ _ _ (good_dial db country r T R) Dd F F') as (_ & E & _). now symmetry.
Qed.
Lemma dialled_digits : forall db country d d', digits d = true -> dialled db country d d' -> digits d' = true.
Proof.
  intros db country d d' Dd (r & x & gs & _ & F & _). destruct F as (E & _). rewrite E, digits_app in Dd. now apply andb_true_iff in Dd.
Qed.
Lemma number_once : forall db country sg x d r r', tame db -> digits d = true ->
  number db country sg x d r -> number db country sg x d r' -> r = r'.
Proof.
  intros db country sg x d r r' T Dd H H'.
  destruct H as [d1 r A I|r N S I|N S C|i m e r N S C M E Z W|i m r N S C M Z W];
  destruct H' as [d1' r' A' I'|r' N' S' I'|N' S' C'|i' m' e' r' N' S' C' M' E' Z' W'|i' m' r' N' S' C' M' Z' W'];
    try (exfalso; eapply N; eassumption); try (exfalso; eapply N'; eassumption); try (exfalso; congruence); try reflexivity.
  - pose proof (dialled_once _ _ _ _ _ T Dd A A'). subst d1'. exact (international_once db _ x d1 r r' T (dialled_digits _ _ _ _ Dd A) I I').
  - exact (international_once db _ x d r r' T Dd I I').
  - rewrite C in C'. injection C' as <-. rewrite M in M'. injection M' as <-.
    rewrite E in E'. apply app_inv_head in E'. subst e'. refine (after_once db _ _ _ e r r' T _ W W').
    rewrite E, digits_app in Dd. now apply andb_true_iff in Dd.
  - exfalso. rewrite C in C'. injection C' as <-. rewrite M in M'. injection M' as <-. destruct Z' as [Z'|Z']; [apply Z'; now exists e|contradiction].
  - exfalso. rewrite C in C'. injection C' as <-. rewrite M in M'. injection M' as <-. destruct Z as [Z|Z]; [apply Z; now exists e'|contradiction].
  - rewrite C in C'. injection C' as <-. rewrite M in M'. injection M' as <-. refine (entry_once db _ _ _ d (Some m) r r' T _ Dd W W').
    intros m' [= <-]. left. eauto.
Qed.
Lemma coded_once : forall db x k d r r', tame db -> digits d = true -> coded db x k d r -> coded db x k d r' -> r = r'.
Proof.
  intros db x k d r r' T Dd H H'.
  assert (U : by_code db (value_of k) <> None -> ~ (65535 < value_of k)%N) by (intros K; pose proof (t_codes _ T _ K); lia).
  destruct H as [L|L M|L M V B|r L M B A], H' as [L'|L' M'|L' M' V' B'|r' L' M' B' A']; try reflexivity; try (exfalso; lia); try (exfalso; congruence).
  - exfalso. destruct M; [contradiction|lia].
  - exfalso. destruct M; [contradiction|now apply U].
  - exfalso. destruct M'; [contradiction|lia].
  - exfalso. destruct M'; [contradiction|now apply U].
  - eapply after_once; eassumption.
Qed.
Theorem C57_only : forall db country s r r', tame db -> gives db country s r -> gives db country s r' -> r = r'.
Proof.
  intros db country s r r' T H H'.
  assert (U : forall a b, reads s a -> reads s b -> a = b) by (intros a b A B; apply reads_complete in A, B; congruence).
  assert (D : forall n, viable_grammar n -> digits (digits_of n n) = true) by (intros n V; apply digits_of_digits; now apply C14_viable_iff_grammar).
  destruct H as [R|k n x R V|n x r R V N|k n x r R V N], H' as [R'|k' n' x' R' V'|n' x' r' R' V' N'|k' n' x' r' R' V' N'];
    try reflexivity; pose proof (U _ _ R R') as E; try discriminate E;
    try (exfalso; assert (En : n' = n) by congruence; subst n'; contradiction).
  - injection E as <- <-. eapply number_once; [exact T| |exact N|exact N']. auto.
  - injection E as <- <- <-. eapply coded_once; [exact T| |exact N|exact N']. auto.
Qed.
Print Assumptions C57_only.

(** ** C57 *)
Theorem C57_exact_any : forall db country s r, tame db -> parse_with db country s <> Panic ->
  (gives db country s r <-> parse_with db country s = r).
Proof.
  intros db country s r T HP. pose proof (C57_sound db country s T HP) as S. split; [|intros <-; exact S].
  intros H. exact (C57_only db country s _ _ T S H).
Qed.
Print Assumptions C57_exact_any.
Lemma default_entries_tame : db_forall entry_tame default_db = true.
Proof. vm_cast_no_check (eq_refl true). Qed.
Lemma default_tame : tame default_db.
Proof.
  constructor.
  - exact default_regular.
  - exact default_rules_shaped.
  - exact code_range.
  - exact codes_unique.
  - intros i m. exact (basic_code _ i m default_basic).
  - intros m. exact (db_forall_use _ _ _ default_entries_tame).
Qed.
Theorem C57_exact : forall country s r, gives default_db country s r <-> parse country s = r.
Proof.
  intros country s r. apply (C57_exact_any default_db country s r default_tame).
  destruct (C01_parse_returns country s) as [(p & E)|(p & E)]; unfold parse in E; rewrite E; discriminate.
Qed.
Print Assumptions C57_exact.

(** The same for [str::parse]: no country of reference is assumed. *)
Theorem C57_from_str : forall s r, gives default_db None s r <-> phone_from_str s = r.
Proof. exact (C57_exact None). Qed.
Print Assumptions C57_from_str.

(** *** When there is no number in a text: whatever the database and the country of reference *)
Lemma rest_not_no_number : forall db country n, rest_of_parse db country n <> Err NoNumber.
Proof.
  intros db country n. unfold rest_of_parse.
  assert (CC : country_code db country n <> Err NoNumber).
  { unfold country_code. fold (idd_of db country).
    assert (ST : forall i k, @strip_idd perr i k <> Err NoNumber).
    { intros i k. unfold strip_idd, trim. destruct (match i with Some r => _ | None => None end); [|discriminate].
      destruct (Nat.eqb _ _); [|discriminate]. destruct (slice_from _ _); cbn [unwrap obind]; [|discriminate].
      destruct (starts_with _ _); discriminate. }
    assert (IP : @international_prefix perr (idd_of db country) n <> Err NoNumber).
    { unfold international_prefix. destruct (pn_prefix n); [discriminate|]. destruct (negb _); [|apply ST]. unfold trim.
      destruct (slice_from _ _); cbn [unwrap obind]; [|discriminate]. destruct (negb _); [discriminate|apply ST]. }
    destruct (international_prefix _ n) as [n1|er|]; cbn [obind]; [|intros [= ->]; now apply IP|discriminate].
    assert (FC : forall l, find_code db n1 l <> Err NoNumber).
    { induction l as [|k l IH]; cbn [find_code]; [discriminate|]. unfold trim. destruct (slice_to _ _); cbn [unwrap obind]; [|discriminate].
      destruct (parse_u16 _); cbn [unwrap obind]; [|discriminate]. destruct (is_some _); [|exact IH].
      destruct (slice_from _ _); discriminate. }
    assert (PP : (if blen (pn_national n1) <=? MIN_LENGTH_FOR_NSN then Err TooShortNsn
        else match pn_prefix n1 with
          | Some p => let* prefix := ok_or (parse_u16 p) MalformedInteger in
                      match by_code db prefix with None => Err InvalidCountryCode | Some _ => Ok n1 end
          | None => if starts_with (pn_national n1) [ch_0] then Err InvalidCountryCode
                    else find_code db n1 (seq 1 MAX_LENGTH_FOR_COUNTRY_CODE)
          end) <> Err NoNumber).
    { destruct (_ <=? _); [discriminate|]. destruct (pn_prefix n1) as [p|].
      - destruct (parse_u16 p) as [v|]; cbn [ok_or obind]; [|discriminate]. destruct (by_code db v); discriminate.
      - destruct (starts_with _ _); [discriminate|apply FC]. }
    destruct (pn_country n1); try exact PP. destruct country as [c|]; [|discriminate].
    destruct (by_id db (id_name c)) as [m|]; cbn [unwrap obind]; [|discriminate].
    destruct (_ && _); [|discriminate]. unfold trim. destruct (slice_from _ _); discriminate. }
  destruct (country_code db country n) as [n1|er|]; cbn [obind]; [|intros [= ->]; now apply CC|discriminate].
  assert (SM : select_meta db country n1 <> Err NoNumber).
  { assert (G : (let* code := prefix_value n1 in let* s := source_for db code (trim_start_char ch_0 (pn_national n1)) in
       Ok (source_meta db s)) <> Err NoNumber).
    { unfold prefix_value. destruct (pn_prefix n1) as [p|]; [destruct (parse_u16 p) as [v|]; cbn [ok_or obind]; [|discriminate]|cbn [obind]];
      (destruct (source_for _ _ _) as [o|er|] eqn:E; cbn [obind]; [discriminate|now apply source_for_no_err in E|discriminate]). }
    unfold select_meta. destruct country as [c|]; [|exact G]. destruct (pn_country n1); try exact G. discriminate. }
  destruct (select_meta db country n1) as [o|er|]; cbn [obind]; [|intros [= ->]; now apply SM|discriminate].
  destruct (strip_national o n1) as [n2|er|] eqn:E; cbn [obind]; [|now apply strip_national_no_err in E|discriminate].
  unfold finish. destruct (_ <? _); [discriminate|]. destruct (_ <? _); [discriminate|].
  assert (NN : nn_parse (pn_national n2) <> Err NoNumber).
  { unfold nn_parse. destruct (slice_from _ _) as [t|]; cbn [unwrap obind]; [|discriminate].
    destruct (parse_u64 t) as [v|]; cbn [ok_or obind]; [|discriminate]. unfold nn_new. destruct (N.leb _ _); discriminate. }
  unfold prefix_value. destruct (pn_prefix n2) as [p|]; [destruct (parse_u16 p) as [v|]; cbn [ok_or obind]; [|discriminate]|cbn [obind]];
  (destruct (nn_parse _) as [w|er|]; cbn [obind]; [discriminate|intros [= ->]; now apply NN|discriminate]).
Qed.
Theorem C57_no_number : forall db country s,
  parse_with db country s = Err NoNumber <-> (forall k n x, reads s (Some (k, n, x)) -> ~ viable_grammar n).
Proof.
  intros db country s. pose proof (reads_sound s) as R. destruct (reading_of s) as [[[k n] x]|].
  2:{ rewrite (C46_unread db country s R). split; [|reflexivity]. intros _ k n x R'. apply reads_complete in R, R'. congruence. }
  destruct (is_viable n) eqn:V.
  - pose proof (proj1 (C14_viable_iff_grammar n) V) as G. split.
    + intros H. exfalso. pose proof (reads_parts _ _ _ _ R) as P. unfold parse_with in H. rewrite P in H. cbn [obind pn_national] in H.
      rewrite V in H. cbn [negb] in H. exact (rest_not_no_number db country _ H).
    + intros H. exfalso. exact (H k n x R G).
  - assert (N : ~ viable_grammar n) by (intros G; apply C14_viable_iff_grammar in G; congruence).
    rewrite (C46_not_viable db country s k n x R N). split; [|reflexivity]. intros _ k' n' x' R'.
    apply reads_complete in R, R'. assert (E : n' = n) by congruence. now rewrite E.
Qed.
Print Assumptions C57_no_number.
(** A text may be viable as a whole and still have no number in it: a second number is announced. *)
Theorem C57_viable_refuted : exists s, viable_grammar s /\ forall db country, parse_with db country s = Err NoNumber.
Proof.
  exists (lit "1/ x23"). assert (V : viable_grammar (lit "1/ x23")) by (apply viable_by; vm_compute; reflexivity).
  split; [exact V|]. intros db country. apply C57_no_number. intros k n x R. apply reads_complete in R.
  assert (E : reading_of (lit "1/ x23") = Some (None, lit "1", None)) by (vm_compute; reflexivity). rewrite E in R. injection R as -> -> ->.
  intros G. apply C14_viable_iff_grammar in G. vm_compute in G. discriminate G.
Qed.
Print Assumptions C57_viable_refuted.

(** ** Instances *)
(** a carrier code, a rewriting rule, a dialling prefix with an extension, a
    calling code in front, a dialling prefix behind a sign, a code apart, leading
    zeros, and the two ways to be told that the calling code is missing *)
Definition number_is (c : N) (s : source) (v : N) (x ca : option str) : outcome perr phone := Ok (mk_phone (mk_code c s) (mk_national v) x ca).
Example C57_ex :
  gives default_db (Some ID_BR) (lit "0 15 21 2345-6789") (number_is 55 SrcDefault 2123456789 None (Some (lit "15")))
  /\ gives default_db (Some ID_AR) (lit "011 15 2345-6789") (number_is 54 SrcDefault 91123456789 None (Some (lit "11")))
  /\ gives default_db (Some ID_US) (lit "011 44 20 7031 3000 ext. 12") (number_is 44 SrcIdd 2070313000 (Some (lit "12")) None)
  /\ gives default_db (Some ID_GB) (lit "44 20 7031 3000") (number_is 44 SrcNumber 2070313000 None None)
  /\ gives default_db (Some ID_JE) (lit "709123") (number_is 44 SrcDefault 1534709123 None (Some (lit "709123")))
  /\ gives default_db (Some ID_US) (lit "+011 44 20 7031 3000") (number_is 44 SrcPlus 2070313000 None None)
  /\ gives default_db (Some ID_US) (lit "tel:2345-678;phone-context=+32") (number_is 32 SrcPlus 2345678 None None)
  /\ gives default_db None (lit "+39 02") (number_is 39 SrcPlus (2 ^ 56 + 2) None None)
  /\ gives default_db None (lit "20 7031 3000") (Err InvalidCountryCode)
  /\ gives default_db None (lit "+210 555 1234") (Err InvalidCountryCode).
Proof. repeat split; apply C57_exact; vm_compute; reflexivity. Qed.
(** What the specification does with a text, step by step, without the parser. *)
Example C57_by_hand : forall p, md_national_prefix_for_parsing p = None -> md_national_prefix p = Some (lit "0") ->
  d_possible_length (general p) = [9%N] -> d_possible_local_length (general p) = [] ->
  remains p (lit "0123456789") (lit "123456789") None /\ remains p (lit "012345678") (lit "012345678") None.
Proof.
  intros p H1 H2 H3 H4.
  assert (S : forall e, ~ starts (49%N :: e) (lit "0")) by (intros e (r & E); discriminate E).
  split.
  - exists (lit "123456789"), (lit "123456789"), None. split; [now apply (F_prefix p _ (lit "0"))|]. split.
    + right. split; [reflexivity|]. intros np E. rewrite H2 in E. injection E as <-. apply S.
    + left. split; [|auto]. unfold not_too_short. rewrite H3. left. vm_compute. discriminate.
  - exists (lit "12345678"), (lit "12345678"), None. split; [now apply (F_prefix p _ (lit "0"))|]. split.
    + right. split; [reflexivity|]. intros np E. rewrite H2 in E. injection E as <-. apply S.
    + right. split; [|auto]. unfold not_too_short. rewrite H3, H4. intros [K|[]]. vm_compute in K. now elim K.
Qed.
Example C57_no_number_ex : reads (lit "Room 7") (Some (None, lit "7", None)) /\ ~ viable_grammar (lit "7")
  /\ parse (Some ID_US) (lit "Room 7") = Err NoNumber /\ parse None (lit "Room 75") = Err InvalidCountryCode.
Proof.
  split; [apply read_as; vm_compute; reflexivity|]. split; [|split; vm_compute; reflexivity].
  intros G. apply C14_viable_iff_grammar in G. vm_compute in G. discriminate G.
Qed.
