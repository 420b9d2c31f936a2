(** * ParseInv: what a successful parse went through *)
From Verif Require Import Base Unicode Regex RegexSyntax Consts CountryId Types NationalNumber
  Metadata Database Validator Valid Number Rfc3966 Helper Natural PhoneNumber Parser.
From Verif Require Import StrFacts NationalFacts RegexLang RegexFacts RegexCaps DatabaseFacts ParserFacts.

Lemma parse_with_inv : forall db country s p, parse_with db country s = Ok p ->
  exists n0 n1 meta n2, p_phone_number s = Ok n0 /\ is_viable (pn_national n0) = true
    /\ country_code db country n0 = Ok n1 /\ select_meta db country n1 = Ok meta
    /\ strip_national meta n1 = Ok n2 /\ finish n2 = Ok p.
Proof.
  intros db country s p H. unfold parse_with in H.
  apply obind_ok in H as (n0 & H0 & H). destruct (is_viable (pn_national n0)) eqn:Ev; [|discriminate].
  cbn [negb] in H. apply obind_ok in H as (n1 & H1 & H). apply obind_ok in H as (meta & H2 & H).
  apply obind_ok in H as (n2 & H3 & H). exists n0, n1, meta, n2. auto 7.
Qed.

(** ** finish *)
Lemma parse_u16_dec_inv : forall c v, parse_u16 (dec c) = Some v -> v = c.
Proof.
  intros c v H. apply parse_uint_inv in H as (_ & body & Hb & _ & Hd & ->).
  destruct Hb as [<-|Hb]; [apply digits_val_dec|]. exfalso.
  pose proof (digits_dec c) as D. rewrite Hb in D. discriminate.
Qed.

Lemma finish_inv : forall n p, finish n = Ok p ->
  exists code nat_, prefix_value n = Ok code /\ nn_parse (pn_national n) = Ok nat_
    /\ p = mk_phone (mk_code code (pn_country n)) nat_ (pn_extension n) (pn_carrier n)
    /\ 2 <= blen (pn_national n) <= 17.
Proof.
  intros n p H. unfold finish in H.
  destruct (Nat.ltb_spec (blen (pn_national n)) MIN_LENGTH_FOR_NSN); [discriminate|].
  destruct (Nat.ltb_spec MAX_LENGTH_FOR_NSN (blen (pn_national n))); [discriminate|].
  apply obind_ok in H as (code & Hc & H). apply obind_ok in H as (nat_ & Hn & H).
  inversion H. unfold MIN_LENGTH_FOR_NSN, MAX_LENGTH_FOR_NSN in *. eauto 8.
Qed.

(** ** international_prefix, with the country source *)
Definition starts_plus (s : str) : bool := match s with c :: _ => is_plus c | [] => false end.

Lemma ignore_plus_len_0 : forall s, negb (Nat.eqb (ignore_plus_len s) 0) = starts_plus s.
Proof.
  intros [|c s]; [easy|]. unfold ignore_plus_len, starts_plus. cbn [span].
  destruct (is_plus c) eqn:E; [|easy]. destruct (span is_plus s). cbn [fst blen].
  pose proof (utf8_len_pos c). destruct (utf8_len c); [lia|]. easy.
Qed.

Lemma strip_idd_source : forall E idd n n', @strip_idd E idd n = Ok n' ->
  (pn_country n = SrcPlus -> pn_country n' = SrcPlus) /\
  (pn_country n = SrcDefault -> pn_country n' = SrcDefault \/ pn_country n' = SrcIdd).
Proof.
  intros E idd n n' H. unfold strip_idd in H. destruct (match idd with Some r => _ | None => None end).
  - destruct (mr_start m =? 0); [|inversion H; auto].
    apply obind_ok in H as (a & _ & H). destruct (starts_with a [ch_0]); [inversion H; auto|].
    apply obind_ok in H as (t & _ & H). inversion H. split; intros Hx; rewrite Hx; cbn; auto.
  - inversion H; auto.
Qed.

(** The national part after [international_prefix] is a final part of the
    normalised text. *)
Lemma strip_idd_suffix : forall E idd n n', @strip_idd E idd n = Ok n' ->
  exists pre, pn_national n = pre ++ pn_national n'.
Proof.
  intros E idd n n' H. unfold strip_idd in H.
  destruct (match idd with Some r => _ | None => None end) eqn:Em.
  - destruct idd as [r|]; [|discriminate].
    destruct (mr_start m =? 0); [|inversion H; now exists []].
    apply obind_ok in H as (a & _ & H). destruct (starts_with a [ch_0]); [inversion H; now exists []|].
    apply obind_ok in H as (t & Ht & H). inversion H. subst n'. unfold trim in Ht.
    destruct (slice_from (pn_national n) (mr_end m)) eqn:Es; [|discriminate]. inversion Ht; subst.
    apply slice_from_inv in Es as (pre & Es & _). exists pre.
    destruct (pn_country n); cbn; exact Es.
  - inversion H; now exists [].
Qed.

Lemma international_prefix_source : forall E idd n n', @international_prefix E idd n = Ok n' ->
  if is_some (pn_prefix n) || starts_plus (pn_national n)
  then pn_country n' = SrcPlus else pn_country n' = SrcDefault \/ pn_country n' = SrcIdd.
Proof.
  intros E idd n n' H. unfold international_prefix in H. fold (choose_mappings (pn_national n)) in H.
  destruct (pn_prefix n) as [p|]; cbn [is_some orb].
  - inversion H. easy.
  - rewrite ignore_plus_len_0 in H. destruct (starts_plus (pn_national n)).
    + apply obind_ok in H as (t & _ & H). destruct (negb _); [inversion H; easy|].
      apply strip_idd_source in H as [H _]. apply H. easy.
    + apply strip_idd_source in H as [_ H]. apply H. easy.
Qed.

(** ** country_code *)
Definition idd_of (db : database) (country : option id) : option regex :=
  match match country with
        | Some c => match by_id db (id_name c) with Some m => md_international_prefix m | None => None end
        | None => None
        end with
  | Some r => Some r
  | None => match country with None => Some DEFAULT_IDD | Some _ => None end
  end.

Record cc_result (db : database) (country : option id) (n0 n1 : number) : Prop := {
  cr_norm : norm n1;
  cr_carrier : pn_carrier n1 = pn_carrier n0;
  cr_ext : pn_extension n1 = option_map (act (choose_mappings (pn_national n0))) (pn_extension n0);
  cr_source : if is_some (pn_prefix n0) || starts_plus (pn_national n0)
              then pn_country n1 = SrcPlus else pn_country n1 <> SrcPlus;
  cr_code :
    match pn_country n1 with
    | SrcPlus | SrcIdd => exists pre code, pn_prefix n1 = Some pre /\ parse_u16 pre = Some code
                            /\ by_code db code <> None
    | SrcNumber | SrcDefault => exists c m, country = Some c /\ by_id db (id_name c) = Some m
                                  /\ pn_prefix n1 = Some (dec (md_country_code m))
    end }.

Lemma country_code_inv : forall db country n0 n1, country_code db country n0 = Ok n1 ->
  cc_result db country n0 n1.
Proof.
  intros db country n0 n1 H. unfold country_code in H. fold (idd_of db country) in H.
  destruct (international_prefix_ok perr (idd_of db country) n0) as (x & Hx & Nx & Px & Ex & Cx).
  rewrite Hx in H. cbn [obind] in H.
  pose proof (international_prefix_source _ _ _ _ Hx) as Sx.
  set (plus := is_some (pn_prefix n0) || starts_plus (pn_national n0)) in *.
  assert (Hrest : pn_country x <> SrcNumber ->
     (pn_country x = SrcPlus \/ pn_country x = SrcIdd) ->
     (if plus then pn_country x = SrcPlus else pn_country x <> SrcPlus) ->
     (if blen (pn_national x) <=? MIN_LENGTH_FOR_NSN then Err TooShortNsn
      else match pn_prefix x with
           | Some p => let* prefix := ok_or (parse_u16 p) MalformedInteger in
               match by_code db prefix with None => Err InvalidCountryCode | Some _ => Ok x end
           | None => if starts_with (pn_national x) [ch_0] then Err InvalidCountryCode
                     else find_code db x (seq 1 MAX_LENGTH_FOR_COUNTRY_CODE)
           end) = Ok n1 -> cc_result db country n0 n1).
  { intros Hn Hs Hp Hr.
    destruct (Nat.leb_spec (blen (pn_national x)) MIN_LENGTH_FOR_NSN); [discriminate|].
    destruct (pn_prefix x) as [pre|] eqn:Ep.
    - apply obind_ok in Hr as (code & Hc & Hr). destruct (parse_u16 pre) as [v|] eqn:Ev; [|discriminate].
      inversion Hc; subst v. destruct (by_code db code) eqn:Eb; [|discriminate]. inversion Hr; subst x.
      constructor; auto. destruct Hs as [->| ->]; exists pre, code; rewrite Eb; easy.
    - destruct (starts_with (pn_national x) [ch_0]); [discriminate|].
      rewrite digits_blen in H0 by apply Nx. unfold MIN_LENGTH_FOR_NSN in H0.
      destruct (find_code_ok db x (seq 1 MAX_LENGTH_FOR_COUNTRY_CODE) Nx) as [Hf|(len & I & Hb & Hf)].
      + intros l I. apply in_seq in I. unfold MAX_LENGTH_FOR_COUNTRY_CODE in I. lia.
      + lia.
      + congruence.
      + rewrite Hf in Hr. inversion Hr; subst n1. clear Hr Hf.
        assert (Hl : 1 <= len <= 3).
        { apply in_seq in I. unfold MAX_LENGTH_FOR_COUNTRY_CODE in I. lia. }
        constructor; cbn; auto.
        * constructor; cbn; [apply digits_skipn, Nx|apply digits_dec|apply Nx].
        * set (v := digits_val (firstn len (pn_national x))) in *.
          assert (Hv : parse_u16 (dec v) = Some v).
          { apply parse_uint_dec. apply digits_val_3; [apply digits_firstn, Nx|].
            rewrite firstn_length. lia. }
          destruct Hs as [->| ->]; exists (dec v), v; (split; [easy|]); (split; [easy|]);
            destruct (by_code db v); easy. }
  destruct (pn_country x) eqn:Ec.
  - apply Hrest; auto; [congruence|]. destruct plus; [easy|]. destruct Sx; congruence.
  - apply Hrest; auto; [congruence|]. destruct plus; [easy|]. congruence.
  - exfalso. destruct plus; [congruence|]. destruct Sx; congruence.
  - clear Hrest. assert (plus = false) by (destruct plus; [congruence|easy]).
    destruct country as [c|]; [|discriminate].
    apply obind_ok in H as (meta & Hm & H). destruct (by_id db (id_name c)) as [m|] eqn:Eb; [|discriminate].
    inversion Hm; subst m. clear Hm. apply obind_ok in H as (y & Hy & H). inversion H; subst n1. clear H.
    assert (Y : norm y /\ pn_carrier y = pn_carrier x /\ pn_extension y = pn_extension x
      /\ (pn_country y = SrcDefault \/ pn_country y = SrcNumber)).
    { destruct (_ && _) in Hy; [|inversion Hy; subst y; auto].
      apply obind_ok in Hy as (t & Ht & Hy). inversion Hy; subst y. cbn.
      unfold trim in Ht. destruct (slice_from (pn_national x) _) eqn:Es; [|discriminate].
      inversion Ht; subst. apply slice_from_inv in Es as (a & Es & _).
      split; [|auto]. pose proof (norm_nat _ Nx) as D. rewrite Es, digits_app in D.
      apply andb_true_iff in D as [_ D]. constructor; cbn; [exact D|apply Nx|apply Nx]. }
    destruct Y as (Y1 & Y2 & Y3 & Y4). constructor; cbn.
    + constructor; cbn; [apply Y1|apply digits_dec|apply Y1].
    + congruence.
    + congruence.
    + fold plus. rewrite H0. destruct Y4; congruence.
    + destruct Y4 as [->| ->]; exists c, meta; auto.
Qed.

(** ** The transformation of the national part *)
Definition nc (a : char) (s : str) : Prop := ~ In a s.

Lemma digits_nc : forall a s, is_digit a = false -> digits s = true -> ~ In a s.
Proof.
  intros a s Ha Hd I. unfold digits in Hd. rewrite forallb_forall in Hd. apply Hd in I. congruence.
Qed.

Lemma cap_ref_text_in : forall r s m name c, re_find r s = Some m ->
  In c (cap_ref_text m name) -> In c s.
Proof.
  intros r s m name c H I. unfold cap_ref_text in I.
  destruct (parse_uint 4294967295 name) as [k|]; [|easy].
  destruct (cap_get m (N.to_nat k)) as [g|] eqn:Eg; [|easy].
  pose proof (re_find_some _ _ _ H) as (Hs & _). rewrite Hs.
  apply in_app_iff. right. apply in_app_iff. left.
  destruct (N.to_nat k) as [|i].
  - cbn in Eg. inversion Eg; subst. exact I.
  - destruct (re_find_cap _ _ _ _ _ H Eg) as (r' & x & y & _ & -> & _). cbn in *.
    apply in_app_iff. right. apply in_app_iff. now left.
Qed.

(** every character of an expansion comes from the template or the text *)
Lemma expand_in : forall r s m, re_find r s = Some m ->
  forall fuel t c, In c (expand_fuel fuel m t) -> In c t \/ In c s.
Proof.
  intros r s m H fuel.
  induction fuel as [|fuel IH]; intros t c I; [now left|]. cbn [expand_fuel] in I.
  destruct t as [|x t]; [easy|]. destruct (N.eqb_spec x 36).
  - subst x. destruct t as [|d t]; [destruct I as [<-|[]]; left; now left|].
    destruct (N.eqb_spec d 36).
    + destruct I as [<-|I]; [left; now left|]. apply IH in I as [I|I]; [left; right; now right|auto].
    + destruct (N.eqb d 123).
      * destruct (span _ t) as [name rest] eqn:Es. apply span_spec in Es as (Et & _).
        destruct rest as [|z rest].
        -- destruct I as [<-|I]; [left; now left|]. apply IH in I as [I|I]; [left; now right|auto].
        -- apply in_app_iff in I as [I|I]; [right; eapply cap_ref_text_in; eauto|].
           apply IH in I as [I|I]; [|auto]. left. right. right. rewrite Et. apply in_app_iff. right. now right.
      * destruct (span is_cap_letter (d :: t)) as [name rest] eqn:Es. apply span_spec in Es as (Et & _).
        destruct name as [|z name].
        -- destruct I as [<-|I]; [left; now left|]. apply IH in I as [I|I]; [left; now right|auto].
        -- apply in_app_iff in I as [I|I]; [right; eapply cap_ref_text_in; eauto|].
           apply IH in I as [I|I]; [|auto]. left. right. rewrite Et. apply in_app_iff. now right.
  - destruct I as [<-|I]; [left; now left|]. apply IH in I as [I|I]; [left; now right|auto].
Qed.
Lemma re_replace_in : forall r s t c, In c (re_replace r s t) -> In c s \/ In c t.
Proof.
  intros r s t c I. unfold re_replace in I. destruct (re_find r s) as [m|] eqn:E; [|auto].
  pose proof (re_find_some _ _ _ E) as (Hs & _).
  apply in_app_iff in I as [I|I]; [left; rewrite Hs; apply in_app_iff; now left|].
  apply in_app_iff in I as [I|I].
  - apply (expand_in _ _ _ E) in I as [I|I]; auto.
  - left. rewrite Hs. apply in_app_iff. right. apply in_app_iff. now right.
Qed.

(** ** national_number and strip_national *)
(** Where the new national part and the carrier come from. *)
Record nn_result (meta : metadata) (n n' : number) : Prop := {
  nr_country : pn_country n' = pn_country n;
  nr_prefix : pn_prefix n' = pn_prefix n;
  nr_ext : pn_extension n' = pn_extension n;
  nr_national :
    (exists pre, pn_national n = pre ++ pn_national n') \/
    (exists p tr pre, md_national_prefix_for_parsing meta = Some p
       /\ md_national_prefix_transform_rule meta = Some tr
       /\ re_replace p (pn_national n) tr = pre ++ pn_national n');
  nr_carrier : pn_carrier n' = pn_carrier n \/
    (exists p m c, md_national_prefix_for_parsing meta = Some p /\ re_find p (pn_national n) = Some m
       /\ mr_pre m = [] /\ pn_carrier n' = option_map cap_text c
       /\ (c = cap_get m (re_captures_len p - 1) \/
           c = cap_get m 1 /\ md_national_prefix_transform_rule meta <> None)) }.

Lemma nn_result_refl : forall meta n, nn_result meta n n.
Proof. intros. constructor; auto. left. now exists []. Qed.

Lemma national_number_inv : forall E meta n n', @national_number E meta n = Ok n' -> nn_result meta n n'.
Proof.
  intros E meta n n' H. unfold national_number in H.
  destruct (md_national_prefix_for_parsing meta) as [p|] eqn:Ep.
  - destruct (re_find p (pn_national n)) as [m|] eqn:Em; [|inversion H; apply nn_result_refl].
    destruct (Nat.eqb_spec (mr_start m) 0) as [H0|]; cbn [negb] in H; [|inversion H; apply nn_result_refl].
    assert (Hpre : mr_pre m = []) by (apply blen_nil_iff; exact H0).
    assert (Hplain : (let* tail := unwrap (slice_from (pn_national n) (mr_start m)) in
            if d_is_match (ds_general (md_descriptors meta)) (pn_national n)
               && negb (d_is_match (ds_general (md_descriptors meta)) tail)
            then Ok n
            else
              let n1 := set_carrier n (if 0 <? re_captures_len p
                          then option_map cap_text (cap_get m (re_captures_len p - 1)) else None) in
              let* t := trim (pn_national n) (mr_end m) in Ok (set_national n1 t)) = @Ok E _ n' ->
        nn_result meta n n').
    { intros Hx. rewrite (slice_from_start _ _ _ Em) in Hx. cbn [unwrap obind] in Hx.
      destruct (_ && _); [inversion Hx; apply nn_result_refl|].
      unfold trim in Hx. rewrite (slice_from_end _ _ _ Em) in Hx. cbn [unwrap obind] in Hx.
      inversion Hx; subst n'. constructor; cbn; auto.
      - left. exists (mr_text m). apply re_find_some in Em as (Em & _). now rewrite Hpre in Em.
      - right. exists p, m, (cap_get m (re_captures_len p - 1)). auto 8. }
    destruct (md_national_prefix_transform_rule meta) as [tr|] eqn:Etr; [|exact (Hplain H)].
    destruct (option_map cap_text (cap_get m (re_captures_len p - 1))) eqn:El; [|exact (Hplain H)].
    clear Hplain. destruct (_ && _); [inversion H; apply nn_result_refl|].
    apply obind_ok in H as (f & Hf & H). inversion H; subst n'.
    constructor; cbn [set_national set_carrier pn_country pn_prefix pn_extension pn_carrier pn_national]; auto.
    + right. exists p, tr, []. rewrite Etr. auto.
    + right. exists p, m, (cap_get m 1). destruct (cap_get m 1) as [g|]; [|discriminate].
      cbn [option_map unwrap] in Hf |- *. inversion Hf; subst. split; [easy|]. split; [easy|]. split; [easy|]. split; [easy|].
      right. split; [easy|]. rewrite Etr. easy.
  - destruct (md_national_prefix meta) as [prefix|]; [|inversion H; apply nn_result_refl].
    destruct (starts_with (pn_national n) prefix) eqn:Es; [|inversion H; apply nn_result_refl].
    apply starts_with_spec in Es as (t & Es). unfold trim in H. rewrite Es, slice_from_app in H.
    cbn in H. inversion H; subst n'. constructor; cbn; auto. left. exists prefix. easy.
Qed.

Lemma strip_national_inv : forall meta n n', strip_national meta n = Ok n' ->
  n' = n \/ exists m, meta = Some m /\ nn_result m n n'.
Proof.
  intros [m|] n n' H; cbn [strip_national] in H; [|inversion H; auto].
  apply obind_ok in H as (q & Hq & H). apply national_number_inv in Hq.
  apply obind_ok in H as (r & Hr & H).
  assert (R : nn_result m n r).
  { destruct (md_national_prefix m) as [prefix|]; [|inversion Hr; subst; exact Hq].
    destruct (starts_with (pn_national q) prefix) eqn:Es; [|inversion Hr; subst; exact Hq].
    apply starts_with_spec in Es as (t & Es). unfold trim in Hr. rewrite Es, slice_from_app in Hr.
    cbn in Hr. inversion Hr; subst r. destruct Hq as [Q1 Q2 Q3 Q4 Q5]. constructor; cbn; auto.
    destruct Q4 as [(pre & Q4)|(p & tr & pre & A & B & Q4)].
    - left. exists (pre ++ prefix). rewrite Q4, Es. now rewrite app_assoc.
    - right. exists p, tr, (pre ++ prefix). rewrite A, B. split; [easy|]. split; [easy|].
      rewrite Q4, Es. now rewrite app_assoc. }
  right. exists m. split; [easy|]. destruct (v_length _ _ _); inversion H; subst; auto using nn_result_refl.
Qed.

(** A national part never gets a character that is neither a digit nor in the
    transform rule. *)
Lemma strip_national_chars : forall meta n n' c, strip_national meta n = Ok n' ->
  In c (pn_national n') -> In c (pn_national n) \/
  exists m tr, meta = Some m /\ md_national_prefix_transform_rule m = Some tr /\ In c tr.
Proof.
  intros meta n n' c H I. apply strip_national_inv in H as [->|(m & -> & R)]; [auto|].
  destruct (nr_national _ _ _ R) as [(pre & E)|(p & tr & pre & A & B & E)].
  - left. rewrite E. apply in_app_iff. now right.
  - assert (I' : In c (re_replace p (pn_national n) tr)) by (rewrite E; apply in_app_iff; now right).
    apply re_replace_in in I' as [I'|I']; [auto|]. right. eauto.
Qed.

(** ** The invariants of a parsed number *)
Lemma select_meta_has : forall db country n m, select_meta db country n = Ok (Some m) -> db_has db m.
Proof.
  intros db country n m H. unfold select_meta in H.
  assert (Hs : (let* code := prefix_value n in
          let* s0 := source_for db code (trim_start_char ch_0 (pn_national n)) in
          Ok (source_meta db s0)) = Ok (Some m) -> db_has db m).
  { intros Hx. apply obind_ok in Hx as (code & _ & Hx). apply obind_ok in Hx as (s0 & _ & Hx).
    inversion Hx. eapply source_meta_has; eauto. }
  destruct country as [c|]; [|auto]. destruct (pn_country n); auto. inversion H. left. eauto.
Qed.

(** No transform rule writes a plus sign. *)
Definition rules_no_plus (db : database) : Prop :=
  forall m tr, db_has db m -> md_national_prefix_transform_rule m = Some tr -> ~ In ch_plus tr.

Lemma strip_national_same : forall meta n n', strip_national meta n = Ok n' ->
  pn_country n' = pn_country n /\ pn_prefix n' = pn_prefix n /\ pn_extension n' = pn_extension n.
Proof. intros meta n n' H. apply strip_national_inv in H as [->|(m & _ & R)]; [auto|]. destruct R. auto. Qed.

Theorem parsed_national : forall db country s p, rules_no_plus db -> parse_with db country s = Ok p ->
  exists t, nn_show (ph_national p) = t /\ digits t = true /\ 2 <= length t <= 17
    /\ nn_value (ph_national p) = digits_val t
    /\ nn_zeros (ph_national p) = N.of_nat (count_zeros t)
    /\ (1 <= nn_value (ph_national p) < 2 ^ 56)%N /\ (nn_raw (ph_national p) < 2 ^ 64)%N.
Proof.
  intros db country s p Hr H. apply parse_with_inv in H as (n0 & n1 & meta & n2 & H0 & Hv & H1 & H2 & H3 & H4).
  apply finish_inv in H4 as (code & nat_ & Hc & Hn & -> & Hl). cbn.
  pose proof (country_code_inv _ _ _ _ H1) as C.
  assert (Hp : ~ In ch_plus (pn_national n2)).
  { intros I. apply (strip_national_chars _ _ _ _ H3) in I as [I|(m & tr & -> & Ht & I)].
    - revert I. apply digits_nc; [reflexivity|]. apply C.
    - apply (Hr m tr); auto. eapply select_meta_has; eauto. }
  assert (Hz : count_zeros (pn_national n2) < 256).
  { assert (count_zeros (pn_national n2) <= length (pn_national n2)).
    { clear. induction (pn_national n2) as [|c s IH]; cbn; [lia|]. destruct (N.eqb c 48); lia. }
    pose proof (length_le_blen (pn_national n2)). lia. }
  destruct (nn_parse_ok _ _ Hn Hp Hz) as (D & V & Z & B & S & R).
  exists (pn_national n2). rewrite digits_blen in Hl by easy. auto 9.
Qed.
