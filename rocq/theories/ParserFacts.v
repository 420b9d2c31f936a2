(** * ParserFacts: the parser's stages never panic and keep their invariants *)
From Verif Require Import Base Unicode Regex RegexSyntax Consts CountryId Types NationalNumber
  Metadata Database Validator Valid Number Rfc3966 Helper Natural PhoneNumber Parser.
From Verif Require Import StrFacts RegexLang RegexFacts RegexCaps DatabaseFacts.

Definition no_panic {E A} (x : outcome E A) : Prop := x <> Panic.

Lemma no_panic_bind : forall E A B (x : outcome E A) (f : A -> outcome E B),
  x <> Panic -> (forall a, x = Ok a -> f a <> Panic) -> obind x f <> Panic.
Proof. intros E A B [a|e|] f H1 H2; cbn; [auto|easy|easy]. Qed.

(** ** Slicing at match positions *)
Lemma slice_from_start : forall r s m, re_find r s = Some m ->
  slice_from s (mr_start m) = Some (mr_text m ++ mr_post m).
Proof.
  intros r s m H. apply re_find_some in H as (-> & _). unfold mr_start. apply slice_from_app.
Qed.
Lemma slice_to_start : forall r s m, re_find r s = Some m -> slice_to s (mr_start m) = Some (mr_pre m).
Proof.
  intros r s m H. apply re_find_some in H as (-> & _). unfold mr_start. apply slice_to_app.
Qed.
Lemma slice_from_end : forall r s m, re_find r s = Some m -> slice_from s (mr_end m) = Some (mr_post m).
Proof.
  intros r s m H. apply re_find_some in H as (-> & _). unfold mr_end.
  rewrite app_assoc, <- blen_app. apply slice_from_app.
Qed.
Lemma mr_start_0 : forall m, Nat.eqb (mr_start m) 0 = true <-> mr_pre m = [].
Proof. intros. rewrite Nat.eqb_eq. unfold mr_start. apply blen_nil_iff. Qed.

(** A match at the start is found iff a prefix is in the language. *)
Lemma found_at_start_spec : forall r s,
  found_at_start (re_find r s) = true <-> matches_prefix (re_ast r) s.
Proof.
  intros r s. split.
  - intros H. destruct (re_find r s) eqn:E; [|discriminate]. cbn in H. apply mr_start_0 in H.
    apply re_find_some in E as (H1 & H2 & _). rewrite H in *. exists (mr_text m), (mr_post m). easy.
  - intros H. destruct (re_find_at_start r s H) as (m & -> & Hp). cbn. now apply mr_start_0.
Qed.

(** ** extract, natural *)
Lemma extract_shape : forall v, extract v = Err tt \/
  exists pre r post, extract v = Ok r /\ v = pre ++ r ++ post /\ r <> [].
Proof.
  intros v. unfold extract. destruct (re_find VALID_START_CHAR v) eqn:E1; [|now left].
  rewrite (slice_from_start _ _ _ E1). cbn [unwrap obind].
  pose proof E1 as H1. apply re_find_some in H1 as (Hv & _).
  set (r0 := (mr_text m ++ mr_post m) : str) in *.
  assert (S1 : exists r1 p1, match re_find UNWANTED_END_CHARS r0 with
              | Some t => unwrap (slice_to r0 (mr_start t)) | None => @Ok unit str r0 end = Ok r1
              /\ r0 = r1 ++ p1).
  { destruct (re_find UNWANTED_END_CHARS r0) eqn:E2.
    - rewrite (slice_to_start _ _ _ E2). apply re_find_some in E2 as (H2 & _). eexists _, _. cbn. eauto.
    - exists r0, []. now rewrite app_nil_r. }
  destruct S1 as (r1 & p1 & -> & Hr0). cbn [obind].
  assert (S2 : exists r2 p2, match re_find SECOND_NUMBER_START r1 with
              | Some t => unwrap (slice_to r1 (mr_start t)) | None => @Ok unit str r1 end = Ok r2
              /\ r1 = r2 ++ p2).
  { destruct (re_find SECOND_NUMBER_START r1) eqn:E2.
    - rewrite (slice_to_start _ _ _ E2). apply re_find_some in E2 as (H2 & _). eexists _, _. cbn. eauto.
    - exists r1, []. now rewrite app_nil_r. }
  destruct S2 as (r2 & p2 & -> & Hr1). cbn [obind].
  destruct r2 as [|c r2]; [now left|]. right.
  exists (mr_pre m), (c :: r2), (p2 ++ p1). split; [|split; [|easy]].
  - rewrite Hv, Hr0, Hr1. unfold mr_start. rewrite <- blen_app, <- !app_assoc.
    rewrite app_assoc, slice_from_app. reflexivity.
  - rewrite Hv, Hr0, Hr1. now rewrite <- !app_assoc.
Qed.
Lemma extract_no_panic : forall v, extract v <> Panic.
Proof. intros v. destruct (extract_shape v) as [->|(p & r & q & -> & _)]; easy. Qed.

Lemma natural_no_panic : forall v, natural v <> Panic.
Proof.
  intros v. unfold natural. apply no_panic_bind; [apply extract_no_panic|].
  intros i _. destruct (re_find EXTN_PATTERN i) eqn:E; [|easy].
  destruct (cap_get m 2); [|easy]. rewrite (slice_to_start _ _ _ E). easy.
Qed.

Lemma p_phone_number_no_panic : forall s, p_phone_number s <> Panic.
Proof.
  intros s. unfold p_phone_number. destruct (rfc3966 s); [easy|].
  pose proof (natural_no_panic s). destruct (natural s); easy.
Qed.

(** ** Normalisation yields ASCII digits *)
Definition mapping_ok (m : list (char * char)) : Prop :=
  forall c d, map_get m c = Some d -> is_digit d = true.
Lemma map_get_in : forall m c d, map_get m c = Some d -> In d (map snd m).
Proof.
  induction m as [|[k v] m IH]; cbn; intros c d H; [easy|].
  destruct (N.eqb k c); [inversion H; auto|right; eauto].
Qed.
Lemma mapping_ok_check : forall m, forallb is_digit (map snd m) = true -> mapping_ok m.
Proof. intros m H c d Hc. apply map_get_in in Hc. rewrite forallb_forall in H. auto. Qed.
Lemma ascii_mappings_ok : mapping_ok ASCII_MAPPINGS.
Proof. apply mapping_ok_check. reflexivity. Qed.
Lemma alpha_mappings_ok : mapping_ok ALPHA_PHONE_MAPPINGS.
Proof. apply mapping_ok_check. reflexivity. Qed.

Lemma script_digit_ok : forall l c d, script_digit l c = Some d -> is_digit d = true.
Proof.
  induction l; cbn; intros c d H; [easy|].
  unfold in_range in H.
  destruct (N.leb_spec a c), (N.leb_spec c (a + 9)); cbn in H; eauto.
  inversion H; subst. apply is_digit_spec. lia.
Qed.
Lemma as_dec_digit_ok : forall c d, as_dec_digit c = Some d -> is_digit d = true.
Proof.
  intros c d H. unfold as_dec_digit in H. destruct (is_digit c) eqn:E; [congruence|].
  eapply script_digit_ok; eauto.
Qed.

Lemma digits_flat_map : forall (f : char -> str) s, (forall c, digits (f c) = true) ->
  digits (flat_map f s) = true.
Proof. induction s; intros H; cbn; [easy|]. rewrite digits_app, H. now apply IHs. Qed.
Lemma act_push_ok : forall m c, mapping_ok m -> digits (act_push m c) = true.
Proof.
  intros m c Hm. unfold act_push. destruct (as_dec_digit c) eqn:E.
  - cbn. now rewrite (as_dec_digit_ok _ _ E).
  - destruct (map_get m c) eqn:E2; [|easy]. cbn. now rewrite (Hm _ _ E2).
Qed.
Lemma act_digits : forall m v, mapping_ok m -> digits (act m v) = true.
Proof.
  intros m v Hm. unfold act. destruct (span is_digit v) as [d r] eqn:E.
  apply span_spec in E as (-> & Hd & _). destruct r.
  - rewrite app_nil_r. exact Hd.
  - rewrite digits_app. fold (digits d) in Hd. rewrite Hd.
    apply digits_flat_map. intros; now apply act_push_ok.
Qed.
(** what is already digits is left alone *)
Lemma act_id : forall m v, digits v = true -> act m v = v.
Proof. intros m v H. unfold act. rewrite span_all by exact H. reflexivity. Qed.
(** [act] is the concatenation of what each character contributes *)
Lemma act_flat_map : forall m v, act m v = flat_map (act_push m) v.
Proof.
  intros m v. unfold act. destruct (span is_digit v) as [d r] eqn:E.
  apply span_spec in E as (-> & Hd & _).
  assert (Hx : flat_map (act_push m) d = d).
  { induction d; cbn in *; [easy|]. apply andb_true_iff in Hd as [H1 H2].
    unfold act_push at 1, as_dec_digit. rewrite H1. cbn. now rewrite IHd. }
  rewrite flat_map_app, Hx. destruct r; [cbn; easy|easy].
Qed.

Definition odigits (o : option str) : bool := match o with Some s => digits s | None => true end.

Record norm (n : number) : Prop := {
  norm_nat : digits (pn_national n) = true;
  norm_pre : odigits (pn_prefix n) = true;
  norm_ext : odigits (pn_extension n) = true }.

Lemma normalize_norm : forall m n, mapping_ok m -> norm (normalize m n).
Proof.
  intros m n Hm. constructor; cbn.
  - now apply act_digits.
  - destruct (pn_prefix n); cbn; [now apply act_digits|easy].
  - destruct (pn_extension n); cbn; [now apply act_digits|easy].
Qed.

(** ** international_prefix *)
Lemma digits_sub : forall a b c, digits (a ++ b ++ c) = true ->
  digits a = true /\ digits b = true /\ digits c = true.
Proof.
  intros a b c H. rewrite !digits_app in H. apply andb_true_iff in H as [H1 H].
  apply andb_true_iff in H as [H2 H3]. auto.
Qed.

Lemma strip_idd_ok : forall E idd n, norm n -> exists n', @strip_idd E idd n = Ok n' /\ norm n'
  /\ pn_prefix n' = pn_prefix n /\ pn_extension n' = pn_extension n /\ pn_carrier n' = pn_carrier n.
Proof.
  intros E idd n Hn. unfold strip_idd.
  destruct idd as [r|]; [|exists n; auto].
  destruct (re_find r (pn_national n)) as [m|] eqn:Em; [|exists n; auto].
  destruct (mr_start m =? 0); [|exists n; auto].
  unfold trim. rewrite (slice_from_end _ _ _ Em). cbn [unwrap obind].
  destruct (starts_with (mr_post m) [ch_0]); [exists n; auto|].
  eexists. split; [reflexivity|].
  assert (D : digits (mr_post m) = true).
  { apply re_find_some in Em as (Em & _). pose proof (norm_nat _ Hn) as D. rewrite Em in D.
    now apply digits_sub in D. }
  destruct (pn_country n); cbn; (split; [constructor; cbn; auto; apply Hn|auto]).
Qed.

Definition choose_mappings (s : str) : list (char * char) :=
  if re_is_match VALID_ALPHA_PHONE s then ALPHA_PHONE_MAPPINGS else ASCII_MAPPINGS.
Lemma choose_mappings_ok : forall s, mapping_ok (choose_mappings s).
Proof.
  intros s. unfold choose_mappings. destruct (re_is_match _ _);
    auto using alpha_mappings_ok, ascii_mappings_ok.
Qed.

Lemma slice_from_plus : forall s, slice_from s (ignore_plus_len s) = Some (snd (span is_plus s)).
Proof.
  intros s. unfold ignore_plus_len. destruct (span is_plus s) as [a b] eqn:E. cbn.
  apply span_spec in E as (-> & _). apply slice_from_app.
Qed.

Lemma international_prefix_ok : forall E idd n, exists n', @international_prefix E idd n = Ok n' /\ norm n'
  /\ pn_prefix n' = option_map (act (choose_mappings (pn_national n))) (pn_prefix n)
  /\ pn_extension n' = option_map (act (choose_mappings (pn_national n))) (pn_extension n)
  /\ pn_carrier n' = pn_carrier n.
Proof.
  intros E idd n. unfold international_prefix. fold (choose_mappings (pn_national n)).
  set (mp := choose_mappings (pn_national n)). pose proof (choose_mappings_ok (pn_national n)) as Hm.
  fold mp in Hm. destruct (pn_prefix n) as [p|] eqn:Ep.
  - eexists. split; [reflexivity|]. split; [now apply normalize_norm|]. cbn. rewrite Ep. auto.
  - unfold trim. rewrite slice_from_plus. cbn [unwrap obind].
    destruct (negb _).
    + set (n1 := normalize mp _). assert (Hn1 : norm n1) by (now apply normalize_norm).
      destruct (negb _).
      * exists n1. split; [easy|]. split; [easy|]. subst n1. cbn. rewrite Ep. auto.
      * destruct (strip_idd_ok E idd n1 Hn1) as (n' & -> & H1 & H2 & H3 & H4).
        exists n'. split; [easy|]. split; [easy|]. rewrite H2, H3, H4. subst n1. cbn. rewrite Ep. auto.
    + set (n1 := normalize mp _). assert (Hn1 : norm n1) by (now apply normalize_norm).
      destruct (strip_idd_ok E idd n1 Hn1) as (n' & -> & H1 & H2 & H3 & H4).
      exists n'. split; [easy|]. split; [easy|]. rewrite H2, H3, H4. subst n1. cbn. rewrite Ep. auto.
Qed.

(** ** find_code *)
Lemma digits_val_3 : forall s, digits s = true -> length s <= 3 -> (digits_val s <= u16_max)%N.
Proof.
  intros s H Hl. pose proof (digits_val_lt_pow s H) as B.
  assert (10 ^ N.of_nat (length s) <= 10 ^ 3)%N by (apply N.pow_le_mono_r; lia).
  unfold u16_max. lia.
Qed.

Lemma find_code_step : forall db n len lens, digits (pn_national n) = true -> 1 <= len <= 3 ->
  3 <= length (pn_national n) ->
  find_code db n (len :: lens) =
  let code := digits_val (firstn len (pn_national n)) in
  if is_some (by_code db code)
  then Ok (set_prefix (set_national n (skipn len (pn_national n))) (Some (dec code)))
  else find_code db n lens.
Proof.
  intros db n len lens Hd Hl Hn. cbn [find_code].
  rewrite slice_to_digits by (auto; lia). cbn [unwrap obind].
  unfold parse_u16. rewrite parse_uint_digits.
  - cbn [unwrap obind]. unfold trim. rewrite slice_from_digits by (auto; lia). reflexivity.
  - now apply digits_firstn.
  - intros H. apply (f_equal (@length _)) in H. rewrite firstn_length in H. cbn in H. lia.
  - apply digits_val_3; [now apply digits_firstn|]. rewrite firstn_length. lia.
Qed.

(** The outcome of the search for a calling code. *)
Lemma find_code_ok : forall db n lens, norm n -> (forall l, In l lens -> 1 <= l <= 3) ->
  3 <= length (pn_national n) ->
  find_code db n lens = Err InvalidCountryCode \/
  exists len, In len lens /\
    let code := digits_val (firstn len (pn_national n)) in
    is_some (by_code db code) = true /\
    find_code db n lens =
      Ok (set_prefix (set_national n (skipn len (pn_national n))) (Some (dec code))).
Proof.
  induction lens as [|len lens IH]; intros Hn Hl H3; [now left|].
  rewrite find_code_step; [|apply Hn|apply Hl; now left|easy].
  cbn zeta. destruct (is_some (by_code db _)) eqn:E.
  - right. exists len. split; [now left|]. auto.
  - destruct IH as [->|(l & I & H1 & ->)]; auto.
    + intros l I. apply Hl. now right.
    + right. exists l. split; [now right|]. auto.
Qed.

(** ** The database conditions under which nothing panics *)
(** Everything a lookup can return. *)
Definition db_has (db : database) (m : metadata) : Prop :=
  (exists k, by_id db k = Some m) \/ (exists c l, by_code db c = Some l /\ In m l).

Lemma source_loop_no_panic : forall db nat_ regions,
  (forall r, In r regions -> by_id db r <> None /\ id_of_name r <> None) ->
  source_loop db nat_ regions <> Panic.
Proof.
  induction regions as [|r rs IH]; intros H; cbn [source_loop]; [easy|].
  destruct (H r (or_introl eq_refl)) as [H1 H2].
  destruct (by_id db r); [|easy]. cbn [unwrap obind].
  destruct (match md_leading_digits m with Some _ => _ | None => _ end).
  - destruct (id_of_name r); easy.
  - apply IH. intros r' I. apply H. now right.
Qed.

Definition regions_known (db : database) : Prop :=
  forall c regions r, region db c = Some regions -> 2 <= length regions -> In r regions ->
  by_id db r <> None /\ id_of_name r <> None.

Lemma source_for_no_panic : forall db c nat_, regions_known db ->
  region db c <> Some [] -> source_for db c nat_ <> Panic.
Proof.
  intros db c nat_ H Hne. unfold source_for. destruct (region db c) as [[|r [|r2 rs]]|] eqn:E; try easy.
  - destruct (str_eqb r (lit "001")); [easy|]. destruct (id_of_name r); easy.
  - apply source_loop_no_panic. intros r' I. eapply H; eauto. cbn. lia.
Qed.

Lemma source_meta_has : forall db s m, source_meta db s = Some m -> db_has db m.
Proof.
  intros db [[i|c]|] m H; cbn in H; [left; eauto| |easy].
  right. destruct (by_code db c) as [[|m' l]|] eqn:E; try easy. inversion H; subst.
  exists c, (m :: l). split; [easy|now left].
Qed.

(** ** national_number *)
(** The rule for transforming national numbers is usable: whenever its pattern
    matches with the last group taking part, the first group took part. *)
Definition transform_ok (m : metadata) : Prop :=
  forall p tr s mr, md_national_prefix_for_parsing m = Some p ->
    md_national_prefix_transform_rule m = Some tr ->
    re_find p s = Some mr -> cap_get mr (re_ngroups p) <> None -> cap_get mr 1 <> None.

Lemma national_number_no_panic : forall E m n, transform_ok m -> @national_number E m n <> Panic.
Proof.
  intros E m n Ht. unfold national_number.
  destruct (md_national_prefix_for_parsing m) as [p|] eqn:Ep.
  - destruct (re_find p (pn_national n)) as [mr|] eqn:Er; [|easy].
    destruct (negb (mr_start mr =? 0)); [easy|].
    assert (Hplain : (let* tail := unwrap (slice_from (pn_national n) (mr_start mr)) in
            if d_is_match (ds_general (md_descriptors m)) (pn_national n)
               && negb (d_is_match (ds_general (md_descriptors m)) tail)
            then Ok n
            else
              let n1 := set_carrier n (if 0 <? re_captures_len p
                          then option_map cap_text (cap_get mr (re_captures_len p - 1)) else None) in
              let* t := trim (pn_national n) (mr_end mr) in Ok (set_national n1 t)) <> @Panic E _).
    { rewrite (slice_from_start _ _ _ Er). cbn [unwrap obind]. unfold trim.
      rewrite (slice_from_end _ _ _ Er). cbn [unwrap obind]. destruct (_ && _); easy. }
    destruct (md_national_prefix_transform_rule m) as [tr|] eqn:Etr; [|exact Hplain].
    destruct (option_map cap_text (cap_get mr (re_captures_len p - 1))) eqn:El; [|exact Hplain].
    destruct (_ && _); [easy|].
    unfold re_captures_len in El. rewrite Nat.sub_succ, Nat.sub_0_r in El.
    specialize (Ht p tr (pn_national n) mr Ep Etr Er).
    destruct (cap_get mr (re_ngroups p)); [|discriminate].
    destruct (cap_get mr 1); [easy|]. now exfalso; apply Ht.
  - destruct (md_national_prefix m) as [prefix|]; [|easy].
    destruct (starts_with (pn_national n) prefix) eqn:Es; [|easy].
    apply starts_with_spec in Es as (t & ->). unfold trim. rewrite slice_from_app. easy.
Qed.

Lemma strip_national_no_panic : forall meta n, (forall m, meta = Some m -> transform_ok m) ->
  strip_national meta n <> Panic.
Proof.
  intros [m|] n H; cbn [strip_national]; [|easy].
  apply no_panic_bind; [apply national_number_no_panic; auto|].
  intros p _. apply no_panic_bind.
  - destruct (md_national_prefix m) as [prefix|]; [|easy].
    destruct (starts_with (pn_national p) prefix) eqn:Es; [|easy].
    apply starts_with_spec in Es as (t & ->). unfold trim. rewrite slice_from_app. easy.
  - intros q _. destruct (v_length _ _ _); easy.
Qed.

(** ** finish *)
Lemma slice_from_zeros : forall s, exists t, slice_from s (count_zeros s) = Some t
  /\ s = repeat 48%N (count_zeros s) ++ t /\ match t with c :: _ => c <> 48%N | [] => True end.
Proof.
  induction s as [|c s (t & IH1 & IH2 & IH3)]; cbn [count_zeros].
  - now exists [].
  - destruct (N.eqb_spec c 48).
    + subst. exists t. cbn. split; [|split; [f_equal; exact IH2|easy]].
      now rewrite Nat.sub_0_r.
    + exists (c :: s). easy.
Qed.

Lemma nn_parse_no_panic : forall s, nn_parse s <> Panic.
Proof.
  intros s. unfold nn_parse. destruct (slice_from_zeros s) as (t & -> & _). cbn [unwrap obind].
  destruct (parse_u64 t); cbn; [|easy]. unfold nn_new. destruct (_ <=? _)%N; easy.
Qed.

Lemma prefix_value_no_panic : forall n, prefix_value n <> Panic.
Proof. intros n. unfold prefix_value. destruct (pn_prefix n); [|easy]. destruct (parse_u16 s); easy. Qed.

Lemma finish_no_panic : forall n, finish n <> Panic.
Proof.
  intros n. unfold finish. destruct (_ <? _); [easy|]. destruct (_ <? _); [easy|].
  apply no_panic_bind; [apply prefix_value_no_panic|]. intros c _.
  apply no_panic_bind; [apply nn_parse_no_panic|]. easy.
Qed.

(** ** country_code *)
Lemma country_code_no_panic : forall db country n,
  (forall c, country = Some c -> by_id db (id_name c) <> None) ->
  country_code db country n <> Panic.
Proof.
  intros db country n Hc. unfold country_code.
  destruct (international_prefix_ok perr
    (match match country with
           | Some c => match by_id db (id_name c) with Some m => md_international_prefix m | None => None end
           | None => None end
     with Some r => Some r
        | None => match country with None => Some DEFAULT_IDD | Some _ => None end end) n)
    as (n1 & -> & Hn1 & _). cbn [obind].
  assert (Hrest : (if blen (pn_national n1) <=? MIN_LENGTH_FOR_NSN then Err TooShortNsn
      else match pn_prefix n1 with
           | Some p => let* prefix := ok_or (parse_u16 p) MalformedInteger in
               match by_code db prefix with None => Err InvalidCountryCode | Some _ => Ok n1 end
           | None => if starts_with (pn_national n1) [ch_0] then Err InvalidCountryCode
                     else find_code db n1 (seq 1 MAX_LENGTH_FOR_COUNTRY_CODE)
           end) <> Panic).
  { destruct (Nat.leb_spec (blen (pn_national n1)) MIN_LENGTH_FOR_NSN); [easy|].
    destruct (pn_prefix n1) as [p|].
    - destruct (parse_u16 p); cbn; [|easy]. destruct (by_code db n0); easy.
    - destruct (starts_with (pn_national n1) [ch_0]); [easy|].
      rewrite digits_blen in H by apply Hn1. unfold MIN_LENGTH_FOR_NSN in H.
      destruct (find_code_ok db n1 (seq 1 MAX_LENGTH_FOR_COUNTRY_CODE) Hn1) as [->|(len & _ & _ & ->)];
        [| |easy|easy].
      + intros l I. apply in_seq in I. unfold MAX_LENGTH_FOR_COUNTRY_CODE in I. lia.
      + lia. }
  destruct (pn_country n1); try exact Hrest.
  destruct country as [c|]; [|easy]. specialize (Hc c eq_refl).
  destruct (by_id db (id_name c)) as [meta|]; [|easy]. cbn [unwrap obind].
  apply no_panic_bind; [|easy].
  destruct (_ && _) eqn:Ec; [|easy].
  apply andb_true_iff in Ec as [Ec _]. apply starts_with_spec in Ec as (t & ->).
  unfold trim. rewrite slice_from_app. easy.
Qed.

(** ** parse_with *)
Record db_sane (db : database) (country : option id) : Prop := {
  sane_country : forall c, country = Some c -> by_id db (id_name c) <> None;
  sane_regions : regions_known db;
  sane_nonempty : forall c, region db c <> Some [];
  sane_transform : forall m, db_has db m -> transform_ok m }.

Lemma parse_with_no_panic : forall db country s, db_sane db country -> parse_with db country s <> Panic.
Proof.
  intros db country s [H1 H2 H3 H4]. unfold parse_with.
  apply no_panic_bind; [apply p_phone_number_no_panic|]. intros n _.
  destruct (negb _); [easy|].
  apply no_panic_bind; [now apply country_code_no_panic|]. intros n1 _.
  apply no_panic_bind.
  - unfold select_meta.
    assert (Hs : (let* code := prefix_value n1 in
            let* s0 := source_for db code (trim_start_char ch_0 (pn_national n1)) in
            Ok (source_meta db s0)) <> Panic).
    { apply no_panic_bind; [apply prefix_value_no_panic|]. intros code _.
      apply no_panic_bind; [now apply source_for_no_panic|]. easy. }
    destruct country; [|exact Hs]. destruct (pn_country n1); [exact Hs..|easy].
  - intros meta Hmeta. apply no_panic_bind; [|intros; apply finish_no_panic].
    apply strip_national_no_panic. intros m ->. apply H4.
    unfold select_meta in Hmeta.
    assert (Hs : (let* code := prefix_value n1 in
            let* s0 := source_for db code (trim_start_char ch_0 (pn_national n1)) in
            Ok (source_meta db s0)) = Ok (Some m) -> db_has db m).
    { intros Hx. apply obind_ok in Hx as (code & _ & Hx). apply obind_ok in Hx as (s0 & _ & Hx).
      inversion Hx. eapply source_meta_has; eauto. }
    destruct country as [c|]; [|auto]. destruct (pn_country n1); auto.
    inversion Hmeta. left. eauto.
Qed.

(** ** A boolean check that implies the conditions *)
Definition transform_check (m : metadata) : bool :=
  match md_national_prefix_for_parsing m, md_national_prefix_transform_rule m with
  | Some p, Some _ => if 1 <=? re_ngroups p then implies (re_ngroups p) 1 (re_ast p) else false
  | _, _ => true
  end.
Lemma transform_check_ok : forall m, transform_check m = true -> transform_ok m.
Proof.
  intros m H p tr s mr Hp Htr Hf Hl. unfold transform_check in H. rewrite Hp, Htr in H.
  destruct (Nat.leb_spec 1 (re_ngroups p)); [|discriminate].
  destruct (re_ngroups p) as [|g]; [lia|]. cbn in Hl |- *.
  pose proof (re_find_implies _ _ _ _ _ H Hf) as Hi.
  destruct (cap_lookup (S g) (mr_caps mr)); [|easy].
  specialize (Hi eq_refl). destruct (cap_lookup 1 (mr_caps mr)); easy.
Qed.

Definition regions_check (db : database) : bool :=
  forallb (fun p => match snd p with
                    | [] => false
                    | [_] => true
                    | l => forallb (fun r => is_some (by_id db r) && is_some (id_of_name r)) l
                    end) (db_regions db).
Definition db_check (db : database) : bool :=
  forallb (fun i => is_some (by_id db (id_name i))) all_ids
  && regions_check db
  && forallb (fun p => transform_check (snd p)) (db_by_id db)
  && forallb (fun p => forallb transform_check (snd p)) (db_by_code db).

Lemma nget_in : forall A (m : list (N * A)) k v, nget m k = Some v -> In (k, v) m.
Proof.
  induction m as [|[k0 v0] m IH]; intros k v H; cbn in H; [easy|].
  destruct (N.eqb_spec k0 k); [inversion H; subst; now left|right; auto].
Qed.

Lemma db_check_sane : forall db country, db_check db = true -> db_sane db country.
Proof.
  intros db country H. unfold db_check in H.
  apply andb_true_iff in H as [H H4]. apply andb_true_iff in H as [H H3].
  apply andb_true_iff in H as [H1 H2].
  unfold regions_check in H2. rewrite forallb_forall in H1, H2, H3, H4. constructor.
  - intros c _. specialize (H1 c (all_ids_complete c)). destruct (by_id _ _); easy.
  - intros c l r Hr Hl I. apply nget_in in Hr. apply H2 in Hr. cbn [snd] in Hr.
    destruct l as [|r1 [|r2 l]]; cbn in Hl; [lia|lia|].
    rewrite forallb_forall in Hr. apply Hr in I. apply andb_true_iff in I as [I1 I2].
    destruct (by_id db r), (id_of_name r); easy.
  - intros c Hr. apply nget_in in Hr. apply H2 in Hr. easy.
  - intros m [(k & Hk)|(c & l & Hc & I)]; apply transform_check_ok.
    + apply sget_in in Hk. now apply H3 in Hk.
    + apply nget_in in Hc. apply H4 in Hc. cbn in Hc. rewrite forallb_forall in Hc. auto.
Qed.
