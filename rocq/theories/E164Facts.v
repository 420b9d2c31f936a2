(** * E164Facts: parsing '+' followed by digits *)
From Verif Require Import Base Unicode Regex RegexSyntax Consts CountryId Types NationalNumber
  Metadata Database Validator Valid Number Rfc3966 Helper Natural PhoneNumber Parser.
From Verif Require Import StrFacts NationalFacts RegexLang RegexFacts RegexCaps DatabaseFacts ParserFacts
  ParseInv TextFacts ViableFacts PhoneText.

(** ** Texts without extension or second number *)
(** ASCII digits, plus signs and the usual separators *)
Definition plain_chars : list char := lit "0123456789+ -.()/".
Definition plain (s : str) : Prop := forall c, In c s -> In c plain_chars.

Lemma plain_extn : forall s, plain s -> re_find EXTN_PATTERN s = None.
Proof. intros s H. apply (avoids_find _ plain_chars); [vm_compute; reflexivity|exact H]. Qed.
Lemma plain_second : forall s, plain s -> cut_second s = s.
Proof.
  intros s H. unfold cut_second. rewrite (avoids_find _ plain_chars); [easy|vm_compute; reflexivity|exact H].
Qed.
Lemma plain_alpha : forall s, plain s -> choose_mappings s = ASCII_MAPPINGS.
Proof.
  intros s H. unfold choose_mappings, re_is_match.
  rewrite (avoids_find VALID_ALPHA_PHONE plain_chars); [easy|vm_compute; reflexivity|exact H].
Qed.

Lemma digit_plain : forall c, is_digit c = true -> In c plain_chars.
Proof.
  intros c H. apply is_digit_spec in H.
  assert (E : (c = 48 \/ c = 49 \/ c = 50 \/ c = 51 \/ c = 52 \/ c = 53 \/ c = 54 \/ c = 55 \/ c = 56 \/ c = 57)%N) by lia.
  repeat (destruct E as [E|E]; [subst c; vm_compute; auto 20; fail|]). subst c. vm_compute; auto 20.
Qed.
Lemma digits_plain : forall s, digits s = true -> plain s.
Proof. intros s H c I. apply digit_plain. unfold digits in H. rewrite forallb_forall in H. auto. Qed.
Lemma plus_digits_plain : forall s, digits s = true -> plain (ch_plus :: s).
Proof. intros s H c [<-|I]; [vm_compute; auto 20|now apply digits_plain in H; apply H]. Qed.

Lemma digit_N : forall c, is_digit c = true -> unwanted_end c = false.
Proof.
  intros c H. unfold unwanted_end.
  assert (E : in_ranges tbl_N c = true); [|now rewrite E].
  apply is_digit_spec in H. change tbl_N with ((48%N, 57%N) :: tl tbl_N). cbn [in_ranges]. unfold in_range.
  destruct (N.leb_spec 48 c), (N.leb_spec c 57); try lia. easy.
Qed.

(** ** '+' and digits: the natural form *)
Lemma natural_plain : forall a x, plain (a ++ [x]) -> start_char (hd 0%N (a ++ [x])) = true ->
  unwanted_end x = false ->
  natural (a ++ [x]) = Ok (mk_number SrcDefault (a ++ [x]) None None None).
Proof.
  intros a x Hp Hs Hx. unfold natural. rewrite extract_ends; auto using plain_second. cbn [obind].
  now rewrite plain_extn.
Qed.

Lemma sep_not_digit_r : forall c, is_digit c = true -> r_separator c = false.
Proof.
  intros c H. apply is_digit_spec in H. unfold r_separator.
  destruct (N.eqb_spec c 45), (N.eqb_spec c 46), (N.eqb_spec c 40), (N.eqb_spec c 41); try lia; easy.
Qed.

Lemma mem_space_digits : forall d, digits d = true -> mem_char 32%N d = false.
Proof.
  intros d H. unfold mem_char. destruct (existsb (N.eqb 32%N) d) eqn:E; [|easy].
  apply existsb_exists in E as (x & I & E). apply N.eqb_eq in E. subst x.
  unfold digits in H. rewrite forallb_forall in H. apply H in I. discriminate.
Qed.

Lemma rfc_plus_digits : forall d, digits d = true -> rfc3966 (ch_plus :: d) = None.
Proof.
  intros d H. unfold rfc3966. change (mem_char 32%N (ch_plus :: d)) with (mem_char 32%N d).
  rewrite mem_space_digits by exact H.
  assert (Ht : tag_tel (ch_plus :: d) = None) by (destruct d as [|b [|c [|e d]]]; reflexivity).
  rewrite Ht. unfold r_prefix. cbn [N.eqb ch_plus].
  change (N.eqb ch_plus 43) with true. cbv iota.
  rewrite span_all.
  - destruct d; reflexivity.
  - apply forallb_forall. intros x I. unfold digits in H. rewrite forallb_forall in H. apply H in I.
    now rewrite sep_not_digit_r.
Qed.

Lemma p_phone_plus_digits : forall d, digits d = true -> d <> [] ->
  p_phone_number (ch_plus :: d) = Ok (mk_number SrcDefault (ch_plus :: d) None None None).
Proof.
  intros d H Hne. unfold p_phone_number. rewrite rfc_plus_digits by exact H.
  destruct (last_inv _ d) as [->|(a & x & ->)]; [easy|].
  change (ch_plus :: a ++ [x]) with ((ch_plus :: a) ++ [x]). rewrite natural_plain.
  - reflexivity.
  - change ((ch_plus :: a) ++ [x]) with (ch_plus :: a ++ [x]). now apply plus_digits_plain.
  - reflexivity.
  - apply digit_N. rewrite digits_app in H. apply andb_true_iff in H as [_ H]. cbn in H. now rewrite andb_true_r in H.
Qed.

Lemma viable_plus_digits : forall d, digits d = true -> is_viable (ch_plus :: d) = (3 <=? length d).
Proof.
  intros d H. destruct (is_viable (ch_plus :: d)) eqn:E.
  - symmetry. apply Nat.leb_le. apply is_viable_spec in E as [(a & b & E & Ha & _)|E].
    + inversion E; subst. discriminate.
    + destruct E as (plus & g1 & d1 & g2 & d2 & g3 & d3 & rest & E & _ & A1 & _ & _ & B1 & _).
      assert (plus <> [] \/ g1 <> [] \/ (plus = [] /\ g1 = [])) as Hc by (destruct plus; [destruct g1; [auto|right; left; easy]|left; easy]).
      assert (L : length (ch_plus :: d) = length (plus ++ g1 ++ d1 :: g2 ++ d2 :: g3 ++ d3 :: rest)) by (f_equal; exact E).
      repeat (rewrite app_length in L; cbn [length] in L).
      destruct Hc as [Hc|[Hc|[-> ->]]].
      * destruct plus; [easy|]. cbn in L. lia.
      * destruct g1; [easy|]. cbn in L. lia.
      * cbn [app] in E. inversion E; subst. discriminate.
  - destruct (Nat.leb_spec 3 (length d)); [|easy]. exfalso.
    assert (V : is_viable (ch_plus :: d) = true); [|congruence].
    apply is_viable_spec. right. destruct d as [|d1 [|d2 [|d3 rest]]]; cbn in H0; try lia.
    cbn in H. repeat (apply andb_true_iff in H as [? H]).
    exists [ch_plus], [], d1, [], d2, [], d3, rest. repeat split; auto.
    apply forallb_forall. intros x I. rewrite forallb_forall in H. apply H in I. unfold tail_char. rewrite I.
    now rewrite orb_true_r.
Qed.

(** ** The calling code *)
(** the international prefix pattern does not match at the start *)
Definition idd_free (idd : option regex) (d : str) : Prop :=
  match idd with Some r => ~ matches_prefix (re_ast r) d | None => True end.

Lemma idd_free_found : forall idd d, idd_free idd d ->
  found_at_start (match idd with Some r => re_find r d | None => None end) = false.
Proof.
  intros [r|] d H; [|easy]. destruct (found_at_start (re_find r d)) eqn:E; [|easy].
  apply found_at_start_spec in E. now elim H.
Qed.

Lemma international_prefix_plus : forall E idd d, digits d = true -> idd_free idd d ->
  @international_prefix E idd (mk_number SrcDefault (ch_plus :: d) None None None)
  = Ok (mk_number SrcPlus d None None None).
Proof.
  intros E idd d Hd Hi. unfold international_prefix. cbn [pn_national pn_prefix].
  fold (choose_mappings (ch_plus :: d)).
  assert (Hs : span is_plus (ch_plus :: d) = ([ch_plus], d)).
  { cbn [span]. change (is_plus ch_plus) with true. cbv iota. destruct d as [|c d]; [easy|].
    cbn [span]. cbn in Hd. apply andb_true_iff in Hd as [Hc _]. now rewrite digit_not_plus. }
  rewrite ignore_plus_len_0. change (starts_plus (ch_plus :: d)) with true. cbv iota.
  unfold trim. rewrite slice_from_plus, Hs. cbn [unwrap snd obind].
  cbn [normalize set_national set_country pn_country pn_national pn_prefix pn_extension pn_carrier option_map].
  rewrite act_id by exact Hd. rewrite idd_free_found by exact Hi. cbn [negb].
  unfold normalize, set_national, set_country. cbn [pn_country pn_national pn_prefix pn_extension pn_carrier option_map].
  now rewrite act_id by exact Hd.
Qed.

(** the first length in 1, 2, 3 whose digits are a known calling code *)
Definition code_len (db : database) (d : str) : option nat :=
  find (fun k => is_some (by_code db (digits_val (firstn k d)))) [1; 2; 3].

Lemma find_code_spec : forall db n, norm n -> 3 <= length (pn_national n) ->
  find_code db n (seq 1 MAX_LENGTH_FOR_COUNTRY_CODE) =
  match code_len db (pn_national n) with
  | Some k => Ok (set_prefix (set_national n (skipn k (pn_national n)))
                    (Some (dec (digits_val (firstn k (pn_national n))))))
  | None => Err InvalidCountryCode
  end.
Proof.
  intros db n Hn Hl. unfold MAX_LENGTH_FOR_COUNTRY_CODE, code_len. cbn [seq find].
  rewrite !find_code_step by (try apply Hn; lia). cbn zeta.
  destruct (is_some (by_code db (digits_val (firstn 1 (pn_national n))))); [easy|].
  destruct (is_some (by_code db (digits_val (firstn 2 (pn_national n))))); [easy|].
  destruct (is_some (by_code db (digits_val (firstn 3 (pn_national n))))); easy.
Qed.

Lemma country_code_plus : forall db country d, digits d = true -> 3 <= length d ->
  idd_free (idd_of db country) d ->
  country_code db country (mk_number SrcDefault (ch_plus :: d) None None None) =
  if starts_with d [ch_0] then Err InvalidCountryCode else
  match code_len db d with
  | Some k => Ok (mk_number SrcPlus (skipn k d) (Some (dec (digits_val (firstn k d)))) None None)
  | None => Err InvalidCountryCode
  end.
Proof.
  intros db country d Hd Hl Hi. unfold country_code. fold (idd_of db country).
  rewrite international_prefix_plus by easy. cbn [obind pn_country pn_national pn_prefix].
  rewrite digits_blen by easy. destruct (Nat.leb_spec (length d) MIN_LENGTH_FOR_NSN).
  { unfold MIN_LENGTH_FOR_NSN in *. lia. }
  destruct (starts_with d [ch_0]); [easy|]. rewrite find_code_spec; [|now constructor|easy]. easy.
Qed.

(** ** The whole parse *)
Theorem parse_plus_digits : forall db country d, digits d = true -> idd_free (idd_of db country) d ->
  parse_with db country (ch_plus :: d) =
  if length d <? 3 then Err NoNumber
  else if starts_with d [ch_0] then Err InvalidCountryCode
  else match code_len db d with
  | None => Err InvalidCountryCode
  | Some k =>
      let code := digits_val (firstn k d) in
      let e := skipn k d in
      let* src := source_for db code (trim_start_char ch_0 e) in
      let* n := strip_national (source_meta db src) (mk_number SrcPlus e (Some (dec code)) None None) in
      finish n
  end.
Proof.
  intros db country d Hd Hi. destruct d as [|c0 d0] eqn:Ed.
  { reflexivity. }
  rewrite <- Ed in *. assert (Hne : d <> []) by congruence. clear Ed. unfold parse_with.
  rewrite p_phone_plus_digits by easy. cbn [obind pn_national]. rewrite viable_plus_digits by easy.
  destruct (Nat.leb_spec 3 (length d)), (Nat.ltb_spec (length d) 3); try lia; [|easy]. cbn [negb].
  rewrite country_code_plus by easy. destruct (starts_with d [ch_0]); [easy|].
  destruct (code_len db d) as [k|] eqn:Ek; [|easy]. cbn [obind]. cbn zeta.
  assert (Hk : k <= 3).
  { unfold code_len in Ek. apply find_some in Ek as [I _]. cbn in I. intuition lia. }
  assert (Hpv : prefix_value (mk_number SrcPlus (skipn k d) (Some (dec (digits_val (firstn k d)))) None None)
                = Ok (digits_val (firstn k d))).
  { unfold prefix_value. cbn [pn_prefix]. unfold parse_u16. rewrite parse_uint_dec; [easy|].
    apply digits_val_3; [now apply digits_firstn|]. rewrite firstn_length. lia. }
  unfold select_meta. cbn [pn_country pn_national]. rewrite Hpv.
  assert (G : forall A (x : A) (f : A -> outcome perr phone),
     (let* m := match country, SrcPlus with
                | Some c, SrcDefault => Ok (by_id db (id_name c))
                | _, _ => let* code := Ok (digits_val (firstn k d)) in
                          let* s := source_for db code (trim_start_char ch_0 (skipn k d)) in
                          Ok (source_meta db s) end in f x) = f x -> True) by easy.
  clear G. destruct country; cbn [obind].
  all: destruct (source_for db (digits_val (firstn k d)) (trim_start_char ch_0 (skipn k d))); easy.
Qed.

(** ** Rules that leave the national part alone *)
(** the rule rewrites the digits, but to something the general pattern refuses,
    while it accepts the digits themselves *)
Definition rewriting_refused (m : metadata) (p : regex) (e : str) (mr : mres) : Prop :=
  exists tr, md_national_prefix_transform_rule m = Some tr /\ cap_get mr (re_ngroups p) <> None
    /\ d_is_match (ds_general (md_descriptors m)) e = true
    /\ d_is_match (ds_general (md_descriptors m)) (re_replace p e tr) = false.
Definition rules_silent (m : metadata) (e : str) : Prop :=
  (forall p mr, md_national_prefix_for_parsing m = Some p -> re_find p e = Some mr -> mr_pre mr = [] ->
     (mr_text mr = [] /\ cap_get mr (re_ngroups p) = None)
     \/ rewriting_refused m p e mr) /\
  (forall np, md_national_prefix m = Some np -> starts_with e np = false).

Lemma national_number_silent : forall E m n, rules_silent m (pn_national n) -> pn_carrier n = None ->
  @national_number E m n = Ok n.
Proof.
  intros E m n [H1 H2] Hc. unfold national_number.
  destruct (md_national_prefix_for_parsing m) as [p|].
  - destruct (re_find p (pn_national n)) as [mr|] eqn:Er; [|easy].
    destruct (Nat.eqb_spec (mr_start mr) 0); [|easy]. cbn [negb].
    assert (Hpre : mr_pre mr = []) by (apply mr_start_0, Nat.eqb_eq; easy).
    assert (Hlen : re_captures_len p - 1 = re_ngroups p) by (unfold re_captures_len; lia).
    destruct (H1 p mr eq_refl Er Hpre) as [[Ht Hg]|(tr & Htr & Hcap & Hv & Hr)].
    2:{ rewrite Htr, Hlen. destruct (cap_get mr (re_ngroups p)) as [g|]; [|now elim Hcap].
        cbn [option_map]. rewrite Hv, Hr. reflexivity. }
    assert (Hlast : cap_get mr (re_captures_len p - 1) = None).
    { unfold re_captures_len. replace (S (re_ngroups p) - 1) with (re_ngroups p) by lia. exact Hg. }
    rewrite Hlast. cbn [option_map].
    assert (Hend : slice_from (pn_national n) (mr_end mr) = Some (pn_national n)).
    { unfold mr_end. rewrite Hpre, Ht. cbn. apply slice_from_0. }
    assert (Hst : slice_from (pn_national n) (mr_start mr) = Some (pn_national n)).
    { rewrite e. apply slice_from_0. }
    assert (G : (let* tail := unwrap (slice_from (pn_national n) (mr_start mr)) in
                 if d_is_match (ds_general (md_descriptors m)) (pn_national n)
                    && negb (d_is_match (ds_general (md_descriptors m)) tail) then Ok n
                 else let n1 := set_carrier n (if 0 <? re_captures_len p then None else None) in
                      let* t := trim (pn_national n) (mr_end mr) in Ok (set_national n1 t)) = @Ok E number n).
    { rewrite Hst. cbn [unwrap obind]. rewrite andb_negb_r. unfold trim. rewrite Hend. cbn [unwrap obind].
      destruct n as [a b c d f]. cbn in Hc. subst f. reflexivity. }
    destruct (md_national_prefix_transform_rule m); exact G.
  - destruct (md_national_prefix m) as [np|] eqn:En; [|easy]. now rewrite H2.
Qed.

Lemma strip_national_silent : forall om n, (forall m, om = Some m -> rules_silent m (pn_national n)) ->
  pn_carrier n = None -> strip_national om n = Ok n.
Proof.
  intros [m|] n H Hc; [|easy]. specialize (H m eq_refl). unfold strip_national.
  rewrite national_number_silent by assumption. cbn [obind].
  assert (G : match md_national_prefix m with
              | Some prefix => if starts_with (pn_national n) prefix
                  then let* t := trim (pn_national n) (blen prefix) in Ok (set_national n t) else Ok n
              | None => Ok n end = @Ok perr number n).
  { destruct (md_national_prefix m) as [np|] eqn:En; [|easy]. destruct H as [_ H]. now rewrite H. }
  rewrite G. cbn [obind]. destruct (v_length m (pn_national n) TUnknown); easy.
Qed.

Lemma finish_digits : forall src e c, digits e = true -> 2 <= length e <= 17 ->
  (c <= u16_max)%N -> (1 <= digits_val e < 2 ^ 56)%N ->
  exists nat_, finish (mk_number src e (Some (dec c)) None None) = Ok (mk_phone (mk_code c src) nat_ None None)
    /\ nn_show nat_ = e /\ nn_parse e = Ok nat_.
Proof.
  intros src e c Hd Hl Hc Hv. unfold finish. cbn [pn_national pn_country pn_extension pn_carrier].
  rewrite digits_blen by easy. unfold MIN_LENGTH_FOR_NSN, MAX_LENGTH_FOR_NSN.
  destruct (Nat.ltb_spec (length e) 2); [lia|]. destruct (Nat.ltb_spec 17 (length e)); [lia|].
  unfold prefix_value. cbn [pn_prefix]. unfold parse_u16. rewrite parse_uint_dec by easy. cbn [ok_or obind].
  destruct (leading_zeros e) as (t & Et & Ht). set (k := count_zeros e) in *.
  assert (Dt : digits t = true). { rewrite Et, digits_app in Hd. now apply andb_true_iff in Hd. }
  assert (Vt : digits_val t = digits_val e). { rewrite Et. symmetry. apply digits_val_zeros. }
  destruct (nn_parse_digits k t) as (n & Hn & _ & _ & Hs & _); auto.
  - destruct t as [|c0 t]; [|easy]. cbn in Vt. lia.
  - rewrite Et, app_length, repeat_length in Hl. lia.
  - lia.
  - rewrite <- Et in Hn, Hs. rewrite Hn. cbn [obind]. eauto.
Qed.

(** ** Which calling code is found *)
Lemma find_first : forall (f : nat -> bool) l, find f l = None \/
  exists a k b, l = a ++ k :: b /\ find f l = Some k /\ f k = true /\ forall x, In x a -> f x = false.
Proof.
  induction l as [|x l IH]; [now left|]. cbn [find]. destruct (f x) eqn:E.
  - right. exists [], x, l. easy.
  - destruct IH as [IH|(a & k & b & -> & H1 & H2 & H3)]; [now left|]. right.
    exists (x :: a), k, b. repeat split; auto. intros y [<-|I]; auto.
Qed.

Definition by_code_known (db : database) (c : N) : Prop := by_code db c <> None.

Lemma is_some_known : forall db c, is_some (by_code db c) = true <-> by_code_known db c.
Proof. intros db c. unfold by_code_known. destruct (by_code db c); cbn; split; easy. Qed.

Lemma dec_firstn : forall k c d, digits (c :: d) = true -> c <> 48%N -> 1 <= k ->
  dec (digits_val (firstn k (c :: d))) = firstn k (c :: d).
Proof.
  intros [|k] c d H Hc Hk; [lia|]. cbn [firstn]. apply dec_digits_val; [|exact Hc].
  change (c :: firstn k d) with (firstn (S k) (c :: d)). now apply digits_firstn.
Qed.

Lemma code_len_spec : forall db c d, digits (c :: d) = true -> c <> 48%N ->
  match code_len db (c :: d) with
  | Some k => 1 <= k <= 3 /\ exists code, by_code_known db code /\ (code <= 999)%N
      /\ code = digits_val (firstn k (c :: d))
      /\ c :: d = dec code ++ skipn k (c :: d)
      /\ forall code' rest, by_code_known db code' -> (code' <= 999)%N ->
           c :: d = dec code' ++ rest -> length (dec code) <= length (dec code')
  | None => forall code rest, by_code_known db code -> (code <= 999)%N -> c :: d <> dec code ++ rest
  end.
Proof.
  intros db c d Hd Hc. unfold code_len.
  set (f := fun k => is_some (by_code db (digits_val (firstn k (c :: d))))).
  assert (Hdec : forall code, (code <= 999)%N -> 1 <= length (dec code) <= 3).
  { intros code Hle. split; [pose proof (dec_nonempty code); destruct (dec code); [easy|cbn; lia]|].
    destruct (Nat.le_gt_cases (length (dec code)) 3); [easy|]. exfalso.
    destruct (N.eq_dec code 0) as [->|Hz]. { rewrite dec_0 in H. cbn in H. lia. }
    destruct (dec_head _ Hz) as (x & s & E & Hx).
    pose proof (digits_dec code) as D. rewrite E in D. cbn in D. apply andb_true_iff in D as [Dx Ds].
    apply is_digit_spec in Dx.
    assert (V : digits_val (dec code) = code) by apply digits_val_dec.
    rewrite E, digits_val_dv in V. cbn [dv fold_left] in V. change (fold_left _ s ?a) with (dv a s) in V.
    rewrite dv_acc in V. rewrite E in H. cbn in H.
    assert (10 ^ 3 <= 10 ^ N.of_nat (length s))%N by (apply N.pow_le_mono_r; lia).
    assert (1 * 10 ^ N.of_nat (length s) <= (0 * 10 + (x - 48)) * 10 ^ N.of_nat (length s))%N
      by (apply N.mul_le_mono_r; lia). lia. }
  assert (Hpre : forall code rest, c :: d = dec code ++ rest ->
     digits_val (firstn (length (dec code)) (c :: d)) = code).
  { intros code rest E. rewrite E, firstn_app, Nat.sub_diag, firstn_all, firstn_O, app_nil_r.
    apply digits_val_dec. }
  destruct (find_first f [1;2;3]) as [Hn|(a & k & b & E & Hf & Hk & Ha)].
  - rewrite Hn. intros code rest Kc Hle E. pose proof (find_none f _ Hn) as Hf.
    specialize (Hf (length (dec code))). destruct (Hdec _ Hle) as [A B].
    assert (I : In (length (dec code)) [1;2;3]) by (cbn; lia). apply Hf in I. unfold f in I.
    rewrite (Hpre _ _ E) in I. apply is_some_known in Kc. congruence.
  - rewrite Hf.
    assert (I : In k [1;2;3]) by (rewrite E; apply in_app_iff; right; now left).
    assert (Hk3 : 1 <= k <= 3) by (cbn in I; lia). split; [easy|].
    exists (digits_val (firstn k (c :: d))). split; [now apply is_some_known|]. split.
    { assert (B : digits (firstn k (c :: d)) = true) by now apply digits_firstn.
      apply digits_val_lt_pow in B. assert (length (firstn k (c :: d)) <= 3) by (rewrite firstn_length; lia).
      assert (10 ^ N.of_nat (length (firstn k (c :: d))) <= 10 ^ 3)%N by (apply N.pow_le_mono_r; lia). lia. }
    split; [easy|]. split.
    { rewrite dec_firstn by (auto; lia). symmetry. apply firstn_skipn. }
    intros code' rest Kc Hle E'. rewrite dec_firstn by (auto; lia).
    destruct (Nat.le_gt_cases (length (firstn k (c :: d))) (length (dec code'))); [easy|]. exfalso.
    rewrite firstn_length in H. destruct (Hdec _ Hle) as [A B].
    assert (Ia : In (length (dec code')) a).
    { destruct a as [|x [|y [|z a]]]; cbn in E; inversion E; subst; cbn; try lia.
    }
    apply Ha in Ia. unfold f in Ia. rewrite (Hpre _ _ E') in Ia. apply is_some_known in Kc. congruence.
Qed.

(** ** The reference country plays no role after a plus sign *)
Definition plus_digits (n : number) : str :=
  act (choose_mappings (pn_national n)) (snd (span is_plus (pn_national n))).

Lemma international_prefix_free : forall E idd1 idd2 n,
  pn_prefix n <> None \/
  (starts_plus (pn_national n) = true /\ idd_free idd1 (plus_digits n) /\ idd_free idd2 (plus_digits n)) ->
  @international_prefix E idd1 n = international_prefix idd2 n.
Proof.
  intros E idd1 idd2 n H. unfold international_prefix. fold (choose_mappings (pn_national n)).
  destruct (pn_prefix n) as [p|]; [easy|]. destruct H as [H|(Hp & H1 & H2)]; [easy|].
  rewrite ignore_plus_len_0, Hp. unfold trim. rewrite slice_from_plus. cbn [unwrap obind].
  set (x := normalize _ _). assert (Hx : pn_national x = plus_digits n) by reflexivity.
  rewrite Hx, !idd_free_found by easy. easy.
Qed.

Lemma country_code_free : forall db c1 c2 n,
  pn_prefix n <> None \/
  (starts_plus (pn_national n) = true /\ idd_free (idd_of db c1) (plus_digits n)
     /\ idd_free (idd_of db c2) (plus_digits n)) ->
  country_code db c1 n = country_code db c2 n.
Proof.
  intros db c1 c2 n H. unfold country_code. fold (idd_of db c1). fold (idd_of db c2).
  rewrite (international_prefix_free _ _ (idd_of db c2) n H).
  destruct (international_prefix (idd_of db c2) n) as [x|e|] eqn:Ex; try easy.
  apply international_prefix_source in Ex.
  assert (Hs : is_some (pn_prefix n) || starts_plus (pn_national n) = true).
  { destruct H as [H|(H & _)]; [destruct (pn_prefix n); easy|]. rewrite H. apply orb_true_r. }
  rewrite Hs in Ex. cbn [obind]. now rewrite Ex.
Qed.

Lemma parse_plus_free : forall db c1 c2 s n, p_phone_number s = Ok n ->
  is_viable (pn_national n) = false \/ pn_prefix n <> None \/
  (starts_plus (pn_national n) = true /\ idd_free (idd_of db c1) (plus_digits n)
     /\ idd_free (idd_of db c2) (plus_digits n)) ->
  parse_with db c1 s = parse_with db c2 s.
Proof.
  intros db c1 c2 s n Hn H. unfold parse_with. rewrite Hn. cbn [obind].
  destruct (is_viable (pn_national n)) eqn:Ev; [|easy]. cbn [negb].
  destruct H as [H|H]; [discriminate|]. rewrite (country_code_free db c1 c2 n H).
  destruct (country_code db c2 n) as [x|e|] eqn:Ec; try easy. cbn [obind].
  assert (Hx : pn_country x = SrcPlus).
  { apply country_code_inv in Ec. destruct Ec as [_ _ _ Es _].
    assert (Hs : is_some (pn_prefix n) || starts_plus (pn_national n) = true).
    { destruct H as [H|(H & _)]; [destruct (pn_prefix n); easy|]. rewrite H. apply orb_true_r. }
    now rewrite Hs in Es. }
  unfold select_meta. rewrite Hx. destruct c1, c2; reflexivity.
Qed.

Lemma plus_text : forall t n, p_phone_number (ch_plus :: t) = Ok n ->
  pn_prefix n <> None \/ is_viable (pn_national n) = false \/
  (rfc3966 (ch_plus :: t) = None /\ natural (ch_plus :: t) = Ok n /\
   exists u post, pn_national n = ch_plus :: u /\ t = u ++ post).
Proof.
  intros t n H. pose proof H as H'. unfold p_phone_number in H'.
  apply p_phone_number_inv in H as [[_ _ _ (tel & rest & Htel & Hne & Hn & Hsh & _)]|[Hr [_ _ _ (pre & post & Es & Hpre & Hst) _]]].
  - destruct Hsh as [(p & -> & _)|[Es _]]; [now left|]. exfalso.
    destruct tel as [|x tel].
    + destruct (pn_national n) as [|y u]; [easy|]. cbn [app] in Es. inversion Es; subst y. discriminate.
    + cbn [app] in Es. inversion Es; subst x. discriminate.
  - right. rewrite Hr in H'. destruct (natural (ch_plus :: t)) as [n'| |] eqn:En; try discriminate. inversion H'; subst n'.
    destruct pre as [|x pre].
    + cbn [app] in Es. destruct (pn_national n) as [|y u]; [now left|]. cbn [app] in Es. inversion Es; subst.
      right. split; [easy|]. split; [easy|]. eauto.
    + cbn [app] in Es. inversion Es; subst x. discriminate.
Qed.

(** ** Digits of plain texts *)
Lemma digits_filter : forall s, digits (filter is_digit s) = true.
Proof. intros s. apply forallb_forall. intros x I. now apply filter_In in I. Qed.

Lemma act_push_digit : forall m c, is_digit c = true -> act_push m c = [c].
Proof. intros m c H. unfold act_push, as_dec_digit. now rewrite H. Qed.

Lemma act_plain : forall s, plain s -> act ASCII_MAPPINGS s = filter is_digit s.
Proof.
  intros s H. rewrite act_flat_map. induction s as [|c s IH]; [easy|].
  cbn [flat_map filter]. rewrite IH by (intros x I; apply H; now right).
  destruct (is_digit c) eqn:E; [now rewrite act_push_digit|].
  assert (I : In c plain_chars) by (apply H; now left).
  assert (G : forallb (fun c => if is_digit c then true else match act_push ASCII_MAPPINGS c with [] => true | _ => false end)
                 plain_chars = true) by (vm_compute; reflexivity).
  rewrite forallb_forall in G. apply G in I. rewrite E in I. destruct (act_push ASCII_MAPPINGS c); easy.
Qed.

Lemma filter_trim_end : forall s, filter is_digit (trim_end unwanted_end s) = filter is_digit s.
Proof.
  intros s. destruct (trim_end_spec unwanted_end s) as (z & Hs & Hz & _).
  assert (Ez : filter is_digit z = []).
  { clear Hs. induction z as [|c z IH]; [easy|]. cbn [forallb filter] in *. apply andb_true_iff in Hz as [Hc Hz].
    destruct (is_digit c) eqn:E; [|auto]. apply digit_N in E. congruence. }
  rewrite Hs at 2. rewrite filter_app, Ez. now rewrite app_nil_r.
Qed.

Lemma plain_sub : forall s a, plain s -> (forall c, In c a -> In c s) -> plain a.
Proof. intros s a H Ha c I. auto. Qed.

(** the natural form of a plain text *)
Lemma natural_plain_plus : forall t n, plain (ch_plus :: t) -> natural (ch_plus :: t) = Ok n ->
  n = mk_number SrcDefault (trim_end unwanted_end (ch_plus :: t)) None None None.
Proof.
  intros t n Hp H. unfold natural in H. rewrite extract_spec in H.
  replace (snd (span (fun c => negb (start_char c)) (ch_plus :: t))) with ((ch_plus :: t) : str) in H by reflexivity.
  cbv iota in H. set (r0 := (ch_plus :: t) : str) in *.
  destruct (trim_end_spec unwanted_end r0) as (z & Hs & _).
  assert (Hp1 : plain (trim_end unwanted_end r0)).
  { eapply plain_sub; [exact Hp|]. intros c I. rewrite Hs. apply in_app_iff. now left. }
  rewrite plain_second in H by exact Hp1. destruct (trim_end unwanted_end r0) as [|x u] eqn:E; [discriminate|].
  cbn [obind] in H. rewrite plain_extn in H by exact Hp1. now inversion H.
Qed.
