(** * ExtFacts: numbers followed by an extension *)
From Verif Require Import Base Unicode Regex RegexSyntax Consts CountryId Types NationalNumber
  Metadata Database Validator Valid Number Rfc3966 Helper Natural PhoneNumber Parser.
From Verif Require Import StrFacts NationalFacts RegexLang RegexFacts RegexCaps DatabaseFacts ParserFacts
  ParseInv TextFacts ViableFacts PhoneText E164Facts CoreFacts.

(** ** The extension is carried along *)
Definition xt (o : option str) (n : number) : number :=
  mk_number (pn_country n) (pn_national n) (pn_prefix n) o (pn_carrier n).
Definition oxt {E} (o : option str) (x : outcome E number) : outcome E number := let* n := x in Ok (xt o n).

Lemma strip_idd_xt : forall E idd o n, @strip_idd E idd (xt o n) = oxt o (strip_idd idd n).
Proof.
  intros E idd o [k s p x c]. unfold strip_idd, xt, oxt, trim, set_national, set_country.
  cbn [pn_national pn_country pn_prefix pn_extension pn_carrier].
  destruct (match idd with Some r => re_find r s | None => None end) as [m|]; [|reflexivity].
  destruct (Nat.eqb (mr_start m) 0); [|reflexivity]. destruct (slice_from s (mr_end m)) as [a|]; [|reflexivity].
  cbn [unwrap obind]. destruct (starts_with a [ch_0]); [reflexivity|]. destruct k; reflexivity.
Qed.

Lemma normalize_xt : forall m e n, digits e = true -> normalize m (xt (Some e) n) = xt (Some e) (normalize m n).
Proof. intros m e [k s p x c] H. unfold normalize, xt.
  cbn [pn_country pn_national pn_prefix pn_extension pn_carrier option_map]. rewrite (act_id m e H). reflexivity. Qed.

Lemma international_prefix_xt : forall E idd e n, digits e = true ->
  @international_prefix E idd (xt (Some e) n) = oxt (Some e) (international_prefix idd n).
Proof.
  intros E idd e [k s p x c] H. unfold international_prefix.
  change (pn_national (xt (Some e) (mk_number k s p x c))) with s. change (pn_prefix (xt (Some e) (mk_number k s p x c))) with p.
  cbn [pn_national pn_prefix]. set (mp := if re_is_match VALID_ALPHA_PHONE s then _ else _).
  destruct p as [p|].
  - change (set_country (xt (Some e) (mk_number k s (Some p) x c)) SrcPlus)
      with (xt (Some e) (set_country (mk_number k s (Some p) x c) SrcPlus)).
    now rewrite normalize_xt.
  - destruct (negb (Nat.eqb (ignore_plus_len s) 0)).
    + unfold trim. destruct (slice_from s (ignore_plus_len s)) as [t|]; [|reflexivity]. cbn [unwrap obind].
      change (set_national (set_country (xt (Some e) (mk_number k s None x c)) SrcPlus) t)
        with (xt (Some e) (set_national (set_country (mk_number k s None x c) SrcPlus) t)).
      rewrite normalize_xt by exact H. set (n1 := normalize mp _).
      change (pn_national (xt (Some e) n1)) with (pn_national n1).
      destruct (negb _); [reflexivity|]. apply strip_idd_xt.
    + change (set_country (xt (Some e) (mk_number k s None x c)) SrcDefault)
        with (xt (Some e) (set_country (mk_number k s None x c) SrcDefault)).
      rewrite normalize_xt by exact H. apply strip_idd_xt.
Qed.

Lemma find_code_xt : forall db o lens n, find_code db (xt o n) lens = oxt o (find_code db n lens).
Proof.
  intros db o lens [k s p x c]. unfold xt. cbn [pn_national pn_country pn_prefix pn_extension pn_carrier].
  induction lens as [|l lens IH]; [reflexivity|]. cbn [find_code pn_national].
  destruct (slice_to s l) as [pre|]; [|reflexivity]. cbn [unwrap obind].
  destruct (parse_u16 pre) as [v|]; [|reflexivity]. cbn [unwrap obind]. destruct (is_some (by_code db v)); [|exact IH].
  unfold trim. destruct (slice_from s l); reflexivity.
Qed.

Lemma country_code_xt : forall db country e n, digits e = true ->
  country_code db country (xt (Some e) n) = oxt (Some e) (country_code db country n).
Proof.
  intros db country e n H. unfold country_code. rewrite international_prefix_xt by exact H.
  destruct (international_prefix _ n) as [n1| |]; cbn [oxt obind]; try reflexivity.
  change (pn_country (xt (Some e) n1)) with (pn_country n1). change (pn_prefix (xt (Some e) n1)) with (pn_prefix n1).
  change (pn_national (xt (Some e) n1)) with (pn_national n1).
  assert (A : (if blen (pn_national n1) <=? MIN_LENGTH_FOR_NSN then Err TooShortNsn
      else match pn_prefix n1 with
        | Some p => let* prefix := ok_or (parse_u16 p) MalformedInteger in
                    match by_code db prefix with None => Err InvalidCountryCode | Some _ => Ok (xt (Some e) n1) end
        | None => if starts_with (pn_national n1) [ch_0] then Err InvalidCountryCode
                  else find_code db (xt (Some e) n1) (seq 1 MAX_LENGTH_FOR_COUNTRY_CODE) end)
    = oxt (Some e) (if blen (pn_national n1) <=? MIN_LENGTH_FOR_NSN then Err TooShortNsn
      else match pn_prefix n1 with
        | Some p => let* prefix := ok_or (parse_u16 p) MalformedInteger in
                    match by_code db prefix with None => Err InvalidCountryCode | Some _ => Ok n1 end
        | None => if starts_with (pn_national n1) [ch_0] then Err InvalidCountryCode
                  else find_code db n1 (seq 1 MAX_LENGTH_FOR_COUNTRY_CODE) end)).
  { destruct (blen (pn_national n1) <=? MIN_LENGTH_FOR_NSN); [reflexivity|]. destruct (pn_prefix n1) as [p|].
    - destruct (parse_u16 p) as [v|]; cbn [ok_or obind]; [|reflexivity]. destruct (by_code db v); reflexivity.
    - destruct (starts_with _ _); [reflexivity|]. apply find_code_xt. }
  destruct (pn_country n1); [exact A|exact A|exact A|]. clear A.
  destruct country as [i|]; [|reflexivity]. destruct (by_id db (id_name i)) as [m|]; [|reflexivity]. cbn [unwrap obind].
  match goal with |- context [if ?c then _ else _] => destruct c end; [|reflexivity].
  unfold trim. destruct (slice_from (pn_national n1) (blen (dec (md_country_code m)))); reflexivity.
Qed.

Lemma select_meta_xt : forall db country o n, select_meta db country (xt o n) = select_meta db country n.
Proof. intros db country o [k s p x c]. reflexivity. Qed.

Lemma national_number_xt : forall E m o n, @national_number E m (xt o n) = oxt o (national_number m n).
Proof.
  intros E m o [k s p x c]. unfold national_number, xt, oxt, trim, set_national, set_carrier.
  cbn [pn_national pn_country pn_prefix pn_extension pn_carrier].
  destruct (md_national_prefix_for_parsing m) as [r|].
  - destruct (re_find r s) as [mm|]; [|reflexivity]. destruct (negb _); [reflexivity|].
    destruct (md_national_prefix_transform_rule m) as [tr|];
      [destruct (option_map cap_text (cap_get mm (re_captures_len r - 1)))|];
      try (destruct (_ && _)%bool; [reflexivity|]; destruct (option_map cap_text (cap_get mm 1)); reflexivity);
      (destruct (slice_from s (mr_start mm)) as [tl|]; [|reflexivity]; cbn [unwrap obind];
       destruct (_ && _)%bool; [reflexivity|]; destruct (slice_from s (mr_end mm)); reflexivity).
  - destruct (md_national_prefix m) as [np|]; [|reflexivity]. destruct (starts_with s np); [|reflexivity].
    destruct (slice_from s (blen np)); reflexivity.
Qed.

Lemma strip_national_xt : forall meta o n, strip_national meta (xt o n) = oxt o (strip_national meta n).
Proof.
  intros [m|] o n; [|reflexivity]. unfold strip_national. rewrite national_number_xt.
  destruct (national_number m n) as [n1| |]; cbn [oxt obind]; try reflexivity.
  destruct (md_national_prefix m) as [np|].
  - change (pn_national (xt o n1)) with (pn_national n1). destruct (starts_with (pn_national n1) np).
    + unfold trim. destruct (slice_from (pn_national n1) (blen np)) as [t|]; [|reflexivity]. cbn [unwrap obind].
      change (pn_national (set_national (xt o n1) t)) with t. change (pn_national (set_national n1 t)) with t.
      destruct (v_length m t TUnknown); reflexivity.
    + cbn [obind]. change (pn_national (xt o n1)) with (pn_national n1). destruct (v_length m _ TUnknown); reflexivity.
  - cbn [obind]. change (pn_national (xt o n1)) with (pn_national n1). destruct (v_length m _ TUnknown); reflexivity.
Qed.

(** a parsed number with its extension replaced *)
Definition with_ext (o : option str) (p : phone) : phone :=
  mk_phone (ph_code p) (ph_national p) o (ph_carrier p).

Lemma finish_xt : forall o n, finish (xt o n) = let* p := finish n in Ok (with_ext o p).
Proof.
  intros o [k s p x c]. unfold finish, xt, prefix_value. cbn [pn_national pn_country pn_prefix pn_extension pn_carrier].
  destruct (blen s <? MIN_LENGTH_FOR_NSN); [reflexivity|]. destruct (MAX_LENGTH_FOR_NSN <? blen s); [reflexivity|].
  destruct p as [p|]; [destruct (parse_u16 p)|]; cbn [ok_or obind]; try reflexivity; destruct (nn_parse s); reflexivity.
Qed.

Lemma parse_xt : forall db country x y s s' e, digits e = true ->
  p_phone_number x = Ok (xt (Some e) (bare s)) -> p_phone_number y = Ok (bare s') ->
  is_viable s = is_viable s' -> starts_plus s = starts_plus s' -> plus_digits (bare s) = plus_digits (bare s') ->
  parse_with db country x = let* p := parse_with db country y in Ok (with_ext (Some e) p).
Proof.
  intros db country x y s s' e He Hx Hy Hv H1 H2. unfold parse_with. rewrite Hx, Hy. cbn [obind].
  change (pn_national (xt (Some e) (bare s))) with s. change (pn_national (bare s')) with s'. rewrite Hv.
  destruct (is_viable s'); [|reflexivity]. cbn [negb]. rewrite country_code_xt by exact He.
  rewrite (country_code_core db country s s' H1 H2).
  destruct (country_code db country (bare s')) as [n| |]; cbn [oxt obind]; try reflexivity.
  rewrite select_meta_xt. destruct (select_meta db country n) as [meta| |]; cbn [obind]; try reflexivity.
  rewrite strip_national_xt. destruct (strip_national meta n) as [n2| |]; cbn [oxt obind]; try reflexivity.
  apply finish_xt.
Qed.

(** ** Where the extension pattern matches *)
Definition extn1 : re := match re_ast EXTN_PATTERN with RCat (RAlt (RAlt a _) _) _ => a | _ => REps end.
Definition extn2 : re := match re_ast EXTN_PATTERN with RCat (RAlt (RAlt _ a) _) _ => a | _ => REps end.
Definition extn3 : re := match re_ast EXTN_PATTERN with RCat (RAlt _ a) _ => a | _ => REps end.
(** what stands between the number and the extension, and its four parts *)
Definition extn_mark : re := match extn2 with RCat (RCat a _) _ => a | _ => REps end.
Definition extn_sp : cls := match extn_mark with RCat (RCat (RCat (RRep _ _ _ (RCls c)) _) _) _ => c | _ => CRange 0 0 end.
Definition extn_word : re := match extn_mark with RCat (RCat (RCat _ a) _) _ => a | _ => REps end.
Definition extn_dot : cls := match extn_mark with RCat (RCat _ (RRep _ _ _ (RCls c))) _ => c | _ => CRange 0 0 end.
Definition extn_sp2 : cls := match extn_mark with RCat _ (RRep _ _ _ (RCls c)) => c | _ => CRange 0 0 end.
Definition extn_digits : re := RRep true 0 (Some 7) (RCls (CUni UNd)).
Definition extn_hash : re := RRep true 0 (Some 1) (RCls (CFold (CRange 35 35))).

Lemma extn_shape : re_ast EXTN_PATTERN = RCat (RAlt (RAlt extn1 extn2) extn3) REnd.
Proof. reflexivity. Qed.
Lemma extn2_shape : extn2 = RCat (RCat extn_mark (RGrp 2 extn_digits)) extn_hash.
Proof. reflexivity. Qed.
Lemma extn_mark_shape : extn_mark =
  RCat (RCat (RCat (RRep true 0 None (RCls extn_sp)) extn_word) (RRep true 0 (Some 1) (RCls extn_dot)))
       (RRep true 0 None (RCls extn_sp2)).
Proof. reflexivity. Qed.
Lemma extn1_shape : exists r, extn1 = RCat (RCat r (RCls (CFold (CRange 61 61)))) (RGrp 1 extn_digits).
Proof. eexists. reflexivity. Qed.
Lemma extn3_shape : exists r, extn3 = RCat r (RCls (CFold (CRange 35 35))).
Proof. eexists. reflexivity. Qed.

Lemma lang_cat_inv : forall x y b t a, lang (RCat x y) b t a ->
  exists t1 t2, t = t1 ++ t2 /\ lang x b t1 (t2 ++ a) /\ lang y (b ++ t1) t2 a.
Proof. intros x y b t a H. inversion H; subst. eauto. Qed.
Lemma lang_alt_inv : forall x y b t a, lang (RAlt x y) b t a -> lang x b t a \/ lang y b t a.
Proof. intros x y b t a H. inversion H; subst; auto. Qed.
Lemma lang_grp_inv : forall i x b t a, lang (RGrp i x) b t a -> lang x b t a.
Proof. intros i x b t a H. inversion H; subst; auto. Qed.
Lemma lang_end_inv : forall b t a, lang REnd b t a -> t = [] /\ a = [].
Proof. intros b t a H. inversion H; subst; auto. Qed.

(** no character of [Q] occurs in a match *)
Fixpoint free_of (Q : list char) (r : re) : bool :=
  match r with
  | REps | RStart | REnd => true
  | RCls c => forallb (fun q => negb (in_cls c q)) Q
  | RCat a b | RAlt a b => if free_of Q a then free_of Q b else false
  | RRep _ _ _ r | RGrp _ r => free_of Q r
  end.
Lemma free_of_sound :
  (forall r b t a, lang r b t a -> forall Q, free_of Q r = true -> forall x, In x t -> ~ In x Q) /\
  (forall r n b t a, langs r n b t a -> forall Q, free_of Q r = true -> forall x, In x t -> ~ In x Q).
Proof.
  apply lang_langs_ind; cbn [free_of]; intros; try contradiction.
  - destruct H0 as [<-|[]]. intros I. rewrite forallb_forall in H. apply H in I. rewrite e in I. discriminate I.
  - destruct (free_of Q r1) eqn:E; [|discriminate]. apply in_app_iff in H2 as [I|I]; eauto.
  - destruct (free_of Q r1) eqn:E; [|discriminate]. eauto.
  - destruct (free_of Q r1) eqn:E; [|discriminate]. eauto.
  - eauto.
  - eauto.
  - apply in_app_iff in H2 as [I|I]; eauto.
Qed.

Lemma fold_low : forall k x, (k <= 64)%N -> in_cls (CFold (CRange k k)) x = true -> x = k.
Proof.
  intros k x Hk H. cbn [in_cls] in H. unfold in_range in H.
  destruct ((k <=? x)%N && (x <=? k)%N) eqn:E; [lia|]. exfalso.
  apply existsb_exists in H as (y & I & Hy). assert (y = k) by lia. subst y.
  unfold case_variants, in_range in I. repeat (apply in_app_iff in I as [I|I]);
  match type of I with In _ (if ?c then _ else _) => destruct c eqn:C end; cbn [In] in I; lia.
Qed.

(** ** A match starts after the number *)
Lemma app_split : forall A (a b c d : list A), a ++ b = c ++ d ->
  (exists x, a = c ++ x) \/ (exists x y, c = a ++ x :: y).
Proof.
  induction a as [|x a IH]; intros b c d H.
  - destruct c as [|y c]; [left; exists []; reflexivity|right; exists y, c; reflexivity].
  - destruct c as [|y c]; [left; exists (x :: a); reflexivity|]. injection H as -> H.
    destruct (IH b c d H) as [(z & ->)|(z & w & ->)]; [left; exists z; reflexivity|right; exists z, w; reflexivity].
Qed.

Definition ends_in_digit (s : str) : Prop := exists s' d, s = s' ++ [d] /\ is_digit d = true.
Lemma ends_tail : forall a b, ends_in_digit (a ++ b) -> b <> [] -> ends_in_digit b.
Proof.
  intros a b (s' & d & E & D) Hb. destruct (last_inv _ b) as [->|(b' & x & ->)]; [now elim Hb|].
  rewrite app_assoc in E. apply app_inj_tail in E as [_ ->]. exists b', d. auto.
Qed.

Lemma extn13 : forall b t a, lang extn1 b t a \/ lang extn3 b t a -> ends_in_digit t -> In 61%N t.
Proof.
  intros b t a [H|H] (s' & d & E & D).
  - destruct extn1_shape as (r & Er). rewrite Er in H. apply lang_cat_inv in H as (t1 & t2 & -> & H & _).
    apply lang_cat_inv in H as (t3 & t4 & -> & _ & H). apply lang_cls in H as (x & -> & H).
    apply fold_low in H; [|lia]. subst x. apply in_app_iff. left. apply in_app_iff. right. now left.
  - destruct extn3_shape as (r & Er). rewrite Er in H. apply lang_cat_inv in H as (t1 & t2 & -> & _ & H).
    apply lang_cls in H as (x & -> & H). apply fold_low in H; [|lia]. subst x.
    apply app_inj_tail in E as [_ <-]. discriminate D.
Qed.

Lemma word_nonempty : forall b t a, lang extn_word b t a ->
  exists x t', t = x :: t' /\ ~ In x plain_chars.
Proof.
  intros b t a H.
  assert (F : free_of plain_chars extn_word = true) by (vm_compute; reflexivity).
  assert (V : avoids [] extn_word = true) by (vm_compute; reflexivity).
  destruct t as [|x t].
  - destruct (proj1 avoids_sound _ _ _ _ H [] V) as (x & [] & _).
  - exists x, t. split; [reflexivity|]. refine (proj1 free_of_sound _ _ _ _ H _ F x _). now left.
Qed.

Lemma match_starts_late : forall h z mk e b t a, plain (h ++ [z]) -> in_cls extn_sp z = false ->
  ~ In 61%N (mk ++ e) -> ends_in_digit (mk ++ e) ->
  (h ++ [z]) ++ mk ++ e = b ++ t ++ a -> lang (re_ast EXTN_PATTERN) b t a ->
  exists x, b = (h ++ [z]) ++ x.
Proof.
  intros h z mk e b t a Hp Hz Heq Hend E H. rewrite extn_shape in H.
  apply lang_cat_inv in H as (t1 & t2 & -> & H & He). apply lang_end_inv in He as [-> ->].
  rewrite !app_nil_r in E. rewrite app_nil_r in H. cbn [app] in H.
  destruct (app_split _ b t1 (h ++ [z]) (mk ++ e) (eq_sym E)) as [L|(x & u & L)]; [exact L|exfalso].
  assert (Et : t1 = (x :: u) ++ mk ++ e).
  { rewrite L, <- app_assoc in E. apply app_inv_head in E. symmetry. exact E. }
  assert (N61 : ~ In 61%N t1).
  { rewrite Et. intros I. apply in_app_iff in I as [I|I]; [|contradiction].
    assert (In 61%N plain_chars). { apply Hp. rewrite L. apply in_app_iff. now right. }
    revert H0. vm_compute. intuition discriminate. }
  assert (D1 : ends_in_digit t1).
  { destruct Hend as (s' & d & Es & D). exists ((x :: u) ++ s'), d. split; [rewrite Et, Es; now rewrite app_assoc|exact D]. }
  apply lang_alt_inv in H as [H|H]; [|now apply N61, (extn13 _ _ _ (or_intror H))].
  apply lang_alt_inv in H as [H|H]; [now apply N61, (extn13 _ _ _ (or_introl H))|].
  rewrite extn2_shape in H. apply lang_cat_inv in H as (u1 & u2 & Eu & H & _).
  apply lang_cat_inv in H as (u3 & u4 & Eu1 & H & _). rewrite extn_mark_shape in H.
  apply lang_cat_inv in H as (u5 & u6 & Eu3 & H & _). apply lang_cat_inv in H as (u7 & u8 & Eu5 & H & _).
  apply lang_cat_inv in H as (sp & w & Eu7 & Hsp & Hw). apply lang_rep_cls in Hsp as (_ & _ & Hsp).
  destruct (word_nonempty _ _ _ Hw) as (y & w' & -> & Hy).
  assert (Lz : exists u', x :: u = u' ++ [z]).
  { destruct (last_inv _ (x :: u)) as [C|(u' & v & Ev)]; [discriminate C|]. rewrite Ev in L.
    rewrite app_assoc in L. apply app_inj_tail in L as [_ <-]. exists u'. exact Ev. }
  destruct Lz as (u' & Lz). rewrite Lz, Eu, Eu1, Eu3, Eu5, Eu7 in Et. rewrite <- !app_assoc in Et. cbn [app] in Et.
  rewrite forallb_forall in Hsp.
  destruct (app_split _ sp _ u' _ Et) as [(v & ->)|(v & v' & ->)].
  - rewrite <- app_assoc in Et. apply app_inv_head in Et. destruct v as [|v0 v].
    + cbn [app] in Et. injection Et as -> _. apply Hy, Hp. rewrite in_app_iff. right. now left.
    + cbn [app] in Et. injection Et as -> _. rewrite Hsp in Hz; [discriminate Hz|]. apply in_app_iff. right. now left.
  - rewrite <- app_assoc in Et. apply app_inv_head in Et. cbn [app] in Et. injection Et as -> _.
    apply Hy, Hp. rewrite L, Lz. rewrite !in_app_iff. right. left. right. now left.
Qed.

(** ** What is captured *)
Definition no_Nd (s : str) : Prop := forall c, In c s -> in_ranges tbl_Nd c = false.

Lemma find_extension : forall h z mk e, plain (h ++ [z]) -> in_cls extn_sp z = false ->
  (forall b a, lang extn_mark b mk a) -> no_Nd mk -> ~ In 61%N mk ->
  digits e = true -> 1 <= length e <= 7 ->
  exists m c, re_find EXTN_PATTERN ((h ++ [z]) ++ mk ++ e) = Some m /\ mr_pre m = h ++ [z]
    /\ cap_get m 2 = Some c /\ cap_text c = e.
Proof.
  intros h z mk e Hp Hz Hm Hnd Hne He Hl.
  assert (De : forall c, In c e -> is_digit c = true) by (apply forallb_forall; exact He).
  assert (Hend : ends_in_digit (mk ++ e)).
  { destruct (last_inv _ e) as [->|(e' & d & ->)]; [cbn in Hl; lia|]. exists (mk ++ e'), d.
    split; [now rewrite app_assoc|]. apply De, in_app_iff. right. now left. }
  assert (N61 : ~ In 61%N (mk ++ e)).
  { intros I. apply in_app_iff in I as [I|I]; [now apply Hne|]. apply De in I. discriminate I. }
  assert (L : lang (re_ast EXTN_PATTERN) (h ++ [z]) (mk ++ e) []).
  { rewrite extn_shape. rewrite <- (app_nil_r (mk ++ e)). apply L_cat; [|constructor].
    apply L_alt1, L_alt2. rewrite extn2_shape. rewrite <- (app_nil_r (mk ++ e)). apply L_cat.
    - apply L_cat; [apply Hm|]. constructor. apply lang_rep_cls. split; [lia|]. split; [cbn; lia|].
      apply forallb_forall. intros c I. cbn [in_cls ucat_tbl]. apply digit_Nd, De, I.
    - apply lang_rep_cls. cbn. repeat split; lia. }
  destruct (re_find EXTN_PATTERN ((h ++ [z]) ++ mk ++ e)) as [m|] eqn:Ef.
  2:{ exfalso. apply re_find_none in Ef. apply Ef. exists (h ++ [z]), (mk ++ e), []. now rewrite app_nil_r. }
  pose proof (re_find_some _ _ _ Ef) as (Es & Hl2 & Hleft).
  destruct (match_starts_late h z mk e _ _ _ Hp Hz N61 Hend Es Hl2) as (x & Ex).
  assert (x = []).
  { destruct x as [|x0 x]; [reflexivity|]. exfalso. apply (Hleft (h ++ [z]) x0 x (mk ++ e) [] Ex); [|exact L].
    now rewrite app_nil_r. }
  subst x. rewrite app_nil_r in Ex. exists m.
  assert (Et : mr_text m ++ mr_post m = mk ++ e).
  { rewrite Ex in Es. apply app_inv_head in Es. now symmetry. }
  destruct (re_find_run _ _ _ Ef) as (st & Hin & Hrest & Hcaps). rewrite Et, Ex in Hin.
  rewrite extn_shape in Hin. cbn [ms] in Hin. apply in_flat_map in Hin as (s1 & Hin & Hfin).
  destruct (m_rest s1) as [|q qs] eqn:Er; [|destruct Hfin]. destruct Hfin as [<-|[]].
  assert (Snd : forall r, In s1 (ms r (mk_mst (blen (h ++ [z])) (mk ++ e) [])) -> lang r (h ++ [z]) (mk ++ e) []).
  { intros r Hi. destruct (ms_sound r _ _ (h ++ [z]) Hi eq_refl) as (t & (R1 & _) & R2).
    cbn [m_rest] in R1. rewrite Er, app_nil_r in R1. rewrite Er in R2. now subst t. }
  apply in_app_iff in Hin as [Hin|Hin].
  2:{ exfalso. apply N61, (extn13 (h ++ [z]) _ []); [right; apply Snd, Hin|exact Hend]. }
  apply in_app_iff in Hin as [Hin|Hin].
  { exfalso. apply N61, (extn13 (h ++ [z]) _ []); [left; apply Snd, Hin|exact Hend]. }
  rewrite extn2_shape in Hin.
  change (ms (RCat (RCat extn_mark (RGrp 2 extn_digits)) extn_hash))
    with (fun s => flat_map (ms extn_hash) (flat_map (ms (RGrp 2 extn_digits)) (ms extn_mark s))) in Hin.
  cbv beta in Hin. apply in_flat_map in Hin as (s2 & Hin & Hh). apply in_flat_map in Hin as (s3 & Hin & Hg).
  set (s0 := mk_mst (blen (h ++ [z])) (mk ++ e) []) in *.
  destruct (ms_sound _ _ _ (h ++ [z]) Hin eq_refl) as (tx & (X1 & X2) & X3).
  change (ms (RGrp 2 extn_digits) s3) with (map (close_grp 2 s3) (ms extn_digits s3)) in Hg.
  apply in_map_iff in Hg as (s4 & <- & Hg).
  destruct (ms_sound _ _ _ ((h ++ [z]) ++ tx) Hg) as (g & (G1 & G2) & G3); [exact X2|].
  destruct (ms_sound _ _ _ (((h ++ [z]) ++ tx) ++ g) Hh) as (th & (T1 & T2) & T3); [exact G2|].
  cbn [close_grp m_rest m_pos] in T1, T2. rewrite Er in T1. rewrite app_nil_r in T1.
  cbn [m_rest s0] in X1. rewrite G1, T1 in X1.
  (* the hash sign is not there *)
  apply lang_rep_cls in T3 as (_ & _ & T3). rewrite forallb_forall in T3.
  assert (th = []).
  { destruct th as [|y th]; [reflexivity|]. exfalso.
    assert (Et2 : ends_in_digit (y :: th)).
    { apply (ends_tail (tx ++ g)); [|discriminate]. rewrite <- app_assoc, <- X1. exact Hend. }
    destruct Et2 as (s' & d & Ed & Dd). rewrite Ed in T3.
    assert (Hd : in_cls (CFold (CRange 35 35)) d = true) by (apply T3, in_app_iff; right; now left).
    apply fold_low in Hd; [|lia]. subst d. discriminate Dd. }
  rewrite H, app_nil_r in X1.
  apply lang_rep_cls in G3 as (_ & _ & G3). rewrite forallb_forall in G3.
  assert (Fx : forall c, In c tx -> is_digit c = false).
  { intros c I. destruct (is_digit c) eqn:D; [|reflexivity]. exfalso.
    assert (F : free_of (lit "0123456789") extn_mark = true) by (vm_compute; reflexivity).
    refine (proj1 free_of_sound _ _ _ _ X3 _ F c I _). apply is_digit_spec in D.
    assert (Q : (c = 48 \/ c = 49 \/ c = 50 \/ c = 51 \/ c = 52 \/ c = 53 \/ c = 54 \/ c = 55 \/ c = 56 \/ c = 57)%N) by lia.
    cbn [lit map Byte.to_N In]. clear - Q. cbn. intuition. }
  assert (Eg : g = e).
  { destruct (app_split _ mk e tx g X1) as [(x & Ex2)|(x & y & Ex2)].
    - rewrite Ex2, <- app_assoc in X1. apply app_inv_head in X1. destruct x as [|x0 x]; [now rewrite <- X1|].
      exfalso. assert (In0 : in_ranges tbl_Nd x0 = false).
      { apply Hnd. rewrite Ex2. apply in_app_iff. right. now left. }
      assert (I1 : in_cls (CUni UNd) x0 = true). { apply G3. rewrite <- X1. now left. }
      cbn [in_cls ucat_tbl] in I1. rewrite In0 in I1. discriminate I1.
    - exfalso. rewrite Ex2, <- app_assoc in X1. apply app_inv_head in X1. cbn [app] in X1.
      assert (D : is_digit x = true). { apply De. rewrite X1. now left. }
      rewrite Fx in D; [discriminate D|]. rewrite Ex2. apply in_app_iff. right. now left. }
  (* the captures of the last state *)
  destruct (never_sound 2 extn_hash _ _ eq_refl Hh) as (news & Hnews & Hhas).
  exists (mk_cap (m_pos s3) (m_pos s4) (consumed s3 s4)). split; [reflexivity|]. split; [exact Ex|]. split.
  - cbn [cap_get]. rewrite <- Hcaps, Hnews. cbn [close_grp m_caps].
    clear - Hhas. induction news as [|[j c] news IH]; [reflexivity|].
    cbn [has existsb fst] in Hhas. apply orb_false_iff in Hhas as [H1 H2]. cbn [app cap_lookup]. rewrite H1. apply IH, H2.
  - cbn [cap_text]. rewrite (consumed_reach ((h ++ [z]) ++ tx) s3 s4 g); [exact Eg|split; assumption].
Qed.

(** ** Reading a number followed by an extension *)
Definition second_cls : cls := match re_ast SECOND_NUMBER_START with RCat (RCat (RCls c) _) _ => c | _ => CRange 0 0 end.
Lemma second_shape : exists r1 r2, re_ast SECOND_NUMBER_START = RCat (RCat (RCls second_cls) r1) r2.
Proof. eexists _, _. reflexivity. Qed.
Lemma second_cls_spec : forall x, in_cls second_cls x = true -> x = 92%N \/ x = 47%N.
Proof.
  intros x H. unfold second_cls in H. cbn [SECOND_NUMBER_START re_ast] in H.
  match type of H with in_cls ?c x = true => let v := eval vm_compute in c in change c with v in H end.
  match type of H with in_cls (CUnion ?a ?b) x = true => change (in_cls a x || in_cls b x = true) in H end.
  apply orb_true_iff in H as [H|H]; cbn [in_cls] in H; unfold in_range in H; lia.
Qed.
Lemma no_second : forall s, ~ In 92%N s -> ~ In 47%N s -> cut_second s = s.
Proof.
  intros s H1 H2. unfold cut_second. destruct (re_find SECOND_NUMBER_START s) as [m|] eqn:E; [exfalso|reflexivity].
  apply re_find_some in E as (Es & L & _). destruct second_shape as (r1 & r2 & Er). rewrite Er in L.
  apply lang_cat_inv in L as (t1 & t2 & Et & L & _). apply lang_cat_inv in L as (t3 & t4 & -> & L & _).
  apply lang_cls in L as (x & -> & L). apply second_cls_spec in L.
  assert (I : In x s). { rewrite Es, Et. rewrite !in_app_iff. right. left. left. left. now left. }
  destruct L as [->| ->]; auto.
Qed.

Lemma start_not_sp : forall x, In x plain_chars -> start_char x = true -> in_cls extn_sp x = false.
Proof.
  intros x I H.
  assert (G : forallb (fun x => if start_char x then negb (in_cls extn_sp x) else true) plain_chars = true)
    by (vm_compute; reflexivity).
  rewrite forallb_forall in G. apply G in I. rewrite H in I. now apply negb_true_iff.
Qed.
Lemma extn_sp_digit : forall x, is_digit x = true -> in_cls extn_sp x = false.
Proof. intros x H. apply start_not_sp; [now apply digit_plain|now apply digit_start]. Qed.

Definition no_slash (s : str) : Prop := ~ In 92%N s /\ ~ In 47%N s.

(** the marker may follow any number of further blanks *)
Lemma natural_extension : forall x t mk e, plain (x :: t) -> start_char x = true -> no_slash (x :: t) -> no_slash mk ->
  (forall z b a, forallb (in_cls extn_sp) z = true -> lang extn_mark b (z ++ mk) a) ->
  no_Nd mk -> ~ In 61%N mk -> digits e = true -> 1 <= length e <= 7 ->
  exists t', natural ((x :: t) ++ mk ++ e) = Ok (xt (Some e) (bare (x :: t'))) /\
    (forall c, In c t' -> In c t) /\ filter is_digit t' = filter is_digit t.
Proof.
  intros x t mk e Hp Hx [S1 S2] [S3 S4] Hm Hnd Hne He Hl.
  assert (De : forall c, In c e -> is_digit c = true) by (apply forallb_forall; exact He).
  destruct (trim_end_spec (in_cls extn_sp) (x :: t)) as (z & Hs & Hz & Hlast).
  assert (Hsp : in_cls extn_sp x = false) by (apply start_not_sp; [apply Hp; now left|exact Hx]).
  destruct Hlast as [E0|(h & y & E0 & Hy)].
  { exfalso. rewrite E0 in Hs. cbn [app] in Hs. rewrite <- Hs in Hz. cbn [forallb] in Hz. now rewrite Hsp in Hz. }
  rewrite E0 in Hs. clear E0.
  assert (Hpl : plain (h ++ [y])). { eapply plain_sub; [exact Hp|]. intros c I. rewrite Hs. apply in_app_iff. now left. }
  assert (Pz : forall c, In c z -> In c plain_chars). { intros c I. apply Hp. rewrite Hs. apply in_app_iff. now right. }
  assert (Nz : forall c, In c z -> in_ranges tbl_Nd c = false /\ c <> 61%N).
  { intros c I. rewrite forallb_forall in Hz. pose proof (Hz _ I) as Hc. apply Pz in I.
    assert (G : forallb (fun c => if in_cls extn_sp c then negb (in_ranges tbl_Nd c) && negb (N.eqb c 61) else true) plain_chars = true)
      by (vm_compute; reflexivity).
    rewrite forallb_forall in G. apply G in I. rewrite Hc in I. apply andb_true_iff in I as [I1 I2].
    split; [now apply negb_true_iff|]. intros ->. discriminate I2. }
  destruct (find_extension h y (z ++ mk) e Hpl Hy) as (m & c & Hf & Hpre & Hc2 & Hct); auto.
  { intros c I. apply in_app_iff in I as [I|I]; [now apply Nz|now apply Hnd]. }
  { intros I. apply in_app_iff in I as [I|I]; [now apply Nz in I|now apply Hne]. }
  assert (Etxt : (h ++ [y]) ++ (z ++ mk) ++ e = (x :: t) ++ mk ++ e).
  { rewrite Hs. now rewrite <- !app_assoc. }
  rewrite Etxt in Hf.
  destruct (last_inv _ e) as [->|(e' & d & Ee)]; [cbn in Hl; lia|].
  assert (Dd : is_digit d = true). { apply De. rewrite Ee. apply in_app_iff. right. now left. }
  assert (Hex : extract ((x :: t) ++ mk ++ e) = Ok ((x :: t) ++ mk ++ e)).
  { rewrite Ee. replace ((x :: t) ++ mk ++ e' ++ [d]) with (((x :: t) ++ mk ++ e') ++ [d]) by now rewrite <- !app_assoc.
    apply extract_ends.
    - exact Hx.
    - now apply digit_N.
    - assert (N : forall c, In c ((((x :: t) ++ mk ++ e') ++ [d]) : str) -> In c (x :: t) \/ In c mk \/ In c e).
      { intros c0 I. rewrite Ee. rewrite !in_app_iff in I. rewrite in_app_iff. tauto. }
      apply no_second; intros I; apply N in I as [I|[I|I]]; auto; apply De in I; discriminate I. }
  unfold natural. rewrite Hex. cbn [obind]. rewrite Hf, Hc2, (slice_to_start _ _ _ Hf), Hpre, Hct. cbn [unwrap obind].
  destruct h as [|h0 h'].
  - cbn [app] in Hs. injection Hs as <- Et. exists []. split; [reflexivity|]. split; [intros c0 []|].
    rewrite Et. symmetry. clear - Hz. induction z as [|c z IH]; [reflexivity|]. cbn [forallb filter] in *.
    apply andb_true_iff in Hz as [Hc Hz]. destruct (is_digit c) eqn:D; [rewrite extn_sp_digit in Hc by exact D; discriminate Hc|auto].
  - cbn [app] in Hs. injection Hs as <- Et. exists (h' ++ [y]). split; [reflexivity|].
    rewrite Et. split; [intros c0 I; apply in_app_iff; now left|].
    rewrite (filter_app is_digit (h' ++ [y])).
    replace (filter is_digit z) with (@nil char); [now rewrite app_nil_r|].
    symmetry. clear - Hz. induction z as [|c z IH]; [reflexivity|]. cbn [forallb filter] in *.
    apply andb_true_iff in Hz as [Hc Hz]. destruct (is_digit c) eqn:D; [rewrite extn_sp_digit in Hc by exact D; discriminate Hc|auto].
Qed.

(** ** The RFC 3966 reader refuses the text *)
Lemma span_stop : forall p a b, ~ forallb p b = true -> exists x r, snd (span p (a ++ b)) = x :: r /\ p x = false /\ (In x a \/ In x b).
Proof.
  intros p a b H. destruct (span p (a ++ b)) as [u v] eqn:E. apply span_spec in E as (E & Hu & [->|(x & r & -> & Hx)]).
  - exfalso. apply H. rewrite app_nil_r in E. rewrite <- E, forallb_app in Hu. now apply andb_true_iff in Hu.
  - exists x, r. split; [reflexivity|]. split; [exact Hx|]. apply in_app_iff. rewrite E. apply in_app_iff. right. now left.
Qed.

Lemma rfc_refuses : forall sign t mk e, sign = [] \/ sign = [ch_plus] ->
  (forall c, In c t -> In c (lit "0123456789-.()")) -> t <> [] ->
  digits e = true -> ~ In 59%N mk -> (forall c, In c mk -> r_separator c = false) -> ~ forallb r_number mk = true ->
  rfc3966 (sign ++ t ++ mk ++ e) = None.
Proof.
  intros sign t mk e Hsign Ht Hne He H59 Hsep Hnum. unfold rfc3966. destruct (mem_char 32%N _); [reflexivity|].
  assert (De : forall c, In c e -> is_digit c = true) by (apply forallb_forall; exact He).
  assert (Hlead : tag_tel (sign ++ t ++ mk ++ e) = None).
  { assert (G : forallb (fun c => negb (N.eqb (ascii_lower c) 116)) (ch_plus :: lit "0123456789-.()") = true) by (vm_compute; reflexivity).
    rewrite forallb_forall in G.
    assert (exists x r, sign ++ t ++ mk ++ e = x :: r /\ In x (ch_plus :: lit "0123456789-.()")) as (x & r & Ex & Ix).
    { destruct Hsign as [-> | ->]; [|exists ch_plus; eexists; split; [reflexivity|now left]].
      destruct t as [|x t]; [now elim Hne|]. exists x. eexists. split; [reflexivity|]. right. apply Ht. now left. }
    rewrite Ex. unfold tag_tel. destruct r as [|b [|c [|d s]]]; try reflexivity.
    apply G, negb_true_iff in Ix. now rewrite Ix. }
  rewrite Hlead.
  assert (Hstop : forall a, (forall c, In c a -> r_number c = true) ->
    r_check (snd (span r_number (a ++ mk ++ e))) = false).
  { intros a Ha.
    assert (Hmk : ~ forallb r_number (mk ++ e) = true).
    { rewrite forallb_app. intros C. apply andb_true_iff in C as [C _]. contradiction. }
    destruct (span_stop r_number a (mk ++ e) Hmk) as (x & r & Ex & Hx & Ix).
    rewrite Ex. cbn [r_check]. apply N.eqb_neq. intros ->. rewrite in_app_iff in Ix. destruct Ix as [I|[I|I]].
    - apply Ha in I. discriminate I.
    - contradiction.
    - apply De in I. discriminate I. }
  assert (Hr : forall c, In c t -> r_number c = true).
  { intros c I. apply Ht in I. assert (G : forallb r_number (lit "0123456789-.()") = true) by (vm_compute; reflexivity).
    rewrite forallb_forall in G. auto. }
  assert (Fin : forall pfx a, (forall c, In c a -> r_number c = true) ->
    (let '(national, i3) := span r_number (a ++ mk ++ e) in
     match national with
     | [] => None
     | _ => if r_check i3 then
          let params := r_parameters i3 in
          let context := match params_get params (lit "phone-context") with
                         | Some s => Some (match strip_prefix_char ch_plus s with Some s' => s' | None => s end)
                         | None => None end in
          Some (mk_number SrcDefault national (match pfx with Some p => Some p | None => context end) (params_get params (lit "ext")) None)
        else None
     end) = None).
  { intros pfx a Ha. pose proof (Hstop a Ha) as K. destruct (span r_number (a ++ mk ++ e)) as [nat_ i3].
    cbn [snd] in K. rewrite K. destruct nat_; reflexivity. }
  destruct Hsign as [-> | ->].
  - cbn [app].
    assert (Hp : r_prefix (t ++ mk ++ e) = None).
    { destruct t as [|c t]; [now elim Hne|]. cbn [app r_prefix].
      assert (I : In c (lit "0123456789-.()")) by (apply Ht; now left).
      assert (G : forallb (fun c => negb (N.eqb c 43)) (lit "0123456789-.()") = true) by (vm_compute; reflexivity).
      rewrite forallb_forall in G. apply G, negb_true_iff in I. now rewrite I. }
    rewrite Hp. exact (Fin None t Hr).
  - cbn [app r_prefix]. change (N.eqb ch_plus 43) with true. cbv iota.
    destruct (span (fun c => negb (r_separator c)) (t ++ mk ++ e)) as [p rest] eqn:Es.
    pose proof Es as Es0. apply span_spec in Es0 as (Es1 & Hp & Hrest).
    assert (Hrest2 : rest = [] \/ exists a, rest = a ++ mk ++ e /\ (forall c, In c a -> In c t)).
    { destruct Hrest as [->|(x & r & -> & Hx)]; [now left|right].
      apply negb_false_iff in Hx. destruct (app_split _ p (x :: r) t (mk ++ e) (eq_sym Es1)) as [(u & ->)|(u & v & ->)].
      - exfalso. rewrite <- app_assoc in Es1. apply app_inv_head in Es1.
        assert (I : In x (mk ++ e)). { rewrite Es1. apply in_app_iff. right. now left. }
        apply in_app_iff in I as [I|I]; [apply Hsep in I; rewrite I in Hx; discriminate Hx|].
        apply De, sep_not_digit_r in I. rewrite I in Hx. discriminate Hx.
      - rewrite <- app_assoc in Es1. apply app_inv_head in Es1. exists (u :: v). split; [now rewrite <- Es1|].
        intros c I. apply in_app_iff. now right. }
    destruct Hrest2 as [->|(a & -> & Ia)].
    + destruct p as [|p0 p]; [|reflexivity]. exfalso. rewrite app_nil_r in Es1. destruct t; [now elim Hne|discriminate Es1].
    + destruct p as [|p0 p].
      * cbn [app] in Es1. change (ch_plus :: t ++ mk ++ e) with ([ch_plus] ++ t ++ mk ++ e). cbn [app span].
        change (r_number ch_plus) with false. reflexivity.
      * apply (Fin (Some (p0 :: p)) a). intros c I. apply Hr, Ia, I.
Qed.

(** ** Letters of a marker in either case *)
Definition upper_letters : list char := lit "ABCDEFGHIJKLMNOPQRSTUVWXYZ".
Fixpoint folded (r : re) : bool :=
  match r with
  | REps => true
  | RStart | REnd => false
  | RCls c => forallb (fun y => if in_cls c (y + 32) then in_cls c y else true) upper_letters
  | RCat a b | RAlt a b => if folded a then folded b else false
  | RRep _ _ _ r | RGrp _ r => folded r
  end.
Lemma upper_in : forall c, in_range 65 90 c = true -> In c upper_letters.
Proof.
  intros c H. unfold in_range in H.
  assert (E : exists k, k < 26 /\ c = (65 + N.of_nat k)%N) by (exists (N.to_nat (c - 65)); lia).
  destruct E as (k & Hk & ->). do 26 (destruct k as [|k]; [vm_compute; auto 30|]). lia.
Qed.
Lemma map_app_inv : forall (f : char -> char) w t1 t2, map f w = t1 ++ t2 ->
  exists w1 w2, w = w1 ++ w2 /\ map f w1 = t1 /\ map f w2 = t2.
Proof.
  intros f w t1. revert w. induction t1 as [|x t1 IH]; intros w t2 H; [exists [], w; auto|].
  destruct w as [|y w]; [discriminate H|]. cbn [map app] in H. injection H as <- H.
  destruct (IH w t2 H) as (w1 & w2 & -> & <- & <-). exists (y :: w1), w2. auto.
Qed.
Lemma lang_folded :
  (forall r b t a, lang r b t a -> folded r = true -> forall b' a' w, map ascii_lower w = t -> lang r b' w a') /\
  (forall r n b t a, langs r n b t a -> folded r = true -> forall b' a' w, map ascii_lower w = t -> langs r n b' w a').
Proof.
  apply lang_langs_ind; cbn [folded]; intros.
  - destruct w; [constructor|discriminate].
  - destruct w as [|y [|]]; cbn [map] in H0; try discriminate H0. injection H0 as Ey. constructor.
    unfold ascii_lower in Ey. destruct (in_range 65 90 y) eqn:R; [|now subst].
    rewrite forallb_forall in H. pose proof (H y (upper_in y R)) as G. rewrite Ey, e in G. exact G.
  - destruct (folded r1) eqn:F; [|discriminate]. apply map_app_inv in H2 as (w1 & w2 & -> & E1 & E2).
    constructor; eauto.
  - destruct (folded r1) eqn:F; [|discriminate]. apply L_alt1; eauto.
  - destruct (folded r1) eqn:F; [|discriminate]. apply L_alt2; eauto.
  - econstructor; eauto.
  - constructor; eauto.
  - discriminate.
  - discriminate.
  - destruct w; [constructor|discriminate].
  - apply map_app_inv in H2 as (w1 & w2 & -> & E1 & E2). constructor; eauto.
Qed.
