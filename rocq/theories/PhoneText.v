(** * PhoneText: which part of the text becomes the number *)
From Verif Require Import Base Unicode Regex RegexSyntax Consts CountryId Types NationalNumber
  Metadata Database Validator Valid Number Rfc3966 Helper Natural PhoneNumber Parser.
From Verif Require Import StrFacts RegexLang RegexFacts RegexCaps DatabaseFacts ParserFacts TextFacts ViableFacts.

(** [t] is a contiguous part of [s] *)
Definition part (t s : str) : Prop := exists a b, s = a ++ t ++ b.

Lemma part_refl : forall s, part s s.
Proof. intros s. exists [], []. now rewrite app_nil_r. Qed.
Lemma part_trans : forall a b c, part a b -> part b c -> part a c.
Proof.
  intros a b c (x & y & ->) (u & v & ->). exists (u ++ x), (y ++ v). now rewrite !app_assoc.
Qed.
Lemma part_in : forall t s c, part t s -> In c t -> In c s.
Proof. intros t s c (a & b & ->) I. apply in_app_iff. right. apply in_app_iff. now left. Qed.
Lemma part_app_l : forall t a b, part t a -> part t (a ++ b).
Proof. intros t a b (x & y & ->). exists x, (y ++ b). now rewrite <- !app_assoc. Qed.
Lemma part_app_r : forall t a b, part t b -> part t (a ++ b).
Proof. intros t a b (x & y & ->). exists (a ++ x), y. now rewrite <- app_assoc. Qed.
Lemma part_suffix : forall a b, part b (a ++ b).
Proof. intros. apply part_app_r, part_refl. Qed.
Lemma part_prefix : forall a b, part a (a ++ b).
Proof. intros. apply part_app_l, part_refl. Qed.

(** ** The RFC 3966 form *)
Lemma r_parameter_inv : forall s k v r, r_parameter s = Some ((k, v), r) ->
  s = (59%N :: k) ++ (61%N :: v) ++ r /\ forallb r_pname k = true /\ forallb r_pchar v = true.
Proof.
  intros s k v r H. unfold r_parameter in H. destruct s as [|c s1]; [discriminate|].
  destruct (N.eqb_spec c 59); [|discriminate]. subst c.
  destruct (span r_pname s1) as [key s2] eqn:E1. apply span_spec in E1 as (-> & H1 & _).
  destruct s2 as [|e s3]; [discriminate|]. destruct (N.eqb_spec e 61); [|discriminate]. subst e.
  destruct (span r_pchar s3) as [value s4] eqn:E2. apply span_spec in E2 as (-> & H2 & _).
  inversion H; subst. split; [|auto]. easy.
Qed.

Lemma r_many_in : forall fuel s k v, In (k, v) (fst (r_many fuel s)) ->
  part (59%N :: k ++ 61%N :: v) s /\ forallb r_pchar v = true.
Proof.
  induction fuel as [|fuel IH]; intros s k v I; [easy|]. cbn [r_many] in I.
  destruct (r_parameter s) as [[[k' v'] s']|] eqn:E; [|easy].
  apply r_parameter_inv in E as (-> & _ & Hv).
  destruct (r_many fuel s') as [l rest] eqn:Em. cbn [fst] in I. destruct I as [I|I].
  - inversion I; subst. split; [|easy]. rewrite app_assoc. apply part_app_l.
    replace ((59%N :: k) ++ 61%N :: v) with (59%N :: k ++ 61%N :: v) by easy. apply part_refl.
  - destruct (IH s' k v) as [P1 P2]; [rewrite Em; exact I|]. split; [|easy].
    apply part_app_r, part_app_r, P1.
Qed.

Lemma params_get_in : forall l k v, params_get l k = Some v -> In (k, v) l.
Proof.
  induction l as [|[k' v'] l IH]; intros k v H; cbn in H; [discriminate|].
  destruct (params_get l k) as [w|] eqn:E.
  - inversion H; subst. right. auto.
  - destruct (str_eqb k' k) eqn:Ek; [|discriminate]. apply str_eqb_eq in Ek. inversion H; subst. now left.
Qed.

Lemma param_part : forall s k v, params_get (r_parameters s) k = Some v ->
  part (59%N :: k ++ 61%N :: v) s /\ forallb r_pchar v = true.
Proof. intros s k v H. apply params_get_in in H. eapply r_many_in; exact H. Qed.

Lemma tag_tel_inv : forall s r, tag_tel s = Some r ->
  exists t, s = t ++ r /\ length t = 4 /\ forallb (fun c => negb (start_char c)) t = true.
Proof.
  intros s r H. unfold tag_tel in H. destruct s as [|a [|b [|c [|d s]]]]; try discriminate.
  destruct (_ && _) eqn:E; [|discriminate]. inversion H; subst.
  apply andb_true_iff in E as [E Ed]. apply andb_true_iff in E as [E Ec]. apply andb_true_iff in E as [Ea Eb].
  exists [a; b; c; d]. split; [easy|]. split; [easy|].
  assert (G : forall x y, N.eqb (ascii_lower x) y = true -> in_range 97 122 y = true ->
              x = y \/ x = (y - 32)%N).
  { intros x y H1 H2. apply N.eqb_eq in H1. unfold ascii_lower, in_range in *.
    destruct (N.leb_spec 65 x), (N.leb_spec x 90); cbn in H1; lia. }
  apply N.eqb_eq in Ed. subst d.
  destruct (G _ _ Ea eq_refl) as [->| ->], (G _ _ Eb eq_refl) as [->| ->], (G _ _ Ec eq_refl) as [->| ->];
    vm_compute; reflexivity.
Qed.

Record rfc_view (s : str) (n : number) : Prop := {
  rv_space : ~ In 32%N s;
  rv_carrier : pn_carrier n = None;
  rv_country : pn_country n = SrcDefault;
  rv_shape : exists tel rest,
    forallb (fun c => negb (start_char c)) tel = true /\
    pn_national n <> [] /\ forallb r_number (pn_national n) = true /\
    ((exists p, pn_prefix n = Some p /\ s = tel ++ ch_plus :: p ++ pn_national n ++ rest) \/
     (s = tel ++ pn_national n ++ rest /\
      match pn_prefix n with
      | Some p => part (lit ";phone-context=" ++ p) s \/ part (lit ";phone-context=+" ++ p) s
      | None => True
      end)) /\
    match pn_extension n with Some e => part (lit ";ext=" ++ e) rest | None => True end }.

Lemma rfc_inv : forall s n, rfc3966 s = Some n -> rfc_view s n.
Proof.
  intros s n H. unfold rfc3966 in H. destruct (mem_char 32%N s) eqn:Esp; [discriminate|].
  assert (Hsp : ~ In 32%N s).
  { intros I. unfold mem_char in Esp. assert (existsb (N.eqb 32%N) s = true); [|congruence].
    apply existsb_exists. exists 32%N. split; [easy|]. reflexivity. }
  set (i1 := match tag_tel s with Some r => r | None => s end) in H.
  assert (Htel : exists tel, s = tel ++ i1 /\ forallb (fun c => negb (start_char c)) tel = true).
  { subst i1. destruct (tag_tel s) as [r|] eqn:Et.
    - apply tag_tel_inv in Et as (t & Et & _ & Hd). eauto.
    - now exists []. }
  destruct Htel as (tel & Hs & Htel). clearbody i1.
  destruct (r_prefix i1) as [[p r]|] eqn:Ep.
  - unfold r_prefix in Ep. destruct i1 as [|c i1']; [discriminate|].
    destruct (N.eqb_spec c 43); [|discriminate]. subst c.
    destruct (span (fun c => negb (r_separator c)) i1') as [p' rest'] eqn:Es.
    apply span_spec in Es as (-> & _). destruct p' as [|x p']; [discriminate|]. inversion Ep; subst p r. clear Ep.
    destruct (span r_number rest') as [national i3] eqn:Es. apply span_spec in Es as (-> & Hn & _).
    destruct national as [|y national]; [discriminate|]. destruct (r_check i3); [|discriminate].
    injection H as <-. constructor; cbn [pn_carrier pn_country pn_national pn_prefix pn_extension]; auto.
    exists tel, i3. split; [easy|]. split; [easy|]. split; [exact Hn|]. split.
    + left. exists (x :: p'). split; [easy|exact Hs].
    + destruct (params_get (r_parameters i3) _) as [e|] eqn:Ee; [|easy].
      apply param_part in Ee as [Ee _]. exact Ee.
  - destruct (span r_number i1) as [national i3] eqn:Es. apply span_spec in Es as (Hi & Hn & _).
    destruct national as [|y national]; [discriminate|]. destruct (r_check i3); [|discriminate].
    injection H as <-. constructor; cbn [pn_carrier pn_country pn_national pn_prefix pn_extension]; auto.
    exists tel, i3. split; [easy|]. split; [easy|]. split; [exact Hn|]. split.
    + right. rewrite Hi in Hs. split; [exact Hs|].
      destruct (params_get (r_parameters i3) _) as [v|] eqn:Ee; [|easy].
      apply param_part in Ee as [Ee _].
      assert (Ps : forall u, part u i3 -> part u s).
      { intros u Pu. rewrite Hs. now apply part_app_r, part_app_r. }
      unfold strip_prefix_char. destruct v as [|x v]; [left; apply Ps; exact Ee|].
      destruct (N.eqb_spec x ch_plus).
      * subst x. right. apply Ps. exact Ee.
      * left. apply Ps. exact Ee.
    + destruct (params_get (r_parameters i3) _) as [e|] eqn:Ee; [|easy].
      apply param_part in Ee as [Ee _]. exact Ee.
Qed.

(** ** The natural form *)
Record nat_view (s : str) (n : number) : Prop := {
  nv_carrier : pn_carrier n = None;
  nv_country : pn_country n = SrcDefault;
  nv_prefix : pn_prefix n = None;
  nv_national : exists pre post, s = pre ++ pn_national n ++ post
                  /\ forallb (fun c => negb (start_char c)) pre = true
                  /\ match pn_national n with [] => True | c :: _ => start_char c = true end;
  nv_ext : match pn_extension n with Some e => length e <= 7 /\ part e s /\ forallb (in_ranges tbl_Nd) e = true
           | None => True end }.

Lemma in_grps_2 : forall r, In (2, r) (grps (re_ast EXTN_PATTERN)) ->
  r = RRep true 0 (Some 7) (RCls (CUni UNd)).
Proof.
  intros r I. change (In (2, r) [(1, RRep true 0 (Some 7) (RCls (CUni UNd)));
        (2, RRep true 0 (Some 7) (RCls (CUni UNd)));
        (3, RRep true 1 (Some 5) (RCls (CUni UNd)))]) in I.
  destruct I as [I|[I|[I|[]]]]; inversion I; reflexivity.
Qed.

Lemma natural_inv : forall s n, natural s = Ok n -> nat_view s n.
Proof.
  intros s n H. unfold natural in H. apply obind_ok in H as (i & Hi & H).
  assert (Hex : exists pre post, s = pre ++ i ++ post /\ forallb (fun c => negb (start_char c)) pre = true
                /\ exists c i', i = c :: i' /\ start_char c = true).
  { rewrite extract_spec in Hi. destruct (span _ s) as [pre r0] eqn:Es. apply span_spec in Es as (-> & Hp & Hc).
    cbn [snd] in Hi. destruct r0 as [|x r0]; [discriminate|].
    assert (Hx : start_char x = true).
    { destruct Hc as [Hc|(c0 & b' & Hc & H0)]; [discriminate|]. inversion Hc; subst. now apply negb_false_iff. }
    destruct (trim_end_spec unwanted_end (x :: r0)) as (z & Hz & _). set (r1 := trim_end unwanted_end (x :: r0)) in *.
    assert (H2 : exists p2, r1 = cut_second r1 ++ p2).
    { unfold cut_second. destruct (re_find SECOND_NUMBER_START r1) as [m2|] eqn:E2.
      - apply re_find_some in E2 as (H2 & _). eauto.
      - exists []. now rewrite app_nil_r. }
    destruct H2 as (p2 & H2). destruct (cut_second r1) as [|y r2] eqn:Ec; [discriminate|]. inversion Hi; subst i.
    assert (E : (x :: r0 : str) = (y :: r2) ++ p2 ++ z) by (rewrite Hz, H2; now rewrite <- app_assoc).
    inversion E; subst y. exists pre, (p2 ++ z). split; [cbn; congruence|]. split; [easy|]. eauto. }
  destruct Hex as (pre & post & -> & Hpre & c & i' & Hc & Hst).
  destruct (re_find EXTN_PATTERN i) as [m|] eqn:Em.
  - destruct (cap_get m 2) as [e|] eqn:Ee; [|discriminate].
    rewrite (slice_to_start _ _ _ Em) in H. cbn in H. inversion H; subst n. clear H.
    pose proof Em as E1. apply re_find_some in E1 as (E1 & _). constructor; cbn; auto.
    + exists pre, (mr_text m ++ mr_post m ++ post). split.
      * rewrite E1 at 1. now rewrite <- !app_assoc.
      * split; [easy|]. destruct (mr_pre m) as [|x q] eqn:Eq; [easy|]. rewrite Hc in E1. inversion E1; subst. easy.
    + destruct (re_find_cap _ _ _ _ _ Em Ee) as (r' & x & y & Hg & Ht & L). cbn [fst snd] in *.
      apply in_grps_2 in Hg. subst r'. apply lang_rep_cls in L as (_ & L1 & L2).
      split; [cbn in L1; lia|]. split; [|exact L2].
      apply part_app_r, part_app_l. rewrite E1. apply part_app_r, part_app_l. rewrite Ht.
      apply part_app_r, part_prefix.
  - inversion H; subst n. constructor; cbn; auto. exists pre, post. split; [easy|]. split; [easy|].
    rewrite Hc. exact Hst.
Qed.

Lemma p_phone_number_inv : forall s n, p_phone_number s = Ok n -> rfc_view s n \/ (rfc3966 s = None /\ nat_view s n).
Proof.
  intros s n H. unfold p_phone_number in H. destruct (rfc3966 s) as [r|] eqn:E.
  - inversion H; subst. left. now apply rfc_inv.
  - right. split; [easy|]. destruct (natural s) eqn:En; inversion H; subst. now apply natural_inv.
Qed.

Lemma p_phone_number_start : forall s n, p_phone_number s = Ok n ->
  part (pn_national n) s /\ pn_carrier n = None /\ pn_country n = SrcDefault.
Proof.
  intros s n H. apply p_phone_number_inv in H as [[_ H1 H2 (tel & rest & _ & _ & _ & H3 & _)]|[_ [H1 H2 _ (pre & post & -> & _) _]]].
  - split; [|auto]. destruct H3 as [(p & _ & ->)|[-> _]].
    + apply part_app_r. change (ch_plus :: p ++ pn_national n ++ rest) with ((ch_plus :: p) ++ pn_national n ++ rest).
      apply part_app_r, part_prefix.
    + apply part_app_r, part_prefix.
  - split; [|auto]. apply part_app_r, part_prefix.
Qed.

(** ASCII digits are start characters, plus signs are not digits *)
Lemma digit_Nd : forall c, is_digit c = true -> in_ranges tbl_Nd c = true.
Proof.
  intros c H. apply is_digit_spec in H.
  change tbl_Nd with ((48%N, 57%N) :: tl tbl_Nd). cbn [in_ranges]. unfold in_range.
  destruct (N.leb_spec 48 c), (N.leb_spec c 57); try lia. easy.
Qed.
Lemma digit_start : forall c, is_digit c = true -> start_char c = true.
Proof. intros c H. unfold start_char. rewrite digit_Nd by easy. apply orb_true_r. Qed.

Lemma r_number_not_plus : forall c, r_number c = true -> is_plus c = false.
Proof.
  intros c H. unfold is_plus. destruct (N.eqb_spec c 43); [subst; discriminate|].
  destruct (N.eqb_spec c 65291); [subst; discriminate|easy].
Qed.
