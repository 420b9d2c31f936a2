(** * TextFacts: what the text-extraction patterns do *)
From Verif Require Import Base Unicode Regex RegexSyntax Consts CountryId Types NationalNumber
  Metadata Database Validator Valid Number Rfc3966 Helper Natural.
From Verif Require Import StrFacts RegexLang RegexFacts RegexCaps ParserFacts.

(** ** Patterns of one character class *)
Lemma lang_cls : forall c b t a, lang (RCls c) b t a <-> exists x, t = [x] /\ in_cls c x = true.
Proof.
  intros. split.
  - intros H. inversion H; subst. eauto.
  - intros (x & -> & H). now constructor.
Qed.

Lemma langs_cls : forall c n b t a, langs (RCls c) n b t a <->
  length t = n /\ forallb (in_cls c) t = true.
Proof.
  induction n; intros b t a; split.
  - intros H. inversion H. easy.
  - intros [H _]. destruct t; [constructor|discriminate].
  - intros H. inversion H as [|r n' b' t1 t2 a' H1 H2]; subst. apply lang_cls in H1 as (x & -> & Hx).
    apply IHn in H2 as [H2 H3]. cbn [app length forallb]. rewrite Hx, H3, H2. easy.
  - intros [H1 H2]. destruct t as [|x t]; [discriminate|]. cbn [length forallb] in *.
    apply andb_true_iff in H2 as [Hx H2]. change (x :: t) with ([x] ++ t). constructor.
    + now constructor.
    + apply IHn. split; [now inversion H1|easy].
Qed.

Lemma lang_rep_cls : forall g mn mx c b t a, lang (RRep g mn mx (RCls c)) b t a <->
  mn <= length t /\ match mx with Some k => length t <= Nat.max mn k | None => True end
  /\ forallb (in_cls c) t = true.
Proof.
  intros. split.
  - intros H. inversion H as [| | | | |g' mn' mx' r' n b' t' a' H1 H2 H3| | |]; subst.
    apply langs_cls in H3 as [<- H3]. auto.
  - intros (H1 & H2 & H3). econstructor; [exact H1|exact H2|]. apply langs_cls. auto.
Qed.

Lemma find_cls : forall r c s, re_ast r = RCls c ->
  match span (fun x => negb (in_cls c x)) s with
  | (_, []) => re_find r s = None
  | (pre, x :: post) => exists m, re_find r s = Some m /\ mr_pre m = pre /\ mr_text m = [x] /\ mr_post m = post
  end.
Proof.
  intros r c s Hr. destruct (span _ s) as [pre rest] eqn:Es. apply span_spec in Es as (-> & Hp & Hc).
  destruct rest as [|x post].
  - apply re_find_none. rewrite Hr. intros (b & t & a & E & L). apply lang_cls in L as (y & -> & Hy).
    rewrite app_nil_r in E. subst pre. rewrite forallb_forall in Hp.
    specialize (Hp y). rewrite Hy in Hp. discriminate Hp. apply in_app_iff. right. now left.
  - assert (Hx : negb (in_cls c x) = false).
    { destruct Hc as [Hc|(c0 & b' & Hc & H0)]; [discriminate|]. inversion Hc; subst; exact H0. }
    destruct (re_find r (pre ++ x :: post)) as [m|] eqn:E.
    + exists m. split; [easy|]. apply re_find_some in E as (E1 & E2 & E3). rewrite Hr in *.
      apply lang_cls in E2 as (y & Ht & Hy). rewrite Ht in *.
      assert (Hpre : mr_pre m = pre).
      { revert E1 E3 Hp. generalize (mr_pre m) as q. intros q E1 E3 Hp.
        assert (exists u, (q = pre ++ u) \/ (exists z v, pre = q ++ z :: v)) as (u & Hu).
        { clear - E1. revert pre E1. induction q as [|z q IH]; intros [|w pre] E1.
          - exists []. now left.
          - exists []. right. exists w, pre. easy.
          - exists (z :: q). now left.
          - cbn in E1. inversion E1. subst z. destruct (IH pre H1) as (u & [->|(z & v & ->)]).
            + exists u. now left.
            + exists u. right. exists z, v. easy. }
        destruct Hu as [->|(z & v & ->)].
        - destruct u as [|z u]; [now rewrite app_nil_r|]. exfalso.
          rewrite <- app_assoc in E1. apply app_inv_head in E1. cbn [app] in E1. inversion E1; subst z.
          apply (E3 pre x u [x] post); [easy|easy|]. apply lang_cls. exists x. split; [easy|].
          apply negb_false_iff. exact Hx.
        - exfalso. rewrite <- app_assoc in E1. apply app_inv_head in E1. cbn [app] in E1. inversion E1; subst z.
          rewrite forallb_app in Hp. apply andb_true_iff in Hp as [_ Hp]. cbn [forallb] in Hp.
          apply andb_true_iff in Hp as [Hp _]. rewrite Hy in Hp. discriminate. }
      rewrite Hpre in *. apply app_inv_head in E1. cbn [app] in E1. inversion E1. auto.
    + exfalso. apply re_find_none in E. apply E. rewrite Hr. exists pre, [x], post. split; [easy|].
      apply lang_cls. exists x. split; [easy|]. apply negb_false_iff. exact Hx.
Qed.

(** ** Patterns that need a character outside a given set *)
Fixpoint avoids (Q : list char) (r : re) : bool :=
  match r with
  | REps | RStart | REnd => false
  | RCls c => forallb (fun q => negb (in_cls c q)) Q
  | RCat a b => if avoids Q a then true else avoids Q b
  | RAlt a b => if avoids Q a then avoids Q b else false
  | RRep _ mn _ r => if 1 <=? mn then avoids Q r else false
  | RGrp _ r => avoids Q r
  end.

Lemma avoids_sound :
  (forall r b t a, lang r b t a -> forall Q, avoids Q r = true -> exists x, In x t /\ ~ In x Q) /\
  (forall r n b t a, langs r n b t a -> forall Q, avoids Q r = true -> 1 <= n -> exists x, In x t /\ ~ In x Q).
Proof.
  apply lang_langs_ind; intros; cbn [avoids] in *; try discriminate.
  - exists x. split; [now left|]. intros I. rewrite forallb_forall in H. apply H in I. rewrite e in I. discriminate.
  - destruct (avoids Q r1) eqn:E.
    + destruct (H _ E) as (x & I & N). exists x. split; [apply in_app_iff; auto|easy].
    + destruct (H0 _ H1) as (x & I & N). exists x. split; [apply in_app_iff; auto|easy].
  - destruct (avoids Q r1) eqn:E; [|discriminate]. auto.
  - destruct (avoids Q r1) eqn:E; [|discriminate]. auto.
  - destruct (Nat.leb_spec 1 mn); [|discriminate]. apply (H Q H0). lia.
  - auto.
  - lia.
  - destruct (H _ H1) as (x & I & N). exists x. split; [apply in_app_iff; auto|easy].
Qed.

Lemma avoids_find : forall r Q s, avoids Q (re_ast r) = true -> (forall x, In x s -> In x Q) ->
  re_find r s = None.
Proof.
  intros r Q s H Hs. apply re_find_none. intros (b & t & a & -> & L).
  destruct (proj1 avoids_sound _ _ _ _ L _ H) as (x & I & N). apply N, Hs.
  apply in_app_iff. right. apply in_app_iff. now left.
Qed.

(** ** Trimming at the end *)
Definition trim_end (p : char -> bool) (s : str) : str := rev (snd (span p (rev s))).

Lemma trim_end_spec : forall p s, exists z, s = trim_end p s ++ z /\ forallb p z = true /\
  (trim_end p s = [] \/ exists a x, trim_end p s = a ++ [x] /\ p x = false).
Proof.
  intros p s. unfold trim_end. destruct (span p (rev s)) as [a b] eqn:E.
  apply span_spec in E as (E & Ha & Hb). cbn [snd].
  exists (rev a). split.
  - rewrite <- rev_app_distr, <- E. now rewrite rev_involutive.
  - split.
    + apply forallb_forall. intros x I. apply in_rev in I. rewrite forallb_forall in Ha. auto.
    + destruct Hb as [->|(x & b' & -> & Hx)]; [now left|]. right. exists (rev b'), x. cbn. auto.
Qed.

Lemma trim_end_id : forall p a x, p x = false -> trim_end p (a ++ [x]) = a ++ [x].
Proof.
  intros p a x H. unfold trim_end. rewrite rev_app_distr. cbn [rev app span]. rewrite H. cbn [snd rev].
  now rewrite rev_involutive.
Qed.

Lemma last_inv : forall A (l : list A), l = [] \/ exists a x, l = a ++ [x].
Proof. intros A l. destruct (rev l) as [|x r] eqn:E.
  - left. apply (f_equal (@rev A)) in E. now rewrite rev_involutive in E.
  - right. exists (rev r), x. apply (f_equal (@rev A)) in E. now rewrite rev_involutive in E.
Qed.

Lemma find_run_end : forall r c s, re_ast r = RCat (RRep true 1 None (RCls c)) REnd ->
  match re_find r s with
  | Some m => mr_pre m = trim_end (in_cls c) s
  | None => trim_end (in_cls c) s = s
  end.
Proof.
  intros r c s Hr. destruct (trim_end_spec (in_cls c) s) as (z & Hs & Hz & Ht).
  assert (Hl : forall b t a, lang (re_ast r) b t a <-> a = [] /\ t <> [] /\ forallb (in_cls c) t = true).
  { intros. rewrite Hr. split.
    - intros H. inversion H as [| |r1 r2 b' t1 t2 a' H1 H2| | | | | |]; subst.
      inversion H2; subst. apply lang_rep_cls in H1 as (H1 & _ & H3). rewrite app_nil_r in *.
      split; [easy|]. split; [|easy]. destruct t1; [cbn in H1; lia|easy].
    - intros (-> & H1 & H2). replace t with (t ++ []) by apply app_nil_r. constructor; [|constructor].
      apply lang_rep_cls. split; [|easy]. destruct t; [easy|cbn; lia]. }
  destruct (re_find r s) as [m|] eqn:E.
  - apply re_find_some in E as (E1 & E2 & E3). apply Hl in E2 as (E2 & E4 & E5).
    rewrite E2, app_nil_r in E1. set (u := trim_end (in_cls c) s) in *.
    assert (Hmin : forall b t, s = b ++ t -> t <> [] -> forallb (in_cls c) t = true -> length (mr_pre m) <= length b).
    { intros b t H1 H2 H3. destruct (Nat.le_gt_cases (length (mr_pre m)) (length b)); [easy|]. exfalso.
      assert (exists d v, mr_pre m = b ++ d :: v) as (d & v & Hd).
      { clear - H E1 H1. rewrite H1 in E1. clear H1. revert H E1. generalize (mr_pre m) as q. revert t.
        induction b as [|w b IH]; intros t [|y q] H E1; cbn in H; try lia.
        - exists y, q. easy.
        - cbn [app] in E1. inversion E1; subst. destruct (IH t q) as (d & v & ->); [lia|easy|]. now exists d, v. }
      apply (E3 b d v t []); [easy|now rewrite app_nil_r|]. apply Hl. auto. }
    assert (Hle : length u <= length (mr_pre m)).
    { destruct Ht as [->|(a & x & Hu & Hx)]; [cbn; lia|].
      destruct (Nat.le_gt_cases (length u) (length (mr_pre m))); [easy|]. exfalso.
      assert (I : In x (mr_text m)).
      { rewrite E1 in Hs. clear - Hs H Hu. rewrite Hu in *. revert Hs H.
        generalize (mr_pre m) as q. intros q Hs H. rewrite app_length in H. cbn in H.
        rewrite <- app_assoc in Hs. cbn in Hs. clear Hu u. revert q Hs H.
        induction a as [|w a IH]; intros q Hs H.
        - destruct q; [|cbn in H; lia]. cbn in Hs. rewrite Hs. now left.
        - destruct q as [|y q]; cbn in Hs.
          + rewrite Hs. right. apply in_app_iff. right. now left.
          + inversion Hs. apply (IH q); [easy|cbn in H; lia]. }
      rewrite forallb_forall in E5. apply E5 in I. congruence. }
    assert (Hge : length (mr_pre m) <= length u).
    { destruct z as [|d z].
      - rewrite app_nil_r in Hs. rewrite <- Hs, E1, app_length. lia.
      - apply (Hmin u (d :: z)); [exact Hs|easy|exact Hz]. }
    assert (Hlen : length (mr_pre m) = length u) by lia.
    rewrite E1 in Hs. clear - Hs Hlen. revert Hs Hlen. generalize (mr_pre m) as q, u, (mr_text m) as t, z.
    induction q as [|y q IH]; intros [|w u'] t z' Hs Hl; try discriminate; [easy|].
    cbn [app] in Hs. inversion Hs. f_equal. apply (IH u' t z'); [easy|]. now inversion Hl.
  - apply re_find_none in E. destruct z as [|d z].
    + rewrite app_nil_r in Hs. now symmetry.
    + exfalso. apply E. exists (trim_end (in_cls c) s), (d :: z), []. rewrite app_nil_r.
      split; [exact Hs|]. apply Hl. easy.
Qed.

(** ** extract *)
Definition start_char (c : char) : bool := is_plus c || in_ranges tbl_Nd c.
Definition unwanted_end (c : char) : bool :=
  negb (in_ranges tbl_N c) && negb (in_ranges tbl_L c) && negb (N.eqb c 35).

Definition start_cls : cls := match re_ast VALID_START_CHAR with RCls c => c | _ => CRange 0 0 end.
Definition end_cls : cls :=
  match re_ast UNWANTED_END_CHARS with RCat (RRep _ _ _ (RCls c)) _ => c | _ => CRange 0 0 end.

Lemma in_range_single : forall n c, in_range n n c = N.eqb c n.
Proof. intros. unfold in_range. destruct (N.leb_spec n c), (N.leb_spec c n), (N.eqb_spec c n); try lia; easy. Qed.

Lemma start_cls_ok : forall c, in_cls start_cls c = start_char c.
Proof.
  intros c. unfold start_cls, start_char, is_plus. cbn [in_cls VALID_START_CHAR re_ast ucat_tbl].
  rewrite !in_range_single. now destruct (N.eqb c 43), (N.eqb c 65291).
Qed.

Lemma end_cls_ok : forall c, in_cls end_cls c = unwanted_end c.
Proof.
  intros c. unfold end_cls, unwanted_end. cbn [in_cls UNWANTED_END_CHARS re_ast ucat_tbl].
  rewrite in_range_single. now destruct (in_ranges tbl_N c), (in_ranges tbl_L c), (N.eqb c 35).
Qed.

Lemma span_ext : forall p q s, (forall c, p c = q c) -> span p s = span q s.
Proof. intros p q s H. induction s as [|c s IH]; cbn [span]; [easy|]. rewrite H, IH. easy. Qed.

Lemma trim_end_ext : forall p q s, (forall c, p c = q c) -> trim_end p s = trim_end q s.
Proof. intros p q s H. unfold trim_end. now rewrite (span_ext p q _ H). Qed.

Definition cut_second (s : str) : str :=
  match re_find SECOND_NUMBER_START s with Some m => mr_pre m | None => s end.

Lemma extract_spec : forall v, extract v =
  match snd (span (fun c => negb (start_char c)) v) with
  | [] => Err tt
  | r0 => match cut_second (trim_end unwanted_end r0) with [] => Err tt | r => Ok r end
  end.
Proof.
  intros v. unfold extract.
  pose proof (find_cls VALID_START_CHAR start_cls v eq_refl) as F.
  rewrite (span_ext _ (fun c => negb (start_char c))) in F by (intros; now rewrite start_cls_ok).
  destruct (span _ v) as [pre [|x post]] eqn:Es; cbn [snd]; [now rewrite F|].
  destruct F as (m & E1 & Hp & Ht & Hq). rewrite E1.
  rewrite (slice_from_start _ _ _ E1), Ht, Hq. cbn [app unwrap obind].
  apply span_spec in Es as (Hv & _).
  set (r0 := (x :: post) : str) in *.
  assert (S1 : match re_find UNWANTED_END_CHARS r0 with
              | Some t => unwrap (slice_to r0 (mr_start t)) | None => @Ok unit str r0 end
              = Ok (trim_end unwanted_end r0)).
  { pose proof (find_run_end UNWANTED_END_CHARS end_cls r0 eq_refl) as F.
    rewrite (trim_end_ext _ _ r0 end_cls_ok) in F.
    destruct (re_find UNWANTED_END_CHARS r0) as [m2|] eqn:E2.
    - rewrite (slice_to_start _ _ _ E2). now rewrite F.
    - now rewrite F. }
  rewrite S1. cbn [obind]. set (r1 := trim_end unwanted_end r0).
  destruct (trim_end_spec unwanted_end r0) as (z & Hz & _). fold r1 in Hz.
  assert (S2 : exists p2, match re_find SECOND_NUMBER_START r1 with
              | Some t => unwrap (slice_to r1 (mr_start t)) | None => @Ok unit str r1 end = Ok (cut_second r1)
              /\ r1 = cut_second r1 ++ p2).
  { unfold cut_second. destruct (re_find SECOND_NUMBER_START r1) as [m2|] eqn:E2.
    - rewrite (slice_to_start _ _ _ E2). apply re_find_some in E2 as (H2 & _). eexists. cbn. eauto.
    - exists []. now rewrite app_nil_r. }
  destruct S2 as (p2 & S2 & H2). rewrite S2. cbn [obind].
  destruct (cut_second r1) as [|c r2] eqn:Ec; [easy|].
  rewrite Hv, Hz, H2. unfold mr_start. rewrite Hp, <- blen_app, <- !app_assoc, app_assoc, slice_from_app.
  easy.
Qed.

(** the text before the first digit or plus sign plays no role *)
Lemma extract_skip : forall pre v, forallb (fun c => negb (start_char c)) pre = true ->
  extract (pre ++ v) = extract v.
Proof. intros pre v H. rewrite !extract_spec. rewrite span_app_nil by exact H. easy. Qed.

Lemma natural_skip : forall pre v, forallb (fun c => negb (start_char c)) pre = true ->
  natural (pre ++ v) = natural v.
Proof. intros pre v H. unfold natural. now rewrite extract_skip. Qed.

Lemma extract_ends : forall a x, start_char (hd 0%N (a ++ [x])) = true -> unwanted_end x = false ->
  cut_second (a ++ [x]) = a ++ [x] -> extract (a ++ [x]) = Ok (a ++ [x]).
Proof.
  intros a x H1 H2 H3. rewrite extract_spec.
  assert (E : snd (span (fun c => negb (start_char c)) (a ++ [x])) = a ++ [x]).
  { destruct a as [|y a]; cbn [app hd] in H1; cbn [app span]; rewrite H1; easy. }
  pose proof (trim_end_id unwanted_end a x H2) as T.
  rewrite E. clear E. destruct (a ++ [x]) as [|c l] eqn:Ea; [now destruct a|].
  cbv beta iota. change (match cut_second (trim_end unwanted_end (c :: l)) with
    | [] => Err tt | r => Ok r end = @Ok unit str (c :: l)). 
  assert (T' : trim_end unwanted_end (c :: l) = c :: l)
    by exact (eq_ind (a ++ [x]) (fun l => trim_end unwanted_end l = l) T _ Ea).
  rewrite T', H3. easy.
Qed.
