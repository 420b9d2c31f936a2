(** * C46: which part of any text is read as the number, its code and its extension *)
From Verif Require Import Base Unicode Regex RegexSyntax Consts CountryId Types NationalNumber
  Metadata Database Validator Valid Number Rfc3966 Helper Natural PhoneNumber Parser DefaultDb Api.
From Verif Require Import StrFacts NationalFacts RegexLang RegexFacts RegexCaps DatabaseFacts ParserFacts
  ParseInv TextFacts ViableFacts PhoneText E164Facts CoreFacts ExtFacts ReadFacts PropsE164 PropsRfc PropsText PropsTel.

(** ** Vocabulary *)
(** a decimal digit of any script; a number or letter of any script, or '#' *)
Definition ndigit (c : char) : Prop := in_ranges tbl_Nd c = true.
Definition wanted (c : char) : Prop := in_ranges tbl_N c = true \/ in_ranges tbl_L c = true \/ c = 35%N.
(** what a number may begin with *)
Definition begins (c : char) : Prop := aplus c \/ ndigit c.

(** a slash or backslash, spaces and an 'x' announce a second number *)
Definition second (m : str) : Prop := exists c k, m = c :: repeat 32%N k ++ [120%N] /\ In c (lit "/\").
Definition up_to_second (t u : str) : Prop :=
  (t = u /\ forall a m b, t = a ++ m ++ b -> ~ second m)
  \/ exists m r, t = u ++ m ++ r /\ second m
       /\ forall a m' b, t = a ++ m' ++ b -> second m' -> length u <= length a.
(** from the first character a number may begin with to the last wanted one, or
    to the first announcement of a second number *)
Definition candidate (s u : str) : Prop := exists pre t junk,
  s = pre ++ t ++ junk /\ Forall (fun c => ~ begins c) pre
  /\ (exists x t', t = x :: t' /\ begins x) /\ (exists t' x, t = t' ++ [x] /\ wanted x)
  /\ Forall (fun c => ~ wanted c) junk /\ up_to_second t u.

(** the words that introduce an extension, up to case *)
Definition wide (s : str) : str := map (fun c => (c + 65248)%N) s.
Definition intro_words : list str :=
  flat_map (fun e => flat_map (fun m => map (fun n => e ++ m ++ n) [[]; lit "n"])
     [[]; lit "ensio"; lit "ensio" ++ [769%N]; lit "ensi" ++ [243%N]]) [lit "ext"; lit "xt"]
  ++ [lit "int"; lit "anexo"; lit "x"; lit "#"; lit "~"; lit ","; lit ";"]
  ++ map wide [lit "ext"; lit "extn"; lit "xt"; lit "xtn"; lit "int"; lit "x"; lit "#"; lit "~"].
Definition blank_chars : str := [32; 160; 9; 44]%N.
Definition introduces (mk : str) : Prop := exists sp w dot sp2,
  mk = sp ++ w ++ dot ++ sp2 /\ made_of blank_chars sp /\ In (map small w) intro_words
  /\ In dot [[]; lit ":"; lit "."; wide (lit ".")] /\ made_of (blank_chars ++ lit "-") sp2.
(** an introduction, at most seven digits, perhaps '#' *)
Definition tail_with (t e : str) : Prop := exists mk hash,
  t = mk ++ e ++ hash /\ introduces mk /\ Forall ndigit e /\ length e <= 7 /\ In hash [[]; lit "#"].
(** [;ext=] and at most seven digits, or hyphens and spaces, at most five digits and '#' *)
Definition tail_without (t : str) : Prop :=
  (exists w e, t = w ++ e /\ map small w = lit ";ext=" /\ Forall ndigit e /\ length e <= 7)
  \/ (exists sp e, t = sp ++ e ++ lit "#" /\ sp <> [] /\ made_of (lit "- ") sp /\ Forall ndigit e /\ 1 <= length e <= 5).

(** an RFC 3966 text (C42) *)
Definition is_tel (s : str) : Prop := exists sch code local ps rest,
  well_formed sch code local ps rest /\ s = tel_text sch code local ps rest.

(** the calling code if it stands apart, the number, the extension; or nothing *)
Inductive reads (s : str) : option (option str * str * option str) -> Prop :=
| R_tel : forall sch code local ps rest x y,
    well_formed sch code local ps rest -> s = tel_text sch code local ps rest ->
    last_is (lit "ext") ps x -> last_is (lit "phone-context") ps y ->
    reads s (Some (match code with Some cc => Some cc | None => option_map unplussed y end, local, x))
| R_number : forall u, ~ is_tel s -> candidate s u ->
    (forall a t, u = a ++ t -> ~ tail_without t /\ forall e, ~ tail_with t e) ->
    reads s (Some (None, u, None))
| R_extension : forall u n t e, ~ is_tel s -> candidate s u -> u = n ++ t -> tail_with t e ->
    (forall a t' e', u = a ++ t' -> tail_without t' \/ tail_with t' e' -> length n <= length a) ->
    reads s (Some (None, n, Some e))
| R_dropped : forall u n t, ~ is_tel s -> candidate s u -> u = n ++ t -> tail_without t ->
    (forall a t' e', u = a ++ t' -> tail_without t' \/ tail_with t' e' -> length n <= length a) ->
    reads s None
| R_nothing : ~ is_tel s -> (forall u, ~ candidate s u) -> reads s None.

(** ** The character classes *)
Lemma begins_iff : forall c, start_char c = true <-> begins c.
Proof. intros c. unfold start_char, begins, ndigit. rewrite orb_true_iff, aplus_iff. reflexivity. Qed.
Lemma wanted_iff : forall c, unwanted_end c = false <-> wanted c.
Proof.
  intros c. unfold unwanted_end, wanted. generalize (in_ranges tbl_N c) as p, (in_ranges tbl_L c) as q. intros p q.
  rewrite !andb_false_iff, !negb_false_iff, N.eqb_eq. tauto.
Qed.
Lemma not_begins : forall s, forallb (fun c => negb (start_char c)) s = true <-> Forall (fun c => ~ begins c) s.
Proof.
  intros s. apply forall_iff. intros c. rewrite negb_true_iff, <- begins_iff. generalize (start_char c). intros []; intuition discriminate.
Qed.
Lemma not_wanted : forall s, forallb unwanted_end s = true <-> Forall (fun c => ~ wanted c) s.
Proof.
  intros s. apply forall_iff. intros c. rewrite <- wanted_iff. generalize (unwanted_end c). intros []; intuition discriminate.
Qed.
Lemma ndigits_iff : forall s, forallb (in_cls (CUni UNd)) s = true <-> Forall ndigit s.
Proof. intros s. apply forall_iff. intros c. cbn [in_cls ucat_tbl]. unfold ndigit. reflexivity. Qed.

(** ** Second numbers *)
Lemma second_iff : forall b t a, lang (re_ast SECOND_NUMBER_START) b t a <-> second t.
Proof.
  intros b t a. change (re_ast SECOND_NUMBER_START) with
    (RCat (RCat (RCls (CUnion (CRange 92 92) (CRange 47 47))) (RRep true 0 None (RCls (CRange 32 32)))) (RCls (CRange 120 120))).
  split.
  - intros L. apply lang_cat_inv in L as (t1 & t2 & -> & L & L2). apply lang_cat_inv in L as (t3 & t4 & -> & L3 & L4).
    apply lang_cls in L2 as (x & -> & Hx). apply lang_cls in L3 as (c & -> & Hc). apply lang_rep_cls in L4 as (_ & _ & Hs).
    exists c, (length t4). split.
    + cbn [in_cls] in Hx. rewrite in_range_single in Hx. apply N.eqb_eq in Hx. subst x. cbn [app]. f_equal. f_equal.
      clear - Hs. induction t4 as [|y t4 IH]; [reflexivity|]. cbn [forallb length repeat] in *. apply andb_true_iff in Hs as [Hy Hs].
      cbn [in_cls] in Hy. rewrite in_range_single in Hy. apply N.eqb_eq in Hy. subst y. now rewrite <- IH.
    + cbn [in_cls] in Hc. rewrite !in_range_single in Hc. destruct (N.eqb_spec c 92); [subst; vm_compute; auto|].
      apply N.eqb_eq in Hc. subst. vm_compute. auto.
  - intros (c & k & -> & Hc). change (c :: repeat 32%N k ++ [120%N]) with (([c] ++ repeat 32%N k) ++ [120%N]).
    constructor; [constructor|].
    + apply lang_cls. exists c. split; [reflexivity|]. destruct Hc as [<-|[<-|[]]]; reflexivity.
    + apply lang_rep_cls. split; [lia|]. split; [exact I|]. apply forallb_forall. intros x Hx. apply repeat_spec in Hx. now subst x.
    + apply lang_cls. exists 120%N. auto.
Qed.

Lemma leftmost : forall (u u' n n' : str), u ++ u' = n ++ n' -> length u <= length n -> length n <= length u -> u = n.
Proof.
  intros u u' n n' E H1 H2. apply (f_equal (firstn (length u))) in E. rewrite firstn_app, firstn_all, Nat.sub_diag, firstn_O, app_nil_r in E.
  assert (L : length u = length n) by lia. rewrite L, firstn_app, firstn_all, Nat.sub_diag, firstn_O, app_nil_r in E. exact E.
Qed.
Lemma longer : forall (a b : str) x y, a ++ x = b ++ y -> length a < length b -> exists c r, b = a ++ c :: r.
Proof.
  intros a b x y E H. destruct (app_split _ a x b y E) as [(z & ->)|(z & w & ->)]; [|eauto].
  rewrite app_length in H. lia.
Qed.

Lemma cut_iff : forall t u, cut_second t = u <-> up_to_second t u.
Proof.
  assert (F : forall t, up_to_second t (cut_second t)).
  { intros t. unfold cut_second. destruct (re_find SECOND_NUMBER_START t) as [m|] eqn:E.
    - apply re_find_some in E as (Es & L & Hleft). right. exists (mr_text m), (mr_post m). split; [exact Es|].
      split; [now apply second_iff in L|]. intros a m' b Ea Hm'.
      destruct (Nat.le_gt_cases (length (mr_pre m)) (length a)) as [|G]; [assumption|exfalso].
      destruct (longer a (mr_pre m) (m' ++ b) (mr_text m ++ mr_post m)) as (c & r & Ec); [congruence|exact G|].
      apply (Hleft a c r m' b Ec Ea). now apply second_iff.
    - left. split; [reflexivity|]. intros a m b Ea Hm. apply re_find_none in E. apply E. exists a, m, b. split; [exact Ea|].
      now apply second_iff. }
  intros t u. split; [intros <-; apply F|]. intros H. specialize (F t). revert F. generalize (cut_second t) as v. intros v F.
  destruct H as [[<- N]|(m & r & E & Hm & Hl)], F as [[<- N']|(m' & r' & E' & Hm' & Hl')].
  - reflexivity.
  - elim (N _ _ _ E' Hm').
  - elim (N' _ _ _ E Hm).
  - apply (leftmost _ (m' ++ r') _ (m ++ r)); [congruence|..]; [eapply Hl'|eapply Hl]; eauto.
Qed.

Lemma extract_iff : forall s u, extract s = Ok u <-> candidate s u.
Proof.
  intros s u. rewrite extract_spec. split.
  - destruct (span (fun c => negb (start_char c)) s) as [pre r0] eqn:Es. apply span_spec in Es as (-> & Hp & Hc). cbn [snd].
    destruct r0 as [|x r0]; [discriminate|]. intros H.
    assert (Hx : start_char x = true).
    { destruct Hc as [Hc|(c0 & b' & Hc & H0)]; [discriminate|]. inversion Hc; subst. now apply negb_false_iff. }
    destruct (trim_end_spec unwanted_end (x :: r0)) as (z & Hz & Hzz & Hl). set (t := trim_end unwanted_end (x :: r0)) in *.
    assert (Hcut : cut_second t = u /\ u <> []) by (destruct (cut_second t); [discriminate|]; inversion H; split; [reflexivity|discriminate]).
    destruct Hcut as [Hcut Hu]. assert (Ht : t <> []).
    { intros E. rewrite E in Hcut. apply cut_iff in Hcut as [[<- _]|(m & r & E' & _)]; [now elim Hu|].
      destruct u; [now elim Hu|discriminate E']. }
    exists pre, t, z. rewrite <- Hz. split; [reflexivity|]. split; [now apply not_begins|]. split.
    { destruct t as [|y t']; [now elim Ht|]. injection Hz as <- _. exists x, t'. split; [reflexivity|now apply begins_iff]. }
    split; [|split; [now apply not_wanted|now apply cut_iff]].
    destruct Hl as [Hl|(a & y & E & Hy)]; [contradiction|]. exists a, y. split; [exact E|now apply wanted_iff].
  - intros (pre & t & junk & -> & Hp & (x & t' & Ex & Hx) & (t2 & y & Ey & Hy) & Hj & Hc).
    apply not_begins in Hp. apply begins_iff in Hx. apply wanted_iff in Hy. apply not_wanted in Hj.
    rewrite span_app_nil by exact Hp. assert (E0 : snd (span (fun c => negb (start_char c)) (t ++ junk)) = t ++ junk).
    { rewrite Ex. cbn [app span]. rewrite Hx. reflexivity. }
    rewrite E0. assert (Et : trim_end unwanted_end (t ++ junk) = t).
    { rewrite Ey. clear - Hy Hj. unfold trim_end. rewrite rev_app_distr, rev_app_distr. cbn [rev app].
      rewrite (span_app_stop unwanted_end (rev junk) y (rev t2)); [|apply forallb_forall; intros c Ic; rewrite forallb_forall in Hj; apply Hj, in_rev, Ic|exact Hy].
      cbn [snd]. change (y :: rev t2) with (rev [y] ++ rev t2). rewrite <- rev_app_distr. apply rev_involutive. }
    pose proof (proj2 (cut_iff t u) Hc) as Hcut.
    assert (Hu : u <> []).
    { intros ->. destruct Hc as [[E _]|(m & r & E & (c & k & Em & Ic) & _)].
      - rewrite Ex in E. discriminate.
      - rewrite Ex, Em in E. cbn [app] in E. injection E as -> _. destruct Ic as [<-|[<-|[]]]; vm_compute in Hx; discriminate. }
    rewrite <- Et in Hcut. destruct (t ++ junk) as [|z w] eqn:Ez; [rewrite Ex in Ez; discriminate|].
    cbn [snd]. match goal with |- context [cut_second ?v] => assert (Q : cut_second v = u) by exact Hcut; rewrite Q end.
    destruct u; [now elim Hu|reflexivity].
Qed.

Lemma extract_cases : forall s, (exists u, extract s = Ok u) \/ extract s = Err tt.
Proof.
  intros s. rewrite extract_spec. destruct (snd _); [now right|]. destruct (cut_second _); [now right|]. left. eauto.
Qed.

(** ** Extensions *)

(** ** Extensions *)
(** not a letter *)
Definition caseless (k : N) : bool :=
  if in_range 97 122 k then false else if in_range 65345 65370 k then false
  else if N.eqb k 243 then false else N.eqb (small k) k.
Lemma small_caseless : forall k x, caseless k = true -> small x = k <-> x = k.
Proof.
  intros k x H. unfold caseless in H. destruct (in_range 97 122 k) eqn:R1; [discriminate|].
  destruct (in_range 65345 65370 k) eqn:R2; [discriminate|]. destruct (N.eqb_spec k 243); [discriminate|].
  apply N.eqb_eq in H. split; [|now intros ->]. intros E. unfold small, in_range in *.
  destruct (N.leb_spec 65 x), (N.leb_spec x 90); cbn [andb] in E; try lia;
  destruct (N.leb_spec 65313 x), (N.leb_spec x 65338); cbn [andb] in E; try lia;
  destruct (N.eqb_spec x 211); try lia; destruct (N.eqb_spec x 383); lia.
Qed.
Lemma caseless_iff : forall c l, points c = Some l -> forallb (fun k => existsb (N.eqb k) pattern_chars) l = true ->
  forallb caseless l = true -> forall x, in_cls c x = true <-> In x l.
Proof.
  intros c l H Hp Hc x. rewrite (points_iff c l H).
  - rewrite forallb_forall in Hc. clear H Hp. induction l as [|k l IH]; [reflexivity|]. cbn [In].
    rewrite IH by (intros y I; apply Hc; now right).
    assert (E : k = small x <-> k = x).
    { pose proof (small_caseless k x (Hc k (or_introl eq_refl))) as E. split; intros; symmetry; apply E; now symmetry. }
    rewrite E. reflexivity.
  - intros k I. rewrite forallb_forall in Hp. apply Hp in I. apply existsb_exists in I as (y & J & Ey). apply N.eqb_eq in Ey. now subst.
Qed.
Lemma runs_iff : forall c l, (forall x, in_cls c x = true <-> In x l) -> forall s, forallb (in_cls c) s = true <-> made_of l s.
Proof. intros c l H s. rewrite forallb_forall. unfold made_of. split; intros G x I; apply H, G, I. Qed.

Lemma blank_iff : forall s, forallb (in_cls extn_sp) s = true <-> made_of blank_chars s.
Proof. apply runs_iff, (caseless_iff extn_sp _ eq_refl); vm_compute; reflexivity. Qed.
Lemma blank2_iff : forall s, forallb (in_cls extn_sp2) s = true <-> made_of (blank_chars ++ lit "-") s.
Proof. apply runs_iff, (caseless_iff extn_sp2 _ eq_refl); vm_compute; reflexivity. Qed.
Lemma dot_iff : forall x, in_cls extn_dot x = true <-> In x [58; 46; 65294]%N.
Proof. apply (caseless_iff extn_dot _ eq_refl); vm_compute; reflexivity. Qed.
Lemma hash_iff : forall x, in_cls (CFold (CRange 35 35)) x = true <-> In x [35]%N.
Proof. apply (caseless_iff (CFold (CRange 35 35)) _ eq_refl); vm_compute; reflexivity. Qed.
Lemma dash_iff : forall s, forallb (in_cls (CUnion (CFold (CRange 45 45)) (CFold (CRange 32 32)))) s = true <-> made_of (lit "- ") s.
Proof. apply runs_iff, (caseless_iff (CUnion (CFold (CRange 45 45)) (CFold (CRange 32 32))) _ eq_refl); vm_compute; reflexivity. Qed.

Definition word_list : list str := Eval vm_compute in
  match shapes extn_word with Some l => match spells l with Some k => k | None => [] end | None => [] end.
Definition word_shapes : list (list cls) := Eval vm_compute in
  match shapes extn_word with Some l => l | None => [] end.
Lemma word_iff : forall b t a, lang extn_word b t a <-> In (map small t) intro_words.
Proof.
  intros b t a. rewrite (finite_pattern extn_word word_shapes word_list); [|vm_compute; reflexivity..].
  assert (G : forallb (fun w => existsb (str_eqb w) intro_words) word_list = true
           /\ forallb (fun w => existsb (str_eqb w) word_list) intro_words = true) by (vm_compute; auto).
  destruct G as [G1 G2]. rewrite forallb_forall in G1, G2. split; intros I.
  - apply G1, existsb_exists in I as (w & I & E). apply str_eqb_eq in E. now rewrite E.
  - apply G2, existsb_exists in I as (w & I & E). apply str_eqb_eq in E. now rewrite E.
Qed.
Lemma single_inv : forall (P : char -> Prop) t, length t <= 1 -> Forall P t -> t = [] \/ exists x, t = [x] /\ P x.
Proof.
  intros P [|x [|y t]] H F; [now left| |cbn in H; lia]. right. exists x. inversion F. auto.
Qed.
Lemma mark_iff : forall b t a, lang extn_mark b t a <-> introduces t.
Proof.
  intros b t a. rewrite extn_mark_shape. split.
  - intros L. apply lang_cat_inv in L as (t1 & sp2 & -> & L & L4). apply lang_cat_inv in L as (t2 & dot & -> & L & L3).
    apply lang_cat_inv in L as (sp & w & -> & L1 & L2). apply lang_rep_cls in L1 as (_ & _ & L1).
    apply lang_rep_cls in L3 as (_ & L3 & L3'). apply lang_rep_cls in L4 as (_ & _ & L4). apply word_iff in L2.
    exists sp, w, dot, sp2. split; [now rewrite <- !app_assoc|]. split; [now apply blank_iff|]. split; [exact L2|].
    split; [|now apply blank2_iff]. cbn in L3.
    destruct dot as [|x [|y d]]; [now left| |cbn in L3; lia]. cbn [forallb] in L3'. apply andb_true_iff in L3' as [L3' _].
    apply dot_iff in L3' as [<-|[<-|[<-|[]]]]; vm_compute; auto.
  - intros (sp & w & dot & sp2 & -> & Hsp & Hw & Hd & Hsp2).
    replace (sp ++ w ++ dot ++ sp2) with (((sp ++ w) ++ dot) ++ sp2) by now rewrite <- !app_assoc.
    constructor; [constructor; [constructor|]|].
    + apply lang_rep_cls. split; [lia|]. split; [exact I|]. now apply blank_iff.
    + now apply word_iff.
    + apply lang_rep_cls. split; [lia|]. destruct Hd as [<-|[<-|[<-|[<-|[]]]]]; (split; [cbn; lia|vm_compute; reflexivity]).
    + apply lang_rep_cls. split; [lia|]. split; [exact I|]. now apply blank2_iff.
Qed.
Lemma digits7_iff : forall b t a, lang extn_digits b t a <-> Forall ndigit t /\ length t <= 7.
Proof. intros b t a. unfold extn_digits. rewrite lang_rep_cls, ndigits_iff. cbn [Nat.max]. split; intuition lia. Qed.
Lemma hashes_iff : forall b t a, lang extn_hash b t a <-> In t [[]; lit "#"].
Proof.
  intros b t a. unfold extn_hash. rewrite lang_rep_cls. cbn [Nat.max]. split.
  - intros (_ & H & F). destruct t as [|x [|y t]]; [now left| |cbn in H; lia]. cbn [forallb] in F. apply andb_true_iff in F as [F _].
    apply hash_iff in F as [<-|[]]. right. now left.
  - intros [<-|[<-|[]]]; (split; [lia|]; split; [cbn; lia|vm_compute; reflexivity]).
Qed.

Definition ext_eq : re := match extn1 with RCat a _ => a | _ => REps end.
Lemma ext_eq_iff : forall b t a, lang ext_eq b t a <-> map small t = lit ";ext=".
Proof.
  intros b t a. rewrite (finite_pattern ext_eq
    [[CFold (CRange 59 59); CFold (CRange 101 101); CFold (CRange 120 120); CFold (CRange 116 116); CFold (CRange 61 61)]] [lit ";ext="]);
    [|vm_compute; reflexivity..]. cbn [In]. intuition.
Qed.
Lemma extn1_iff : forall b t a, lang extn1 b t a <->
  exists w e, t = w ++ e /\ map small w = lit ";ext=" /\ Forall ndigit e /\ length e <= 7.
Proof.
  intros b t a. change extn1 with (RCat ext_eq (RGrp 1 extn_digits)). split.
  - intros L. apply lang_cat_inv in L as (w & e & -> & L1 & L2). apply lang_grp_inv in L2.
    apply ext_eq_iff in L1. apply digits7_iff in L2. exists w, e. tauto.
  - intros (w & e & -> & H1 & H2 & H3). constructor; [now apply ext_eq_iff|]. constructor. now apply digits7_iff.
Qed.
Lemma extn3_iff : forall b t a, lang extn3 b t a <->
  exists sp e, t = sp ++ e ++ lit "#" /\ sp <> [] /\ made_of (lit "- ") sp /\ Forall ndigit e /\ 1 <= length e <= 5.
Proof.
  intros b t a. change extn3 with (RCat (RCat (RRep true 1 None (RCls (CUnion (CFold (CRange 45 45)) (CFold (CRange 32 32)))))
    (RGrp 3 (RRep true 1 (Some 5) (RCls (CUni UNd))))) (RCls (CFold (CRange 35 35)))). split.
  - intros L. apply lang_cat_inv in L as (t1 & h & -> & L & L3). apply lang_cat_inv in L as (sp & e & -> & L1 & L2).
    apply lang_grp_inv in L2. apply lang_rep_cls in L1 as (H1 & _ & L1). apply lang_rep_cls in L2 as (H2 & H3 & L2).
    apply lang_cls in L3 as (x & -> & Hx). apply hash_iff in Hx as [<-|[]]. apply dash_iff in L1. apply ndigits_iff in L2.
    exists sp, e. split; [now rewrite <- app_assoc|]. split; [intros ->; cbn in H1; lia|]. cbn in H3. split; [exact L1|]. split; [exact L2|lia].
  - intros (sp & e & -> & H0 & H1 & H2 & H3). rewrite app_assoc. constructor; [constructor|].
    + apply lang_rep_cls. split; [destruct sp; [now elim H0|cbn; lia]|]. split; [exact I|now apply dash_iff].
    + constructor. apply lang_rep_cls. split; [lia|]. split; [cbn; lia|now apply ndigits_iff].
    + apply lang_cls. exists 35%N. auto.
Qed.
Lemma tail_iff2 : forall b t a, lang (re_ast EXTN_PATTERN) b t a <-> a = [] /\ (tail_without t \/ exists e, tail_with t e).
Proof.
  intros b t a. rewrite extn_shape. split.
  - intros L. apply lang_cat_inv in L as (t1 & t2 & -> & L & He). apply lang_end_inv in He as [-> ->]. split; [reflexivity|].
    rewrite app_nil_r. apply lang_alt_inv in L as [L|L]; [apply lang_alt_inv in L as [L|L]|].
    + left. left. now apply extn1_iff in L.
    + right. rewrite extn2_shape in L. apply lang_cat_inv in L as (u1 & h & -> & L & Lh). apply lang_cat_inv in L as (mk & e & -> & Lm & Le).
      apply lang_grp_inv in Le. apply mark_iff in Lm. apply digits7_iff in Le. apply hashes_iff in Lh.
      exists e, mk, h. rewrite <- app_assoc. tauto.
    + left. right. now apply extn3_iff in L.
  - intros [-> H]. rewrite <- (app_nil_r t). constructor; [|constructor]. rewrite app_nil_r. destruct H as [[H|H]|(e & mk & h & -> & Hm & He & Hl & Hh)].
    + apply L_alt1, L_alt1. now apply extn1_iff.
    + apply L_alt2. now apply extn3_iff.
    + apply L_alt1, L_alt2. rewrite extn2_shape, app_assoc. constructor; [constructor|].
      * now apply mark_iff.
      * constructor. apply digits7_iff. auto.
      * now apply hashes_iff.
Qed.
Definition nd (c : char) : bool := in_ranges tbl_Nd c.
Lemma small_near : forall x, In x (near (small x)).
Proof.
  intros x. unfold near, small, in_range. destruct (N.leb 65 x && N.leb x 90); [cbn [In]; lia|].
  destruct (N.leb 65313 x && N.leb x 65338); [cbn [In]; lia|]. destruct (N.eqb_spec x 211); [cbn [In]; lia|].
  destruct (N.eqb_spec x 383); cbn [In]; lia.
Qed.
Lemma intro_char : forall (p : char -> bool) mk c,
  forallb p (blank_chars ++ lit "-:." ++ wide (lit ".")) = true ->
  forallb (fun k => forallb (fun x => if N.eqb (small x) k then p x else true) (near k)) (concat intro_words) = true ->
  introduces mk -> In c mk -> p c = true.
Proof.
  intros p mk c H1 H2 (sp & w & dot & sp2 & -> & Hsp & Hw & Hd & Hsp2) I. rewrite forallb_forall in H1, H2.
  rewrite !in_app_iff in I. destruct I as [I|[I|[I|I]]].
  - apply H1, in_app_iff. left. now apply Hsp.
  - assert (J : In (small c) (concat intro_words)) by (apply in_concat; exists (map small w); split; [exact Hw|now apply in_map]).
    apply H2 in J. rewrite forallb_forall in J. specialize (J c (small_near c)). now rewrite N.eqb_refl in J.
  - apply H1, in_app_iff. right. destruct Hd as [<-|[<-|[<-|[<-|[]]]]]; revert I; vm_compute; tauto.
  - apply H1, in_app_iff. apply Hsp2, in_app_iff in I as [I|I]; [now left|right]. revert I; vm_compute; tauto.
Qed.
Lemma intro_no_digit : forall mk, introduces mk -> forallb (fun c => negb (nd c)) mk = true.
Proof.
  intros mk H. apply forallb_forall. intros c I. apply (intro_char (fun c => negb (nd c)) mk c); auto; vm_compute; reflexivity.
Qed.
Lemma filter_none : forall (p : char -> bool) s, forallb (fun c => negb (p c)) s = true -> filter p s = [].
Proof.
  intros p. induction s as [|c s IH]; intros H; [reflexivity|]. cbn [forallb filter] in *. apply andb_true_iff in H as [H1 H2].
  apply negb_true_iff in H1. rewrite H1. auto.
Qed.
Lemma filter_every : forall (p : char -> bool) s, forallb p s = true -> filter p s = s.
Proof.
  intros p. induction s as [|c s IH]; intros H; [reflexivity|]. cbn [forallb filter] in *. apply andb_true_iff in H as [H1 H2].
  rewrite H1. f_equal. auto.
Qed.
Lemma nd_all : forall s, Forall ndigit s -> forallb nd s = true.
Proof. intros s H. apply forallb_forall. rewrite Forall_forall in H. exact H. Qed.
Lemma tail_digits : forall t e, tail_with t e -> filter nd t = e.
Proof.
  intros t e (mk & h & -> & Hm & He & _ & Hh). rewrite !filter_app.
  rewrite (filter_none nd mk) by now apply intro_no_digit. rewrite (filter_every nd e) by now apply nd_all. cbn [app].
  replace (filter nd h) with (@nil char); [apply app_nil_r|]. destruct Hh as [<-|[<-|[]]]; vm_compute; reflexivity.
Qed.
Lemma tail_apart : forall t e, tail_with t e -> ~ tail_without t.
Proof.
  intros t e T [(w & e' & E & Hw & He' & _)|(sp & e' & E & H0 & Hsp & He' & Hl)].
  - assert (I : In 61%N t).
    { rewrite E. apply in_app_iff. left.
      destruct w as [|c0 [|c1 [|c2 [|c3 [|c4 w]]]]]; try discriminate Hw. cbn [map] in Hw. injection Hw as _ _ _ _ Hc _.
      apply (proj1 (small_caseless 61 c4 eq_refl)) in Hc. subst c4. do 4 right. now left. }
    destruct T as (mk & h & -> & Hm & He & _ & Hh). rewrite !in_app_iff in I. destruct I as [I|[I|I]].
    + assert (C : negb (N.eqb 61 61) = true) by (apply (intro_char (fun c => negb (N.eqb c 61)) mk); auto; vm_compute; reflexivity).
      discriminate C.
    + rewrite Forall_forall in He. apply He in I. vm_compute in I. discriminate I.
    + destruct Hh as [<-|[<-|[]]]; cbn in I; intuition discriminate.
  - assert (Ee : e' = e).
    { rewrite <- (tail_digits _ _ T), E, !filter_app, (filter_every nd e') by now apply nd_all.
      replace (filter nd sp) with (@nil char).
      - cbn [app]. change (filter nd (lit "#")) with (@nil char). now rewrite app_nil_r.
      - symmetry. apply filter_none. apply forallb_forall. intros c I. apply Hsp in I. destruct I as [<-|[<-|[]]]; reflexivity. }
    subst e'. destruct T as (mk & h & E' & Hm & He & _ & Hh). destruct e as [|d e]; [cbn in Hl; lia|].
    assert (Em : mk = sp).
    { rewrite E' in E. assert (Hd : nd d = true) by (inversion He; assumption).
      apply (f_equal (fun s => fst (span (fun c => negb (nd c)) s))) in E.
      change ((d :: e) ++ h) with (d :: (e ++ h)) in E. change ((d :: e) ++ lit "#") with (d :: (e ++ lit "#")) in E.
      rewrite !span_app_stop in E; [exact E| |now rewrite Hd|now apply intro_no_digit|now rewrite Hd].
      apply forallb_forall. intros c I. apply Hsp in I. destruct I as [<-|[<-|[]]]; reflexivity. }
    subst mk. destruct Hm as (s1 & w & dot & s2 & -> & _ & Hw & _ & _).
    assert (G : forallb (fun w => match w with [] => false | c :: _ => negb (N.eqb c 45) && negb (N.eqb c 32) end) intro_words = true)
      by (vm_compute; reflexivity).
    rewrite forallb_forall in G. apply G in Hw. destruct w as [|c w]; [discriminate Hw|]. cbn [map] in Hw.
    assert (I : In c (lit "- ")) by (apply Hsp; rewrite !in_app_iff; right; left; now left).
    destruct I as [<-|[<-|[]]]; discriminate Hw.
Qed.

(** ** RFC 3966 texts *)
Lemma params_inv : forall fuel s, length s <= fuel -> exists ps rest, fst (r_many fuel s) = ps /\ s = params_text ps ++ rest
  /\ Forall (fun kv => Forall name_char (fst kv) /\ Forall value_char (snd kv)) ps
  /\ (match rest with [] => True | c :: r => (ps <> [] -> ~ value_char c)
        /\ (c = 59%N -> forall k v, r = k ++ 61%N :: v -> ~ Forall name_char k) end).
Proof.
  induction fuel as [|fuel IH]; intros s Hf.
  - destruct s; [|cbn in Hf; lia]. exists [], []. cbn. auto.
  - cbn [r_many]. destruct (r_parameter s) as [[[k v] s']|] eqn:E.
    + unfold r_parameter in E. destruct s as [|c s1]; [discriminate|]. destruct (N.eqb_spec c 59); [subst c|discriminate].
      destruct (span r_pname s1) as [key s2] eqn:Es. apply span_spec in Es as (-> & Hk & _).
      destruct s2 as [|e s3]; [discriminate|]. destruct (N.eqb_spec e 61); [subst e|discriminate].
      destruct (span r_pchar s3) as [value s4] eqn:Ev. apply span_spec in Ev as (-> & Hv & Hstop). injection E as <- <- <-.
      destruct (IH s4) as (ps & rest & E1 & E2 & F & R).
      { cbn [length] in Hf. rewrite !app_length in Hf. cbn [length] in Hf. rewrite app_length in Hf. lia. }
      exists ((key, value) :: ps), rest. destruct (r_many fuel s4) as [l r0]. cbn [fst] in *. subst l. split; [reflexivity|]. split.
      { rewrite params_cons. cbn [fst snd]. rewrite E2 at 1. cbn [app]. f_equal. rewrite <- !app_assoc. cbn [app]. now rewrite <- app_assoc. }
      split.
      { constructor; [|exact F]. cbn [fst snd]. split; [now apply (Forall_forallb _ _ _ name_char_b)|now apply (Forall_forallb _ _ _ value_char_b)]. }
      destruct rest as [|c r]; [exact I|]. split; [|apply R]. intros _. destruct ps as [|kv ps]; [|apply R; discriminate].
      destruct Hstop as [C|(c0 & b' & C & H0)]; rewrite C in E2; [discriminate E2|]. cbn in E2. injection E2 as <- _.
      intros V. apply value_char_b in V. congruence.
    + exists [], s. cbn [fst]. split; [reflexivity|]. split; [reflexivity|]. split; [constructor|].
      destruct s as [|c s1]; [exact I|]. split; [congruence|]. intros -> k v -> Hk. unfold r_parameter in E.
      change (N.eqb 59 59) with true in E. cbv iota in E.
      rewrite (span_app_stop r_pname k 61%N) in E; [|now apply (Forall_forallb _ _ _ name_char_b)|reflexivity].
      change (N.eqb 61 61) with true in E. cbv iota in E. destruct (span r_pchar v). discriminate.
Qed.
Lemma scheme_inv : forall s, exists sch, s = sch ++ match tag_tel s with Some r => r | None => s end /\ scheme sch.
Proof.
  intros s. destruct (tag_tel s) as [r|] eqn:E; [|exists []; split; [reflexivity|now left]].
  unfold tag_tel in E. destruct s as [|a [|b [|c [|d s]]]]; try discriminate.
  destruct (_ && _) eqn:G; [|discriminate]. injection E as <-. rewrite !andb_true_iff, !N.eqb_eq in G. destruct G as [[[Ga Gb] Gc] ->].
  exists [a; b; c; 58%N]. split; [reflexivity|]. right. exists a, b, c. split; [reflexivity|].
  unfold ascii_lower, in_range in *.
  assert (H : forall x k, (97 <= k <= 122)%N -> (if N.leb 65 x && N.leb x 90 then (x + 32)%N else x) = k -> x = k \/ x = (k - 32)%N).
  { intros x k Hk. destruct (N.leb_spec 65 x), (N.leb_spec x 90); cbn [andb]; lia. }
  apply H in Ga; [|lia]. apply H in Gb; [|lia]. apply H in Gc; [|lia]. cbn. repeat split; lia.
Qed.
Lemma tel_inv : forall s n, rfc3966 s = Some n -> is_tel s.
Proof.
  intros s n H. unfold rfc3966 in H. destruct (mem_char 32%N s) eqn:Sp; [discriminate|].
  assert (Ns : ~ In 32%N s) by (intros I; apply mem_char_in in I; congruence). clear Sp.
  destruct (scheme_inv s) as (sch & Es0 & Hsch). set (i1 := match tag_tel s with Some r => r | None => s end) in *.
  assert (Es : s = sch ++ i1) by exact Es0. clear Es0. clearbody i1.
  assert (K : forall (pre : option str) i2, (match r_prefix i1 with Some (p, r) => (Some p, r) | None => (None, i1) end) = (pre, i2) ->
      i1 = match pre with Some cc => 43%N :: cc | None => [] end ++ i2
      /\ match pre with Some cc => cc <> [] /\ Forall (fun c => ~ visual c) cc /\ (i2 = [] \/ exists c r, i2 = c :: r /\ visual c) | None => True end).
  { intros pre i2 E. destruct (r_prefix i1) as [[p r]|] eqn:Ep; injection E as <- <-; [|auto].
    unfold r_prefix in Ep. destruct i1 as [|c i1']; [discriminate|]. destruct (N.eqb_spec c 43); [|discriminate]. subst c.
    destruct (span (fun c => negb (r_separator c)) i1') as [p' rest'] eqn:Esp. apply span_spec in Esp as (-> & Hp & Hc).
    destruct p' as [|x p']; [discriminate|]. injection Ep as <- <-. split; [reflexivity|]. split; [discriminate|]. split.
    - apply Forall_forall. intros z I V. rewrite forallb_forall in Hp. apply Hp in I. apply visual_b in V. rewrite V in I. discriminate.
    - destruct Hc as [Hc|(c0 & b' & Hc & H0)]; [now left|right]. exists c0, b'. split; [exact Hc|]. apply visual_b. now apply negb_false_iff. }
  destruct (match r_prefix i1 with Some (p, r) => (Some p, r) | None => (None, i1) end) as [pre i2] eqn:Ep.
  destruct (K pre i2 eq_refl) as [Ei Hpre]. clear K Ep.
  destruct (span r_number i2) as [local i3] eqn:El. apply span_spec in El as (Ei2 & Hloc & Hstop).
  assert (Hl0 : local <> []) by (destruct local; [discriminate H|discriminate]).
  assert (Hchk : r_check i3 = true) by (destruct local; [discriminate H|destruct (r_check i3); [reflexivity|discriminate H]]). clear H.
  destruct (params_inv (length i3) i3 (le_n _)) as (ps & rest & _ & Ei3 & Hps & Hrest).
  exists sch, pre, local, ps, rest.
  assert (Et : s = tel_text sch pre local ps rest).
  { unfold tel_text. rewrite Es, Ei, Ei2, Ei3. reflexivity. }
  assert (Fr : forall c, In c (rest ++ match pre with Some cc => cc | None => [] end) -> c <> 32%N).
  { intros c I ->. apply Ns. rewrite Et. unfold tel_text. rewrite !in_app_iff. apply in_app_iff in I as [I|I]; [tauto|].
    destruct pre as [cc|]; [right; left; now right|destruct I]. }
  split; [|exact Et]. constructor; [exact Hsch| | |exact Hps|].
  - destruct pre as [cc|]; [|exact I]. destruct Hpre as (H0 & H1 & H2). split; [exact H0|]. split.
    + apply Forall_forall. intros c I. rewrite Forall_forall in H1. split; [now apply H1|]. apply Fr, in_app_iff. now right.
    + destruct local as [|c local]; [now elim Hl0|]. destruct H2 as [H2|(c0 & r & H2 & V)]; rewrite Ei2 in H2; [discriminate|]. injection H2 as -> _. exact V.
  - split; [exact Hl0|]. now apply (Forall_forallb _ _ _ local_char_b).
  - split; [|intros I; apply (Fr 32%N); [apply in_app_iff; now left|reflexivity]].
    destruct rest as [|c r]; [exact I|]. destruct Hrest as [R1 R2]. cbn [stops].
    assert (C59 : ps = [] -> c = 59%N).
    { intros ->. cbn [params_text map concat app] in Ei3. rewrite Ei3 in Hchk. cbn in Hchk. now apply N.eqb_eq in Hchk. }
    split; [|split; [exact C59|exact R2]]. destruct ps as [|kv ps]; [|apply R1; discriminate].
    rewrite C59 by reflexivity. intros V. apply value_char_b in V. discriminate V.
Qed.
Lemma tel_iff : forall s, is_tel s <-> rfc3966 s <> None.
Proof.
  intros s. split.
  - intros (sch & code & local & ps & rest & W & ->). destruct (last_ex (lit "ext") ps) as (x & Hx).
    destruct (last_ex (lit "phone-context") ps) as (y & Hy). now rewrite (tel_read _ _ _ _ _ x y W Hx Hy).
  - destruct (rfc3966 s) as [n|] eqn:E; [|congruence]. intros _. eapply tel_inv, E.
Qed.

(** ** Every text has exactly one reading *)
Definition reading_of (s : str) : option (option str * str * option str) :=
  match p_phone_number s with Ok n => Some (pn_prefix n, pn_national n, pn_extension n) | _ => None end.

Lemma find_tail : forall u n t, u = n ++ t -> (tail_without t \/ exists e, tail_with t e) ->
  (forall a t' e', u = a ++ t' -> tail_without t' \/ tail_with t' e' -> length n <= length a) ->
  exists m, re_find EXTN_PATTERN u = Some m /\ mr_pre m = n /\ mr_text m = t.
Proof.
  intros u n t E T L. destruct (re_find EXTN_PATTERN u) as [m|] eqn:F.
  - exists m. split; [reflexivity|]. pose proof (re_find_some _ _ _ F) as (Eu & Hl & Hleft).
    apply tail_iff2 in Hl as [Ep Hl]. rewrite Ep, app_nil_r in Eu.
    assert (En : mr_pre m = n).
    { apply (leftmost _ (mr_text m) _ t); [congruence| |].
      - destruct (Nat.le_gt_cases (length (mr_pre m)) (length n)) as [|G]; [assumption|exfalso].
        destruct (longer n (mr_pre m) t (mr_text m)) as (c & r & Ec); [congruence|exact G|].
        apply (Hleft n c r t [] Ec); [now rewrite app_nil_r|]. now apply tail_iff2.
      - destruct Hl as [Hl|(e & Hl)]; [apply (L _ (mr_text m) [] Eu); now left|apply (L _ (mr_text m) e Eu); now right]. }
    split; [exact En|]. rewrite Eu, En in E. now apply app_inv_head in E.
  - exfalso. apply re_find_none in F. apply F. exists n, t, []. rewrite app_nil_r. split; [exact E|]. now apply tail_iff2.
Qed.

Lemma reads_sound : forall s, reads s (reading_of s).
Proof.
  intros s. unfold reading_of, p_phone_number. destruct (rfc3966 s) as [n|] eqn:Er.
  - pose proof (tel_inv _ _ Er) as (sch & code & local & ps & rest & W & E).
    destruct (last_ex (lit "ext") ps) as (x & Hx). destruct (last_ex (lit "phone-context") ps) as (y & Hy).
    rewrite E, (tel_read _ _ _ _ _ x y W Hx Hy) in Er. injection Er as <-. cbn [pn_prefix pn_national pn_extension].
    eapply R_tel; eauto.
  - assert (Nt : ~ is_tel s) by (intros T; apply tel_iff in T; congruence).
    unfold natural. destruct (extract_cases s) as [(u & Eu)|Eu]; rewrite Eu; cbn [obind].
    + apply extract_iff in Eu. destruct (re_find EXTN_PATTERN u) as [m|] eqn:F.
      * pose proof (re_find_some _ _ _ F) as (_ & _ & Hleft). pose proof (slice_to_start _ _ _ F) as Sl.
        destruct (find_ext_cases _ _ F) as (E & Ep & C).
        assert (L : forall a t' e', u = a ++ t' -> tail_without t' \/ tail_with t' e' -> length (mr_pre m) <= length a).
        { intros a t' e' Ea T. destruct (Nat.le_gt_cases (length (mr_pre m)) (length a)) as [|G]; [assumption|exfalso].
          destruct (longer a (mr_pre m) t' (mr_text m)) as (c & r & Ec); [congruence|exact G|].
          apply (Hleft a c r t' [] Ec); [now rewrite app_nil_r|]. apply tail_iff2. split; [reflexivity|]. destruct T; eauto. }
        destruct C as [[C1 C2]|(mk & e & h & c & Et & (b1 & a1 & L1) & (b2 & a2 & L2) & (b3 & a3 & L3) & C1 & C2)]; rewrite C1.
        { eapply R_dropped; eauto. destruct C2 as [C2|C2]; [left; now apply extn1_iff in C2|right; now apply extn3_iff in C2]. }
        rewrite Sl. cbn [unwrap obind pn_prefix pn_national pn_extension]. rewrite C2. eapply R_extension; eauto.
        apply mark_iff in L1. apply digits7_iff in L2. apply hashes_iff in L3. exists mk, h. tauto.
      * cbn [pn_prefix pn_national pn_extension]. apply R_number; auto. intros a t Ea. apply re_find_none in F.
        split; [intros T|intros e T]; apply F; exists a, t, []; rewrite app_nil_r; (split; [exact Ea|]); apply tail_iff2; eauto.
    + apply R_nothing; [exact Nt|]. intros u C. apply extract_iff in C. congruence.
Qed.
Lemma reads_complete : forall s r, reads s r -> r = reading_of s.
Proof.
  intros s r H. unfold reading_of, p_phone_number.
  assert (Nr : ~ is_tel s -> rfc3966 s = None).
  { intros N. destruct (rfc3966 s) as [n|] eqn:E; [|reflexivity]. elim N. eapply tel_inv, E. }
  destruct H as [sch code local ps rest x y W -> Hx Hy|u N C F|u n t e N C E T L|u n t N C E T L|N C].
  - now rewrite (tel_read _ _ _ _ _ x y W Hx Hy).
  - rewrite (Nr N). apply extract_iff in C. unfold natural. rewrite C. cbn [obind].
    destruct (re_find EXTN_PATTERN u) as [m|] eqn:Ef; [exfalso|reflexivity].
    apply re_find_some in Ef as (Eu & Hl & _). apply tail_iff2 in Hl as [Ep Hl]. rewrite Ep, app_nil_r in Eu.
    destruct (F _ _ Eu) as [F1 F2]. destruct Hl as [Hl|(e & Hl)]; [auto|now apply (F2 e)].
  - rewrite (Nr N). apply extract_iff in C. unfold natural. rewrite C. cbn [obind].
    destruct (find_tail u n t E) as (m & Ef & En & Et); eauto. rewrite Ef, (slice_to_start _ _ _ Ef), En.
    destruct (find_ext_cases _ _ Ef) as (_ & _ & [[C1 C2]|(mk & e' & h & c & Et' & (b1 & a1 & L1) & (b2 & a2 & L2) & (b3 & a3 & L3) & C1 & C2)]).
    { exfalso. rewrite Et in C2. apply (tail_apart _ _ T). destruct C2 as [C2|C2]; [left; now apply extn1_iff in C2|right; now apply extn3_iff in C2]. }
    rewrite C1. cbn [unwrap obind pn_prefix pn_national pn_extension]. rewrite C2.
    assert (Ee : e' = e); [|now rewrite Ee]. rewrite <- (tail_digits _ _ T). symmetry. apply tail_digits. rewrite Et in Et'. apply mark_iff in L1. apply digits7_iff in L2. apply hashes_iff in L3.
    rewrite Et'. exists mk, h. tauto.
  - rewrite (Nr N). apply extract_iff in C. unfold natural. rewrite C. cbn [obind].
    destruct (find_tail u n t E) as (m & Ef & En & Et); eauto. rewrite Ef.
    destruct (find_ext_cases _ _ Ef) as (_ & _ & [[C1 C2]|(mk & e' & h & c & Et' & (b1 & a1 & L1) & (b2 & a2 & L2) & (b3 & a3 & L3) & C1 & C2)]).
    { now rewrite C1. }
    exfalso. rewrite Et in Et'. apply mark_iff in L1. apply digits7_iff in L2. apply hashes_iff in L3.
    apply (tail_apart t e'); [|exact T]. rewrite Et'. exists mk, h. tauto.
  - rewrite (Nr N). unfold natural. destruct (extract_cases s) as [(u & Eu)|Eu]; rewrite Eu; [|reflexivity].
    apply extract_iff in Eu. elim (C u Eu).
Qed.

Theorem C46_one_reading : forall s, exists r, reads s r /\ forall r', reads s r' -> r' = r.
Proof. intros s. exists (reading_of s). split; [apply reads_sound|]. apply reads_complete. Qed.
Print Assumptions C46_one_reading.

(** ** What the digits of a part stand for *)
(** the zero of each script whose digits are understood: ASCII, Arabic-Indic,
    extended Arabic-Indic, NKo, Devanagari, Bengali, Gurmukhi, Gujarati, Oriya,
    Tamil, Telugu, Kannada, Malayalam, Thai, Lao and full-width *)
Definition zeros_known : list N :=
  [48; 1632; 1776; 1984; 2406; 2534; 2662; 2790; 2918; 3046; 3174; 3302; 3430; 3664; 3792; 65296]%N.
Definition digit_of (c : char) : str :=
  flat_map (fun z => if (N.leb z c && N.leb c (z + 9))%bool then [(48 + (c - z))%N] else []) zeros_known.
(** letters are pressed on the keypad when the number has at least three of them *)
Definition lettered (n : str) : bool := 3 <=? length (letters n).
Definition pressed (letters : bool) (c : char) : str :=
  digit_of c ++ (if letters then (if letter c then keypad c else []) else []).
Definition digits_of (n s : str) : str := flat_map (pressed (lettered n)) s.
Definition sign (n : str) : str :=
  match n with c :: _ => if (N.eqb c 43 || N.eqb c 65291)%bool then lit "+" else [] | [] => [] end.

Definition script_digits : list char := Eval vm_compute in
  flat_map (fun z => map (fun k => (z + N.of_nat k)%N) (seq 0 10)) zeros_known.
Lemma in_script : forall z c, In z zeros_known -> (z <= c <= z + 9)%N -> In c script_digits.
Proof.
  intros z c I H. change script_digits with (flat_map (fun z => map (fun k => (z + N.of_nat k)%N) (seq 0 10)) zeros_known).
  apply in_flat_map. exists z. split; [exact I|]. apply in_map_iff. exists (N.to_nat (c - z)). split; [lia|]. apply in_seq. lia.
Qed.
Lemma no_script : forall c l, incl l zeros_known -> ~ In c script_digits ->
  script_digit l c = None /\ flat_map (fun z => if (N.leb z c && N.leb c (z + 9))%bool then [(48 + (c - z))%N] else []) l = [].
Proof.
  intros c l Hl N. induction l as [|z l IH]; [split; reflexivity|]. cbn [script_digit flat_map].
  assert (E : in_range z (z + 9) c = false /\ (N.leb z c && N.leb c (z + 9))%bool = false).
  { unfold in_range. destruct (N.leb_spec z c); [|split; reflexivity]. destruct (N.leb_spec c (z + 9)); [|split; reflexivity].
    elim N. apply (in_script z); [apply Hl; now left|lia]. }
  destruct E as [-> ->]. apply IH. intros y Iy. apply Hl. now right.
Qed.
Lemma map_none : forall m c, forallb (fun p => N.ltb (fst p) 128) m = true -> (128 <= c)%N -> map_get m c = None.
Proof.
  intros m c H Hc. induction m as [|[k v] m IH]; [reflexivity|]. cbn [forallb fst map_get] in *. apply andb_true_iff in H as [H1 H2].
  apply N.ltb_lt in H1. destruct (N.eqb_spec k c); [lia|auto].
Qed.
Lemma push_pressed : forall (l : bool) c, act_push (if l then ALPHA_PHONE_MAPPINGS else ASCII_MAPPINGS) c = pressed l c.
Proof.
  intros l c. assert (K : (c < 128)%N \/ In c script_digits \/ ((128 <= c)%N /\ ~ In c script_digits)).
  { destruct (N.lt_ge_cases c 128); [now left|]. right. destruct (in_dec N.eq_dec c script_digits); [now left|now right]. }
  destruct K as [K|[K|[K N]]].
  - apply ascii_in in K. assert (G : forallb (fun c => (str_eqb (act_push ALPHA_PHONE_MAPPINGS c) (pressed true c)
      && str_eqb (act_push ASCII_MAPPINGS c) (pressed false c))%bool) ascii = true) by (vm_compute; reflexivity).
    rewrite forallb_forall in G. apply G, andb_true_iff in K as [K1 K2]. apply str_eqb_eq in K1, K2. destruct l; assumption.
  - assert (G : forallb (fun c => (str_eqb (act_push ALPHA_PHONE_MAPPINGS c) (pressed true c)
      && str_eqb (act_push ASCII_MAPPINGS c) (pressed false c))%bool) script_digits = true) by (vm_compute; reflexivity).
    rewrite forallb_forall in G. apply G, andb_true_iff in K as [K1 K2]. apply str_eqb_eq in K1, K2. destruct l; assumption.
  - unfold act_push, as_dec_digit, pressed. assert (D : is_digit c = false).
    { destruct (is_digit c) eqn:D; [|reflexivity]. apply is_digit_spec in D. lia. }
    rewrite D. destruct (no_script c script_zeros) as [-> _]; [|exact N|].
    { change zeros_known with (48%N :: script_zeros). intros y Iy. now right. }
    unfold digit_of. destruct (no_script c zeros_known) as [_ ->]; [apply incl_refl|exact N|]. cbn [app].
    rewrite map_none; [|destruct l; reflexivity|exact K].
    assert (Lt : letter c = false). { unfold letter. apply orb_false_iff. split; apply andb_false_iff; right; apply N.leb_gt; lia. }
    rewrite Lt. destruct l; reflexivity.
Qed.
Lemma viable_no_newline : forall n, is_viable n = true -> ~ In 10%N n.
Proof. intros n V I. apply (viable_chars _ _ V) in I. vm_compute in I. discriminate I. Qed.
Lemma act_digits_of : forall n s, is_viable n = true -> act (choose_mappings n) s = digits_of n s.
Proof.
  intros n s V. unfold choose_mappings, digits_of, lettered. rewrite alpha_match by now apply viable_no_newline.
  rewrite act_flat_map. apply flat_map_ext. intros c. apply push_pressed.
Qed.
Lemma digits_of_digits : forall n s, is_viable n = true -> digits (digits_of n s) = true.
Proof. intros n s V. rewrite <- act_digits_of by exact V. apply ParserFacts.act_digits, choose_mappings_ok. Qed.
Lemma digits_of_span : forall n s, is_viable n = true -> digits_of n (snd (span is_plus s)) = digits_of n s.
Proof.
  intros n s V. destruct (span is_plus s) as [a b] eqn:E. apply span_spec in E as (-> & Ha & _). cbn [snd].
  unfold digits_of. rewrite flat_map_app. replace (flat_map (pressed (lettered n)) a) with (@nil char); [reflexivity|].
  clear - Ha. induction a as [|c a IH]; [reflexivity|]. cbn [forallb flat_map] in *. apply andb_true_iff in Ha as [Hc Ha].
  rewrite <- IH by exact Ha. apply aplus_iff in Hc. destruct Hc as [->| ->]; destruct (lettered n); reflexivity.
Qed.
Lemma pressed_digit : forall l c, is_digit c = true -> pressed l c = [c].
Proof.
  intros l c H. rewrite <- push_pressed. unfold act_push, as_dec_digit. now rewrite H.
Qed.
Lemma long_digits : forall n, viable_grammar n -> (exists a b, n = [a; b] /\ is_digit a = true /\ is_digit b = true)
  \/ 3 <= length (digits_of n n).
Proof.
  intros n [(a & b & E & Ha & Hb)|(plus & g1 & d1 & g2 & d2 & g3 & d3 & rest & E & _ & _ & _ & _ & D1 & D2 & D3 & _)].
  - left. exists a, b. rewrite !adigit_iff. auto.
  - right. unfold digits_of. generalize (lettered n) as l. intros l. subst n. apply adigit_iff in D1, D2, D3.
    rewrite !flat_map_app. cbn [flat_map]. rewrite !pressed_digit by assumption. rewrite !app_length. cbn [length]. lia.
Qed.
Lemma sign_starts : forall n, starts_plus n = true -> sign n = lit "+".
Proof. intros [|c n] H; [discriminate|]. cbn [starts_plus] in H. unfold sign. unfold is_plus in H. now rewrite H. Qed.
Lemma sign_none : forall n, starts_plus n = false -> sign n = [].
Proof. intros [|c n] H; [reflexivity|]. cbn [starts_plus] in H. unfold sign. unfold is_plus in H. now rewrite H. Qed.

Lemma reads_parts : forall s k n x, reads s (Some (k, n, x)) -> p_phone_number s = Ok (mk_number SrcDefault n k x None).
Proof.
  intros s k n x R. apply reads_complete in R. unfold reading_of in R.
  destruct (p_phone_number s) as [m|e|] eqn:E; try discriminate. injection R as -> -> ->.
  apply p_phone_number_start in E as (_ & Hc & Hs). destruct m as [c0 n0 k0 x0 r0]. cbn [pn_country pn_carrier] in *. now subst.
Qed.
Lemma reads_none : forall s, reads s None -> p_phone_number s = Err NoNumber.
Proof.
  intros s R. apply reads_complete in R. unfold reading_of in R.
  assert (N : p_phone_number s <> Panic). { intros E. unfold p_phone_number in E. destruct (rfc3966 s); [discriminate|].
    pose proof (natural_no_panic s) as P. destruct (natural s); [discriminate|discriminate|now elim P]. }
  unfold p_phone_number in *. destruct (rfc3966 s); [discriminate|]. destruct (natural s) as [m|e|]; [discriminate|reflexivity|now elim N].
Qed.

Definition asc_digits : list char := Eval vm_compute in lit "0123456789".
Lemma two_read : forall a b, is_digit a = true -> is_digit b = true -> p_phone_number [a; b] = Ok (bare [a; b]).
Proof.
  intros a b Ha Hb. assert (D : forall c, is_digit c = true -> In c asc_digits).
  { intros c H. now apply digit_in in H. }
  apply D in Ha, Hb. clear D.
  assert (G : forallb (fun a => forallb (fun b => match p_phone_number [a; b] with
      | Ok (mk_number SrcDefault [x; y] None None None) => (N.eqb x a && N.eqb y b)%bool | _ => false end) asc_digits) asc_digits = true)
    by (vm_compute; reflexivity).
  rewrite forallb_forall in G. apply G in Ha. rewrite forallb_forall in Ha. apply Ha in Hb.
  destruct (p_phone_number [a; b]) as [[[] [|x [|y [|z w]]] [|] [|] [|]]|e|]; try discriminate.
  apply andb_true_iff in Hb as [H1 H2]. apply N.eqb_eq in H1, H2. now subst.
Qed.

Lemma plain_reading : forall n, is_viable n = true -> exists v, p_phone_number (sign n ++ digits_of n n) = Ok (bare v)
  /\ is_viable v = true /\ starts_plus v = starts_plus n /\ plus_digits (bare n) = plus_digits (bare v).
Proof.
  intros n V. assert (Pn : plus_digits (bare n) = digits_of n n).
  { unfold plus_digits. cbn [bare pn_national]. fold (choose_mappings n). rewrite act_digits_of by exact V. now apply digits_of_span. }
  rewrite Pn. pose proof (digits_of_digits n n V) as Hd. pose proof (proj1 (C14_viable_iff_grammar n) V) as G.
  destruct (long_digits n G) as [(a & b & -> & Ha & Hb)|Hl].
  - exists [a; b]. assert (E : sign [a; b] ++ digits_of [a; b] [a; b] = [a; b]).
    { rewrite sign_none by (cbn [starts_plus]; now apply digit_not_plus). unfold digits_of. cbn [flat_map app]. now rewrite !pressed_digit. }
    rewrite E. split; [now apply two_read|]. split; [exact V|]. split; [reflexivity|]. now rewrite Pn.
  - set (D := digits_of n n) in *.
    assert (Hfd : filter is_digit D = D). { clear - Hd. induction D as [|c D IH]; [easy|]. cbn in *.
      apply andb_true_iff in Hd as [H1 H2]. rewrite H1. now rewrite IH. }
    destruct (starts_plus n) eqn:Sp.
    + rewrite sign_starts by exact Sp. exists (ch_plus :: D). split; [|split; [|split]].
      * apply p_phone_plus_digits; [easy|]. intros E. rewrite E in Hl. cbn in Hl. lia.
      * rewrite viable_plus_digits by easy. now apply Nat.leb_le.
      * reflexivity.
      * rewrite plus_digits_plain_eq by now apply plus_digits_plain. symmetry. exact Hfd.
    + rewrite sign_none by exact Sp. cbn [app]. destruct (p_phone_unsigned D) as (v & Hv' & Uv & Fv).
      * rewrite <- Hfd. apply unsigned_digits.
      * unfold count_digits. rewrite Hfd. lia.
      * exists v. split; [exact Hv'|]. rewrite Hfd in Fv. split.
        { rewrite <- (app_nil_r v). change (v ++ []) with ([] ++ v ++ []). apply viable_enough; auto using unsigned_sep.
          unfold count_digits. now rewrite Fv. }
        split; [now apply unsigned_no_plus|]. rewrite plus_digits_plain_eq by now apply unsigned_plain. now symmetry.
Qed.

(** ** The results *)
Theorem C46_unread : forall db country s, reads s None -> parse_with db country s = Err NoNumber.
Proof. intros db country s R. unfold parse_with. now rewrite reads_none. Qed.
Print Assumptions C46_unread.

Theorem C46_not_viable : forall db country s k n x, reads s (Some (k, n, x)) -> ~ viable_grammar n ->
  parse_with db country s = Err NoNumber.
Proof.
  intros db country s k n x R V. apply reads_parts in R. unfold parse_with. rewrite R. cbn [obind pn_national].
  destruct (is_viable n) eqn:E; [|reflexivity]. apply C14_viable_iff_grammar in E. contradiction.
Qed.
Print Assumptions C46_not_viable.

(** A text is read like the plain digits of its number, whatever the text: the
    extension is added to the result. *)
Theorem C46_number : forall db country s n x, reads s (Some (None, n, x)) -> viable_grammar n ->
  parse_with db country s = let* p := parse_with db country (sign n ++ digits_of n n) in
    Ok (mk_phone (ph_code p) (ph_national p) (option_map (digits_of n) x) (ph_carrier p)).
Proof.
  intros db country s n x R G. apply reads_parts in R. pose proof (proj2 (C14_viable_iff_grammar n) G) as V.
  destruct (plain_reading n V) as (v & Pv & Vv & Sv & Dv).
  assert (L : parse_with db country s = rest_of_parse db country (xt x (bare n))).
  { unfold parse_with. rewrite R. cbn [obind pn_national]. rewrite V. reflexivity. }
  assert (P : parse_with db country (sign n ++ digits_of n n) = rest_of_parse db country (bare v)).
  { unfold parse_with. rewrite Pv. cbn [obind]. change (pn_national (bare v)) with v. rewrite Vv. reflexivity. }
  rewrite L, P. replace (option_map (digits_of n) x) with (option_map (act (choose_mappings n)) x)
    by (destruct x; cbn [option_map]; [now rewrite act_digits_of|reflexivity]).
  apply (rest_xt db country). rewrite (country_code_oxt db country (option_map (act (choose_mappings n)) x) _ (bare n)).
  - now rewrite (country_code_core db country n v).
  - intros idd. apply international_prefix_ext.
Qed.
Print Assumptions C46_number.

(** *** A calling code that stands apart *)
Definition pf (p : str) (n : number) : number := set_prefix n (Some p).
Lemma national_number_pf : forall E m p n, @national_number E m (pf p n) = let* n' := national_number m n in Ok (pf p n').
Proof.
  intros E m o [k s p x c]. unfold national_number, pf, set_prefix, trim, set_national, set_carrier.
  cbn [pn_national pn_country pn_prefix pn_extension pn_carrier].
  destruct (md_national_prefix_for_parsing m) as [r|].
  - destruct (re_find r s) as [mm|]; [|reflexivity]. destruct (negb _); [reflexivity|].
    destruct (md_national_prefix_transform_rule m) as [tr|];
      [destruct (option_map cap_text (cap_get mm (re_captures_len r - 1)))|];
      try (destruct (_ && _)%bool; [reflexivity|]; destruct (option_map cap_text (cap_get mm 1)); reflexivity);
      (destruct (slice_from s (mr_start mm)) as [tl|]; [|reflexivity]; cbn [unwrap obind];
       destruct (_ && _)%bool; [reflexivity|]; destruct (slice_from s (mr_end mm)); reflexivity).
  - destruct (md_national_prefix m) as [np|]; [|reflexivity]. destruct (starts_with s np); [|reflexivity].
    destruct (slice_from s (blen np)); reflexivity.
Qed.
Lemma strip_national_pf : forall meta p n, strip_national meta (pf p n) = let* n' := strip_national meta n in Ok (pf p n').
Proof.
  intros [m|] o n; [|reflexivity]. unfold strip_national. rewrite national_number_pf.
  destruct (national_number m n) as [n1| |]; cbn [obind]; try reflexivity.
  destruct (md_national_prefix m) as [np|].
  - change (pn_national (pf o n1)) with (pn_national n1). destruct (starts_with (pn_national n1) np).
    + unfold trim. destruct (slice_from (pn_national n1) (blen np)) as [t|]; [|reflexivity]. cbn [unwrap obind].
      change (pn_national (set_national (pf o n1) t)) with t. change (pn_national (set_national n1 t)) with t.
      destruct (v_length m t TUnknown); reflexivity.
    + cbn [obind]. change (pn_national (pf o n1)) with (pn_national n1). destruct (v_length m _ TUnknown); reflexivity.
  - cbn [obind]. change (pn_national (pf o n1)) with (pn_national n1). destruct (v_length m _ TUnknown); reflexivity.
Qed.
Lemma finish_pf : forall p q n, parse_u16 p = parse_u16 q -> finish (pf p n) = finish (pf q n).
Proof. intros p q n E. unfold finish, pf, prefix_value, set_prefix. cbn [pn_national pn_prefix pn_country pn_extension pn_carrier]. now rewrite E. Qed.
Lemma tail_pf : forall meta p q n, parse_u16 p = parse_u16 q ->
  (let* n' := strip_national meta (pf p n) in finish n') = (let* n' := strip_national meta (pf q n) in finish n').
Proof.
  intros meta p q n E. rewrite !strip_national_pf. destruct (strip_national meta n) as [n'| |]; cbn [obind]; try reflexivity.
  now apply finish_pf.
Qed.

Lemma coded_start : forall db country s c n x, reads s (Some (Some c, n, x)) -> viable_grammar n ->
  parse_with db country s =
  if length (digits_of n n) <? 3 then Err TooShortNsn else
  match parse_u16 (digits_of n c) with
  | None => Err MalformedInteger
  | Some v => match by_code db v with
    | None => Err InvalidCountryCode
    | Some _ =>
        let* src := source_for db v (trim_start_char ch_0 (digits_of n n)) in
        let* n' := strip_national (source_meta db src)
          (mk_number SrcPlus (digits_of n n) (Some (digits_of n c)) (option_map (digits_of n) x) None) in
        finish n'
    end
  end.
Proof.
  intros db country s c n x R G. apply reads_parts in R. pose proof (proj2 (C14_viable_iff_grammar n) G) as V.
  unfold parse_with. rewrite R. cbn [obind pn_national]. rewrite V. cbn [negb].
  unfold country_code, international_prefix. cbn [pn_prefix pn_national]. fold (choose_mappings n).
  cbn [normalize set_country pn_country pn_national pn_prefix pn_extension pn_carrier option_map obind].
  unfold normalize, set_country. cbn [pn_country pn_national pn_prefix pn_extension pn_carrier option_map].
  rewrite !act_digits_of by exact V.
  replace (option_map (act (choose_mappings n)) x) with (option_map (digits_of n) x)
    by (destruct x; cbn [option_map]; [now rewrite act_digits_of|reflexivity]).
  rewrite digits_blen by now apply digits_of_digits. unfold MIN_LENGTH_FOR_NSN at 1.
  destruct (Nat.leb_spec (length (digits_of n n)) 2), (Nat.ltb_spec (length (digits_of n n)) 3); try lia; [reflexivity|].
  destruct (parse_u16 (digits_of n c)) as [v|] eqn:Ev; cbn [ok_or obind]; [|reflexivity].
  destruct (by_code db v) as [l|]; [|reflexivity]. cbn [obind].
  unfold select_meta, prefix_value. cbn [pn_country pn_prefix pn_national]. rewrite Ev.
  destruct country; cbn [ok_or obind];
    destruct (source_for db v (trim_start_char ch_0 (digits_of n n))); reflexivity.
Qed.
Lemma u16_of : forall n s, is_viable n = true ->
  parse_u16 (digits_of n s) = match digits_of n s with [] => None | _ :: _ => if N.leb (value_of (digits_of n s)) 65535 then Some (value_of (digits_of n s)) else None end.
Proof.
  intros n s V. pose proof (digits_of_digits n s V) as D. destruct (digits_of n s) as [|a d]; [reflexivity|].
  destruct (N.leb_spec (value_of (a :: d)) 65535) as [L|L].
  - apply parse_uint_digits; [exact D|discriminate|exact L].
  - destruct (parse_u16 (a :: d)) as [v|] eqn:E; [|reflexivity]. exfalso.
    apply parse_uint_inv in E as (Hle & body & [Eb|Eb] & _ & _ & ->).
    + subst body. change (digits_val (a :: d)) with (value_of (a :: d)) in Hle. unfold u16_max in Hle. lia.
    + injection Eb as -> ->. discriminate D.
Qed.

(** Two digits after a code that stands apart are too few. *)
Theorem C46_coded_short : forall db country s c n x, reads s (Some (Some c, n, x)) -> viable_grammar n ->
  length (digits_of n n) < 3 -> parse_with db country s = Err TooShortNsn.
Proof.
  intros db country s c n x R G L. rewrite (coded_start _ _ _ _ _ _ R G). destruct (Nat.ltb_spec (length (digits_of n n)) 3); [reflexivity|lia].
Qed.
Print Assumptions C46_coded_short.
Theorem C46_coded_malformed : forall db country s c n x, reads s (Some (Some c, n, x)) -> viable_grammar n ->
  3 <= length (digits_of n n) -> digits_of n c = [] \/ (65535 < value_of (digits_of n c))%N ->
  parse_with db country s = Err MalformedInteger.
Proof.
  intros db country s c n x R G L H. rewrite (coded_start _ _ _ _ _ _ R G). destruct (Nat.ltb_spec (length (digits_of n n)) 3); [lia|].
  rewrite u16_of by now apply C14_viable_iff_grammar. destruct H as [->|H]; [reflexivity|].
  destruct (digits_of n c) as [|a d]; [reflexivity|]. destruct (N.leb_spec (value_of (a :: d)) 65535); [lia|reflexivity].
Qed.
Print Assumptions C46_coded_malformed.
Theorem C46_coded_unknown : forall db country s c n x, reads s (Some (Some c, n, x)) -> viable_grammar n ->
  3 <= length (digits_of n n) -> digits_of n c <> [] -> (value_of (digits_of n c) <= 65535)%N ->
  by_code db (value_of (digits_of n c)) = None -> parse_with db country s = Err InvalidCountryCode.
Proof.
  intros db country s c n x R G L H1 H2 H3. rewrite (coded_start _ _ _ _ _ _ R G). destruct (Nat.ltb_spec (length (digits_of n n)) 3); [lia|].
  rewrite u16_of by now apply C14_viable_iff_grammar. destruct (digits_of n c) as [|a d]; [now elim H1|].
  destruct (N.leb_spec (value_of (a :: d)) 65535); [|lia]. now rewrite H3.
Qed.
Print Assumptions C46_coded_unknown.

Lemma coded_known : forall db country s c n x, reads s (Some (Some c, n, x)) -> viable_grammar n ->
  (forall k, by_code db k <> None -> (1 <= k <= 999)%N) ->
  (forall k k' rest, by_code db k <> None -> by_code db k' <> None -> dec k' = dec k ++ rest -> rest = []) ->
  (forall k e, (1 <= k)%N -> not_dialled db None (dec k ++ e)) ->
  3 <= length (digits_of n n) -> digits_of n c <> [] -> by_code db (value_of (digits_of n c)) <> None ->
  parse_with db country s = let* p := parse_with db None (lit "+" ++ dec (value_of (digits_of n c)) ++ digits_of n n) in
    Ok (mk_phone (ph_code p) (ph_national p) (option_map (digits_of n) x) (ph_carrier p)).
Proof.
  intros db country s c n x R G Hrange Huniq Hidd L Hne Hk.
  rewrite (coded_start _ _ _ _ _ _ R G). destruct (Nat.ltb_spec (length (digits_of n n)) 3); [lia|].
  pose proof (proj2 (C14_viable_iff_grammar n) G) as V. pose proof (u16_of n c V) as U.
  pose proof (Hrange _ Hk) as Hr. set (v := value_of (digits_of n c)) in *. set (e := digits_of n n) in *.
  assert (Ev : parse_u16 (digits_of n c) = Some v).
  { rewrite U. unfold v in *. destruct (digits_of n c) as [|a d]; [now elim Hne|]. destruct (N.leb_spec (value_of (a :: d)) 65535); [reflexivity|lia]. }
  rewrite Ev. destruct (by_code db v) as [l|] eqn:Hb; [|now elim Hk].
  assert (He : digits e = true) by (apply digits_of_digits; exact V).
  assert (Dd : digits (dec v ++ e) = true) by (rewrite digits_app, digits_dec; exact He).
  change (lit "+" ++ dec v ++ e) with (ch_plus :: dec v ++ e).
  assert (Hz : v <> 0%N) by lia. destruct (dec_head _ Hz) as (y & t & Edec & Hy).
  rewrite parse_plus_digits; [|exact Dd|].
  2:{ apply not_dialled_free, Hidd. exact (proj1 Hr). }
  destruct (Nat.ltb_spec (length (dec v ++ e)) 3) as [Q|_]; [rewrite app_length in Q; lia|].
  assert (Hs0 : starts_with (dec v ++ e) [ch_0] = false).
  { rewrite Edec. cbn. destruct (N.eqb_spec y ch_0); [now elim Hy|easy]. }
  rewrite Hs0. pose proof (code_len_spec db y (t ++ e)) as S. change (y :: t ++ e) with ((y :: t) ++ e) in S. rewrite <- Edec in S.
  specialize (S Dd Hy). assert (Kv : by_code_known db v) by (unfold by_code_known; congruence).
  destruct (code_len db (dec v ++ e)) as [k|].
  2:{ exfalso. apply (S v e Kv); [lia|reflexivity]. }
  destruct S as (Hk3 & code & Kc & Hle & Ecode & Es & Hmin).
  assert (Hcc : code = v).
  { pose proof (Hmin v e Kv (proj2 Hr) eq_refl) as Hm.
    assert (E : dec v = dec code ++ skipn (length (dec code)) (dec v)).
    { assert (F : firstn (length (dec code)) (dec v ++ e) = dec code).
      { rewrite Es, firstn_app, Nat.sub_diag, firstn_all, firstn_O. apply app_nil_r. }
      rewrite firstn_app in F. replace (length (dec code) - length (dec v)) with 0 in F by lia.
      rewrite firstn_O, app_nil_r in F. rewrite <- F at 1. symmetry. apply firstn_skipn. }
    pose proof (Huniq code v _ Kc Kv E) as Z. rewrite Z, app_nil_r in E. symmetry. now apply dec_inj. }
  cbv zeta. rewrite <- Ecode, Hcc. assert (Ee : skipn k (dec v ++ e) = e). { rewrite Hcc in Es. apply app_inv_head in Es. now rewrite <- Es. }
  rewrite Ee. destruct (source_for db v (trim_start_char ch_0 e)) as [src| |]; cbn [obind]; try reflexivity.
  change (mk_number SrcPlus e (Some (digits_of n c)) (option_map (digits_of n) x) None)
    with (pf (digits_of n c) (xt (option_map (digits_of n) x) (mk_number SrcPlus e None None None))).
  rewrite (tail_pf _ _ (dec v)).
  2:{ rewrite Ev. symmetry. apply parse_uint_dec. unfold u16_max. lia. }
  change (pf (dec v) (xt (option_map (digits_of n) x) (mk_number SrcPlus e None None None)))
    with (xt (option_map (digits_of n) x) (mk_number SrcPlus e (Some (dec v)) None None)).
  rewrite strip_national_xt. destruct (strip_national _ _) as [n2| |]; cbn [oxt obind]; try reflexivity. apply finish_xt.
Qed.
(** The code is read as if written after a plus sign, before the digits of the
    number, whatever the country of reference. *)
Theorem C46_coded : forall country s c n x, reads s (Some (Some c, n, x)) -> viable_grammar n ->
  3 <= length (digits_of n n) -> digits_of n c <> [] -> by_code default_db (value_of (digits_of n c)) <> None ->
  parse country s = let* p := parse None (lit "+" ++ dec (value_of (digits_of n c)) ++ digits_of n n) in
    Ok (mk_phone (ph_code p) (ph_national p) (option_map (digits_of n) x) (ph_carrier p)).
Proof.
  intros country s c n x R G L Hne Hk. apply (coded_known default_db country s c n x R G code_range codes_unique default_idd_free L Hne Hk).
Qed.
Print Assumptions C46_coded.

(** ** Instances *)
Lemma read_as : forall s r, reading_of s = r -> reads s r.
Proof. intros s r <-. apply reads_sound. Qed.
Lemma viable_by : forall n, is_viable n = true -> viable_grammar n.
Proof. intros n. apply C14_viable_iff_grammar. Qed.

Definition belgian (x : option str) : outcome perr phone := Ok (mk_phone (mk_code 32 SrcPlus) (mk_national 25551234) x None).
Example C46_number_ex : let s := lit "Call: +32 (2) 555-12-34, extensi" ++ [243%N] ++ lit "n. 12#..." in
  reads s (Some (None, lit "+32 (2) 555-12-34", Some (lit "12"))) /\ viable_grammar (lit "+32 (2) 555-12-34")
  /\ sign (lit "+32 (2) 555-12-34") ++ digits_of (lit "+32 (2) 555-12-34") (lit "+32 (2) 555-12-34") = lit "+3225551234"
  /\ parse None (lit "+3225551234") = belgian None /\ parse None s = belgian (Some (lit "12")).
Proof.
  cbv zeta. split; [apply read_as; vm_compute; reflexivity|]. split; [apply viable_by; vm_compute; reflexivity|].
  split; [vm_compute; reflexivity|]. split; vm_compute; reflexivity.
Qed.
(** the second number is left out; letters are pressed *)
Example C46_letters_ex :
  reads (lit "1-800-FLOWERS/ x 1-800-4663") (Some (None, lit "1-800-FLOWERS", None))
  /\ digits_of (lit "1-800-FLOWERS") (lit "1-800-FLOWERS") = lit "18003569377"
  /\ parse (Some ID_US) (lit "1-800-FLOWERS/ x 1-800-4663") = parse (Some ID_US) (lit "18003569377").
Proof. split; [apply read_as; vm_compute; reflexivity|]. split; vm_compute; reflexivity. Qed.
Example C46_unread_ex : reads (lit "no digits") None /\ reads (lit "02 555 12 34 - 123#") None
  /\ parse (Some ID_BE) (lit "02 555 12 34 - 123#") = Err NoNumber /\ is_ok (parse (Some ID_BE) (lit "02 555 12 34")) = true.
Proof. split; [apply read_as; vm_compute; reflexivity|]. split; [apply read_as; vm_compute; reflexivity|]. split; vm_compute; reflexivity. Qed.
Example C46_not_viable_ex : reads (lit "3 birds, 4 words") (Some (None, lit "3 birds, 4 words", None)) /\ ~ viable_grammar (lit "3 birds, 4 words")
  /\ parse (Some ID_BE) (lit "3 birds, 4 words") = Err NoNumber.
Proof.
  split; [apply read_as; vm_compute; reflexivity|]. split; [|vm_compute; reflexivity].
  intros V. apply C14_viable_iff_grammar in V. vm_compute in V. discriminate V.
Qed.
(** the code of an RFC 3966 text in Arabic-Indic digits, its extension in full-width ones *)
Example C46_coded_ex : let s := lit "tel:2555-1234;ext=7;phone-context=+0032" in let n := lit "2555-1234" in
  reads s (Some (Some (lit "0032"), n, Some (lit "7"))) /\ viable_grammar n /\ value_of (digits_of n (lit "0032")) = 32%N
  /\ parse (Some ID_FR) s = belgian (Some (lit "7"))
  /\ reads (lit "+" ++ arabic (lit "32") ++ lit "-25551234") (Some (Some (arabic (lit "32")), lit "-25551234", None))
  /\ digits_of (lit "-25551234") (arabic (lit "32")) = lit "32"
  /\ parse None (lit "+" ++ arabic (lit "32") ++ lit "-25551234") = belgian None.
Proof.
  cbv zeta. split; [apply read_as; vm_compute; reflexivity|]. split; [apply viable_by; vm_compute; reflexivity|].
  split; [vm_compute; reflexivity|]. split; [vm_compute; reflexivity|].
  split; [apply read_as; vm_compute; reflexivity|]. split; vm_compute; reflexivity.
Qed.
Example C46_coded_errors_ex :
  reads (lit "tel:25;phone-context=+32") (Some (Some (lit "32"), lit "25", None))
  /\ parse None (lit "tel:25;phone-context=+32") = Err TooShortNsn
  /\ reads (lit "+99999-25551234") (Some (Some (lit "99999"), lit "-25551234", None))
  /\ parse None (lit "+99999-25551234") = Err MalformedInteger
  /\ reads (lit "tel:251;phone-context=example.com") (Some (Some (lit "example.com"), lit "251", None))
  /\ parse None (lit "tel:251;phone-context=example.com") = Err MalformedInteger
  /\ reads (lit "+999-25551234") (Some (Some (lit "999"), lit "-25551234", None))
  /\ parse None (lit "+999-25551234") = Err InvalidCountryCode.
Proof.
  repeat match goal with |- _ /\ _ => split end; try (apply read_as; vm_compute; reflexivity); vm_compute; reflexivity.
Qed.

(** The extension of a parsed number need not hold a digit: a marker with
    nothing after it, and digits of a script that is not among the known ones
    (here the Myanmar digits 1 2), give the empty extension. *)
Theorem C46_empty_extension_refuted : exists s1 s2 e,
  s1 = lit "+32 2 555 12 34 x" /\ s2 = lit "+32 2 555 12 34 ext. " ++ e /\ Forall ndigit e /\ length e = 2
  /\ parse None s1 = belgian (Some []) /\ parse None s2 = belgian (Some []).
Proof.
  exists (lit "+32 2 555 12 34 x"), (lit "+32 2 555 12 34 ext. " ++ [4161; 4162]%N), [4161; 4162]%N.
  split; [reflexivity|]. split; [reflexivity|]. split; [repeat constructor|]. split; [reflexivity|]. split; vm_compute; reflexivity.
Qed.
