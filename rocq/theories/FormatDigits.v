(** * FormatDigits: filling in a template with the groups of a match *)
From Verif Require Import Base Unicode Regex RegexSyntax Consts CountryId Types NationalNumber
  Metadata Database Validator PhoneNumber Formatter.
From Verif Require Import StrFacts RegexLang RegexFacts RegexCaps ParserFacts TextFacts.

(** ** Expressions that are a sequence of groups *)
Fixpoint top_groups (r : re) : option (list nat) :=
  match r with
  | REps => Some []
  | RGrp i g => match grps g with [] => Some [i] | _ => None end
  | RCat a b =>
      match top_groups a, top_groups b with Some x, Some y => Some (x ++ y) | _, _ => None end
  | _ => None
  end.

Lemma any_before : forall n, exists b, blen b = n.
Proof. intros n. exists (repeat 48%N n). apply blen_repeat0. Qed.

Lemma ms_no_groups : forall r s s', grps r = [] -> In s' (ms r s) ->
  m_caps s' = m_caps s /\ m_rest s = consumed s s' ++ m_rest s'.
Proof.
  intros r s s' Hg H. destruct (any_before (m_pos s)) as (b & Hb).
  destruct (ms_caps r s s' b H (eq_sym Hb)) as (t & news & R & E & F).
  rewrite (consumed_reach _ _ _ _ R). destruct R as [R _]. split; [|exact R].
  destruct news as [|x news]; [exact E|]. inversion F as [|y l Hy]; subst.
  destruct Hy as (r' & u & v & I & _). rewrite Hg in I. destruct I.
Qed.

Lemma combine_app : forall A B (a1 a2 : list A) (b1 b2 : list B), length a1 = length b1 ->
  combine (a1 ++ a2) (b1 ++ b2) = combine a1 b1 ++ combine a2 b2.
Proof.
  induction a1 as [|x a1 IH]; intros a2 [|y b1] b2 H; try discriminate H; [reflexivity|].
  cbn in *. f_equal. apply IH. now inversion H.
Qed.

Lemma top_groups_run : forall r is s s', top_groups r = Some is -> In s' (ms r s) ->
  exists cs, length cs = length is
    /\ m_caps s' = rev (combine is cs) ++ m_caps s
    /\ m_rest s = concat (map cap_text cs) ++ m_rest s'.
Proof.
  induction r; intros is s s' Ht H; cbn [top_groups] in Ht; try discriminate Ht.
  - inversion Ht; subst. destruct H as [<-|[]]. exists []. auto.
  - destruct (top_groups r1) as [x|] eqn:E1; [|discriminate]. destruct (top_groups r2) as [y|] eqn:E2; [|discriminate].
    inversion Ht; subst. cbn [ms] in H. apply in_flat_map in H as (s1 & H1 & H2).
    destruct (IHr1 _ _ _ eq_refl H1) as (c1 & L1 & M1 & R1).
    destruct (IHr2 _ _ _ eq_refl H2) as (c2 & L2 & M2 & R2).
    exists (c1 ++ c2). split; [now rewrite !app_length, L1, L2|]. split.
    + rewrite M2, M1, (combine_app _ _ x y c1 c2) by easy. now rewrite rev_app_distr, app_assoc.
    + rewrite R1, R2, map_app, concat_app. now rewrite app_assoc.
  - destruct (grps r) eqn:Eg; [|discriminate]. inversion Ht; subst. cbn [ms] in H.
    apply in_map_iff in H as (s1 & <- & H1). destruct (ms_no_groups _ _ _ Eg H1) as (Hc & Hr).
    exists [mk_cap (m_pos s) (m_pos s1) (consumed s s1)]. cbn [length combine rev app map concat close_grp m_caps m_rest cap_text].
    split; [easy|]. split; [now rewrite Hc|]. now rewrite app_nil_r.
Qed.

Lemma cap_lookup_in : forall l i c, cap_lookup i l = Some c -> In (i, c) l.
Proof.
  induction l as [|(j, d) l IH]; intros i c H; cbn [cap_lookup] in H; [discriminate|].
  destruct (Nat.eqb i j) eqn:E; [apply Nat.eqb_eq in E; inversion H; subst; now left|right; auto].
Qed.
Lemma cap_lookup_nodup : forall l i c, NoDup (map fst l) -> In (i, c) l -> cap_lookup i l = Some c.
Proof.
  induction l as [|(j, d) l IH]; intros i c N I; [destruct I|]. cbn [cap_lookup map fst] in *.
  inversion N; subst. destruct I as [I|I].
  - inversion I; subst. now rewrite Nat.eqb_refl.
  - destruct (Nat.eqb i j) eqn:E; [|auto]. apply Nat.eqb_eq in E. subst j. exfalso. apply H1.
    apply (in_map fst) in I. exact I.
Qed.

Lemma combine_fst : forall A B (a : list A) (b : list B), length b = length a -> map fst (combine a b) = a.
Proof.
  induction a as [|x a IH]; intros [|y b] H; try discriminate H; [easy|]. cbn in *. f_equal. apply IH. now inversion H.
Qed.

(** what a numbered reference stands for *)
Definition ref_text (m : mres) (i : nat) : str :=
  match cap_get m i with Some c => cap_text c | None => [] end.

Lemma top_groups_find : forall r s m is, top_groups (re_ast r) = Some is -> NoDup is -> ~ In 0 is ->
  re_find r s = Some m ->
  concat (map (ref_text m) is) = mr_text m.
Proof.
  intros r s m is Ht Hn H0 H. apply re_find_run in H as (st & I & Hr & Hc).
  destruct (top_groups_run _ _ _ _ Ht I) as (cs & L & M & R). cbn [m_caps m_rest] in *.
  rewrite app_nil_r in M. rewrite Hc in M. rewrite Hr in R. apply app_inv_tail in R. rewrite R. f_equal.
  assert (K : forall i c, In (i, c) (combine is cs) -> ref_text m i = cap_text c).
  { intros i c Hi. unfold ref_text, cap_get. destruct i as [|i].
    - exfalso. apply H0. now apply in_combine_l in Hi.
    - rewrite M. rewrite (cap_lookup_nodup _ (S i) c); [easy| |apply in_rev; now rewrite rev_involutive].
      rewrite map_rev, combine_fst by easy. now apply NoDup_rev. }
  clear - K L. revert cs L K. induction is as [|i is IH]; intros [|c cs] L K; try discriminate L; [easy|].
  cbn [map]. f_equal; [apply K; now left|]. apply IH; [now inversion L|]. intros. apply K. now right.
Qed.

(** ** Templates *)
(** Every '$' is followed by one digit that is the whole reference. *)
Fixpoint simple (t : str) : bool :=
  match t with
  | [] => true
  | c :: t' =>
      if N.eqb c 36 then
        match t' with
        | d :: t'' =>
            if is_digit d
            then if match t'' with x :: _ => negb (is_cap_letter x) | [] => true end then simple t'' else false
            else false
        | [] => false
        end
      else simple t'
  end.

Definition ref_of (d : char) : nat := N.to_nat (d - 48)%N.

Fixpoint fill (ref : nat -> str) (t : str) : str :=
  match t with
  | [] => []
  | c :: t' =>
      if N.eqb c 36 then match t' with d :: t'' => ref (ref_of d) ++ fill ref t'' | [] => [] end
      else c :: fill ref t'
  end.
Fixpoint refs (t : str) : list nat :=
  match t with
  | [] => []
  | c :: t' => if N.eqb c 36 then match t' with d :: t'' => ref_of d :: refs t'' | [] => [] end else refs t'
  end.
Fixpoint lits (t : str) : str :=
  match t with
  | [] => []
  | c :: t' => if N.eqb c 36 then match t' with d :: t'' => lits t'' | [] => [] end else c :: lits t'
  end.

Lemma simple_cases : forall (P : str -> Prop),
  P [] ->
  (forall c t, c <> 36%N -> simple t = true -> P t -> P (c :: t)) ->
  (forall d t, is_digit d = true -> match t with x :: _ => is_cap_letter x = false | [] => True end ->
     simple t = true -> P t -> P (36%N :: d :: t)) ->
  forall t, simple t = true -> P t.
Proof.
  intros P P0 P1 P2. fix rec 1. intros [|c t] H; [exact P0|]. cbn [simple] in H.
  destruct (N.eqb c 36) eqn:Ec.
  - apply N.eqb_eq in Ec. subst c. destruct t as [|d t]; [discriminate H|].
    destruct (is_digit d) eqn:Ed; [|discriminate H].
    destruct (match t with x :: _ => negb (is_cap_letter x) | [] => true end) eqn:Ex; [|discriminate H].
    apply P2; [exact Ed| |exact H|apply rec; exact H]. destruct t; [exact I|]. now apply negb_true_iff.
  - apply N.eqb_neq in Ec. apply P1; [exact Ec|exact H|apply rec; exact H].
Qed.


Lemma digit_cap_letter : forall d, is_digit d = true -> is_cap_letter d = true.
Proof.
  intros d H. apply is_digit_spec in H. unfold is_cap_letter, is_alphanum.
  replace (is_digit d) with true by (symmetry; now apply is_digit_spec).
  rewrite orb_true_r. reflexivity.
Qed.

Lemma cap_ref_digit : forall m d, is_digit d = true -> cap_ref_text m [d] = ref_text m (ref_of d).
Proof.
  intros m d H. unfold cap_ref_text.
  assert (E : parse_uint 4294967295 [d] = Some (d - 48)%N).
  { rewrite parse_uint_digits; [|cbn; now rewrite H|discriminate|].
    - rewrite digits_val_dv. unfold dv. cbn [fold_left]. f_equal; lia.
    - rewrite digits_val_dv. apply is_digit_spec in H. unfold dv. cbn [fold_left]. lia. }
  rewrite E. reflexivity.
Qed.

Lemma expand_simple : forall m t, simple t = true ->
  forall fuel, length t < fuel -> expand_fuel fuel m t = fill (ref_text m) t.
Proof.
  intros m. apply (simple_cases (fun t => forall fuel, length t < fuel -> expand_fuel fuel m t = fill (ref_text m) t)).
  - intros [|fuel] H; [inversion H|reflexivity].
  - intros c t Hc Ht IH [|fuel] H; [inversion H|]. cbn [length] in H. cbn [expand_fuel fill].
    apply N.eqb_neq in Hc. rewrite Hc, IH by lia. reflexivity.
  - intros d t Hd Hx Ht IH [|fuel] H; [inversion H|]. cbn [length] in H. cbn [expand_fuel fill].
    change (N.eqb 36 36) with true. cbv iota.
    assert (D : (48 <= d <= 57)%N) by now apply is_digit_spec.
    replace (N.eqb d 36) with false by (symmetry; apply N.eqb_neq; lia).
    replace (N.eqb d 123) with false by (symmetry; apply N.eqb_neq; lia).
    assert (S : span is_cap_letter (d :: t) = ([d], t)).
    { destruct t as [|x t]; cbn [span]; rewrite (digit_cap_letter d Hd); [reflexivity|]. now rewrite Hx. }
    rewrite S, cap_ref_digit, IH by (easy || lia). reflexivity.
Qed.

Lemma expand_fill : forall m t, simple t = true -> expand m t = fill (ref_text m) t.
Proof. intros m t H. unfold expand. apply expand_simple; [exact H|lia]. Qed.

Lemma fill_in : forall ref t c, simple t = true -> In c (fill ref t) ->
  In c (lits t) \/ exists i, In i (refs t) /\ In c (ref i).
Proof.
  intros ref t c H. revert t H. apply (simple_cases (fun t => In c (fill ref t) ->
    In c (lits t) \/ exists i, In i (refs t) /\ In c (ref i))).
  - intros [].
  - intros x t Hx Ht IH I. cbn [fill lits refs] in *. apply N.eqb_neq in Hx. rewrite Hx in *.
    destruct I as [I|I]; [left; now left|]. destruct (IH I) as [J|J]; [left; now right|right; exact J].
  - intros d t Hd Hx Ht IH I. cbn [fill lits refs] in *. change (N.eqb 36 36) with true in *. cbv iota in *.
    apply in_app_iff in I as [I|I]; [right; exists (ref_of d); split; [now left|exact I]|].
    destruct (IH I) as [J|(i & J & K)]; [now left|right; exists i; split; [now right|exact K]].
Qed.

Lemma fill_filter : forall p ref t, simple t = true -> forallb (fun c => negb (p c)) (lits t) = true ->
  filter p (fill ref t) = filter p (concat (map ref (refs t))).
Proof.
  intros p ref t H. revert t H. apply (simple_cases (fun t => forallb (fun c => negb (p c)) (lits t) = true ->
    filter p (fill ref t) = filter p (concat (map ref (refs t))))).
  - easy.
  - intros x t Hx Ht IH I. cbn [fill lits refs] in *. apply N.eqb_neq in Hx. rewrite Hx in *.
    cbn [forallb] in I. apply andb_prop in I as [I1 I2]. cbn [filter]. apply negb_true_iff in I1. rewrite I1. auto.
  - intros d t Hd Hx Ht IH I. cbn [fill lits refs] in *. change (N.eqb 36 36) with true in *. cbv iota in *.
    cbn [map concat]. rewrite !filter_app, IH by exact I. reflexivity.
Qed.

(** ** Formats that only insert separators *)
Definition template_seps : str := lit " -.()".
Definition is_template_sep (c : char) : bool := existsb (N.eqb c) template_seps.

Definition clean_format (f : format) : bool :=
  match top_groups (re_ast (f_pattern f)) with
  | Some is =>
      if list_eq_dec Nat.eq_dec is (seq 1 (length is)) then
        if simple (f_format f) then
          if list_eq_dec Nat.eq_dec (refs (f_format f)) is then forallb is_template_sep (lits (f_format f)) else false
        else false
      else false
  | None => false
  end.

Lemma digit_not_sep : forall c, is_template_sep c = true -> is_digit c = false.
Proof.
  intros c H. apply existsb_exists in H as (x & I & E). apply N.eqb_eq in E. subst x.
  repeat (destruct I as [<-|I]; [reflexivity|]). destruct I.
Qed.

Lemma filter_digits : forall s, digits s = true -> filter is_digit s = s.
Proof.
  induction s as [|c s IH]; intros H; [reflexivity|]. cbn [digits forallb] in H. apply andb_prop in H as [H1 H2].
  cbn [filter]. rewrite H1. f_equal. auto.
Qed.

Lemma clean_replace : forall f s, clean_format f = true -> digits s = true ->
  let t := re_replace (f_pattern f) s (f_format f) in
  filter is_digit t = s /\ forall c, In c t -> is_digit c = true \/ is_template_sep c = true.
Proof.
  intros f s Hf Hs. unfold clean_format in Hf.
  destruct (top_groups _) as [is|] eqn:Et; [|discriminate].
  destruct (list_eq_dec Nat.eq_dec is _) as [Ei|]; [|discriminate].
  destruct (simple (f_format f)) eqn:Es; [|discriminate].
  destruct (list_eq_dec Nat.eq_dec (refs _) is) as [Er|]; [|discriminate].
  cbv zeta. unfold re_replace.
  assert (D : forall c, In c s -> is_digit c = true) by (apply forallb_forall; exact Hs).
  destruct (re_find (f_pattern f) s) as [m|] eqn:E.
  2:{ split; [now apply filter_digits|]. intros c I. left. auto. }
  rewrite (expand_fill m _ Es).
  assert (Z : ~ In 0 is) by (rewrite Ei; intros I; apply in_seq in I; lia).
  assert (ND : NoDup is) by (rewrite Ei; apply seq_NoDup).
  pose proof (top_groups_find _ _ _ is Et ND Z E) as T.
  assert (S : s = mr_pre m ++ mr_text m ++ mr_post m) by (apply re_find_some in E; tauto).
  split.
  - rewrite !filter_app, fill_filter, Er, T; [|exact Es|].
    + rewrite <- !filter_app, <- S. now apply filter_digits.
    + apply forallb_forall. intros c I. apply negb_true_iff, digit_not_sep.
      rewrite forallb_forall in Hf. auto.
  - intros c I. apply in_app_iff in I as [I|I]; [left; apply D; rewrite S; apply in_app_iff; now left|].
    apply in_app_iff in I as [I|I].
    2:{ left. apply D. rewrite S. apply in_app_iff. right. apply in_app_iff. now right. }
    apply fill_in in I as [I|(i & I & J)]; [right; rewrite forallb_forall in Hf; auto| |exact Es].
    left. apply D. rewrite S. apply in_app_iff. right. apply in_app_iff. left. rewrite <- T, <- Er.
    apply in_concat. exists (ref_text m i). split; [now apply in_map|exact J].
Qed.

(** ** Replacing every run of separators by a hyphen *)
Definition sep_cls : cls := Eval vm_compute in
  match re_ast SEPARATOR_PATTERN with RRep _ _ _ (RCls c) => c | _ => CRange 0 0 end.
Lemma sep_ast : re_ast SEPARATOR_PATTERN = RRep true 1 None (RCls sep_cls).
Proof. reflexivity. Qed.

Definition outside (c : cls) (s : str) : bool := forallb (fun x => negb (in_cls c x)) s.
Definition inside (c : cls) (s : str) : bool := forallb (in_cls c) s.

Lemma langs_cls_inside : forall c n b t a, langs (RCls c) n b t a -> inside c t = true /\ length t = n.
Proof.
  induction n as [|n IH]; intros b t a H; inversion H as [|r n' b' t1 t2 a' L1 L2]; subst; [easy|].
  apply lang_cls in L1 as (x & -> & Hx). apply IH in L2 as [I J].
  cbn [app inside forallb length]. unfold inside in I. rewrite Hx, I, J. easy.
Qed.

Lemma run_inside : forall c b t a, lang (RRep true 1 None (RCls c)) b t a -> t <> [] /\ inside c t = true.
Proof.
  intros c b t a L. inversion L as [| | | | |g mn mx r n b' t' a' Hn Hm HL| | |]; subst.
  apply langs_cls_inside in HL as [Hi HL]. split; [|exact Hi]. intros ->. cbn in HL. lia.
Qed.

Lemma find_run_at : forall c s pos pre,
  match find_at (RRep true 1 None (RCls c)) pos pre s with
  | None => outside c s = true
  | Some m => exists a, mr_pre m = rev pre ++ a /\ s = a ++ mr_text m ++ mr_post m
      /\ outside c a = true /\ mr_text m <> [] /\ inside c (mr_text m) = true
  end.
Proof.
  intros c. induction s as [|x s IH]; intros pos pre; cbn [find_at].
  - destruct (any_before pos) as (b & <-). destruct (match_at _ (blen b) []) as [st|] eqn:E; [|reflexivity].
    apply match_at_some in E as (t & E1 & E2 & L & _). destruct t; [|discriminate E1].
    apply run_inside in L as [L _]. now destruct L.
  - destruct (any_before pos) as (b & <-). destruct (match_at _ (blen b) (x :: s)) as [st|] eqn:E.
    + apply match_at_some in E as (t & E1 & E2 & L & _). cbn [mr_pre mr_text mr_post]. rewrite E2. exists [].
      rewrite app_nil_r. split; [easy|]. split; [exact E1|]. split; [easy|].
      apply run_inside in L. exact L.
    + assert (Hx : in_cls c x = false).
      { destruct (in_cls c x) eqn:Ex; [|easy]. exfalso. apply match_at_none in E. apply E. exists [x], s.
        split; [easy|]. apply (L_rep true 1 None (RCls c) 1); [lia|exact I|].
        change [x] with ([x] ++ []). constructor; [now constructor|constructor]. }
      specialize (IH (blen b + utf8_len x) (x :: pre)). cbn [find_at].
      destruct (find_at _ _ (x :: pre) s) as [m|].
      * destruct IH as (a & H1 & H2 & H3 & H4). exists (x :: a). cbn [rev] in H1. rewrite <- app_assoc in H1.
        split; [exact H1|]. split; [rewrite H2 at 1; reflexivity|]. split; [|exact H4].
        unfold outside in *. cbn [forallb]. now rewrite Hx.
      * unfold outside in *. cbn [forallb]. now rewrite Hx.
Qed.

Lemma hyphen_expand : forall m, expand m (lit "-") = [45%N].
Proof. intros m. rewrite expand_fill; reflexivity. Qed.

Lemma replace_all_runs : forall r c fuel pos s, re_ast r = RRep true 1 None (RCls c) -> length s < fuel ->
  let t := replace_all_fuel fuel r pos s (lit "-") in
  (forall x, In x t -> x = 45%N \/ (In x s /\ in_cls c x = false))
  /\ forall p, p 45%N = false -> (forall x, in_cls c x = true -> p x = false) -> filter p t = filter p s.
Proof.
  intros r c. induction fuel as [|fuel IH]; intros pos s Hr Hl; [inversion Hl|].
  cbv zeta. cbn [replace_all_fuel]. rewrite Hr. pose proof (find_run_at c s pos []) as F.
  destruct (find_at _ pos [] s) as [m|].
  2:{ unfold outside in F. rewrite forallb_forall in F. split; [|easy]. intros x I. right. split; [exact I|].
      now apply negb_true_iff, F. }
  destruct F as (a & E1 & E2 & Ho & Hn & Hi). cbn [rev app] in E1. rewrite E1, hyphen_expand.
  destruct (mr_text m) as [|y text] eqn:Et; [now destruct Hn|].
  assert (Hl' : length (mr_post m) < fuel).
  { rewrite E2 in Hl. rewrite !app_length in Hl. cbn [length] in Hl. lia. }
  destruct (IH (S pos) (mr_post m) Hr Hl') as [IH1 IH2]. cbv zeta in IH1, IH2.
  unfold outside, inside in *. rewrite forallb_forall in Ho, Hi.
  assert (X : match mr_post m with
              | [] => replace_all_fuel fuel r (S pos) (mr_post m) (lit "-")
              | _ :: _ => replace_all_fuel fuel r (S pos) (mr_post m) (lit "-") end
              = replace_all_fuel fuel r (S pos) (mr_post m) (lit "-")) by (destruct (mr_post m); reflexivity).
  split.
  - intros x I. apply in_app_iff in I as [I|I].
    { right. split; [rewrite E2; apply in_app_iff; now left|]. now apply negb_true_iff, Ho. }
    apply in_app_iff in I as [[<-|[]]|I]; [now left|].
    destruct (IH1 x I) as [->|[J K]]; [now left|]. right. split; [|exact K].
    rewrite E2. apply in_app_iff. right. apply in_app_iff. now right.
  - intros p P1 P2. rewrite !filter_app. cbn [filter]. rewrite P1. cbn [app].
    transitivity (filter p (a ++ (y :: text) ++ mr_post m)); [|now rewrite <- E2].
    rewrite !filter_app. f_equal. etransitivity; [exact (IH2 p P1 P2)|].
    assert (Z : filter p (y :: text) = []).
    { clear - Hi P2. induction (y :: text) as [|z l IHl]; [reflexivity|]. cbn [filter].
      rewrite (P2 z) by (apply Hi; now left). apply IHl. intros; apply Hi; now right. }
    change (filter p (mr_post m) = filter p (y :: text) ++ filter p (mr_post m)).
    etransitivity; [|apply (f_equal (fun l => l ++ filter p (mr_post m))); symmetry; exact Z]. reflexivity.
Qed.

Lemma sep_digit : forall x, in_cls sep_cls x = true -> is_digit x = false.
Proof.
  intros x H. destruct (is_digit x) eqn:E; [|easy]. exfalso.
  apply is_digit_spec in E.
  assert (D : In x (lit "0123456789")).
  { assert (K : exists n, (n < 10)%nat /\ x = (48 + N.of_nat n)%N) by (exists (N.to_nat (x - 48)); lia).
    destruct K as (n & Hn & ->). do 10 (destruct n as [|n]; [cbn; tauto|]). lia. }
  repeat (destruct D as [<-|D]; [revert H; vm_compute; discriminate|]). destruct D.
Qed.
Lemma template_sep_cls : forall x, is_template_sep x = true -> in_cls sep_cls x = true.
Proof.
  intros c H. apply existsb_exists in H as (x & I & E). apply N.eqb_eq in E. subst x.
  repeat (destruct I as [<-|I]; [vm_compute; reflexivity|]). destruct I.
Qed.

Lemma hyphenate : forall s,
  let t := re_replace_all SEPARATOR_PATTERN s (lit "-") in
  filter is_digit t = filter is_digit s
  /\ ((forall c, In c s -> is_digit c = true \/ is_template_sep c = true) ->
      forall c, In c t -> is_digit c = true \/ c = 45%N).
Proof.
  intros s. cbv zeta. unfold re_replace_all.
  destruct (replace_all_runs _ _ (S (length s)) 0 s sep_ast) as [H1 H2]; [lia|]. cbv zeta in *. split.
  - apply H2; [reflexivity|exact sep_digit].
  - intros H c I. destruct (H1 c I) as [->|[J K]]; [now right|]. destruct (H c J) as [D|D]; [now left|].
    rewrite (template_sep_cls c D) in K. discriminate.
Qed.
