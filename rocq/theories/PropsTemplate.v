(** * C41: which format is used and what it produces *)
From Verif Require Import Base Unicode Regex RegexSyntax Consts CountryId Types NationalNumber
  Metadata Database Validator Valid Number Rfc3966 Helper Natural PhoneNumber Parser Formatter Loader
  DefaultDb DefaultDbOk Api.
From Verif Require Import StrFacts NationalFacts RegexLang RegexFacts RegexCaps DatabaseFacts ParserFacts
  TextFacts FormatFacts FormatDigits FormatDollar PropsE164 PropsParse PropsFormat.

(** ** Vocabulary *)
(** A template of a format: literal text and references "$1" ... "$9" to groups. *)
Inductive tok := Txt (s : str) | Grp (k : nat).
Definition tok_text (t : tok) : str := match t with Txt s => s | Grp k => [36%N; (48 + N.of_nat k)%N] end.
Definition template (ts : list tok) : str := concat (map tok_text ts).
(** the digits of the groups, [g] giving those of group [k], put into the template *)
Definition put (g : nat -> str) (ts : list tok) : str :=
  concat (map (fun t => match t with Txt s => s | Grp k => g k end) ts).

(** A rule for the first group: literal text, the national prefix "$NP", the
    carrier "$CC" and the first group itself "$FG". *)
Inductive rtok := RTxt (s : str) | RNP | RCC | RFG.
Definition rtok_text (t : rtok) : str :=
  match t with RTxt s => s | RNP => lit "$NP" | RCC => lit "$CC" | RFG => lit "$FG" end.
Definition rule (rs : list rtok) : str := concat (map rtok_text rs).
Definition put_rule (np cc first : str) (rs : list rtok) : str :=
  concat (map (fun t => match t with RTxt s => s | RNP => np | RCC => cc | RFG => first end) rs).

(** a character that would make a reference longer: "$1a", "$12", "$1_" *)
Definition in_name (c : char) : Prop :=
  (48 <= c <= 57)%N \/ (65 <= c <= 90)%N \/ (97 <= c <= 122)%N \/ c = 95%N.
Definition no_mark (s : str) : Prop := ~ In 36%N s.
Definition free_start (s : str) : Prop := match s with [] => True | c :: _ => ~ in_name c end.
Fixpoint template_ok (ts : list tok) : Prop :=
  match ts with
  | [] => True
  | Txt s :: ts' => no_mark s /\ template_ok ts'
  | Grp k :: ts' => 1 <= k <= 9 /\ free_start (template ts') /\ template_ok ts'
  end.
(** [np] and [cc] are the texts put in for the national prefix and the carrier *)
Fixpoint rule_tok_ok (np cc : str) (rs : list rtok) : Prop :=
  match rs with
  | [] => True
  | RTxt s :: rs' => no_mark s /\ rule_tok_ok np cc rs'
  | RNP :: rs' => no_mark np /\ rule_tok_ok np cc rs'
  | RCC :: rs' => no_mark cc /\ rule_tok_ok np cc rs'
  | RFG :: rs' => free_start (put_rule np cc [36%N] rs') /\ rule_tok_ok np cc rs'
  end.

(** ** Facts about replacing marks *)
Lemma replace_cons : forall n b c s, n <> [] ->
  str_replace (c :: s) n b = if starts_with (c :: s) n then b ++ str_replace (skipn (length n) (c :: s)) n b
                             else c :: str_replace s n b.
Proof.
  intros n b c s Hn.
  assert (R : forall s, str_replace s n b = str_replace_fuel (S (length s)) s n b)
    by (destruct n; [now destruct Hn|reflexivity]).
  rewrite (R (c :: s)). cbn [str_replace_fuel]. destruct (starts_with (c :: s) n); [|now rewrite (R s)]. f_equal.
  rewrite R. apply replace_fuel_eq; [exact Hn| |lia]. destruct n as [|x n]; [now destruct Hn|]. cbn [length skipn].
  pose proof (skipn_le _ (length n) s). lia.
Qed.
Lemma replace_plain : forall n b a s, (exists x y, n = 36%N :: x :: y) -> no_mark a ->
  str_replace (a ++ s) n b = a ++ str_replace s n b.
Proof.
  intros n b a s (x & y & ->). induction a as [|c a IH]; intros H; [reflexivity|]. cbn [app].
  rewrite replace_cons by discriminate. cbn [starts_with].
  assert (E : N.eqb c 36 = false). { apply N.eqb_neq. intros ->. apply H. now left. }
  rewrite E. cbn [andb]. f_equal. apply IH. intros I. apply H. now right.
Qed.
Lemma replace_hit : forall (x y z : N) b s,
  str_replace ([x; y; z] ++ s) [x; y; z] b = b ++ str_replace s [x; y; z] b.
Proof.
  intros. cbn [app]. rewrite replace_cons by discriminate. cbn [starts_with]. rewrite !N.eqb_refl.
  destruct s; reflexivity.
Qed.
Lemma replace_miss : forall (y z y' z' : N) b s, y <> y' -> y' <> 36%N -> z' <> 36%N ->
  str_replace ([36%N; y'; z'] ++ s) [36%N; y; z] b = [36%N; y'; z'] ++ str_replace s [36%N; y; z] b.
Proof.
  intros y z y' z' b s H1 H2 H3. cbn [app]. rewrite replace_cons by discriminate. cbn [starts_with].
  rewrite N.eqb_refl. destruct (N.eqb_spec y' y); [congruence|]. cbn [andb]. f_equal.
  rewrite replace_cons by discriminate. cbn [starts_with]. destruct (N.eqb_spec y' 36); [easy|]. cbn [andb]. f_equal.
  rewrite replace_cons by discriminate. cbn [starts_with]. destruct (N.eqb_spec z' 36); [easy|]. reflexivity.
Qed.
(** "$$d" is no mark *)
Lemma replace_double : forall (y z d : N) b s, y <> 36%N -> d <> 36%N -> d <> y ->
  str_replace ([36%N; 36%N; d] ++ s) [36%N; y; z] b = [36%N; 36%N; d] ++ str_replace s [36%N; y; z] b.
Proof.
  intros y z d b s H1 H2 H3. cbn [app]. rewrite replace_cons by discriminate. cbn [starts_with].
  rewrite N.eqb_refl. destruct (N.eqb_spec 36 y); [congruence|]. cbn [andb]. f_equal.
  rewrite replace_cons by discriminate. cbn [starts_with]. rewrite N.eqb_refl.
  destruct (N.eqb_spec d y); [easy|]. cbn [andb]. f_equal.
  rewrite replace_cons by discriminate. cbn [starts_with]. destruct (N.eqb_spec d 36); [easy|]. reflexivity.
Qed.

Definition stage_tok (np : option str) (fg : option str) (cc : option str) (t : rtok) : str :=
  match t with
  | RTxt s => s
  | RNP => match np with Some x => x | None => lit "$NP" end
  | RCC => match cc with Some x => x | None => lit "$CC" end
  | RFG => match fg with Some x => x | None => lit "$FG" end
  end.
Definition stage (np : option str) (fg : option str) (cc : option str) (rs : list rtok) : str :=
  concat (map (stage_tok np fg cc) rs).
Lemma rule_cons : forall t rs, rule (t :: rs) = rtok_text t ++ rule rs.
Proof. reflexivity. Qed.
Lemma stage_cons : forall np fg cc t rs, stage np fg cc (t :: rs) = stage_tok np fg cc t ++ stage np fg cc rs.
Proof. reflexivity. Qed.
Definition texts_ok (np cc : str) (rs : list rtok) : Prop :=
  Forall (fun t => match t with RTxt s => no_mark s | RNP => no_mark np | RCC => no_mark cc | RFG => True end) rs.
Lemma rule_texts : forall np cc rs, rule_tok_ok np cc rs -> texts_ok np cc rs.
Proof. induction rs as [|[s| | |] rs IH]; cbn; intros H; constructor; try tauto; apply IH; tauto. Qed.

Lemma NP_eq : NP = [36; 78; 80]%N. Proof. reflexivity. Qed.
Lemma FG_eq : FG = [36; 70; 71]%N. Proof. reflexivity. Qed.
Lemma CC_eq : CC = [36; 67; 67]%N. Proof. reflexivity. Qed.

Lemma marks : forall np cc d rs, texts_ok np cc rs -> is_digit d = true ->
  str_replace (str_replace (str_replace (rule rs) NP np) FG [36%N; 36%N; d]) CC cc
  = stage (Some np) (Some [36%N; 36%N; d]) (Some cc) rs.
Proof.
  intros np cc d rs H Hd. apply is_digit_spec in Hd. rewrite NP_eq, FG_eq, CC_eq.
  assert (E1 : str_replace (rule rs) [36; 78; 80]%N np = stage (Some np) None None rs).
  { induction H as [|[s| | |] rs Hs H IH]; [reflexivity|..]; rewrite rule_cons, stage_cons; cbn [rtok_text stage_tok].
    - rewrite replace_plain; [now rewrite IH|eauto|exact Hs].
    - change (lit "$NP") with [36; 78; 80]%N. rewrite replace_hit. now rewrite IH.
    - change (lit "$CC") with [36; 67; 67]%N. rewrite replace_miss by easy. now rewrite IH.
    - change (lit "$FG") with [36; 70; 71]%N. rewrite replace_miss by easy. now rewrite IH. }
  rewrite E1.
  assert (E2 : str_replace (stage (Some np) None None rs) [36; 70; 71]%N [36%N; 36%N; d]
               = stage (Some np) (Some [36%N; 36%N; d]) None rs).
  { clear E1. induction H as [|[s| | |] rs Hs H IH]; [reflexivity|..]; rewrite !stage_cons; cbn [stage_tok].
    - rewrite replace_plain; [now rewrite IH|eauto|exact Hs].
    - rewrite replace_plain; [now rewrite IH|eauto|exact Hs].
    - change (lit "$CC") with [36; 67; 67]%N. rewrite replace_miss by easy. now rewrite IH.
    - change (lit "$FG") with [36; 70; 71]%N. rewrite replace_hit. now rewrite IH. }
  rewrite E2. clear E1 E2.
  induction H as [|[s| | |] rs Hs H IH]; [reflexivity|..]; rewrite !stage_cons; cbn [stage_tok].
  - rewrite replace_plain; [now rewrite IH|eauto|exact Hs].
  - rewrite replace_plain; [now rewrite IH|eauto|exact Hs].
  - change (lit "$CC") with [36; 67; 67]%N. rewrite replace_hit. now rewrite IH.
  - rewrite replace_double; [now rewrite IH| | |]; lia.
Qed.

Lemma no_mark_dollar : forall s, no_mark s <-> no_dollar s = true.
Proof. intros s. symmetry. apply no_dollar_in. Qed.

(** "$$" in a replacement stands for "$" *)
Lemma expand_double : forall m s, expand m (36%N :: 36%N :: s) = 36%N :: expand m s.
Proof.
  intros m s. unfold expand at 1.
  transitivity (36%N :: expand_fuel (S (S (length s))) m s); [reflexivity|]. f_equal. unfold expand. apply expand_fuel_eq; auto with arith.
Qed.
Lemma expand_char : forall m c s, c <> 36%N -> expand m (c :: s) = c :: expand m s.
Proof.
  intros m c s H. apply (expand_plain m [c] s). cbn. apply N.eqb_neq in H. now rewrite H.
Qed.
Lemma expand_stage : forall m np cc d rs, texts_ok np cc rs -> is_digit d = true ->
  expand m (stage (Some np) (Some [36%N; 36%N; d]) (Some cc) rs) = put_rule np cc [36%N; d] rs.
Proof.
  intros m np cc d rs H Hd. apply is_digit_spec in Hd.
  induction H as [|[s| | |] rs Hs H IH]; [reflexivity|..]; rewrite stage_cons; unfold put_rule in *; cbn [map concat stage_tok].
  1-3: apply no_mark_dollar in Hs; rewrite expand_plain by exact Hs; now rewrite IH.
  cbn [app]. rewrite expand_double, expand_char by lia. now rewrite IH.
Qed.

(** ** Filling in *)
Lemma cap_letter_name : forall c, ~ in_name c -> is_cap_letter c = false.
Proof.
  intros c H. unfold is_cap_letter, is_alphanum, is_ascii_alpha, is_digit, in_range in *.
  destruct (_ || _)%bool eqn:E; [|easy]. exfalso. apply H. unfold in_name.
  rewrite !orb_true_iff, !andb_true_iff, !N.leb_le, N.eqb_eq in E. lia.
Qed.
Lemma free_start_app : forall a b, free_start a -> (a = [] -> free_start b) -> free_start (a ++ b).
Proof. intros [|c a] b Ha Hb; cbn in *; auto. Qed.
Definition group_char (k : nat) : char := (48 + N.of_nat k)%N.
Lemma group_char_digit : forall k, 1 <= k <= 9 -> is_digit (group_char k) = true /\ ref_of (group_char k) = k.
Proof. intros k H. unfold group_char, ref_of. split; [apply is_digit_spec; lia|lia]. Qed.
Lemma simple_ref : forall d t, is_digit d = true -> free_start t -> simple (36%N :: d :: t) = simple t.
Proof.
  intros d t H Hf. cbn [simple]. rewrite N.eqb_refl, H. destruct t as [|x t]; [reflexivity|].
  cbn in Hf. now rewrite (cap_letter_name x Hf).
Qed.
Lemma fill_plain : forall g a t, no_mark a -> fill g (a ++ t) = a ++ fill g t.
Proof.
  induction a as [|c a IH]; intros t H; [reflexivity|]. cbn [app fill].
  destruct (N.eqb_spec c 36); [subst; exfalso; apply H; now left|]. f_equal. apply IH. intros I. apply H. now right.
Qed.
Lemma template_simple : forall g ts, template_ok ts -> simple (template ts) = true /\ fill g (template ts) = put g ts.
Proof.
  induction ts as [|[s|k] ts IH]; intros H; [easy|..]; unfold template, put in *; cbn [map concat tok_text template_ok] in *.
  - destruct H as [H1 H2]. rewrite simple_plain by (now apply no_mark_dollar). rewrite fill_plain by exact H1.
    destruct (IH H2) as [-> ->]. easy.
  - destruct H as (H1 & H2 & H3). destruct (group_char_digit k H1) as [D R]. cbn [app].
    change (48 + N.of_nat k)%N with (group_char k). rewrite simple_ref by assumption. cbn [fill].
    rewrite N.eqb_refl, R. destruct (IH H3) as [-> ->]. easy.
Qed.
Lemma rule_simple : forall g np cc k rs t, 1 <= k <= 9 -> rule_tok_ok np cc rs -> free_start t -> simple t = true ->
  simple (put_rule np cc [36%N; group_char k] rs ++ t) = true
  /\ fill g (put_rule np cc [36%N; group_char k] rs ++ t) = put_rule np cc (g k) rs ++ fill g t.
Proof.
  intros g np cc k rs t Hk H Hf Ht. destruct (group_char_digit k Hk) as [D R].
  induction rs as [|[s| | |] rs IH]; [easy|..]; unfold put_rule in *; cbn [map concat rule_tok_ok] in *.
  1-3: destruct H as [H1 H2]; rewrite <- !app_assoc; rewrite simple_plain by (now apply no_mark_dollar);
    rewrite fill_plain by exact H1; destruct (IH H2) as [-> ->]; easy.
  destruct H as [H1 H2]. cbn [app]. rewrite simple_ref; [|exact D|].
  - cbn [fill]. rewrite N.eqb_refl, R. destruct (IH H2) as [-> ->]. now rewrite app_assoc.
  - apply free_start_app; [|intros _; exact Hf]. revert H1. unfold put_rule. clear - rs.
    induction rs as [|[s| | |] rs IH]; cbn [map concat]; [easy|..].
    + destruct s; [exact IH|easy].
    + destruct np; [exact IH|easy].
    + destruct cc; [exact IH|easy].
    + intros _. cbn. unfold in_name. lia.
Qed.

(** ** The first reference of a template *)
Lemma first_ref : forall a k t, no_mark a -> 1 <= k <= 9 ->
  exists m c, re_find FIRST_GROUP (a ++ [36%N; group_char k] ++ t) = Some m
    /\ mr_pre m = a /\ mr_post m = t /\ cap_get m 1 = Some c /\ cap_text c = [36%N; group_char k].
Proof.
  intros a k t Ha Hk. destruct (group_char_digit k Hk) as [D _].
  assert (Nd : in_ranges tbl_Nd (group_char k) = true).
  { clear - Hk. do 10 (destruct k as [|k]; [try lia; reflexivity|]). lia. }
  set (w := a ++ [36%N; group_char k] ++ t). pose proof (first_group_find w) as F.
  destruct (re_find FIRST_GROUP w) as [m|] eqn:E.
  2:{ exfalso. apply F. exists a, (group_char k), t. easy. }
  destruct F as (d & c & Ht & Hd & Hw & Hc & Hct). exists m, c. split; [reflexivity|].
  assert (P : mr_pre m = a).
  { apply re_find_some in E as (_ & _ & Hmin). unfold w in Hw, Hmin.
    assert (G : forall (p q : str) u v, no_mark p -> p ++ 36%N :: u = q ++ 36%N :: v -> exists z, q = p ++ z).
    { clear. induction p as [|x p IH]; intros q u v H Eq; [now exists q|].
      destruct q as [|y q]; [exfalso; apply H; left; now inversion Eq|]. inversion Eq; subst.
      destruct (IH q u v) as (z & ->); [intros I; apply H; now right|exact H2|]. now exists z. }
    destruct (G a (mr_pre m) (group_char k :: t) (d :: mr_post m) Ha Hw) as (z & Hz). destruct z as [|x z].
    - now rewrite app_nil_r in Hz.
    - exfalso. apply (Hmin a x z [36%N; group_char k] t Hz eq_refl). apply lang_first_group. eauto. }
  unfold w in Hw. rewrite P in Hw. apply app_inv_head in Hw. inversion Hw; subst. auto.
Qed.
Lemma rewritten_template : forall meta f a k t rs carrier w,
  f_format f = a ++ [36%N; group_char k] ++ t -> no_mark a -> 1 <= k <= 9 ->
  texts_ok (match md_national_prefix meta with Some x => x | None => [] end)
           (match carrier with Some x => x | None => [] end) rs ->
  fmt_replace w meta f (Some (rule rs)) carrier
  = Ok (re_replace (f_pattern f) w
         (a ++ put_rule (match md_national_prefix meta with Some x => x | None => [] end)
                        (match carrier with Some x => x | None => [] end) [36%N; group_char k] rs ++ t)).
Proof.
  intros meta f a k t rs carrier w Hf Ha Hk Hr. destruct (first_ref a k t Ha Hk) as (m & c & Em & Hp & Hq & Hc & Ht).
  destruct (group_char_digit k Hk) as [D _].
  assert (Em' : re_find FIRST_GROUP (f_format f) = Some m) by (rewrite Hf; exact Em).
  unfold fmt_replace. rewrite Em'. cbn [unwrap obind]. rewrite Hc. cbn [unwrap obind]. rewrite Ht.
  rewrite marks by assumption. unfold re_replace at 2. rewrite Em', Hp, Hq. rewrite expand_stage by assumption. reflexivity.
Qed.

(** ** The pieces of a match *)
(** the [k]-th piece, counted from 1 *)
Definition piece (gs : list str) (k : nat) : str := nth (k - 1) gs [].
(** [w] is cut into what comes before the match, one piece for each of the [k]
    groups of the pattern, and the rest, the match being the one the search
    finds; [body] is [w] with the pieces shown by [show].  Without a match [w] stays as it is. *)
Definition shown (r : regex) (k : nat) (show : list str -> str) (w body : str) : Prop :=
  (exists pre gs post, w = pre ++ concat gs ++ post /\ length gs = k
     /\ (forall i x, 1 <= i <= k -> In (i, x) (grps (re_ast r)) ->
           exists b a, lang x b (piece gs i) a)
     /\ lang (re_ast r) pre (concat gs) post
     /\ (forall m, re_find r w = Some m -> pre = mr_pre m /\ post = mr_post m)
     /\ body = pre ++ show gs ++ post)
  \/ (~ matches_somewhere (re_ast r) w /\ body = w).

Lemma fill_ext : forall g g' t, simple t = true -> (forall i, In i (refs t) -> g i = g' i) -> fill g t = fill g' t.
Proof.
  intros g g' t H. revert t H. apply (simple_cases (fun t => (forall i, In i (refs t) -> g i = g' i) -> fill g t = fill g' t)).
  - reflexivity.
  - intros c t Hc Ht IH H. cbn [fill refs] in *. apply N.eqb_neq in Hc. rewrite Hc in *. f_equal. auto.
  - intros d t Hd Hx Ht IH H. cbn [fill refs] in *. rewrite N.eqb_refl in *. rewrite H by (now left). f_equal. apply IH.
    intros i I. apply H. now right.
Qed.
Lemma nth_map_seq : forall (g : nat -> str) k i, 1 <= i <= k -> nth (i - 1) (map g (seq 1 k)) [] = g i.
Proof.
  intros g k i H. rewrite (nth_indep _ [] (g 0)) by (rewrite map_length, seq_length; lia).
  rewrite map_nth, seq_nth by lia. f_equal. lia.
Qed.
Lemma groups_ref : forall r s m k i, top_groups (re_ast r) = Some (seq 1 k) -> re_find r s = Some m -> 1 <= i ->
  ref_text m i = piece (map (ref_text m) (seq 1 k)) i.
Proof.
  intros r s m k i Ht H Hi. unfold piece. destruct (Nat.le_gt_cases i k) as [Hk|Hk].
  - rewrite nth_map_seq by lia. reflexivity.
  - rewrite nth_overflow by (rewrite map_length, seq_length; lia).
    apply re_find_run in H as (st & I & Hr & Hc). destruct (top_groups_run _ _ _ _ Ht I) as (cs & L & M & _).
    cbn [m_caps] in M. rewrite app_nil_r, Hc in M. unfold ref_text. destruct i as [|i]; [lia|]. cbn [cap_get].
    destruct (cap_lookup (S i) (mr_caps m)) as [c|] eqn:E; [|reflexivity]. exfalso.
    apply cap_lookup_in in E. rewrite M in E. apply in_rev in E. apply in_combine_l in E. apply in_seq in E. lia.
Qed.
Lemma top_groups_numbers : forall r is, top_groups r = Some is -> map fst (grps r) = is.
Proof.
  induction r; intros is H; cbn [top_groups] in H; try discriminate H.
  - inversion H. reflexivity.
  - destruct (top_groups r1) as [x|]; [|discriminate]. destruct (top_groups r2) as [y|]; [|discriminate].
    inversion H; subst. cbn [grps]. rewrite map_app. now rewrite (IHr1 x eq_refl), (IHr2 y eq_refl).
  - destruct (grps r) eqn:E; [|discriminate]. inversion H; subst. cbn [grps map fst]. now rewrite E.
Qed.
Lemma shown_replace : forall r k w t show, top_groups (re_ast r) = Some (seq 1 k) ->
  simple t = true -> (forall i, In i (refs t) -> 1 <= i) ->
  (forall gs, show gs = fill (piece gs) t) ->
  shown r k show w (re_replace r w t).
Proof.
  intros r k w t show Ht Hs Hi Hshow. unfold re_replace. destruct (re_find r w) as [m|] eqn:E.
  - left. exists (mr_pre m), (map (ref_text m) (seq 1 k)), (mr_post m).
    pose proof E as F. apply re_find_some in F as (F1 & F2 & _).
    assert (T : concat (map (ref_text m) (seq 1 k)) = mr_text m).
    { apply (top_groups_find r w m (seq 1 k)); [exact Ht|apply seq_NoDup| |exact E].
      intros I. apply in_seq in I. lia. }
    rewrite T. split; [exact F1|]. split; [now rewrite map_length, seq_length|]. split; [|split; [exact F2|split]].
    2: intros m' Em; assert (m' = m) by congruence; subst m'; auto.
    + intros i x Hk Hx. rewrite <- (groups_ref r w m k i Ht E) by lia.
      assert (C : exists c, cap_get m i = Some c).
      { pose proof E as G. apply re_find_run in G as (st & I & Hr & Hc).
        destruct (top_groups_run _ _ _ _ Ht I) as (cs & L & M & _). cbn [m_caps] in M. rewrite app_nil_r, Hc in M.
        destruct i as [|i]; [lia|]. cbn [cap_get].
        assert (J : exists c, In (S i, c) (combine (seq 1 k) cs)).
        { rewrite seq_length in L. exists (nth i cs (mk_cap 0 0 [])).
          assert (N : nth i (combine (seq 1 k) cs) (0, mk_cap 0 0 []) = (S i, nth i cs (mk_cap 0 0 []))).
          { rewrite combine_nth by (rewrite seq_length; lia). f_equal. rewrite seq_nth; lia. }
          rewrite <- N. apply nth_In. rewrite combine_length, seq_length. lia. }
        destruct J as (c & J). exists c. rewrite M. apply cap_lookup_nodup.
        - rewrite map_rev, combine_fst by easy. apply NoDup_rev, seq_NoDup.
        - now apply -> in_rev. }
      destruct C as (c & C). unfold ref_text. rewrite C. destruct i as [|i]; [lia|].
      destruct (re_find_cap _ _ _ _ _ E C) as (x' & u & v & I & _ & L). cbn [fst snd] in *.
      assert (x' = x).
      { pose proof (top_groups_numbers _ _ Ht) as N. assert (ND : NoDup (map fst (grps (re_ast r)))) by (rewrite N; apply seq_NoDup).
        clear - ND I Hx. induction (grps (re_ast r)) as [|[j y] l IH]; [destruct I|]. cbn in ND. inversion ND; subst.
        destruct I as [I|I], Hx as [Hx|Hx].
        - congruence.
        - inversion I; subst. exfalso. apply H1. apply in_map_iff. now exists (S i, x).
        - inversion Hx; subst. exfalso. apply H1. apply in_map_iff. now exists (S i, x').
        - auto. }
      subst x'. eauto.
    + rewrite Hshow. rewrite (expand_fill m t Hs). f_equal. f_equal. apply fill_ext; [exact Hs|].
      intros i I. apply (groups_ref r w m k i Ht E). auto.
  - right. split; [|reflexivity]. now apply re_find_none.
Qed.
Lemma template_refs : forall ts i, template_ok ts -> In i (refs (template ts)) -> 1 <= i.
Proof.
  assert (P : forall a t, no_mark a -> refs (a ++ t) = refs t).
  { induction a as [|c a IH]; intros t H; [reflexivity|]. cbn [app refs].
    destruct (N.eqb_spec c 36); [subst; exfalso; apply H; now left|]. apply IH. intros I. apply H. now right. }
  induction ts as [|[s|k] ts IH]; intros i H I; [destruct I|..]; unfold template in *; cbn [map concat tok_text template_ok] in *.
  - destruct H as [H1 H2]. rewrite P in I by exact H1. auto.
  - destruct H as (H1 & _ & H3). cbn [app refs] in I. rewrite N.eqb_refl in I. destruct I as [<-|I]; [|auto].
    change (48 + N.of_nat k)%N with (group_char k). rewrite (proj2 (group_char_digit k H1)). lia.
Qed.
Lemma rule_refs : forall np cc k rs t i, 1 <= k <= 9 -> texts_ok np cc rs ->
  In i (refs (put_rule np cc [36%N; group_char k] rs ++ t)) -> 1 <= i \/ In i (refs t).
Proof.
  intros np cc k rs t i Hk H.
  assert (P : forall a t, no_mark a -> refs (a ++ t) = refs t).
  { induction a as [|c a IH]; intros t' Ha; [reflexivity|]. cbn [app refs].
    destruct (N.eqb_spec c 36); [subst; exfalso; apply Ha; now left|]. apply IH. intros I. apply Ha. now right. }
  induction H as [|[s| | |] rs Hs H IH]; [now right|..]; unfold put_rule in *; cbn [map concat].
  1-3: rewrite <- app_assoc, P by exact Hs; exact IH.
  cbn [app refs]. rewrite N.eqb_refl. intros [<-|I]; [left|auto]. rewrite (proj2 (group_char_digit k Hk)). lia.
Qed.

(** ** Which format is used *)
(** A format can be used for the digits: it has no leading-digit patterns, or the
    last of them matches at the start and the pattern matches the whole. *)
Definition usable (f : format) (w : str) : Prop :=
  f_leading_digits f = []
  \/ (exists ls r, f_leading_digits f = ls ++ [r] /\ matches_prefix (re_ast r) w)
     /\ exists m, re_find (f_pattern f) w = Some m /\ mr_pre m = [] /\ mr_post m = [].
(** the first usable one *)
Definition first_usable (w : str) (fs : list format) (o : option format) : Prop :=
  match o with
  | Some f => exists a b, fs = a ++ f :: b /\ usable f w /\ forall g, In g a -> ~ usable g w
  | None => forall g, In g fs -> ~ usable g w
  end.
(** The international formats of the entry, if it has any, else its formats; for
    national text always the latter. *)
Definition formats_of (md : mode) (m : metadata) : list format :=
  match md with
  | National => md_formats m
  | _ => match md_international_formats m with [] => md_formats m | l => l end
  end.

Lemma usable_spec : forall f w,
  match f_leading_digits f with
  | [] => true
  | l => found_at_start (re_find (last l regex_never) w) && found_whole w (re_find (f_pattern f) w)
  end = true <-> usable f w.
Proof.
  intros f w. unfold usable. destruct (f_leading_digits f) as [|r0 l0] eqn:El; [split; auto|].
  assert (Hl : exists ls r, r0 :: l0 = ls ++ [r]).
  { destruct (@exists_last _ (r0 :: l0)) as (ls & r & E); [discriminate|]. eauto. }
  destruct Hl as (ls & r & Hl). rewrite Hl. rewrite last_last. rewrite andb_true_iff, found_at_start_spec.
  assert (W : found_whole w (re_find (f_pattern f) w) = true <->
    exists m, re_find (f_pattern f) w = Some m /\ mr_pre m = [] /\ mr_post m = []).
  { unfold found_whole. destruct (re_find (f_pattern f) w) as [m|] eqn:E.
    - pose proof (re_find_some _ _ _ E) as (F & _). rewrite andb_true_iff, !Nat.eqb_eq. unfold mr_start, mr_end.
      split.
      + intros [H1 H2]. exists m. split; [reflexivity|]. apply blen_nil_iff in H1. split; [exact H1|].
        rewrite F, !blen_app in H2. apply blen_nil_iff. lia.
      + intros (m' & Em & H1 & H2). inversion Em; subst m'. rewrite F, H1, H2. cbn. now rewrite app_nil_r.
    - split; [discriminate|]. intros (m & Em & _). discriminate. }
  rewrite W. split.
  - intros [H1 H2]. right. split; [eauto|exact H2].
  - intros [H|[(ls' & r' & E & H1) H2]]; [destruct ls; discriminate|]. apply app_inj_tail in E as [_ <-]. auto.
Qed.
Lemma choose_spec : forall w fs, first_usable w fs (choose_format w fs).
Proof.
  intros w. induction fs as [|f fs IH]; cbn [choose_format]; [intros g []|].
  pose proof (usable_spec f w) as U. cbv zeta.
  destruct (match f_leading_digits f with [] => true | _ => _ end).
  - exists [], fs. split; [reflexivity|]. split; [now apply U|intros g []].
  - assert (N : ~ usable f w) by (intros H; apply U in H; discriminate).
    destruct (choose_format w fs) as [x|]; cbn [first_usable] in *.
    + destruct IH as (a & b & -> & H1 & H2). exists (f :: a), b. split; [reflexivity|]. split; [exact H1|].
      intros g [<-|I]; auto.
    + intros g [<-|I]; auto.
Qed.
Lemma first_unique : forall w fs o, first_usable w fs o -> choose_format w fs = o.
Proof.
  intros w fs o H. pose proof (choose_spec w fs) as K. revert H K. generalize (choose_format w fs) as o'. intros o' H K.
  destruct o as [f|], o' as [f'|]; cbn [first_usable] in *; [|..|reflexivity].
  - f_equal. destruct H as (a & b & E & U & N), K as (a' & b' & E' & U' & N').
    rewrite E in E'. clear E. revert a' N' E'. induction a as [|x a IH]; intros [|y a'] N' E'; cbn [app] in E'; injection E' as E1 E2.
    + symmetry. exact E1.
    + exfalso. apply (N' y); [now left|]. rewrite <- E1. exact U.
    + exfalso. apply (N x); [now left|]. rewrite E1. exact U'.
    + apply (IH (fun g I => N g (or_intror I)) a'); [|exact E2]. intros g I. apply N'. now right.
  - exfalso. destruct H as (a & b & -> & U & _). apply (K f); [apply in_app_iff; right; now left|exact U].
  - exfalso. destruct K as (a & b & -> & U & _). apply (H f'); [apply in_app_iff; right; now left|exact U].
Qed.

(** ** Runs of separators *)
(** what the crate takes for a separator: space, - . ( ) / [ ] ~, the letter x and
    the Unicode forms of these *)
Definition separator_ranges : list (N * N) :=
  [(45, 45); (120, 120); (0x2010, 0x2015); (0x2212, 0x2212); (0x30FC, 0x30FC); (0xFF0D, 0xFF0F); (32, 32);
   (0xA0, 0xA0); (0xAD, 0xAD); (0x200B, 0x200B); (0x2060, 0x2060); (0x3000, 0x3000); (40, 40); (41, 41);
   (0xFF08, 0xFF08); (0xFF09, 0xFF09); (0xFF3B, 0xFF3B); (0xFF3D, 0xFF3D); (46, 46); (91, 91); (93, 93);
   (47, 47); (126, 126); (0x2053, 0x2053); (0x223C, 0x223C); (0xFF5E, 0xFF5E)]%N.
Definition separator (c : char) : bool := existsb (fun r => (fst r <=? c) && (c <=? snd r))%N separator_ranges.
(** every run of separators replaced by one hyphen *)
Fixpoint hyphens (s : str) : str :=
  match s with
  | [] => []
  | c :: s' =>
      if separator c
      then match s' with
           | d :: _ => if separator d then hyphens s' else 45%N :: hyphens s'
           | [] => [45%N]
           end
      else c :: hyphens s'
  end.

Lemma in_union : forall a b c, in_cls (CUnion a b) c = true <-> in_cls a c = true \/ in_cls b c = true.
Proof. intros. cbn [in_cls]. destruct (in_cls a c), (in_cls b c); cbn; tauto. Qed.
Lemma in_one : forall a b c, in_cls (CRange a b) c = true <-> ((a <=? c) && (c <=? b))%N = true.
Proof. reflexivity. Qed.
Lemma sep_separator : forall c, in_cls sep_cls c = separator c.
Proof.
  intros c. apply Bool.eq_iff_eq_true. unfold separator. rewrite existsb_exists. unfold sep_cls.
  rewrite !in_union, !in_one. split.
  - intros H. repeat (destruct H as [H|H]; [|refine (ex_intro _ (_, _) (conj _ H)); cbn [separator_ranges In];
      repeat (first [left; reflexivity | right])]).
    all: refine (ex_intro _ (_, _) (conj _ H)); cbn [separator_ranges In]; repeat (first [left; reflexivity | right]).
  - intros (r & I & H). cbn [separator_ranges In] in I.
    repeat (destruct I as [<-|I]; [cbn [fst snd] in H; rewrite H; clear; tauto|]). destruct I.
Qed.

Lemma upto_run : forall c n s, length (m_rest s) <= n ->
  exists s', hd_error (upto (ms (RCls c)) true true n s) = Some s'
    /\ match m_rest s' with x :: _ => in_cls c x = false | [] => True end.
Proof.
  induction n as [|n IH]; intros s H.
  - cbn. exists s. split; [reflexivity|]. destruct (m_rest s); [easy|cbn in H; lia].
  - cbn [upto]. change (ms (RCls c) s) with (match step_cls c s with Some s' => [s'] | None => [] end).
    unfold step_cls. destruct (m_rest s) as [|x t] eqn:E.
    + cbn. exists s. rewrite E. auto.
    + destruct (in_cls c x) eqn:Ex.
      * cbn [filter]. unfold progress. cbn [m_rest]. rewrite E. cbn [length].
        replace (length t <? S (length t)) with true by (symmetry; apply Nat.ltb_lt; lia).
        cbn [flat_map]. rewrite app_nil_r.
        destruct (IH (mk_mst (m_pos s + utf8_len x) t (m_caps s))) as (s' & H1 & H2); [cbn in *; lia|].
        exists s'. split; [|exact H2]. destruct (upto _ _ _ n _); [discriminate|]. exact H1.
      * cbn. exists s. rewrite E. auto.
Qed.
Lemma run_max : forall c pos s st, match_at (RRep true 1 None (RCls c)) pos s = Some st ->
  match m_rest st with x :: _ => in_cls c x = false | [] => True end.
Proof.
  intros c pos s st H. rewrite match_at_hd in H. cbn [ms copies] in H. unfold step_cls in H. cbn [m_rest] in H.
  destruct s as [|x t]; [discriminate|]. destruct (in_cls c x); [|discriminate]. cbn [flat_map m_pos m_caps app] in H.
  rewrite app_nil_r in H. cbn [m_rest] in H.
  destruct (upto_run c (length t) (mk_mst (pos + utf8_len x) t [])) as (s' & H1 & H2); [cbn; lia|].
  cbn [ms] in H1. unfold step_cls in H1. rewrite H1 in H. inversion H; subst. exact H2.
Qed.
Lemma find_run_max : forall c s pos pre m, find_at (RRep true 1 None (RCls c)) pos pre s = Some m ->
  match mr_post m with x :: _ => in_cls c x = false | [] => True end.
Proof.
  intros c. induction s as [|x s IH]; intros pos pre m H; cbn [find_at] in H.
  - destruct (match_at _ pos []) as [st|] eqn:E; [|discriminate]. inversion H; subst. cbn [mr_post]. eapply run_max; eauto.
  - destruct (match_at _ pos (x :: s)) as [st|] eqn:E; [|eapply IH; eauto].
    inversion H; subst. cbn [mr_post]. eapply run_max; eauto.
Qed.

Lemma hyphens_outside : forall a t, outside sep_cls a = true -> hyphens (a ++ t) = a ++ hyphens t.
Proof.
  induction a as [|c a IH]; intros t H; [reflexivity|]. unfold outside in *; cbn [forallb] in H. apply andb_prop in H as [H1 H2].
  apply negb_true_iff in H1. rewrite sep_separator in H1. cbn [app hyphens]. rewrite H1. f_equal. now apply IH.
Qed.
Lemma hyphens_inside : forall a t, a <> [] -> inside sep_cls a = true ->
  match t with x :: _ => in_cls sep_cls x = false | [] => True end -> hyphens (a ++ t) = 45%N :: hyphens t.
Proof.
  induction a as [|c a IH]; intros t Hn H Ht; [easy|]. unfold inside in *; cbn [forallb] in H. apply andb_prop in H as [H1 H2].
  rewrite sep_separator in H1. destruct a as [|c' a].
  - cbn [app hyphens]. rewrite H1. destruct t as [|x t]; [reflexivity|]. rewrite sep_separator in Ht. now rewrite Ht.
  - cbn [app]. change (hyphens (c :: c' :: a ++ t)) with
      (if separator c then if separator c' then hyphens (c' :: a ++ t) else 45%N :: hyphens (c' :: a ++ t)
       else c :: hyphens (c' :: a ++ t)). rewrite H1.
    cbn [forallb] in H2. apply andb_prop in H2 as [H2 H3]. pose proof H2 as H2'. rewrite sep_separator in H2'. rewrite H2'.
    change (c' :: a ++ t) with ((c' :: a) ++ t). apply IH; [easy| |exact Ht]. cbn [forallb]. now rewrite H2, H3.
Qed.
Lemma hyphens_all : forall s, re_replace_all SEPARATOR_PATTERN s (lit "-") = hyphens s.
Proof.
  assert (G : forall fuel pos s, length s < fuel -> replace_all_fuel fuel SEPARATOR_PATTERN pos s (lit "-") = hyphens s).
  { induction fuel as [|fuel IH]; intros pos s H; [lia|]. cbn [replace_all_fuel]. rewrite sep_ast.
    pose proof (find_run_at sep_cls s pos []) as F.
    destruct (find_at _ pos [] s) as [m|] eqn:E.
    - destruct F as (a & E1 & E2 & Ho & Hn & Hi). cbn [rev app] in E1. rewrite E1, hyphen_expand.
      apply find_run_max in E. destruct (mr_text m) as [|y text] eqn:Et; [now destruct Hn|].
      rewrite E2, hyphens_outside by exact Ho. f_equal. rewrite hyphens_inside by assumption. cbn [app]. f_equal.
      destruct (mr_post m) eqn:Ep; apply IH; rewrite E2 in H; rewrite !app_length in H; cbn [length] in *; lia.
    - rewrite <- (app_nil_r s) at 2. rewrite hyphens_outside by exact F. cbn. now rewrite app_nil_r. }
  intros s. apply G. lia.
Qed.

(** ** C41: the text of a number *)
(** [p.format_with(db).mode(md)], with [.with(f)] if a format is given *)
Definition render_with (db : database) (md : mode) (fo : option format) (p : phone) : outcome unit str :=
  let f := fm_set_mode (fmt_format_with db p) md in
  fmt_display default_db (match fo with Some x => fm_with f x | None => f end).
Definition digits_of (p : phone) : str := nn_show (ph_national p).
Definition code_of (p : phone) : str := dec (code_value (ph_code p)).
(** the format given, or the first usable one of the entry *)
Definition format_used (md : mode) (m : metadata) (fo : option format) (p : phone) (o : option format) : Prop :=
  match fo with Some f => o = Some f | None => first_usable (digits_of p) (formats_of md m) o end.
Definition ext_text (m : metadata) (p : phone) : str :=
  match ph_extension p with
  | Some e => match md_preferred_extension_prefix m with Some x => x | None => lit " ext. " end ++ e
  | None => []
  end.
Definition rfc_ext (p : phone) : str := match ph_extension p with Some e => lit ";ext=" ++ e | None => [] end.
Definition frame (md : mode) (m : metadata) (p : phone) (body : str) : str :=
  match md with
  | E164 => lit "+" ++ code_of p ++ digits_of p
  | International => lit "+" ++ code_of p ++ lit " " ++ body ++ ext_text m p
  | National => body ++ ext_text m p
  | Rfc3966 => lit "tel:+" ++ code_of p ++ lit "-" ++ body ++ rfc_ext p
  end.

Lemma display_chosen : forall db md fo p m l o, by_code db (code_value (ph_code p)) = Some (m :: l) ->
  format_used md m fo p o ->
  render_with db md fo p =
  match md with
  | E164 => Ok (frame E164 m p [])
  | International =>
      let* body := match o with Some x => fmt_replace (digits_of p) m x None None | None => Ok (digits_of p) end in
      Ok (frame International m p body)
  | National =>
      let* body :=
        match o with
        | Some x =>
            match ph_carrier p, f_domestic_carrier x with
            | Some c, Some rule => fmt_replace (digits_of p) m x (Some rule) (Some c)
            | _, _ => match f_national_prefix x with
                      | Some rule => fmt_replace (digits_of p) m x (Some rule) None
                      | None => fmt_replace (digits_of p) m x None None
                      end
            end
        | None => Ok (digits_of p)
        end in
      Ok (frame National m p body)
  | Rfc3966 =>
      let* body := match o with
                   | Some x => let* r := fmt_replace (digits_of p) m x None None in Ok (hyphens r)
                   | None => Ok (digits_of p) end in
      Ok (frame Rfc3966 m p body)
  end.
Proof.
  intros db md fo p m l o Hc Ho. unfold render_with, fmt_display, digits_of in *.
  assert (E : (match fo with Some x => fm_with (fm_set_mode (fmt_format_with db p) md) x
                           | None => fm_set_mode (fmt_format_with db p) md end)
              = mk_formatter p (Some db) md fo) by (destruct fo; reflexivity).
  rewrite E. cbn [fm_database fm_number fm_mode fm_format]. rewrite Hc. cbn [ok_or obind].
  set (w := nn_show (ph_national p)) in *.
  match goal with |- context [match fo with Some x => Some x | None => choose_format w ?l end] =>
    assert (C : match fo with Some x => Some x | None => choose_format w l end = o) end.
  { unfold format_used in Ho. destruct fo as [f|]; [congruence|]. apply first_unique. unfold digits_of in Ho. fold w in Ho.
    unfold formats_of in Ho. destruct (md_international_formats m), md; exact Ho. }
  rewrite C. destruct md; try reflexivity. destruct o as [x|]; [|reflexivity]. rewrite !fmt_replace_none. cbn [obind].
  rewrite hyphens_all. reflexivity.
Qed.

(** A format is used, the choice being unique, and with none the digits are shown
    as they are. *)
Theorem C41_used : forall md m fo p, exists o, format_used md m fo p o /\ forall o', format_used md m fo p o' -> o' = o.
Proof.
  intros md m [f|] p; cbn [format_used].
  - exists (Some f). split; auto.
  - exists (choose_format (digits_of p) (formats_of md m)). split; [apply choose_spec|].
    intros o' H. symmetry. now apply first_unique.
Qed.
Theorem C41_no_format : forall db md p m l, by_code db (code_value (ph_code p)) = Some (m :: l) ->
  format_used md m None p None -> render_with db md None p = Ok (frame md m p (digits_of p)).
Proof.
  intros db md p m l Hc Ho. rewrite (display_chosen db md None p m l None Hc Ho). destruct md; reflexivity.
Qed.
(** E.164 text does not depend on any format. *)
Theorem C41_e164 : forall db fo p m l, by_code db (code_value (ph_code p)) = Some (m :: l) ->
  render_with db E164 fo p = Ok (lit "+" ++ code_of p ++ digits_of p).
Proof.
  intros db fo p m l Hc. destruct (C41_used E164 m fo p) as (o & Ho & _). exact (display_chosen db E164 fo p m l o Hc Ho).
Qed.

Lemma plain_body : forall m f k ts w, top_groups (re_ast (f_pattern f)) = Some (seq 1 k) ->
  f_format f = template ts -> template_ok ts ->
  exists body, fmt_replace w m f None None = Ok body
    /\ shown (f_pattern f) k (fun gs => put (piece gs) ts) w body.
Proof.
  intros m f k ts w Hg Ht Hok. rewrite fmt_replace_none. eexists. split; [reflexivity|]. rewrite Ht.
  apply shown_replace; [exact Hg|apply (template_simple (fun _ => [])); exact Hok| |].
  - intros i. now apply template_refs.
  - intros gs. symmetry. now apply (template_simple (piece gs)).
Qed.

(** International text: the pieces of the digits in the places of the template. *)
Theorem C41_international : forall db fo p m l f k ts, by_code db (code_value (ph_code p)) = Some (m :: l) ->
  format_used International m fo p (Some f) ->
  top_groups (re_ast (f_pattern f)) = Some (seq 1 k) -> f_format f = template ts -> template_ok ts ->
  exists body, render_with db International fo p = Ok (lit "+" ++ code_of p ++ lit " " ++ body ++ ext_text m p)
    /\ shown (f_pattern f) k (fun gs => put (piece gs) ts) (digits_of p) body.
Proof.
  intros db fo p m l f k ts Hc Ho Hg Ht Hok. rewrite (display_chosen db International fo p m l _ Hc Ho).
  destruct (plain_body m f k ts (digits_of p) Hg Ht Hok) as (body & E & S). rewrite E. exists body. split; [reflexivity|exact S].
Qed.
(** RFC 3966 text: the same, with a hyphen for every run of separators. *)
Theorem C41_rfc3966 : forall db fo p m l f k ts, by_code db (code_value (ph_code p)) = Some (m :: l) ->
  format_used Rfc3966 m fo p (Some f) ->
  top_groups (re_ast (f_pattern f)) = Some (seq 1 k) -> f_format f = template ts -> template_ok ts ->
  exists body, render_with db Rfc3966 fo p = Ok (lit "tel:+" ++ code_of p ++ lit "-" ++ hyphens body ++ rfc_ext p)
    /\ shown (f_pattern f) k (fun gs => put (piece gs) ts) (digits_of p) body.
Proof.
  intros db fo p m l f k ts Hc Ho Hg Ht Hok. rewrite (display_chosen db Rfc3966 fo p m l _ Hc Ho).
  destruct (plain_body m f k ts (digits_of p) Hg Ht Hok) as (body & E & S). rewrite E. exists body. split; [reflexivity|exact S].
Qed.

(** ** National text *)
Definition prefix_of (m : metadata) : str := match md_national_prefix m with Some x => x | None => [] end.
(** The rule used: that for a carrier if the number has one and the format has
    such a rule, else that for the national prefix. *)
Inductive rule_used (f : format) (p : phone) : option str -> str -> Prop :=
  | by_carrier : forall c r, ph_carrier p = Some c -> f_domestic_carrier f = Some r -> rule_used f p (Some r) c
  | by_prefix : forall r, ph_carrier p = None \/ f_domestic_carrier f = None ->
      f_national_prefix f = Some r -> rule_used f p (Some r) []
  | by_none : ph_carrier p = None \/ f_domestic_carrier f = None ->
      f_national_prefix f = None -> rule_used f p None [].

Lemma national_rule : forall db fo p m l f o c, by_code db (code_value (ph_code p)) = Some (m :: l) ->
  format_used National m fo p (Some f) -> rule_used f p o c ->
  exists k, c = match k with Some x => x | None => [] end /\
  render_with db National fo p = let* body := fmt_replace (digits_of p) m f o k in Ok (frame National m p body).
Proof.
  intros db fo p m l f o c Hc Ho Hr. rewrite (display_chosen db National fo p m l _ Hc Ho).
  inversion Hr as [c' r H1 H2|r H1 H2|H1 H2]; subst.
  - exists (Some c). rewrite H1, H2. auto.
  - exists None. rewrite H2. destruct H1 as [-> | ->]; [auto|]. destruct (ph_carrier p); auto.
  - exists None. rewrite H2. destruct H1 as [-> | ->]; [auto|]. destruct (ph_carrier p); auto.
Qed.

Theorem C41_national_plain : forall db fo p m l f k ts, by_code db (code_value (ph_code p)) = Some (m :: l) ->
  format_used National m fo p (Some f) -> rule_used f p None [] ->
  top_groups (re_ast (f_pattern f)) = Some (seq 1 k) -> f_format f = template ts -> template_ok ts ->
  exists body, render_with db National fo p = Ok (body ++ ext_text m p)
    /\ shown (f_pattern f) k (fun gs => put (piece gs) ts) (digits_of p) body.
Proof.
  intros db fo p m l f k ts Hc Ho Hr Hg Ht Hok.
  destruct (national_rule db fo p m l f None [] Hc Ho Hr) as (c & _ & E). rewrite E.
  destruct (plain_body m f k ts (digits_of p) Hg Ht Hok) as (body & E' & S).
  change (fmt_replace (digits_of p) m f None c) with (fmt_replace (digits_of p) m f None None). rewrite E'.
  exists body. split; [reflexivity|exact S].
Qed.

(** The first piece the template shows, piece [j], is shown by the rule. *)
Theorem C41_national_rule : forall db fo p m l f k a j ts rs c, by_code db (code_value (ph_code p)) = Some (m :: l) ->
  format_used National m fo p (Some f) -> rule_used f p (Some (rule rs)) c ->
  top_groups (re_ast (f_pattern f)) = Some (seq 1 k) ->
  f_format f = template (Txt a :: Grp j :: ts) -> template_ok (Txt a :: Grp j :: ts) -> rule_tok_ok (prefix_of m) c rs ->
  exists body, render_with db National fo p = Ok (body ++ ext_text m p)
    /\ shown (f_pattern f) k (fun gs => a ++ put_rule (prefix_of m) c (piece gs j) rs ++ put (piece gs) ts) (digits_of p) body.
Proof.
  intros db fo p m l f k a j ts rs c Hc Ho Hr Hg Ht Hok Hrs.
  destruct (national_rule db fo p m l f _ c Hc Ho Hr) as (cc & Ecc & E). rewrite E.
  destruct Hok as (Ha & Hj & Hfree & Hts). pose proof (rule_texts _ _ _ Hrs) as Htx.
  change (f_format f = a ++ [36%N; group_char j] ++ template ts) in Ht.
  rewrite (rewritten_template m f a j (template ts) rs cc (digits_of p) Ht Ha Hj);
    [|rewrite <- Ecc; exact Htx].
  rewrite <- Ecc. fold (prefix_of m). cbn [obind]. eexists. split; [reflexivity|].
  assert (R : forall g, simple (put_rule (prefix_of m) c [36%N; group_char j] rs ++ template ts) = true
     /\ fill g (put_rule (prefix_of m) c [36%N; group_char j] rs ++ template ts)
        = put_rule (prefix_of m) c (g j) rs ++ fill g (template ts)).
  { intros g. apply rule_simple; auto. now apply (template_simple (fun _ => [])). }
  apply shown_replace; [exact Hg| | |].
  - rewrite simple_plain by (now apply no_mark_dollar). apply (R (fun _ => [])).
  - intros i I.
    assert (P : forall a t, no_mark a -> refs (a ++ t) = refs t).
    { induction a0 as [|x a0 IH]; intros t Ha0; [reflexivity|]. cbn [app refs].
      destruct (N.eqb_spec x 36); [subst; exfalso; apply Ha0; now left|]. apply IH. intros J. apply Ha0. now right. }
    rewrite P in I by exact Ha. apply rule_refs in I as [I|I]; [exact I| |exact Hj|exact Htx]. now apply (template_refs ts).
  - intros gs. rewrite fill_plain by exact Ha. rewrite (proj2 (R (piece gs))).
    now rewrite (proj2 (template_simple (piece gs) ts Hts)).
Qed.

(** ** The built-in formats are all of this form *)
Fixpoint toks (s : str) : list tok :=
  match s with
  | [] => []
  | c :: s' =>
      if N.eqb c 36 then
        match s' with d :: s'' => Grp (ref_of d) :: toks s'' | [] => [Txt [c]] end
      else Txt [c] :: toks s'
  end.
Definition free_startb (s : str) : bool := match s with [] => true | c :: _ => negb (is_cap_letter c) end.
Fixpoint template_okb (ts : list tok) : bool :=
  match ts with
  | [] => true
  | Txt s :: ts' => if no_dollar s then template_okb ts' else false
  | Grp k :: ts' => if 1 <=? k then if k <=? 9 then if free_startb (template ts') then template_okb ts' else false else false else false
  end.
Fixpoint rtoks (fuel : nat) (s : str) : list rtok :=
  match fuel with
  | O => []
  | S fuel' =>
      match s with
      | [] => []
      | c :: s' =>
          if starts_with s NP then RNP :: rtoks fuel' (skipn 3 s)
          else if starts_with s FG then RFG :: rtoks fuel' (skipn 3 s)
          else if starts_with s CC then RCC :: rtoks fuel' (skipn 3 s)
          else RTxt [c] :: rtoks fuel' s'
      end
  end.
Definition rtok_start (t : list rtok) : bool :=
  match t with [] => true | RTxt (c :: _) :: _ => negb (is_cap_letter c) | _ => false end.
Fixpoint rule_okb (rs : list rtok) : bool :=
  match rs with
  | [] => true
  | RTxt s :: rs' => if no_dollar s then rule_okb rs' else false
  | RFG :: rs' => if rtok_start rs' then rule_okb rs' else false
  | _ :: rs' => rule_okb rs'
  end.

Lemma name_cap_letter : forall c, is_cap_letter c = false -> ~ in_name c.
Proof.
  intros c H I. unfold is_cap_letter, is_alphanum, is_ascii_alpha, is_digit, in_range, in_name in *.
  rewrite !orb_false_iff, !andb_false_iff, !N.leb_gt, N.eqb_neq in H. lia.
Qed.
Lemma free_start_sound : forall s, free_startb s = true -> free_start s.
Proof. intros [|c s] H; cbn in *; [easy|]. now apply name_cap_letter, negb_true_iff. Qed.
Lemma template_ok_sound : forall ts, template_okb ts = true -> template_ok ts.
Proof.
  induction ts as [|[s|k] ts IH]; cbn [template_okb template_ok]; intros H; [easy|..].
  - destruct (no_dollar s) eqn:E; [|discriminate]. apply no_mark_dollar in E. auto.
  - destruct (Nat.leb_spec 1 k); [|discriminate]. destruct (Nat.leb_spec k 9); [|discriminate].
    destruct (free_startb _) eqn:E; [|discriminate]. apply free_start_sound in E. auto.
Qed.
Lemma rule_ok_sound : forall np cc rs, no_mark np -> no_mark cc -> rule_okb rs = true -> rule_tok_ok np cc rs.
Proof.
  intros np cc rs Hn Hc. induction rs as [|[s| | |] rs IH]; cbn [rule_okb rule_tok_ok]; intros H; auto.
  - destruct (no_dollar s) eqn:E; [|discriminate]. apply no_mark_dollar in E. auto.
  - destruct (rtok_start rs) eqn:E; [|discriminate]. split; [|auto].
    destruct rs as [|[[|c s]| | |] rs]; try discriminate; [easy|]. cbn. now apply name_cap_letter, negb_true_iff.
Qed.

(** the parts of a format: number of groups, text before the first reference, that
    reference, and the rest *)
Definition parts (f : format) : nat * str * nat * list tok :=
  let k := match top_groups (re_ast (f_pattern f)) with Some is => length is | None => 0 end in
  let '(a, rest) := span (fun c => negb (N.eqb c 36)) (f_format f) in
  match rest with
  | _ :: d :: rest' => (k, a, ref_of d, toks rest')
  | _ => (k, a, 0, [])
  end.
Definition rule_parts (r : str) : list rtok := rtoks (S (length r)) r.
Definition shape_ok (m : metadata) (f : format) : bool :=
  let '(k, a, j, ts) := parts f in
  match top_groups (re_ast (f_pattern f)) with
  | Some is =>
      if list_eq_dec Nat.eq_dec is (seq 1 k) then
      if str_eqb (f_format f) (template (Txt a :: Grp j :: ts)) then
      if template_okb (Txt a :: Grp j :: ts) then
      if no_dollar (prefix_of m) then
      if opt_ok (fun r => if str_eqb r (rule (rule_parts r)) then rule_okb (rule_parts r) else false) (f_national_prefix f) then
      opt_ok (fun r => if str_eqb r (rule (rule_parts r)) then rule_okb (rule_parts r) else false) (f_domestic_carrier f)
      else false else false else false else false else false
  | None => false
  end.
Definition entry_shapes (m : metadata) : bool :=
  if forallb (shape_ok m) (md_formats m) then forallb (shape_ok m) (md_international_formats m) else false.
Lemma default_shapes : heads_forall entry_shapes default_db = true.
Proof. vm_cast_no_check (eq_refl true). Qed.

(** Every format of the entry used for a calling code, in the form the theorems
    above ask for. *)
Definition regular (m : metadata) (f : format) (k : nat) (a : str) (j : nat) (ts : list tok) : Prop :=
  top_groups (re_ast (f_pattern f)) = Some (seq 1 k)
  /\ f_format f = template (Txt a :: Grp j :: ts) /\ template_ok (Txt a :: Grp j :: ts)
  /\ forall r c, f_national_prefix f = Some r \/ f_domestic_carrier f = Some r -> no_mark c ->
       exists rs, r = rule rs /\ rule_tok_ok (prefix_of m) c rs.
Lemma shape_regular : forall m f, shape_ok m f = true -> exists k a j ts, regular m f k a j ts.
Proof.
  intros m f H. unfold shape_ok in H. destruct (parts f) as [[[k a] j] ts]. exists k, a, j, ts.
  destruct (top_groups _) as [is|] eqn:E1; [|discriminate].
  destruct (list_eq_dec Nat.eq_dec is (seq 1 k)) as [E2|]; [|discriminate].
  destruct (str_eqb (f_format f) _) eqn:E3; [|discriminate]. apply str_eqb_eq in E3.
  destruct (template_okb _) eqn:E4; [|discriminate]. apply template_ok_sound in E4.
  destruct (no_dollar (prefix_of m)) eqn:E5; [|discriminate]. apply no_mark_dollar in E5.
  destruct (opt_ok _ (f_national_prefix f)) eqn:E6; [|discriminate].
  split; [congruence|]. split; [exact E3|]. split; [exact E4|]. intros r c Hr Hc. exists (rule_parts r).
  assert (G : str_eqb r (rule (rule_parts r)) = true /\ rule_okb (rule_parts r) = true).
  { destruct Hr as [Hr|Hr]; [rewrite Hr in E6; cbn [opt_ok] in E6|rewrite Hr in H; cbn [opt_ok] in H; rename H into E7];
    (destruct (str_eqb r (rule (rule_parts r))); [split; [reflexivity|assumption]|discriminate]). }
  destruct G as [G1 G2]. apply str_eqb_eq in G1. split; [exact G1|]. now apply rule_ok_sound.
Qed.
Theorem C41_default_regular : forall c m l f, by_code default_db c = Some (m :: l) ->
  In f (md_formats m) \/ In f (md_international_formats m) -> exists k a j ts, regular m f k a j ts.
Proof.
  intros c m l f Hc Hf. pose proof (heads_forall_head _ _ _ _ _ default_shapes Hc) as H. unfold entry_shapes in H.
  destruct (forallb (shape_ok m) (md_formats m)) eqn:E; [|discriminate]. rewrite forallb_forall in E, H.
  apply shape_regular. destruct Hf; auto.
Qed.

(** How the pieces are shown: by the template, in national text with the rule for
    the first one. *)
Inductive layout (md : mode) (m : metadata) (p : phone) (f : format) (a : str) (j : nat) (ts : list tok)
  : (list str -> str) -> Prop :=
  | by_template : (md = National -> rule_used f p None []) ->
      layout md m p f a j ts (fun gs => a ++ piece gs j ++ put (piece gs) ts)
  | by_rule : forall rs c, md = National -> rule_used f p (Some (rule rs)) c -> rule_tok_ok (prefix_of m) c rs ->
      layout md m p f a j ts (fun gs => a ++ put_rule (prefix_of m) c (piece gs j) rs ++ put (piece gs) ts).
Lemma rule_used_total : forall f p, exists o c, rule_used f p o c.
Proof.
  intros f p. destruct (ph_carrier p) as [c|] eqn:E1, (f_domestic_carrier f) as [r|] eqn:E2;
    [do 2 eexists; eapply by_carrier; eauto|..].
  all: destruct (f_national_prefix f) as [r'|] eqn:E3; do 2 eexists; [eapply by_prefix|eapply by_none]; eauto.
Qed.
(** With the built-in metadata, in every mode but E.164: the digits as they are if
    no format can be used, else as the first usable one says. *)
Theorem C41_default : forall md p m l, md <> E164 -> by_code default_db (code_value (ph_code p)) = Some (m :: l) ->
  match ph_carrier p with Some c => no_mark c | None => True end ->
  exists body, render default_db md p = Ok (frame md m p (match md with Rfc3966 => hyphens body | _ => body end))
    /\ exists o, first_usable (digits_of p) (formats_of md m) o
    /\ match o with
       | None => body = digits_of p
       | Some f => exists k a j ts show, regular m f k a j ts /\ layout md m p f a j ts show
                     /\ shown (f_pattern f) k show (digits_of p) body
       end.
Proof.
  intros md p m l Hmd Hc Hcar. set (o := choose_format (digits_of p) (formats_of md m)).
  pose proof (choose_spec (digits_of p) (formats_of md m)) as Ho. fold o in Ho.
  assert (Hreg : forall f, o = Some f -> exists k a j ts, regular m f k a j ts).
  { intros f Ef. apply (C41_default_regular _ _ _ _ Hc). unfold o in Ef. apply choose_format_in in Ef. unfold formats_of in Ef.
    destruct md, (md_international_formats m); auto. }
  assert (U : format_used md m None p o) by exact Ho.
  change (render default_db md p) with (render_with default_db md None p).
  destruct o as [f|].
  2:{ exists (digits_of p). split; [|exists None; auto].
      rewrite (C41_no_format default_db md p m l Hc U). destruct md; try reflexivity. f_equal. f_equal.
      symmetry. rewrite <- (app_nil_r (digits_of p)) at 1. rewrite hyphens_outside; [cbn; now rewrite app_nil_r|].
      unfold outside. apply forallb_forall. intros c I. apply negb_true_iff.
      destruct (in_cls sep_cls c) eqn:E; [|reflexivity]. apply sep_digit in E.
      pose proof (nn_show_digits (ph_national p)) as D. unfold digits in D. rewrite forallb_forall in D.
      rewrite (D c I) in E. discriminate. }
  destruct (Hreg f eq_refl) as (k & a & j & ts & Hr). pose proof Hr as (Hg & Ht & Hok & Hrules).
  assert (T : forall gs, put (piece gs) (Txt a :: Grp j :: ts) = a ++ piece gs j ++ put (piece gs) ts) by reflexivity.
  destruct md.
  - now elim Hmd.
  - destruct (C41_international default_db None p m l f k _ Hc U Hg Ht Hok) as (body & E & S).
    exists body. split; [exact E|]. exists (Some f). split; [exact Ho|]. do 5 eexists. split; [exact Hr|].
    split; [apply by_template; discriminate|exact S].
  - destruct (rule_used_total f p) as (r & c & Hu). destruct r as [r|].
    + assert (Hrc : (f_national_prefix f = Some r \/ f_domestic_carrier f = Some r) /\ no_mark c).
      { inversion Hu; subst; [split; [now right|]|split; [now left|intros []]]. rewrite H0 in Hcar. exact Hcar. }
      destruct Hrc as [Hrc Hcc]. destruct (Hrules r c Hrc Hcc) as (rs & -> & Hrs).
      destruct (C41_national_rule default_db None p m l f k a j ts rs c Hc U Hu Hg Ht Hok Hrs) as (body & E & S).
      exists body. split; [exact E|]. exists (Some f). split; [exact Ho|]. do 5 eexists. split; [exact Hr|].
      split; [apply (by_rule National m p f a j ts rs c); auto|exact S].
    + assert (c = []) by (inversion Hu; reflexivity). subst c.
      destruct (C41_national_plain default_db None p m l f k _ Hc U Hu Hg Ht Hok) as (body & E & S).
      exists body. split; [exact E|]. exists (Some f). split; [exact Ho|]. do 5 eexists. split; [exact Hr|].
      split; [apply by_template; auto|exact S].
  - destruct (C41_rfc3966 default_db None p m l f k _ Hc U Hg Ht Hok) as (body & E & S).
    exists body. split; [exact E|]. exists (Some f). split; [exact Ho|]. do 5 eexists. split; [exact Hr|].
    split; [apply by_template; discriminate|exact S].
Qed.
Print Assumptions C41_default.

(** a number as the parser gives it, and its text in the three modes *)
Definition texts (o : outcome perr phone) : list (outcome unit str) :=
  match o with Ok p => map (fun md => render default_db md p) [International; National; Rfc3966] | _ => [] end.
(** French: five pieces, "0" before the first; Brazilian with a carrier dialled,
    where the rule for carriers is used; Argentine mobile, where the national
    text moves the pieces; an Italian short number, for which no format can be
    used. *)
Example C41_ex_fr : texts (parse_with default_db (Some ID_FR) (lit "0142685300 ext. 7"))
  = [Ok (lit "+33 1 42 68 53 00 ext. 7"); Ok (lit "01 42 68 53 00 ext. 7"); Ok (lit "tel:+33-1-42-68-53-00;ext=7")].
Proof. vm_compute. reflexivity. Qed.
Example C41_ex_br : texts (parse_with default_db (Some ID_BR) (lit "012 3121286979"))
  = [Ok (lit "+55 31 2128-6979"); Ok (lit "0 12 (31) 2128-6979"); Ok (lit "tel:+55-31-2128-6979")].
Proof. vm_compute. reflexivity. Qed.
Example C41_ex_ar : texts (parse_with default_db None (lit "+5491187654321"))
  = [Ok (lit "+54 9 11 8765-4321"); Ok (lit "011 15-8765-4321"); Ok (lit "tel:+54-9-11-8765-4321")].
Proof. vm_compute. reflexivity. Qed.
Example C41_ex_none : texts (parse_with default_db None (lit "+3912")) = [Ok (lit "+39 12"); Ok (lit "12"); Ok (lit "tel:+39-12")].
Proof. vm_compute. reflexivity. Qed.
(** A caller's own format, with a rule: it meets the hypotheses of the theorems
    for [fm_with] and swaps two pieces of a Belgian number. *)
Definition own_pattern : regex := Eval vm_compute in force_regex (regex_new (lit "(\d)(\d{3})(\d{4})")).
Definition own_tail : list tok := [Txt (lit "/"); Grp 3; Txt (lit " ("); Grp 1; Txt (lit ")")].
Definition own_rule : list rtok := [RTxt (lit "<"); RNP; RTxt (lit ">"); RFG].
Definition own_format : format :=
  mk_format own_pattern (template (Txt (lit "n ") :: Grp 2 :: own_tail)) [] (Some (rule own_rule)) false None.
Definition be_phone : phone := mk_phone (mk_code 32 SrcPlus) (mk_national 25551234) None None.
Example C41_ex_own : f_format own_format = lit "n $2/$3 ($1)" /\ f_national_prefix own_format = Some (lit "<$NP>$FG")
  /\ top_groups (re_ast own_pattern) = Some (seq 1 3) /\ template_ok (Txt (lit "n ") :: Grp 2 :: own_tail)
  /\ rule_used own_format be_phone (Some (rule own_rule)) [] /\ rule_tok_ok (lit "0") [] own_rule
  /\ exists m l, by_code default_db 32 = Some (m :: l) /\ prefix_of m = lit "0"
  /\ map (fun md => render_with default_db md (Some own_format) be_phone) [International; National; Rfc3966]
     = [Ok (lit "+32 n 555/1234 (2)"); Ok (lit "n <0>555/1234 (2)"); Ok (lit "tel:+32-n-555-1234-2-")].
Proof.
  split; [vm_compute; reflexivity|]. split; [vm_compute; reflexivity|]. split; [vm_compute; reflexivity|].
  split; [apply template_ok_sound; vm_compute; reflexivity|]. split; [apply by_prefix; [now left|reflexivity]|].
  split; [apply rule_ok_sound; [intros [H|[]]; discriminate|intros []|vm_compute; reflexivity]|].
  destruct (by_code default_db 32) as [[|m l]|] eqn:E; [vm_compute in E; discriminate..| |vm_compute in E; discriminate].
  exists m, l. split; [reflexivity|]. split.
  - assert (F : match by_code default_db 32 with Some (m :: _) => prefix_of m | _ => [] end = lit "0") by (vm_compute; reflexivity).
    rewrite E in F. exact F.
  - vm_compute. reflexivity.
Qed.
