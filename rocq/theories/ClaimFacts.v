(** * ClaimFacts: which entries of a shared calling code claim the same digits

    An analysis for digits of any length: the patterns look at no more than the
    first seventeen of them. *)
From Verif Require Import Base Unicode Regex RegexSyntax Consts CountryId Types NationalNumber
  Metadata Database Validator Valid Number Rfc3966 Helper Natural PhoneNumber Parser Formatter Loader
  DefaultDb DefaultDbOk Api.
From Verif Require Import StrFacts NationalFacts RegexLang RegexFacts RegexCaps RegexDeriv DatabaseFacts ParserFacts
  ParseInv TextFacts ViableFacts PhoneText CoreFacts DialFacts RegexMany RegexExact E164Facts FormatFacts PropsPanic
  PropsE164 PropsValid PropsNational.

(** ** Patterns that look at the first characters only *)
Fixpoint no_end (r : re) : bool :=
  match r with
  | REps | RCls _ | RStart => true
  | REnd => false
  | RCat a b | RAlt a b => if no_end a then no_end b else false
  | RRep _ _ _ r | RGrp _ r => no_end r
  end.
Lemma no_end_lang :
  (forall r b t a, lang r b t a -> forall a', no_end r = true -> lang r b t a') /\
  (forall r n b t a, langs r n b t a -> forall a', no_end r = true -> langs r n b t a').
Proof.
  apply lang_langs_ind; intros; cbn [no_end] in *.
  - constructor.
  - now constructor.
  - destruct (no_end r1) eqn:E; [|discriminate]. constructor; auto.
  - destruct (no_end r1) eqn:E; [|discriminate]. apply L_alt1. auto.
  - destruct (no_end r1) eqn:E; [|discriminate]. apply L_alt2. auto.
  - econstructor; eauto.
  - constructor. auto.
  - constructor.
  - discriminate.
  - constructor.
  - constructor; auto.
Qed.

Fixpoint maxlen (r : re) : option nat :=
  match r with
  | REps | RStart | REnd => Some 0
  | RCls _ => Some 1
  | RCat a b => match maxlen a, maxlen b with Some x, Some y => Some (x + y) | _, _ => None end
  | RAlt a b => match maxlen a, maxlen b with Some x, Some y => Some (Nat.max x y) | _, _ => None end
  | RRep _ mn (Some k) r => match maxlen r with Some x => Some (Nat.max mn k * x) | None => None end
  | RRep _ _ None r => None
  | RGrp _ r => maxlen r
  end.
Lemma maxlen_lang :
  (forall r b t a, lang r b t a -> forall n, maxlen r = Some n -> length t <= n) /\
  (forall r k b t a, langs r k b t a -> forall n, maxlen r = Some n -> length t <= k * n).
Proof.
  apply lang_langs_ind; intros; cbn [maxlen] in *;
    repeat match goal with
    | H : match maxlen ?r with _ => _ end = Some _ |- _ => destruct (maxlen r) eqn:?; [|discriminate H]
    | H : match ?m with Some _ => _ | None => None end = Some _ |- _ => destruct m; [|discriminate H]
    | H : Some _ = Some _ |- _ => inversion H; subst; clear H
    | H : forall n, Some _ = Some n -> _ |- _ => specialize (H _ eq_refl)
    end; cbn [length] in *; rewrite ?app_length; try lia.
  - eapply Nat.le_trans; [eassumption|]. now apply Nat.mul_le_mono_r.
  - now apply H.
  - match goal with E : maxlen r = Some ?k |- _ => pose proof (H _ E); pose proof (H0 _ E) end. cbn. lia.
Qed.

Definition bounded (k : nat) (r : re) : bool :=
  if no_end r then match maxlen r with Some n => n <=? k | None => false end else false.
Lemma prefix_cut : forall k r v, bounded k r = true -> matches_prefix r v <-> matches_prefix r (firstn k v).
Proof.
  intros k r v H. unfold bounded in H. destruct (no_end r) eqn:E; [|discriminate].
  destruct (maxlen r) as [n|] eqn:M; [|discriminate]. apply Nat.leb_le in H. split.
  - intros (t & a & -> & L). pose proof (proj1 maxlen_lang _ _ _ _ L _ M). exists t, (firstn (k - length t) a). split.
    + rewrite firstn_app, firstn_all2 by lia. reflexivity.
    + now apply (proj1 no_end_lang) with (a := a).
  - intros (t & a & Ev & L). exists t, (a ++ skipn k v). split.
    + rewrite app_assoc, <- Ev. symmetry. apply firstn_skipn.
    + now apply (proj1 no_end_lang) with (a := a).
Qed.

(** ** Alternatives *)
Definition void : re := RCls (CRange 1 0).
Lemma void_none : forall v, ~ matches_prefix void v.
Proof.
  intros v (t & a & _ & L). inversion L as [|c x b a' H| | | | | | |]; subst. cbn in H. unfold in_range in H.
  apply andb_true_iff in H as [H1 H2]. apply N.leb_le in H1, H2. lia.
Qed.
Definition alts (l : list re) : re := fold_right RAlt void l.
Lemma alts_iff : forall l v, matches_prefix (alts l) v <-> exists r, In r l /\ matches_prefix r v.
Proof.
  intros l v. induction l as [|r l IH]; cbn [alts fold_right].
  - split; [intros H; now apply void_none in H|intros (r & [] & _)].
  - fold (alts l). split.
    + intros (t & a & E & L). inversion L; subst.
      * exists r. split; [now left|]. exists t, a. auto.
      * destruct (proj1 IH) as (r' & I & M); [exists t, a; auto|]. exists r'. split; [now right|exact M].
    + intros (r' & [<-|I] & (t & a & E & L)).
      * exists t, a. split; [exact E|]. now apply L_alt1.
      * destruct (proj2 IH) as (t' & a' & E' & L'); [exists r'; split; [exact I|exists t, a; auto]|].
        exists t', a'. split; [exact E'|]. now apply L_alt2.
Qed.

(** ** An entry claims digits *)
(** the descriptor admits the length [k] *)
Definition admits (k : N) (d : descriptor) : bool :=
  match d_possible_length d with [] => true | l => memN k l end.
Definition at_len (k : N) (d : descriptor) : re := if admits k d then re_ast (d_national_number d) else void.
Definition opt_at (k : N) (o : option descriptor) : list re :=
  match o with Some d => if admits k d then [re_ast (d_national_number d)] else [] | None => [] end.
Definition types_at (k : N) (m : metadata) : list re := flat_map (fun p => opt_at k (snd p)) (type_order (md_descriptors m)).
(** the patterns that have to match digits of length [k] claimed by [m] *)
Definition claim_res (k : N) (m : metadata) : list re :=
  match md_leading_digits m with
  | Some r => [re_ast r]
  | None => [at_len k (ds_general (md_descriptors m)); alts (types_at k m)]
  end.
Definition all_match (rs : list re) (v : str) : Prop := Forall (fun r => matches_prefix r v) rs.

(** what validator.rs:165-170 computes *)
Definition hit (v : str) (m : metadata) : bool :=
  match md_leading_digits m with
  | Some pattern => found_at_start (re_find pattern v)
  | None => negb (ptype_eqb (number_type m v) TUnknown)
  end.

Lemma at_len_iff : forall k d v, matches_prefix (at_len k d) v <-> admits k d = true /\ matches_prefix (re_ast (d_national_number d)) v.
Proof.
  intros k d v. unfold at_len. destruct (admits k d); [intuition|].
  split; [intros H; now apply void_none in H|intros [H _]; discriminate].
Qed.
Lemma is_match_iff : forall d v, d_is_match d v = true <-> matches_prefix (at_len (as_u16 (blen v)) d) v.
Proof.
  intros d v. rewrite at_len_iff. unfold d_is_match, admits. rewrite <- found_at_start_spec.
  destruct (d_possible_length d) as [|x l]; [intuition|]. destruct (memN _ _); cbn [negb]; intuition discriminate.
Qed.
Lemma types_at_iff : forall k m v, (exists r, In r (types_at k m) /\ matches_prefix r v) <->
  exists t d, In (t, Some d) (type_order (md_descriptors m)) /\ matches_prefix (at_len k d) v.
Proof.
  intros k m v. unfold types_at. split.
  - intros (r & I & M). apply in_flat_map in I as ([t [d|]] & I & Ir); cbn [snd opt_at] in Ir; [|destruct Ir].
    exists t, d. split; [exact I|]. apply at_len_iff. destruct (admits k d); [|destruct Ir]. destruct Ir as [<-|[]]. auto.
  - intros (t & d & I & M). apply at_len_iff in M as [A M]. exists (re_ast (d_national_number d)). split; [|exact M].
    apply in_flat_map. exists (t, Some d). split; [exact I|]. cbn [snd opt_at]. rewrite A. now left.
Qed.

Lemma number_type_known : forall m v, negb (ptype_eqb (number_type m v) TUnknown) = true <->
  d_is_match (ds_general (md_descriptors m)) v = true /\
  exists t o, In (t, o) (type_order (md_descriptors m)) /\ od_is_match o v = true.
Proof.
  intros m v. unfold number_type. cbv zeta. destruct (d_is_match (ds_general (md_descriptors m)) v) eqn:G; cbn [negb].
  2: { split; [discriminate|]. intros [H _]. discriminate. }
  set (ds := md_descriptors m). split.
  - intros H. split; [reflexivity|].
    repeat match goal with
    | H : negb (ptype_eqb (if od_is_match ?o v then _ else _) TUnknown) = true |- _ =>
        let E := fresh in destruct (od_is_match o v) eqn:E;
        [eexists _, o; split; [|exact E]; cbn [type_order In]; intuition reflexivity|]
    end; try discriminate H.
    all: eexists _, _; split; [|eassumption]; cbn [type_order In]; auto 20.
  - intros [_ (t & o & I & M)]. cbn [type_order In] in I.
    repeat match goal with |- context [if ?b then _ else _] => destruct b eqn:? end; try reflexivity.
    all: repeat (destruct I as [I|I]; [inversion I; subst; congruence|]); destruct I.
Qed.

Lemma claim_res_iff : forall k m v, all_match (claim_res k m) v <->
  match md_leading_digits m with
  | Some r => matches_prefix (re_ast r) v
  | None => matches_prefix (at_len k (ds_general (md_descriptors m))) v /\
            exists t d, In (t, Some d) (type_order (md_descriptors m)) /\ matches_prefix (at_len k d) v
  end.
Proof.
  intros k m v. unfold claim_res, all_match. destruct (md_leading_digits m) as [r|].
  - split; [intros H; now inversion H|]. intros H. constructor; [exact H|constructor].
  - rewrite <- types_at_iff, <- alts_iff. split.
    + intros H. inversion H as [|x l H1 H2]; subst. inversion H2; subst. auto.
    + intros [H1 H2]. constructor; [exact H1|]. constructor; [exact H2|constructor].
Qed.
Lemma hit_iff : forall v m, hit v m = true <-> all_match (claim_res (as_u16 (blen v)) m) v.
Proof.
  intros v m. rewrite claim_res_iff. unfold hit. destruct (md_leading_digits m) as [r|]; [apply found_at_start_spec|].
  rewrite number_type_known, is_match_iff. apply and_iff_compat_l. split.
  - intros (t & [d|] & I & M); [|discriminate]. exists t, d. split; [exact I|]. now apply is_match_iff.
  - intros (t & d & I & M). exists t, (Some d). split; [exact I|]. now apply is_match_iff.
Qed.
Lemma claims_res : forall m v, claims m v <-> all_match (claim_res (N.of_nat (length v)) m) v.
Proof.
  intros m v. rewrite claim_res_iff. unfold claims. destruct (md_leading_digits m) as [r|]; [reflexivity|].
  unfold known_type.
  assert (A : forall d, fits d v <-> matches_prefix (at_len (N.of_nat (length v)) d) v).
  { intros d. rewrite at_len_iff. unfold fits, admits. destruct (d_possible_length d) as [|x l]; [intuition|].
    rewrite <- memN_in. intuition discriminate. }
  rewrite A. apply and_iff_compat_l. unfold fits_opt. split.
  - intros (t & o & I & d & -> & F). exists t, d. split; [exact I|]. now apply A.
  - intros (t & d & I & F). exists t, (Some d). split; [exact I|]. exists d. split; [reflexivity|]. now apply A.
Qed.

(** ** Short entries: all that matters are the first 17 digits and a length up to 17 *)
Definition short_desc (d : descriptor) : bool :=
  if bounded 17 (re_ast (d_national_number d)) then forallb (fun k => N.leb k 17) (d_possible_length d) else false.
Definition short (m : metadata) : bool :=
  match md_leading_digits m with
  | Some r => bounded 17 (re_ast r)
  | None => if short_desc (ds_general (md_descriptors m))
            then forallb (fun p => match snd p with Some d => short_desc d | None => true end) (type_order (md_descriptors m))
            else false
  end.
Lemma admits_min : forall k d, forallb (fun k => N.leb k 17) (d_possible_length d) = true -> admits (N.min k 18) d = admits k d.
Proof.
  intros k d H. unfold admits. destruct (d_possible_length d) as [|x l]; [reflexivity|].
  remember (x :: l) as l' eqn:E. clear E. induction l' as [|y l' IH]; [reflexivity|]. cbn [forallb] in H.
  apply andb_true_iff in H as [H1 H2]. apply N.leb_le in H1. cbn [memN]. rewrite IH by exact H2.
  destruct (N.eqb_spec (N.min k 18) y), (N.eqb_spec k y); try reflexivity; lia.
Qed.
Lemma short_desc_cut : forall k d v, short_desc d = true ->
  matches_prefix (at_len k d) v <-> matches_prefix (at_len (N.min k 18) d) (firstn 17 v).
Proof.
  intros k d v H. unfold short_desc in H. destruct (bounded 17 _) eqn:B; [|discriminate].
  rewrite !at_len_iff, (admits_min k d H), (prefix_cut 17 _ v B). reflexivity.
Qed.
Lemma short_cut : forall k m v, short m = true ->
  all_match (claim_res k m) v <-> all_match (claim_res (N.min k 18) m) (firstn 17 v).
Proof.
  intros k m v H. rewrite !claim_res_iff. unfold short in H. destruct (md_leading_digits m) as [r|]; [now apply prefix_cut|].
  destruct (short_desc _) eqn:G; [|discriminate]. rewrite forallb_forall in H.
  rewrite (short_desc_cut k _ v G). apply and_iff_compat_l.
  split; intros (t & d & I & M); exists t, d; (split; [exact I|]); apply H in I; cbn [snd] in I; now apply (short_desc_cut k d v I).
Qed.

(** the lengths to look at *)
Definition grid : list (nat * N) :=
  map (fun n => (n, N.of_nat n)) (seq 0 17) ++ map (fun k => (17, N.of_nat k)) (seq 0 19).
Lemma grid_in : forall k (v : str), (length v < 17 -> k = N.of_nat (length v)) -> In (length (firstn 17 v), N.min k 18) grid.
Proof.
  intros k v H. unfold grid. apply in_app_iff. rewrite firstn_length. destruct (le_lt_dec 17 (length v)) as [L|L].
  - right. rewrite Nat.min_l by lia. apply in_map_iff. exists (N.to_nat (N.min k 18)). rewrite N2Nat.id. split; [reflexivity|].
    apply in_seq. lia.
  - left. rewrite Nat.min_r by lia. apply in_map_iff. exists (length v). rewrite (H L). split; [f_equal; lia|apply in_seq; lia].
Qed.

(** no digits that both claim *)
Definition apart_at (a b : metadata) (p : nat * N) : bool :=
  apartn ascii_digits (fst p) true [starts (fst p) (claim_res (snd p) a ++ claim_res (snd p) b)].
Definition never_both (a b : metadata) : bool := forallb (apart_at a b) grid.
Lemma digits_cut : forall n v, digits v = true -> digits (firstn n v) = true.
Proof. intros. now apply digits_firstn. Qed.
Theorem never_both_sound : forall a b k v, short a = true -> short b = true -> never_both a b = true ->
  digits v = true -> (length v < 17 -> k = N.of_nat (length v)) ->
  all_match (claim_res k a) v -> all_match (claim_res k b) v -> False.
Proof.
  intros a b k v Sa Sb H Dv Hk A B. apply (short_cut _ _ _ Sa) in A. apply (short_cut _ _ _ Sb) in B.
  unfold never_both in H. rewrite forallb_forall in H. specialize (H _ (grid_in k v Hk)). unfold apart_at in H. cbn [fst snd] in H.
  set (w := firstn 17 v) in *. assert (Dw : digits w = true) by now apply digits_cut.
  refine (apartn_sound ascii_digits w [] _ _ (in_ascii w Dw) H (or_introl eq_refl) _).
  unfold starts. rewrite Forall_map. apply Forall_app. split;
    (eapply Forall_impl; [|eassumption]); cbn beta; intros r Hr; now apply start_leads.
Qed.

(** whatever both [a] and [b] claim, [c] claims or one of the patterns [e] matches, and conversely *)
Definition all_true (v : list bool) : bool := forallb (fun x => x) v.
Definition combo_at (P : bool -> bool -> bool -> bool -> bool) (a b c : metadata) (e : re) (p : nat * N) : bool :=
  let k := snd p in
  let na := length (claim_res k a) in let nb := length (claim_res k b) in let nc := length (claim_res k c) in
  combos ascii_digits (fst p)
    (fun v => P (all_true (firstn na v)) (all_true (firstn nb (skipn na v)))
                (all_true (firstn nc (skipn nb (skipn na v)))) (all_true (skipn nc (skipn nb (skipn na v)))))
    REps (claim_res k a ++ claim_res k b ++ claim_res k c ++ [e]).
Lemma all_true_match : forall v rs w, Forall2 (fun t r => t = true <-> matches_prefix r w) v rs ->
  all_true v = true <-> all_match rs w.
Proof.
  unfold all_true, all_match. induction 1 as [|t r v rs H F IH]; cbn [forallb]; [split; auto; constructor|].
  rewrite andb_true_iff, H, IH. split; [intros [? ?]; now constructor|]. intros K. inversion K. auto.
Qed.
Lemma Forall2_cut : forall A B (R : A -> B -> Prop) v x y, Forall2 R v (x ++ y) ->
  Forall2 R (firstn (length x) v) x /\ Forall2 R (skipn (length x) v) y.
Proof.
  intros A B R v x. revert v. induction x as [|a x IH]; intros v y H; cbn [app length firstn skipn].
  - split; [constructor|exact H].
  - inversion H as [|a' b' v' l' H1 H2]; subst. destruct (IH _ _ H2). split; [now constructor|assumption].
Qed.
Theorem combo_at_sound : forall P a b c e k w, digits w = true -> combo_at P a b c e (length w, k) = true ->
  exists x y z t, P x y z t = true /\ (x = true <-> all_match (claim_res k a) w) /\
    (y = true <-> all_match (claim_res k b) w) /\ (z = true <-> all_match (claim_res k c) w) /\
    (t = true <-> matches_prefix e w).
Proof.
  intros P a b c e k w Dw H. unfold combo_at in H. cbn [fst snd] in H.
  assert (E0 : matches_prefix REps w) by (exists [], w; split; [reflexivity|constructor]).
  destruct (combos_sound ascii_digits _ REps _ w (in_ascii w Dw) H E0) as (v & Hv & F).
  apply Forall2_cut in F as [Fa F]. apply Forall2_cut in F as [Fb F]. apply Forall2_cut in F as [Fc Fe].
  eexists _, _, _, _. split; [exact Hv|]. split; [now apply all_true_match|]. split; [now apply all_true_match|].
  split; [now apply all_true_match|]. rewrite (all_true_match _ _ _ Fe). unfold all_match.
  split; [intros K; now inversion K|]. intros K. constructor; [exact K|constructor].
Qed.
