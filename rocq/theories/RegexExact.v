(** * RegexExact: which of several patterns match

    The states of [RegexDeriv] are exact: a state leads to a match if and only
    if the text has one.  [allv] computes, for the texts of a given length over a
    given alphabet that a first pattern matches, every combination of further
    patterns that match too. *)
From Verif Require Import Base Unicode Regex RegexLang RegexFacts StrFacts RegexDeriv RegexMany ParserFacts CoreFacts DialFacts.

(** ** The converse of [nul_sound] and [pd_sound] *)
Lemma langs_empty : forall r b a n, lang r b [] a -> langs r n b [] a.
Proof.
  intros r b a n L. induction n as [|n IH]; [constructor|].
  change (@nil char) with (@nil char ++ []). constructor; [exact L|]. now rewrite app_nil_r.
Qed.
Lemma nul_complete : forall r b a, nul (at_nil b) (at_nil a) r = true -> lang r b [] a.
Proof.
  induction r; intros b a H; cbn [nul] in H; try discriminate.
  - constructor.
  - destruct (nul _ _ r1) eqn:E; [|discriminate]. change (@nil char) with (@nil char ++ []). constructor; [now apply IHr1|].
    rewrite app_nil_r. now apply IHr2.
  - destruct (nul _ _ r1) eqn:E; [apply L_alt1|apply L_alt2]; auto.
  - destruct min as [|k].
    + apply (L_rep _ _ _ _ 0); [lia|destruct max; [lia|exact I]|constructor].
    + apply (L_rep _ _ _ _ (S k)); [lia|destruct max; [lia|exact I]|]. apply langs_empty. now apply IHr.
  - constructor. now apply IHr.
  - destruct b; [constructor|discriminate].
  - destruct a; [constructor|discriminate].
Qed.

Lemma cat_inv : forall x y b t a, lang (cat x y) b t a -> lang (RCat x y) b t a.
Proof.
  intros x y b t a H. destruct x; try exact H. cbn [cat] in H. change t with ([] ++ t). constructor; [constructor|].
  now rewrite app_nil_r.
Qed.
Lemma rep_inv : forall g mn mx r b t a, lang (rep g mn mx r) b t a -> lang (RRep g mn mx r) b t a.
Proof.
  intros g mn mx r b t a H. unfold rep in H. destruct mx as [k|]; [|exact H].
  destruct (Nat.eqb_spec (Nat.max mn k) 0); [|exact H]. inversion H; subst.
  apply (L_rep _ _ _ _ 0); [lia|lia|constructor].
Qed.
Lemma pd_complete : forall r b c t a r', In r' (pd (at_nil b) c r) -> lang r' (b ++ [c]) t a -> lang r b (c :: t) a.
Proof.
  induction r; intros b c0 t a r' I L; cbn [pd] in I; try (now elim I).
  - destruct (in_cls c c0) eqn:E; [|easy]. destruct I as [<-|[]]. inversion L; subst. now constructor.
  - apply in_app_iff in I as [I|I].
    + apply in_map_iff in I as (x & <- & I). apply cat_inv in L. inversion L as [| |r3 r4 b' t1 t2 a' H1 H2| | | | | |]; subst.
      change (c0 :: t1 ++ t2) with ((c0 :: t1) ++ t2). constructor; [now apply IHr1 with x|].
      now rewrite <- app_assoc in H2.
    + destruct (nul _ _ r1) eqn:E; [|easy]. change (c0 :: t) with ([] ++ c0 :: t). constructor.
      * apply nul_complete. exact E.
      * rewrite app_nil_r. now apply IHr2 with r'.
  - apply in_app_iff in I as [I|I]; [apply L_alt1|apply L_alt2]; eauto.
  - destruct (match max with Some k => Nat.eqb (Nat.max min k) 0 | None => false end) eqn:Hz; [easy|].
    apply in_map_iff in I as (x & <- & I). apply cat_inv in L. inversion L as [| |r3 r4 b' t1 t2 a' H1 H2| | | | | |]; subst.
    apply rep_inv in H2. inversion H2 as [| | | | |g' mn' mx' r'' n b' t' a' N1 N2 H3| | |]; subst. clear L H2.
    assert (L1 : lang r b (c0 :: t1) (t2 ++ a)) by (now apply IHr with x). clear IHr H1.
    assert (L2 : langs r (S n) b ((c0 :: t1) ++ t2) a).
    { constructor; [exact L1|]. now rewrite <- app_assoc in H3. }
    change (c0 :: t1 ++ t2) with ((c0 :: t1) ++ t2).
    apply (L_rep _ _ _ _ ((min - S n) + S n)).
    + lia.
    + destruct max as [k|]; [|easy]. apply Nat.eqb_neq in Hz. destruct (nul (at_nil b) false r); lia.
    + destruct (nul (at_nil b) false r) eqn:E.
      * change ((c0 :: t1) ++ t2) with ([] ++ (c0 :: t1) ++ t2). apply langs_app; [|now rewrite app_nil_r].
        apply langs_empty. apply nul_complete. exact E.
      * replace (min - S n + S n) with (S n) by lia. exact L2.
  - constructor. now apply IHr with r'.
Qed.

(** ** States are exact *)
Lemma dedup_inv : forall l acc x, In x (dedup l acc) -> In x l \/ In x acc.
Proof.
  induction l as [|y l IH]; cbn [dedup]; intros acc x H; [now right|].
  destruct (re_mem y acc); apply IH in H as [H|H]; auto; [left; now right|left; now right|].
  destruct H as [<-|H]; [left; now left|now right].
Qed.
Lemma pds_complete : forall b c l r' t a, In r' (pds (at_nil b) c l) -> lang r' (b ++ [c]) t a ->
  exists r, In r l /\ lang r b (c :: t) a.
Proof.
  intros b c l r' t a I L. unfold pds in I. apply dedup_inv in I as [I|[]]. apply in_flat_map in I as (r & I & J).
  exists r. split; [exact I|]. now apply pd_complete with r'.
Qed.
Lemma at_nil_snoc : forall b (c : char), at_nil (b ++ [c]) = false.
Proof. now intros [|x b] c. Qed.
Lemma step_exact : forall x b c w, leads (st_step (at_nil b) (at_nil w) c x) (b ++ [c]) w -> leads x b (c :: w).
Proof.
  intros [l|] b c w H; [|exact I]. cbn [st_step] in H. unfold settle in H.
  destruct (nuls false (at_nil w) (pds (at_nil b) c l)) eqn:E.
  - apply existsb_exists in E as (r' & I & N). rewrite <- (at_nil_snoc b c) in N. apply nul_complete in N.
    destruct (pds_complete b c l r' [] w I N) as (r & J & L). exists r, [c], w. split; [exact J|]. easy.
  - destruct H as (r' & t & a & I & E' & Ht & L). destruct (pds_complete b c l r' t a I L) as (r & J & L').
    exists r, (c :: t), a. split; [exact J|]. split; [now rewrite E'|]. easy.
Qed.
Lemma step_iff : forall x b c w, leads (st_step (at_nil b) (at_nil w) c x) (b ++ [c]) w <-> leads x b (c :: w).
Proof. split; [apply step_exact|apply step_leads]. Qed.
Lemma start_exact : forall r e, leads (start_st r (length e)) [] e -> matches_prefix r e.
Proof.
  intros r e H. unfold start_st, settle in H. assert (El : Nat.eqb (length e) 0 = at_nil e) by (destruct e; easy).
  rewrite El in H. destruct (nuls true (at_nil e) [r]) eqn:N.
  - cbn in N. rewrite orb_false_r in N. exists [], e. split; [reflexivity|]. now apply nul_complete.
  - destruct H as (r' & t & a & [<-|[]] & E & _ & L). exists t, a. auto.
Qed.
Lemma start_iff : forall r e, leads (start_st r (length e)) [] e <-> matches_prefix r e.
Proof. split; [apply start_exact|apply start_leads]. Qed.

(** ** All the combinations *)
Definition done (x : st) : bool := match x with None => true | Some _ => false end.
Lemma done_leads : forall x b, done x = true <-> leads x b [].
Proof.
  intros [l|] b; cbn; split; try easy. intros (r & t & a & _ & E & Ht & _). symmetry in E. apply app_eq_nil in E. now elim Ht.
Qed.
Fixpoint succsv (s e : bool) (sigma : list char) (l : list st) (acc : list (list st)) : list (list st) :=
  match sigma with
  | [] => acc
  | c :: sigma' =>
      match l with
      | [] => acc
      | x :: l' =>
          let x' := st_step s e c x in
          if st_dead x' then succsv s e sigma' l acc
          else let k := x' :: map (st_step s e c) l' in
               if lmem k acc then succsv s e sigma' l acc else succsv s e sigma' l (k :: acc)
      end
  end.
Lemma succsv_in : forall s e x l sigma acc,
  (forall p, In p acc -> In p (succsv s e sigma (x :: l) acc)) /\
  (forall c, In c sigma -> st_dead (st_step s e c x) = false ->
     In (map (st_step s e c) (x :: l)) (succsv s e sigma (x :: l) acc)).
Proof.
  intros s e x l. induction sigma as [|c sigma IH]; intros acc; cbn [succsv]; [now split|].
  destruct (st_dead (st_step s e c x)) eqn:Ed.
  - split; [apply IH|]. intros d [<-|I] H; [congruence|]. now apply IH.
  - change (st_step s e c x :: map (st_step s e c) l) with (map (st_step s e c) (x :: l)).
    destruct (lmem (map (st_step s e c) (x :: l)) acc) eqn:Em.
    + split; [apply IH|]. intros d [<-|I] H; [|now apply IH]. apply (proj1 (IH acc)). now apply lmem_in.
    + split; [intros p I; apply IH; now right|]. intros d [<-|I] H; [|now apply IH]. apply (proj1 (IH _)). now left.
Qed.
Fixpoint layerv (s e : bool) (sigma : list char) (ls acc : list (list st)) : list (list st) :=
  match ls with [] => acc | l :: ls' => layerv s e sigma ls' (succsv s e sigma l acc) end.
Lemma layerv_acc : forall s e sigma ls acc p, In p acc -> In p (layerv s e sigma ls acc).
Proof.
  induction ls as [|[|x l] ls IH]; intros acc p H; cbn [layerv]; [easy| |]; apply IH.
  - destruct sigma; exact H.
  - now apply succsv_in.
Qed.
Lemma layerv_in : forall s e sigma ls acc x l c, In (x :: l) ls -> In c sigma -> st_dead (st_step s e c x) = false ->
  In (map (st_step s e c) (x :: l)) (layerv s e sigma ls acc).
Proof.
  induction ls as [|y ls IH]; intros acc x l c Il Ic H; [easy|]. cbn [layerv]. destruct Il as [->|Il].
  - apply layerv_acc. now apply succsv_in.
  - now apply IH.
Qed.
Fixpoint allv (sigma : list char) (n : nat) (s : bool) (P : list bool -> bool) (ls : list (list st)) : bool :=
  match n with
  | O => forallb (fun l => match map done l with true :: v => P v | _ => true end) ls
  | S n' => allv sigma n' false P (layerv s (Nat.eqb n' 0) sigma ls [])
  end.
Theorem allv_sound : forall sigma P w b ls x l, (forall c, In c w -> In c sigma) ->
  allv sigma (length w) (at_nil b) P ls = true -> In (x :: l) ls -> leads x b w ->
  exists v, P v = true /\ Forall2 (fun t x => t = true <-> leads x b w) v l.
Proof.
  intros sigma P. induction w as [|c w IH]; intros b ls x l Hw H Il Hx; cbn [allv length] in H.
  - rewrite forallb_forall in H. apply H in Il. cbn [map] in Il. apply done_leads in Hx. rewrite Hx in Il.
    exists (map done l). split; [exact Il|]. clear. induction l as [|y l IH]; cbn [map]; constructor; [apply done_leads|exact IH].
  - assert (Ew : Nat.eqb (length w) 0 = at_nil w) by (destruct w; easy). rewrite Ew in H.
    apply step_leads in Hx. pose proof (leads_not_dead _ _ _ Hx) as D.
    rewrite <- (at_nil_snoc b c) in H.
    destruct (IH (b ++ [c]) _ (st_step (at_nil b) (at_nil w) c x) (map (st_step (at_nil b) (at_nil w) c) l)
                (fun d I => Hw d (or_intror I)) H) as (v & Hv & HF).
    + apply (layerv_in (at_nil b) (at_nil w) sigma ls [] x l c); auto. apply Hw. now left.
    + exact Hx.
    + exists v. split; [exact Hv|]. clear - HF. revert l HF.
      induction v as [|t v IH]; intros [|y l] HF; cbn [map] in HF; inversion HF; subst; constructor.
      * rewrite <- step_iff. assumption.
      * now apply IH.
Qed.

(** Which of the patterns [rs] match at the start of the digits, [P] says that this
    combination is a good one. *)
Definition combos (sigma : list char) (n : nat) (P : list bool -> bool) (a : re) (rs : list re) : bool :=
  allv sigma n true P [start_st a n :: starts n rs].
Theorem combos_sound : forall sigma P a rs e, (forall c, In c e -> In c sigma) ->
  combos sigma (length e) P a rs = true -> matches_prefix a e ->
  exists v, P v = true /\ Forall2 (fun t r => t = true <-> matches_prefix r e) v rs.
Proof.
  intros sigma P a rs e He H Ha. unfold combos in H. apply start_iff in Ha.
  destruct (allv_sound sigma P e [] _ _ _ He H (or_introl eq_refl) Ha) as (v & Hv & HF).
  exists v. split; [exact Hv|]. clear - HF. revert rs HF. unfold starts.
  induction v as [|t v IH]; intros [|r rs] HF; cbn [map] in HF; inversion HF; subst; constructor.
  - rewrite <- start_iff. assumption.
  - now apply IH.
Qed.

(** ** Patterns whose first match is the longest *)
(** at most one way to match *)
Fixpoint det (r : re) : bool :=
  match r with
  | REps | RCls _ | RStart | REnd => true
  | RCat a b => if det a then det b else false
  | RGrp _ r => det r
  | RRep _ mn (Some k) r => if Nat.leb k mn then det r else false
  | RRep _ _ None _ | RAlt _ _ => false
  end.
(** the length of every match *)
Fixpoint flen (r : re) : option nat :=
  match r with
  | REps | RStart | REnd => Some 0
  | RCls _ => Some 1
  | RCat a b => match flen a, flen b with Some i, Some j => Some (i + j) | _, _ => None end
  | RGrp _ r => flen r
  | RRep _ mn (Some k) r => if Nat.leb k mn then option_map (Nat.mul mn) (flen r) else None
  | RRep _ _ None _ => None
  | RAlt a b => match flen a, flen b with Some i, Some j => if Nat.eqb i j then Some i else None | _, _ => None end
  end.
Fixpoint longest (r : re) : bool :=
  if det r then true
  else match r with
       | RCat a b => if det a then longest b
                     else if longest a then if det b then is_some (flen b) else false else false
       | RGrp _ r => longest r
       | RRep true _ _ r => det r
       | _ => false
       end.
Lemma flen_sound :
  (forall r b t a, lang r b t a -> forall k, flen r = Some k -> length t = k) /\
  (forall r n b t a, langs r n b t a -> forall k, flen r = Some k -> length t = n * k).
Proof.
  apply lang_langs_ind; cbn [flen]; intros.
  - now inversion H.
  - now inversion H.
  - destruct (flen r1) as [i|]; [|discriminate]. destruct (flen r2) as [j|]; [|discriminate]. inversion H1; subst.
    rewrite app_length, (H i), (H0 j); auto.
  - destruct (flen r1) as [i|]; [|discriminate]. destruct (flen r2) as [j|]; [|discriminate].
    destruct (Nat.eqb_spec i j); [|discriminate]. inversion H0; subst. auto.
  - destruct (flen r1) as [i|]; [|discriminate]. destruct (flen r2) as [j|]; [|discriminate].
    destruct (Nat.eqb_spec i j); [|discriminate]. inversion H0; subst. auto.
  - destruct mx as [m|]; [|discriminate]. destruct (Nat.leb_spec m mn); [|discriminate].
    destruct (flen r) as [i|]; [|discriminate]. inversion H0; subst. rewrite (H i eq_refl). f_equal. lia.
  - auto.
  - now inversion H.
  - now inversion H.
  - reflexivity.
  - rewrite app_length, (H k), (H0 k) by assumption. cbn [Nat.mul]. lia.
Qed.
Definition one (l : list mst) : Prop := length l <= 1.
Fixpoint best (l : list mst) : Prop :=
  match l with [] => True | x :: l' => Forall (fun y => length (m_rest x) <= length (m_rest y)) l' /\ best l' end.
Lemma one_best : forall l, one l -> best l.
Proof. intros [|x [|y l]] H; unfold one in H; cbn in *; auto; lia. Qed.
Lemma best_app : forall l k, best l -> best k -> (forall x y, In x l -> In y k -> length (m_rest x) <= length (m_rest y)) -> best (l ++ k).
Proof.
  induction l as [|x l IH]; intros k Hl Hk H; cbn [app]; [exact Hk|]. destruct Hl as [H1 H2]. split.
  - apply Forall_app. split; [exact H1|]. apply Forall_forall. intros y I. apply H; [now left|exact I].
  - apply IH; auto. intros y z I J. apply H; [now right|exact J].
Qed.
Lemma one_flat : forall (f : mst -> list mst) (P : list mst -> Prop) l, P [] -> one l -> (forall x, In x l -> P (f x)) -> P (flat_map f l).
Proof.
  intros f P [|x [|y l]] H0 H1 H2; cbn [flat_map]; [exact H0| |unfold one in H1; cbn in H1; lia].
  rewrite app_nil_r. apply H2. now left.
Qed.
Lemma one_nil : one [].
Proof. unfold one. cbn. lia. Qed.
Lemma copies_one : forall f n s, (forall s, one (f s)) -> one (copies f n s).
Proof.
  intros f n. induction n as [|n IH]; intros s H; cbn [copies]; [unfold one; cbn; lia|].
  apply one_flat; [exact one_nil|apply H|]. auto.
Qed.
Lemma det_one : forall r s, det r = true -> one (ms r s).
Proof.
  induction r; intros s H; cbn [det ms] in *; try discriminate.
  - unfold one. cbn. lia.
  - unfold one. destruct (step_cls c s); cbn; lia.
  - destruct (det r1) eqn:E; [|discriminate]. apply one_flat; auto. exact one_nil.
  - destruct max as [k|]; [|discriminate]. destruct (Nat.leb_spec k min); [|discriminate].
    apply one_flat; [exact one_nil|apply copies_one; auto|]. intros x _. replace (k - min) with 0 by lia. unfold one. cbn. lia.
  - unfold one. rewrite map_length. now apply IHr.
  - unfold one. destruct (Nat.eqb _ 0); cbn; lia.
  - unfold one. destruct (m_rest s); cbn; lia.
Qed.
Lemma ms_rest : forall r s s', In s' (ms r s) -> length (m_rest s') <= length (m_rest s).
Proof.
  intros r s s' H. assert (E : exists b, m_pos s = blen b).
  { exists (repeat 48%N (m_pos s)). induction (m_pos s) as [|n IH]; [reflexivity|]. cbn [repeat blen].
    change (utf8_len 48%N) with 1. lia. }
  destruct E as (b & Eb). destruct (ms_sound r s s' b H Eb) as (t & [R _] & _). rewrite R, app_length. lia.
Qed.
Lemma flen_rest : forall r s s' k, flen r = Some k -> In s' (ms r s) -> length (m_rest s) = k + length (m_rest s').
Proof.
  intros r s s' k Hk H. assert (E : exists b, m_pos s = blen b).
  { exists (repeat 48%N (m_pos s)). induction (m_pos s) as [|n IH]; [reflexivity|]. cbn [repeat blen].
    change (utf8_len 48%N) with 1. lia. }
  destruct E as (b & Eb). destruct (ms_sound r s s' b H Eb) as (t & [R _] & L).
  apply (proj1 flen_sound) with (k := k) in L; [|exact Hk]. rewrite R, app_length. lia.
Qed.
Lemma best_flat : forall r k l, det r = true -> flen r = Some k -> best l -> best (flat_map (ms r) l).
Proof.
  intros r k l Hd Hk. induction l as [|x l IH]; intros H; cbn [flat_map]; [exact I|]. destruct H as [H1 H2].
  apply best_app; [apply one_best; now apply det_one|auto|].
  intros y z Iy Iz. apply in_flat_map in Iz as (x' & Ix & Iz). rewrite Forall_forall in H1. apply H1 in Ix.
  pose proof (flen_rest r x y k Hk Iy). pose proof (flen_rest r x' z k Hk Iz). lia.
Qed.
Lemma best_map : forall (f : mst -> mst) l, (forall x, m_rest (f x) = m_rest x) -> best l -> best (map f l).
Proof.
  intros f l H. induction l as [|x l IH]; intros Hl; [exact I|]. destruct Hl as [H1 H2]. cbn [map best]. split; [|auto].
  rewrite Forall_map. rewrite Forall_forall in *. intros y Hy. rewrite !H. auto.
Qed.
Lemma upto_best : forall r st n s, det r = true ->
  best (upto (ms r) true st n s) /\ Forall (fun y => length (m_rest y) <= length (m_rest s)) (upto (ms r) true st n s).
Proof.
  intros r st n. induction n as [|n IH]; intros s Hd; cbn [upto]; [split; [repeat constructor|constructor; [lia|constructor]]|].
  set (nx := if st then filter (progress s) (ms r s) else ms r s).
  assert (Hone : one nx).
  { pose proof (det_one r s Hd) as O. subst nx. destruct st; [|exact O]. destruct (ms r s) as [|x [|y l]]; cbn [filter].
    - exact O.
    - unfold one. destruct (progress s x); cbn; lia.
    - unfold one in O. cbn in O. lia. }
  assert (Hin : forall x, In x nx -> length (m_rest x) <= length (m_rest s)).
  { intros x I. apply (ms_rest r). subst nx. destruct st; [now apply filter_In in I|exact I]. }
  assert (Hmore : best (flat_map (upto (ms r) true st n) nx)
     /\ Forall (fun y => length (m_rest y) <= length (m_rest s)) (flat_map (upto (ms r) true st n) nx)).
  { split.
    - apply one_flat; [exact I|exact Hone|]. intros x _. now apply IH.
    - apply one_flat; [constructor|exact Hone|]. intros x Ix. apply Hin in Ix. destruct (IH x Hd) as [_ F].
      eapply Forall_impl; [|exact F]. cbn. intros a Ha. lia. }
  destruct Hmore as [M1 M2]. split.
  - apply best_app; [exact M1|repeat constructor|]. intros x y Ix [<-|[]]. rewrite Forall_forall in M2. auto.
  - apply Forall_app. split; [exact M2|]. constructor; [lia|constructor].
Qed.
Lemma longest_best : forall r s, longest r = true -> best (ms r s).
Proof.
  induction r; intros s H; cbn [longest] in H;
    match type of H with context [if det ?x then _ else _] =>
      destruct (det x) eqn:Hd; [apply one_best; now apply det_one|] end; try discriminate; cbn [ms].
  - destruct (det r1) eqn:E; [apply one_flat; [exact I|now apply det_one|auto]|].
    destruct (longest r1) eqn:E1; [|discriminate]. destruct (det r2) eqn:E2; [|discriminate].
    destruct (flen r2) as [k|] eqn:Ek; [|discriminate]. apply best_flat with k; auto.
  - destruct greedy; [|discriminate]. apply one_flat; [exact I|apply copies_one; intros; now apply det_one|].
    intros x _. destruct max; now apply upto_best.
  - apply best_map; [reflexivity|]. now apply IHr.
Qed.
(** if such a pattern matches the whole text, this is the match that is found *)
Theorem longest_whole : forall r w, longest (re_ast r) = true -> lang (re_ast r) [] w [] ->
  exists m, re_find r w = Some m /\ mr_pre m = [] /\ mr_post m = [].
Proof.
  intros r w Hl L. destruct (re_find_at_start r w) as (m & Em & Hp).
  { exists w, []. split; [now rewrite app_nil_r|exact L]. }
  exists m. split; [exact Em|]. split; [exact Hp|].
  pose proof Em as Em'. unfold re_find in Em'. destruct w as [|c w].
  { pose proof (re_find_some _ _ _ Em) as (F & _). rewrite Hp in F. cbn [app] in F. symmetry in F.
    now apply app_eq_nil in F as [_ F]. }
  cbn [find_at] in Em'. change 0 with (blen []) in Em'.
  destruct (match_at (re_ast r) (blen []) (c :: w)) as [st|] eqn:Ea.
  2:{ exfalso. apply match_at_none in Ea. apply Ea. exists (c :: w), []. split; [now rewrite app_nil_r|exact L]. }
  rewrite match_at_hd in Ea. pose proof (longest_best (re_ast r) (mk_mst (blen []) (c :: w) []) Hl) as B.
  destruct (ms_complete _ _ _ _ L (mk_mst (blen []) (c :: w) [])) as (s' & I & R & _); [reflexivity|cbn [m_rest]; now rewrite app_nil_r|].
  destruct (ms (re_ast r) _) as [|x l]; [easy|]. cbn [hd_error] in Ea. inversion Ea; subst x. clear Ea.
  assert (Hz : m_rest st = []).
  { destruct I as [->|I]; [exact R|]. cbn [best] in B. destruct B as [B _]. rewrite Forall_forall in B. apply B in I. rewrite R in I.
    destruct (m_rest st); [reflexivity|cbn in I; lia]. }
  inversion Em'; subst m. exact Hz.
Qed.
