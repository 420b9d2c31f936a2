(** * RegexCaps: what the captured groups of a match are *)
From Verif Require Import Base Unicode Regex RegexLang StrFacts RegexFacts.

(** The groups of an expression, with their bodies. *)
Fixpoint grps (r : re) : list (nat * re) :=
  match r with
  | REps | RCls _ | RStart | REnd => []
  | RCat a b | RAlt a b => grps a ++ grps b
  | RRep _ _ _ r => grps r
  | RGrp i r => (i, r) :: grps r
  end.

(** A capture is the text of a match of its group, inside the text [t] matched
    by the whole expression between [b] and [a]. *)
Definition cap_ok (r : re) (b t a : str) (p : nat * cap) : Prop :=
  exists r' x y, In (fst p, r') (grps r) /\ t = x ++ cap_text (snd p) ++ y /\
    lang r' (b ++ x) (cap_text (snd p)) (y ++ a).

Lemma cap_ok_left : forall r r0 b t1 t2 a p, incl (grps r) (grps r0) ->
  cap_ok r b t1 (t2 ++ a) p -> cap_ok r0 b (t1 ++ t2) a p.
Proof.
  intros r r0 b t1 t2 a p I (r' & x & y & H1 & -> & H3). exists r', x, (y ++ t2).
  split; [auto|]. split; [now rewrite <- !app_assoc|]. now rewrite <- app_assoc.
Qed.
Lemma cap_ok_right : forall r r0 b t1 t2 a p, incl (grps r) (grps r0) ->
  cap_ok r (b ++ t1) t2 a p -> cap_ok r0 b (t1 ++ t2) a p.
Proof.
  intros r r0 b t1 t2 a p I (r' & x & y & H1 & -> & H3). exists r', (t1 ++ x), y.
  split; [auto|]. split; [now rewrite <- !app_assoc|]. now rewrite app_assoc.
Qed.
Lemma cap_ok_incl : forall r r0 b t a p, incl (grps r) (grps r0) ->
  cap_ok r b t a p -> cap_ok r0 b t a p.
Proof. intros r r0 b t a p I (r' & x & y & H1 & H). exists r', x, y. auto. Qed.

(** run from [s] to [s'] with new captures [news] *)
Definition crun (r : re) (b : str) (s s' : mst) (t : str) (news : list (nat * cap)) : Prop :=
  reach b s s' t /\ m_caps s' = news ++ m_caps s /\ Forall (cap_ok r b t (m_rest s')) news.

Lemma crun_refl : forall r b s, m_pos s = blen b -> crun r b s s [] [].
Proof. intros. split; [now apply reach_refl|]. split; [easy|constructor]. Qed.

Lemma crun_trans : forall r1 r2 r b s s1 s2 t1 t2 n1 n2,
  incl (grps r1) (grps r) -> incl (grps r2) (grps r) ->
  crun r1 b s s1 t1 n1 -> crun r2 (b ++ t1) s1 s2 t2 n2 -> crun r b s s2 (t1 ++ t2) (n2 ++ n1).
Proof.
  intros r1 r2 r b s s1 s2 t1 t2 n1 n2 I1 I2 (R1 & E1 & F1) (R2 & E2 & F2).
  split; [eapply reach_trans; eauto|]. split; [now rewrite E2, E1, app_assoc|].
  apply Forall_app. split.
  - eapply Forall_impl; [|exact F2]. intros p. now apply cap_ok_right.
  - destruct R2 as [R2 _]. rewrite R2 in F1.
    eapply Forall_impl; [|exact F1]. intros p. now apply cap_ok_left.
Qed.

Section caps_reps.
  Variable r : re.
  Hypothesis IH : forall s s' b, In s' (ms r s) -> m_pos s = blen b ->
    exists t news, crun r b s s' t news.
  Lemma copies_caps : forall n s s' b, In s' (copies (ms r) n s) -> m_pos s = blen b ->
    exists t news, crun r b s s' t news.
  Proof.
    induction n; intros s s' b H Hp; cbn in H.
    - destruct H as [<-|[]]. exists [], []. now apply crun_refl.
    - apply in_flat_map in H as (s1 & H1 & H2).
      destruct (IH _ _ _ H1 Hp) as (t1 & n1 & R1).
      destruct (IHn _ _ _ H2 (proj2 (proj1 R1))) as (t2 & n2 & R2).
      exists (t1 ++ t2), (n2 ++ n1). eapply crun_trans; eauto using incl_refl.
  Qed.
  Lemma upto_caps : forall g st n s s' b, In s' (upto (ms r) g st n s) -> m_pos s = blen b ->
    exists t news, crun r b s s' t news.
  Proof.
    induction n; intros s s' b H Hp; cbn in H.
    - destruct H as [<-|[]]. exists [], []. now apply crun_refl.
    - assert (H' : s' = s \/ In s' (flat_map (upto (ms r) g st n)
                    (if st then filter (progress s) (ms r s) else ms r s))).
      { destruct g; [apply in_app_iff in H; cbn in H|cbn in H]; intuition auto. }
      clear H. destruct H' as [->|H].
      + exists [], []. now apply crun_refl.
      + apply in_flat_map in H as (s1 & H1 & H2).
        assert (H1' : In s1 (ms r s)). { destruct st; [now apply filter_In in H1|easy]. }
        destruct (IH _ _ _ H1' Hp) as (t1 & n1 & R1).
        destruct (IHn _ _ _ H2 (proj2 (proj1 R1))) as (t2 & n2 & R2).
        exists (t1 ++ t2), (n2 ++ n1). eapply crun_trans; eauto using incl_refl.
  Qed.
End caps_reps.

Lemma ms_caps : forall r s s' b, In s' (ms r s) -> m_pos s = blen b ->
  exists t news, crun r b s s' t news.
Proof.
  induction r; intros s s' b H Hp; cbn [ms] in H.
  - destruct H as [<-|[]]. exists [], []. now apply crun_refl.
  - pose proof (ms_sound (RCls c) s s' b H Hp) as (t & R & _).
    exists t, []. split; [easy|]. split; [|constructor].
    unfold step_cls in H. destruct (m_rest s); [easy|]. destruct (in_cls c c0); [|easy].
    destruct H as [<-|[]]. easy.
  - apply in_flat_map in H as (s1 & H1 & H2).
    destruct (IHr1 _ _ _ H1 Hp) as (t1 & n1 & R1).
    destruct (IHr2 _ _ _ H2 (proj2 (proj1 R1))) as (t2 & n2 & R2).
    exists (t1 ++ t2), (n2 ++ n1). eapply crun_trans; [| |eauto..]; cbn.
    + apply incl_appl, incl_refl. + apply incl_appr, incl_refl.
  - apply in_app_iff in H as [H|H].
    + destruct (IHr1 _ _ _ H Hp) as (t & n & R1 & E & F). exists t, n. repeat split; auto; try apply R1.
      eapply Forall_impl; [|exact F]. intros p. apply cap_ok_incl. cbn. apply incl_appl, incl_refl.
    + destruct (IHr2 _ _ _ H Hp) as (t & n & R1 & E & F). exists t, n. repeat split; auto; try apply R1.
      eapply Forall_impl; [|exact F]. intros p. apply cap_ok_incl. cbn. apply incl_appr, incl_refl.
  - apply in_flat_map in H as (s1 & H1 & H2).
    destruct (copies_caps r IHr _ _ _ _ H1 Hp) as (t1 & n1 & R1).
    assert (H3 : exists t2 n2, crun r (b ++ t1) s1 s' t2 n2).
    { destruct max; eapply upto_caps; eauto; apply R1. }
    destruct H3 as (t2 & n2 & R2).
    exists (t1 ++ t2), (n2 ++ n1). eapply crun_trans; [| |eauto..]; apply incl_refl.
  - apply in_map_iff in H as (s1 & <- & H1).
    destruct (IHr _ _ _ H1 Hp) as (t & n & R & E & F).
    exists t, ((i, mk_cap (m_pos s) (m_pos s1) (consumed s s1)) :: n).
    split; [exact R|]. split; [cbn; now rewrite E|]. constructor.
    + destruct (ms_sound _ _ _ _ H1 Hp) as (t' & R' & L).
      assert (t' = t). { rewrite <- (consumed_reach _ _ _ _ R'). eapply consumed_reach; eauto. }
      subst t'. exists r, [], []. cbn. rewrite (consumed_reach _ _ _ _ R), !app_nil_r. auto.
    + eapply Forall_impl; [|exact F]. intros p. apply cap_ok_incl. cbn. apply incl_tl, incl_refl.
  - destruct (_ =? _); [|easy]. destruct H as [<-|[]]. exists [], []. now apply crun_refl.
  - destruct (m_rest s); [|easy]. destruct H as [<-|[]]. exists [], []. now apply crun_refl.
Qed.

(** ** Captures of [find] *)
Lemma cap_lookup_in : forall i l c, cap_lookup i l = Some c -> In (i, c) l.
Proof.
  induction l as [|[j c'] l IH]; cbn; intros c H; [easy|].
  destruct (Nat.eqb_spec i j); [inversion H; subst; auto|auto].
Qed.

Theorem re_find_cap : forall r s m i c, re_find r s = Some m -> cap_get m (S i) = Some c ->
  cap_ok (re_ast r) (mr_pre m) (mr_text m) (mr_post m) (S i, c).
Proof.
  intros r s m i c H Hc. unfold re_find in H.
  apply (find_at_some _ s []) in H as (sk & H1 & H2 & H3 & (st & Hst & Hr & Hcaps) & H5).
  cbn in Hc. apply cap_lookup_in in Hc. rewrite <- Hcaps in Hc.
  assert (I : In st (ms (re_ast r) (mk_mst (blen (mr_pre m)) (mr_text m ++ mr_post m) [])))
    by (destruct (ms _ _); [discriminate|inversion Hst; now left]).
  destruct (ms_caps _ _ _ (mr_pre m) I eq_refl) as (t & n & R & E & F).
  cbn in E. rewrite app_nil_r in E. rewrite E in Hc.
  rewrite Forall_forall in F. specialize (F _ Hc).
  destruct R as [R _]. cbn in R. rewrite Hr in *. apply app_inv_tail in R. now subst t.
Qed.

(** ** Which groups take part *)
Definition has (i : nat) (l : list (nat * cap)) : bool := existsb (fun p => Nat.eqb i (fst p)) l.
Lemma has_app : forall i a b, has i (a ++ b) = (has i a || has i b)%bool.
Proof. intros; apply existsb_app. Qed.
Lemma cap_lookup_has : forall i l, is_some (cap_lookup i l) = has i l.
Proof.
  induction l as [|[j c] l IH]; cbn; [easy|]. destruct (Nat.eqb i j); [easy|]. exact IH.
Qed.

(** [i] takes part in every match *)
Fixpoint always (i : nat) (r : re) : bool :=
  match r with
  | REps | RCls _ | RStart | REnd => false
  | RCat a b => if always i a then true else always i b
  | RAlt a b => if always i a then always i b else false
  | RRep _ mn _ r => if 1 <=? mn then always i r else false
  | RGrp j r => if Nat.eqb i j then true else always i r
  end.
(** [j] takes part in no match *)
Fixpoint never (j : nat) (r : re) : bool :=
  match r with
  | REps | RCls _ | RStart | REnd => true
  | RCat a b | RAlt a b => if never j a then never j b else false
  | RRep _ _ _ r => never j r
  | RGrp i r => if Nat.eqb j i then false else never j r
  end.
(** when [j] takes part so does [i] *)
Fixpoint implies (j i : nat) (r : re) : bool :=
  if never j r then true else if always i r then true else
  match r with
  | REps | RCls _ | RStart | REnd => true
  | RCat a b | RAlt a b => if implies j i a then implies j i b else false
  | RRep _ _ _ r => implies j i r
  | RGrp k r => if Nat.eqb j k then false else implies j i r
  end.

(** A property of the sets of new captures that holds of nothing captured and
    is closed under sequencing holds of repetitions. *)
Section reps_prop.
  Variable f : mst -> list mst.
  Variable P : list (nat * cap) -> Prop.
  Hypothesis P0 : P [].
  Hypothesis Papp : forall a b, P a -> P b -> P (a ++ b).
  Hypothesis IH : forall s s', In s' (f s) -> exists n, m_caps s' = n ++ m_caps s /\ P n.
  Lemma copies_prop : forall k s s', In s' (copies f k s) -> exists n, m_caps s' = n ++ m_caps s /\ P n.
  Proof.
    induction k; intros s s' H; cbn in H.
    - destruct H as [<-|[]]. now exists [].
    - apply in_flat_map in H as (s1 & H1 & H2). apply IH in H1 as (n1 & E1 & Q1).
      apply IHk in H2 as (n2 & E2 & Q2). exists (n2 ++ n1). split; [|auto].
      now rewrite E2, E1, app_assoc.
  Qed.
  Lemma upto_prop : forall g st k s s', In s' (upto f g st k s) -> exists n, m_caps s' = n ++ m_caps s /\ P n.
  Proof.
    induction k; intros s s' H; cbn in H.
    - destruct H as [<-|[]]. now exists [].
    - assert (H' : s' = s \/ In s' (flat_map (upto f g st k)
                    (if st then filter (progress s) (f s) else f s))).
      { destruct g; [apply in_app_iff in H; cbn in H|cbn in H]; intuition auto. }
      clear H. destruct H' as [->|H]; [now exists []|].
      apply in_flat_map in H as (s1 & H1 & H2).
      assert (H1' : In s1 (f s)). { destruct st; [now apply filter_In in H1|easy]. }
      apply IH in H1' as (n1 & E1 & Q1).
      apply IHk in H2 as (n2 & E2 & Q2). exists (n2 ++ n1). split; [|auto].
      now rewrite E2, E1, app_assoc.
  Qed.
End reps_prop.

Lemma rep_prop : forall P : list (nat * cap) -> Prop, P [] -> (forall a b, P a -> P b -> P (a ++ b)) ->
  forall r, (forall s s', In s' (ms r s) -> exists n, m_caps s' = n ++ m_caps s /\ P n) ->
  forall g mn mx s s', In s' (ms (RRep g mn mx r) s) -> exists n, m_caps s' = n ++ m_caps s /\ P n.
Proof.
  intros P P0 Papp r IH g mn mx s s' H. cbn [ms] in H.
  apply in_flat_map in H as (s1 & H1 & H2).
  apply (copies_prop _ P P0 Papp IH) in H1 as (n1 & E1 & Q1).
  assert (H3 : exists n2, m_caps s' = n2 ++ m_caps s1 /\ P n2).
  { destruct mx; eapply (upto_prop _ P P0 Papp IH); eauto. }
  destruct H3 as (n2 & E2 & Q2). exists (n2 ++ n1). split; [|auto].
  now rewrite E2, E1, app_assoc.
Qed.

Lemma never_sound : forall j r s s', never j r = true -> In s' (ms r s) ->
  exists n, m_caps s' = n ++ m_caps s /\ has j n = false.
Proof.
  intros j r. induction r; intros s s' Hn H; cbn [never] in Hn.
  - destruct H as [<-|[]]. now exists [].
  - cbn [ms] in H. unfold step_cls in H. destruct (m_rest s); [easy|].
    destruct (in_cls c c0); [|easy]. destruct H as [<-|[]]. now exists [].
  - destruct (never j r1) eqn:E1, (never j r2) eqn:E2; try discriminate.
    cbn [ms] in H. apply in_flat_map in H as (s1 & H1 & H2).
    apply IHr1 in H1 as (n1 & F1 & Q1); [|easy]. apply IHr2 in H2 as (n2 & F2 & Q2); [|easy].
    exists (n2 ++ n1). rewrite has_app, Q1, Q2, F2, F1, app_assoc. easy.
  - destruct (never j r1) eqn:E1, (never j r2) eqn:E2; try discriminate.
    cbn [ms] in H. apply in_app_iff in H as [H|H]; auto.
  - eapply (rep_prop (fun n => has j n = false)) in H; eauto.
    intros a b Ha Hb. now rewrite has_app, Ha, Hb.
  - destruct (Nat.eqb_spec j i); [discriminate|].
    cbn [ms] in H. apply in_map_iff in H as (s1 & <- & H1).
    apply IHr in H1 as (n1 & F1 & Q1); [|easy].
    eexists (_ :: n1). cbn. rewrite F1. split; [reflexivity|]. cbn.
    destruct (Nat.eqb_spec j i); [easy|]. exact Q1.
  - cbn [ms] in H. destruct (_ =? _); [|easy]. destruct H as [<-|[]]. now exists [].
  - cbn [ms] in H. destruct (m_rest s); [|easy]. destruct H as [<-|[]]. now exists [].
Qed.

Lemma caps_grow : forall r s s', In s' (ms r s) -> exists n, m_caps s' = n ++ m_caps s.
Proof.
  intros r. induction r; intros s s' H.
  - destruct H as [<-|[]]. now exists [].
  - cbn [ms] in H. unfold step_cls in H. destruct (m_rest s); [easy|].
    destruct (in_cls c c0); [|easy]. destruct H as [<-|[]]. now exists [].
  - cbn [ms] in H. apply in_flat_map in H as (s1 & H1 & H2).
    apply IHr1 in H1 as (n1 & F1). apply IHr2 in H2 as (n2 & F2).
    exists (n2 ++ n1). now rewrite F2, F1, app_assoc.
  - cbn [ms] in H. apply in_app_iff in H as [H|H]; auto.
  - assert (H' : exists n, m_caps s' = n ++ m_caps s /\ True).
    { eapply (rep_prop (fun _ => True)) in H; eauto.
      intros x x' Hx. destruct (IHr _ _ Hx) as (n & E). eauto. }
    destruct H' as (n & E & _). eauto.
  - cbn [ms] in H. apply in_map_iff in H as (s1 & <- & H1).
    apply IHr in H1 as (n1 & F1). eexists (_ :: n1). cbn. rewrite F1. reflexivity.
  - cbn [ms] in H. destruct (_ =? _); [|easy]. destruct H as [<-|[]]. now exists [].
  - cbn [ms] in H. destruct (m_rest s); [|easy]. destruct H as [<-|[]]. now exists [].
Qed.

Lemma always_sound : forall i r s s', always i r = true -> In s' (ms r s) ->
  exists n, m_caps s' = n ++ m_caps s /\ has i n = true.
Proof.
  intros i r. induction r; intros s s' Hn H; cbn [always] in Hn; try discriminate.
  - cbn [ms] in H. apply in_flat_map in H as (s1 & H1 & H2).
    destruct (always i r1) eqn:E1.
    + apply IHr1 in H1 as (n1 & F1 & Q1); [|easy]. apply caps_grow in H2 as (n2 & F2).
      exists (n2 ++ n1). rewrite has_app, Q1, F2, F1, app_assoc, orb_true_r. easy.
    + apply caps_grow in H1 as (n1 & F1). apply IHr2 in H2 as (n2 & F2 & Q2); [|easy].
      exists (n2 ++ n1). rewrite has_app, Q2, F2, F1, app_assoc. easy.
  - destruct (always i r1) eqn:E1, (always i r2) eqn:E2; try discriminate.
    cbn [ms] in H. apply in_app_iff in H as [H|H]; auto.
  - destruct (Nat.leb_spec 1 min); [|discriminate]. destruct min; [lia|].
    cbn [ms] in H. apply in_flat_map in H as (s1 & H1 & H2). cbn [copies] in H1.
    apply in_flat_map in H1 as (s0 & Hs0 & H1). apply IHr in Hs0 as (n0 & F0 & Q0); [|easy].
    assert (IHg : forall s s', In s' (ms r s) -> exists n, m_caps s' = n ++ m_caps s /\ True).
    { intros x x' Hx. destruct (caps_grow _ _ _ Hx) as (n & E). eauto. }
    apply (copies_prop _ (fun _ => True)) in H1 as (n1 & F1 & _); auto.
    assert (H3 : exists n2, m_caps s' = n2 ++ m_caps s1 /\ True).
    { destruct max; eapply (upto_prop _ (fun _ => True)); eauto. }
    destruct H3 as (n2 & F2 & _). exists (n2 ++ n1 ++ n0).
    rewrite !has_app, Q0, F2, F1, F0, !app_assoc, !orb_true_r. easy.
  - cbn [ms] in H. apply in_map_iff in H as (s1 & <- & H1).
    destruct (Nat.eqb_spec i i0).
    + apply caps_grow in H1 as (n1 & F1). eexists (_ :: n1). cbn. rewrite F1.
      split; [reflexivity|]. cbn. subst. now rewrite Nat.eqb_refl.
    + apply IHr in H1 as (n1 & F1 & Q1); [|easy].
      eexists (_ :: n1). cbn. rewrite F1. split; [reflexivity|]. cbn.
      destruct (Nat.eqb_spec i i0); easy.
Qed.

Lemma implies_sound : forall j i r s s', implies j i r = true -> In s' (ms r s) ->
  exists n, m_caps s' = n ++ m_caps s /\ (has j n = true -> has i n = true).
Proof.
  intros j i r. induction r; intros s s' Hn H.
  all: match type of H with In _ (ms ?q _) =>
         destruct (never j q) eqn:En;
         [destruct (never_sound _ _ _ _ En H) as (n & E & Q); exists n; split; [easy|congruence]|];
         destruct (always i q) eqn:Ea;
         [destruct (always_sound _ _ _ _ Ea H) as (n & E & Q); exists n; split; easy|]
       end.
  all: cbn [implies] in Hn; rewrite ?En, ?Ea in Hn.
  all: try discriminate.
  - destruct (implies j i r1) eqn:E1, (implies j i r2) eqn:E2; try discriminate.
    cbn [ms] in H. apply in_flat_map in H as (s1 & H1 & H2).
    apply IHr1 in H1 as (n1 & F1 & Q1); [|easy]. apply IHr2 in H2 as (n2 & F2 & Q2); [|easy].
    exists (n2 ++ n1). rewrite !has_app, F2, F1, app_assoc. split; [easy|].
    intros Hh. apply orb_true_iff in Hh as [Hh|Hh]; apply orb_true_iff; auto.
  - destruct (implies j i r1) eqn:E1, (implies j i r2) eqn:E2; try discriminate.
    cbn [ms] in H. apply in_app_iff in H as [H|H]; auto.
  - eapply (rep_prop (fun n => has j n = true -> has i n = true)) in H; eauto.
    intros a b Ha Hb. rewrite !has_app. intros Hh. apply orb_true_iff in Hh as [Hh|Hh]; apply orb_true_iff; auto.
  - destruct (Nat.eqb_spec j i0); [discriminate|].
    cbn [ms] in H. apply in_map_iff in H as (s1 & <- & H1).
    apply IHr in H1 as (n1 & F1 & Q1); [|easy].
    eexists (_ :: n1). cbn. rewrite F1. split; [reflexivity|].
    unfold has. cbn [existsb fst]. rewrite (proj2 (Nat.eqb_neq _ _) n). cbn [orb]. intros Hh.
    apply orb_true_iff. right. exact (Q1 Hh).
Qed.

(** The result of [find] as a run of the matcher from an empty capture list. *)
Lemma re_find_run : forall r s m, re_find r s = Some m ->
  exists st, In st (ms (re_ast r) (mk_mst (blen (mr_pre m)) (mr_text m ++ mr_post m) []))
    /\ m_rest st = mr_post m /\ m_caps st = mr_caps m.
Proof.
  intros r s m H. unfold re_find in H.
  apply (find_at_some _ s []) in H as (sk & H1 & H2 & H3 & (st & Hst & Hr & Hcaps) & H5).
  exists st. split; [|easy]. destruct (ms _ _); [discriminate|inversion Hst; now left].
Qed.

Lemma re_find_implies : forall r s m i j, implies j i (re_ast r) = true ->
  re_find r s = Some m -> is_some (cap_lookup j (mr_caps m)) = true ->
  is_some (cap_lookup i (mr_caps m)) = true.
Proof.
  intros r s m i j Hi H Hj. apply re_find_run in H as (st & I & _ & Hc).
  destruct (implies_sound _ _ _ _ _ Hi I) as (n & E & Q). cbn in E. rewrite app_nil_r in E.
  rewrite cap_lookup_has in *. rewrite <- Hc, E in *. auto.
Qed.
