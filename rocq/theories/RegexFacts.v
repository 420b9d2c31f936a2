(** * RegexFacts: the matcher is sound and complete for [RegexLang.lang] *)
From Verif Require Import Base Unicode Regex RegexLang StrFacts.

(** ** Executable matcher = first of the declarative list *)
Fixpoint first_some {A B} (k : A -> option B) (l : list A) : option B :=
  match l with
  | [] => None
  | x :: l' => match k x with Some b => Some b | None => first_some k l' end
  end.

Lemma first_some_app : forall A B (k : A -> option B) l1 l2,
  first_some k (l1 ++ l2) = match first_some k l1 with Some b => Some b | None => first_some k l2 end.
Proof. induction l1; intros; cbn; [easy|]. destruct (k a); auto. Qed.
Lemma first_some_flat_map : forall A B C (k : B -> option C) (f : A -> list B) l,
  first_some k (flat_map f l) = first_some (fun x => first_some k (f x)) l.
Proof.
  induction l; cbn; [easy|]. rewrite first_some_app. destruct (first_some k (f a)); auto.
Qed.
Lemma first_some_map : forall A B C (k : B -> option C) (f : A -> B) l,
  first_some k (map f l) = first_some (fun x => k (f x)) l.
Proof. induction l; cbn; [easy|]. destruct (k (f a)); auto. Qed.
Lemma first_some_filter : forall A B (k : A -> option B) p l,
  first_some k (filter p l) = first_some (fun x => if p x then k x else None) l.
Proof. induction l; cbn; [easy|]. destruct (p a); cbn; [destruct (k a)|]; auto. Qed.
Lemma first_some_ext : forall A B (k k' : A -> option B) l,
  (forall x, k x = k' x) -> first_some k l = first_some k' l.
Proof. induction l; cbn; intros H; [easy|]. rewrite H. destruct (k' a); auto. Qed.

Section reps_eq.
  Variables (A : Type) (f : mst -> list mst) (g : (mst -> option A) -> mst -> option A).
  Hypothesis fg : forall k s, g k s = first_some k (f s).
  Lemma kcopies_copies : forall n k s, kcopies A g n k s = first_some k (copies f n s).
  Proof.
    induction n; intros; cbn; [destruct (k s); easy|].
    rewrite fg, first_some_flat_map. apply first_some_ext. intros; apply IHn.
  Qed.
  Lemma kupto_upto : forall gr st n k s, kupto A g gr st n k s = first_some k (upto f gr st n s).
  Proof.
    induction n; intros; cbn [kupto upto]; [cbn; destruct (k s); easy|].
    assert (E : g (fun s' => if st && negb (progress s s') then None else kupto A g gr st n k s') s
              = first_some k (flat_map (upto f gr st n) (if st then filter (progress s) (f s) else f s))).
    { rewrite fg, first_some_flat_map. destruct st; cbn [andb].
      - rewrite first_some_filter. apply first_some_ext. intros x. destruct (progress s x); cbn [negb]; [apply IHn|easy].
      - apply first_some_ext. intros; apply IHn. }
    rewrite E. destruct gr.
    - rewrite first_some_app. cbn. destruct (first_some k _); [easy|]. destruct (k s); easy.
    - cbn. destruct (k s); easy.
  Qed.
End reps_eq.

Lemma mk_ms : forall A r (k : mst -> option A) s, mk r k s = first_some k (ms r s).
Proof.
  intros A. induction r; intros k s; cbn [mk ms].
  - cbn. destruct (k s); easy.
  - destruct (step_cls c s); cbn; [|easy]. destruct (k m); easy.
  - rewrite IHr1, first_some_flat_map. apply first_some_ext. intros; apply IHr2.
  - rewrite IHr1, IHr2, first_some_app. easy.
  - rewrite (kcopies_copies A (ms r) (mk r) IHr), first_some_flat_map.
    apply first_some_ext. intros x. destruct max; apply (kupto_upto A (ms r) (mk r) IHr).
  - rewrite IHr, first_some_map. easy.
  - destruct (_ =? _); cbn; [|easy]. destruct (k s); easy.
  - destruct (m_rest s); cbn; [|easy]. destruct (k s); easy.
Qed.

Lemma match_at_hd : forall r pos s, match_at r pos s = hd_error (ms r (mk_mst pos s [])).
Proof.
  intros. unfold match_at. rewrite mk_ms. destruct (ms _ _); reflexivity.
Qed.

(** ** Soundness *)
(** [s'] is reached from [s] by consuming [t]; [b] is the text before [s]. *)
Definition reach (b : str) (s s' : mst) (t : str) : Prop :=
  m_rest s = t ++ m_rest s' /\ m_pos s' = blen (b ++ t).

Lemma reach_refl : forall b s, m_pos s = blen b -> reach b s s [].
Proof. intros; split; [easy|]. now rewrite app_nil_r. Qed.
Lemma reach_trans : forall b s s1 s2 t1 t2,
  reach b s s1 t1 -> reach (b ++ t1) s1 s2 t2 -> reach b s s2 (t1 ++ t2).
Proof.
  unfold reach. intros b s s1 s2 t1 t2 [H1 H2] [H3 H4]. split.
  - rewrite H1, H3. now rewrite app_assoc.
  - rewrite H4. now rewrite app_assoc.
Qed.

Lemma langs_app : forall r n m b t1 t2 a,
  langs r n b t1 (t2 ++ a) -> langs r m (b ++ t1) t2 a -> langs r (n + m) b (t1 ++ t2) a.
Proof.
  induction n; intros m b t1 t2 a H1 H2; inversion H1; subst; cbn [app plus].
  - now rewrite app_nil_r in H2.
  - rewrite <- app_assoc. constructor.
    + now rewrite <- app_assoc.
    + apply IHn; [easy|]. now rewrite <- app_assoc.
Qed.

Section sound_reps.
  Variable r : re.
  Hypothesis IH : forall s s' b, In s' (ms r s) -> m_pos s = blen b ->
    exists t, reach b s s' t /\ lang r b t (m_rest s').
  Lemma copies_sound : forall n s s' b, In s' (copies (ms r) n s) -> m_pos s = blen b ->
    exists t, reach b s s' t /\ langs r n b t (m_rest s').
  Proof.
    induction n; intros s s' b H Hp; cbn in H.
    - destruct H as [<-|[]]. exists []. split; [now apply reach_refl|constructor].
    - apply in_flat_map in H as (s1 & H1 & H2).
      destruct (IH _ _ _ H1 Hp) as (t1 & R1 & L1).
      destruct (IHn _ _ _ H2 (proj2 R1)) as (t2 & R2 & L2).
      exists (t1 ++ t2). split; [eapply reach_trans; eauto|].
      constructor; [|easy]. destruct R2 as [<- _]. easy.
  Qed.
  Lemma upto_sound : forall g st n s s' b, In s' (upto (ms r) g st n s) -> m_pos s = blen b ->
    exists t k, reach b s s' t /\ k <= n /\ langs r k b t (m_rest s').
  Proof.
    induction n; intros s s' b H Hp; cbn in H.
    - destruct H as [<-|[]]. exists [], 0. split; [now apply reach_refl|]. split; [lia|constructor].
    - assert (H' : s' = s \/ In s' (flat_map (upto (ms r) g st n)
                    (if st then filter (progress s) (ms r s) else ms r s))).
      { destruct g; [apply in_app_iff in H; cbn in H|cbn in H]; intuition auto. }
      clear H. destruct H' as [->|H].
      + exists [], 0. split; [now apply reach_refl|]. split; [lia|constructor].
      + apply in_flat_map in H as (s1 & H1 & H2).
        assert (H1' : In s1 (ms r s)). { destruct st; [now apply filter_In in H1|easy]. }
        destruct (IH _ _ _ H1' Hp) as (t1 & R1 & L1).
        destruct (IHn _ _ _ H2 (proj2 R1)) as (t2 & k & R2 & Hk & L2).
        exists (t1 ++ t2), (S k). split; [eapply reach_trans; eauto|]. split; [lia|].
        constructor; [|easy]. destruct R2 as [<- _]. easy.
  Qed.
End sound_reps.

Lemma ms_sound : forall r s s' b, In s' (ms r s) -> m_pos s = blen b ->
  exists t, reach b s s' t /\ lang r b t (m_rest s').
Proof.
  induction r; intros s s' b H Hp; cbn [ms] in H.
  - destruct H as [<-|[]]. exists []. split; [now apply reach_refl|constructor].
  - unfold step_cls in H. destruct (m_rest s) as [|x rest] eqn:E; [easy|].
    destruct (in_cls c x) eqn:Ec; [|easy]. destruct H as [<-|[]].
    exists [x]. split; [|now constructor]. split; cbn; [easy|].
    rewrite blen_app. cbn. rewrite Hp. lia.
  - apply in_flat_map in H as (s1 & H1 & H2).
    destruct (IHr1 _ _ _ H1 Hp) as (t1 & R1 & L1).
    destruct (IHr2 _ _ _ H2 (proj2 R1)) as (t2 & R2 & L2).
    exists (t1 ++ t2). split; [eapply reach_trans; eauto|].
    constructor; [|easy]. destruct R2 as [<- _]. easy.
  - apply in_app_iff in H as [H|H].
    + destruct (IHr1 _ _ _ H Hp) as (t & R & L). exists t. split; [easy|now apply L_alt1].
    + destruct (IHr2 _ _ _ H Hp) as (t & R & L). exists t. split; [easy|now apply L_alt2].
  - apply in_flat_map in H as (s1 & H1 & H2).
    destruct (copies_sound r IHr _ _ _ _ H1 Hp) as (t1 & R1 & L1).
    assert (H3 : exists t2 k, reach (b ++ t1) s1 s' t2 /\
              match max with Some m => min + k <= Nat.max min m | None => True end /\
              langs r k (b ++ t1) t2 (m_rest s')).
    { destruct max; destruct (upto_sound r IHr _ _ _ _ _ _ H2 (proj2 R1)) as (t2 & k & R2 & Hk & L2);
        exists t2, k; repeat split; try easy; try apply R2; lia. }
    destruct H3 as (t2 & k & R2 & Hk & L2).
    exists (t1 ++ t2). split; [eapply reach_trans; eauto|].
    apply L_rep with (n := min + k); [lia|easy|].
    apply langs_app; [|easy]. destruct R2 as [<- _]. easy.
  - apply in_map_iff in H as (s1 & <- & H1).
    destruct (IHr _ _ _ H1 Hp) as (t & R & L). exists t. split; [exact R|now constructor].
  - destruct (Nat.eqb_spec (m_pos s) 0); [|easy]. destruct H as [<-|[]].
    exists []. split; [now apply reach_refl|].
    assert (b = []) as -> by (apply blen_nil_iff; congruence). constructor.
  - destruct (m_rest s) eqn:E; [|easy]. destruct H as [<-|[]].
    exists []. split; [now apply reach_refl|]. rewrite E. constructor.
Qed.

(** ** Completeness *)
Definition hits (r : re) (b t a : str) : Prop :=
  forall s, m_pos s = blen b -> m_rest s = t ++ a ->
  exists s', In s' (ms r s) /\ m_rest s' = a /\ m_pos s' = blen (b ++ t).

(** a chain of [n] matches *)
Inductive chain (r : re) : nat -> str -> str -> str -> Prop :=
| C_0 : forall b a, chain r 0 b [] a
| C_S : forall n b t1 t2 a,
    hits r b t1 (t2 ++ a) -> chain r n (b ++ t1) t2 a -> chain r (S n) b (t1 ++ t2) a.

Lemma chain_copies : forall r n b t a, chain r n b t a ->
  forall s, m_pos s = blen b -> m_rest s = t ++ a ->
  exists s', In s' (copies (ms r) n s) /\ m_rest s' = a /\ m_pos s' = blen (b ++ t).
Proof.
  induction 1 as [b a|n b t1 t2 a H1 H2 IH]; intros s Hp Hr.
  - exists s. cbn. rewrite app_nil_r. cbn in Hr. auto.
  - rewrite <- app_assoc in Hr.
    destruct (H1 _ Hp Hr) as (s1 & I1 & E1 & P1).
    destruct (IH s1 P1 E1) as (s2 & I2 & E2 & P2).
    exists s2. cbn [copies]. split; [apply in_flat_map; eauto|]. split; [easy|].
    now rewrite app_assoc.
Qed.

Lemma chain_upto : forall r g n b t a, chain r n b t a -> forall m, n <= m ->
  forall s, m_pos s = blen b -> m_rest s = t ++ a ->
  exists s', In s' (upto (ms r) g false m s) /\ m_rest s' = a /\ m_pos s' = blen (b ++ t).
Proof.
  induction 1 as [b a|n b t1 t2 a H1 H2 IH]; intros m Hm s Hp Hr.
  - exists s. rewrite app_nil_r. cbn in Hr. split; [|auto].
    destruct m; cbn; [auto|]. destruct g; [apply in_app_iff; cbn|cbn]; auto.
  - destruct m; [lia|]. rewrite <- app_assoc in Hr.
    destruct (H1 _ Hp Hr) as (s1 & I1 & E1 & P1).
    destruct (IH m ltac:(lia) s1 P1 E1) as (s2 & I2 & E2 & P2).
    exists s2. split; [|split; [easy|now rewrite app_assoc]].
    cbn [upto].
    assert (In s2 (flat_map (upto (ms r) g false m) (ms r s))) by (apply in_flat_map; eauto).
    destruct g; [apply in_app_iff|right]; auto.
Qed.

Lemma chain_upto_strict : forall r g n b t a, chain r n b t a -> forall m, length t <= m ->
  forall s, m_pos s = blen b -> m_rest s = t ++ a ->
  exists s', In s' (upto (ms r) g true m s) /\ m_rest s' = a /\ m_pos s' = blen (b ++ t).
Proof.
  induction 1 as [b a|n b t1 t2 a H1 H2 IH]; intros m Hm s Hp Hr.
  - exists s. rewrite app_nil_r. cbn in Hr. split; [|auto].
    destruct m; cbn; [auto|]. destruct g; [apply in_app_iff; cbn|cbn]; auto.
  - destruct t1 as [|c t1].
    { rewrite app_nil_r in IH. cbn [app] in *. destruct (IH m Hm s Hp Hr) as (s2 & ?).
      exists s2. easy. }
    rewrite app_length in Hm. cbn [length] in Hm.
    destruct m; [lia|]. rewrite <- app_assoc in Hr.
    destruct (H1 _ Hp Hr) as (s1 & I1 & E1 & P1).
    destruct (IH m ltac:(lia) s1 P1 E1) as (s2 & I2 & E2 & P2).
    exists s2. split; [|split; [easy|now rewrite app_assoc]].
    cbn [upto].
    assert (In s2 (flat_map (upto (ms r) g true m) (filter (progress s) (ms r s)))).
    { apply in_flat_map. exists s1. split; [|easy]. apply filter_In. split; [easy|].
      unfold progress. rewrite E1, Hr. rewrite !app_length. cbn [length].
      apply Nat.ltb_lt. lia. }
    destruct g; [apply in_app_iff|right]; auto.
Qed.

Lemma chain_split : forall r m n b t a, chain r (n + m) b t a ->
  exists t1 t2, t = t1 ++ t2 /\ chain r n b t1 (t2 ++ a) /\ chain r m (b ++ t1) t2 a.
Proof.
  induction n; intros b t a H; cbn [plus] in H.
  - exists [], t. rewrite app_nil_r. repeat split; [constructor|easy].
  - inversion H as [|n' b' t1 t2 a' H1 H2]; subst.
    apply IHn in H2 as (u1 & u2 & -> & C1 & C2).
    exists (t1 ++ u1), u2. repeat split.
    + now rewrite app_assoc.
    + constructor; [now rewrite app_assoc|easy].
    + now rewrite app_assoc.
Qed.

Lemma ms_complete_both :
  (forall r b t a, lang r b t a -> hits r b t a) /\
  (forall r n b t a, langs r n b t a -> chain r n b t a).
Proof.
  apply lang_langs_ind; intros; try (intros s Hp Hr; cbn [ms]).
  - exists s. rewrite app_nil_r. cbn in *. auto.
  - unfold step_cls. rewrite Hr. cbn. rewrite e. eexists. split; [left; reflexivity|].
    cbn. split; [easy|]. rewrite blen_app. cbn. lia.
  - rewrite <- app_assoc in Hr.
    destruct (H s Hp Hr) as (s1 & I1 & E1 & P1).
    destruct (H0 s1 P1 E1) as (s2 & I2 & E2 & P2).
    exists s2. split; [apply in_flat_map; eauto|]. split; [easy|now rewrite app_assoc].
  - destruct (H s Hp Hr) as (s1 & I1 & E1). exists s1. split; [apply in_app_iff; auto|easy].
  - destruct (H s Hp Hr) as (s1 & I1 & E1). exists s1. split; [apply in_app_iff; auto|easy].
  - replace n with (mn + (n - mn)) in H by lia.
    apply chain_split in H as (t1 & t2 & -> & C1 & C2). rewrite <- app_assoc in Hr.
    destruct (chain_copies _ _ _ _ _ C1 s Hp Hr) as (s1 & I1 & E1 & P1).
    assert (H3 : exists s2, In s2 (match mx with
                          | None => upto (ms r) g true (length (m_rest s1)) s1
                          | Some k => upto (ms r) g false (k - mn) s1
                          end) /\ m_rest s2 = a /\ m_pos s2 = blen ((b ++ t1) ++ t2)).
    { destruct mx.
      - eapply chain_upto; eauto. cbv beta iota in *. lia.
      - eapply chain_upto_strict; eauto. rewrite E1, app_length. lia. }
    destruct H3 as (s2 & I2 & E2 & P2).
    exists s2. split; [apply in_flat_map; eauto|]. split; [easy|now rewrite app_assoc].
  - destruct (H s Hp Hr) as (s1 & I1 & E1 & P1). exists (close_grp i s s1).
    split; [now apply in_map|]. easy.
  - cbn in Hp. rewrite Hp. cbn. exists s. cbn in *. auto.
  - rewrite Hr. cbn. exists s. cbn in *. rewrite app_nil_r. auto.
  - constructor.
  - constructor; easy.
Qed.
Lemma ms_complete : forall r b t a, lang r b t a -> hits r b t a.
Proof. apply ms_complete_both. Qed.

(** ** [find] *)
Lemma consumed_reach : forall b s s' t, reach b s s' t -> consumed s s' = t.
Proof.
  intros b s s' t [H _]. unfold consumed. rewrite H, app_length.
  replace (_ + _ - _) with (length t) by lia. rewrite firstn_app, Nat.sub_diag, firstn_all, firstn_O.
  apply app_nil_r.
Qed.

Lemma match_at_none : forall r b s, match_at r (blen b) s = None <->
  ~ exists t a, s = t ++ a /\ lang r b t a.
Proof.
  intros. rewrite match_at_hd. split.
  - intros H (t & a & -> & L). destruct (ms_complete _ _ _ _ L (mk_mst (blen b) (t ++ a) []))
      as (s' & I & _); [easy..|]. destruct (ms _ _); [easy|discriminate].
  - intros H. destruct (ms _ _) eqn:E; [easy|]. exfalso. apply H.
    destruct (ms_sound r (mk_mst (blen b) s []) m b) as (t & [R _] & L); [rewrite E; now left|easy|].
    exists t, (m_rest m). easy.
Qed.

Lemma match_at_some : forall r b s st, match_at r (blen b) s = Some st ->
  exists t, s = t ++ m_rest st /\ consumed (mk_mst (blen b) s []) st = t /\ lang r b t (m_rest st)
            /\ In st (ms r (mk_mst (blen b) s [])).
Proof.
  intros r b s st H. rewrite match_at_hd in H.
  destruct (ms _ _) eqn:E; [discriminate|]. inversion H; subst.
  destruct (ms_sound r (mk_mst (blen b) s []) st b) as (t & R & L); [rewrite E; now left|easy|].
  exists t. split; [apply R|]. split; [eapply consumed_reach; eauto|]. split; [easy|now left].
Qed.

(** [b] is [rev pre], the text already skipped. *)
Lemma find_at_some : forall r s pre m, find_at r (blen (rev pre)) pre s = Some m ->
  exists sk, mr_pre m = rev pre ++ sk /\ s = sk ++ mr_text m ++ mr_post m /\
    lang r (mr_pre m) (mr_text m) (mr_post m) /\
    (exists st, hd_error (ms r (mk_mst (blen (mr_pre m)) (mr_text m ++ mr_post m) [])) = Some st
       /\ m_rest st = mr_post m /\ m_caps st = mr_caps m) /\
    (forall sk1 sk2, sk = sk1 ++ sk2 -> sk2 <> [] ->
       ~ exists t a, sk2 ++ mr_text m ++ mr_post m = t ++ a /\ lang r (rev pre ++ sk1) t a).
Proof.
  induction s as [|c s IH]; intros pre m H; cbn [find_at] in H.
  - destruct (match_at _ _ _) eqn:E; [|discriminate]. inversion H; subst; cbn [mr_pre mr_text mr_post mr_caps].
    pose proof E as Ehd. rewrite match_at_hd in Ehd.
    apply match_at_some in E as (t & Hs & -> & L & _).
    exists []. rewrite app_nil_r. cbn. repeat split; try easy.
    + rewrite <- Hs. exists m0. auto.
    + intros sk1 sk2 Hsk Hne. symmetry in Hsk. apply app_eq_nil in Hsk as [_ ->]. easy.
  - destruct (match_at r (blen (rev pre)) (c :: s)) eqn:E.
    + inversion H; subst; cbn [mr_pre mr_text mr_post mr_caps]. pose proof E as Ehd. rewrite match_at_hd in Ehd.
      apply match_at_some in E as (t & Hs & -> & L & _).
      exists []. rewrite app_nil_r. cbn. repeat split; try easy.
      * rewrite <- Hs. exists m0. auto.
      * intros sk1 sk2 Hsk Hne. symmetry in Hsk. apply app_eq_nil in Hsk as [_ ->]. easy.
    + replace (blen (rev pre) + utf8_len c) with (blen (rev (c :: pre))) in H
        by (cbn; rewrite blen_app; cbn; lia).
      apply IH in H as (sk & H1 & H2 & H3 & H4 & H5). exists (c :: sk).
      cbn [rev] in H1. rewrite <- app_assoc in H1. cbn [app] in H1.
      repeat split; auto.
      * cbn. congruence.
      * intros sk1 sk2 Hsk Hne. destruct sk1 as [|x sk1].
        { cbn in Hsk. subst sk2. rewrite app_nil_r. cbn [app].
          rewrite H2 in E. now apply match_at_none in E. }
        { cbn in Hsk. inversion Hsk; subst. specialize (H5 sk1 sk2 eq_refl Hne).
          cbn [rev] in H5. rewrite <- app_assoc in H5. exact H5. }
Qed.

Lemma find_at_none : forall r s pre, find_at r (blen (rev pre)) pre s = None ->
  forall sk t a, s = sk ++ t ++ a -> ~ lang r (rev pre ++ sk) t a.
Proof.
  induction s as [|c s IH]; intros pre H sk t a Hs L; cbn [find_at] in H.
  - destruct (match_at _ _ _) eqn:E; [discriminate|].
    symmetry in Hs. apply app_eq_nil in Hs as [-> Hs].
    apply match_at_none in E. apply E. rewrite app_nil_r in L. eauto.
  - destruct (match_at r (blen (rev pre)) (c :: s)) eqn:E; [discriminate|].
    apply match_at_none in E. destruct sk as [|x sk].
    + apply E. rewrite app_nil_r in L. cbn in Hs. eauto.
    + cbn in Hs. inversion Hs; subst x s.
      replace (blen (rev pre) + utf8_len c) with (blen (rev (c :: pre))) in H
        by (cbn; rewrite blen_app; cbn; lia).
      refine (IH _ H sk t a eq_refl _). cbn [rev]. now rewrite <- app_assoc.
Qed.

(** [find] returns the leftmost match ... *)
Theorem re_find_some : forall r s m, re_find r s = Some m ->
  s = mr_pre m ++ mr_text m ++ mr_post m /\
  lang (re_ast r) (mr_pre m) (mr_text m) (mr_post m) /\
  (forall b c b' t a, mr_pre m = b ++ c :: b' -> s = b ++ t ++ a -> ~ lang (re_ast r) b t a).
Proof.
  intros r s m H. unfold re_find in H. apply (find_at_some _ s []) in H as (sk & H1 & H2 & H3 & _ & H5).
  cbn in H1. subst sk. repeat split; auto. intros b c b' t a Hb Hs L.
  rewrite Hb in H5. apply (H5 b (c :: b') eq_refl); [easy|].
  exists t, a. split; [|easy].
  rewrite H2, Hb, <- !app_assoc in Hs. apply app_inv_head in Hs. exact Hs.
Qed.

(** ... and [None] exactly if there is none. *)
Theorem re_find_none : forall r s, re_find r s = None <-> ~ matches_somewhere (re_ast r) s.
Proof.
  intros r s. split.
  - intros H (b & t & a & -> & L).
    exact (find_at_none _ _ [] H b t a eq_refl L).
  - intros H. destruct (re_find r s) eqn:E; [|easy]. exfalso. apply H.
    apply re_find_some in E as (H1 & H2 & _). repeat eexists; eauto.
Qed.

Lemma re_is_match_spec : forall r s, re_is_match r s = true <-> matches_somewhere (re_ast r) s.
Proof.
  intros. unfold re_is_match. destruct (re_find r s) eqn:E; cbn; split; intros H; try easy.
  - apply re_find_some in E as (H1 & H2 & _). repeat eexists; eauto.
  - now apply re_find_none in E.
Qed.

(** a match at the start is found first *)
Lemma re_find_at_start : forall r s, matches_prefix (re_ast r) s ->
  exists m, re_find r s = Some m /\ mr_pre m = [].
Proof.
  intros r s (t & a & -> & L). destruct (re_find r (t ++ a)) eqn:E.
  - exists m. split; [easy|]. apply re_find_some in E as (_ & _ & H).
    destruct (mr_pre m) as [|c b']; [easy|]. exfalso. exact (H [] c b' t a eq_refl eq_refl L).
  - apply re_find_none in E. exfalso. apply E. exists [], t, a. easy.
Qed.
