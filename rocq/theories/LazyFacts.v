(** * LazyFacts: what every interleaving of threads over lazily filled statics does *)
From Verif Require Import Base Lazy.
From Coq Require Import Lia Eqdep_dec.

Section Facts.
  Context {cell : Type} (cell_dec : forall a b : cell, {a = b} + {a <> b}) {val : cell -> Type}.
  Context (init : forall k, prog cell val (option (val k))).
  Context {call : Type} {result : call -> Type}.
  Context (body : forall c, prog cell val (result c)) (crash : forall c, result c).
  (** What each static holds once filled. *)
  Context (cval : forall k, val k).

  (** Running code alone, with every static already filled. *)
  Fixpoint eval {A} (p : prog cell val A) : A :=
    match p with Ret a => a | Force k f => eval (f (cval k)) end.

  Lemma eval_bind {A B} (p : prog cell val A) (g : A -> prog cell val B) :
    eval (pbind p g) = eval (g (eval p)).
  Proof. induction p as [a|k f IH]; cbn; [reflexivity|apply IH]. Qed.

  Context (rank : cell -> nat) (weight : cell -> nat).
  Fixpoint below {A} (n : nat) (p : prog cell val A) : Prop :=
    match p with Ret _ => True | Force k f => rank k < n /\ below n (f (cval k)) end.
  Fixpoint cost {A} (p : prog cell val A) : nat :=
    match p with Ret _ => 0 | Force k f => weight k + cost (f (cval k)) end.

  Context (init_ok : forall k, eval (init k) = Some (cval k)).
  Context (init_below : forall k, below (rank k) (init k)).
  Context (init_cost : forall k, 2 + cost (init k) <= weight k).

  Notation set := (@set cell cell_dec val).
  Notation step := (step cell cell_dec val init).
  Notation pstep := (pstep cell cell_dec val init call result body crash).
  Notation run := (run cell cell_dec val init call result body crash).
  Notation thread := (thread cell val).
  Notation worker := (worker cell val call result).

  Lemma set_same s k x : set s k x k = x.
  Proof.
    unfold Lazy.set. destruct (cell_dec k k) as [e|n]; [|congruence].
    rewrite (UIP_dec cell_dec e eq_refl). reflexivity.
  Qed.
  Lemma set_other s k x k' : k <> k' -> set s k x k' = s k'.
  Proof. unfold Lazy.set. destruct (cell_dec k k'); congruence. Qed.

  Fixpoint good {A} (t : thread A) (a : A) : Prop :=
    match t with
    | Run p => eval p = a
    | Filling k inner f => good inner (Some (cval k)) /\ eval (f (cval k)) = a
    | Dead => False
    end.

  (** The statics a thread is filling, and the rank order they respect. *)
  Fixpoint fills {A} (t : thread A) : list cell :=
    match t with Filling k inner _ => k :: fills inner | _ => [] end.
  Fixpoint inside {A} (n : nat) (t : thread A) : Prop :=
    match t with
    | Run p => below n p
    | Filling k inner f => rank k < n /\ inside (rank k) inner /\ below n (f (cval k))
    | Dead => True
    end.
  Fixpoint wants {A} (t : thread A) : option cell :=
    match t with
    | Run (Force k _) => Some k
    | Filling _ inner _ => wants inner
    | _ => None
    end.
  Fixpoint tcost {A} (t : thread A) : nat :=
    match t with
    | Run p => cost p
    | Filling k inner f => 1 + tcost inner + cost (f (cval k))
    | Dead => 0
    end.

  (** Statics already filled hold what they should, and none was left behind. *)
  Definition sound (s : store cell val) : Prop :=
    forall k, match s k with Ready v => v = cval k | Poisoned => False | _ => True end.

  Lemma sound_set s k x :
    sound s -> match x with Ready v => v = cval k | Poisoned => False | _ => True end ->
    sound (set s k x).
  Proof.
    intros H Hx j. destruct (cell_dec k j) as [->|n].
    - rewrite set_same. exact Hx.
    - rewrite set_other by exact n. apply H.
  Qed.

  (** One step of a thread that has not gone wrong. *)
  Lemma step_good {A} : forall (t : thread A) a n s e s' t',
    sound s -> good t a -> inside n t -> step s t = Some (e, s', t') ->
    sound s' /\ good t' a /\ inside n t' /\ tcost t' < tcost t
    /\ (forall k, s' k = Busy -> s k = Busy /\ (In k (fills t) -> In k (fills t')) \/ In k (fills t'))
    /\ (forall k, s' k = Empty -> s k = Empty)
    /\ (forall k, e = Some k -> s k = Empty /\ s' k <> Empty).
  Proof.
    induction t as [A p|A k inner IH f|A]; intros a n s e s' t' Hs Hg Hi St.
    - destruct p as [x|k f]; cbn in St; [discriminate|].
      cbn in Hg, Hi. destruct Hi as [Hr Hb]. pose proof (Hs k) as Hk. destruct (s k) eqn:Ek.
      + injection St as <- <- <-. split; [|split; [|split; [|split; [|split; [|split]]]]].
        * apply sound_set; [exact Hs|exact I].
        * cbn. split; [apply init_ok|exact Hg].
        * cbn. split; [exact Hr|]. split; [apply init_below|exact Hb].
        * cbn. pose proof (init_cost k). lia.
        * intros j Hj. destruct (cell_dec k j) as [->|Hn]; [right; now left|].
          rewrite set_other in Hj by exact Hn. left. split; [exact Hj|intros []].
        * intros j Hj. destruct (cell_dec k j) as [->|Hn]; [exact Ek|].
          rewrite set_other in Hj by exact Hn. exact Hj.
        * intros j [= <-]. split; [exact Ek|]. rewrite set_same. discriminate.
      + discriminate.
      + injection St as <- <- <-. subst v. split; [|split; [|split; [|split; [|split; [|split]]]]].
        * exact Hs.
        * exact Hg.
        * exact Hb.
        * cbn. pose proof (init_cost k). lia.
        * intros j Hj. left. split; [exact Hj|intros []].
        * auto.
        * discriminate.
      + destruct Hk.
    - cbn in Hg, Hi. destruct Hg as [Hg1 Hg2]. destruct Hi as (Hr & Hi & Hb).
      assert (Hin : forall r, (match step s inner with
                   | Some (e, s', inner') => Some (e, s', Filling k inner' f)
                   | None => None end) = Some r ->
                  exists e0 s0 t0, step s inner = Some (e0, s0, t0) /\ r = (e0, s0, Filling k t0 f)).
      { intros r. destruct (step s inner) as [[[e0 s0] t0]|]; [|discriminate].
        intros [= <-]. eauto 8. }
      assert (Rec : forall r, (exists e0 s0 t0, step s inner = Some (e0, s0, t0) /\ r = (e0, s0, Filling k t0 f)) ->
        r = (e, s', t') ->
        sound s' /\ good t' a /\ inside n t' /\ tcost t' < tcost (Filling k inner f)
        /\ (forall j, s' j = Busy -> s j = Busy /\ (In j (fills (Filling k inner f)) -> In j (fills t')) \/ In j (fills t'))
        /\ (forall j, s' j = Empty -> s j = Empty)
        /\ (forall j, e = Some j -> s j = Empty /\ s' j <> Empty)).
      { intros r (e0 & s0 & t0 & St0 & ->) [= -> -> <-].
        destruct (IH _ _ _ _ _ _ Hs Hg1 Hi St0) as (B1 & B2 & B3 & B4 & B5 & B6 & B7).
        split; [exact B1|]. split; [cbn; auto|]. split; [cbn; auto|]. split; [cbn; lia|].
        split; [|auto]. intros j Hj. cbn. destruct (B5 j Hj) as [[C1 C2]|C]; [|right; now right].
        left. split; [exact C1|]. intros [->|D]; [now left|right; auto]. }
      destruct inner as [[[v|]|k' f']|k' inner' f'|].
      + cbn in St. injection St as <- <- <-. cbn in Hg1. injection Hg1 as ->.
        split; [|split; [|split; [|split; [|split; [|split]]]]].
        * apply sound_set; [exact Hs|reflexivity].
        * exact Hg2.
        * exact Hb.
        * cbn. lia.
        * intros j Hj. destruct (cell_dec k j) as [->|Hn]; [rewrite set_same in Hj; discriminate|].
          rewrite set_other in Hj by exact Hn. left. split; [exact Hj|].
          cbn. intros [->|[]]. congruence.
        * intros j Hj. destruct (cell_dec k j) as [->|Hn]; [rewrite set_same in Hj; discriminate|].
          rewrite set_other in Hj by exact Hn. exact Hj.
        * discriminate.
      + cbn in Hg1. discriminate.
      + eapply Rec; [apply Hin|]; cycle 1; [reflexivity|exact St].
      + eapply Rec; [apply Hin|]; cycle 1; [reflexivity|exact St].
      + destruct Hg1.
    - destruct Hg.
  Qed.

  (** A thread that cannot step has an answer, or waits for a static that is
      being filled and comes before all those it is filling itself. *)
  Lemma step_stuck {A} : forall (t : thread A) a n s,
    sound s -> good t a -> inside n t -> step s t = None ->
    t = Run (Ret a)
    \/ exists k, s k = Busy /\ wants t = Some k /\ rank k < n /\ forall j, In j (fills t) -> rank k < rank j.
  Proof.
    induction t as [A p|A k inner IH f|A]; intros a n s Hs Hg Hi St.
    - destruct p as [x|k f]; cbn in Hg; [left; congruence|].
      cbn in St, Hi. destruct Hi as [Hr _]. right. exists k. destruct (s k) eqn:Ek; try discriminate.
      split; [reflexivity|]. split; [reflexivity|]. split; [exact Hr|intros j []].
    - cbn in Hg, Hi. destruct Hg as [Hg1 Hg2]. destruct Hi as (Hr & Hi & Hb).
      assert (Hn : step s inner = None).
      { destruct inner as [[[v|]|k' f']|k' inner' f'|]; try discriminate St.
        - cbn in St |- *. destruct (s k'); try discriminate; reflexivity.
        - change ((match step s (Filling k' inner' f') with
                   | Some (e, s', i') => Some (e, s', Filling k i' f) | None => None end) = None) in St.
          destruct (step s (Filling k' inner' f')) as [[[? ?] ?]|]; [discriminate|reflexivity]. }
      right. destruct (IH _ _ _ Hs Hg1 Hi Hn) as [->|(j & B1 & B2 & B3 & B4)]; [discriminate St|].
      exists j. split; [exact B1|]. split; [exact B2|]. split; [lia|].
      cbn. intros i [<-|Hj]; auto.
    - destruct Hg.
  Qed.

  (** The whole pool. *)
  Context (top : nat) (top_ok : forall k, rank k < top).

  Lemma below_top {A} (p : prog cell val A) : below top p.
  Proof. induction p as [a|k f IH]; cbn; auto. Qed.

  Definition wgood (w : worker) : Prop :=
    match w with Away => True | Inside c t => good t (eval (body c)) /\ inside top t end.
  Definition wfills (w : worker) : list cell :=
    match w with Away => [] | Inside _ t => fills t end.
  Definition wcost (w : worker) : nat :=
    match w with Away => 0 | Inside _ t => 1 + tcost t end.

  Definition pgood (p : pool cell val call result) : Prop :=
    sound (fst p) /\ (forall w, In w (snd p) -> wgood w)
    /\ forall k, fst p k = Busy -> exists w, In w (snd p) /\ In k (wfills w).

  Lemma in_upd ws i (w x : worker) : In x (upd ws i w) -> x = w \/ In x ws.
  Proof.
    unfold Lazy.upd. intros H. apply in_app_or in H as [H|[->|H]]; auto; right.
    - rewrite <- (firstn_skipn i ws). apply in_or_app. now left.
    - rewrite <- (firstn_skipn (S i) ws). apply in_or_app. now right.
  Qed.
  Lemma upd_new ws i (w : worker) : In w (upd ws i w).
  Proof. unfold Lazy.upd. apply in_or_app. right. now left. Qed.
  Lemma split_nth ws i (w : worker) :
    nth_error ws i = Some w -> ws = firstn i ws ++ w :: skipn (S i) ws.
  Proof.
    revert i. induction ws as [|x ws IH]; intros [|i] H; cbn in *; try discriminate.
    - congruence.
    - f_equal. apply IH, H.
  Qed.
  Lemma upd_old ws i (w0 w x : worker) :
    nth_error ws i = Some w0 -> In x ws -> x = w0 \/ In x (upd ws i w).
  Proof.
    intros H Hx. rewrite (split_nth _ _ _ H) in Hx. unfold Lazy.upd.
    apply in_app_or in Hx as [Hx|[->|Hx]]; auto; right; apply in_or_app; [now left|right; now right].
  Qed.

  Definition total (ws : list worker) : nat := list_sum (map wcost ws).
  Lemma total_upd ws i (w0 w : worker) :
    nth_error ws i = Some w0 -> total (upd ws i w) + wcost w0 = total ws + wcost w.
  Proof.
    intros H. unfold total. rewrite (split_nth _ _ _ H) at 2. unfold Lazy.upd.
    rewrite !map_app, !list_sum_app. cbn. lia.
  Qed.

  Lemma start_good : pgood (start cell val call result).
  Proof. split; [intros k; exact I|]. split; [intros w []|]. discriminate. Qed.

  Lemma finished_good {c} (t : thread (result c)) a r :
    good t a -> finished crash t = Some r -> r = a.
  Proof. destruct t as [[x|k f]|k i f|]; cbn; congruence || tauto. Qed.

  Lemma finished_no_fills {c} (t : thread (result c)) r : finished crash t = Some r -> fills t = [].
  Proof. destruct t as [[x|k f]|k i f|]; cbn; congruence. Qed.

  Lemma pstep_good p l p' : pgood p -> pstep p l p' -> pgood p'.
  Proof.
    intros (Hs & Hw & Hb) St.
    destruct St as [s ws|s ws i c Hn|s ws i c t e s' t' Hn St|s ws i c t r Hn Hf]; cbn [fst snd] in *.
    - split; [exact Hs|]. cbn. split.
      + intros w H. apply in_app_or in H as [H|[<-|[]]]; [auto|exact I].
      + intros k Hk. destruct (Hb k Hk) as (w & A & B). exists w. split; [apply in_or_app; now left|exact B].
    - split; [exact Hs|]. cbn. split.
      + intros w H. apply in_upd in H as [->|H]; [|auto]. cbn. split; [reflexivity|apply below_top].
      + intros k Hk. destruct (Hb k Hk) as (w & A & B).
        destruct (upd_old ws i _ (Inside c (Run (body c))) _ Hn A) as [->|C]; [destruct B|eauto].
    - destruct (Hw _ (nth_error_In _ _ Hn)) as [Hg Hi].
      destruct (step_good t _ _ _ _ _ _ Hs Hg Hi St) as (B1 & B2 & B3 & B4 & B5 & B6 & B7).
      split; [exact B1|]. cbn. split.
      + intros w H. apply in_upd in H as [->|H]; [cbn; auto|auto].
      + intros k Hk. destruct (B5 k Hk) as [[C1 C2]|C].
        * destruct (Hb k C1) as (w & D & E).
          destruct (upd_old ws i _ (Inside c t') _ Hn D) as [->|F]; [|eauto].
          exists (Inside c t'). split; [apply upd_new|]. apply C2, E.
        * exists (Inside c t'). split; [apply upd_new|exact C].
    - split; [exact Hs|]. cbn. split.
      + intros w H. apply in_upd in H as [->|H]; [exact I|auto].
      + intros k Hk. destruct (Hb k Hk) as (w & A & B).
        destruct (upd_old ws i _ Away _ Hn A) as [->|C]; [|eauto].
        cbn in B. rewrite (finished_no_fills _ _ Hf) in B. destruct B.
  Qed.

  Lemma run_good p ls p' : pgood p -> run p ls p' -> pgood p'.
  Proof. intros H R. induction R; eauto using pstep_good. Qed.

  Lemma pstep_result p l p' :
    pgood p -> pstep p l p' -> match l with Returned _ c r => r = eval (body c) | _ => True end.
  Proof.
    intros (_ & Hw & _) St. destruct St as [s ws|s ws i c Hn|s ws i c t e s' t' Hn St|s ws i c t r Hn Hf]; try exact I.
    destruct (Hw _ (nth_error_In _ _ Hn)) as [Hg _]. eapply finished_good; eassumption.
  Qed.

  (** Whatever the interleaving, a call returns what it returns alone. *)
  Theorem run_results p ls p' i c r :
    pgood p -> run p ls p' -> In (Returned i c r) ls -> r = eval (body c).
  Proof.
    intros H R. induction R as [|p l p1 ls p2 St R IH]; [intros []|].
    intros [->|Hin]; [|eauto using pstep_good]. apply (pstep_result _ _ _ H St).
  Qed.

  Definition inits (k : cell) (l : label cell call result) : Prop :=
    exists i, l = Stepped i (Some k).

  Lemma run_not_empty p ls p' k :
    pgood p -> run p ls p' -> fst p k <> Empty -> fst p' k <> Empty /\ forall l, In l ls -> ~ inits k l.
  Proof.
    intros H R. induction R as [|p l p1 ls p2 St R IH]; intros Hk; [split; [exact Hk|intros l []]|].
    assert (Q : fst p1 k <> Empty /\ ~ inits k l).
    { destruct H as (Hs & Hw & Hb).
      destruct St as [s ws|s ws i c Hn|s ws i c t e s' t' Hn St|s ws i c t r Hn Hf]; cbn [fst snd] in *;
        try (split; [exact Hk|intros [? ?]; discriminate]).
      destruct (Hw _ (nth_error_In _ _ Hn)) as [Hg Hi].
      destruct (step_good t _ _ _ _ _ _ Hs Hg Hi St) as (_ & _ & _ & _ & _ & B6 & B7).
      split; [auto|]. intros [j [= _ ->]]. apply Hk, (B7 k eq_refl). }
    destruct (IH (pstep_good _ _ _ H St) (proj1 Q)) as [A B].
    split; [exact A|]. intros m [<-|Hm]; [apply Q|auto].
  Qed.

  (** No static's closure is run twice. *)
  Theorem run_once p ls p' l1 a l2 b l3 k :
    pgood p -> run p ls p' -> ls = l1 ++ a :: l2 ++ b :: l3 -> inits k a -> ~ inits k b.
  Proof.
    intros H R. revert l1. induction R as [|p l p1 ls p2 St R IH]; intros l1 E Ha.
    - destruct l1; discriminate.
    - destruct l1 as [|x l1]; cbn in E; injection E as -> E; [|eauto using pstep_good].
      assert (Q : fst p1 k <> Empty).
      { destruct Ha as [i Ha]. destruct H as (Hs & Hw & Hb).
        destruct St as [s ws|s ws j c Hn|s ws j c t e s' t' Hn St|s ws j c t r Hn Hf]; try discriminate Ha.
        injection Ha as -> ->. cbn [fst snd] in *.
        destruct (Hw _ (nth_error_In _ _ Hn)) as [Hg Hi].
        destruct (step_good t _ _ _ _ _ _ Hs Hg Hi St) as (_ & _ & _ & _ & _ & _ & B7).
        apply (B7 k eq_refl). }
      destruct (run_not_empty _ _ _ k (pstep_good _ _ _ H St) R Q) as [_ B].
      apply B. subst ls. apply in_or_app. right. now left.
  Qed.

  (** The library's own steps, as opposed to its users' choices. *)
  Definition own (l : label cell call result) : Prop :=
    match l with Stepped _ _ | Returned _ _ _ => True | _ => False end.

  Lemma busy_progress : forall n s ws k, rank k < n -> pgood (s, ws) -> s k = Busy ->
    exists l p', pstep (s, ws) l p' /\ own l.
  Proof.
    induction n as [|n IH]; intros s ws k Hr H Hk; [lia|].
    destruct H as (Hs & Hw & Hb). cbn [fst snd] in *.
    destruct (Hb k Hk) as (w & Hin & Hf). pose proof (Hw _ Hin) as Hg.
    destruct w as [|c t]; [destruct Hf|]. destruct Hg as [Hg Hi].
    apply In_nth_error in Hin as [i Hn].
    destruct (step s t) as [[[e s'] t']|] eqn:St.
    - exists (Stepped i e), (s', upd ws i (Inside c t')). split; [eapply ps_step; eassumption|exact I].
    - destruct (step_stuck t _ _ _ Hs Hg Hi St) as [->|(j & B1 & _ & _ & B4)]; [destruct Hf|].
      eapply (IH s ws j); [|split; [exact Hs|split; [exact Hw|exact Hb]]|exact B1].
      specialize (B4 _ Hf). lia.
  Qed.

  (** As long as some thread is inside a call, some thread inside a call can move. *)
  Theorem progress p c t :
    pgood p -> In (Inside c t) (snd p) -> exists l p', pstep p l p' /\ own l.
  Proof.
    destruct p as [s ws]. intros H Hin. cbn [snd] in Hin.
    pose proof H as (Hs & Hw & Hb). cbn [fst snd] in *.
    destruct (Hw _ Hin) as [Hg Hi]. apply In_nth_error in Hin as [i Hn].
    destruct (step s t) as [[[e s'] t']|] eqn:St.
    - exists (Stepped i e), (s', upd ws i (Inside c t')). split; [eapply ps_step; eassumption|exact I].
    - destruct (step_stuck t _ _ _ Hs Hg Hi St) as [->|(j & B1 & _ & B3 & _)].
      + exists (Returned i c (eval (body c))), (s, upd ws i Away). split; [eapply ps_return; [eassumption|reflexivity]|exact I].
      + eapply busy_progress; [exact B3|exact H|exact B1].
  Qed.

  (** The own steps left are bounded by what the pending calls still need. *)
  Theorem own_bounded p ls p' :
    pgood p -> run p ls p' -> (forall l, In l ls -> own l) -> length ls + total (snd p') <= total (snd p).
  Proof.
    intros H R. induction R as [|p l p1 ls p2 St R IH]; intros Ho; [cbn; lia|].
    specialize (IH (pstep_good _ _ _ H St) (fun m Hm => Ho m (or_intror Hm))).
    enough (total (snd p1) < total (snd p)) by (cbn; lia).
    pose proof (Ho l (or_introl eq_refl)) as Hl. destruct H as (Hs & Hw & Hb).
    destruct St as [s ws|s ws i c Hn|s ws i c t e s' t' Hn St|s ws i c t r Hn Hf]; cbn [fst snd] in *;
      try (destruct Hl; fail).
    - destruct (Hw _ (nth_error_In _ _ Hn)) as [Hg Hi].
      destruct (step_good t _ _ _ _ _ _ Hs Hg Hi St) as (_ & _ & _ & B4 & _).
      pose proof (total_upd ws i _ (Inside c t') Hn) as E. cbn [wcost] in E. lia.
    - pose proof (total_upd ws i _ Away Hn) as E. cbn [wcost] in E. lia.
  Qed.

  (** A bound for every call bounds every pending call. *)
  Context (most : nat) (body_cost : forall c, cost (body c) <= most).
  Definition pending (ws : list worker) : nat :=
    length (filter (fun w => match w with Away => false | Inside _ _ => true end) ws).

  Lemma pending_cost p ls p' :
    pgood p -> run p ls p' -> (forall w, In w (snd p) -> wcost w <= 1 + most) ->
    forall w, In w (snd p') -> wcost w <= 1 + most.
  Proof.
    intros H R. induction R as [|p l p1 ls p2 St R IH]; intros Hc; [exact Hc|].
    apply IH; [eauto using pstep_good|]. clear IH R. destruct H as (Hs & Hw & Hb).
    destruct St as [s ws|s ws i c Hn|s ws i c t e s' t' Hn St|s ws i c t r Hn Hf]; cbn [fst snd] in *;
      intros w H.
    - apply in_app_or in H as [H|[<-|[]]]; [auto|cbn; lia].
    - apply in_upd in H as [->|H]; [|auto]. cbn. pose proof (body_cost c). lia.
    - apply in_upd in H as [->|H]; [|auto]. pose proof (Hc _ (nth_error_In _ _ Hn)) as E.
      destruct (Hw _ (nth_error_In _ _ Hn)) as [Hg Hi].
      destruct (step_good t _ _ _ _ _ _ Hs Hg Hi St) as (_ & _ & _ & B4 & _). cbn in *. lia.
    - apply in_upd in H as [->|H]; [cbn; lia|auto].
  Qed.

  Lemma total_pending ws :
    (forall w, In w ws -> wcost w <= 1 + most) -> total ws <= (1 + most) * pending ws.
  Proof.
    unfold total, pending. induction ws as [|w ws IH]; intros H; [cbn; lia|].
    specialize (IH (fun x Hx => H x (or_intror Hx))). pose proof (H w (or_introl eq_refl)) as Hw.
    destruct w as [|c t]; cbn [map list_sum filter length fold_right wcost] in *; unfold list_sum in *; cbn in *; lia.
  Qed.
End Facts.
