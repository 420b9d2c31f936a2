(** * RegexMany: several patterns at once

    [apartn] decides (soundly) that no text of a given length over a given
    alphabet is on the way to a match in each of several states; see
    [RegexDeriv.apart] for two states. *)
From Verif Require Import Base Unicode Regex RegexLang RegexFacts StrFacts RegexDeriv ParserFacts CoreFacts DialFacts.

(** the states after one more character, unless one of them is dead *)
Fixpoint steps (s e : bool) (c : char) (l : list st) : option (list st) :=
  match l with
  | [] => Some []
  | x :: l' =>
      let x' := st_step s e c x in
      if st_dead x' then None
      else match steps s e c l' with Some k => Some (x' :: k) | None => None end
  end.
Fixpoint lmem (p : list st) (l : list (list st)) : bool :=
  match l with [] => false | q :: l' => if list_eqb st_eqb p q then true else lmem p l' end.
Lemma lmem_in : forall p l, lmem p l = true -> In p l.
Proof.
  induction l as [|q l IH]; cbn; intros H; [easy|]. destruct (list_eqb st_eqb p q) eqn:E; [|auto].
  left. symmetry. revert E. apply list_eqb_eq, st_eqb_eq.
Qed.
Fixpoint succsn (s e : bool) (sigma : list char) (l : list st) (acc : list (list st)) : list (list st) :=
  match sigma with
  | [] => acc
  | c :: sigma' =>
      match steps s e c l with
      | None => succsn s e sigma' l acc
      | Some k => if lmem k acc then succsn s e sigma' l acc else succsn s e sigma' l (k :: acc)
      end
  end.
Lemma succsn_in : forall s e l sigma acc,
  (forall p, In p acc -> In p (succsn s e sigma l acc)) /\
  (forall c k, In c sigma -> steps s e c l = Some k -> In k (succsn s e sigma l acc)).
Proof.
  intros s e l. induction sigma as [|c sigma IH]; intros acc; cbn [succsn]; [now split|].
  destruct (steps s e c l) as [k|] eqn:Ek.
  - destruct (lmem k acc) eqn:Em.
    + split; [apply IH|]. intros d k' [<-|I] H; [|now apply (proj2 (IH acc) d)].
      apply (proj1 (IH acc)). rewrite Ek in H. inversion H; subst. now apply lmem_in.
    + split.
      * intros p I. apply IH. now right.
      * intros d k' [<-|I] H; [|now apply (proj2 (IH _) d)]. apply (proj1 (IH _)). rewrite Ek in H. inversion H. now left.
  - split; [apply IH|]. intros d k' [<-|I] H; [congruence|]. now apply (proj2 (IH acc) d).
Qed.

(** all the lists of states after [n] characters *)
Fixpoint layer (s e : bool) (sigma : list char) (ls acc : list (list st)) : list (list st) :=
  match ls with [] => acc | l :: ls' => layer s e sigma ls' (succsn s e sigma l acc) end.
Lemma layer_acc : forall s e sigma ls acc p, In p acc -> In p (layer s e sigma ls acc).
Proof. induction ls as [|l ls IH]; intros acc p H; cbn [layer]; [easy|]. apply IH. now apply succsn_in. Qed.
Lemma layer_in : forall s e sigma ls acc l c k, In l ls -> In c sigma -> steps s e c l = Some k -> In k (layer s e sigma ls acc).
Proof.
  induction ls as [|x ls IH]; intros acc l c k Il Ic H; [easy|]. cbn [layer]. destruct Il as [<-|Il].
  - apply layer_acc. now apply (proj2 (succsn_in s e x sigma acc) c).
  - now apply (IH _ l c).
Qed.
Definition all_none (l : list st) : bool := forallb (fun x => match x with None => true | Some _ => false end) l.
Fixpoint apartn (sigma : list char) (n : nat) (s : bool) (ls : list (list st)) : bool :=
  match n with
  | O => if existsb all_none ls then false else true
  | S n' => match ls with
            | [] => true
            | _ => apartn sigma n' false (layer s (Nat.eqb n' 0) sigma ls [])
            end
  end.

Lemma steps_leads : forall b c w l, Forall (fun x => leads x b (c :: w)) l ->
  exists k, steps (at_nil b) (at_nil w) c l = Some k /\ Forall (fun x => leads x (b ++ [c]) w) k.
Proof.
  intros b c w. induction l as [|x l IH]; intros H; cbn [steps]; [eauto|].
  inversion H as [|x' l' H1 H2]; subst. apply step_leads in H1. pose proof (leads_not_dead _ _ _ H1) as D. rewrite D.
  destruct (IH H2) as (k & -> & Hk). eauto.
Qed.
Theorem apartn_sound : forall sigma w b ls l, (forall c, In c w -> In c sigma) ->
  apartn sigma (length w) (at_nil b) ls = true -> In l ls -> Forall (fun x => leads x b w) l -> False.
Proof.
  intros sigma. induction w as [|c w IH]; intros b ls l Hw H Il Hl; cbn [apartn length] in H.
  - destruct (existsb all_none ls) eqn:E; [discriminate|]. assert (existsb all_none ls = true); [|congruence].
    apply existsb_exists. exists l. split; [exact Il|]. apply forallb_forall. intros x Ix.
    rewrite Forall_forall in Hl. apply Hl in Ix. destruct x as [y|]; [|reflexivity].
    destruct Ix as (r & t & a & _ & E' & Ht & _). symmetry in E'. apply app_eq_nil in E'. now elim Ht.
  - destruct ls as [|l0 ls0] eqn:Els; [easy|]. rewrite <- Els in *.
    assert (Ew : Nat.eqb (length w) 0 = at_nil w) by (destruct w; easy). rewrite Ew in H.
    destruct (steps_leads b c w l Hl) as (k & Hk & Hk').
    refine (IH (b ++ [c]) (layer (at_nil b) (at_nil w) sigma ls []) k _ _ _ Hk').
    + intros d I. apply Hw. now right.
    + replace (at_nil (b ++ [c])) with false by (destruct b; easy). exact H.
    + apply layer_in with l c; [exact Il|apply Hw; now left|exact Hk].
Qed.

(** ** Digits [e] that several patterns match at the start, behind a text [q] *)
Definition starts (n : nat) (rs : list re) : list st := map (fun r => start_st r n) rs.
Lemma starts_lead : forall q e rs, forallb no_start rs = true -> Forall (fun r => matches_prefix r e) rs ->
  Forall (fun x => leads x q e) (starts (length e) rs).
Proof.
  intros q e rs Hn H. unfold starts. rewrite Forall_map. rewrite forallb_forall in Hn.
  rewrite Forall_forall in *. intros r I. pose proof (Hn r I) as N. pose proof (start_leads r e (H r I)) as L.
  unfold start_st, settle in *. destruct (nuls _ _ [r]); [exact L|]. cbn in *.
  destruct L as (r' & t & a & [<-|[]] & E & Ht & L). exists r, t, a. split; [now left|]. split; [exact E|]. split; [exact Ht|].
  now apply (proj1 no_start_lang) with (b := []).
Qed.

(** no match of [rb] at the start of [q ++ e] *)
Definition front_all (sigma : list char) (q : str) (n : nat) (ras : list re) (rb : re) : bool :=
  if forallb no_start ras then
    apartn sigma n (at_nil q) [run true n (start_st rb (length q + n)) q :: starts n ras]
  else false.
Lemma front_all_sound : forall sigma q ras rb e, (forall c, In c e -> In c sigma) ->
  front_all sigma q (length e) ras rb = true -> Forall (fun r => matches_prefix r e) ras -> ~ matches_prefix rb (q ++ e).
Proof.
  intros sigma q ras rb e He H Hm Hb. unfold front_all in H. destruct (forallb no_start ras) eqn:Hn; [|discriminate].
  refine (apartn_sound sigma e q _ _ He H (or_introl eq_refl) _). constructor.
  - change q with ([] ++ q) at 2. change true with (at_nil []). apply run_leads. rewrite <- app_length. now apply start_leads.
  - now apply starts_lead.
Qed.

(** every match of [rb] at the start of [q ++ e] is [q] itself *)
Definition exact_all (sigma : list char) (q : str) (n : nat) (ras : list re) (rb : re) : bool :=
  match q with
  | [] => false
  | _ =>
    if forallb no_start ras then
    if can_match rb q then
    match after true [rb] q with
    | Some l => apartn sigma n false [Some l :: starts n ras]
    | None => false
    end else false else false
  end.
Theorem exact_all_sound : forall sigma q ras r e, (forall c, In c e -> In c sigma) ->
  exact_all sigma q (length e) ras (re_ast r) = true -> Forall (fun r => matches_prefix r e) ras -> only_match r q e.
Proof.
  intros sigma q ras r e He H Hm. unfold exact_all in H. destruct q as [|c0 q0]; [discriminate|].
  set (q := c0 :: q0) in *. destruct (forallb no_start ras) eqn:Hns; [|discriminate].
  destruct (can_match (re_ast r) q) eqn:Hcm; [|discriminate].
  destruct (after true [re_ast r] q) as [l|] eqn:Ha; [|discriminate].
  split; [now apply can_match_sound|]. intros t a E L.
  destruct (after_sound q [] [re_ast r] l (re_ast r) t a e Ha) as (t' & r' & -> & E' & I' & L');
    [now left|exact L|now symmetry|].
  destruct t' as [|x t']; [now rewrite app_nil_r|]. exfalso.
  refine (apartn_sound sigma e q _ _ He H (or_introl eq_refl) _). constructor.
  - cbn. exists r', (x :: t'), a. split; [exact I'|]. split; [now symmetry|]. split; [discriminate|exact L'].
  - now apply starts_lead.
Qed.
