(** * RegexCover: every text of a length that some patterns match is matched by all
    the patterns of one of several groups

    The states of the patterns are followed over the texts of the given length; a
    text is given up as soon as one group has matched. *)
From Verif Require Import Base Unicode Regex RegexLang RegexFacts StrFacts RegexDeriv RegexMany RegexExact.

(** ** States: those that have to match, and the groups still possible *)
Definition cst := (list st * list (list st))%type.
Definition covered (gs : list (list st)) : bool := existsb all_none gs.
Fixpoint gsteps (s e : bool) (c : char) (gs : list (list st)) : list (list st) :=
  match gs with
  | [] => []
  | g :: gs' => match steps s e c g with Some g' => g' :: gsteps s e c gs' | None => gsteps s e c gs' end
  end.
Definition cst_eqb (x y : cst) : bool :=
  if list_eqb st_eqb (fst x) (fst y) then list_eqb (list_eqb st_eqb) (snd x) (snd y) else false.
Fixpoint cmem (x : cst) (l : list cst) : bool :=
  match l with [] => false | y :: l' => if cst_eqb x y then true else cmem x l' end.
Lemma cmem_in : forall x l, cmem x l = true -> In x l.
Proof.
  intros x. induction l as [|y l IH]; cbn [cmem]; [discriminate|]. destruct (cst_eqb x y) eqn:E; [|right; auto].
  intros _. left. destruct x as [a b], y as [a' b']. unfold cst_eqb in E. cbn [fst snd] in E.
  destruct (list_eqb st_eqb a a') eqn:E1; [|discriminate].
  apply (list_eqb_eq _ _ st_eqb_eq) in E1. apply (list_eqb_eq _ _ (list_eqb_eq _ _ st_eqb_eq)) in E. congruence.
Qed.
Fixpoint csuccs (s e : bool) (sigma : list char) (l : list st) (gs : list (list st)) (acc : list cst) : list cst :=
  match sigma with
  | [] => acc
  | c :: sigma' =>
      match steps s e c l with
      | None => csuccs s e sigma' l gs acc
      | Some k =>
          let gs' := gsteps s e c gs in
          if covered gs' then csuccs s e sigma' l gs acc
          else if cmem (k, gs') acc then csuccs s e sigma' l gs acc
          else csuccs s e sigma' l gs ((k, gs') :: acc)
      end
  end.
Fixpoint clayer (s e : bool) (sigma : list char) (ls acc : list cst) : list cst :=
  match ls with [] => acc | (l, gs) :: ls' => clayer s e sigma ls' (csuccs s e sigma l gs acc) end.
Fixpoint cover (sigma : list char) (n : nat) (s : bool) (ls : list cst) : bool :=
  match n with
  | O => forallb (fun x => if all_none (fst x) then covered (snd x) else true) ls
  | S n' => match ls with
            | [] => true
            | _ => cover sigma n' false (clayer s (Nat.eqb n' 0) sigma ls [])
            end
  end.

Lemma csuccs_in : forall s e l gs sigma acc,
  (forall x, In x acc -> In x (csuccs s e sigma l gs acc)) /\
  (forall c k, In c sigma -> steps s e c l = Some k -> covered (gsteps s e c gs) = false ->
     In (k, gsteps s e c gs) (csuccs s e sigma l gs acc)).
Proof.
  intros s e l gs. induction sigma as [|c sigma IH]; intros acc; cbn [csuccs]; [now split|].
  destruct (steps s e c l) as [k0|] eqn:Ek.
  2:{ split; [apply IH|]. intros d k [<-|I] H C; [congruence|]. now apply IH. }
  cbv zeta. destruct (covered (gsteps s e c gs)) eqn:Ec.
  { split; [apply IH|]. intros d k [<-|I] H C; [congruence|]. now apply IH. }
  destruct (cmem (k0, gsteps s e c gs) acc) eqn:Em.
  - split; [apply IH|]. intros d k [<-|I] H C; [|now apply IH]. assert (k = k0) by congruence. subst k.
    apply (proj1 (IH acc)). now apply cmem_in.
  - split; [intros x I; apply IH; now right|]. intros d k [<-|I] H C; [|now apply IH]. assert (k = k0) by congruence. subst k.
    apply (proj1 (IH _)). now left.
Qed.
Lemma clayer_acc : forall s e sigma ls acc x, In x acc -> In x (clayer s e sigma ls acc).
Proof. induction ls as [|[l gs] ls IH]; intros acc x H; cbn [clayer]; [easy|]. apply IH. now apply csuccs_in. Qed.
Lemma clayer_in : forall s e sigma ls acc l gs c k, In (l, gs) ls -> In c sigma -> steps s e c l = Some k ->
  covered (gsteps s e c gs) = false -> In (k, gsteps s e c gs) (clayer s e sigma ls acc).
Proof.
  induction ls as [|[l0 gs0] ls IH]; intros acc l gs c k Il Ic H C; [easy|]. cbn [clayer]. destruct Il as [E|Il].
  - inversion E; subst. apply clayer_acc. now apply csuccs_in.
  - now apply (IH _ l).
Qed.

(** ** Some group matches *)
Definition one_leads (gs : list (list st)) (b w : str) : Prop := exists g, In g gs /\ Forall (fun x => leads x b w) g.
Lemma all_none_leads : forall g b w, all_none g = true -> Forall (fun x => leads x b w) g.
Proof.
  intros g b w H. unfold all_none in H. rewrite forallb_forall in H. rewrite Forall_forall. intros x I. apply H in I.
  destruct x; [discriminate|exact Logic.I].
Qed.
Lemma covered_leads : forall gs b w, covered gs = true -> one_leads gs b w.
Proof.
  intros gs b w H. unfold covered in H. apply existsb_exists in H as (g & Ig & H). exists g. split; [exact Ig|].
  now apply all_none_leads.
Qed.
Lemma steps_back : forall b c w g g', steps (at_nil b) (at_nil w) c g = Some g' ->
  Forall (fun x => leads x (b ++ [c]) w) g' -> Forall (fun x => leads x b (c :: w)) g.
Proof.
  intros b c w. induction g as [|x g IH]; intros g' H HF; [constructor|]. cbn [steps] in H.
  destruct (st_dead _); [discriminate|]. destruct (steps _ _ c g) as [k|]; [|discriminate]. inversion H; subst g'.
  inversion HF; subst. constructor; [now apply step_iff|]. now apply (IH k).
Qed.
Lemma gsteps_back : forall b c w gs, one_leads (gsteps (at_nil b) (at_nil w) c gs) (b ++ [c]) w -> one_leads gs b (c :: w).
Proof.
  intros b c w. induction gs as [|g gs IH]; intros (k & Ik & Hk); cbn [gsteps] in Ik; [easy|].
  assert (K : In k (gsteps (at_nil b) (at_nil w) c gs) -> one_leads (g :: gs) b (c :: w)).
  { intros I. destruct IH as (g' & I' & H'); [exists k; auto|]. exists g'. split; [now right|exact H']. }
  destruct (steps _ _ c g) as [g'|] eqn:Es; [|auto]. destruct Ik as [->|Ik]; [|auto].
  exists g. split; [now left|]. now apply steps_back with k.
Qed.
Theorem cover_sound : forall sigma w b ls l gs, (forall c, In c w -> In c sigma) ->
  cover sigma (length w) (at_nil b) ls = true -> In (l, gs) ls -> Forall (fun x => leads x b w) l -> one_leads gs b w.
Proof.
  intros sigma. induction w as [|c w IH]; intros b ls l gs Hw H Il Hl; cbn [cover length] in H.
  - rewrite forallb_forall in H. apply H in Il. cbn [fst snd] in Il.
    assert (A : all_none l = true).
    { apply forallb_forall. intros x Ix. rewrite Forall_forall in Hl. apply Hl in Ix. destruct x as [y|]; [|reflexivity].
      destruct Ix as (r & t & a & _ & E' & Ht & _). symmetry in E'. apply app_eq_nil in E'. now elim Ht. }
    rewrite A in Il. now apply covered_leads.
  - destruct ls as [|l0 ls0] eqn:Els; [easy|]. rewrite <- Els in *.
    assert (Ew : Nat.eqb (length w) 0 = at_nil w) by (destruct w; easy). rewrite Ew in H.
    destruct (steps_leads b c w l Hl) as (k & Hk & Hk'). apply gsteps_back.
    destruct (covered (gsteps (at_nil b) (at_nil w) c gs)) eqn:Ec; [now apply covered_leads|].
    refine (IH (b ++ [c]) (clayer (at_nil b) (at_nil w) sigma ls []) k _ _ _ _ Hk').
    + intros d I. apply Hw. now right.
    + replace (at_nil (b ++ [c])) with false by (destruct b; easy). exact H.
    + apply (clayer_in _ _ sigma ls [] l gs c k); auto. apply Hw. now left.
Qed.

(** ** Patterns at the start *)
Definition re_cover (sigma : list char) (n : nat) (rs : list re) (gs : list (list re)) : bool :=
  let gs' := map (starts n) gs in
  if covered gs' then true else cover sigma n true [(starts n rs, gs')].
Lemma starts_leads : forall e rs, Forall (fun x => leads x [] e) (starts (length e) rs) <-> Forall (fun r => matches_prefix r e) rs.
Proof.
  intros e rs. unfold starts. rewrite Forall_map. split; intros H; (eapply Forall_impl; [|exact H]); intros r; apply start_iff.
Qed.
Theorem re_cover_sound : forall sigma rs gs e, (forall c, In c e -> In c sigma) ->
  re_cover sigma (length e) rs gs = true -> Forall (fun r => matches_prefix r e) rs ->
  exists g, In g gs /\ Forall (fun r => matches_prefix r e) g.
Proof.
  intros sigma rs gs e He H Hr. unfold re_cover in H. cbv zeta in H.
  assert (G : one_leads (map (starts (length e)) gs) [] e).
  { destruct (covered _) eqn:Ec; [now apply covered_leads|].
    apply (cover_sound sigma e [] _ _ _ He H (or_introl eq_refl)). now apply starts_leads. }
  destruct G as (g & I & Hg). apply in_map_iff in I as (g0 & <- & I). exists g0. split; [exact I|]. now apply starts_leads.
Qed.
