(** * RegexDeriv: static analysis of patterns by partial derivatives

    [apart] decides (soundly) that no text of a given length over a given
    alphabet is matched at its start by one pattern and also, with a non-empty
    match, by another one. *)
From Verif Require Import Base Unicode Regex RegexLang RegexFacts StrFacts.

(** ** May the pattern match the empty text? [s]: at the start; [e]: at the end *)
Fixpoint nul (s e : bool) (r : re) : bool :=
  match r with
  | REps => true
  | RCls _ => false
  | RCat a b => if nul s e a then nul s e b else false
  | RAlt a b => if nul s e a then true else nul s e b
  | RRep _ mn _ r => match mn with O => true | S _ => nul s e r end
  | RGrp _ r => nul s e r
  | RStart => s
  | REnd => e
  end.

Definition at_nil (b : str) : bool := match b with [] => true | _ => false end.

Lemma app_nil_both : forall (a b : str), a ++ b = [] -> a = [] /\ b = [].
Proof. intros. now apply app_eq_nil. Qed.

Lemma nul_sound :
  (forall r b t a, lang r b t a -> t = [] -> nul (at_nil b) (at_nil a) r = true) /\
  (forall r n b t a, langs r n b t a -> t = [] -> 1 <= n -> nul (at_nil b) (at_nil a) r = true).
Proof.
  apply lang_langs_ind; intros; cbn [nul]; try easy.
  - apply app_nil_both in H1 as [-> ->]. cbn [app] in *. rewrite app_nil_r in *.
    rewrite H by easy. now apply H0.
  - now rewrite H.
  - destruct (nul _ _ r1); auto.
  - destruct mn; [easy|]. apply H; [easy|]. lia.
  - auto.
  - apply app_nil_both in H1 as [-> ->]. cbn [app] in *. now apply H.
Qed.

(** ** Partial derivatives *)
Definition cat (a b : re) : re := match a with REps => b | _ => RCat a b end.
Lemma cat_lang : forall x y b t a, lang (RCat x y) b t a -> lang (cat x y) b t a.
Proof.
  intros x y b t a H. destruct x; try exact H. cbn. inversion H as [| |r1 r2 b' t1 t2 a' H1 H2| | | | | |]; subst.
  inversion H1; subst. cbn [app]. now rewrite app_nil_r in H2.
Qed.

Definition rep (g : bool) (mn : nat) (mx : option nat) (r : re) : re :=
  match mx with
  | Some k => if Nat.eqb (Nat.max mn k) 0 then REps else RRep g mn (Some k) r
  | None => RRep g mn None r
  end.
Lemma rep_lang : forall g mn mx r b t a, lang (RRep g mn mx r) b t a -> lang (rep g mn mx r) b t a.
Proof.
  intros g mn mx r b t a H. unfold rep. destruct mx as [k|]; [|exact H].
  destruct (Nat.eqb_spec (Nat.max mn k) 0); [|exact H].
  inversion H as [| | | | |g' mn' mx' r' n b' t' a' H1 H2 H3| | |]; subst.
  assert (n = 0) by lia. subst n. inversion H3; subst. constructor.
Qed.

Fixpoint pd (s : bool) (c : char) (r : re) : list re :=
  match r with
  | REps | RStart | REnd => []
  | RCls k => if in_cls k c then [REps] else []
  | RCat a b => map (fun x => cat x b) (pd s c a) ++ (if nul s false a then pd s c b else [])
  | RAlt a b => pd s c a ++ pd s c b
  | RRep g mn mx r =>
      let mx' := match mx with Some k => Some (Nat.max mn k - 1) | None => None end in
      let mn' := if nul s false r then 0 else mn - 1 in
      if match mx with Some k => Nat.eqb (Nat.max mn k) 0 | None => false end then []
      else map (fun x => cat x (rep g mn' mx' r)) (pd s c r)
  | RGrp _ r => pd s c r
  end.

Lemma pd_sound :
  (forall r b t a, lang r b t a -> forall c t', t = c :: t' ->
     exists r', In r' (pd (at_nil b) c r) /\ lang r' (b ++ [c]) t' a) /\
  (forall r n b t a, langs r n b t a -> forall c t', t = c :: t' ->
     exists r' n' t1 t2, In r' (pd (at_nil b) c r) /\ t' = t1 ++ t2 /\ lang r' (b ++ [c]) t1 (t2 ++ a)
       /\ langs r n' (b ++ c :: t1) t2 a /\ n' < n /\ (nul (at_nil b) false r = true \/ n = S n')).
Proof.
  apply lang_langs_ind; intros; cbn [pd]; try discriminate.
  - inversion H; subst. rewrite e. exists REps. split; [now left|]. constructor.
  - destruct t1 as [|x t1].
    + cbn [app] in *. subst t2. rewrite app_nil_r in *. destruct (H0 c t' eq_refl) as (r' & I & L).
      pose proof (proj1 nul_sound _ _ _ _ l eq_refl) as N. cbn [app at_nil] in N. rewrite N.
      exists r'. split; [apply in_app_iff; now right|exact L].
    + cbn [app] in H1. inversion H1; subst x t'. destruct (H c t1 eq_refl) as (r' & I & L).
      exists (cat r' r2). split.
      * apply in_app_iff. left. apply in_map_iff. eauto.
      * apply cat_lang. constructor; [exact L|]. rewrite <- app_assoc. exact l0.
  - destruct (H _ _ H0) as (r' & I & L). exists r'. split; [apply in_app_iff; auto|easy].
  - destruct (H _ _ H0) as (r' & I & L). exists r'. split; [apply in_app_iff; auto|easy].
  - destruct (H _ _ H0) as (r' & n' & t1 & t2 & I & -> & L & LS & Hn & Hc).
    set (mn' := if nul (at_nil b) false r then 0 else mn - 1).
    set (mx' := match mx with Some k => Some (Nat.max mn k - 1) | None => None end).
    exists (cat r' (rep g mn' mx' r)). split.
    + assert (Hm : match mx with Some k => Nat.eqb (Nat.max mn k) 0 | None => false end = false).
      { destruct mx as [k|]; [|reflexivity]. apply Nat.eqb_neq. lia. }
      rewrite Hm. apply in_map_iff. eauto.
    + apply cat_lang. constructor; [exact L|]. apply rep_lang. rewrite <- app_assoc. cbn [app].
      apply (L_rep _ _ _ _ n').
      * subst mn'. destruct (nul (at_nil b) false r); [lia|]. destruct Hc; [discriminate|]. lia.
      * subst mx'. destruct mx; [|easy]. lia.
      * exact LS.
  - auto.
  - destruct t1 as [|x t1].
    + cbn [app] in *. subst t2. rewrite app_nil_r in *.
      destruct (H0 c t' eq_refl) as (r' & n' & u1 & u2 & I & E & L & LS & Hn & Hc).
      exists r', n', u1, u2. split; [easy|]. split; [easy|]. split; [easy|]. split; [easy|]. split; [lia|].
      left. apply (proj1 nul_sound _ _ _ _ l eq_refl).
    + cbn [app] in H1. inversion H1; subst x t'. destruct (H c t1 eq_refl) as (r' & I & L).
      exists r', n, t1, t2. split; [easy|]. split; [easy|]. split; [exact L|]. split; [exact l0|].
      split; [lia|]. now right.
Qed.

(** ** Sets of patterns *)
Fixpoint cls_eqb (a b : cls) : bool :=
  match a, b with
  | CRange l h, CRange l' h' => if N.eqb l l' then N.eqb h h' else false
  | CUni u, CUni v => match u, v with UNd, UNd | UN, UN | UL, UL => true | _, _ => false end
  | CNeg x, CNeg y => cls_eqb x y
  | CUnion x y, CUnion x' y' => if cls_eqb x x' then cls_eqb y y' else false
  | CInter x y, CInter x' y' => if cls_eqb x x' then cls_eqb y y' else false
  | CFold x, CFold y => cls_eqb x y
  | _, _ => false
  end.
Fixpoint re_eqb (a b : re) : bool :=
  match a, b with
  | REps, REps => true
  | RCls c, RCls d => cls_eqb c d
  | RCat x y, RCat x' y' => if re_eqb x x' then re_eqb y y' else false
  | RAlt x y, RAlt x' y' => if re_eqb x x' then re_eqb y y' else false
  | RRep g mn mx r, RRep g' mn' mx' r' =>
      if Bool.eqb g g' then if Nat.eqb mn mn' then if option_eqb Nat.eqb mx mx' then re_eqb r r' else false
      else false else false
  | RGrp i r, RGrp j r' => if Nat.eqb i j then re_eqb r r' else false
  | RStart, RStart => true
  | REnd, REnd => true
  | _, _ => false
  end.
Lemma cls_eqb_eq : forall a b, cls_eqb a b = true -> a = b.
Proof.
  induction a; intros [] H; cbn in H; try discriminate.
  - destruct (N.eqb_spec lo lo0); [|discriminate]. apply N.eqb_eq in H. congruence.
  - destruct u, u0; congruence.
  - f_equal. auto.
  - destruct (cls_eqb a1 a) eqn:E; [|discriminate]. f_equal; auto.
  - destruct (cls_eqb a1 a) eqn:E; [|discriminate]. f_equal; auto.
  - f_equal. auto.
Qed.
Lemma re_eqb_eq : forall a b, re_eqb a b = true -> a = b.
Proof.
  induction a; intros [] H; cbn in H; try discriminate; try reflexivity.
  - f_equal. now apply cls_eqb_eq.
  - destruct (re_eqb a1 a) eqn:E; [|discriminate]. f_equal; auto.
  - destruct (re_eqb a1 a) eqn:E; [|discriminate]. f_equal; auto.
  - destruct (Bool.eqb greedy greedy0) eqn:E1; [|discriminate]. apply eqb_prop in E1.
    destruct (Nat.eqb_spec min min0); [|discriminate].
    destruct (option_eqb Nat.eqb max max0) eqn:E2; [|discriminate].
    assert (max = max0).
    { destruct max, max0; cbn in E2; try discriminate; [|easy]. f_equal. now apply Nat.eqb_eq. }
    f_equal; auto.
  - destruct (Nat.eqb_spec i i0); [|discriminate]. f_equal; auto.
Qed.

Fixpoint re_mem (r : re) (l : list re) : bool :=
  match l with [] => false | x :: l' => if re_eqb r x then true else re_mem r l' end.
Fixpoint dedup (l acc : list re) : list re :=
  match l with [] => acc | x :: l' => if re_mem x acc then dedup l' acc else dedup l' (x :: acc) end.
Lemma re_mem_in : forall r l, re_mem r l = true -> In r l.
Proof.
  induction l as [|x l IH]; cbn; intros H; [easy|].
  destruct (re_eqb r x) eqn:E; [left; symmetry; now apply re_eqb_eq|right; auto].
Qed.
Lemma dedup_in : forall l acc x, In x l \/ In x acc -> In x (dedup l acc).
Proof.
  induction l as [|y l IH]; cbn; intros acc x H; [destruct H; easy|].
  destruct (re_mem y acc) eqn:E.
  - apply IH. destruct H as [[->|H]|H]; auto. right. now apply re_mem_in.
  - apply IH. destruct H as [[->|H]|H]; auto; right; [now left|now right].
Qed.

Definition pds (s : bool) (c : char) (l : list re) : list re := dedup (flat_map (pd s c) l) [].
Definition nuls (s e : bool) (l : list re) : bool := existsb (nul s e) l.

(** A state: [None] when the pattern has already matched. *)
Definition st := option (list re).
Definition settle (s e : bool) (l : list re) : st := if nuls s e l then None else Some l.
Definition st_dead (x : st) : bool := match x with Some [] => true | _ => false end.
Definition st_step (s e : bool) (c : char) (x : st) : st :=
  match x with None => None | Some l => settle false e (pds s c l) end.

Fixpoint list_eqb {A} (eqb : A -> A -> bool) (a b : list A) : bool :=
  match a, b with
  | [], [] => true
  | x :: a', y :: b' => if eqb x y then list_eqb eqb a' b' else false
  | _, _ => false
  end.
Definition st_eqb (a b : st) : bool := option_eqb (list_eqb re_eqb) a b.
Lemma list_eqb_eq : forall A (eqb : A -> A -> bool), (forall a b, eqb a b = true -> a = b) ->
  forall a b, list_eqb eqb a b = true -> a = b.
Proof.
  intros A eqb H. induction a as [|x a IH]; intros [|y b] E; cbn in E; try discriminate; [easy|].
  destruct (eqb x y) eqn:Ex; [|discriminate]. f_equal; auto.
Qed.
Lemma st_eqb_eq : forall a b, st_eqb a b = true -> a = b.
Proof.
  intros [a|] [b|] H; cbn in H; try discriminate; [|easy]. f_equal. revert H. apply list_eqb_eq, re_eqb_eq.
Qed.

Fixpoint pmem (p : st * st) (l : list (st * st)) : bool :=
  match l with
  | [] => false
  | q :: l' => if st_eqb (fst p) (fst q) then if st_eqb (snd p) (snd q) then true else pmem p l' else pmem p l'
  end.
Lemma pmem_in : forall p l, pmem p l = true -> In p l.
Proof.
  intros [x y]. induction l as [|[x' y'] l IH]; cbn; intros H; [easy|].
  destruct (st_eqb x x') eqn:E1; [|auto]. destruct (st_eqb y y') eqn:E2; [|auto].
  apply st_eqb_eq in E1, E2. left. congruence.
Qed.

(** successors for all characters of the alphabet, without the dead ones and
    without repetition *)
Fixpoint succs (s e : bool) (sigma : list char) (A B : st) (acc : list (st * st)) : list (st * st) :=
  match sigma with
  | [] => acc
  | c :: sigma' =>
      let B' := st_step s e c B in
      if st_dead B' then succs s e sigma' A B acc else
      let A' := st_step s e c A in
      if st_dead A' then succs s e sigma' A B acc else
      if pmem (A', B') acc then succs s e sigma' A B acc
      else succs s e sigma' A B ((A', B') :: acc)
  end.
Lemma succs_in : forall s e A B sigma acc,
  (forall p, In p acc -> In p (succs s e sigma A B acc)) /\
  (forall c, In c sigma -> st_dead (st_step s e c A) = false -> st_dead (st_step s e c B) = false ->
     In (st_step s e c A, st_step s e c B) (succs s e sigma A B acc)).
Proof.
  intros s e A B. induction sigma as [|c sigma IH]; intros acc; cbn [succs]; [now split|].
  destruct (st_dead (st_step s e c B)) eqn:EB.
  { split; [apply IH|]. intros d [<-|I] H1 H2; [congruence|]. now apply IH. }
  destruct (st_dead (st_step s e c A)) eqn:EA.
  { split; [apply IH|]. intros d [<-|I] H1 H2; [congruence|]. now apply IH. }
  destruct (pmem _ acc) eqn:EP.
  - split; [apply IH|]. intros d [<-|I] H1 H2; [|now apply IH]. apply (proj1 (IH acc)). now apply pmem_in.
  - split.
    + intros p I. apply IH. now right.
    + intros d [<-|I] H1 H2; [|now apply IH]. apply (proj1 (IH _)). now left.
Qed.

(** no text of length [n] leads both states to a match *)
Fixpoint apart (sigma : list char) (n : nat) (s : bool) (A B : st) : bool :=
  match n with
  | O => match A, B with None, None => false | _, _ => true end
  | S n' => forallb (fun p => apart sigma n' false (fst p) (snd p))
                    (succs s (Nat.eqb n' 0) sigma A B [])
  end.

(** a state is on the way to a match of the rest [w], [b] being the text before *)
Definition leads (x : st) (b w : str) : Prop :=
  match x with
  | None => True
  | Some l => exists r t a, In r l /\ w = t ++ a /\ t <> [] /\ lang r b t a
  end.

Lemma settle_leads : forall b r t a l, In r l -> lang r b t a -> at_nil b = false ->
  leads (settle false (at_nil (t ++ a)) l) b (t ++ a).
Proof.
  intros b r t a l I L Hb. unfold settle. destruct (nuls _ _ l) eqn:E; [easy|]. cbn.
  destruct t as [|x t].
  - exfalso. cbn in E. assert (nuls false (at_nil a) l = true); [|congruence].
    apply existsb_exists. exists r. split; [easy|]. rewrite <- Hb. now apply (proj1 nul_sound _ _ _ _ L).
  - exists r, (x :: t), a. easy.
Qed.

Lemma step_leads : forall x b c w, leads x b (c :: w) ->
  leads (st_step (at_nil b) (at_nil w) c x) (b ++ [c]) w.
Proof.
  intros [l|] b c w H; [|easy]. cbn [st_step]. destruct H as (r & t & a & I & E & Ht & L).
  destruct t as [|y t]; [easy|]. cbn in E. inversion E; subst y w.
  destruct (proj1 pd_sound _ _ _ _ L c t eq_refl) as (r' & I' & L').
  apply settle_leads with r'.
  - unfold pds. apply dedup_in. left. apply in_flat_map. eauto.
  - exact L'.
  - destruct b; easy.
Qed.

Lemma leads_not_dead : forall x b w, leads x b w -> st_dead x = false.
Proof. intros [[|r l]|] b w H; cbn in *; try easy. destruct H as (r & t & a & [] & _). Qed.

Theorem apart_sound : forall sigma w b A B, (forall c, In c w -> In c sigma) ->
  apart sigma (length w) (at_nil b) A B = true -> leads A b w -> leads B b w -> False.
Proof.
  intros sigma. induction w as [|c w IH]; intros b A B Hw H HA HB; cbn [apart length] in H.
  - destruct A as [l|]. { destruct HA as (r & t & a & _ & E & Ht & _). symmetry in E. apply app_eq_nil in E. now elim Ht. }
    destruct B as [l|]. { destruct HB as (r & t & a & _ & E & Ht & _). symmetry in E. apply app_eq_nil in E. now elim Ht. }
    discriminate.
  - assert (Hl : Nat.eqb (length w) 0 = at_nil w) by (destruct w; easy). rewrite Hl in H.
    apply step_leads in HA. apply step_leads in HB. rewrite forallb_forall in H.
    refine (IH (b ++ [c]) _ _ _ _ HA HB).
    + intros d I. apply Hw. now right.
    + replace (at_nil (b ++ [c])) with false by (destruct b; easy).
      apply (H (st_step (at_nil b) (at_nil w) c A, st_step (at_nil b) (at_nil w) c B)).
      apply succs_in; [apply Hw; now left|eapply leads_not_dead; eauto..].
Qed.

(** The analysis of two patterns: [ra] matched at the start (maybe empty),
    [rb] with a non-empty match *)
Definition start_st (r : re) (n : nat) : st := settle true (Nat.eqb n 0) [r].
Definition re_apart (sigma : list char) (n : nat) (ra rb : re) : bool :=
  apart sigma n true (start_st ra n) (Some [rb]).

Theorem re_apart_sound : forall sigma ra rb w, (forall c, In c w -> In c sigma) ->
  re_apart sigma (length w) ra rb = true ->
  matches_prefix ra w -> (exists t a, w = t ++ a /\ t <> [] /\ lang rb [] t a) -> False.
Proof.
  intros sigma ra rb w Hw H (t & a & E & L) HB. unfold re_apart in H.
  apply (apart_sound sigma w [] _ _ Hw H).
  - unfold start_st, settle. destruct (nuls _ _ [ra]) eqn:En; [easy|]. cbn. exists ra, t, a.
    split; [now left|]. split; [easy|]. split; [|easy]. intros ->. cbn in E. subst w.
    assert (nuls true (Nat.eqb (length a) 0) [ra] = true); [|congruence].
    cbn. pose proof (proj1 nul_sound _ _ _ _ L eq_refl) as N. cbn in N.
    replace (Nat.eqb (length a) 0) with (at_nil a) by (destruct a; easy). now rewrite N.
  - cbn. destruct HB as (u & v & E2 & Hu & L2). exists rb, u, v. split; [now left|easy].
Qed.

(** Every non-empty match starts with a character of [P]. *)
Definition first_in (sigma P : list char) (r : re) : bool :=
  forallb (fun c => if mem_char c P then true else st_dead (Some (pds true c [r]))) sigma.
Lemma first_in_sound : forall sigma P r c t a, first_in sigma P r = true -> In c sigma ->
  lang r [] (c :: t) a -> In c P.
Proof.
  intros sigma P r c t a H I L. unfold first_in in H. rewrite forallb_forall in H. apply H in I.
  destruct (mem_char c P) eqn:E.
  - unfold mem_char in E. apply existsb_exists in E as (x & Ix & Ex). apply N.eqb_eq in Ex. now subst.
  - exfalso. destruct (proj1 pd_sound _ _ _ _ L c t eq_refl) as (r' & I' & _). cbn in I'.
    assert (G : In r' (pds true c [r])).
    { unfold pds. apply dedup_in. left. cbn. now rewrite app_nil_r. }
    destruct (pds true c [r]); [easy|discriminate].
Qed.

(** ** Lower bounds on the length of a match *)
Fixpoint minlen (r : re) : nat :=
  match r with
  | REps | RStart | REnd => 0
  | RCls _ => 1
  | RCat a b => minlen a + minlen b
  | RAlt a b => Nat.min (minlen a) (minlen b)
  | RRep _ mn _ r => mn * minlen r
  | RGrp _ r => minlen r
  end.
Lemma minlen_sound :
  (forall r b t a, lang r b t a -> minlen r <= length t) /\
  (forall r n b t a, langs r n b t a -> n * minlen r <= length t).
Proof.
  apply lang_langs_ind; intros; cbn [minlen]; rewrite ?app_length; cbn [length]; try lia.
  - apply Nat.le_trans with (n * minlen r); [|exact H]. apply Nat.mul_le_mono_r. lia.
Qed.
