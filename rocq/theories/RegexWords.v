(** * RegexWords: patterns with finitely many shapes, and which match is found *)
From Verif Require Import Base Unicode Regex RegexLang StrFacts RegexFacts.

(** ** What a pattern means, with its groups
    [glang r b t a g]: as [RegexLang.lang], and [g] lists the groups that take
    part with the text each has matched, latest first. *)
Inductive glang : re -> str -> str -> str -> list (nat * str) -> Prop :=
| G_eps : forall b a, glang REps b [] a []
| G_cls : forall c x b a, in_cls c x = true -> glang (RCls c) b [x] a []
| G_cat : forall r1 r2 b t1 t2 a g1 g2,
    glang r1 b t1 (t2 ++ a) g1 -> glang r2 (b ++ t1) t2 a g2 -> glang (RCat r1 r2) b (t1 ++ t2) a (g2 ++ g1)
| G_alt1 : forall r1 r2 b t a g, glang r1 b t a g -> glang (RAlt r1 r2) b t a g
| G_alt2 : forall r1 r2 b t a g, glang r2 b t a g -> glang (RAlt r1 r2) b t a g
| G_rep : forall gr mn mx r n b t a g,
    mn <= n -> match mx with Some k => n <= Nat.max mn k | None => True end ->
    glangs r n b t a g -> glang (RRep gr mn mx r) b t a g
| G_grp : forall i r b t a g, glang r b t a g -> glang (RGrp i r) b t a ((i, t) :: g)
| G_start : forall a, glang RStart [] [] a []
| G_end : forall b, glang REnd b [] [] []
with glangs : re -> nat -> str -> str -> str -> list (nat * str) -> Prop :=
| GS_0 : forall r b a, glangs r 0 b [] a []
| GS_S : forall r n b t1 t2 a g1 g2,
    glang r b t1 (t2 ++ a) g1 -> glangs r n (b ++ t1) t2 a g2 -> glangs r (S n) b (t1 ++ t2) a (g2 ++ g1).
Scheme glang_ind2 := Induction for glang Sort Prop
  with glangs_ind2 := Induction for glangs Sort Prop.
Combined Scheme glang_glangs_ind from glang_ind2, glangs_ind2.

Lemma glang_forget :
  (forall r b t a g, glang r b t a g -> lang r b t a) /\ (forall r n b t a g, glangs r n b t a g -> langs r n b t a).
Proof. apply glang_glangs_ind; intros; try (now constructor); eauto using lang, langs. Qed.
Lemma glang_exists :
  (forall r b t a, lang r b t a -> exists g, glang r b t a g) /\ (forall r n b t a, langs r n b t a -> exists g, glangs r n b t a g).
Proof.
  apply lang_langs_ind; intros;
    repeat match goal with H : exists _, _ |- _ => destruct H end; eexists; try (now constructor); eauto using glang, glangs.
Qed.

(** ** Words: the shapes a pattern can match, in the order in which they are tried *)
Record word := mk_word { w_cls : list cls; w_end : bool; w_grps : list (nat * (nat * nat)) }.
Definition weps : word := mk_word [] false [].
Definition shift (n : nat) (p : nat * (nat * nat)) : nat * (nat * nat) := (fst p, (n + fst (snd p), snd (snd p))).
Definition wcat (v w : word) : list word :=
  if w_end v then
    match w_cls w with
    | [] => [mk_word (w_cls v) true (map (shift (length (w_cls v))) (w_grps w) ++ w_grps v)]
    | _ => []
    end
  else [mk_word (w_cls v ++ w_cls w) (w_end w) (map (shift (length (w_cls v))) (w_grps w) ++ w_grps v)].
Definition wprod (V W : list word) : list word := flat_map (fun v => flat_map (wcat v) W) V.
Fixpoint wcopies (W : list word) (n : nat) : list word := match n with O => [weps] | S n' => wprod W (wcopies W n') end.
Fixpoint wupto (greedy : bool) (W : list word) (n : nat) : list word :=
  match n with
  | O => [weps]
  | S n' => let more := wprod W (wupto greedy W n') in if greedy then more ++ [weps] else weps :: more
  end.
Fixpoint words (r : re) : option (list word) :=
  match r with
  | REps => Some [weps]
  | RCls c => Some [mk_word [c] false []]
  | RCat a b => match words a, words b with Some V, Some W => Some (wprod V W) | _, _ => None end
  | RAlt a b => match words a, words b with Some V, Some W => Some (V ++ W) | _, _ => None end
  | RRep g mn mx r =>
      match mx, words r with
      | Some k, Some W => Some (wprod (wcopies W mn) (wupto g W (k - mn)))
      | _, _ => None
      end
  | RGrp i r => option_map (map (fun w => mk_word (w_cls w) (w_end w) ((i, (0, length (w_cls w))) :: w_grps w))) (words r)
  | RStart => None
  | REnd => Some [mk_word [] true []]
  end.

(** a word on the rest of a text: what is left and the groups *)
Fixpoint eats (cs : list cls) (s : str) : option str :=
  match cs with
  | [] => Some s
  | c :: cs' => match s with x :: s' => if in_cls c x then eats cs' s' else None | [] => None end
  end.
Definition view : Type := str * list (nat * str).
Definition cut (s : str) (p : nat * (nat * nat)) : nat * str := (fst p, firstn (snd (snd p)) (skipn (fst (snd p)) s)).
Definition wgo (w : word) (v : view) : list view :=
  match eats (w_cls w) (fst v) with
  | None => []
  | Some rest =>
      if w_end w then match rest with [] => [(rest, map (cut (fst v)) (w_grps w) ++ snd v)] | _ => [] end
      else [(rest, map (cut (fst v)) (w_grps w) ++ snd v)]
  end.

Lemma eats_app : forall c1 c2 s, eats (c1 ++ c2) s = match eats c1 s with Some r => eats c2 r | None => None end.
Proof. induction c1 as [|c c1 IH]; intros c2 s; [reflexivity|]. destruct s as [|x s]; [reflexivity|]. cbn [app eats]. destruct (in_cls c x); [apply IH|reflexivity]. Qed.
Lemma eats_skipn : forall cs s r, eats cs s = Some r -> r = skipn (length cs) s /\ length cs <= length s.
Proof.
  induction cs as [|c cs IH]; intros s r H; cbn [eats] in H; [inversion H; split; [reflexivity|cbn; lia]|].
  destruct s as [|x s]; [discriminate|]. destruct (in_cls c x); [|discriminate]. apply IH in H as [-> H]. cbn. split; [reflexivity|lia].
Qed.
Lemma skipn_skipn' : forall (s : str) n k, skipn k (skipn n s) = skipn (n + k) s.
Proof. induction s as [|c s IH]; intros n k; [now rewrite !skipn_nil|]. destruct n; [reflexivity|]. cbn. apply IH. Qed.
Lemma cut_shift : forall s n p, cut (skipn n s) p = cut s (shift n p).
Proof. intros s n [i [a l]]. unfold cut, shift. cbn [fst snd]. now rewrite skipn_skipn'. Qed.
Lemma map_cut_shift : forall s n g, map (cut (skipn n s)) g = map (cut s) (map (shift n) g).
Proof. intros s n g. rewrite map_map. apply map_ext. intros p. apply cut_shift. Qed.

Lemma wcat_go : forall v w u, flat_map (fun x => wgo x u) (wcat v w) = flat_map (wgo w) (wgo v u).
Proof.
  intros v w [s g]. unfold wcat. destruct (w_end v) eqn:Ev.
  - destruct (w_cls w) as [|c cw] eqn:Ew.
    + cbn [flat_map]. rewrite app_nil_r. unfold wgo. cbn [w_cls w_end w_grps fst snd]. rewrite Ev, Ew.
      destruct (eats (w_cls v) s) as [[|y r]|] eqn:E; [|reflexivity|reflexivity]. cbn [flat_map eats fst snd]. rewrite app_nil_r.
      apply eats_skipn in E as [E _]. destruct (w_end w); rewrite E, map_app, map_cut_shift, <- app_assoc; reflexivity.
    + cbn [flat_map]. unfold wgo at 2. cbn [fst snd]. rewrite Ev. destruct (eats (w_cls v) s) as [[|y r]|]; try reflexivity.
      cbn [flat_map]. unfold wgo. rewrite Ew. reflexivity.
  - cbn [flat_map]. rewrite app_nil_r. unfold wgo. cbn [w_cls w_end w_grps fst snd]. rewrite Ev, eats_app.
    destruct (eats (w_cls v) s) as [r|] eqn:E; [|reflexivity]. cbn [flat_map fst snd]. rewrite app_nil_r.
    apply eats_skipn in E as [E _].
    destruct (eats (w_cls w) r) as [r2|]; [|reflexivity]. rewrite E, map_app, map_cut_shift, <- app_assoc. reflexivity.
Qed.
Lemma flat_map_flat_map : forall A B C (f : A -> list B) (g : B -> list C) l, flat_map g (flat_map f l) = flat_map (fun x => flat_map g (f x)) l.
Proof. induction l as [|x l IH]; [reflexivity|]. cbn. now rewrite flat_map_app, IH. Qed.
Lemma flat_map_ext' : forall A B (f g : A -> list B) l, (forall x, f x = g x) -> flat_map f l = flat_map g l.
Proof. intros A B f g l H. induction l as [|x l IH]; [reflexivity|]. cbn. now rewrite H, IH. Qed.
Definition gos (W : list word) (u : view) : list view := flat_map (fun w => wgo w u) W.
Lemma wgo_one : forall w u, wgo w u = [] \/ exists x, wgo w u = [x].
Proof.
  intros w u. unfold wgo. destruct (eats _ _) as [r|]; [|now left]. destruct (w_end w); [destruct r|]; eauto.
Qed.
Lemma wprod_go : forall V W u, gos (wprod V W) u = flat_map (gos W) (gos V u).
Proof.
  intros V W u. unfold gos, wprod. rewrite !flat_map_flat_map. apply flat_map_ext'. intros v. rewrite flat_map_flat_map.
  rewrite (flat_map_ext' _ _ _ _ W (fun w => wcat_go v w u)).
  destruct (wgo_one v u) as [->|(x & ->)]; cbn [flat_map].
  - induction W; [reflexivity|]. cbn. assumption.
  - rewrite app_nil_r. apply flat_map_ext'. intros w. now rewrite app_nil_r.
Qed.

(** ** The matcher runs through the words *)
Definition vw (s : mst) : view := (m_rest s, map (fun p => (fst p, cap_text (snd p))) (m_caps s)).
Lemma weps_go : forall u, gos [weps] u = [u].
Proof. intros [s g]. reflexivity. Qed.
Lemma map_flat_map : forall A B C (f : A -> list B) (g : B -> C) l, map g (flat_map f l) = flat_map (fun x => map g (f x)) l.
Proof. induction l as [|x l IH]; [reflexivity|]. cbn. now rewrite map_app, IH. Qed.
Lemma flat_map_map' : forall A B C (f : A -> B) (g : B -> list C) l, flat_map g (map f l) = flat_map (fun x => g (f x)) l.
Proof. induction l as [|x l IH]; [reflexivity|]. cbn. now rewrite IH. Qed.
Lemma words_ms : forall r W, words r = Some W -> forall s, map vw (ms r s) = gos W (vw s).
Proof.
  induction r as [|c|a IHa b IHb|a IHa b IHb|g mn mx r IHr|i r IHr| |]; intros W HW s; cbn [words ms] in *.
  - inversion HW. now rewrite weps_go.
  - inversion HW. unfold gos, wgo, step_cls, vw. cbn [flat_map w_cls w_end w_grps eats fst snd app map].
    destruct (m_rest s) as [|x rest]; [reflexivity|]. destruct (in_cls c x); reflexivity.
  - destruct (words a) as [V|]; [|discriminate]. destruct (words b) as [X|]; [|discriminate]. inversion HW; subst.
    rewrite wprod_go, <- (IHa V eq_refl s), map_flat_map, flat_map_map'. apply flat_map_ext'. intros x. now apply IHb.
  - destruct (words a) as [V|]; [|discriminate]. destruct (words b) as [X|]; [|discriminate]. inversion HW; subst.
    unfold gos. rewrite map_app, flat_map_app. fold (gos V (vw s)). fold (gos X (vw s)). now rewrite (IHa V eq_refl), (IHb X eq_refl).
  - destruct mx as [k|]; [|discriminate]. destruct (words r) as [X|]; [|discriminate]. inversion HW; subst. specialize (IHr X eq_refl).
    assert (HC : forall n s, map vw (copies (ms r) n s) = gos (wcopies X n) (vw s)).
    { induction n as [|n IH]; intros s0; cbn [copies wcopies]; [now rewrite weps_go|].
      rewrite wprod_go, <- IHr, map_flat_map, flat_map_map'. apply flat_map_ext'. intros x. apply IH. }
    assert (HU : forall n s, map vw (upto (ms r) g false n s) = gos (wupto g X n) (vw s)).
    { induction n as [|n IH]; intros s0; cbn [upto wupto]; [now rewrite weps_go|].
      assert (M : map vw (flat_map (upto (ms r) g false n) (ms r s0)) = gos (wprod X (wupto g X n)) (vw s0)).
      { rewrite wprod_go, <- IHr, map_flat_map, flat_map_map'. apply flat_map_ext'. intros x. apply IH. }
      destruct g.
      - rewrite map_app, M. unfold gos. rewrite flat_map_app. fold (gos [weps] (vw s0)). now rewrite weps_go.
      - cbn [map]. rewrite M. change (weps :: wprod X (wupto false X n)) with ([weps] ++ wprod X (wupto false X n)). unfold gos. rewrite flat_map_app. fold (gos [weps] (vw s0)). now rewrite weps_go. }
    rewrite wprod_go, <- HC, map_flat_map, flat_map_map'. apply flat_map_ext'. intros x. apply HU.
  - destruct (words r) as [X|]; [|discriminate]. cbn [option_map] in HW. inversion HW; subst. clear HW.
    assert (E : map vw (map (close_grp i s) (ms r s)) =
      map (fun v => (fst v, (i, firstn (length (m_rest s) - length (fst v)) (m_rest s)) :: snd v)) (map vw (ms r s))).
    { rewrite !map_map. apply map_ext. intros x. reflexivity. }
    rewrite E, (IHr X eq_refl). clear E IHr. unfold gos. rewrite map_flat_map, flat_map_map'. apply flat_map_ext'. intros w.
    unfold wgo. cbn [w_cls w_end w_grps vw fst snd]. destruct (eats (w_cls w) (m_rest s)) as [r0|] eqn:Ee; [|reflexivity].
    apply eats_skipn in Ee as [Ee Hl].
    assert (Hf : firstn (length (m_rest s) - length r0) (m_rest s) = firstn (length (w_cls w)) (m_rest s)).
    { f_equal. rewrite Ee, skipn_length. lia. }
    destruct (w_end w); [destruct r0 as [|y r1]|]; cbn [map fst snd cut]; try reflexivity; rewrite Hf; reflexivity.
  - discriminate.
  - inversion HW. unfold gos, wgo, vw. cbn [flat_map w_cls w_end w_grps eats fst snd app map].
    destruct (m_rest s) eqn:Er; cbn [map app]; [now rewrite Er|reflexivity].
Qed.

(** ** The words are the meaning *)
Lemma gos_in : forall W u v, In v (gos W u) <-> exists w, In w W /\ wgo w u = [v].
Proof.
  intros W u v. unfold gos. rewrite in_flat_map. split; intros (w & Iw & H); exists w; (split; [exact Iw|]).
  - destruct (wgo_one w u) as [E|(x & E)]; rewrite E in *; [destruct H|]. destruct H as [->|[]]. reflexivity.
  - rewrite H. now left.
Qed.
Lemma gos_shift : forall W s g rest gs, In (rest, gs) (gos W (s, g)) <-> exists n, gs = n ++ g /\ In (rest, n) (gos W (s, [])).
Proof.
  intros W s g rest gs. unfold gos. split.
  - intros H. apply in_flat_map in H as (w & Iw & H). unfold wgo in H. cbn [fst snd] in H.
    destruct (eats (w_cls w) s) as [r|] eqn:E; [|destruct H].
    assert (K : rest = r /\ gs = map (cut s) (w_grps w) ++ g /\ (w_end w = true -> r = [])).
    { destruct (w_end w); [destruct r; [|destruct H]|]; destruct H as [H|[]]; inversion H; repeat split; auto; discriminate. }
    destruct K as (-> & -> & K). exists (map (cut s) (w_grps w)). split; [reflexivity|]. apply in_flat_map. exists w. split; [exact Iw|].
    unfold wgo. cbn [fst snd]. rewrite E, app_nil_r. destruct (w_end w); [rewrite K by reflexivity; rewrite K in H by reflexivity|]; now left.
  - intros (n & -> & H). apply in_flat_map in H as (w & Iw & H). apply in_flat_map. exists w. split; [exact Iw|]. unfold wgo in *. cbn [fst snd] in *.
    destruct (eats (w_cls w) s) as [r|] eqn:E; [|destruct H].
    destruct (w_end w); [destruct r; [|destruct H]|]; destruct H as [H|[]]; inversion H; rewrite app_nil_r; now left.
Qed.
Lemma gos_prod_in : forall V W s rest gs, In (rest, gs) (gos (wprod V W) (s, [])) <->
  exists mid g1 g2, In (mid, g1) (gos V (s, [])) /\ In (rest, g2) (gos W (mid, [])) /\ gs = g2 ++ g1.
Proof.
  intros V W s rest gs. rewrite wprod_go, in_flat_map. split.
  - intros ([mid g1] & H1 & H2). apply gos_shift in H2 as (g2 & -> & H2). eauto 8.
  - intros (mid & g1 & g2 & H1 & H2 & ->). exists (mid, g1). split; [exact H1|]. apply gos_shift. eauto.
Qed.
Lemma gos_weps_in : forall s rest gs, In (rest, gs) (gos [weps] (s, [])) <-> rest = s /\ gs = [].
Proof. intros s rest gs. rewrite weps_go. cbn [In]. split; [intros [H|[]]; inversion H; auto|intros [-> ->]; now left]. Qed.

Lemma gos_suffix : forall W s g rest gs, In (rest, gs) (gos W (s, g)) -> exists x, s = x ++ rest.
Proof.
  intros W s g rest gs H. apply in_flat_map in H as (w & _ & H). unfold wgo in H. cbn [fst snd] in H.
  destruct (eats (w_cls w) s) as [r|] eqn:E; [|destruct H]. apply eats_skipn in E as [E _].
  assert (K : rest = r) by (destruct (w_end w); [destruct r; [|destruct H]|]; destruct H as [H|[]]; now inversion H).
  exists (firstn (length (w_cls w)) s). rewrite K, E. symmetry. apply firstn_skipn.
Qed.
Lemma self_app : forall (t a : str), t ++ a = a -> t = [].
Proof. intros [|x t] a E; [reflexivity|]. apply (f_equal (@length _)) in E. cbn [app length] in E. rewrite app_length in E. lia. Qed.

Lemma words_glang : forall r W, words r = Some W -> forall b t a g, glang r b t a g <-> In (a, g) (gos W (t ++ a, [])).
Proof.
  induction r as [|c|r1 IH1 r2 IH2|r1 IH1 r2 IH2|gr mn mx r IHr|i r IHr| |]; intros W HW b t a g; cbn [words] in HW.
  - inversion HW; subst. rewrite gos_weps_in. split; [intros H; inversion H; auto|]. intros [E ->].
    symmetry in E. apply self_app in E. subst. constructor.
  - inversion HW; subst. unfold gos, wgo. cbn [flat_map w_cls w_end w_grps eats fst snd app map]. split.
    + intros H. inversion H as [|c0 x b0 a0 Hx| | | | | | |]; subst. cbn [app]. rewrite Hx. now left.
    + destruct t as [|x t].
      * cbn [app]. destruct a as [|x a]; [intros []|]. destruct (in_cls c x); [|intros []]. intros [K|[]].
        exfalso. inversion K. apply (f_equal (@length _)) in H0. cbn in H0. lia.
      * cbn [app]. destruct (in_cls c x) eqn:E; [|intros []]. intros [K|[]]. inversion K as [[K1 K2]].
        apply self_app in K1. subst t. now constructor.
  - destruct (words r1) as [V|]; [|discriminate]. destruct (words r2) as [X|]; [|discriminate]. inversion HW; subst. rewrite gos_prod_in. split.
    + intros H. inversion H; subst. exists (t2 ++ a), g1, g2. rewrite <- app_assoc. split; [now apply (IH1 V eq_refl b)|].
      split; [now apply (IH2 X eq_refl (b ++ t1))|reflexivity].
    + intros (mid & g1 & g2 & H1 & H2 & ->). destruct (gos_suffix _ _ _ _ _ H1) as (x1 & E1), (gos_suffix _ _ _ _ _ H2) as (x2 & E2).
      subst mid. rewrite app_assoc in E1. apply app_inv_tail in E1. subst t. rewrite <- app_assoc in H1. constructor.
      * now apply (IH1 V eq_refl b).
      * now apply (IH2 X eq_refl (b ++ x1)).
  - destruct (words r1) as [V|]; [|discriminate]. destruct (words r2) as [X|]; [|discriminate]. inversion HW; subst.
    unfold gos. rewrite flat_map_app, in_app_iff. fold (gos V (t ++ a, [])). fold (gos X (t ++ a, [])). split.
    + intros H. inversion H; subst; [left; now apply (IH1 V eq_refl b)|right; now apply (IH2 X eq_refl b)].
    + intros [H|H]; [apply G_alt1; now apply (IH1 V eq_refl b)|apply G_alt2; now apply (IH2 X eq_refl b)].
  - destruct mx as [k|]; [|discriminate]. destruct (words r) as [X|]; [|discriminate]. inversion HW; subst. specialize (IHr X eq_refl).
    assert (HC : forall n b t a g, glangs r n b t a g <-> In (a, g) (gos (wcopies X n) (t ++ a, []))).
    { induction n as [|n IH]; intros b0 t0 a0 g0; cbn [wcopies].
      - rewrite gos_weps_in. split; [intros H; inversion H; auto|]. intros [E ->]. symmetry in E. apply self_app in E. subst. constructor.
      - rewrite gos_prod_in. split.
        + intros H. inversion H; subst. exists (t2 ++ a0), g1, g2. rewrite <- app_assoc. split; [now apply (IHr b0)|].
          split; [now apply (IH (b0 ++ t1))|reflexivity].
        + intros (mid & g1 & g2 & H1 & H2 & ->). destruct (gos_suffix _ _ _ _ _ H1) as (x1 & E1), (gos_suffix _ _ _ _ _ H2) as (x2 & E2).
          subst mid. rewrite app_assoc in E1. apply app_inv_tail in E1. subst t0. rewrite <- app_assoc in H1. constructor.
          * now apply (IHr b0).
          * now apply (IH (b0 ++ x1)). }
    assert (HU : forall n b t a g, (exists j, j <= n /\ glangs r j b t a g) <-> In (a, g) (gos (wupto gr X n) (t ++ a, []))).
    { induction n as [|n IH]; intros b0 t0 a0 g0; cbn [wupto].
      - rewrite gos_weps_in. split.
        + intros (j & Hj & H). assert (j = 0) by lia. subst j. inversion H; auto.
        + intros [E ->]. symmetry in E. apply self_app in E. subst. exists 0. split; [lia|constructor].
      - assert (M : (exists j, 1 <= j <= S n /\ glangs r j b0 t0 a0 g0) <-> In (a0, g0) (gos (wprod X (wupto gr X n)) (t0 ++ a0, []))).
        { rewrite gos_prod_in. split.
          - intros (j & Hj & H). destruct j as [|j]; [lia|]. inversion H; subst. exists (t2 ++ a0), g1, g2. rewrite <- app_assoc. split; [now apply (IHr b0)|].
            split; [|reflexivity]. apply (IH (b0 ++ t1)). exists j. split; [lia|assumption].
          - intros (mid & g1 & g2 & H1 & H2 & ->). destruct (gos_suffix _ _ _ _ _ H1) as (x1 & E1), (gos_suffix _ _ _ _ _ H2) as (x2 & E2).
            subst mid. rewrite app_assoc in E1. apply app_inv_tail in E1. subst t0. rewrite <- app_assoc in H1.
            destruct (proj2 (IH (b0 ++ x1) _ _ _) H2) as (j & Hj & H3). exists (S j). split; [lia|]. constructor; [now apply (IHr b0)|exact H3]. }
        assert (N : (exists j, j <= S n /\ glangs r j b0 t0 a0 g0) <->
          In (a0, g0) (gos (wprod X (wupto gr X n)) (t0 ++ a0, [])) \/ In (a0, g0) (gos [weps] (t0 ++ a0, []))).
        { rewrite <- M, gos_weps_in. split.
          - intros ([|j] & Hj & H); [right; inversion H; auto|left]. exists (S j). split; [lia|exact H].
          - intros [(j & Hj & H)|[E ->]]; [exists j; split; [lia|exact H]|]. symmetry in E. apply self_app in E. subst. exists 0. split; [lia|constructor]. }
        rewrite N. destruct gr.
        + unfold gos. rewrite flat_map_app, in_app_iff. reflexivity.
        + change (weps :: wprod X (wupto false X n)) with ([weps] ++ wprod X (wupto false X n)). unfold gos. rewrite flat_map_app, in_app_iff. apply or_comm. }
    rewrite gos_prod_in. split.
    + intros H. inversion H; subst. assert (Hn : exists j, n = mn + j /\ j <= k - mn) by (exists (n - mn); lia).
      destruct Hn as (j & -> & Hj).
      assert (Sp : forall i b t a g, glangs r (i + j) b t a g -> exists t1 t2 g1 g2, t = t1 ++ t2 /\ g = g2 ++ g1
          /\ glangs r i b t1 (t2 ++ a) g1 /\ glangs r j (b ++ t1) t2 a g2).
      { induction i as [|i IH]; intros b0 t0 a0 g0 G; cbn [Nat.add] in G.
        - exists [], t0, [], g0. rewrite !app_nil_r. repeat split; auto. constructor.
        - inversion G as [|r0 n0 b1 t1 t2 a1 g1 g2 K3 K4]; subst. apply IH in K4 as (u1 & u2 & h1 & h2 & -> & -> & K1 & K2). exists (t1 ++ u1), u2, (h1 ++ g1), h2.
          rewrite <- !app_assoc in *. repeat split; auto. constructor; [exact K3|exact K1]. }
      destruct (Sp mn b t a g) as (t1 & t2 & g1 & g2 & -> & -> & K1 & K2); [assumption|].
      exists (t2 ++ a), g1, g2. rewrite <- app_assoc. split; [now apply (HC mn b)|]. split; [|reflexivity]. apply (HU (k - mn) (b ++ t1)). eauto.
    + intros (mid & g1 & g2 & H1 & H2 & ->). destruct (gos_suffix _ _ _ _ _ H1) as (x1 & E1), (gos_suffix _ _ _ _ _ H2) as (x2 & E2).
      subst mid. rewrite app_assoc in E1. apply app_inv_tail in E1. subst t. rewrite <- app_assoc in H1.
      apply (HC mn b) in H1. destruct (proj2 (HU (k - mn) (b ++ x1) _ _ _) H2) as (j & Hj & H3). clear H2. rename H3 into H2. apply G_rep with (n := mn + j); [lia|lia|].
      clear - H1 H2. revert b x1 g1 H1 H2. induction mn as [|mn IH]; intros b x1 g1 H1 H2.
      * inversion H1; subst. now rewrite !app_nil_r in *.
      * cbn [Nat.add]. inversion H1; subst. rewrite !app_assoc. rewrite <- app_assoc. constructor; [now rewrite <- app_assoc|].
        apply IH; [assumption|]. now rewrite <- app_assoc.
  - destruct (words r) as [X|]; [|discriminate]. cbn [option_map] in HW. inversion HW; subst. specialize (IHr X eq_refl).
    assert (K : forall g, In (a, g) (gos (map (fun w => mk_word (w_cls w) (w_end w) ((i, (0, length (w_cls w))) :: w_grps w)) X) (t ++ a, []))
       <-> exists g', g = (i, t) :: g' /\ In (a, g') (gos X (t ++ a, []))).
    { intros g0. unfold gos. rewrite flat_map_map'. rewrite !in_flat_map.
      assert (P : forall w, eats (w_cls w) (t ++ a) = Some a -> firstn (length (w_cls w)) (t ++ a) = t).
      { intros w Ew. apply eats_skipn in Ew as [Ew Hl]. assert (L : length (w_cls w) = length t).
        { apply (f_equal (@length _)) in Ew. rewrite skipn_length, app_length in *. lia. }
        rewrite L, firstn_app, firstn_all, Nat.sub_diag, firstn_O. apply app_nil_r. }
      split.
      - intros (w & Iw & H). unfold wgo in H. cbn [w_cls w_end w_grps fst snd] in H. destruct (eats (w_cls w) (t ++ a)) as [r0|] eqn:E; [|destruct H].
        assert (Q : r0 = a /\ g0 = map (cut (t ++ a)) ((i, (0, length (w_cls w))) :: w_grps w) ++ [] /\ (w_end w = true -> a = [])).
        { destruct (w_end w); [destruct r0; [|destruct H]|]; destruct H as [H|[]]; inversion H; repeat split; auto; discriminate. }
        destruct Q as (-> & -> & Q). exists (map (cut (t ++ a)) (w_grps w) ++ []). split.
        + cbn [map app]. f_equal. unfold cut. cbn [fst snd skipn]. now rewrite (P w E).
        + apply in_flat_map. exists w. split; [exact Iw|]. unfold wgo. cbn [fst snd]. rewrite E. destruct (w_end w); [specialize (Q eq_refl); subst a|]; now left.
      - intros (g' & -> & H). apply in_flat_map in H as (w & Iw & H). exists w. split; [exact Iw|]. unfold wgo in *. cbn [w_cls w_end w_grps fst snd] in *.
        destruct (eats (w_cls w) (t ++ a)) as [r0|] eqn:E; [|destruct H].
        assert (Q : r0 = a /\ g' = map (cut (t ++ a)) (w_grps w) ++ [] /\ (w_end w = true -> a = [])).
        { destruct (w_end w); [destruct r0; [|destruct H]|]; destruct H as [H|[]]; inversion H; repeat split; auto; discriminate. }
        destruct Q as (-> & -> & Q). assert (R : (i, t) :: map (cut (t ++ a)) (w_grps w) ++ [] = map (cut (t ++ a)) ((i, (0, length (w_cls w))) :: w_grps w) ++ []).
        { cbn [map app]. f_equal. unfold cut. cbn [fst snd skipn]. now rewrite (P w E). }
        rewrite R. destruct (w_end w); [specialize (Q eq_refl); subst a|]; now left. }
    rewrite K. split.
    + intros H. inversion H; subst. eexists. split; [reflexivity|]. now apply (IHr b).
    + intros (g' & -> & H). constructor. now apply (IHr b).
  - discriminate.
  - inversion HW; subst. unfold gos, wgo. cbn [flat_map w_cls w_end w_grps eats fst snd app map]. split.
    + intros H. inversion H; subst. now left.
    + destruct t as [|x t]; cbn [app].
      * destruct a as [|x a]; [intros [H|[]]; inversion H; constructor|intros []].
      * intros H. destruct H.
Qed.

(** ** The match that is found *)
(** the text of a group; group 0 is the whole match *)
Fixpoint assoc (k : nat) (gs : list (nat * str)) : option str :=
  match gs with [] => None | (i, t) :: gs' => if Nat.eqb k i then Some t else assoc k gs' end.
Definition group (x : str) (gs : list (nat * str)) (k : nat) : option str := match k with O => Some x | S _ => assoc k gs end.
(** [p] matches [x] at the start of [e], with the groups [gs], and no more than
    that; among matches this long, one in which the last group takes part, if there is any. *)
Definition found (p : regex) (e x rest : str) (gs : list (nat * str)) : Prop :=
  e = x ++ rest /\ glang (re_ast p) [] x rest gs
  /\ forall x' rest' gs', e = x' ++ rest' -> glang (re_ast p) [] x' rest' gs' ->
       length x' <= length x
       /\ (length x' = length x -> group x' gs' (re_ngroups p) <> None -> group x gs (re_ngroups p) <> None).

(** *** A check that the first word that fits is the one found *)
Definition ten : list char := Eval vm_compute in lit "0123456789".
Definition mask (c : cls) : N := fold_right (fun x acc => if in_cls c x then N.setbit acc (x - 48) else acc) 0%N ten.
Fixpoint meet (a b : list N) : bool :=
  match a, b with x :: a', y :: b' => if N.eqb (N.land x y) 0 then false else meet a' b' | _, _ => true end.
Definition mword : Type := list N * word.
Definition masked (w : word) : mword := (map mask (w_cls w), w).
Definition both (v w : mword) : bool :=
  if meet (fst v) (fst w) then
    if w_end (snd v) && (length (w_cls (snd v)) <? length (w_cls (snd w))) then false
    else if w_end (snd w) && (length (w_cls (snd w)) <? length (w_cls (snd v))) then false else true
  else false.
Fixpoint grps_eqb (a b : list (nat * (nat * nat))) : bool :=
  match a, b with
  | [], [] => true
  | (i, (j, k)) :: a', (i', (j', k')) :: b' => if Nat.eqb i i' && Nat.eqb j j' && Nat.eqb k k' then grps_eqb a' b' else false
  | _, _ => false
  end.
Definition takes (n : nat) (w : word) : bool := match n with O => true | S _ => existsb (fun p => Nat.eqb n (fst p)) (w_grps w) end.
Definition pair_ok (n : nat) (v w : mword) : bool :=
  if both v w then
    if length (w_cls (snd v)) <? length (w_cls (snd w)) then false
    else if length (w_cls (snd w)) <? length (w_cls (snd v)) then true
    else if grps_eqb (w_grps (snd v)) (w_grps (snd w)) then true
    else if takes n (snd v) then negb (takes n (snd w)) else false
  else true.
Fixpoint pairs_ok (n : nat) (l : list mword) : bool :=
  match l with [] => true | v :: l' => if forallb (pair_ok n v) l' then pairs_ok n l' else false end.
Definition good_pattern (p : regex) : bool :=
  match words (re_ast p) with
  | None => false
  | Some W => if forallb (fun w => length (w_cls w) <=? 30) W then pairs_ok (re_ngroups p) (map masked W) else false
  end.

Lemma mask_bit : forall c x, In x ten -> in_cls c x = true -> N.testbit (mask c) (x - 48) = true.
Proof.
  intros c x. unfold mask. generalize ten as l. induction l as [|y l IH]; intros I H; [destruct I|]. cbn [fold_right].
  destruct I as [->|I].
  - rewrite H. apply N.setbit_eq.
  - specialize (IH I H). destruct (in_cls c y); [|exact IH]. apply N.setbit_iff. now right.
Qed.
Lemma meet_sound : forall a b s r1 r2, Forall (fun x => In x ten) s -> eats a s = Some r1 -> eats b s = Some r2 -> meet (map mask a) (map mask b) = true.
Proof.
  induction a as [|c a IH]; intros b s r1 r2 F H1 H2; [reflexivity|]. destruct b as [|d b]; [reflexivity|]. cbn [eats map meet] in *.
  destruct s as [|x s]; [discriminate|]. destruct (in_cls c x) eqn:E1; [|discriminate]. destruct (in_cls d x) eqn:E2; [|discriminate].
  inversion F; subst. assert (B : N.testbit (N.land (mask c) (mask d)) (x - 48) = true).
  { rewrite N.land_spec, (mask_bit c x), (mask_bit d x) by assumption. reflexivity. }
  destruct (N.eqb_spec (N.land (mask c) (mask d)) 0) as [Z|_]; [rewrite Z, N.bits_0 in B; discriminate|]. eapply IH; eauto.
Qed.
Lemma wgo_inv : forall w s v, wgo w (s, []) = [v] ->
  eats (w_cls w) s = Some (fst v) /\ snd v = map (cut s) (w_grps w) /\ (w_end w = true -> fst v = []).
Proof.
  intros w s v H. unfold wgo in H. cbn [fst snd] in H. destruct (eats (w_cls w) s) as [r|]; [|discriminate]. rewrite app_nil_r in H.
  destruct (w_end w); [destruct r; [|discriminate]|]; inversion H; subst; cbn [fst snd]; auto. repeat split; auto. discriminate.
Qed.
Lemma both_sound : forall v w s x y, Forall (fun c => In c ten) s -> wgo v (s, []) = [x] -> wgo w (s, []) = [y] ->
  both (masked v) (masked w) = true.
Proof.
  intros v w s x y F Hv Hw. apply wgo_inv in Hv as (Ev & _ & Zv). apply wgo_inv in Hw as (Ew & _ & Zw).
  unfold both, masked. cbn [fst snd]. rewrite (meet_sound _ _ s _ _ F Ev Ew).
  apply eats_skipn in Ev as [Ev Lv]. apply eats_skipn in Ew as [Ew Lw].
  assert (Hv : w_end v = true -> length (w_cls w) <= length (w_cls v)).
  { intros E. apply Zv in E. rewrite E in Ev. apply (f_equal (@length _)) in Ev. rewrite skipn_length in Ev. cbn in Ev. lia. }
  assert (Hw : w_end w = true -> length (w_cls v) <= length (w_cls w)).
  { intros E. apply Zw in E. rewrite E in Ew. apply (f_equal (@length _)) in Ew. rewrite skipn_length in Ew. cbn in Ew. lia. }
  destruct (w_end v); cbn [andb]; [destruct (Nat.ltb_spec (length (w_cls v)) (length (w_cls w))); [specialize (Hv eq_refl); lia|]|];
  (destruct (w_end w); cbn [andb]; [destruct (Nat.ltb_spec (length (w_cls w)) (length (w_cls v))); [specialize (Hw eq_refl); lia|]|]; reflexivity).
Qed.
Lemma grps_eqb_eq : forall a b, grps_eqb a b = true -> a = b.
Proof.
  induction a as [|[i [j k]] a IH]; intros [|[i' [j' k']] b] H; try discriminate; [reflexivity|]. cbn [grps_eqb] in H.
  destruct (Nat.eqb_spec i i'); [|discriminate]. destruct (Nat.eqb_spec j j'); [|discriminate]. destruct (Nat.eqb_spec k k'); [|discriminate].
  subst. f_equal. now apply IH.
Qed.
Lemma takes_group : forall n w s x, group x (map (cut s) (w_grps w)) n <> None <-> takes n w = true.
Proof.
  intros [|n] w s x; cbn [group takes]; [split; [reflexivity|discriminate]|]. induction (w_grps w) as [|[i [j k]] l IH]; cbn [map assoc existsb cut fst snd].
  - split; [intros H; now elim H|discriminate].
  - destruct (Nat.eqb (S n) i); cbn [orb]; [split; [reflexivity|discriminate]|exact IH].
Qed.
Lemma pairs_later : forall n A v B w, pairs_ok n (A ++ v :: B) = true -> In w B -> pair_ok n v w = true.
Proof.
  induction A as [|a A IH]; intros v B w H I; cbn [app pairs_ok] in H.
  - destruct (forallb (pair_ok n v) B) eqn:E; [|discriminate]. rewrite forallb_forall in E. now apply E.
  - destruct (forallb (pair_ok n a) _); [|discriminate]. now apply (IH v B w).
Qed.
Lemma gos_head : forall W u v, hd_error (gos W u) = Some v ->
  exists A w B, W = A ++ w :: B /\ wgo w u = [v] /\ forall w', In w' A -> wgo w' u = [].
Proof.
  induction W as [|w W IH]; intros u v H; [discriminate|]. unfold gos in H. cbn [flat_map] in H.
  destruct (wgo_one w u) as [E|(x & E)]; rewrite E in H.
  - apply IH in H as (A & w0 & B & -> & H1 & H2). exists (w :: A), w0, B. split; [reflexivity|]. split; [exact H1|].
    intros w' [<-|I]; [exact E|auto].
  - cbn in H. inversion H; subst. exists [], w, W. split; [reflexivity|]. split; [exact E|]. intros w' [].
Qed.

Section good.
  Variables (p : regex) (W : list word).
  Hypothesis HW : words (re_ast p) = Some W.
  Hypothesis Hg : pairs_ok (re_ngroups p) (map masked W) = true.
  Lemma first_found : forall e rest gs, Forall (fun c => In c ten) e -> hd_error (gos W (e, [])) = Some (rest, gs) ->
    exists x, found p e x rest gs.
  Proof.
    intros e rest gs F H. assert (I : In (rest, gs) (gos W (e, []))) by (destruct (gos W (e, [])); [discriminate|inversion H; now left]).
    destruct (gos_suffix _ _ _ _ _ I) as (x & Ex). exists x. split; [exact Ex|].
    split; [apply (words_glang _ _ HW); now rewrite <- Ex|]. intros x' rest' gs' Ex' G.
    apply (words_glang _ _ HW) in G. rewrite <- Ex' in G. apply gos_in in G as (w' & Iw' & G).
    destruct (gos_head _ _ _ H) as (A & w & B & EW & Hw & HA).
    pose proof (wgo_inv _ _ _ Hw) as (E1 & E2 & _). pose proof (wgo_inv _ _ _ G) as (E3 & E4 & _). cbn [fst snd] in *.
    apply eats_skipn in E1 as [E1 L1]. apply eats_skipn in E3 as [E3 L3].
    assert (Lx : length x = length (w_cls w)).
    { apply (f_equal (@length _)) in Ex, E1. rewrite app_length, skipn_length in *. lia. }
    assert (Lx' : length x' = length (w_cls w')).
    { apply (f_equal (@length _)) in Ex', E3. rewrite app_length, skipn_length in *. lia. }
    rewrite EW in Iw'. apply in_app_iff in Iw' as [K|[K|K]].
    - apply HA in K. rewrite K in G. discriminate.
    - subst w'. split; [lia|]. intros _ K. rewrite E2. rewrite E4 in K. apply takes_group. apply takes_group in K. exact K.
    - rewrite EW, map_app in Hg. cbn [map] in Hg. pose proof (pairs_later _ _ _ _ (masked w') Hg (in_map masked _ _ K)) as P.
      unfold pair_ok in P. rewrite (both_sound w w' e _ _ F Hw G) in P. unfold masked in P. cbn [snd] in P.
      destruct (Nat.ltb_spec (length (w_cls w)) (length (w_cls w'))); [discriminate|]. split; [lia|].
      intros El. destruct (Nat.ltb_spec (length (w_cls w')) (length (w_cls w))); [lia|].
      rewrite E2, E4, !takes_group. destruct (grps_eqb (w_grps w) (w_grps w')) eqn:Eg.
      + apply grps_eqb_eq in Eg. unfold takes. now rewrite Eg.
      + now destruct (takes (re_ngroups p) w).
  Qed.
  Lemma found_first : forall e x rest gs, Forall (fun c => In c ten) e -> found p e x rest gs -> hd_error (gos W (e, [])) = Some (rest, gs).
  Proof.
    intros e x rest gs F (Ex & G & M). pose proof G as G0. apply (words_glang _ _ HW) in G. rewrite <- Ex in G.
    destruct (hd_error (gos W (e, []))) as [[rest0 gs0]|] eqn:H; [|destruct (gos W (e, [])); [destruct G|discriminate]].
    destruct (first_found e rest0 gs0 F H) as (x0 & Ex0 & G1 & M0).
    destruct (M x0 rest0 gs0 Ex0 G1) as [L1 T1]. destruct (M0 x rest gs Ex G0) as [L0 T0]. assert (L : length x0 = length x) by lia.
    apply gos_in in G as (w' & Iw' & G). destruct (gos_head _ _ _ H) as (A & w & B & EW & Hw & HA).
    pose proof (wgo_inv _ _ _ Hw) as (E1 & E2 & _). pose proof (wgo_inv _ _ _ G) as (E3 & E4 & _). cbn [fst snd] in *.
    apply eats_skipn in E1 as [E1 K1]. apply eats_skipn in E3 as [E3 K3].
    assert (Lx : length x0 = length (w_cls w)).
    { apply (f_equal (@length _)) in Ex0, E1. rewrite app_length, skipn_length in *. lia. }
    assert (Lx' : length x = length (w_cls w')).
    { apply (f_equal (@length _)) in Ex, E3. rewrite app_length, skipn_length in *. lia. }
    assert (Er : rest0 = rest). { rewrite E1, E3. f_equal. lia. }
    rewrite EW in Iw'. apply in_app_iff in Iw' as [K|[K|K]].
    - apply HA in K. rewrite K in G. discriminate.
    - subst w'. rewrite E2, E4, Er. reflexivity.
    - rewrite EW, map_app in Hg. cbn [map] in Hg. pose proof (pairs_later _ _ _ _ (masked w') Hg (in_map masked _ _ K)) as P.
      unfold pair_ok in P. rewrite (both_sound w w' e _ _ F Hw G) in P. unfold masked in P. cbn [snd] in P.
      destruct (Nat.ltb_spec (length (w_cls w)) (length (w_cls w'))); [discriminate|].
      destruct (Nat.ltb_spec (length (w_cls w')) (length (w_cls w))); [lia|].
      destruct (grps_eqb (w_grps w) (w_grps w')) eqn:Eg; [apply grps_eqb_eq in Eg; rewrite E2, E4, Er, Eg; reflexivity|].
      exfalso. specialize (T1 L). rewrite E2, E4, !takes_group in T1. destruct (takes (re_ngroups p) w); [|discriminate].
      rewrite T1 in P by reflexivity. discriminate.
  Qed.
End good.

Lemma digits_ten : forall e, digits e = true -> Forall (fun c => In c ten) e.
Proof.
  intros e D. apply Forall_forall. intros c I. unfold digits in D. rewrite forallb_forall in D. apply D, is_digit_spec in I.
  assert (H : (c = 48 \/ c = 49 \/ c = 50 \/ c = 51 \/ c = 52 \/ c = 53 \/ c = 54 \/ c = 55 \/ c = 56 \/ c = 57)%N) by lia.
  unfold ten. cbn [In]. intuition auto.
Qed.
Theorem find_found : forall p e mr, good_pattern p = true -> digits e = true -> re_find p e = Some mr -> mr_pre mr = [] ->
  exists gs, found p e (mr_text mr) (mr_post mr) gs /\ (forall k, option_map cap_text (cap_get mr k) = group (mr_text mr) gs k)
    /\ length (mr_text mr) <= 30.
Proof.
  intros p e mr G D H Hp. unfold good_pattern in G. destruct (words (re_ast p)) as [W|] eqn:EW; [|discriminate].
  destruct (forallb _ W) eqn:EL; [|discriminate].
  pose proof (digits_ten e D) as F.
  pose proof H as H0. apply re_find_some in H0 as (Ee & _ & _). rewrite Hp in Ee. cbn [app] in Ee.
  unfold re_find in H. apply (find_at_some _ e []) in H as (sk & H1 & H2 & H3 & (st & Hst & Hr & Hcaps) & H5).
  rewrite Hp in Hst. cbn [blen] in Hst.
  assert (Hh : hd_error (gos W (e, [])) = Some (vw st)).
  { rewrite Ee. change (mr_text mr ++ mr_post mr, []) with (vw (mk_mst 0 (mr_text mr ++ mr_post mr) [])). rewrite <- (words_ms _ _ EW).
    destruct (ms _ _) as [|s0 l]; [discriminate|]. cbn in Hst |- *. now inversion Hst. }
  destruct (vw st) as [rest gs] eqn:Ev. unfold vw in Ev. inversion Ev as [[Er Eg]]. clear Ev.
  destruct (first_found p W EW G e rest gs F Hh) as (x & Fx). exists gs.
  assert (Ex : x = mr_text mr /\ rest = mr_post mr).
  { split; [|congruence]. destruct Fx as (Q & _). rewrite Q in Ee. replace rest with (mr_post mr) in Ee by congruence. now apply app_inv_tail in Ee. }
  destruct Ex as [-> ->]. split; [exact Fx|]. split.
  - intros [|k]; [reflexivity|]. cbn [cap_get group]. rewrite <- Eg, Hcaps. generalize (mr_caps mr) as l.
    induction l as [|[i c] l IH]; [reflexivity|]. cbn [cap_lookup map assoc fst snd]. destruct (Nat.eqb (S k) i); [reflexivity|exact IH].
  - destruct (gos_head _ _ _ Hh) as (A & w & B & HW & Hw & _). apply wgo_inv in Hw as (E1 & _ & _). cbn [fst] in E1.
    apply eats_skipn in E1 as [E1 L1]. rewrite forallb_forall in EL. specialize (EL w). rewrite HW in EL.
    assert (Iw : In w (A ++ w :: B)) by (apply in_app_iff; right; now left). apply EL, Nat.leb_le in Iw.
    apply (f_equal (@length _)) in Ee, E1. rewrite app_length, skipn_length in *. lia.
Qed.
Theorem found_once : forall p e x rest gs x' rest' gs', good_pattern p = true -> digits e = true ->
  found p e x rest gs -> found p e x' rest' gs' -> x' = x /\ rest' = rest /\ gs' = gs.
Proof.
  intros p e x rest gs x' rest' gs' G D F1 F2. unfold good_pattern in G. destruct (words (re_ast p)) as [W|] eqn:EW; [|discriminate].
  destruct (forallb _ W); [|discriminate].
  pose proof (digits_ten e D) as F.
  pose proof (found_first p W EW G e x rest gs F F1) as H1. pose proof (found_first p W EW G e x' rest' gs' F F2) as H2.
  rewrite H1 in H2. inversion H2; subst. split; [|auto]. destruct F1 as (E1 & _), F2 as (E2 & _). rewrite E1 in E2. now apply app_inv_tail in E2.
Qed.
Lemma found_prefix : forall p e x rest gs, found p e x rest gs -> matches_prefix (re_ast p) e.
Proof. intros p e x rest gs (E & G & _). exists x, rest. split; [exact E|]. exact (proj1 glang_forget _ _ _ _ _ G). Qed.
