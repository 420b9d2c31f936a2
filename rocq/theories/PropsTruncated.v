(** * PropsTruncated: metadata documents that are cut off

    [Database::parse] and [Database::load] read a document up to the end of its
    root element.  Here: what is read does not depend on what follows that end,
    no document that stops before it is accepted, none of its beginnings makes
    the reader panic, and one that stops in the middle of a tag, a comment or a
    document type declaration is refused as malformed XML.  (C56)

    A document is text; [PropsDocument] says which texts spell which documents. *)
From Verif Require Import Base CountryId Types Metadata Database Loader Xml StrFacts DatabaseFacts PropsLoader PropsXml PropsDocument.

(** ** What more input can change *)
(** what the end of a text can add to the events of what comes before it (the
    comment stands for text that is not UTF-8, see [Bytes]) *)
Definition inert (z : list event) : Prop := z = [] \/ (exists t, z = [EvText t]) \/ z = [EvError] \/ z = [EvComment].
(** [X] is the result of reading some events followed by [z], [Y] that of reading
    the same events followed by [r] *)
Definition agree {A} (X Y : res A) (n : nat) (z r : list event) : Prop :=
  match X with
  | Ok (x, rest) => exists rest', rest = rest' ++ z /\ length rest' <= n /\ Y = Ok (x, rest' ++ r)
  | Panic => Y = Panic
  | Err e => (z = [EvError] -> e = LXml) \/ Y = Err e
  end.
Lemma agree_bind : forall A B (X Y : res A) (k k' : A -> list event -> res B) n m z r,
  agree X Y n z r ->
  (forall a p, length p <= n -> agree (k a (p ++ z)) (k' a (p ++ r)) m z r) ->
  agree (let* (a, e) := X in k a e) (let* (a, e) := Y in k' a e) m z r.
Proof.
  intros A B X Y k k' n m z r H K. unfold agree in H. destruct X as [[a e]|e|]; cbn [obind].
  - destruct H as (p & -> & L & ->). cbn [obind]. now apply K.
  - destruct H as [H| ->]; [left; exact H|right; reflexivity].
  - rewrite H. reflexivity.
Qed.
Lemma agree_mono : forall A (X Y : res A) n m z r, agree X Y n z r -> n <= m -> agree X Y m z r.
Proof.
  intros A X Y n m z r H L. unfold agree in *. destruct X as [[a e]|e|]; try exact H.
  destruct H as (p & E & N & Q). exists p. split; [exact E|]. split; [lia|exact Q].
Qed.
Lemma agree_same : forall A (X : outcome lerr A) B (k k' : A -> res B) n z r,
  (forall a, agree (k a) (k' a) n z r) -> agree (obind X k) (obind X k') n z r.
Proof. intros A X B k k' n z r H. destruct X; cbn [obind]; [apply H|right; reflexivity|reflexivity]. Qed.
Lemma agree_ok : forall A (x : A) p n z r, length p <= n -> agree (Ok (x, p ++ z)) (Ok (x, p ++ r)) n z r.
Proof. intros A x p n z r L. exists p. auto. Qed.
Lemma agree_err : forall A e n z r, @agree A (Err e) (Err e) n z r.
Proof. intros. right. reflexivity. Qed.

Lemma text_agree : forall name p acc z r, inert z ->
  agree (l_text name acc (p ++ z)) (l_text name acc (p ++ r)) (length p) z r.
Proof.
  intros name. induction p as [|e p IH]; intros acc z r Z.
  - cbn [app]. destruct Z as [->|[(t & ->)|[->| ->]]]; left; try discriminate. reflexivity.
  - destruct e; cbn [app l_text]; try apply agree_err.
    + destruct (str_eqb _ _); [|apply agree_err]. apply agree_ok. cbn [length]. lia.
    + eapply agree_mono; [now apply IH|cbn [length]; lia].
Qed.
Lemma ignore_agree : forall p st z r, inert z -> st <> [] ->
  agree (l_ignore st (p ++ z)) (l_ignore st (p ++ r)) (length p) z r.
Proof.
  induction p as [|e p IH]; intros st z r Z N; (destruct st as [|n st]; [now elim N|]); clear N.
  - cbn [app]. destruct Z as [->|[(t & ->)|[->| ->]]]; left; try discriminate. reflexivity.
  - destruct e; cbn [app l_ignore]; try apply agree_err;
      try (eapply agree_mono; [apply IH; [exact Z|discriminate]|cbn [length]; lia]).
    destruct (str_eqb _ _); [|apply agree_err]. destruct st as [|m st].
    + apply agree_ok. cbn [length]. lia.
    + eapply agree_mono; [apply IH; [exact Z|discriminate]|cbn [length]; lia].
Qed.

Ltac agree_end := apply agree_ok; cbn [length]; lia.

Lemma descriptor_agree : forall fuel fuel' name d p z r, inert z -> length p < fuel -> length p < fuel' ->
  agree (l_descriptor fuel name d (p ++ z)) (l_descriptor fuel' name d (p ++ r)) (length p) z r.
Proof.
  induction fuel as [|fuel IH]; intros fuel' name d p z r Z L L'; [lia|]. destruct fuel' as [|fuel']; [lia|].
  destruct p as [|e p].
  - cbn [app]. destruct Z as [->|[(t & ->)|[->| ->]]]; cbn [l_descriptor]; try (left; (discriminate || reflexivity)).
    all: destruct fuel; left; discriminate.
  - cbn [length] in *.
    assert (G : forall d q, length q <= length p ->
      agree (l_descriptor fuel name d (q ++ z)) (l_descriptor fuel' name d (q ++ r)) (S (length p)) z r)
      by (intros d' q Q; eapply agree_mono; [apply IH; [exact Z|lia|lia]|lia]).
    destruct e; cbn [app l_descriptor]; try apply agree_err; try (apply G; lia).
    + destruct (str_eqb _ _); [|destruct (str_eqb _ _); [|apply agree_err]];
        (eapply agree_bind; [now apply text_agree|]; intros t q Q; cbv beta; apply G; exact Q).
    + destruct (str_eqb _ _); [agree_end|apply agree_err].
    + destruct (str_eqb _ _); [|apply agree_err]. apply agree_same. intros d'. apply G. lia.
Qed.
Lemma format_loop_agree : forall fuel fuel' name f intl p z r, inert z -> length p < fuel -> length p < fuel' ->
  agree (l_format_loop fuel name f intl (p ++ z)) (l_format_loop fuel' name f intl (p ++ r)) (length p) z r.
Proof.
  induction fuel as [|fuel IH]; intros fuel' name f intl p z r Z L L'; [lia|]. destruct fuel' as [|fuel']; [lia|].
  destruct p as [|e p].
  - cbn [app]. destruct Z as [->|[(t & ->)|[->| ->]]]; cbn [l_format_loop]; try (left; (discriminate || reflexivity)).
    all: destruct fuel; left; discriminate.
  - cbn [length] in *.
    assert (G : forall f o q, length q <= length p ->
      agree (l_format_loop fuel name f o (q ++ z)) (l_format_loop fuel' name f o (q ++ r)) (S (length p)) z r)
      by (intros f' o q Q; eapply agree_mono; [apply IH; [exact Z|lia|lia]|lia]).
    destruct e; cbn [app l_format_loop]; try apply agree_err; try (apply G; lia).
    + destruct (str_eqb _ _); [|destruct (str_eqb _ _); [|destruct (str_eqb _ _); [|apply agree_err]]];
        (eapply agree_bind; [now apply text_agree|]; intros t q Q; cbv beta; apply G; exact Q).
    + destruct (str_eqb _ _); [agree_end|apply agree_err].
Qed.
Lemma formats_agree : forall fuel fuel' dflt name natl intl p z r, inert z -> length p < fuel -> length p < fuel' ->
  agree (l_formats fuel dflt name natl intl (p ++ z)) (l_formats fuel' dflt name natl intl (p ++ r)) (length p) z r.
Proof.
  induction fuel as [|fuel IH]; intros fuel' dflt name natl intl p z r Z L L'; [lia|]. destruct fuel' as [|fuel']; [lia|].
  destruct p as [|e p].
  - cbn [app]. destruct Z as [->|[(t & ->)|[->| ->]]]; cbn [l_formats]; try (left; (discriminate || reflexivity)).
    all: destruct fuel; left; discriminate.
  - cbn [length] in *.
    assert (G : forall a b q, length q <= length p ->
      agree (l_formats fuel dflt name a b (q ++ z)) (l_formats fuel' dflt name a b (q ++ r)) (S (length p)) z r)
      by (intros a b q Q; eapply agree_mono; [apply IH; [exact Z|lia|lia]|lia]).
    destruct e; cbn [app l_formats]; try apply agree_err; try (apply G; lia).
    + destruct (str_eqb _ _); [|apply agree_err].
      eapply agree_bind with (n := length p).
      * unfold l_format. apply agree_same. intros f. apply format_loop_agree; [exact Z|lia|lia].
      * intros [f g] q Q. cbv beta iota. apply G. exact Q.
    + destruct (str_eqb _ _); [agree_end|apply agree_err].
Qed.
Lemma territory_loop_agree : forall fuel fuel' m p z r, inert z -> length p < fuel -> length p < fuel' ->
  agree (l_territory_loop fuel m (p ++ z)) (l_territory_loop fuel' m (p ++ r)) (length p) z r.
Proof.
  induction fuel as [|fuel IH]; intros fuel' m p z r Z L L'; [lia|]. destruct fuel' as [|fuel']; [lia|].
  destruct p as [|e p].
  - cbn [app]. destruct Z as [->|[(t & ->)|[->| ->]]]; cbn [l_territory_loop]; try (left; (discriminate || reflexivity)).
    all: destruct fuel; left; discriminate.
  - cbn [length] in *.
    assert (G : forall m q, length q <= length p ->
      agree (l_territory_loop fuel m (q ++ z)) (l_territory_loop fuel' m (q ++ r)) (S (length p)) z r)
      by (intros a q Q; eapply agree_mono; [apply IH; [exact Z|lia|lia]|lia]).
    destruct e; cbn [app l_territory_loop]; try apply agree_err; try (apply G; lia).
    + destruct (_ || _).
      * eapply agree_bind; [apply ignore_agree; [exact Z|discriminate]|]. intros _ q Q. cbv beta. now apply G.
      * destruct (dslot_find _ _) as [slot|].
        -- eapply agree_bind; [apply descriptor_agree with (p := p); [exact Z|lia|lia]|]. intros d q Q. cbv beta. now apply G.
        -- destruct (str_eqb _ _); [|apply agree_err].
           eapply agree_bind; [apply formats_agree with (p := p); [exact Z|lia|lia]|]. intros [a b] q Q. cbv beta iota. now apply G.
    + destruct (str_eqb _ _); [agree_end|apply agree_err].
Qed.
Lemma territories_agree : forall fuel fuel' acc p z r, inert z -> length p < fuel -> length p < fuel' ->
  agree (l_territories fuel acc (p ++ z)) (l_territories fuel' acc (p ++ r)) (length p) z r.
Proof.
  induction fuel as [|fuel IH]; intros fuel' acc p z r Z L L'; [lia|]. destruct fuel' as [|fuel']; [lia|].
  destruct p as [|e p].
  - cbn [app]. destruct Z as [->|[(t & ->)|[->| ->]]]; cbn [l_territories]; try (left; (discriminate || reflexivity)).
    all: destruct fuel; left; discriminate.
  - cbn [length] in *.
    assert (G : forall m q, length q <= length p ->
      agree (l_territories fuel m (q ++ z)) (l_territories fuel' m (q ++ r)) (S (length p)) z r)
      by (intros a q Q; eapply agree_mono; [apply IH; [exact Z|lia|lia]|lia]).
    destruct e; cbn [app l_territories]; try apply agree_err; try (apply G; lia).
    + destruct (str_eqb _ _).
      * eapply agree_bind with (n := length p).
        -- unfold l_territory. apply agree_same. intros m. apply territory_loop_agree; [exact Z|lia|lia].
        -- intros m q Q. cbv beta. now apply G.
      * eapply agree_bind; [apply ignore_agree; [exact Z|discriminate]|]. intros _ q Q. cbv beta. now apply G.
    + destruct (str_eqb _ _); [agree_end|apply agree_err].
Qed.

(** the same for the whole document, of which nothing is left to read *)
Definition agree_all {A} (X Y : outcome lerr A) (z : list event) : Prop :=
  match X with Err e => (z = [EvError] -> e = LXml) \/ Y = Err e | _ => Y = X end.
Lemma agree_all_bind : forall A B (X Y : res A) (k k' : A -> list event -> outcome lerr B) n z r,
  agree X Y n z r -> (forall a p, length p <= n -> agree_all (k a (p ++ z)) (k' a (p ++ r)) z) ->
  agree_all (let* (a, e) := X in k a e) (let* (a, e) := Y in k' a e) z.
Proof.
  intros A B X Y k k' n z r H K. unfold agree in H. destruct X as [[a e]|e|]; cbn [obind].
  - destruct H as (p & -> & L & ->). cbn [obind]. now apply K.
  - destruct H as [H| ->]; [left; exact H|right; reflexivity].
  - rewrite H. reflexivity.
Qed.
Lemma metadata_agree : forall fuel fuel' acc p z r, inert z -> length p < fuel -> length p < fuel' ->
  agree_all (l_metadata fuel acc (p ++ z)) (l_metadata fuel' acc (p ++ r)) z.
Proof.
  assert (E : forall A e z, @agree_all A (Err e) (Err e) z) by (intros; right; reflexivity).
  induction fuel as [|fuel IH]; intros fuel' acc p z r Z L L'; [lia|]. destruct fuel' as [|fuel']; [lia|].
  destruct p as [|e p].
  - cbn [app]. destruct Z as [->|[(t & ->)|[->| ->]]]; cbn [l_metadata]; try (left; (discriminate || reflexivity)).
    all: destruct fuel; left; discriminate.
  - cbn [length] in *.
    assert (G : forall m q, length q <= length p ->
      agree_all (l_metadata fuel m (q ++ z)) (l_metadata fuel' m (q ++ r)) z)
      by (intros a q Q; apply IH; [exact Z|lia|lia]).
    destruct e; cbn [app l_metadata]; try apply E; try (apply G; lia).
    + destruct (str_eqb _ _); [apply G; lia|]. destruct (str_eqb _ _).
      * eapply agree_all_bind; [apply territories_agree with (p := p); [exact Z|lia|lia]|]. intros t q Q. cbv beta. now apply G.
      * eapply agree_all_bind; [apply ignore_agree; [exact Z|discriminate]|]. intros _ q Q. cbv beta. now apply G.
    + destruct (str_eqb _ _); [reflexivity|apply E].
Qed.
Lemma load_agree : forall p z r, inert z -> agree_all (load (p ++ z)) (load (p ++ r)) z.
Proof. intros p z r Z. unfold load. rewrite !app_length. apply metadata_agree; [exact Z|lia|lia]. Qed.

(** *** Texts *)
Lemma finish_inert : forall x, inert (xml_finish x).
Proof.
  intros [o a]. unfold xml_finish. cbn [x_at]. destruct a; try (right; right; left; reflexivity); try (left; reflexivity).
  unfold text_events. destruct seen; [left; reflexivity|right; left; now eexists].
Qed.
Lemma events_of : forall s, xml_events s =
  fst (xml_run xml_start (xml_skip_bom s)) ++ xml_finish (snd (xml_run xml_start (xml_skip_bom s))).
Proof. intros s. unfold xml_events. now destruct (xml_run _ _). Qed.
Lemma skip_bom_app : forall s after, s <> [] -> xml_skip_bom (s ++ after) = xml_skip_bom s ++ after.
Proof. intros [|c s] after H; [now elim H|]. cbn [app xml_skip_bom]. now destruct (N.eqb c 65279). Qed.
(** the text [s] and a longer one *)
Lemma text_level : forall s after, s <> [] ->
  let z := xml_finish (snd (xml_run xml_start (xml_skip_bom s))) in
  inert z /\ agree_all (load_text s) (load_text (s ++ after)) z.
Proof.
  intros s after H z. split; [apply finish_inert|]. unfold load_text. rewrite (events_of s), (events_of (s ++ after)).
  rewrite (skip_bom_app s after H), run_app. cbn [fst snd]. rewrite <- app_assoc. apply load_agree, finish_inert.
Qed.

(** ** The claims *)
(** A document that is read is read the same whatever follows it; nor does more
    text keep the reader from panicking. *)
Theorem C56_extends : forall s after,
  (forall l, load_text s = Ok l -> load_text (s ++ after) = Ok l) /\
  (load_text s = Panic -> load_text (s ++ after) = Panic).
Proof.
  intros s after. destruct s as [|c s]; [split; [intros l H|intros H]; discriminate H|].
  destruct (text_level (c :: s) after) as [_ A]; [discriminate|]. unfold agree_all in A.
  split; [intros l H|intros H]; rewrite H in A; exact A.
Qed.
Print Assumptions C56_extends.

Lemma shortest : forall (P : str -> bool) s, P s = true ->
  exists a b, s = a ++ b /\ P a = true /\ forall t u, a = t ++ u -> u <> [] -> P t = false.
Proof.
  intros P s. remember (length s) as n eqn:Hn. revert s Hn. induction n as [n IH] using lt_wf_ind. intros s Hn H.
  assert (D : (exists t u, s = t ++ u /\ u <> [] /\ P t = true) \/ (forall t u, s = t ++ u -> u <> [] -> P t = false)).
  { clear H IH Hn n. induction s as [|c s IH] using rev_ind.
    - right. intros t u E N. symmetry in E. apply app_eq_nil in E as [_ ->]. now elim N.
    - destruct (P s) eqn:Q; [left; exists s, [c]; split; [reflexivity|]; split; [discriminate|exact Q]|].
      destruct IH as [(t & u & -> & U & T)|IH].
      + left. exists t, (u ++ [c]). rewrite <- app_assoc. split; [reflexivity|]. split; [|exact T]. now destruct u.
      + right. intros t u E N. destruct (exists_last N) as (u' & x & ->). rewrite app_assoc in E.
        apply app_inj_tail in E as [E _]. destruct u' as [|y u'].
        * rewrite app_nil_r in E. now rewrite <- E.
        * now apply (IH t (y :: u')). }
  destruct D as [(t & u & -> & U & T)|D].
  - destruct (IH (length t)) with (s := t) as (a & b & E & A & M); [|reflexivity|exact T|].
    + subst n. rewrite app_length. destruct u; [now elim U|cbn [length]; lia].
    + exists a, (b ++ u). rewrite app_assoc, <- E. auto.
  - exists s, []. rewrite app_nil_r. auto.
Qed.

(** A text that is read consists of the document and of what follows it: the
    rest has no influence, and without the last part of the document every
    beginning of it is refused with an error. *)
Theorem C56_cut : forall s l, load_text s = Ok l ->
  exists a b, s = a ++ b /\ (forall after, load_text (a ++ after) = Ok l) /\
  (forall t u, a = t ++ u -> u <> [] -> exists e, load_text t = Err e).
Proof.
  intros s l H. pose (P t := match load_text t with Ok _ => true | _ => false end).
  destruct (shortest P s) as (a & b & E & A & M); [unfold P; now rewrite H|].
  assert (La : load_text a = Ok l).
  { unfold P in A. destruct (load_text a) as [l'| |] eqn:Q; try discriminate A.
    destruct (C56_extends a b) as [X _]. specialize (X l' Q). rewrite <- E, H in X. now inversion X. }
  exists a, b. split; [exact E|]. split.
  - intros after. now apply C56_extends.
  - intros t u Et Nu. specialize (M t u Et Nu). unfold P in M. destruct (load_text t) as [l'|e|] eqn:Q; [discriminate M|now exists e|].
    destruct (C56_extends t u) as [_ X]. specialize (X Q). rewrite <- Et, La in X. discriminate X.
Qed.
Print Assumptions C56_cut.

(** The same for the database: one that is built from a text is built from the
    document the text begins with, and without the last part of that document
    there is an error. *)
Theorem C56_database : forall s db, db_parse_text s = Ok db ->
  exists a b, s = a ++ b /\ (forall after, db_parse_text (a ++ after) = Ok db) /\
  (forall t u, a = t ++ u -> u <> [] -> exists e, db_parse_text t = Err e).
Proof.
  intros s db H. unfold db_parse_text in H. apply obind_ok in H as (l & Hl & H).
  destruct (C56_cut s l Hl) as (a & b & E & A & M). exists a, b. split; [exact E|]. split.
  - intros after. unfold db_parse_text. rewrite A. exact H.
  - intros t u Et Nu. destruct (M t u Et Nu) as (e & Q). exists e. unfold db_parse_text. now rewrite Q.
Qed.
Print Assumptions C56_database.

(** ** Where a document ends *)
(** whether the events contain the end of the root element; the starts of root
    elements are not counted, as the reader does not count them *)
Fixpoint closed (depth : nat) (evs : list event) : bool :=
  match evs with
  | [] => false
  | EvStart n _ :: r =>
      match depth with
      | O => if str_eqb n (lit "phoneNumberMetadata") then closed 0 r else closed 1 r
      | S _ => closed (S depth) r
      end
  | EvEnd _ :: r => match depth with O => true | S d => closed d r end
  | _ :: r => closed depth r
  end.
(** events that contain as many ends as starts *)
Definition level (b : list event) : Prop := forall n r, closed (S n) (b ++ r) = closed (S n) r.
Lemma level_nil : level [].
Proof. intros n r. reflexivity. Qed.
Lemma level_app : forall a b, level a -> level b -> level (a ++ b).
Proof. intros a b A B n r. rewrite <- app_assoc, A. apply B. Qed.
Lemma level_flat : forall A (f : A -> list event) l, (forall x, In x l -> level (f x)) -> level (flat_map f l).
Proof.
  intros A f l. induction l as [|x l IH]; intros H; [apply level_nil|]. cbn [flat_map]. apply level_app.
  - apply H. now left.
  - apply IH. intros y I. apply H. now right.
Qed.
Lemma level_one : forall e, match e with EvStart _ _ | EvEnd _ => False | _ => True end -> level [e].
Proof. intros e H n r. destruct e; first [reflexivity|destruct H]. Qed.
Lemma level_elem : forall n a m b, level b -> level (EvStart n a :: b ++ [EvEnd m]).
Proof. intros n a m b H k r. cbn [app closed]. rewrite <- app_assoc, H. reflexivity. Qed.
Lemma level_balanced : forall b, balanced b -> level b.
Proof.
  induction 1 as [|t l H IH|l H IH|n a l H IH|n a l1 l2 H1 IH1 H2 IH2].
  - apply level_nil.
  - apply (level_app [_] l); [now apply level_one|exact IH].
  - apply (level_app [_] l); [now apply level_one|exact IH].
  - apply (level_app [_] l); [now apply level_one|exact IH].
  - replace (EvStart n a :: l1 ++ EvEnd n :: l2) with ((EvStart n a :: l1 ++ [EvEnd n]) ++ l2)
      by (cbn [app]; now rewrite <- app_assoc).
    apply level_app; [now apply level_elem|exact IH2].
Qed.
Lemma level_noise : forall n, level [noise_event n].
Proof. intros [t|]; now apply level_one. Qed.
Lemma level_texts : forall ps, level (map EvText ps).
Proof.
  induction ps as [|t ps IH]; [apply level_nil|]. apply (level_app [_] (map EvText ps)); [now apply level_one|exact IH].
Qed.
Lemma level_desc : forall i, level (desc_item_events i).
Proof. intros []; cbn [desc_item_events]; try apply level_noise; try (now apply level_one); (apply level_elem; apply level_texts). Qed.
Lemma level_fmt : forall i, level (fmt_item_events i).
Proof. intros []; cbn [fmt_item_events]; try apply level_noise; (apply level_elem; apply level_texts). Qed.
Lemma level_fmts : forall i, level (fmts_item_events i).
Proof. intros []; cbn [fmts_item_events]; [apply level_noise|]. apply level_elem, level_flat. intros x _. apply level_fmt. Qed.
Lemma level_terr : forall i, terr_item_ok i -> level (terr_item_events i).
Proof.
  intros [] H; cbn [terr_item_events].
  - apply level_noise.
  - apply level_elem, level_balanced, H.
  - apply level_elem, level_flat. intros x _. apply level_desc.
  - apply level_elem, level_flat. intros x _. apply level_fmts.
Qed.
Lemma level_terrs : forall i, terrs_item_ok i -> level (terrs_item_events i).
Proof.
  intros [] H; cbn [terrs_item_events].
  - apply level_noise.
  - apply level_elem, level_balanced, H.
  - destruct H as [_ H]. apply level_elem, level_flat. intros x I. apply level_terr. rewrite Forall_forall in H. now apply H.
Qed.
Lemma closed_doc : forall i r, doc_item_ok i -> closed 0 (doc_item_events i ++ r) = closed 0 r.
Proof.
  intros [[]| | |name tag body|tag items] r H; try reflexivity.
  - destruct H as (N & _ & B). cbn [doc_item_events skipped app closed]. apply str_eqb_neq in N. rewrite N.
    rewrite <- app_assoc, (level_balanced body B). reflexivity.
  - cbn [doc_item_events app closed]. replace (str_eqb (lit "territories") (lit "phoneNumberMetadata")) with false by reflexivity.
    rewrite <- app_assoc, level_flat; [reflexivity|]. intros x I. apply level_terrs. cbn [doc_item_ok] in H.
    rewrite Forall_forall in H. now apply H.
Qed.
Lemma closed_docs : forall d r, well_formed d -> closed 0 (flat_map doc_item_events d ++ r) = closed 0 r.
Proof.
  induction d as [|i d IH]; intros r W; [reflexivity|]. inversion W as [|? ? Wi Wd]; subst. cbn [flat_map].
  rewrite <- app_assoc, closed_doc by exact Wi. now apply IH.
Qed.
Lemma closed_app : forall a n b, closed n a = true -> closed n (a ++ b) = true.
Proof.
  induction a as [|e a IH]; intros n b H; [discriminate H|]. destruct e; cbn [app closed] in *; try (now apply IH).
  - destruct n; [destruct (str_eqb _ _)|]; now apply IH.
  - destruct n; [reflexivity|now apply IH].
Qed.
(** what [load] accepts is closed; a document is closed only by its last event *)
Lemma load_closed : forall evs l, load evs = Ok l -> closed 0 evs = true.
Proof.
  intros evs l H. apply C29_only in H as (d & rest & W & -> & _). unfold render. rewrite <- app_assoc, closed_docs by exact W. reflexivity.
Qed.
Lemma render_open : forall d p q, well_formed d -> render d = p ++ q -> q <> [] -> closed 0 p = false.
Proof.
  intros d p q W E N. destruct (exists_last N) as (q' & e & ->). unfold render in E. rewrite app_assoc in E.
  apply app_inj_tail in E as [E _]. destruct (closed 0 p) eqn:C; [|reflexivity].
  apply (closed_app p 0 q') in C. rewrite <- E, <- (app_nil_r (flat_map _ d)), closed_docs in C by exact W. discriminate C.
Qed.
Lemma closed_inert : forall z p n, inert z -> closed n (p ++ z) = closed n p.
Proof.
  intros z p n Z. revert n. induction p as [|e p IH]; intros n.
  - cbn [app]. destruct Z as [->|[(t & ->)|[->| ->]]]; reflexivity.
  - destruct e; cbn [app closed]; rewrite ?IH; try reflexivity. destruct n; [reflexivity|apply IH].
Qed.
(** so no beginning of a document is accepted, and none makes the reader panic *)
Lemma load_cut : forall d p q z, well_formed d -> render d = p ++ q -> q <> [] -> inert z ->
  exists e, load (p ++ z) = Err e /\ (z = [EvError] -> e = LXml).
Proof.
  intros d p q z W E N Z. pose proof (load_agree p z q Z) as A. rewrite <- E in A.
  pose proof (C29_reads d [] W) as R. rewrite app_nil_r in R. rewrite R in A.
  destruct (load (p ++ z)) as [l|e|] eqn:L; cbn [agree_all] in A.
  - apply load_closed in L. rewrite closed_inert, (render_open d p q W E N) in L by exact Z. discriminate L.
  - exists e. split; [reflexivity|]. destruct A as [A|A]; [exact A|discriminate A].
  - discriminate A.
Qed.

(** *** Texts cut off *)
(** In the middle of markup the reader is not in text, and reports only the text
    that came before. *)
Definition in_text (x : xml) : option str := match x_at x with XText seen => Some seen | _ => None end.
Lemma step_back : forall x c e x', xml_step x c = (e, x') -> in_text x = None -> in_text x' <> None ->
  in_text x' = Some [] /\ exists ev, e = [ev].
Proof.
  intros [o a] c e x' H N T. unfold in_text in *. cbn [x_at] in N.
  unfold xml_step, xml_in_tag, xml_tag, xml_end_tag, xml_fail in H. cbn [x_at x_open] in H.
  destruct a; try discriminate N;
  repeat match type of H with
  | (if ?b then _ else _) = _ => destruct b
  | (match ?b with _ => _ end) = _ => destruct b
  | (let '(_, _) := ?b in _) = _ => destruct b
  end; inversion H; subst; cbn [x_at] in *; try (now elim T);
  try (destruct rest; now elim T); (split; [reflexivity|now eexists]).
Qed.
Lemma step_text : forall x c e x' seen, xml_step x c = (e, x') -> in_text x = Some seen ->
  (in_text x' = None \/ e = [] /\ in_text x' = Some (c :: seen)).
Proof.
  intros [o a] c e x' seen H N. unfold in_text in *. cbn [x_at] in N. destruct a; try discriminate N. inversion N; subst.
  unfold xml_step in H. cbn [x_at x_open] in H.
  destruct (N.eqb c 60); [inversion H; subst; now left|]. destruct (N.eqb c 38); inversion H; subst; [now left|].
  right. split; reflexivity.
Qed.
(** from text to text without an event: everything read was text *)
Lemma run_silent : forall s x e x', xml_run x s = (e, x') -> e = [] -> forall seen', in_text x' = Some seen' ->
  match in_text x with Some seen => seen' = rev s ++ seen | None => False end \/ s = [].
Proof.
  induction s as [|c s IH]; intros x e x' R E seen' T; [right; reflexivity|]. left. cbn [xml_run] in R.
  destruct (xml_step x c) as [e1 x1] eqn:S. destruct (xml_run x1 s) as [es x2] eqn:R1. inversion R; subst; clear R.
  apply app_eq_nil in H0 as [-> ->]. specialize (IH x1 [] x' R1 eq_refl seen' T).
  destruct (in_text x) as [seen|] eqn:X.
  - destruct (step_text x c [] x1 seen S X) as [N|[_ N]].
    + rewrite N in IH. destruct IH as [[]| ->]. cbn [xml_run] in R1. inversion R1; subst. congruence.
    + rewrite N in IH. destruct IH as [IH| ->]; cbn [rev].
      * rewrite IH, <- app_assoc. reflexivity.
      * cbn [xml_run] in R1. inversion R1; subst. rewrite N in T. inversion T. reflexivity.
  - destruct (in_text x1) as [s1|] eqn:X1.
    + assert (N : in_text x1 <> None) by (rewrite X1; discriminate).
      destruct (step_back x c [] x1 S X N) as (_ & ev & Q). discriminate Q.
    + destruct IH as [[]| ->]. cbn [xml_run] in R1. inversion R1; subst. congruence.
Qed.
(** a way back to text that reports one event ends with it *)
Lemma run_back : forall a b x ev x', in_text x = None -> xml_run x (a ++ b) = ([ev], x') -> in_text x' = Some [] ->
  b <> [] -> fst (xml_run x a) = [] /\ in_text (snd (xml_run x a)) = None.
Proof.
  induction a as [|c a IH]; intros b x ev x' X R T N; [split; [reflexivity|exact X]|].
  cbn [app xml_run] in *. destruct (xml_step x c) as [e1 x1] eqn:S.
  destruct (xml_run x1 (a ++ b)) as [es x2] eqn:R1. inversion R; subst; clear R.
  destruct (in_text x1) as [s1|] eqn:X1.
  - destruct (step_back x c e1 x1 S X) as (T1 & ev1 & ->); [rewrite X1; discriminate|].
    cbn [app] in H0. inversion H0; subst. destruct (run_silent _ _ _ _ R1 eq_refl [] T) as [Q|Q].
    + rewrite T1, app_nil_r in Q. apply (f_equal (@length _)) in Q. rewrite rev_length, app_length in Q. cbn [length] in Q.
      destruct b; [now elim N|cbn [length] in Q; lia].
    + apply app_eq_nil in Q as [_ ->]. now elim N.
  - assert (E1 : e1 = []).
    { destruct e1 as [|e1 e1']; [reflexivity|]. cbn [app] in H0. inversion H0; subst.
      apply app_eq_nil in H2 as [-> ->]. destruct (run_silent _ _ _ _ R1 eq_refl [] T) as [Q|Q].
      + rewrite X1 in Q. destruct Q.
      + apply app_eq_nil in Q as [_ ->]. now elim N. }
    subst e1. cbn [app] in H0. subst es. destruct (IH b x1 ev x' X1 R1 T N) as [F G].
    destruct (xml_run x1 a) as [ea xa]. cbn [fst snd] in *. subst ea. split; [reflexivity|exact G].
Qed.
Lemma run_failed : forall s open, xml_run (mk_xml open XFailed) s = ([], mk_xml open XFailed).
Proof. induction s as [|c s IH]; intros open; [reflexivity|]. cbn [xml_run]. unfold xml_step. cbn [x_at x_open]. now rewrite IH. Qed.
Lemma run_inside : forall p open seen c c', piece_ok p -> is_text p = false ->
  match p with PEnd n _ => exists o, open = n :: o | _ => True end ->
  spell p = c ++ c' -> c <> [] -> c' <> [] ->
  exists x, xml_run (mk_xml open (XText seen)) c = (text_events seen, x) /\ xml_finish x = [EvError].
Proof.
  intros p open seen c c' P T M E N N'. pose proof (run_markup p open seen P T M) as R. rewrite E in R.
  destruct c as [|b c]; [now elim N|].
  assert (B : b = 60%N).
  { destruct p; try discriminate T; cbn [spell] in E; (apply (f_equal (fun l => hd 0%N l)) in E; cbn in E; now symmetry). }
  subst b. cbn [app xml_run] in *. rewrite step_lt in *.
  destruct (xml_run (mk_xml open XOpen) (c ++ c')) as [es x2] eqn:R1.
  assert (Q : es = [piece_means p] /\ x2 = mk_xml (after_piece open p) (XText [])).
  { apply pair_equal_spec in R as [R ->]. apply app_inv_head in R. auto. }
  destruct Q as [-> ->]. destruct (run_back c c' (mk_xml open XOpen) _ _ eq_refl R1 eq_refl N') as [F G].
  rewrite run_app in R1. destruct (xml_run (mk_xml open XOpen) c) as [ea xa]. cbn [fst snd] in *. subst ea. exists xa.
  rewrite app_nil_r. split; [reflexivity|]. destruct xa as [o a]. unfold in_text, xml_finish in *. cbn [x_at] in *.
  destruct a; try discriminate G; try reflexivity. rewrite run_failed in R1. cbn [fst snd app] in R1. discriminate R1.
Qed.
(** the state after some pieces, the last of which may be text *)
Lemma run_any : forall l open seen, Forall piece_ok l -> matching open l -> apart l ->
  (seen = [] \/ match l with PText _ :: _ => False | _ => True end) ->
  exists es seen', xml_run (mk_xml open (XText seen)) (flat_map spell l)
      = (es, mk_xml (fold_left after_piece l open) (XText seen')) /\
    es ++ text_events seen' = text_events seen ++ map piece_means l.
Proof.
  induction l as [|p l IH]; intros open seen F M A S.
  - exists [], seen. cbn [flat_map xml_run map fold_left]. rewrite app_nil_r. auto.
  - inversion F as [|? ? Fp Fl]; subst. cbn [flat_map map fold_left]. destruct (is_text p) eqn:T.
    + destruct p as [| | |t| |]; try discriminate T. destruct S as [->|[]]. cbn [apart matching] in *.
      destruct Fp as [T0 Ft]. destruct A as [A1 A2].
      destruct (IH open (rev t) Fl M A2) as (es & seen' & K & Q); [right; exact A1|].
      exists es, seen'. cbn [text_events app spell piece_means after_piece]. split.
      * replace es with ([] ++ es) by reflexivity.
        eapply run_app_eq; [now apply run_text|]. rewrite app_nil_r. exact K.
      * rewrite Q, text_of by exact T0. reflexivity.
    + assert (Mp : match p with PEnd n _ => exists o, open = n :: o | _ => True end).
      { destruct p; try exact I. cbn [matching] in M. destruct open as [|m o]; [destruct M|]. destruct M as [-> _]. now exists o. }
      assert (Ml : matching (after_piece open p) l).
      { destruct p; cbn [matching after_piece] in *; try exact M. destruct open as [|m o]; [destruct M|]. now destruct M. }
      assert (Al : apart l) by (destruct p; try discriminate T; exact A).
      destruct (IH (after_piece open p) [] Fl Ml Al (or_introl eq_refl)) as (es & seen' & K & Q).
      exists ((text_events seen ++ [piece_means p]) ++ es), seen'. split.
      * eapply run_app_eq; [now apply run_markup|exact K].
      * rewrite <- !app_assoc, Q. reflexivity.
Qed.
Lemma matching_app : forall l open r, matching open (l ++ r) -> matching open l /\ matching (fold_left after_piece l open) r.
Proof.
  induction l as [|p l IH]; intros open r M; [split; [exact I|exact M]|].
  destruct p; cbn [app matching fold_left after_piece] in *; try (now apply IH).
  destruct open as [|m o]; [destruct M|]. destruct M as [-> M]. cbn [tl]. destruct (IH o r M). auto.
Qed.
Lemma apart_app : forall l r, apart (l ++ r) -> apart l.
Proof.
  induction l as [|p l IH]; intros r A; [exact I|]. destruct p; cbn [app apart] in *; try (now apply (IH r)).
  destruct A as [A1 A2]. split; [|now apply (IH r)]. destruct l as [|q l]; [exact I|]. exact A1.
Qed.
Lemma apart_cut : forall l t t' r, apart (l ++ PText t :: r) -> apart (l ++ [PText t']).
Proof.
  induction l as [|p l IH]; intros t t' r A; [cbn; auto|]. destruct p; cbn [app apart] in *; try (now apply (IH t t' r)).
  destruct A as [A1 A2]. split; [|now apply (IH t t' r)]. destruct l as [|q l]; exact A1.
Qed.
Lemma matching_text : forall l open t, matching open l -> matching open (l ++ [PText t]).
Proof.
  induction l as [|p l IH]; intros open t M; [exact I|]. destruct p; cbn [app matching] in *; try (now apply IH).
  destruct open as [|m o]; [destruct M|]. destruct M as [-> M]. split; [reflexivity|now apply IH].
Qed.
Lemma skip_bom_prefix : forall l bom t u, Forall piece_ok l -> ends_in_markup l -> byte_order_mark bom ->
  flat_map spell l = t ++ u -> xml_skip_bom (bom ++ t) = t.
Proof.
  intros l bom t u F E B Q. destruct B as [->| ->]; [|reflexivity]. cbn [app].
  destruct t as [|c t]; [reflexivity|]. destruct (first_char l [] F E) as (b & r & X & N). rewrite app_nil_r, Q in X.
  cbn [app] in X. inversion X; subst. cbn [xml_skip_bom]. now rewrite (proj2 (N.eqb_neq b 65279) N).
Qed.
Lemma render_markup : forall d l, map piece_means l = render d -> ends_in_markup l.
Proof.
  intros d l E. destruct l as [|p l] using rev_ind; [unfold render in E; cbn in E; destruct (flat_map doc_item_events d); discriminate E|].
  clear IHl. exists l, p. split; [reflexivity|]. unfold render in E. rewrite map_app in E. cbn [map] in E.
  apply app_inj_tail in E as [_ E]. destruct p; try discriminate E. reflexivity.
Qed.
(** the events of a text that ends after some pieces, and of one that ends in the
    middle of a piece of markup *)
Lemma events_any : forall l bom, Forall piece_ok l -> matching [] l -> apart l ->
  xml_skip_bom (bom ++ flat_map spell l) = flat_map spell l ->
  xml_events (bom ++ flat_map spell l) = map piece_means l.
Proof.
  intros l bom F M A B. rewrite events_of, B. change xml_start with (mk_xml [] (XText [])).
  destruct (run_any l [] [] F M A (or_introl eq_refl)) as (es & seen & R & E). rewrite R. exact E.
Qed.
Lemma events_inside : forall l p r bom c c', spelled (l ++ p :: r) -> is_text p = false -> spell p = c ++ c' -> c <> [] -> c' <> [] ->
  xml_skip_bom (bom ++ flat_map spell l ++ c) = flat_map spell l ++ c ->
  xml_events (bom ++ flat_map spell l ++ c) = map piece_means l ++ [EvError].
Proof.
  intros l p r bom c c' (F & M & A) T E N N' B. rewrite events_of, B. change xml_start with (mk_xml [] (XText [])).
  apply Forall_app in F as [F Fp]. inversion Fp as [|? ? Pp _]; subst. apply apart_app in A.
  destruct (matching_app l [] (p :: r) M) as [Ml Mp].
  destruct (run_any l [] [] F Ml A (or_introl eq_refl)) as (es & seen & R & Q).
  assert (O : match p with PEnd n _ => exists o, fold_left after_piece l [] = n :: o | _ => True end).
  { destruct p; try exact I. cbn [matching] in Mp. destruct (fold_left after_piece l []) as [|m o]; [destruct Mp|].
    destruct Mp as [-> _]. now exists o. }
  destruct (run_inside p _ seen c c' Pp T O E N N') as (x & R2 & G).
  rewrite (run_app_eq _ _ _ _ _ _ _ R R2). cbn [fst snd]. rewrite G, Q. reflexivity.
Qed.
Lemma flat_cut : forall l t u, flat_map spell l = t ++ u -> u <> [] ->
  exists l1 p l2 c c', l = l1 ++ p :: l2 /\ t = flat_map spell l1 ++ c /\ spell p = c ++ c' /\ c' <> [].
Proof.
  induction l as [|p l IH]; intros t u E N.
  - cbn [flat_map] in E. symmetry in E. apply app_eq_nil in E as [_ ->]. now elim N.
  - cbn [flat_map] in E. destruct (le_lt_dec (length (spell p)) (length t)) as [L|L].
    + assert (Q : exists t', t = spell p ++ t').
      { exists (skipn (length (spell p)) t). pose proof (f_equal (firstn (length (spell p))) E) as X.
        rewrite firstn_app, Nat.sub_diag, firstn_all, firstn_O, app_nil_r in X.
        rewrite firstn_app in X. replace (length (spell p) - length t) with 0 in X by lia. rewrite firstn_O, app_nil_r in X.
        rewrite X at 1. now rewrite firstn_skipn. }
      destruct Q as (t' & ->). rewrite <- app_assoc in E. apply app_inv_head in E.
      destruct (IH t' u E N) as (l1 & q & l2 & c & c' & -> & -> & S & C). exists (p :: l1), q, l2, c, c'.
      cbn [app flat_map]. rewrite app_assoc. auto.
    + exists [], p, l, t, (skipn (length t) (spell p)). cbn [app flat_map]. split; [reflexivity|]. split; [reflexivity|].
      assert (X : t = firstn (length t) (spell p)).
      { pose proof (f_equal (firstn (length t)) E) as X. rewrite (firstn_app _ t), Nat.sub_diag, firstn_all, firstn_O, app_nil_r in X.
        rewrite firstn_app in X. replace (length t - length (spell p)) with 0 in X by lia. rewrite firstn_O, app_nil_r in X.
        now symmetry. }
      split; [rewrite X at 1; now rewrite firstn_skipn|]. intros Q. apply (f_equal (@length _)) in Q. rewrite skipn_length in Q.
      cbn [length] in Q. lia.
Qed.

(** A text that spells a document up to some point inside a tag, a comment or the
    document type declaration is malformed. *)
Theorem C56_inside : forall d l1 p l2 bom c c', well_formed d -> spelled (l1 ++ p :: l2) ->
  map piece_means (l1 ++ p :: l2) = render d -> byte_order_mark bom ->
  (forall t, p <> PText t) -> spell p = c ++ c' -> c <> [] -> c' <> [] ->
  load_text (bom ++ flat_map spell l1 ++ c) = Err LXml.
Proof.
  intros d l1 p l2 bom c c' W S E B T Q N N'.
  assert (T' : is_text p = false) by (destruct p; try reflexivity; now elim (T text)).
  assert (X : xml_skip_bom (bom ++ flat_map spell l1 ++ c) = flat_map spell l1 ++ c).
  { apply (skip_bom_prefix (l1 ++ p :: l2) bom _ (c' ++ flat_map spell l2)); [apply S|exact (render_markup d _ E)|exact B|].
    rewrite flat_map_app. cbn [flat_map]. rewrite Q, <- !app_assoc. reflexivity. }
  unfold load_text. rewrite (events_inside l1 p l2 bom c c' S T' Q N N' X).
  rewrite map_app in E. cbn [map] in E. symmetry in E.
  destruct (load_cut d _ _ [EvError] W E) as (e & L & K); [discriminate|right; right; now left|].
  rewrite L. now rewrite K.
Qed.
Print Assumptions C56_inside.

(** Wherever the text of a document is cut, before its very last character has
    been read there is an error. *)
Theorem C56_document : forall d l bom t u, well_formed d -> spelled l -> map piece_means l = render d -> byte_order_mark bom ->
  bom ++ flat_map spell l = t ++ u -> u <> [] -> exists e, load_text t = Err e /\ db_parse_text t = Err e.
Proof.
  intros d l bom t u W S E B Q N.
  enough (K : exists e, load_text t = Err e).
  { destruct K as (e & K). exists e. split; [exact K|]. unfold db_parse_text. now rewrite K. }
  assert (G : t = [] \/ exists t', t = bom ++ t' /\ flat_map spell l = t' ++ u).
  { destruct B as [->| ->]; [right; exists t; auto|]. destruct t as [|b t]; [now left|right]. cbn [app] in Q. inversion Q; subst.
    exists t. auto. }
  destruct G as [->|(t' & -> & Q')]; [exists (LUnhandledEvent (lit "metadata")); reflexivity|]. clear Q.
  pose proof (skip_bom_prefix l bom t' u (proj1 S) (render_markup d l E) B Q') as X.
  destruct (flat_cut l t' u Q' N) as (l1 & p & l2 & c & c' & -> & -> & P & C).
  pose proof S as (F & M & A). apply Forall_app in F as [F1 Fp]. inversion Fp as [|? ? Pp _]; subst.
  destruct (matching_app l1 [] (p :: l2) M) as [M1 _]. pose proof (apart_app _ _ A) as A1.
  pose proof E as E'. rewrite map_app in E'. cbn [map] in E'. symmetry in E'.
  destruct c as [|b c].
  - rewrite app_nil_r in *. unfold load_text. rewrite events_any; try assumption.
    destruct (load_cut d _ _ [] W E') as (e & L & _); [discriminate|now left|]. rewrite app_nil_r in L. now exists e.
  - destruct (is_text p) eqn:T.
    + destruct p as [| | |tx| |]; try discriminate T. cbn [spell] in P. destruct Pp as [T0 Pt].
      replace (flat_map spell l1 ++ b :: c) with (flat_map spell (l1 ++ [PText (b :: c)])) in *
        by (rewrite flat_map_app; cbn [flat_map spell]; now rewrite app_nil_r).
      unfold load_text. rewrite events_any; [| | | |exact X].
      * rewrite map_app. cbn [map piece_means].
        destruct (load_cut d _ _ [EvText (b :: c)] W E') as (e & L & _); [discriminate|right; left; now eexists|]. now exists e.
      * apply Forall_app. split; [exact F1|]. constructor; [|constructor]. split; [discriminate|]. intros x I. apply Pt.
        rewrite P. apply in_app_iff. now left.
      * now apply matching_text.
      * exact (apart_cut _ _ _ _ A).
    + exists LXml. apply (C56_inside d l1 p l2 bom (b :: c) c' W S E B); try assumption; [|discriminate].
      intros tx ->. discriminate T.
Qed.
Print Assumptions C56_document.

(** ** Examples *)
(** Without its last character, without its last tag, in the middle of a tag and
    in the middle of a comment; and two documents in one text. *)
Example C56_ex : let s := flat_map spell ex_pieces in
  load_text s = Ok (entries ex_tree) /\
  load_text (firstn (length s - 1) s) = Err LXml /\
  load_text (firstn (length s - 24) s) = Err (LUnhandledEvent (lit "metadata")) /\
  load_text (firstn (length s - 38) s) = Err LUnexpectedEof /\
  load_text (lit "<!-- a --- b -") = Err LXml /\
  load_text [] = Err (LUnhandledEvent (lit "metadata")) /\
  load_text (s ++ s) = Ok (entries ex_tree) /\
  (forall t u, s = t ++ u -> u <> [] -> exists e, load_text t = Err e /\ db_parse_text t = Err e).
Proof.
  destruct C52_ex as (W & S & E & _). cbv zeta.
  assert (L : load_text (flat_map spell ex_pieces) = Ok (entries ex_tree)).
  { rewrite <- (app_nil_r (flat_map _ _)). apply (C52_reads ex_tree ex_pieces [] [] W S E). now left. }
  split; [exact L|]. do 5 (split; [vm_compute; reflexivity|]). split; [now apply C56_extends|].
  intros t u Q N. apply (C56_document ex_tree ex_pieces [] t u W S E (or_introl eq_refl) Q N).
Qed.
