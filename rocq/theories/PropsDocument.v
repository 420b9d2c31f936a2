(** * C52: a metadata document may be spelled in any way XML allows

    [Database::parse] takes the text of a document.  Whatever white space stands
    inside the tags, whichever quotes surround the values, whatever comments,
    blank text and document type declaration are put in between: the text is
    read as the document it spells, and nothing after its end tag matters. *)
From Verif Require Import Base CountryId Types Metadata Database Loader Api Xml.
From Verif Require Import StrFacts DatabaseFacts PropsLoader PropsXml.

(** ** Spelling *)
(** the characters of names: none of the ones XML gives a meaning *)
Definition name_char (c : char) : Prop := ~ In c [9; 10; 13; 32]%N /\ ~ In c (lit "<>/=""'!?&").
Definition is_name (n : str) : Prop := n <> [] /\ forall c, In c n -> name_char c.

(** an attribute, with the white space before it and around the '=' *)
Record spelled_attr := mk_sattr {
  sa_before : str; sa_key : str; sa_left : str; sa_right : str; sa_quote : char; sa_value : str }.
Definition spell_attr (a : spelled_attr) : str :=
  sa_before a ++ sa_key a ++ sa_left a ++ lit "=" ++ sa_right a ++ [sa_quote a] ++ sa_value a ++ [sa_quote a].
Definition sattr_ok (a : spelled_attr) : Prop :=
  blank (sa_before a) /\ sa_before a <> [] /\ is_name (sa_key a) /\ blank (sa_left a) /\ blank (sa_right a)
  /\ In (sa_quote a) (lit """'") /\ ~ In (sa_quote a) (sa_value a).

(** the pieces of a document *)
Inductive piece :=
| PStart (name : str) (attrs : list spelled_attr) (space : str)
| PEmpty (name : str) (attrs : list spelled_attr) (space : str)
| PEnd (name : str) (space : str)
| PText (text : str)
| PComment (text : str)
| PDocType (word text : str).
Definition spell (p : piece) : str :=
  match p with
  | PStart n a s => lit "<" ++ n ++ flat_map spell_attr a ++ s ++ lit ">"
  | PEmpty n a s => lit "<" ++ n ++ flat_map spell_attr a ++ s ++ lit "/>"
  | PEnd n s => lit "</" ++ n ++ s ++ lit ">"
  | PText t => t
  | PComment t => lit "<!--" ++ t ++ lit "-->"
  | PDocType w t => lit "<!" ++ w ++ t ++ lit ">"
  end.
(** [s] is the word [w] of large letters, in any case *)
Definition in_any_case (w s : str) : Prop := Forall2 (fun c d => d = c \/ d = c + 32)%N w s.
(** the text of a document type declaration: the angle brackets in it match;
    no quotes, comments or processing instructions *)
Inductive nested : str -> Prop :=
| nested_nil : nested []
| nested_char c s : ~ In c (lit "<>""'") -> nested s -> nested (c :: s)
| nested_in a s : nested a -> (forall r, a <> lit "!--" ++ r /\ a <> lit "?" ++ r) -> nested s ->
    nested (lit "<" ++ a ++ lit ">" ++ s).
Definition tag_ok (n : str) (a : list spelled_attr) (s : str) : Prop :=
  is_name n /\ Forall sattr_ok a /\ blank s.
Definition piece_ok (p : piece) : Prop :=
  match p with
  | PStart n a s | PEmpty n a s => tag_ok n a s
  | PEnd n s => is_name n /\ blank s
  | PText t => t <> [] /\ forall c, In c t -> ~ In c (lit "<&") /\ c <> 65279%N
  | PComment t => forall a b, t ++ lit "--" <> a ++ lit "-->" ++ b   (* it ends at the first "-->" *)
  | PDocType w t => in_any_case (lit "DOCTYPE") w /\ nested t /\ exists c, In c t /\ ~ In c [9; 10; 13; 32]%N
  end.

(** end tags match the start tags *)
Fixpoint matching (open : list str) (l : list piece) : Prop :=
  match l with
  | [] => True
  | PStart n _ _ :: l' => matching (n :: open) l'
  | PEnd n _ :: l' => match open with m :: open' => m = n /\ matching open' l' | [] => False end
  | _ :: l' => matching open l'
  end.
(** what is between two tags is one piece of text *)
Fixpoint apart (l : list piece) : Prop :=
  match l with
  | PText _ :: l' => match l' with PText _ :: _ => False | _ => True end /\ apart l'
  | _ :: l' => apart l'
  | [] => True
  end.
Definition spelled (l : list piece) : Prop := Forall piece_ok l /\ matching [] l /\ apart l.

(** what a piece means *)
(** the attributes of a tag up to the first that repeats a name, which is an
    error *)
Fixpoint attrs_mean (before : list str) (a : list spelled_attr) : list attr :=
  match a with
  | [] => []
  | x :: a' => if in_dec (list_eq_dec N.eq_dec) (sa_key x) before then [None]
      else Some (sa_key x, sa_value x) :: attrs_mean (sa_key x :: before) a'
  end.
Definition piece_means (p : piece) : event :=
  match p with
  | PStart n a _ => EvStart n (attrs_mean [] a)
  | PEmpty n a _ => EvEmpty n (attrs_mean [] a)
  | PEnd n _ => EvEnd n
  | PText t => EvText t
  | PComment _ => EvComment
  | PDocType _ _ => EvDocType
  end.

(** ** Facts about the reader *)
Lemma in_order_rev : forall s, in_order s = rev s.
Proof. intros s. unfold in_order. symmetry. apply rev_alt. Qed.
Lemma run_app : forall a b x, xml_run x (a ++ b) =
  (fst (xml_run x a) ++ fst (xml_run (snd (xml_run x a)) b), snd (xml_run (snd (xml_run x a)) b)).
Proof.
  induction a as [|c a IH]; intros b x; cbn [app xml_run].
  - cbn [fst snd app]. now destruct (xml_run x b).
  - destruct (xml_step x c) as [e x1]. rewrite IH. destruct (xml_run x1 a) as [es x2]. cbn [fst snd].
    now rewrite app_assoc.
Qed.
Lemma run_app_eq : forall a b x e1 x1 e2 x2, xml_run x a = (e1, x1) -> xml_run x1 b = (e2, x2) ->
  xml_run x (a ++ b) = (e1 ++ e2, x2).
Proof. intros a b x e1 x1 e2 x2 H1 H2. rewrite run_app, H1. cbn [fst snd]. now rewrite H2. Qed.
Lemma run_cons : forall c s x e1 x1 e2 x2, xml_step x c = (e1, x1) -> xml_run x1 s = (e2, x2) ->
  xml_run x (c :: s) = (e1 ++ e2, x2).
Proof. intros c s x e1 x1 e2 x2 H1 H2. cbn [xml_run]. now rewrite H1, H2. Qed.

Lemma blank_xml : forall s, blank s -> forallb xml_ws s = true.
Proof.
  intros s H. apply forallb_forall. intros c I. apply H in I.
  repeat (destruct I as [<-|I]; [reflexivity|]). destruct I.
Qed.
Lemma not_xml_ws : forall c, ~ In c [9; 10; 13; 32]%N -> xml_ws c = false.
Proof.
  intros c H. unfold xml_ws. rewrite !orb_false_iff, !N.eqb_neq. repeat split; intros ->; apply H; cbn; tauto.
Qed.
Lemma xml_ws_cases : forall c, xml_ws c = true -> In c [9; 10; 13; 32]%N.
Proof.
  intros c H. unfold xml_ws in H. rewrite !orb_true_iff, !N.eqb_eq in H. cbn. intuition.
Qed.

(** characters that are nothing special inside a tag *)
Definition ordinary (c : char) : Prop := c <> 62%N /\ c <> 34%N /\ c <> 39%N.
Lemma name_ordinary : forall c, name_char c -> ordinary c.
Proof. intros c [_ H]. repeat split; intros ->; apply H; cbn; tauto. Qed.
Lemma blank_ordinary : forall c, In c [9; 10; 13; 32]%N -> ordinary c.
Proof. intros c I. repeat (destruct I as [<-|I]; [repeat split; discriminate|]). destruct I. Qed.
Lemma step_ordinary : forall open seen c, ordinary c ->
  xml_step (mk_xml open (XTag seen None)) c = ([], mk_xml open (XTag (c :: seen) None)).
Proof.
  intros open seen c (H1 & H2 & H3). unfold xml_step, xml_in_tag. cbn [x_at x_open].
  now rewrite (proj2 (N.eqb_neq c 62) H1), (proj2 (N.eqb_neq c 34) H2), (proj2 (N.eqb_neq c 39) H3).
Qed.
Lemma run_ordinary : forall s open seen, (forall c, In c s -> ordinary c) ->
  xml_run (mk_xml open (XTag seen None)) s = ([], mk_xml open (XTag (rev s ++ seen) None)).
Proof.
  induction s as [|c s IH]; intros open seen H; [reflexivity|]. cbn [xml_run].
  rewrite step_ordinary by (apply H; now left). rewrite IH by (intros x I; apply H; now right).
  cbn [rev]. now rewrite <- app_assoc.
Qed.
Lemma run_quoted : forall v open seen q, ~ In q v ->
  xml_run (mk_xml open (XTag seen (Some q))) (v ++ [q]) = ([], mk_xml open (XTag (q :: rev v ++ seen) None)).
Proof.
  induction v as [|c v IH]; intros open seen q H; cbn [app xml_run]; unfold xml_step, xml_in_tag; cbn [x_at x_open].
  - now rewrite N.eqb_refl.
  - replace (N.eqb c q) with false by (symmetry; apply N.eqb_neq; intros ->; apply H; now left).
    rewrite IH by (intros I; apply H; now right). cbn [rev app]. now rewrite <- app_assoc.
Qed.
Lemma step_quote : forall open seen q, In q (lit """'") ->
  xml_step (mk_xml open (XTag seen None)) q = ([], mk_xml open (XTag (q :: seen) (Some q))).
Proof. intros open seen q I. destruct I as [<-|[<-|[]]]; reflexivity. Qed.
Lemma run_attr : forall a open seen, sattr_ok a ->
  xml_run (mk_xml open (XTag seen None)) (spell_attr a) = ([], mk_xml open (XTag (rev (spell_attr a) ++ seen) None)).
Proof.
  intros a open seen (B & _ & (_ & K) & L & R & Q & V). unfold spell_attr.
  set (p := sa_before a ++ sa_key a ++ sa_left a ++ lit "=" ++ sa_right a).
  assert (E : sa_before a ++ sa_key a ++ sa_left a ++ lit "=" ++ sa_right a ++ [sa_quote a] ++ sa_value a ++ [sa_quote a]
    = p ++ sa_quote a :: sa_value a ++ [sa_quote a]) by (subst p; now rewrite <- !app_assoc).
  rewrite E. replace ([] : list event) with ([] ++ [] : list event) by reflexivity. eapply run_app_eq.
  - apply run_ordinary. subst p. intros c I. rewrite !in_app_iff in I. destruct I as [I|[I|[I|[I|I]]]].
    + now apply blank_ordinary, B. + now apply name_ordinary, K. + now apply blank_ordinary, L.
    + destruct I as [<-|[]]. repeat split; discriminate. + now apply blank_ordinary, R.
  - replace ([] : list event) with ([] ++ [] : list event) by reflexivity.
    eapply run_cons; [now apply step_quote|]. rewrite run_quoted by exact V. f_equal. f_equal. f_equal.
    rewrite rev_app_distr. cbn [rev app]. rewrite rev_app_distr. cbn [rev app]. now rewrite <- !app_assoc.
Qed.
Lemma run_attrs : forall l open seen, Forall sattr_ok l ->
  xml_run (mk_xml open (XTag seen None)) (flat_map spell_attr l)
  = ([], mk_xml open (XTag (rev (flat_map spell_attr l) ++ seen) None)).
Proof.
  induction l as [|a l IH]; intros open seen H; [reflexivity|]. inversion H; subst. cbn [flat_map].
  replace ([] : list event) with ([] ++ [] : list event) by reflexivity.
  eapply run_app_eq; [now apply run_attr|]. rewrite IH by assumption. now rewrite rev_app_distr, <- app_assoc.
Qed.

(** *** The attributes of a tag *)
Lemma skip_blank : forall w c s, blank w -> ~ In c [9; 10; 13; 32]%N -> skip_xml_ws (w ++ c :: s) = c :: s.
Proof. intros w c s H N. unfold skip_xml_ws. apply span_skip; [now apply blank_xml|now apply not_xml_ws]. Qed.
Lemma skip_all : forall w, blank w -> skip_xml_ws w = [].
Proof. intros w H. unfold skip_xml_ws. now rewrite span_all by (now apply blank_xml). Qed.
Lemma key_chars : forall k, (forall c, In c k -> name_char c) ->
  forallb (fun c => negb (N.eqb c 61 || xml_ws c)) k = true.
Proof.
  intros k H. apply forallb_forall. intros c I. destruct (H c I) as [H1 H2].
  rewrite (not_xml_ws c H1), (proj2 (N.eqb_neq c 61)); [reflexivity|]. intros ->. apply H2. cbn. tauto.
Qed.
Lemma value_chars : forall q v, ~ In q v -> forallb (fun c => negb (N.eqb c q)) v = true.
Proof.
  intros q v H. apply forallb_forall. intros c I. rewrite (proj2 (N.eqb_neq c q)); [reflexivity|]. intros ->. contradiction.
Qed.
Lemma span_key : forall k w s, (forall c, In c k -> name_char c) -> blank w ->
  span (fun c => negb (N.eqb c 61 || xml_ws c)) (k ++ w ++ 61%N :: s) = (k, w ++ 61%N :: s).
Proof.
  intros k w s K W. destruct w as [|b w]; cbn [app]; (apply span_app_stop; [now apply key_chars|]).
  - reflexivity.
  - pose proof (blank_xml _ W) as B. cbn [forallb] in B. apply andb_prop in B as [B _]. now rewrite B, orb_true_r.
Qed.
Lemma attrs_read : forall l sp seen fuel, Forall sattr_ok l -> blank sp ->
  length (flat_map spell_attr l) <= fuel ->
  xml_attrs fuel seen (flat_map spell_attr l ++ sp) = attrs_mean seen l.
Proof.
  induction l as [|a l IH]; intros sp seen fuel H S F.
  - cbn [flat_map app attrs_mean]. destruct fuel; cbn [xml_attrs]; [reflexivity|]. now rewrite skip_all.
  - inversion H as [|? ? Ha Hl]; subst. destruct Ha as (B & _ & (K0 & K) & L & R & Q & V).
    cbn [flat_map] in F. rewrite app_length in F.
    assert (F1 : 1 <= length (spell_attr a)).
    { unfold spell_attr. rewrite !app_length. cbn [length]. lia. }
    destruct fuel as [|fuel]; [lia|]. cbn [xml_attrs flat_map attrs_mean].
    destruct (sa_key a) as [|c k] eqn:EK; [now elim K0|].
    assert (T : (spell_attr a ++ flat_map spell_attr l) ++ sp =
      sa_before a ++ c :: k ++ sa_left a ++ 61%N :: sa_right a ++ sa_quote a :: sa_value a ++ sa_quote a
        :: flat_map spell_attr l ++ sp).
    { unfold spell_attr. rewrite EK. cbn [app]. rewrite <- !app_assoc. cbn [app]. rewrite <- !app_assoc. cbn [app].
      rewrite <- !app_assoc. reflexivity. }
    rewrite T. rewrite skip_blank; [|exact B|apply (K c); now left].
    rewrite span_key; [|intros x I; apply K; now right|exact L].
    rewrite skip_blank; [|exact L|cbn; lia]. replace (N.eqb 61 61) with true by reflexivity. cbv iota.
    destruct (in_dec (list_eq_dec N.eq_dec) (c :: k) seen) as [I|I].
    { replace (existsb (str_eqb (c :: k)) seen) with true; [reflexivity|]. symmetry. apply existsb_exists.
      exists (c :: k). split; [exact I|apply str_eqb_refl]. }
    replace (existsb (str_eqb (c :: k)) seen) with false.
    2:{ symmetry. destruct (existsb (str_eqb (c :: k)) seen) eqn:X; [|reflexivity].
        apply existsb_exists in X as (y & J & Y). apply str_eqb_eq in Y. subst y. contradiction. }
    cbv iota. rewrite skip_blank; [|exact R|].
    2:{ destruct Q as [<-|[<-|[]]]; cbn; lia. }
    replace (N.eqb (sa_quote a) 34 || N.eqb (sa_quote a) 39) with true
      by (destruct Q as [<-|[<-|[]]]; reflexivity).
    cbv iota. rewrite span_app_stop; [|now apply value_chars|now rewrite N.eqb_refl].
    f_equal. apply IH; try assumption. lia.
Qed.

(** *** Tags *)
Definition no_slash_end (s : str) : Prop := exists a x, s = a ++ [x] /\ x <> 47%N.
Lemma no_slash_app : forall a b, no_slash_end b -> no_slash_end (a ++ b).
Proof. intros a b (c & x & -> & H). exists (a ++ c), x. split; [now rewrite app_assoc|exact H]. Qed.
Lemma no_slash_all : forall s, s <> [] -> ~ In 47%N s -> no_slash_end s.
Proof.
  intros s H N. destruct (exists_last H) as (a & x & ->). exists a, x. split; [reflexivity|].
  intros ->. apply N. apply in_app_iff. right. now left.
Qed.
Lemma name_no_slash : forall n, (forall c, In c n -> name_char c) -> ~ In 47%N n.
Proof. intros n H I. apply H in I as [_ I]. apply I. cbn. tauto. Qed.
Lemma content_end : forall n a s, tag_ok n a s -> no_slash_end (n ++ flat_map spell_attr a ++ s).
Proof.
  intros n a s ((N0 & N) & A & S). destruct s as [|c s].
  - rewrite app_nil_r. destruct a as [|x a] using rev_ind.
    + cbn [flat_map]. rewrite app_nil_r. apply no_slash_all; [exact N0|now apply name_no_slash].
    + clear IHa. rewrite flat_map_concat_map, map_app, concat_app, app_assoc. apply no_slash_app. cbn [map concat].
      rewrite app_nil_r. apply Forall_app in A as [_ A]. inversion A as [|? ? (_ & _ & _ & _ & _ & Q & _) _]; subst.
      unfold spell_attr. do 7 apply no_slash_app. exists [], (sa_quote x). split; [reflexivity|].
      destruct Q as [<-|[<-|[]]]; discriminate.
  - do 2 apply no_slash_app. apply no_slash_all; [discriminate|]. intros I. apply S in I. cbn in I. lia.
Qed.
Lemma span_name : forall n a s, tag_ok n a s ->
  span (fun c => negb (xml_ws c)) (n ++ flat_map spell_attr a ++ s) = (n, flat_map spell_attr a ++ s).
Proof.
  intros n a s ((N0 & N) & A & S).
  assert (Fn : forallb (fun c => negb (xml_ws c)) n = true).
  { apply forallb_forall. intros c I. rewrite not_xml_ws; [reflexivity|]. apply N, I. }
  assert (E : flat_map spell_attr a ++ s = [] \/ exists c r, flat_map spell_attr a ++ s = c :: r /\ xml_ws c = true).
  { destruct a as [|x a].
    - cbn [flat_map app]. destruct s as [|c s]; [now left|right]. exists c, s. split; [reflexivity|].
      apply blank_xml in S. cbn [forallb] in S. now apply andb_prop in S as [S _].
    - right. inversion A as [|? ? (B & B0 & _) _]; subst. cbn [flat_map]. unfold spell_attr.
      destruct (sa_before x) as [|c r]; [now elim B0|]. cbn [app]. eexists. eexists. split; [reflexivity|].
      apply blank_xml in B. cbn [forallb] in B. now apply andb_prop in B as [B _]. }
  destruct E as [E|(c & r & E & W)]; rewrite E.
  - rewrite app_nil_r. now apply span_all.
  - apply span_app_stop; [exact Fn|now rewrite W].
Qed.
Lemma tag_attrs : forall n a s, tag_ok n a s ->
  xml_attrs (length (flat_map spell_attr a ++ s)) [] (flat_map spell_attr a ++ s) = attrs_mean [] a.
Proof.
  intros n a s (_ & A & S). apply attrs_read; try assumption. rewrite app_length. lia.
Qed.
Lemma tag_start : forall open n a s, tag_ok n a s ->
  xml_tag open (rev (n ++ flat_map spell_attr a ++ s))
  = ([EvStart n (attrs_mean [] a)], mk_xml (n :: open) (XText [])).
Proof.
  intros open n a s H. pose proof (content_end n a s H) as (b & x & E & X). unfold xml_tag.
  rewrite E, rev_app_distr. cbn [rev app]. rewrite (proj2 (N.eqb_neq x 47) X). rewrite in_order_rev. cbn [rev].
  rewrite rev_involutive, <- E, (span_name n a s H). now rewrite (tag_attrs n a s H).
Qed.
Lemma tag_empty : forall open n a s, tag_ok n a s ->
  xml_tag open (47%N :: rev (n ++ flat_map spell_attr a ++ s))
  = ([EvEmpty n (attrs_mean [] a)], mk_xml open (XText [])).
Proof.
  intros open n a s H. unfold xml_tag. replace (N.eqb 47 47) with true by reflexivity. cbv iota.
  rewrite in_order_rev, rev_involutive, (span_name n a s H). now rewrite (tag_attrs n a s H).
Qed.
Lemma step_open : forall open c, name_char c ->
  xml_step (mk_xml open XOpen) c = xml_step (mk_xml open (XTag [] None)) c.
Proof.
  intros open c [_ H]. unfold xml_step. cbn [x_at x_open].
  rewrite (proj2 (N.eqb_neq c 33)), (proj2 (N.eqb_neq c 47)), (proj2 (N.eqb_neq c 63)); [reflexivity| | |];
    intros ->; apply H; cbn; tauto.
Qed.
Lemma step_lt : forall open seen, xml_step (mk_xml open (XText seen)) 60%N = (text_events seen, mk_xml open XOpen).
Proof. reflexivity. Qed.
Lemma run_content : forall open n a s, tag_ok n a s ->
  xml_run (mk_xml open XOpen) (n ++ flat_map spell_attr a ++ s)
  = ([], mk_xml open (XTag (rev (n ++ flat_map spell_attr a ++ s)) None)).
Proof.
  intros open n a s ((N0 & N) & A & S).
  enough (K : xml_run (mk_xml open (XTag [] None)) (n ++ flat_map spell_attr a ++ s)
    = ([], mk_xml open (XTag (rev (n ++ flat_map spell_attr a ++ s)) None))).
  { destruct n as [|c n]; [now elim N0|]. cbn [app xml_run] in *. rewrite step_open by (apply N; now left). exact K. }
  replace ([] : list event) with ([] ++ [] : list event) by reflexivity. eapply run_app_eq.
  - apply run_ordinary. intros c I. now apply name_ordinary, N.
  - replace ([] : list event) with ([] ++ [] : list event) by reflexivity. eapply run_app_eq.
    + now apply run_attrs.
    + rewrite run_ordinary by (intros c I; now apply blank_ordinary, S). rewrite !rev_app_distr, app_nil_r.
      now rewrite <- app_assoc.
Qed.
Lemma run_tag : forall open seen n a s rest e x, tag_ok n a s ->
  xml_run (mk_xml open (XTag (rev (n ++ flat_map spell_attr a ++ s)) None)) rest = (e, x) ->
  xml_run (mk_xml open (XText seen)) (60%N :: (n ++ flat_map spell_attr a ++ s) ++ rest) = (text_events seen ++ e, x).
Proof.
  intros open seen n a s rest e x H R. eapply run_cons; [apply step_lt|].
  replace e with ([] ++ e) by reflexivity. eapply run_app_eq; [now apply run_content|exact R].
Qed.

(** *** End tags *)
Lemma run_end : forall s open seen, ~ In 62%N s ->
  xml_run (mk_xml open (XEndTag seen)) s = ([], mk_xml open (XEndTag (rev s ++ seen))).
Proof.
  induction s as [|c s IH]; intros open seen H; [reflexivity|]. cbn [xml_run]. unfold xml_step at 1. cbn [x_at x_open].
  rewrite (proj2 (N.eqb_neq c 62)) by (intros ->; apply H; now left). rewrite IH by (intros I; apply H; now right).
  cbn [rev]. now rewrite <- app_assoc.
Qed.
Lemma end_tag : forall open n s, is_name n -> blank s ->
  xml_end_tag (n :: open) (rev (n ++ s)) = ([EvEnd n], mk_xml open (XText [])).
Proof.
  intros open n s (N0 & N) S. unfold xml_end_tag, skip_xml_ws.
  assert (E : snd (span xml_ws (rev (n ++ s))) = rev n).
  { rewrite rev_app_distr. destruct (exists_last N0) as (a & x & ->). rewrite rev_app_distr. cbn [rev app].
    apply span_skip; [apply forallb_rev; now apply blank_xml|]. apply not_xml_ws, N, in_app_iff. right. now left. }
  rewrite E, in_order_rev, rev_involutive. now rewrite str_eqb_refl.
Qed.

(** *** Comments *)
Definition no_end (t : str) : Prop := forall a b, t <> a ++ lit "-->" ++ b.
Lemma no_end_tail : forall c t, no_end (c :: t) -> no_end t.
Proof. intros c t H a b E. apply (H (c :: a) b). rewrite E. reflexivity. Qed.
Lemma run_comment : forall t open n, n <= 2 -> no_end (repeat 45%N n ++ t ++ lit "--") ->
  xml_run (mk_xml open (XComment n)) (t ++ lit "-->") = ([EvComment], mk_xml open (XText [])).
Proof.
  induction t as [|c t IH]; intros open n L H.
  - destruct n as [|[|[|n]]]; [reflexivity|reflexivity|reflexivity|lia].
  - assert (T : no_end (t ++ lit "--")).
    { clear IH L. induction n as [|n IHn]; [exact (no_end_tail _ _ H)|]. apply IHn. exact (no_end_tail _ _ H). }
    cbn [app xml_run]. unfold xml_step at 1. cbn [x_at x_open]. destruct (N.eqb_spec c 45) as [->|N].
    + destruct n as [|[|[|n]]]; [| | |lia]; (rewrite IH; [reflexivity|lia|]).
      * exact H.
      * exact H.
      * exact (no_end_tail _ _ H).
    + destruct (N.eqb_spec c 62) as [->|N2].
      * destruct n as [|[|[|n]]]; [| | |lia].
        -- rewrite IH; [reflexivity|lia|exact T].
        -- rewrite IH; [reflexivity|lia|exact T].
        -- elim (H [] (t ++ lit "--")). reflexivity.
      * rewrite IH; [reflexivity|lia|exact T].
Qed.

(** *** Document type declarations *)
Definition solid (s : str) : bool := existsb (fun c => negb (xml_ws c)) s.
Lemma run_nested : forall t, nested t -> forall open named depth,
  xml_run (mk_xml open (XDoc named depth)) t = ([], mk_xml open (XDoc (named || solid t) depth)).
Proof.
  induction 1 as [|c s N H IH|a s Ha IHa _ Hs IHs]; intros open named depth.
  - cbn [solid existsb xml_run]. now rewrite orb_false_r.
  - cbn [xml_run]. unfold xml_step at 1. cbn [x_at x_open].
    rewrite (proj2 (N.eqb_neq c 60)), (proj2 (N.eqb_neq c 62)) by (intros ->; apply N; cbn; tauto).
    rewrite IH. unfold solid. cbn [existsb]. now rewrite orb_assoc.
  - replace (named || solid (lit "<" ++ a ++ lit ">" ++ s)) with true
      by (symmetry; unfold solid; cbn; apply orb_true_r).
    change (lit "<" ++ a ++ lit ">" ++ s) with (60%N :: a ++ 62%N :: s).
    replace ([] : list event) with ([] ++ [] ++ [] ++ [] : list event) by reflexivity.
    eapply run_cons; [reflexivity|]. eapply run_app_eq; [apply IHa|]. cbn [orb].
    eapply run_cons; [reflexivity|]. apply IHs.
Qed.

(** ** Pieces *)
Definition is_text (p : piece) : bool := match p with PText _ => true | _ => false end.
Definition after_piece (open : list str) (p : piece) : list str :=
  match p with PStart n _ _ => n :: open | PEnd _ _ => tl open | _ => open end.
Lemma run_doctype : forall open w, in_any_case (lit "DOCTYPE") w ->
  xml_run (mk_xml open XBang) w = ([], mk_xml open (XDoc false 0)).
Proof.
  intros open w H. unfold in_any_case in H. cbn [lit map Byte.to_N] in H.
  repeat match goal with K : Forall2 _ (_ :: _) _ |- _ => let E := fresh in let K' := fresh in inversion K as [|? ? ? ? E K']; subst; clear K; destruct E; subst end;
  match goal with K : Forall2 _ [] _ |- _ => inversion K; subst end; reflexivity.
Qed.
Lemma run_markup : forall p open seen, piece_ok p -> is_text p = false ->
  match p with PEnd n _ => exists o, open = n :: o | _ => True end ->
  xml_run (mk_xml open (XText seen)) (spell p)
  = (text_events seen ++ [piece_means p], mk_xml (after_piece open p) (XText [])).
Proof.
  intros p open seen H T M. destruct p as [n a s|n a s|n s|t|t|w t]; cbn [piece_ok spell piece_means after_piece] in *.
  - enough (K : xml_run (mk_xml open (XText seen)) (60%N :: (n ++ flat_map spell_attr a ++ s) ++ lit ">") =
      (text_events seen ++ [EvStart n (attrs_mean [] a)], mk_xml (n :: open) (XText []))).
    { etransitivity; [|exact K]. f_equal. change (lit "<" ++ n ++ flat_map spell_attr a ++ s ++ lit ">")
        with (60%N :: n ++ flat_map spell_attr a ++ s ++ lit ">"). now rewrite <- !app_assoc. }
    apply run_tag; [exact H|]. cbn [lit map xml_run]. unfold xml_step, xml_in_tag. cbn [x_at x_open Byte.to_N].
    replace (N.eqb 62 62) with true by reflexivity. cbv iota. rewrite tag_start by exact H. reflexivity.
  - enough (K : xml_run (mk_xml open (XText seen)) (60%N :: (n ++ flat_map spell_attr a ++ s) ++ lit "/>") =
      (text_events seen ++ [EvEmpty n (attrs_mean [] a)], mk_xml open (XText []))).
    { etransitivity; [|exact K]. f_equal. change (lit "<" ++ n ++ flat_map spell_attr a ++ s ++ lit "/>")
        with (60%N :: n ++ flat_map spell_attr a ++ s ++ lit "/>"). now rewrite <- !app_assoc. }
    apply run_tag; [exact H|]. change (lit "/>") with [47; 62]%N.
    replace [EvEmpty n (attrs_mean [] a)] with ([] ++ [EvEmpty n (attrs_mean [] a)] ++ []) by reflexivity.
    eapply run_cons; [apply step_ordinary; repeat split; discriminate|]. eapply run_cons; [|reflexivity].
    unfold xml_step, xml_in_tag. cbn [x_at x_open]. replace (N.eqb 62 62) with true by reflexivity. cbv iota.
    now apply tag_empty.
  - destruct M as (o & ->). destruct H as [N S]. cbn [tl].
    change (lit "</" ++ n ++ s ++ lit ">") with (60%N :: 47%N :: n ++ s ++ lit ">"). rewrite (app_assoc n).
    eapply run_cons; [apply step_lt|]. replace [EvEnd n] with ([] ++ [] ++ [EvEnd n]) by reflexivity.
    eapply run_cons; [reflexivity|]. eapply run_app_eq.
    + apply run_end. intros I. apply in_app_iff in I as [I|I].
      * apply N in I as [_ I]. apply I. cbn. tauto.
      * apply S in I. cbn in I. lia.
    + rewrite app_nil_r. cbn [lit map xml_run]. unfold xml_step. cbn [x_at x_open Byte.to_N].
      replace (N.eqb 62 62) with true by reflexivity. cbv iota. rewrite end_tag by assumption. reflexivity.
  - discriminate T.
  - change (lit "<!--" ++ t ++ lit "-->") with (60%N :: 33%N :: 45%N :: 45%N :: t ++ lit "-->").
    eapply run_cons; [apply step_lt|]. replace [EvComment] with ([] ++ [] ++ [] ++ [EvComment]) by reflexivity.
    do 3 (eapply run_cons; [reflexivity|]). apply run_comment; [lia|exact H].
  - destruct H as (W & H & c & I & C). change (lit "<!" ++ w ++ t ++ lit ">") with (60%N :: 33%N :: w ++ t ++ lit ">").
    eapply run_cons; [apply step_lt|]. replace [EvDocType] with ([] ++ [] ++ [] ++ [EvDocType]) by reflexivity.
    eapply run_cons; [reflexivity|]. eapply run_app_eq; [now apply run_doctype|]. eapply run_app_eq; [now apply run_nested|].
    replace (solid t) with true; [reflexivity|]. symmetry. apply existsb_exists. exists c. split; [exact I|].
    now rewrite not_xml_ws.
Qed.
Lemma run_text : forall t open seen, (forall c, In c t -> ~ In c (lit "<&") /\ c <> 65279%N) ->
  xml_run (mk_xml open (XText seen)) t = ([], mk_xml open (XText (rev t ++ seen))).
Proof.
  induction t as [|c t IH]; intros open seen H; [reflexivity|]. cbn [xml_run]. unfold xml_step at 1. cbn [x_at x_open].
  destruct (H c (or_introl eq_refl)) as [N _].
  rewrite (proj2 (N.eqb_neq c 60)), (proj2 (N.eqb_neq c 38)) by (intros ->; apply N; cbn; tauto).
  rewrite IH by (intros x I; apply H; now right). cbn [rev]. now rewrite <- app_assoc.
Qed.
Lemma text_of : forall t, t <> [] -> text_events (rev t) = [EvText t].
Proof.
  intros t H. unfold text_events. destruct (rev t) as [|c r] eqn:E.
  - elim H. rewrite <- (rev_involutive t), E. reflexivity.
  - rewrite in_order_rev, <- E, rev_involutive. reflexivity.
Qed.

(** the events of text read so far and of the pieces that follow *)
Definition ends_in_markup (l : list piece) : Prop := exists l' p, l = l' ++ [p] /\ is_text p = false.
Lemma run_pieces : forall l open seen, Forall piece_ok l -> matching open l -> apart l -> ends_in_markup l ->
  (seen = [] \/ match l with PText _ :: _ => False | _ => True end) ->
  exists o, xml_run (mk_xml open (XText seen)) (flat_map spell l)
    = (text_events seen ++ map piece_means l, mk_xml o (XText [])).
Proof.
  induction l as [|p l IH]; intros open seen F M A (l' & q & E & Q) S; [destruct l'; discriminate E|].
  inversion F as [|? ? Fp Fl]; subst. cbn [flat_map map].
  destruct (is_text p) eqn:T.
  - destruct p as [| | |t| |]; try discriminate T. destruct S as [->|[]]. cbn [apart matching] in *.
    assert (El : ends_in_markup l).
    { destruct l' as [|x l'].
      - cbn in E. inversion E. subst q. discriminate Q.
      - cbn in E. inversion E. exists l', q. auto. }
    destruct Fp as [T0 Ft]. destruct A as [A1 A2].
    destruct (IH open (rev t) Fl M A2 El) as (o & K); [right; exact A1|].
    exists o. cbn [text_events app spell piece_means].
    replace (EvText t :: map piece_means l) with ([] ++ ([EvText t] ++ map piece_means l)) by reflexivity.
    eapply run_app_eq; [now apply run_text|]. rewrite app_nil_r, <- text_of by exact T0. exact K.
  - assert (Mp : match p with PEnd n _ => exists o, open = n :: o | _ => True end).
    { destruct p; try exact I. cbn [matching] in M. destruct open as [|m o]; [destruct M|]. destruct M as [-> _]. now exists o. }
    assert (Ml : matching (after_piece open p) l).
    { destruct p; cbn [matching after_piece] in *; try exact M. destruct open as [|m o]; [destruct M|]. now destruct M. }
    assert (Al : apart l) by (destruct p; try discriminate T; exact A).
    pose proof (run_markup p open seen Fp T Mp) as R.
    destruct l as [|p2 l].
    + exists (after_piece open p). cbn [flat_map map]. rewrite app_nil_r. exact R.
    + destruct (IH (after_piece open p) [] Fl Ml Al) as (o & K).
      * destruct l' as [|x l']; [cbn in E; discriminate E|]. cbn in E. inversion E. exists l', q. auto.
      * now left.
      * exists o. change (piece_means p :: map piece_means (p2 :: l)) with ([piece_means p] ++ map piece_means (p2 :: l)).
        rewrite app_assoc. eapply run_app_eq; [exact R|]. exact K.
Qed.

(** ** The claims *)
(** A text that spells some pieces is read as their meaning, with or without a
    byte order mark, and whatever text follows. *)
Definition byte_order_mark (b : str) : Prop := b = [] \/ b = [65279%N].
Lemma first_char : forall l after, Forall piece_ok l -> ends_in_markup l ->
  exists c r, flat_map spell l ++ after = c :: r /\ c <> 65279%N.
Proof.
  intros l after F (l' & q & E & Q). destruct l as [|p l]; [destruct l'; discriminate E|].
  inversion F as [|? ? Fp _]; subst. cbn [flat_map].
  destruct p; cbn [spell]; try (eexists; eexists; split; [reflexivity|discriminate]).
  destruct Fp as [T0 Ft]. destruct text as [|c t]; [now elim T0|]. cbn [app]. eexists. eexists. split; [reflexivity|].
  apply Ft. now left.
Qed.
Theorem C52_pieces : forall l bom after, spelled l -> ends_in_markup l -> byte_order_mark bom ->
  exists rest, xml_events (bom ++ flat_map spell l ++ after) = map piece_means l ++ rest.
Proof.
  intros l bom after (F & M & A) E B. unfold xml_events.
  assert (X : xml_skip_bom (bom ++ flat_map spell l ++ after) = flat_map spell l ++ after).
  { destruct B as [->| ->]; [|reflexivity]. cbn [app]. destruct (first_char l after F E) as (c & r & -> & N).
    cbn [xml_skip_bom]. now rewrite (proj2 (N.eqb_neq c 65279) N). }
  rewrite X. destruct (run_pieces l [] [] F M A E (or_introl eq_refl)) as (o & R).
  change xml_start with (mk_xml [] (XText [])). rewrite run_app, R. cbn [fst snd text_events app].
  exists (fst (xml_run (mk_xml o (XText [])) after) ++ xml_finish (snd (xml_run (mk_xml o (XText [])) after))).
  now rewrite <- app_assoc.
Qed.
Print Assumptions C52_pieces.

(** Every text that spells a well-formed document is loaded as that document. *)
Theorem C52_reads : forall d l bom after, well_formed d -> spelled l -> map piece_means l = render d ->
  byte_order_mark bom -> load_text (bom ++ flat_map spell l ++ after) = Ok (entries d).
Proof.
  intros d l bom after W S E B.
  assert (EM : ends_in_markup l).
  { destruct l as [|p l] using rev_ind; [unfold render in E; cbn in E; destruct (flat_map doc_item_events d); discriminate E|].
    clear IHl. exists l, p. split; [reflexivity|]. unfold render in E. rewrite map_app in E. cbn [map] in E.
    apply app_inj_tail in E as [_ E]. destruct p; try discriminate E. reflexivity. }
  destruct (C52_pieces l bom after S EM B) as (rest & R). unfold load_text. rewrite R, E. now apply C29_reads.
Qed.
Print Assumptions C52_reads.

(** So two spellings of one document give the same database, or the same error. *)
Theorem C52_parse : forall d l bom after, well_formed d -> spelled l -> map piece_means l = render d ->
  byte_order_mark bom -> db_parse_text (bom ++ flat_map spell l ++ after) = db_from (entries d).
Proof. intros d l bom after W S E B. unfold db_parse_text. rewrite (C52_reads d l bom after W S E B). reflexivity. Qed.
Print Assumptions C52_parse.

(** *** What is not accepted *)
(** An XML declaration, or any other processing instruction, before the
    document makes loading fail, whatever follows. *)
Lemma run_pi : forall t rest open mark, (forall a b, t ++ lit "?" <> a ++ lit "?>" ++ b) ->
  (mark = true -> forall b, t <> lit ">" ++ b) ->
  exists x, xml_run (mk_xml open (XPi mark)) (t ++ lit "?>" ++ rest) = x /\ exists es, fst x = EvOther :: es.
Proof.
  induction t as [|c t IH]; intros rest open mark H M.
  - eexists. split; [reflexivity|]. change (lit "?>") with [63; 62]%N. cbn [app xml_run].
    unfold xml_step at 1. cbn [x_at x_open]. destruct mark.
    + replace (N.eqb 63 62) with false by reflexivity. replace (N.eqb 63 63) with true by reflexivity.
      unfold xml_step. cbn [x_at x_open]. replace (N.eqb 62 62) with true by reflexivity. cbv iota.
      destruct (xml_run _ rest) as [es x2]. cbn [fst app]. now eexists.
    + replace (N.eqb 63 63) with true by reflexivity.
      unfold xml_step. cbn [x_at x_open]. replace (N.eqb 62 62) with true by reflexivity. cbv iota.
      destruct (xml_run _ rest) as [es x2]. cbn [fst app]. now eexists.
  - cbn [app xml_run]. unfold xml_step at 1. cbn [x_at x_open].
    assert (E : (if mark then if N.eqb c 62 then ([EvOther], mk_xml open (XText [])) else ([], mk_xml open (XPi (N.eqb c 63)))
      else ([], mk_xml open (XPi (N.eqb c 63)))) = ([], mk_xml open (XPi (N.eqb c 63)))).
    { destruct mark; [|reflexivity]. rewrite (proj2 (N.eqb_neq c 62)); [reflexivity|]. intros ->. now elim (M eq_refl t). }
    rewrite E. destruct (IH rest open (N.eqb c 63)) as (x & X & es & F).
    + intros a b K. apply (H (c :: a) b). cbn [app]. now rewrite K.
    + intros Q b ->. apply N.eqb_eq in Q. subst c. apply (H [] (b ++ lit "?")). reflexivity.
    + eexists. split; [reflexivity|]. rewrite X. destruct x as [e x]. cbn [fst] in *. subst e. now eexists.
Qed.
Theorem C52_declaration : forall t bom after, byte_order_mark bom -> (forall a b, t ++ lit "?" <> a ++ lit "?>" ++ b) ->
  load_text (bom ++ lit "<?" ++ t ++ lit "?>" ++ after) = Err (LUnhandledEvent (lit "metadata")).
Proof.
  intros t bom after B H. unfold load_text, xml_events.
  assert (X : xml_skip_bom (bom ++ lit "<?" ++ t ++ lit "?>" ++ after) = lit "<?" ++ t ++ lit "?>" ++ after).
  { destruct B as [->| ->]; reflexivity. }
  rewrite X. destruct (run_pi t after [] false H) as ([e x] & R & es & F); [discriminate|]. cbn [fst] in F. subst e.
  assert (K : xml_run xml_start (lit "<?" ++ t ++ lit "?>" ++ after) = (EvOther :: es, x)).
  { replace (EvOther :: es) with ([] ++ EvOther :: es) by reflexivity. eapply run_app_eq; [reflexivity|exact R]. }
  rewrite K. reflexivity.
Qed.
Print Assumptions C52_declaration.

(** A territory whose tag has the same attribute twice makes loading fail as
    malformed XML, whatever follows. *)
Lemma attrs_mean_repeated : forall a b x more, NoDup (map sa_key b) -> (forall y, In y b -> ~ In (sa_key y) a) ->
  In (sa_key x) (map sa_key b ++ a) ->
  attrs_mean a (b ++ x :: more) = map Some (map (fun y => (sa_key y, sa_value y)) b) ++ [None].
Proof.
  intros a b. revert a. induction b as [|y b IH]; intros a x more D N I; cbn [app map attrs_mean] in *.
  - destruct (in_dec _ _ _); [reflexivity|contradiction].
  - inversion D as [|? ? D1 D2]; subst. destruct (in_dec (list_eq_dec N.eq_dec) (sa_key y) a) as [J|_]; [elim (N y (or_introl eq_refl) J)|].
    f_equal. apply IH; [exact D2| |].
    + intros z Z [J|J]; [apply D1; rewrite J; now apply in_map|exact (N z (or_intror Z) J)].
    + destruct I as [I|I]; apply in_app_iff; [right; now left|]. apply in_app_iff in I as [I|I]; [now left|right; now right].
Qed.
Lemma fold_attrs_last : forall A (f : A -> str -> str -> outcome lerr A) kvs a a',
  fold_attrs f a (map Some kvs) = Ok a' -> fold_attrs f a (map Some kvs ++ [None]) = Err LXml.
Proof.
  induction kvs as [|[k v] kvs IH]; intros a a' H; cbn [map app fold_attrs] in *; [reflexivity|].
  apply obind_ok in H as (b & Hb & H). rewrite Hb. cbn [obind]. exact (IH b a' H).
Qed.
Lemma territories_repeated : forall items acc kvs rest fuel, Forall terrs_item_ok items -> Forall terr_attr_ok kvs ->
  length (flat_map terrs_item_events items ++ EvStart (lit "territory") (map Some kvs ++ [None]) :: rest) < fuel ->
  l_territories fuel acc (flat_map terrs_item_events items ++ EvStart (lit "territory") (map Some kvs ++ [None]) :: rest)
  = Err LXml.
Proof.
  assert (E : forall kvs, Forall terr_attr_ok kvs ->
    fold_attrs territory_attr lmetadata_default (map Some kvs) = Ok (terr_attrs lmetadata_default kvs)).
  { intros kvs F. apply territory_attrs_spec. exists kvs. auto. }
  induction items as [|i items IH]; intros acc kvs rest fuel F K L; (destruct fuel as [|fuel]; [clear - L; lia|]).
  - cbn [flat_map app l_territories]. rewrite str_eqb_refl. unfold l_territory.
    rewrite (fold_attrs_last _ _ _ _ _ (E kvs K)). reflexivity.
  - inversion F as [|? ? Fi Fr]; subst. cbn [flat_map] in *. rewrite <- app_assoc in *. rewrite app_length in L.
    destruct i as [[t|]|name tag body|ks ts]; cbn [terrs_item_events noise_event app] in *.
    + cbn [l_territories]. apply IH; auto. clear - L. cbn [length] in L. lia.
    + cbn [l_territories]. apply IH; auto. clear - L. cbn [length] in L. lia.
    + destruct Fi as [N B]. cbn [skipped app]. cbn [l_territories]. apply str_eqb_neq in N. rewrite N, ignore_run by exact B. cbn [obind].
      apply IH; auto. clear - L. cbn [skipped length] in L. lia.
    + destruct Fi as [Fk Ft]. cbn [l_territories]. rewrite str_eqb_refl. unfold l_territory.
      rewrite (E ks Fk). cbn [obind]. rewrite <- app_assoc. cbn [app].
      rewrite territory_loop_reads; [|apply fresh_attrs|exact Ft|].
      2:{ clear - L. cbn [length] in L. rewrite app_length in *. cbn [length] in *. rewrite ?app_length in *. cbn [length] in *. lia. }
      cbn [obind]. apply IH; auto. clear - L. cbn [length] in L. lia.
Qed.
Theorem C52_repeated : forall l bom before again more space after root list items,
  spelled (l ++ [PStart (lit "territory") (before ++ again :: more) space]) ->
  map piece_means l = EvStart (lit "phoneNumberMetadata") root :: EvStart (lit "territories") list :: flat_map terrs_item_events items ->
  Forall terrs_item_ok items ->
  Forall (fun a => terr_attr_ok (sa_key a, sa_value a)) before -> NoDup (map sa_key before) ->
  In (sa_key again) (map sa_key before) -> byte_order_mark bom ->
  load_text (bom ++ flat_map spell (l ++ [PStart (lit "territory") (before ++ again :: more) space]) ++ after) = Err LXml.
Proof.
  intros l bom before again more space after root list items S E F A D I B.
  destruct (C52_pieces _ bom after S (ex_intro _ _ (ex_intro _ _ (conj eq_refl eq_refl))) B) as (rest & R).
  unfold load_text. rewrite R. clear R S. rewrite map_app, E. cbn [map app piece_means].
  rewrite attrs_mean_repeated; [|exact D|intros y _ []|rewrite app_nil_r; exact I].
  rewrite <- app_assoc. cbn [app]. unfold load. cbn [length l_metadata].
  rewrite str_eqb_refl. cbn [l_metadata]. replace (str_eqb (lit "territories") (lit "phoneNumberMetadata")) with false by reflexivity.
  rewrite str_eqb_refl. rewrite territories_repeated; [reflexivity|exact F| |lia].
  apply Forall_forall. intros kv J. apply in_map_iff in J as (a & <- & J). rewrite Forall_forall in A. now apply A.
Qed.
Print Assumptions C52_repeated.

(** A pattern that uses a character reference is refused; in an attribute the
    reference is kept as it is written. *)
Theorem C52_reference_refuted : exists s t : str,
  s = lit "<phoneNumberMetadata><territories><territory id='XX' countryCode='999'><generalDesc><nationalNumberPattern>&#92;d</nationalNumberPattern></generalDesc></territory></territories></phoneNumberMetadata>" /\
  load_text s = Err (LUnhandledEvent (lit "text")) /\
  t = lit "<phoneNumberMetadata><territories><territory id='&#88;X' countryCode='999'></territory></territories></phoneNumberMetadata>" /\
  exists m, load_text t = Ok [m] /\ lm_id m = Some (lit "&#88;X").
Proof.
  eexists. eexists. split; [reflexivity|]. split; [vm_compute; reflexivity|]. split; [reflexivity|].
  eexists. split; [vm_compute; reflexivity|]. reflexivity.
Qed.
Print Assumptions C52_reference_refuted.

(** ** A document the theorems are about *)
Definition nl : str := [10%N].
Definition ex_pieces : list piece :=
  let q k v := mk_sattr (lit " ") k [] [] 34%N v in
  [PComment (lit " a --- b ->-"); PText nl; PDocType (lit "DocType") (lit " x [ <!ELEMENT y (z?)> ]"); PText nl;
   PStart (lit "phoneNumberMetadata") [] (lit " "); PStart (lit "territories") [q (lit "x") (lit "1"); q (lit "x") (lit "2")] [];
   PStart (lit "territory")
     [mk_sattr (nl ++ [9%N]) (lit "id") (lit " ") nl 39%N (lit "XX"); q (lit "countryCode") (lit "999");
      q (lit "nationalPrefixFormattingRule") (lit "<'$NP/>")] nl;
   PText (nl ++ lit "  text "); PComment []; PStart (lit "generalDesc") [] [];
   PStart (lit "nationalNumberPattern") [] []; PText (lit "\d{5}"); PEnd (lit "nationalNumberPattern") [13%N];
   PEmpty (lit "possibleLengths") [q (lit "national") (lit "[5-6]")] (lit " ");
   PEnd (lit "generalDesc") []; PEnd (lit "territory") nl; PEnd (lit "territories") [];
   PEnd (lit "phoneNumberMetadata") (lit "  ")].
Definition ex_tree : document :=
  [ONoise NComment; ONoise (NText nl); ODocType; ONoise (NText nl); ORoot [];
   OTerritories [Some (lit "x", lit "1"); None] [UTerritory [(lit "id", lit "XX"); (lit "countryCode", lit "999"); (lit "nationalPrefixFormattingRule", lit "<'$NP/>")]
     [TNoise (NText (nl ++ lit "  text ")); TNoise NComment;
      TDesc DGeneral [] [DPattern [] [lit "\d{5}"]; DLengths [(lit "national", lit "[5-6]")]]]]].
Definition name_charb (c : char) : bool :=
  negb (existsb (N.eqb c) [9; 10; 13; 32]%N) && negb (existsb (N.eqb c) (lit "<>/=""'!?&")).
Lemma name_charb_ok : forall n, n <> [] -> forallb name_charb n = true -> is_name n.
Proof.
  intros n N H. split; [exact N|]. intros c I. rewrite forallb_forall in H. apply H in I. unfold name_charb in I.
  apply andb_prop in I as [I1 I2]. apply negb_true_iff in I1, I2.
  assert (T : forall l, In c l -> existsb (N.eqb c) l = true)
    by (intros l J; apply existsb_exists; exists c; split; [exact J|apply N.eqb_refl]).
  split; intros J; apply T in J; congruence.
Qed.
Fixpoint ends_inside (t : str) : bool :=
  match t with
  | [] => false
  | _ :: r => match t with
      | a :: b :: c :: _ => N.eqb a 45 && N.eqb b 45 && N.eqb c 62
      | _ => false
      end || ends_inside r
  end.
Lemma ends_inside_ok : forall t, ends_inside t = false -> no_end t.
Proof.
  induction t as [|c t IH]; intros H a b E; [destruct a; discriminate E|]. cbn [ends_inside] in H.
  apply orb_false_elim in H as [H1 H2]. destruct a as [|x a]; cbn [app] in E; inversion E; subst.
  - discriminate H1.
  - now apply (IH H2 a b).
Qed.
Example C52_ex : well_formed ex_tree /\ spelled ex_pieces /\ map piece_means ex_pieces = render ex_tree
  /\ flat_map spell ex_pieces =
    lit "<!-- a --- b ->--->" ++ nl ++ lit "<!DocType x [ <!ELEMENT y (z?)> ]>" ++ nl ++ lit "<phoneNumberMetadata ><territories x=""1"" x=""2""><territory" ++
    nl ++ [9%N] ++ lit "id =" ++ nl ++ lit "'XX' countryCode=""999"" nationalPrefixFormattingRule=""<'$NP/>""" ++ nl ++ lit ">" ++ nl ++
    lit "  text <!----><generalDesc><nationalNumberPattern>\d{5}</nationalNumberPattern" ++ [13%N] ++
    lit "><possibleLengths national=""[5-6]"" /></generalDesc></territory" ++ nl ++ lit "></territories></phoneNumberMetadata  >"
  /\ load_text ([65279%N] ++ flat_map spell ex_pieces ++ lit "</or><anything") = Ok (entries ex_tree)
  /\ map lm_id (entries ex_tree) = [Some (lit "XX")]
  /\ map (fun m => option_map ld_possible_length (lm_general m)) (entries ex_tree) = [Some [5; 6]%N].
Proof.
  assert (W : well_formed ex_tree).
  { unfold ex_tree, well_formed. repeat first [doc_ok|split; [cbn [fst In]; tauto|exists [5; 6]%N; reflexivity]]. }
  assert (S : spelled ex_pieces).
  { assert (B : forall s, forallb (fun c => existsb (N.eqb c) [9; 10; 13; 32]%N) s = true -> blank s).
    { intros s H c I. rewrite forallb_forall in H. apply H in I. apply existsb_exists in I as (x & I & E).
      apply N.eqb_eq in E. now subst x. }
    unfold ex_pieces, spelled. split; [|split].
    - assert (A : forall x, blank (sa_before x) -> sa_before x <> [] -> is_name (sa_key x) -> blank (sa_left x) -> blank (sa_right x) ->
        existsb (N.eqb (sa_quote x)) (lit """'") = true -> existsb (N.eqb (sa_quote x)) (sa_value x) = false -> sattr_ok x).
      { intros x H1 H2 H3 H4 H5 H6 H7. apply existsb_exists in H6 as (y & I & E). apply N.eqb_eq in E. subst y.
        repeat (split; [assumption|]). intros J. enough (K : existsb (N.eqb (sa_quote x)) (sa_value x) = true) by congruence.
        apply existsb_exists. exists (sa_quote x). split; [exact J|apply N.eqb_refl]. }
      assert (NA : forall n, n <> [] -> forallb name_charb n = true -> is_name n) by exact name_charb_ok.
      repeat apply Forall_cons; try apply Forall_nil; cbn [piece_ok];
        repeat match goal with
        | |- tag_ok _ _ _ => split; [|split]
        | |- is_name _ /\ _ => split
        | |- is_name _ => apply NA; [discriminate|reflexivity]
        | |- blank _ => apply B; reflexivity
        | |- Forall sattr_ok [] => apply Forall_nil
        | |- Forall sattr_ok (_ :: _) => apply Forall_cons
        | |- sattr_ok _ => apply A; cbn [sa_before sa_key sa_left sa_right sa_quote sa_value]; [|discriminate| | | |reflexivity|reflexivity]
        | |- _ <> [] /\ _ => split; [discriminate|]; intros c I; cbn in I; cbn; intuition (subst; discriminate)
        end.
      + apply ends_inside_ok. reflexivity.
      + split; [repeat (constructor; [cbn; tauto|]); constructor|].
        split; [|exists 120%N; split; [cbn; tauto|cbn; lia]].
        do 5 (apply nested_char; [cbn; lia|]). apply (nested_in (lit "!ELEMENT y (z?)")).
        * do 15 (apply nested_char; [cbn; lia|]). constructor.
        * intros r. split; discriminate.
        * do 2 (apply nested_char; [cbn; lia|]). constructor.
      + apply ends_inside_ok. reflexivity.
    - cbn [matching]. repeat split.
    - cbn [apart]. repeat split. }
  split; [exact W|]. split; [exact S|]. split; [reflexivity|]. split; [reflexivity|]. split; [|split; reflexivity].
  apply C52_reads; [exact W|exact S|reflexivity|now right].
Qed.
(** A territory with two names. *)
Example C52_repeated_ex :
  load_text (lit "<phoneNumberMetadata><territories><!-- x --><territory id=""A"" countryCode=""1"" id=""B""></territory></territories></phoneNumberMetadata>") = Err LXml.
Proof.
  pose (q k v := mk_sattr (lit " ") k [] [] 34%N v).
  apply (C52_repeated [PStart (lit "phoneNumberMetadata") [] []; PStart (lit "territories") [] []; PComment (lit " x ")] []
    [q (lit "id") (lit "A"); q (lit "countryCode") (lit "1")] (q (lit "id") (lit "B")) [] []
    (lit "</territory></territories></phoneNumberMetadata>") [] [] [UNoise NComment]); try reflexivity.
  - assert (A : forall k v, k <> [] -> forallb name_charb k = true -> existsb (N.eqb 34) v = false -> sattr_ok (q k v)).
    { intros k v K C V. unfold sattr_ok, q. cbn [sa_before sa_key sa_left sa_right sa_quote sa_value].
      split; [intros c [<-|[]]; cbn; tauto|]. split; [discriminate|]. split; [now apply name_charb_ok|].
      split; [intros c []|]. split; [intros c []|]. split; [now left|]. intros I.
      enough (X : existsb (N.eqb 34) v = true) by congruence. apply existsb_exists. exists 34%N. split; [exact I|reflexivity]. }
    assert (T : forall n a, n <> [] -> forallb name_charb n = true -> Forall sattr_ok a -> tag_ok n a []).
    { intros n a N C F. split; [now apply name_charb_ok|]. split; [exact F|]. intros c []. }
    split; [|split; [cbn; auto|cbn; auto]]. cbn [app].
    repeat apply Forall_cons; try apply Forall_nil; cbn [piece_ok].
    + apply T; [discriminate|reflexivity|constructor].
    + apply T; [discriminate|reflexivity|constructor].
    + apply ends_inside_ok. reflexivity.
    + apply T; [discriminate|reflexivity|]. repeat apply Forall_cons; try apply Forall_nil; (apply A; [discriminate|reflexivity|reflexivity]).
  - repeat constructor.
  - repeat apply Forall_cons; try apply Forall_nil; cbn [sa_key sa_value q].
    + left. now left.
    + right. left. split; [reflexivity|]. now exists 1%N.
  - apply NoDup_cons; [cbn; intuition discriminate|]. apply NoDup_cons; [intros []|apply NoDup_nil].
  - now left.
  - now left.
Qed.
