(** * PropsBytes: metadata files as bytes

    [Database::load] reads a file, [Database::parse] a text.  Here: a file that
    holds the UTF-8 encoding of a text is read exactly as the text; whatever is
    read from any bytes at all is real text, so the bytes that are not UTF-8
    never get into the database; what is read does not depend on what follows
    the document; and a file that is cut off, be it in the middle of a
    character, is refused.  (C64) *)
From Verif Require Import Base CountryId Types Metadata Database Loader Xml Postcard Bytes.
From Verif Require Import StrFacts DatabaseFacts PropsLoader PropsXml PropsDocument PropsTruncated PropsPostcard.

(** the UTF-8 encoding of a text *)
Definition utf8 (s : str) : str := flat_map enc_char s.

(** ** The encoding *)
Lemma enc_ascii : forall c, (c < 128)%N -> enc_char c = [c].
Proof. intros c H. unfold enc_char. apply N.ltb_lt in H. now rewrite H. Qed.
Lemma enc_high : forall c, (128 <= c)%N -> enc_char c <> [] /\ forall b, In b (enc_char c) -> (128 <= b)%N.
Proof.
  intros c H. unfold enc_char. apply N.ltb_ge in H. rewrite H.
  destruct (N.ltb c 2048); [|destruct (N.ltb c 65536)]; (split; [discriminate|]); intros b I; cbn [In] in I;
  repeat (destruct I as [<-|I]; [apply N.le_trans with (m := 128%N); [lia|apply N.le_add_r || (apply N.le_trans with (m := 192%N); [lia|apply N.le_add_r]) || (apply N.le_trans with (m := 224%N); [lia|apply N.le_add_r]) || (apply N.le_trans with (m := 240%N); [lia|apply N.le_add_r])]|]); destruct I.
Qed.
Lemma utf8_app : forall a b, utf8 (a ++ b) = utf8 a ++ utf8 b.
Proof. intros. unfold utf8. apply flat_map_app. Qed.
Lemma utf8_inj : forall a b, unicode a -> unicode b -> utf8 a = utf8 b -> a = b.
Proof.
  intros a b A B H. pose proof (utf8_text a A) as X. pose proof (utf8_text b B) as Y. unfold utf8 in H. rewrite H in X.
  congruence.
Qed.
Lemma utf8_eqb : forall a b, unicode a -> unicode b -> str_eqb (utf8 a) (utf8 b) = str_eqb a b.
Proof.
  intros a b A B. destruct (str_eqb a b) eqn:E.
  - apply str_eqb_eq in E as ->. apply str_eqb_refl.
  - apply str_eqb_neq. apply str_eqb_neq in E. intros H. apply E. now apply utf8_inj.
Qed.
Lemma unicode_cons : forall c s, unicode (c :: s) <-> scalar c /\ unicode s.
Proof.
  intros c s. split.
  - intros H. split; [apply H; now left|]. intros d I. apply H. now right.
  - intros [A B] d [<-|I]; [exact A|now apply B].
Qed.
Lemma unicode_app : forall a b, unicode (a ++ b) <-> unicode a /\ unicode b.
Proof.
  intros a b. split.
  - intros H. split; intros c I; apply H, in_app_iff; auto.
  - intros [A B] c I. apply in_app_iff in I as [I|I]; auto.
Qed.
Lemma unicode_rev : forall a, unicode (rev a) <-> unicode a.
Proof. intros a. split; intros H c I; apply H; [now apply -> in_rev|now apply in_rev]. Qed.
Lemma unicode_nil : unicode [].
Proof. intros c []. Qed.

(** ** Looking for ASCII characters *)
(** an encoding, character by character, of which ASCII characters are themselves
    and others contain no ASCII *)
Definition apart_from_ascii (g : char -> bytes) : Prop :=
  (forall c, (c < 128)%N -> g c = [c]) /\ (forall c, (128 <= c)%N -> g c <> [] /\ forall b, In b (g c) -> (128 <= b)%N).
Lemma enc_apart : apart_from_ascii enc_char.
Proof. split; [exact enc_ascii|exact enc_high]. Qed.
Lemma rev_apart : apart_from_ascii (fun c => rev (enc_char c)).
Proof.
  split.
  - intros c H. now rewrite enc_ascii.
  - intros c H. destruct (enc_high c H) as [N B]. split.
    + intros E. apply N. apply (f_equal (@rev char)) in E. now rewrite rev_involutive in E.
    + intros b I. apply B. now apply in_rev.
Qed.
(** a test that has the same result for all other characters *)
Definition level_test (p : char -> bool) : Prop := exists d, forall c, (128 <= c)%N -> p c = d.
Lemma span_all_app : forall p a b, (forall c, In c a -> p c = true) -> span p (a ++ b) = (a ++ fst (span p b), snd (span p b)).
Proof.
  intros p a b. induction a as [|c a IH]; intros H; [cbn [app]; now destruct (span p b)|]. cbn [app span].
  rewrite (H c (or_introl eq_refl)), IH by (intros d I; apply H; now right). reflexivity.
Qed.
Lemma span_enc : forall g p s a b, apart_from_ascii g -> level_test p -> span p s = (a, b) ->
  span p (flat_map g s) = (flat_map g a, flat_map g b).
Proof.
  intros g p s a b [G1 G2] [d P]. revert a b. induction s as [|c s IH]; intros a b H; [inversion H; reflexivity|].
  cbn [span] in H. cbn [flat_map]. destruct (N.ltb_spec c 128) as [L|L].
  - rewrite (G1 c L). cbn [app span]. destruct (p c).
    + destruct (span p s) as [x y]. inversion H; subst. rewrite (IH x b eq_refl). cbn [flat_map]. now rewrite (G1 c L).
    + inversion H; subst. cbn [flat_map]. now rewrite (G1 c L).
  - destruct (G2 c L) as [N B]. rewrite (P c L) in H. destruct d.
    + destruct (span p s) as [x y]. inversion H; subst. rewrite span_all_app by (intros e I; apply P, B, I).
      rewrite (IH x b eq_refl). reflexivity.
    + inversion H; subst. cbn [flat_map]. destruct (g c) as [|e r]; [now elim N|]. cbn [app span].
      rewrite (P e (B e (or_introl eq_refl))). reflexivity.
Qed.
Lemma ws_level : level_test xml_ws.
Proof.
  exists false. intros c H. unfold xml_ws. rewrite !orb_false_iff, !N.eqb_neq. lia.
Qed.
Lemma not_ws_level : level_test (fun c => negb (xml_ws c)).
Proof. destruct ws_level as [d H]. exists (negb d). intros c L. now rewrite (H c L). Qed.
Lemma key_level : level_test (fun c => negb (N.eqb c 61 || xml_ws c)).
Proof.
  destruct ws_level as [d H]. exists (negb d). intros c L. rewrite (H c L).
  replace (N.eqb c 61) with false by (symmetry; apply N.eqb_neq; lia). reflexivity.
Qed.
Lemma quote_level : forall q, (q < 128)%N -> level_test (fun c => negb (N.eqb c q)).
Proof. intros q Q. exists true. intros c L. replace (N.eqb c q) with false by (symmetry; apply N.eqb_neq; lia). reflexivity. Qed.
Lemma skip_enc : forall g s, apart_from_ascii g -> skip_xml_ws (flat_map g s) = flat_map g (skip_xml_ws s).
Proof.
  intros g s G. unfold skip_xml_ws. destruct (span xml_ws s) as [a b] eqn:E. now rewrite (span_enc g xml_ws s a b G ws_level E).
Qed.
Lemma span_parts : forall p s a b, span p s = (a, b) -> s = a ++ b.
Proof. intros p s a b H. pose proof (span_app p s) as A. rewrite H in A. now symmetry. Qed.
Lemma skip_parts : forall s, exists w, s = w ++ skip_xml_ws s.
Proof. intros s. exists (fst (span xml_ws s)). symmetry. apply span_app. Qed.
Lemma skip_unicode : forall s, unicode s -> unicode (skip_xml_ws s).
Proof. intros s H. destruct (skip_parts s) as [w E]. rewrite E in H. now apply unicode_app in H. Qed.
(** the first byte is the character, if that is ASCII, and no ASCII otherwise *)
Lemma enc_head : forall c s, exists b r, utf8 (c :: s) = b :: r /\
  ((c < 128)%N /\ b = c /\ r = utf8 s \/ (128 <= c)%N /\ (128 <= b)%N).
Proof.
  intros c s. unfold utf8. cbn [flat_map]. destruct (N.ltb_spec c 128) as [L|L].
  - rewrite enc_ascii by exact L. exists c, (flat_map enc_char s). cbn [app]. auto.
  - destruct (enc_high c L) as [N B]. destruct (enc_char c) as [|b r]; [now elim N|].
    exists b, (r ++ flat_map enc_char s). cbn [app]. split; [reflexivity|]. right. split; [exact L|]. apply B. now left.
Qed.
Lemma utf8_nil : forall s, utf8 s = [] -> s = [].
Proof. intros [|c s] H; [reflexivity|]. destruct (enc_head c s) as (b & r & E & _). rewrite E in H. discriminate H. Qed.

(** ** Attributes *)
Definition utf8_attr (a : attr) : attr := match a with Some (k, v) => Some (utf8 k, utf8 v) | None => None end.
Definition unicode_pair (a : attr) : Prop := match a with Some (k, v) => unicode k /\ unicode v | None => True end.
Lemma seen_enc : forall key seen, unicode key -> Forall unicode seen ->
  existsb (str_eqb (utf8 key)) (map utf8 seen) = existsb (str_eqb key) seen.
Proof.
  intros key seen K. induction 1 as [|s seen S _ IH]; [reflexivity|]. cbn [map existsb]. now rewrite IH, utf8_eqb.
Qed.
Lemma attrs_enc : forall fuel fuel' seen s, length s <= fuel -> length (utf8 s) <= fuel' -> unicode s -> Forall unicode seen ->
  xml_attrs fuel' (map utf8 seen) (utf8 s) = map utf8_attr (xml_attrs fuel seen s) /\
  Forall unicode_pair (xml_attrs fuel seen s).
Proof.
  induction fuel as [|fuel IH]; intros fuel' seen s L L' U S.
  { destruct s; [|cbn [length] in L; lia]. split; [destruct fuel'; reflexivity|constructor]. }
  destruct fuel' as [|fuel'].
  { destruct (utf8 s) eqn:E; [|cbn [length] in L'; lia]. apply utf8_nil in E as ->. split; [reflexivity|constructor]. }
  cbn [xml_attrs]. unfold utf8 at 1. rewrite (skip_enc enc_char s enc_apart). fold utf8.
  destruct (skip_parts s) as [w Ew]. pose proof (skip_unicode s U) as U1.
  assert (Lw : length (skip_xml_ws s) <= length s) by (rewrite Ew at 2; rewrite app_length; lia).
  assert (Lw' : length (utf8 (skip_xml_ws s)) <= length (utf8 s)) by (rewrite Ew at 2; rewrite utf8_app, app_length; lia).
  clear Ew w. fold (utf8 (skip_xml_ws s)). destruct (skip_xml_ws s) as [|c r]; [split; [reflexivity|constructor]|].
  (* the key *)
  assert (K : exists b r', utf8 (c :: r) = b :: r' /\ forall k r1, span (fun c => negb (N.eqb c 61 || xml_ws c)) r = (k, r1) ->
    exists k', span (fun c => negb (N.eqb c 61 || xml_ws c)) r' = (k', utf8 r1) /\ @cons char b k' = utf8 (c :: k)).
  { destruct (enc_head c r) as (b & r' & E & B). exists b, r'. split; [exact E|]. intros k r1 Q.
    destruct B as [(C & -> & ->)|(C & B)].
    - exists (utf8 k). split; [apply span_enc; [exact enc_apart|exact key_level|exact Q]|].
      unfold utf8. cbn [flat_map]. now rewrite enc_ascii.
    - destruct (enc_high c C) as [N G]. unfold utf8 in E. cbn [flat_map] in E. destruct (enc_char c) as [|x y] eqn:Ec; [now elim N|].
      cbn [app] in E. inversion E; subst. exists (y ++ utf8 k). split.
      + rewrite span_all_app.
        * rewrite (span_enc enc_char _ r k r1 enc_apart key_level Q). reflexivity.
        * intros e I. assert (128 <= e)%N by (apply G; now right). apply negb_true_iff, orb_false_iff. split; [apply N.eqb_neq; lia|].
          unfold xml_ws. rewrite !orb_false_iff, !N.eqb_neq. lia.
      + unfold utf8. cbn [flat_map]. now rewrite Ec. }
  destruct K as (b & r' & E & K). rewrite E. destruct (span (fun c => negb (N.eqb c 61 || xml_ws c)) r) as [k r1] eqn:Sp.
  destruct (K k r1 eq_refl) as (k' & Sp' & Ek). rewrite Sp'. cbv beta iota zeta. rewrite Ek. clear K Sp' Ek. pose proof (span_parts _ _ _ _ Sp) as Er.
  apply unicode_cons in U1 as [Uc Ur]. rewrite Er in Ur. apply unicode_app in Ur as [Uk U2].
  assert (Uck : unicode (c :: k)) by (now apply unicode_cons).
  assert (L1 : length r1 < length s) by (cbn [length] in Lw; rewrite Er, app_length in Lw; lia).
  assert (L1' : length (utf8 r1) < length (utf8 s)).
  { eapply Nat.lt_le_trans; [|exact Lw']. rewrite Er. change (c :: k ++ r1) with ([c] ++ k ++ r1). rewrite !utf8_app, !app_length.
    destruct (utf8 [c]) eqn:Q; [apply utf8_nil in Q; discriminate Q|cbn [length]; lia]. }
  clear Er Sp Lw Lw' E r b r' Uc.
  (* the equals sign *)
  unfold utf8 at 1. rewrite (skip_enc enc_char r1 enc_apart). fold (utf8 (skip_xml_ws r1)).
  destruct (skip_parts r1) as [w Ew]. pose proof (skip_unicode r1 U2) as U3.
  assert (L2 : length (skip_xml_ws r1) < length s) by (eapply Nat.le_lt_trans; [|exact L1]; rewrite Ew at 2; rewrite app_length; lia).
  assert (L2' : length (utf8 (skip_xml_ws r1)) < length (utf8 s))
    by (eapply Nat.le_lt_trans; [|exact L1']; rewrite Ew at 2; rewrite utf8_app, app_length; lia).
  clear Ew w L1 L1'. destruct (skip_xml_ws r1) as [|e r2]; [split; [reflexivity|constructor; [exact I|constructor]]|].
  destruct (enc_head e r2) as (b & r' & E & [(C & -> & ->)|(C & B)]).
  2:{ rewrite E. replace (N.eqb b 61) with false by (symmetry; apply N.eqb_neq; lia).
      replace (N.eqb e 61) with false by (symmetry; apply N.eqb_neq; lia). split; [reflexivity|constructor; [exact I|constructor]]. }
  rewrite E in *. destruct (N.eqb e 61); [|split; [reflexivity|constructor; [exact I|constructor]]].
  rewrite (seen_enc (c :: k) seen Uck S). destruct (existsb _ _); [split; [reflexivity|constructor; [exact I|constructor]]|].
  apply unicode_cons in U3 as [_ U3]. cbn [length] in L2, L2'. clear E C.
  (* the quote *)
  unfold utf8 at 1. rewrite (skip_enc enc_char r2 enc_apart). fold (utf8 (skip_xml_ws r2)).
  destruct (skip_parts r2) as [w Ew]. pose proof (skip_unicode r2 U3) as U4.
  assert (L3 : length (skip_xml_ws r2) <= length r2) by (rewrite Ew at 2; rewrite app_length; lia).
  assert (L3' : length (utf8 (skip_xml_ws r2)) <= length (utf8 r2)) by (rewrite Ew at 2; rewrite utf8_app, app_length; lia).
  clear Ew w. destruct (skip_xml_ws r2) as [|q r3]; [split; [reflexivity|constructor; [exact I|constructor]]|].
  destruct (enc_head q r3) as (b & r' & E & [(C & -> & ->)|(C & B)]).
  2:{ rewrite E. replace (N.eqb b 34 || N.eqb b 39) with false by (symmetry; apply orb_false_iff; rewrite !N.eqb_neq; lia).
      replace (N.eqb q 34 || N.eqb q 39) with false by (symmetry; apply orb_false_iff; rewrite !N.eqb_neq; lia).
      split; [reflexivity|constructor; [exact I|constructor]]. }
  rewrite E in *. destruct (N.eqb q 34 || N.eqb q 39); [|split; [reflexivity|constructor; [exact I|constructor]]].
  apply unicode_cons in U4 as [_ U4]. cbn [length] in L3, L3'.
  (* the value *)
  destruct (span (fun c => negb (N.eqb c q)) r3) as [v r4] eqn:Sv. pose proof (span_parts _ _ _ _ Sv) as Ev.
  pose proof (span_enc enc_char _ r3 v r4 enc_apart (quote_level q C) Sv) as Sv'. fold (utf8 r3) (utf8 v) (utf8 r4) in Sv'.
  rewrite Sv'. clear Sv'. subst r3.
  apply unicode_app in U4 as [Uv U5]. rewrite app_length in L3. rewrite utf8_app, app_length in L3'.
  destruct r4 as [|x r5]; [split; [reflexivity|constructor; [exact I|constructor]]|].
  assert (Q : x = q).
  { apply span_spec in Sv as (_ & _ & [Sv|(y & z & Sv & Q)]); [discriminate Sv|]. inversion Sv; subst.
    apply negb_false_iff in Q. now apply N.eqb_eq in Q. }
  subst x. replace (utf8 (q :: r5)) with (q :: utf8 r5) in * by (unfold utf8; cbn [flat_map]; now rewrite enc_ascii).
  apply unicode_cons in U5 as [_ U5]. cbn [length] in L3, L3'.
  destruct (IH fuel' ((c :: k) :: seen) r5) as [A B]; [lia|lia|exact U5|now constructor|].
  split; [cbn [map utf8_attr]; f_equal; exact A|]. constructor; [split; [exact Uck|exact Uv]|exact B].
Qed.

(** ** The reader *)
(** reversed bytes of reversed text *)
Definition back (s : str) : str := flat_map (fun c => rev (enc_char c)) s.
Lemma in_order_rev : forall s, in_order s = rev s.
Proof. intros s. unfold in_order. now rewrite rev_append_rev, app_nil_r. Qed.
Lemma back_rev : forall s, rev (back s) = utf8 (rev s).
Proof.
  induction s as [|c s IH]; [reflexivity|]. unfold back. cbn [flat_map rev]. rewrite rev_app_distr, rev_involutive.
  change (rev (back s) ++ enc_char c = utf8 (rev s ++ [c])).
  rewrite IH, utf8_app. f_equal. unfold utf8. cbn [flat_map]. now rewrite app_nil_r.
Qed.
Lemma back_nil : forall s, back s = [] -> s = [].
Proof.
  intros s H. apply (f_equal (@rev char)) in H. rewrite back_rev in H. apply utf8_nil in H. apply (f_equal (@rev char)) in H.
  now rewrite rev_involutive in H.
Qed.

Definition ascii_word (w : str) : Prop := forall c, In c w -> (c < 128)%N.
(** the state [a] of the reader of the text, and that of the reader of the bytes *)
Inductive at_enc : xml_at -> xml_at -> Prop :=
| EncText s : unicode s -> at_enc (XText s) (XText (back s))
| EncTag s q : unicode s -> (forall c, q = Some c -> (c < 128)%N) -> at_enc (XTag s q) (XTag (back s) q)
| EncEnd s : unicode s -> at_enc (XEndTag s) (XEndTag (back s))
| EncSame a : match a with XText _ | XTag _ _ | XEndTag _ => False
    | XCDataWord w | XDocWord w => ascii_word w | _ => True end -> at_enc a a.
Definition enc (x y : xml) : Prop :=
  at_enc (x_at x) (x_at y) /\ x_open y = map utf8 (x_open x) /\ Forall unicode (x_open x).

(** *** Other than ASCII *)
Definition high (a : xml_at) (bs : str) : list event * xml_at :=
  match a with
  | XText s => ([], XText (rev bs ++ s))
  | XOpen => ([], XTag (rev bs) None)
  | XTag s q => ([], XTag (rev bs ++ s) q)
  | XEndTag s => ([], XEndTag (rev bs ++ s))
  | XPi _ => ([], XPi false)
  | XBang | XDash | XCDataWord _ | XDocWord _ => ([EvError], XFailed)
  | XComment _ => ([], XComment 0)
  | XCData _ => ([], XCData 0)
  | XDoc _ d => ([], XDoc true d)
  | XRef => ([], XRef)
  | XFailed => ([], XFailed)
  end.
Definition ascii_at (a : xml_at) : Prop :=
  match a with
  | XTag _ q => forall c, q = Some c -> (c < 128)%N
  | XCDataWord w | XDocWord w => ascii_word w
  | _ => True
  end.
Lemma high_step : forall x b, ascii_at (x_at x) -> (128 <= b)%N ->
  xml_step x b = (fst (high (x_at x) [b]), mk_xml (x_open x) (snd (high (x_at x) [b]))).
Proof.
  intros [o a] b A B. unfold xml_step. cbn [x_at x_open] in *.
  assert (E : forall n, (n < 128)%N -> N.eqb b n = false) by (intros n L; apply N.eqb_neq; lia).
  assert (T : to_upper b = b).
  { unfold to_upper, in_range. replace (N.leb b 122) with false by (symmetry; apply N.leb_gt; lia). now rewrite andb_false_r. }
  assert (W : xml_ws b = false) by (unfold xml_ws; now rewrite !E by lia).
  destruct a; unfold xml_fail, xml_in_tag; cbn [ascii_at high fst snd rev app] in *; rewrite ?T, ?W, ?E by lia; cbn [orb]; try reflexivity.
  - destruct quote as [q|]; [|reflexivity]. rewrite E by (apply A; reflexivity). reflexivity.
  - now destruct mark.
  - destruct rest as [|d w]; [reflexivity|]. rewrite E by (apply A; now left). reflexivity.
  - destruct rest as [|d w]; [reflexivity|]. rewrite E by (apply A; now left). reflexivity.
  - now rewrite orb_true_r.
Qed.
Lemma high_at : forall a b, ascii_at a -> ascii_at (snd (high a b)).
Proof. intros [] b A; cbn [high snd ascii_at] in *; try exact I; try exact A. discriminate. Qed.
Lemma high_run : forall bs x, bs <> [] -> ascii_at (x_at x) -> (forall b, In b bs -> (128 <= b)%N) ->
  xml_run x bs = (fst (high (x_at x) bs), mk_xml (x_open x) (snd (high (x_at x) bs))).
Proof.
  induction bs as [|b bs IH]; intros x N A B; [now elim N|]. cbn [xml_run]. rewrite high_step by (try exact A; apply B; now left).
  destruct bs as [|b' bs].
  - cbn [xml_run]. now rewrite app_nil_r.
  - rewrite IH; [|discriminate|cbn [x_at]; now apply high_at|intros c I; apply B; now right].
    cbn [x_at x_open]. remember (b' :: bs) as l. destruct x as [o a]. cbn [x_at x_open].
    destruct a; cbn [high fst snd rev app]; rewrite <- ?app_assoc; reflexivity.
Qed.
Lemma enc_ascii_at : forall x y, at_enc x y -> ascii_at x /\ ascii_at y.
Proof. intros x y []; cbn [ascii_at]; auto. destruct a; auto; contradiction. Qed.
Lemma high_enc : forall x y c, enc x y -> scalar c -> (128 <= c)%N ->
  exists e x' f y', xml_step x c = (e, x') /\ xml_run y (enc_char c) = (f, y') /\ enc x' y' /\ map event_text f = e.
Proof.
  intros x y c (A & O & U) S L. destruct (enc_high c L) as [N B]. destruct (enc_ascii_at _ _ A) as [Ax Ay].
  rewrite (high_step x c Ax L), (high_run (enc_char c) y N Ay B). do 4 eexists. split; [reflexivity|]. split; [reflexivity|].
  unfold enc. cbn [x_at x_open].
  assert (G : at_enc (snd (high (x_at x) [c])) (snd (high (x_at y) (enc_char c))) /\
    map event_text (fst (high (x_at y) (enc_char c))) = fst (high (x_at x) [c])).
  { destruct A as [s Us|s q Us Q|s Us|a P]; cbn [high snd fst map].
    - split; [|reflexivity]. apply (EncText (c :: s)). now apply unicode_cons.
    - split; [|reflexivity]. apply (EncTag (c :: s)); [now apply unicode_cons|exact Q].
    - split; [|reflexivity]. apply (EncEnd (c :: s)). now apply unicode_cons.
    - destruct a; try contradiction; cbn [high snd fst map rev app]; (split; [|reflexivity]); try (apply EncSame; exact I).
      assert (R : at_enc (XTag [c] None) (XTag (back [c]) None))
        by (apply EncTag; [apply unicode_cons; split; [exact S|exact unicode_nil]|discriminate]).
      unfold back in R. cbn [flat_map] in R. rewrite app_nil_r in R. exact R. }
  destruct G as [G1 G2]. auto.
Qed.

(** *** ASCII *)
Lemma order_back : forall s, in_order (back s) = utf8 (in_order s).
Proof. intros s. now rewrite !in_order_rev, back_rev. Qed.
Lemma order_unicode : forall s, unicode s -> unicode (in_order s).
Proof. intros s H. rewrite in_order_rev. now apply unicode_rev. Qed.
Lemma name_enc : forall s, unicode s -> name_text (utf8 s) = s.
Proof. intros s H. unfold name_text, utf8. now rewrite utf8_text. Qed.
Lemma attr_enc : forall a, unicode_pair a -> attr_text (utf8_attr a) = a.
Proof. intros [[k v]|] H; [|reflexivity]. destruct H as [K V]. cbn [utf8_attr attr_text]. unfold utf8. now rewrite !utf8_text. Qed.
Lemma text_enc : forall s, unicode s -> map event_text (text_events (back s)) = text_events s.
Proof.
  intros s U. destruct s as [|c s]; [reflexivity|]. unfold text_events. destruct (back (c :: s)) eqn:E; [now apply back_nil in E|].
  rewrite <- E. cbn [map event_text]. rewrite order_back. unfold utf8. now rewrite utf8_text by (now apply order_unicode).
Qed.
Lemma fail_enc : forall o o', o' = map utf8 o -> Forall unicode o ->
  enc (snd (xml_fail o)) (snd (xml_fail o')) /\ map event_text (fst (xml_fail o')) = fst (xml_fail o).
Proof. intros o o' E U. unfold xml_fail, enc. cbn [fst snd x_at x_open map event_text]. split; [|reflexivity]. split; [now apply EncSame|auto]. Qed.
Lemma start_text : forall o o', o' = map utf8 o -> Forall unicode o -> enc (mk_xml o (XText [])) (mk_xml o' (XText [])).
Proof. intros o o' E U. unfold enc. cbn [x_at x_open]. split; [apply (EncText []); exact unicode_nil|auto]. Qed.
Lemma tag_enc : forall o o' s, o' = map utf8 o -> Forall unicode o -> unicode s ->
  enc (snd (xml_tag o s)) (snd (xml_tag o' (back s))) /\ map event_text (fst (xml_tag o' (back s))) = fst (xml_tag o s).
Proof.
  intros o o' s E U Us.
  pose (f := fun seen : str => match seen with c :: r => if N.eqb c 47 then (true, in_order r) else (false, in_order seen) | [] => (false, []) end).
  assert (G : exists em content, unicode content /\ f s = (em, content) /\ f (back s) = (em, utf8 content)).
  { unfold f. destruct s as [|c r]; [exists false, []; split; [exact unicode_nil|auto]|]. pose proof (proj1 (unicode_cons c r) Us) as [Uc Ur].
    destruct (N.ltb_spec c 128) as [L|L].
    - assert (B : back (c :: r) = c :: back r) by (unfold back; cbn [flat_map]; now rewrite enc_ascii).
      rewrite B. destruct (N.eqb c 47).
      + exists true, (in_order r). rewrite order_back. split; [now apply order_unicode|auto].
      + exists false, (in_order (c :: r)). rewrite <- B, order_back. split; [now apply order_unicode|auto].
    - exists false, (in_order (c :: r)). split; [now apply order_unicode|].
      replace (N.eqb c 47) with false by (symmetry; apply N.eqb_neq; lia). split; [reflexivity|].
      destruct (back (c :: r)) as [|b t] eqn:B; [now apply back_nil in B|].
      assert (Hb : (128 <= b)%N).
      { destruct (rev_apart) as [_ R]. destruct (R c L) as [Rn Rb]. unfold back in B. cbn [flat_map] in B.
        destruct (rev (enc_char c)) as [|x y]; [now elim Rn|]. cbn [app] in B. inversion B; subst. apply Rb. now left. }
      replace (N.eqb b 47) with false by (symmetry; apply N.eqb_neq; lia). rewrite <- B, order_back. reflexivity. }
  destruct G as (em & content & Uct & G1 & G2). unfold f in G1, G2. clear f. unfold xml_tag. rewrite G1, G2.
  destruct (span (fun c => negb (xml_ws c)) content) as [name r] eqn:Sp.
  pose proof (span_enc enc_char _ content name r enc_apart not_ws_level Sp) as Sp'. fold (utf8 content) (utf8 name) (utf8 r) in Sp'.
  rewrite Sp'. apply span_parts in Sp. rewrite Sp in Uct. apply unicode_app in Uct as [Un Ur].
  destruct (attrs_enc (length r) (length (utf8 r)) [] r) as [A P]; [lia|lia|exact Ur|constructor|]. cbn [map] in A. rewrite A.
  assert (M : map attr_text (map utf8_attr (xml_attrs (length r) [] r)) = xml_attrs (length r) [] r).
  { rewrite map_map. rewrite <- map_id. apply map_ext_in. intros a I. apply attr_enc. rewrite Forall_forall in P. now apply P. }
  destruct em; cbn [fst snd map event_text]; rewrite M, name_enc by exact Un.
  - split; [now apply start_text|reflexivity].
  - split; [|reflexivity]. apply start_text; [cbn [map]; now rewrite E|now constructor].
Qed.
Lemma end_enc : forall o o' s, o' = map utf8 o -> Forall unicode o -> unicode s ->
  enc (snd (xml_end_tag o s)) (snd (xml_end_tag o' (back s))) /\ map event_text (fst (xml_end_tag o' (back s))) = fst (xml_end_tag o s).
Proof.
  intros o o' s E U Us. unfold xml_end_tag. unfold back. rewrite (skip_enc _ s rev_apart). fold (back (skip_xml_ws s)).
  rewrite order_back. pose proof (order_unicode _ (skip_unicode s Us)) as V.
  destruct o as [|n o]; rewrite E; cbn [map]; [now apply fail_enc|]. inversion U as [|? ? Un Uo]; subst.
  rewrite utf8_eqb by assumption. destruct (str_eqb _ _); [|now apply (fail_enc (n :: o))]. cbn [fst snd map event_text].
  rewrite name_enc by exact V. split; [now apply start_text|reflexivity].
Qed.
(** one more character *)
Lemma more_enc : forall c s, (c < 128)%N -> unicode s ->
  at_enc (XText (c :: s)) (XText (c :: back s)) /\ at_enc (XEndTag (c :: s)) (XEndTag (c :: back s)) /\
  forall q, (forall c, q = Some c -> (c < 128)%N) -> at_enc (XTag (c :: s) q) (XTag (c :: back s) q).
Proof.
  intros c s C U. assert (B : c :: back s = back (c :: s)) by (unfold back; cbn [flat_map]; now rewrite enc_ascii).
  assert (Uc : unicode (c :: s)) by (apply unicode_cons; split; [unfold scalar; lia|exact U]).
  rewrite B. split; [now apply EncText|]. split; [now apply EncEnd|]. intros q Q. now apply EncTag.
Qed.
Lemma in_tag_enc : forall o o' s q c, o' = map utf8 o -> Forall unicode o -> unicode s -> (forall c, q = Some c -> (c < 128)%N) -> (c < 128)%N ->
  enc (snd (xml_in_tag o s q c)) (snd (xml_in_tag o' (back s) q c)) /\
  map event_text (fst (xml_in_tag o' (back s) q c)) = fst (xml_in_tag o s q c).
Proof.
  intros o o' s q c E U Us Q C. unfold xml_in_tag.
  destruct (more_enc c s C Us) as (_ & _ & M). destruct q as [q|].
  - cbn [fst snd map]. split; [|reflexivity]. unfold enc. cbn [x_at x_open]. split; [|auto]. apply M.
    intros d. destruct (N.eqb c q); [discriminate|apply Q].
  - destruct (N.eqb c 62); [now apply tag_enc|]. cbn [fst snd map]. split; [|reflexivity]. unfold enc. cbn [x_at x_open]. split; [|auto].
    apply M. intros d. destruct (_ || _); [|discriminate]. intros H. inversion H; subst. exact C.
Qed.
Lemma word_tail : forall d w, ascii_word (d :: w) -> ascii_word w.
Proof. intros d w H c I. apply H. now right. Qed.
Lemma ascii_enc : forall x y c, enc x y -> (c < 128)%N ->
  enc (snd (xml_step x c)) (snd (xml_step y c)) /\ map event_text (fst (xml_step y c)) = fst (xml_step x c).
Proof.
  intros [o a] [o' a'] c (A & O & U) C. cbn [x_at x_open] in *. unfold xml_step. cbn [x_at x_open].
  assert (G : forall a, match a with XText _ | XTag _ _ | XEndTag _ => False
    | XCDataWord w | XDocWord w => ascii_word w | _ => True end -> enc (mk_xml o a) (mk_xml o' a)).
  { intros b H. unfold enc. cbn [x_at x_open]. split; [now apply EncSame|auto]. }
  pose proof (fun s => more_enc c s C) as M. pose proof (fail_enc o o' O U) as F. pose proof (start_text o o' O U) as T.
  destruct A as [s Us|s q Us Q|s Us|a P].
  - destruct (N.eqb c 60); [cbn [fst snd]; split; [now apply G|now apply text_enc]|].
    destruct (N.eqb c 38); [cbn [fst snd]; split; [now apply G|now apply text_enc]|].
    cbn [fst snd map]. split; [|reflexivity]. unfold enc. cbn [x_at x_open]. split; [now apply M|auto].
  - now apply in_tag_enc.
  - destruct (N.eqb c 62); [now apply end_enc|].
    cbn [fst snd map]. split; [|reflexivity]. unfold enc. cbn [x_at x_open]. split; [now apply M|auto].
  - destruct a; try contradiction.
    + (* XRef *) destruct (N.eqb c 59); [cbn [fst snd map event_text]; auto|]. destruct (_ || _); [exact F|]. cbn [fst snd map]. auto.
    + (* XOpen *) destruct (N.eqb c 33); [cbn [fst snd map]; auto|].
      destruct (N.eqb c 47).
      { cbn [fst snd map]. split; [|reflexivity]. unfold enc. cbn [x_at x_open]. split; [apply (EncEnd []); exact unicode_nil|auto]. }
      destruct (N.eqb c 63); [cbn [fst snd map]; auto|]. apply (in_tag_enc o o' [] None c); auto; [exact unicode_nil|discriminate].
    + (* XPi *) destruct mark; [destruct (N.eqb c 62)|]; cbn [fst snd map event_text]; auto.
    + (* XBang *) destruct (N.eqb c 45); [cbn [fst snd map]; auto|]. destruct (N.eqb c 91).
      { cbn [fst snd map]. split; [|reflexivity]. apply G. intros d I. repeat (destruct I as [<-|I]; [reflexivity|]). destruct I. }
      destruct (N.eqb (to_upper c) 68); [|exact F].
      cbn [fst snd map]. split; [|reflexivity]. apply G. intros d I. repeat (destruct I as [<-|I]; [reflexivity|]). destruct I.
    + (* XDash *) destruct (N.eqb c 45); [cbn [fst snd map]; auto|exact F].
    + (* XComment *) destruct (N.eqb c 45); [cbn [fst snd map]; auto|]. destruct (N.eqb c 62); [|cbn [fst snd map]; auto].
      destruct dashes as [|[|[|n]]]; cbn [fst snd map event_text]; auto.
    + (* XCDataWord *) destruct rest as [|d w]; [exact F|]. destruct (N.eqb c d); [|exact F]. cbn [fst snd map]. split; [|reflexivity].
      apply word_tail in P. destruct w; apply G; [exact I|exact P].
    + (* XCData *) destruct (N.eqb c 93); [cbn [fst snd map]; auto|]. destruct (N.eqb c 62); [|cbn [fst snd map]; auto].
      destruct brackets as [|[|[|n]]]; cbn [fst snd map event_text]; auto.
    + (* XDocWord *) destruct rest as [|d w]; [exact F|]. destruct (N.eqb (to_upper c) d); [|exact F]. cbn [fst snd map]. split; [|reflexivity].
      apply word_tail in P. destruct w; apply G; [exact I|exact P].
    + (* XDoc *) destruct (N.eqb c 60); [cbn [fst snd map]; auto|]. destruct (N.eqb c 62); [|cbn [fst snd map]; auto].
      destruct depth; [destruct named; [cbn [fst snd map event_text]; auto|exact F]|cbn [fst snd map]; auto].
    + (* XFailed *) cbn [fst snd map]. auto.
Qed.
(** *** All of a text *)
Lemma run_enc : forall s x y, enc x y -> unicode s ->
  enc (snd (xml_run x s)) (snd (xml_run y (utf8 s))) /\ map event_text (fst (xml_run y (utf8 s))) = fst (xml_run x s).
Proof.
  induction s as [|c s IH]; intros x y X U; [split; [exact X|reflexivity]|].
  apply unicode_cons in U as [Uc Us]. unfold utf8. cbn [flat_map]. fold (utf8 s). rewrite run_app. cbn [fst snd xml_run].
  destruct (N.ltb_spec c 128) as [L|L].
  - rewrite enc_ascii by exact L. cbn [xml_run]. destruct (ascii_enc x y c X L) as [A B].
    destruct (xml_step x c) as [e x1]. destruct (xml_step y c) as [f y1]. cbn [fst snd] in *. rewrite app_nil_r.
    destruct (IH x1 y1 A Us) as [C D]. destruct (xml_run x1 s) as [es x2]. cbn [fst snd] in *. rewrite map_app, B, D. auto.
  - destruct (high_enc x y c X Uc L) as (e & x1 & f & y1 & E1 & E2 & A & B). rewrite E1, E2. cbn [fst snd].
    destruct (IH x1 y1 A Us) as [C D]. destruct (xml_run x1 s) as [es x2]. cbn [fst snd] in *. rewrite map_app, B, D. auto.
Qed.
Lemma finish_enc : forall x y, enc x y -> map event_text (xml_finish y) = xml_finish x.
Proof.
  intros x y (A & _). unfold xml_finish. destruct A as [s Us| | |a P]; try reflexivity; [now apply text_enc|].
  destruct a; try contradiction; reflexivity.
Qed.
Lemma bom_enc : forall s, unicode s -> skip_bom (utf8 s) = utf8 (xml_skip_bom s).
Proof.
  intros [|c s] U; [reflexivity|]. apply unicode_cons in U as [Uc Us]. cbn [xml_skip_bom]. destruct (N.eqb c 65279) eqn:E.
  - apply N.eqb_eq in E as ->. reflexivity.
  - assert (K : forall r, utf8 (c :: s) <> 239%N :: 187%N :: 191%N :: r).
    { intros r H. apply N.eqb_neq in E. apply E. pose proof (utf8_char c (utf8 s) Uc) as D.
      unfold utf8 in D at 1, H. cbn [flat_map] in H. unfold utf8 in D. rewrite H in D. rewrite utf8_text in D by exact Us.
      cbn [obind] in D. cbn [dec_utf8] in D.
      destruct (dec_utf8 r); vm_compute in D; congruence. }
    unfold skip_bom. destruct (utf8 (c :: s)) as [|a [|b [|d r]]]; try reflexivity.
    destruct (N.eqb_spec a 239) as [->|]; [|reflexivity]. destruct (N.eqb_spec b 187) as [->|]; [|reflexivity].
    destruct (N.eqb_spec d 191) as [->|]; [|reflexivity]. now elim (K r).
Qed.
Lemma raw_enc : forall s, unicode s -> map event_text (raw_events (utf8 s)) = xml_events s.
Proof.
  intros s U. unfold raw_events, xml_events. rewrite bom_enc by exact U.
  assert (V : unicode (xml_skip_bom s)).
  { destruct s as [|c s]; [exact U|]. cbn [xml_skip_bom]. destruct (N.eqb c 65279); [|exact U]. now apply unicode_cons in U. }
  destruct (run_enc (xml_skip_bom s) xml_start xml_start) as [A B]; [|exact V|].
  { split; [apply (EncText []); exact unicode_nil|]. split; [reflexivity|constructor]. }
  destruct (xml_run xml_start (xml_skip_bom s)) as [es x]. destruct (xml_run xml_start (utf8 (xml_skip_bom s))) as [fs y].
  cbn [fst snd] in *. now rewrite map_app, B, (finish_enc x y A).
Qed.

(** ** What is decoded is text *)
Lemma in_range_iff : forall a b c, in_range a b c = true <-> (a <= c <= b)%N.
Proof. intros. unfold in_range. rewrite andb_true_iff, !N.leb_le. reflexivity. Qed.
Lemma low6 : forall q r, (r < 64)%N -> ((q * 64 + r) / 64 = q /\ (q * 64 + r) mod 64 = r)%N.
Proof.
  intros q r H. split; symmetry; [apply (N.div_unique _ 64 q r)|apply (N.mod_unique _ 64 q r)]; lia.
Qed.
Lemma two_bytes : forall b b1, in_range 194 223 b = true -> is_cont b1 = true ->
  let c := ((b - 192) * 64 + (b1 - 128))%N in scalar c /\ enc_char c = [b; b1].
Proof.
  intros b b1 B B1 c. unfold is_cont in B1. apply in_range_iff in B. apply in_range_iff in B1.
  destruct (low6 (b - 192) (b1 - 128)) as [D M]; [lia|]. fold c in D, M.
  split; [unfold scalar; lia|]. unfold enc_char.
  replace (N.ltb c 128) with false by (symmetry; apply N.ltb_ge; lia).
  replace (N.ltb c 2048) with true by (symmetry; apply N.ltb_lt; lia). rewrite D, M. repeat f_equal; lia.
Qed.
Lemma three_bytes : forall b b1 b2, in_range 224 239 b = true -> is_cont b1 = true -> is_cont b2 = true ->
  (if N.eqb b 224 then in_range 160 191 b1 else if N.eqb b 237 then in_range 128 159 b1 else true) = true ->
  let c := ((b - 224) * 4096 + (b1 - 128) * 64 + (b2 - 128))%N in scalar c /\ enc_char c = [b; b1; b2].
Proof.
  intros b b1 b2 B B1 B2 X c. unfold is_cont in *. apply in_range_iff in B. apply in_range_iff in B1. apply in_range_iff in B2.
  assert (Y : (b = 224 -> 160 <= b1)%N /\ (b = 237 -> b1 <= 159)%N).
  { destruct (N.eqb_spec b 224); [apply in_range_iff in X; lia|]. destruct (N.eqb_spec b 237); [apply in_range_iff in X; lia|]. lia. }
  clear X. destruct (low6 ((b - 224) * 64 + (b1 - 128)) (b2 - 128)) as [D M]; [lia|].
  destruct (low6 (b - 224) (b1 - 128)) as [D' M']; [lia|].
  replace (((b - 224) * 64 + (b1 - 128)) * 64 + (b2 - 128))%N with c in D, M by (unfold c; lia).
  split; [unfold scalar; lia|]. unfold enc_char.
  replace (N.ltb c 128) with false by (symmetry; apply N.ltb_ge; lia).
  replace (N.ltb c 2048) with false by (symmetry; apply N.ltb_ge; lia).
  replace (N.ltb c 65536) with true by (symmetry; apply N.ltb_lt; lia).
  replace (c / 4096)%N with (c / 64 / 64)%N by (rewrite N.div_div; [reflexivity|discriminate|discriminate]).
  rewrite D, M, D', M'. repeat f_equal; lia.
Qed.
Lemma four_bytes : forall b b1 b2 b3, in_range 240 244 b = true -> is_cont b1 = true -> is_cont b2 = true -> is_cont b3 = true ->
  (if N.eqb b 240 then in_range 144 191 b1 else if N.eqb b 244 then in_range 128 143 b1 else true) = true ->
  let c := ((b - 240) * 262144 + (b1 - 128) * 4096 + (b2 - 128) * 64 + (b3 - 128))%N in scalar c /\ enc_char c = [b; b1; b2; b3].
Proof.
  intros b b1 b2 b3 B B1 B2 B3 X c. unfold is_cont in *. apply in_range_iff in B. apply in_range_iff in B1. apply in_range_iff in B2.
  apply in_range_iff in B3.
  assert (Y : (b = 240 -> 144 <= b1)%N /\ (b = 244 -> b1 <= 143)%N).
  { destruct (N.eqb_spec b 240); [apply in_range_iff in X; lia|]. destruct (N.eqb_spec b 244); [apply in_range_iff in X; lia|]. lia. }
  clear X. subst c.
  assert (E : exists w x y z, (b = 240 + w /\ b1 = 128 + x /\ b2 = 128 + y /\ b3 = 128 + z /\ w <= 4 /\ x < 64 /\ y < 64 /\ z < 64
    /\ (w = 0 -> 16 <= x) /\ (w = 4 -> x < 16))%N).
  { exists (b - 240)%N, (b1 - 128)%N, (b2 - 128)%N, (b3 - 128)%N. lia. }
  clear B B1 B2 B3 Y. destruct E as (w & x & y & z & -> & -> & -> & -> & W & Lx & Ly & Lz & H0 & H4).
  replace (240 + w - 240)%N with w by lia. replace (128 + x - 128)%N with x by lia. replace (128 + y - 128)%N with y by lia.
  replace (128 + z - 128)%N with z by lia.
  remember (w * 262144 + x * 4096 + y * 64 + z)%N as c eqn:Ec.
  assert (Ec' : c = (((w * 64 + x) * 64 + y) * 64 + z)%N) by lia.
  assert (C : (65536 <= c < 1114112)%N) by (destruct (N.eq_dec w 0); destruct (N.eq_dec w 4); lia).
  destruct (low6 ((w * 64 + x) * 64 + y) z Lz) as [D M]. destruct (low6 (w * 64 + x) y Ly) as [D' M']. destruct (low6 w x Lx) as [D2 M2].
  rewrite <- Ec' in D, M. clear Ec Ec' H0 H4. split; [unfold scalar; lia|]. unfold enc_char.
  replace (N.ltb c 128) with false by (symmetry; apply N.ltb_ge; lia).
  replace (N.ltb c 2048) with false by (symmetry; apply N.ltb_ge; lia).
  replace (N.ltb c 65536) with false by (symmetry; apply N.ltb_ge; lia).
  replace (c / 4096)%N with (c / 64 / 64)%N by (rewrite N.div_div; [reflexivity|discriminate|discriminate]).
  replace (c / 262144)%N with (c / 64 / 64 / 64)%N by (rewrite !N.div_div; [reflexivity|discriminate|discriminate|discriminate|discriminate]).
  rewrite D, M, D', M', D2, M2. reflexivity.
Qed.
Lemma decoded : forall b s, dec_utf8 b = Ok s -> unicode s /\ utf8 s = b.
Proof.
  intros b. remember (length b) as n eqn:Hn. revert b Hn. induction n as [n IH] using lt_wf_ind. intros b Hn s H.
  assert (G : forall r c pre, length r < n -> b = pre ++ r -> scalar c -> enc_char c = pre ->
    (let* s := dec_utf8 r in Ok (c :: s)) = Ok s -> unicode s /\ utf8 s = b).
  { intros r c pre L E S P Q. destruct (dec_utf8 r) as [t| |] eqn:R; try discriminate Q. inversion Q; subst s.
    destruct (IH (length r) L r eq_refl t R) as [U V]. split; [now apply unicode_cons|].
    unfold utf8. cbn [flat_map]. fold (utf8 t). now rewrite V, P, E. }
  destruct b as [|b r]; [inversion H; split; [exact unicode_nil|reflexivity]|]. cbn [dec_utf8] in H. cbn [length] in Hn.
  destruct (N.ltb_spec b 128) as [L|L].
  { apply (G r b [b]); try assumption; [lia|reflexivity|unfold scalar; lia|now apply enc_ascii]. }
  destruct (in_range 194 223 b) eqn:R2.
  { destruct r as [|b1 r]; [discriminate H|]. destruct (is_cont b1) eqn:B1; [|discriminate H].
    destruct (two_bytes b b1 R2 B1) as [S E]. cbn [length] in Hn.
    refine (G r _ [b; b1] _ _ S E H); [lia|reflexivity]. }
  destruct (in_range 224 239 b) eqn:R3.
  { destruct r as [|b1 [|b2 r]]; try discriminate H.
    destruct (is_cont b1) eqn:B1; [|discriminate H]. destruct (is_cont b2) eqn:B2; [|discriminate H]. cbn [andb] in H.
    destruct (if N.eqb b 224 then _ else _) eqn:X in H; [|discriminate H].
    destruct (three_bytes b b1 b2 R3 B1 B2 X) as [S E]. cbn [length] in Hn.
    refine (G r _ [b; b1; b2] _ _ S E H); [lia|reflexivity]. }
  destruct (in_range 240 244 b) eqn:R4; [|discriminate H].
  destruct r as [|b1 [|b2 [|b3 r]]]; try discriminate H.
  destruct (is_cont b1) eqn:B1; [|discriminate H]. destruct (is_cont b2) eqn:B2; [|discriminate H].
  destruct (is_cont b3) eqn:B3; [|discriminate H]. cbn [andb] in H.
  destruct (if N.eqb b 240 then _ else _) eqn:X in H; [|discriminate H].
  destruct (four_bytes b b1 b2 b3 R4 B1 B2 B3 X) as [S E]. cbn [length] in Hn.
  refine (G r _ [b; b1; b2; b3] _ _ S E H); [lia|reflexivity].
Qed.
(** different names stay different *)
Lemma name_text_inj : forall a b, name_text a = name_text b -> a = b.
Proof.
  assert (P : forall a b s, dec_utf8 a = Ok s -> s = map (N.add 1114112) b -> s = []).
  { intros a b s A E. apply decoded in A as [U _]. destruct b as [|x b]; [exact E|]. rewrite E in U. apply unicode_cons in U as [U _].
    unfold scalar in U. lia. }
  intros a b H. unfold name_text in H. destruct (dec_utf8 a) as [s|e|] eqn:A; destruct (dec_utf8 b) as [t|e'|] eqn:B;
  try (subst t; apply decoded in A as [_ <-]; apply decoded in B as [_ <-]; reflexivity);
  try (pose proof (P _ _ _ A H) as ->; destruct b; [discriminate B|discriminate H]);
  try (symmetry in H; pose proof (P _ _ _ B H) as ->; destruct a; [discriminate A|discriminate H]);
  clear A B; revert b H; induction a as [|x a IH]; intros [|y b] H; try discriminate H; try reflexivity;
  cbn [map] in H; inversion H; (f_equal; [lia|now apply IH]).
Qed.

(** ** The claims *)
(** A file that holds the UTF-8 encoding of a text is read exactly as the text:
    with the same entries, the same error or the same panic. *)
Theorem C64_text : forall s, unicode s ->
  load_bytes (utf8 s) = load_text s /\ db_load_bytes (utf8 s) = db_parse_text s.
Proof.
  intros s U. assert (L : load_bytes (utf8 s) = load_text s) by (unfold load_bytes, load_text; now rewrite raw_enc).
  split; [exact L|]. unfold db_load_bytes, db_parse_text. now rewrite L.
Qed.
Print Assumptions C64_text.

(** What is read from any bytes is text, with 16-bit numbers: nothing that is not
    UTF-8 gets into the entries. *)
Lemma event_unicode : forall e, unicode_event (event_text e).
Proof.
  assert (A : forall attrs k v, In (Some (k, v)) (map attr_text attrs) -> unicode v).
  { intros attrs k v I. apply in_map_iff in I as ([[k' v']|] & E & _); [|discriminate E]. cbn [attr_text] in E.
    destruct (dec_utf8 k'); try discriminate E. destruct (dec_utf8 v') eqn:V; try discriminate E. inversion E; subst.
    now apply decoded in V. }
  intros []; cbn [event_text unicode_event]; try exact I; try (apply A).
  destruct (dec_utf8 text) eqn:T; cbn [unicode_event]; try exact I. now apply decoded in T.
Qed.
Theorem C64_entries : forall b l, load_bytes b = Ok l -> Forall (meta_all unicode short (fun _ => True)) l.
Proof.
  intros b l H. apply (load_unicode _ _ H). intros e I. apply in_map_iff in I as (r & <- & _). apply event_unicode.
Qed.
Print Assumptions C64_entries.

(** What follows the document does not matter, and a panic stays one. *)
Lemma bytes_inert : forall x, inert (map event_text (xml_finish x)).
Proof.
  intros x. destruct (finish_inert x) as [->|[(t & ->)|[->| ->]]]; cbn [map event_text].
  - now left.
  - destruct (dec_utf8 t); [right; left; now eexists|now right; right; right|now right; right; right].
  - right; right; now left.
  - now right; right; right.
Qed.
Lemma raw_of : forall b, raw_events b = fst (xml_run xml_start (skip_bom b)) ++ xml_finish (snd (xml_run xml_start (skip_bom b))).
Proof. intros b. unfold raw_events. now destruct (xml_run _ _). Qed.
Lemma skip_bom_more : forall b after, skip_bom (b ++ after) = skip_bom b ++ after \/ b = [] \/ b = [239%N] \/ b = [239; 187]%N.
Proof.
  intros b after. destruct b as [|x [|y [|z r]]].
  - auto.
  - destruct (N.eqb_spec x 239) as [->|N]; [auto|left]. apply N.eqb_neq in N. cbn [app skip_bom].
    destruct after as [|y [|z r]]; try reflexivity. now rewrite N.
  - destruct (N.eqb_spec x 239) as [->|N].
    + destruct (N.eqb_spec y 187) as [->|N]; [auto|left]. apply N.eqb_neq in N. cbn [app skip_bom].
      destruct after as [|z r]; try reflexivity. now rewrite N.
    + left. apply N.eqb_neq in N. cbn [app skip_bom]. destruct after as [|z r]; try reflexivity. now rewrite N.
  - left. cbn [app skip_bom]. now destruct (_ && _).
Qed.
Theorem C64_extends : forall b after,
  (forall l, load_bytes b = Ok l -> load_bytes (b ++ after) = Ok l) /\
  (load_bytes b = Panic -> load_bytes (b ++ after) = Panic).
Proof.
  intros b after. destruct (skip_bom_more b after) as [S|[->|[->| ->]]].
  2,3,4: split; [intros l H|intros H]; vm_compute in H; discriminate H.
  pose proof (bytes_inert (snd (xml_run xml_start (skip_bom b)))) as Z.
  assert (A : agree_all (load_bytes b) (load_bytes (b ++ after)) (map event_text (xml_finish (snd (xml_run xml_start (skip_bom b)))))).
  { unfold load_bytes. rewrite (raw_of b), (raw_of (b ++ after)), S, run_app. cbn [fst snd]. rewrite <- app_assoc, !map_app.
    apply load_agree, Z. }
  unfold agree_all in A. split; [intros l H|intros H]; rewrite H in A; exact A.
Qed.
Print Assumptions C64_extends.

(** A file that is read consists of the document and of what follows it, and every
    beginning of the document is refused with an error, wherever it is cut. *)
Theorem C64_cut : forall f db, db_load_bytes f = Ok db ->
  exists a b, f = a ++ b /\ (forall after, db_load_bytes (a ++ after) = Ok db) /\
  (forall t u, a = t ++ u -> u <> [] -> exists e, load_bytes t = Err e /\ db_load_bytes t = Err e).
Proof.
  intros f db H. unfold db_load_bytes in H. apply obind_ok in H as (l & Hl & H).
  pose (P t := match load_bytes t with Ok _ => true | _ => false end).
  destruct (shortest P f) as (a & b & E & A & M); [unfold P; now rewrite Hl|].
  assert (La : load_bytes a = Ok l).
  { unfold P in A. destruct (load_bytes a) as [l'| |] eqn:Q; try discriminate A.
    assert (X : load_bytes f = Ok l') by (rewrite E; exact (proj1 (C64_extends a b) l' Q)). rewrite Hl in X. now inversion X. }
  exists a, b. split; [exact E|]. split.
  - intros after. unfold db_load_bytes. now rewrite (proj1 (C64_extends a after) l La).
  - intros t u Et Nu. specialize (M t u Et Nu). unfold P in M. destruct (load_bytes t) as [l'|e|] eqn:Q; [discriminate M| |].
    + exists e. split; [reflexivity|]. unfold db_load_bytes. now rewrite Q.
    + assert (X : load_bytes a = Panic) by (rewrite Et; exact (proj2 (C64_extends t u) Q)). rewrite La in X. discriminate X.
Qed.
Print Assumptions C64_cut.

(** A document with a word in it that is not ASCII, encoded as UTF-8 and as
    Latin-1: where text is skipped, and in comments, that does not matter;
    elsewhere the Latin-1 file is refused. *)
Definition with_word (before after word : bytes) : bytes := before ++ word ++ after.
Definition in_comment : bytes -> bytes :=
  with_word (lit "<phoneNumberMetadata><!-- ") (lit " --><territories><territory id='BE' countryCode='32'></territory></territories></phoneNumberMetadata>").
Definition in_example : bytes -> bytes :=
  with_word (lit "<phoneNumberMetadata><territories><territory id='BE' countryCode='32'><pager><exampleNumber>")
    (lit "</exampleNumber></pager></territory></territories></phoneNumberMetadata>").
Definition in_prefix : bytes -> bytes :=
  with_word (lit "<phoneNumberMetadata><territories><territory id='BE' nationalPrefix='") (lit "'></territory></territories></phoneNumberMetadata>").
Definition cafe_utf8 : bytes := (lit "caf" ++ [195; 169])%N.
Definition cafe_latin1 : bytes := (lit "caf" ++ [233])%N.
Example C64_ex :
  utf8 (lit "caf" ++ [233%N]) = cafe_utf8
  /\ (exists m, load_bytes (in_example cafe_utf8) = Ok [m] /\
       option_map ld_example (lm_pager m) = Some (Some (lit "caf" ++ [233%N])))
  /\ (exists e, load_bytes (in_example cafe_latin1) = Err e)
  /\ (exists m, load_bytes (in_prefix cafe_utf8) = Ok [m] /\ lm_national_prefix m = Some (lit "caf" ++ [233%N]))
  /\ (exists e, load_bytes (in_prefix cafe_latin1) = Err e)
  /\ load_bytes (in_comment cafe_latin1) = load_bytes (in_comment cafe_utf8)
  /\ (exists e, load_bytes (in_example [195%N]) = Err e).
Proof.
  repeat match goal with |- _ /\ _ => split end; try (vm_compute; reflexivity);
  (eexists; try (split; [vm_compute; reflexivity|]); vm_compute; reflexivity).
Qed.
