(** * C58: writing a number in E.164 form again and again settles *)
From Verif Require Import Base Unicode Regex RegexSyntax Consts CountryId Types NationalNumber
  Metadata Database Validator Valid Number Rfc3966 Helper Natural PhoneNumber Parser Formatter Loader
  DefaultDb DefaultDbOk Api.
From Verif Require Import StrFacts NationalFacts RegexLang RegexFacts RegexCaps RegexDeriv RegexWords DatabaseFacts ParserFacts
  ParseInv TextFacts ViableFacts PhoneText E164Facts CoreFacts FormatFacts FormatDigits FormatDollar DialFacts ExtFacts ReadFacts
  PropsPanic PropsE164 PropsValid PropsTemplate PropsDial PropsOutcome PropsZeros PropsText PropsRfc PropsTel PropsReading
  PropsParse PropsFormat PropsKey PropsGives.

(** ** The specification *)
(** [t] is the E.164 text of what [s] is read as, with [country] for reference *)
Definition rewritten (country : option id) (s t : str) : Prop :=
  exists p, parse country s = Ok p /\ phone_to_string p = Ok t.
(** [n] times, each time with some country of reference, the text is rewritten to another one *)
Inductive changes : nat -> str -> Prop :=
| Ch_none : forall s, changes 0 s
| Ch_more : forall n country s t, rewritten country s t -> t <> s -> changes n t -> changes (S n) s.
(** always with the same country of reference: after at most [n] times the text
    is no longer read as a number, or stays the same *)
Inductive settles (country : option id) : nat -> str -> Prop :=
| St_error : forall n s e, parse country s = Err e -> settles country n s
| St_same : forall n s, rewritten country s s -> settles country n s
| St_more : forall n s t, rewritten country s t -> settles country n t -> settles country (S n) s.

(** ** Words of a pattern *)
Fixpoint span_of (k : nat) (l : list (nat * (nat * nat))) : option (nat * nat) :=
  match l with [] => None | (i, s) :: l' => if Nat.eqb k i then Some s else span_of k l' end.
Lemma span_assoc : forall e k gs,
  assoc k (map (cut e) gs) = option_map (fun s => firstn (snd s) (skipn (fst s) e)) (span_of k gs).
Proof.
  intros e k gs. induction gs as [|[i s] gs IH]; [reflexivity|]. cbn [map assoc cut fst snd span_of]. destruct (Nat.eqb k i); [reflexivity|exact IH].
Qed.
Lemma group_span : forall x e k w, 1 <= k -> group x (map (cut e) (w_grps w)) k
  = option_map (fun s => firstn (snd s) (skipn (fst s) e)) (span_of k (w_grps w)).
Proof. intros x e [|k] w H; [lia|]. cbn [group]. apply span_assoc. Qed.

Lemma found_word : forall p W e x rest gs, words (re_ast p) = Some W -> found p e x rest gs ->
  exists w, In w W /\ wgo w (e, []) = [(rest, gs)].
Proof.
  intros p W e x rest gs EW (E & G & _). apply (words_glang _ W EW) in G. rewrite <- E in G. now apply gos_in in G.
Qed.
Lemma prefix_word : forall p W e, words (re_ast p) = Some W -> matches_prefix (re_ast p) e ->
  exists w v, In w W /\ wgo w (e, []) = [v].
Proof.
  intros p W e EW (t & a & E & L). apply (proj1 glang_exists) in L as (g & G). apply (words_glang _ W EW) in G. rewrite <- E in G.
  apply gos_in in G as (w & I & H). eauto.
Qed.
Lemma word_parts : forall w e rest gs, wgo w (e, []) = [(rest, gs)] ->
  gs = map (cut e) (w_grps w) /\ eats (w_cls w) e = Some rest /\ rest = skipn (length (w_cls w)) e /\ length (w_cls w) <= length e
  /\ (w_end w = true -> rest = []).
Proof.
  intros w e rest gs H. apply wgo_inv in H as (H1 & H2 & H3). cbn [fst snd] in *. split; [exact H2|]. split; [exact H1|].
  apply eats_skipn in H1 as [H1 L]. auto.
Qed.
Definition exactly (s : str) : list cls := map (fun c => CRange c c) s.
Lemma eats_exactly : forall s r, eats (exactly s) (s ++ r) = Some r.
Proof.
  induction s as [|c s IH]; intros r; [reflexivity|]. cbn [exactly map app eats in_cls]. rewrite in_range_single, N.eqb_refl. apply IH.
Qed.
Lemma wgo_exactly : forall s r, wgo (mk_word (exactly s) false []) (s ++ r, []) = [(r, [])].
Proof. intros s r. unfold wgo. cbn [w_cls fst snd w_end w_grps map app]. now rewrite eats_exactly. Qed.
Lemma wgo_grown : forall b cs x, eats cs x = Some [] -> wgo (mk_word (exactly b ++ cs) true []) (b ++ x, []) = [([], [])].
Proof. intros b cs x H. unfold wgo. cbn [w_cls fst snd w_end w_grps map app]. now rewrite eats_app, eats_exactly, H. Qed.

(** ** A check of the metadata
    A rule either shortens the digits, or leaves them alone, or puts at most
    four digits in front of all of them.  In the last case no rule for the same
    calling code applies to the result; and if a dialling prefix is found in
    it, what follows is too short to be lengthened again, or begins with a
    calling code none of whose rules lengthens digits. *)
Definition pattern_words (o : option regex) : list word :=
  match o with Some r => match words (re_ast r) with Some W => W | None => [weps] end | None => [] end.
Definition dial_words (db : database) : list mword :=
  map masked (flat_map (fun q => pattern_words (md_international_prefix (snd q))) (db_by_id db) ++ pattern_words (Some DEFAULT_IDD)).
Definition rule_parts (t : str) : str * nat :=
  match rev t with k :: _ :: a => (rev a, N.to_nat (k - 48)) | _ => ([], 0) end.
Definition none_both (g : mword) (l : list mword) : bool := forallb (fun w => if both g w then false else true) l.
Definition prefix_words (m : metadata) : list mword :=
  map masked (pattern_words (md_national_prefix_for_parsing m)
    ++ match md_national_prefix m with Some np => [mk_word (exactly np) false []] | None => [] end).
(** [long] decides the words that put digits in front *)
Definition word_check (long : word -> bool) (a : str) (k n : nat) (w : word) : bool :=
  if takes n w then
    let len := length (w_cls w) in
    let '(whole, size) := match span_of k (w_grps w) with
                          | Some (o, z) => (Nat.eqb o 0 && Nat.eqb z len, z) | None => (false, 0) end in
    if length a + size <? len then true
    else if whole then match a with [] => true | _ => if w_end w then long w else false end
    else false
  else true.
Definition entry_check (long : str -> word -> bool) (m : metadata) : bool :=
  match md_national_prefix_for_parsing m, md_national_prefix_transform_rule m with
  | Some p, Some t => let '(a, k) := rule_parts t in
      forallb (word_check (long a) a k (re_ngroups p)) (pattern_words (Some p))
  | _, _ => true
  end.
Definition calm (dials : list mword) (q : N * list metadata) : bool :=
  if none_both (masked (mk_word (exactly (dec (fst q))) false [])) dials
  then forallb (entry_check (fun _ _ => false)) (snd q) else false.
Definition dial_ok (wild : list mword) (cs : list cls) (w : mword) : bool :=
  if both (masked (mk_word cs true [])) w then
    let n := length (w_cls (snd w)) in
    if length cs - n <? 8 then true else none_both (masked (mk_word (skipn n cs) true [])) wild
  else true.
Definition long_ok (dials wild : list mword) (c : N) (others : list mword) (a : str) (w : word) : bool :=
  if length a <=? 4 then
  if 8 <=? length (dec c) + length (w_cls w) then
  if none_both (masked (mk_word (exactly a ++ w_cls w) true [])) others
  then forallb (dial_ok wild (exactly (dec c ++ a) ++ w_cls w)) dials
  else false else false else false.
Definition code_settles (dials wild : list mword) (q : N * list metadata) : bool :=
  let others := flat_map prefix_words (snd q) in forallb (entry_check (long_ok dials wild (fst q) others)) (snd q).
Definition wild_words (dials : list mword) (db : database) : list mword :=
  map (fun q => masked (mk_word (exactly (dec (fst q))) false [])) (filter (fun q => negb (calm dials q)) (db_by_code db)).
Definition db_settles (db : database) : bool :=
  let dials := dial_words db in
  if forallb (fun w => match w_cls (snd w) with [] => false | _ => true end) dials
  then let wild := wild_words dials db in forallb (code_settles dials wild) (db_by_code db) else false.

Lemma none_both_use : forall g l w e v v', none_both (masked g) l = true -> In (masked w) l -> digits e = true ->
  wgo g (e, []) = [v] -> wgo w (e, []) = [v'] -> False.
Proof.
  intros g l w e v v' H I D Hg Hw. unfold none_both in H. rewrite forallb_forall in H. apply H in I.
  rewrite (both_sound g w e v v' (digits_ten e D) Hg Hw) in I. discriminate.
Qed.

(** no rule of the entry applies to the digits *)
Definition quiet (m : metadata) (e : str) : Prop :=
  (forall p, md_national_prefix_for_parsing m = Some p -> ~ matches_prefix (re_ast p) e)
  /\ (forall np, md_national_prefix m = Some np -> ~ starts e np).
Definition undialled (db : database) (d : str) : Prop := forall country d', ~ dialled db country d d'.

Lemma good_words : forall p, good_pattern p = true -> exists W, words (re_ast p) = Some W.
Proof. intros p H. unfold good_pattern in H. destruct (words (re_ast p)) as [W|]; [eauto|discriminate]. Qed.

Lemma dial_word_in : forall db country r W w, dial_prefix db country r -> words (re_ast r) = Some W -> In w W -> In (masked w) (dial_words db).
Proof.
  intros db country r W w D EW I. unfold dial_words. apply in_map. apply in_app_iff. destruct country as [i|]; cbn in D.
  - left. destruct D as (m & Hm & Hr). apply sget_in in Hm. apply in_flat_map. exists (id_name i, m). split; [exact Hm|].
    cbn [snd]. unfold pattern_words. now rewrite Hr, EW.
  - right. subst r. unfold pattern_words. now rewrite EW.
Qed.

Lemma rule_parts_of : forall a k, k <= 9 -> rule_parts (rule_text a k) = (a, k).
Proof.
  intros a k H. unfold rule_parts, rule_text. rewrite rev_app_distr. cbn [rev app]. rewrite rev_involutive. f_equal. lia.
Qed.


(** ** What the check says *)
(** the digits will not be lengthened any more *)
Definition spent (db : database) (d : str) : Prop :=
  length d < 8 \/ forall c l, by_code db c = Some l -> starts d (dec c) -> calm (dial_words db) (c, l) = true.
Definition after_dial (db : database) (d : str) : Prop := forall country d', dialled db country d d' -> spent db d'.
Definition longer (db : database) (c : N) (l : list metadata) (e e' : str) : Prop :=
  (forall m', In m' l -> quiet m' e') /\ after_dial db (dec c ++ e') /\ length e' <= length e + 4
  /\ 8 <= length (dec c ++ e) /\ calm (dial_words db) (c, l) = false.

Lemma dialled_word : forall db country d d', tame db -> dialled db country d d' ->
  exists w gs, In (masked w) (dial_words db) /\ wgo w (d, []) = [(d', gs)].
Proof.
  intros db country d d' T (r & y & gy & R1 & R2 & _). destruct (good_words r (good_dial db country r T R1)) as (W & EW).
  destruct (found_word r W _ _ _ _ EW R2) as (w & I & H). exists w, gy. split; [|exact H]. exact (dial_word_in db country r W w R1 EW I).
Qed.
Lemma eats_rest : forall cs n e, eats cs e = Some [] -> n <= length cs -> eats (skipn n cs) (skipn n e) = Some [].
Proof.
  induction cs as [|c cs IH]; intros n e H L.
  - destruct n; [exact H|cbn [length] in L; lia].
  - destruct n as [|n]; [exact H|]. cbn [eats] in H. destruct e as [|x e]; [discriminate|]. destruct (in_cls c x); [|discriminate].
    cbn [skipn length] in *. apply IH; [exact H|lia].
Qed.
Lemma eats_length : forall cs e, eats cs e = Some [] -> length e = length cs.
Proof.
  intros cs e H. apply eats_skipn in H as [H L]. apply (f_equal (@length _)) in H. rewrite skipn_length in H. cbn [length] in H. lia.
Qed.
Lemma dial_ok_use : forall db wild cs d, tame db -> wild = wild_words (dial_words db) db ->
  forallb (dial_ok wild cs) (dial_words db) = true -> digits d = true -> eats cs d = Some [] -> after_dial db d.
Proof.
  intros db wild cs d T Ew H Dd Hd country d' K. destruct (dialled_word db country d d' T K) as (w & gs & Iw & Hw).
  rewrite forallb_forall in H. specialize (H _ Iw). unfold dial_ok in H.
  assert (Wg : wgo (mk_word cs true []) (d, []) = [([], [])]) by (unfold wgo; cbn [w_cls fst snd w_end w_grps map app]; now rewrite Hd).
  rewrite (both_sound _ w d _ _ (digits_ten d Dd) Wg Hw) in H. change (snd (masked w)) with w in H.
  destruct (word_parts w d d' gs Hw) as (_ & _ & Er & Ll & _). pose proof (eats_length _ _ Hd) as Lc.
  destruct (Nat.ltb_spec (length cs - length (w_cls w)) 8) as [Lt|Ge].
  { left. rewrite Er, skipn_length. lia. }
  right. intros c l Hc (rest & Es). destruct (calm (dial_words db) (c, l)) eqn:C; [reflexivity|]. exfalso.
  assert (Iwild : In (masked (mk_word (exactly (dec c)) false [])) wild).
  { rewrite Ew. unfold wild_words. apply (in_map (fun q => masked (mk_word (exactly (dec (fst q))) false [])) _ (c, l)). apply filter_In.
    split; [now apply nget_in|]. now rewrite C. }
  assert (D' : digits d' = true).
  { rewrite <- (firstn_skipn (length (w_cls w)) d), digits_app, <- Er in Dd. now apply andb_true_iff in Dd. }
  assert (W1 : wgo (mk_word (skipn (length (w_cls w)) cs) true []) (d', []) = [([], [])]).
  { unfold wgo. cbn [w_cls fst snd w_end w_grps map app]. rewrite Er, eats_rest; [reflexivity|exact Hd|lia]. }
  pose proof (wgo_exactly (dec c) rest) as W2. rewrite <- Es in W2.
  exact (none_both_use _ _ _ d' _ _ H Iwild D' W1 W2).
Qed.

Lemma remains_settles : forall db c l m e e' ca, tame db -> db_settles db = true -> by_code db c = Some l -> In m l ->
  digits e = true -> remains m e e' ca ->
  e' = e \/ length e' < length e \/ longer db c l e e'.
Proof.
  intros db c l m e e' ca T S Hc Im De (e1 & e2 & c1 & F & S2 & C).
  destruct C as [(_ & -> & _)|(_ & -> & _)]; [|now left].
  assert (Hm : forall m', In m' l -> db_has db m') by (intros m' I; right; eauto).
  destruct (entry_tame_use m (t_entries _ T m (Hm m Im))) as (_ & Tp & _).
  (* what the second step does when the first has not lengthened the digits *)
  assert (Sec : (e1 = e \/ length e1 < length e) -> e2 = e \/ length e2 < length e).
  { intros K. destruct S2 as [(np & N1 & N2)|[-> _]]; [|exact K].
    assert (L : length e1 = length np + length e2) by (rewrite N2; apply app_length).
    destruct np as [|z np]; [cbn [app] in N2; subst e2; exact K|]. cbn [length] in L.
    destruct K as [->|K]; right; lia. }
  assert (Easy : (e1 = e \/ length e1 < length e) -> e2 = e \/ length e2 < length e \/ longer db c l e e2).
  { intros K. destruct (Sec K); auto. }
  assert (Calm : forall p a k x rest gs, md_national_prefix_for_parsing m = Some p -> md_national_prefix_transform_rule m = Some (rule_text a k) ->
    found p e x rest gs -> last_group p x gs <> None -> 1 <= k <= 9 ->
    (a ++ text_or_none (group x gs k) ++ rest = e \/ length (a ++ text_or_none (group x gs k) ++ rest) < length e)
    \/ exists w, a <> [] /\ e = x /\ a ++ text_or_none (group x gs k) ++ rest = a ++ x /\ eats (w_cls w) x = Some []
         /\ (forall long, entry_check long m = true -> long a w = true)).
  { intros p a k x rest gs A1 A3 A2 A4 A5.
    assert (Ec : forall long, entry_check long m = true -> forallb (word_check (long a) a k (re_ngroups p)) (pattern_words (Some p)) = true).
    { intros long H. unfold entry_check in H. now rewrite A1, A3, rule_parts_of in H by lia. }
    destruct (good_words p (Tp p A1)) as (W & EW). unfold pattern_words in Ec. rewrite EW in Ec.
    destruct (found_word p W e x rest gs EW A2) as (w & Iw & Hw).
    assert (Ew : forall long, entry_check long m = true -> word_check (long a) a k (re_ngroups p) w = true).
    { intros long H. apply Ec in H. rewrite forallb_forall in H. auto. }
    assert (Some_check : exists long, entry_check long m = true).
    { unfold db_settles in S. cbv zeta in S. match type of S with (if ?b then _ else _) = _ => destruct b; [|discriminate] end.
      rewrite forallb_forall in S. pose proof Hc as Ic. apply nget_in in Ic. apply S in Ic. unfold code_settles in Ic. cbn [fst snd] in Ic.
      rewrite forallb_forall in Ic. eauto. }
    destruct (word_parts w e rest gs Hw) as (Eg & Ee & Er & Ll & Hend).
    assert (Ex : x = firstn (length (w_cls w)) e).
    { destruct A2 as (E & _). assert (length x = length (w_cls w)).
      { apply (f_equal (@length _)) in E, Er. rewrite app_length in E. rewrite skipn_length in Er. clear - E Er Ll. lia. }
      rewrite E, <- H, firstn_app, Nat.sub_diag, firstn_all, firstn_O. now rewrite app_nil_r. }
    assert (Le : length e = length (w_cls w) + length rest) by (apply (f_equal (@length _)) in Er; rewrite skipn_length in Er; clear - Er Ll; lia).
    unfold word_check in Ew.
    assert (Tk : takes (re_ngroups p) w = true) by (apply (takes_group (re_ngroups p) w e x); rewrite <- Eg; exact A4).
    rewrite Tk in Ew.
    assert (Gk : group x gs k = option_map (fun s => firstn (snd s) (skipn (fst s) e)) (span_of k (w_grps w))).
    { rewrite Eg. apply group_span. lia. }
    rewrite Gk in *. destruct Some_check as (l0 & C0). destruct (span_of k (w_grps w)) as [[o z]|]; cbn [option_map fst snd text_or_none] in *.
    + assert (Lz : length (firstn z (skipn o e)) <= z) by (rewrite firstn_length; clear; lia).
      destruct (Nat.ltb_spec (length a + z) (length (w_cls w))) as [Lt|Ge].
      { left. right. rewrite !app_length. clear - Lt Lz Le. lia. }
      destruct (Nat.eqb_spec o 0) as [Eo|]; [|specialize (Ew l0 C0); discriminate].
      destruct (Nat.eqb_spec z (length (w_cls w))) as [Ez|]; [|specialize (Ew l0 C0); discriminate]. rewrite Eo, Ez in *. clear o z Eo Ez.
      cbn [andb] in Ew. cbn [skipn] in *. rewrite <- Ex in *.
      destruct a as [|a0 a]; [left; left; cbn [app]; destruct A2 as (E & _); now rewrite E|].
      destruct (w_end w) eqn:Ee'; [|specialize (Ew l0 C0); discriminate]. rewrite (Hend eq_refl) in *. rewrite app_nil_r in *.
      right. exists w. assert (Eex : e = x) by (destruct A2 as (E & _); now rewrite app_nil_r in E).
      split; [discriminate|]. split; [exact Eex|]. split; [reflexivity|]. split; [now rewrite <- Eex|exact Ew].
    + rewrite Nat.add_0_r in Ew. destruct (Nat.ltb_spec (length a) (length (w_cls w))) as [Lt|Ge]; [|specialize (Ew l0 C0); discriminate].
      left. right. rewrite app_length. cbn [app]. clear - Lt Le. lia. }
  destruct F as [A1 A2|np r A1 A2 A3|p A1 A2|p x rest gs A1 A2 A3|p x rest gs a k A1 A2 A3 A4 A5 A6 A7|p x rest gs a k g A1 A2 A3 A4 A5 A6 A7];
    try (apply Easy; now left).
  - apply Easy. rewrite A3, app_length. destruct np; [now left|right; cbn [length]; lia].
  - apply Easy. destruct A2 as (E & _). rewrite E, app_length. destruct x; [now left|right; cbn [length]; lia].
  - destruct (Calm p a k x rest gs A1 A3 A2 A4 A5) as [K|(w & Na & Eex & Ea & Hx & Hl)]; [now apply Easy|].
    rewrite Ea in *. clear Calm Easy Sec.
    unfold db_settles in S. cbv zeta in S. match type of S with (if ?b then _ else _) = _ => destruct b; [|discriminate] end.
    rewrite forallb_forall in S. pose proof Hc as Ic. apply nget_in in Ic. apply S in Ic. unfold code_settles in Ic. cbn [fst snd] in Ic.
    rewrite forallb_forall in Ic. specialize (Ic m Im). apply Hl in Ic. clear S. unfold long_ok in Ic.
    destruct (Nat.leb_spec (length a) 4) as [La|]; [|discriminate].
    destruct (Nat.leb_spec 8 (length (dec c) + length (w_cls w))) as [L8|]; [|discriminate].
    set (others := flat_map prefix_words l) in *. destruct (none_both _ others) eqn:N1; [|discriminate].
    assert (Da : digits a = true).
    { assert (R : rules_shaped db) by exact (t_rules _ T). destruct (R m _ (Hm m Im) A3) as (a' & k' & E' & D' & _).
      apply rule_text_inj in E' as [-> _]. now apply all_digits_iff. }
    assert (Dx : digits (a ++ x) = true) by (rewrite digits_app, Da, <- Eex; exact De).
    assert (Q : forall m', In m' l -> quiet m' (a ++ x)).
    { intros m' I'. destruct (entry_tame_use m' (t_entries _ T m' (Hm m' I'))) as (_ & Tp' & _).
      pose proof (wgo_grown a (w_cls w) x Hx) as Wg.
      assert (In' : forall w', In (masked w') (prefix_words m') -> In (masked w') others) by (intros w' J; apply in_flat_map; eauto).
      split.
      - intros p' Hp' Mp. destruct (good_words p' (Tp' p' Hp')) as (W' & EW').
        destruct (prefix_word p' W' _ EW' Mp) as (w' & v' & Iw' & Hw').
        refine (none_both_use _ others w' (a ++ x) _ v' N1 _ Dx Wg Hw'). apply In'. unfold prefix_words. apply in_map, in_app_iff. left.
        unfold pattern_words. now rewrite Hp', EW'.
      - intros np Hnp (r & Er'). pose proof (wgo_exactly np r) as Wn. rewrite <- Er' in Wn.
        refine (none_both_use _ others _ (a ++ x) _ _ N1 _ Dx Wg Wn). apply In'. unfold prefix_words. apply in_map, in_app_iff. right.
        rewrite Hnp. now left. }
    assert (E2 : e2 = a ++ x).
    { destruct S2 as [(np & N2 & N3)|[-> _]]; [|reflexivity]. exfalso. destruct (Q m Im) as [_ Q2]. apply (Q2 np N2). now exists e2. }
    right. right. rewrite E2. split; [exact Q|]. pose proof (eats_length _ _ Hx) as Lx.
    split; [|split; [rewrite app_length, Eex; lia|split; [rewrite app_length, Eex; lia|]]].
    + refine (dial_ok_use db _ _ _ T eq_refl Ic _ _).
      * rewrite digits_app, digits_dec. exact Dx.
      * rewrite app_assoc, eats_app, eats_exactly. exact Hx.
    + destruct (calm (dial_words db) (c, l)) eqn:Cm; [|reflexivity]. exfalso. unfold calm in Cm. cbn [fst snd] in Cm.
      destruct (none_both (masked (mk_word (exactly (dec c)) false [])) (dial_words db)); [|discriminate].
      rewrite forallb_forall in Cm. specialize (Cm m Im). apply Hl in Cm. discriminate.
Qed.

(** ** One rewriting *)
Lemma show_packed : forall e, digits e = true -> 2 <= length e <= 17 -> (1 <= value_of e < 2 ^ 56)%N -> nn_show (packed e) = e.
Proof.
  intros e D L V. destruct (finish_digits SrcPlus e 1 D L) as (n & F & Sh & _); [vm_compute; discriminate|exact V|].
  assert (P : parse_u16 (dec 1) = Some 1%N) by (vm_compute; reflexivity).
  pose proof (judged_finish 1 SrcPlus None e None (dec 1) D P) as J. rewrite F in J.
  pose proof (judged_once _ _ _ _ _ _ _ J (J_ok 1 SrcPlus None e None L V)) as E. injection E as ->. exact Sh.
Qed.
Lemma plus_read : forall d, digits d = true -> d <> [] -> reads (ch_plus :: d) (Some (None, ch_plus :: d, None)).
Proof. intros d D N. apply read_as. unfold reading_of. now rewrite p_phone_plus_digits. Qed.
Lemma plus_digits_of : forall d, digits d = true -> digits_of (ch_plus :: d) (ch_plus :: d) = d.
Proof.
  intros d D. unfold digits_of. cbn [flat_map].
  generalize (lettered (ch_plus :: d)) as b. intros b. replace (pressed b ch_plus) with (@nil char) by (destruct b; vm_compute; reflexivity).
  cbn [app]. induction d as [|c d IH]; [reflexivity|].
  cbn [digits forallb] in D. apply andb_true_iff in D as [D1 D2]. cbn [flat_map]. rewrite pressed_digit by exact D1. cbn [app]. f_equal. now apply IH.
Qed.
Lemma plus_number : forall db country d r, tame db -> digits d = true -> 3 <= length d -> parse_with db country (ch_plus :: d) <> Panic ->
  (parse_with db country (ch_plus :: d) = r <-> number db country true None d r).
Proof.
  intros db country d r T D L HP. rewrite <- (C57_exact_any db country _ r T HP).
  assert (R : reads (ch_plus :: d) (Some (None, ch_plus :: d, None))) by (apply plus_read; [exact D|intros ->; cbn in L; lia]).
  assert (V : viable_grammar (ch_plus :: d)).
  { apply C14_viable_iff_grammar. rewrite viable_plus_digits by exact D. now apply Nat.leb_le. }
  split.
  - intros G. inversion G as [R'|k n x R' V'|n x r' R' V' N|k n x r' R' V' N]; subst;
      pose proof (reads_complete _ _ R) as E; pose proof (reads_complete _ _ R') as E'; rewrite <- E in E'; try discriminate E'.
    + injection E' as _ -> _. contradiction.
    + injection E' as -> ->. rewrite plus_digits_of in N by exact D. exact N.
  - intros N. apply (P_number db country _ (ch_plus :: d) None); [exact R|exact V|]. rewrite plus_digits_of by exact D. exact N.
Qed.

Lemma dialled_shorter : forall db country d d', tame db -> db_settles db = true -> dialled db country d d' -> length d' < length d.
Proof.
  intros db country d d' T S H. destruct (dialled_word db country d d' T H) as (w & gs & Iw & Hw).
  unfold db_settles in S. cbv zeta in S. match type of S with (if ?b then _ else _) = _ => destruct b eqn:B; [|discriminate] end.
  rewrite forallb_forall in B. specialize (B _ Iw). change (snd (masked w)) with w in B.
  destruct (word_parts w d d' gs Hw) as (_ & _ & Er & Ll & _). destruct (w_cls w) as [|z zs]; [discriminate|].
  rewrite Er, skipn_length. cbn [length] in *. lia.
Qed.

Lemma remains_digits : forall db m e e' ca, tame db -> db_has db m -> digits e = true -> remains m e e' ca -> digits e' = true.
Proof.
  intros db m e e' ca T Hm De (e1 & e2 & c1 & F & S2 & C).
  assert (D1 : digits e1 = true).
  { assert (Suf : forall x r, e = x ++ r -> digits r = true) by (intros x r E; rewrite E, digits_app in De; now apply andb_true_iff in De).
    destruct F as [A1 A2|np r A1 A2 A3|p A1 A2|p x rest gs A1 A2 A3|p x rest gs a k A1 A2 A3 A4 A5 A6 A7|p x rest gs a k g A1 A2 A3 A4 A5 A6 A7];
      try exact De; [eapply Suf; exact A3|destruct A2 as (E & _); eapply Suf; exact E|].
    destruct (entry_tame_use m (t_entries _ T m Hm)) as (_ & Tp & _). destruct (good_words p (Tp p A1)) as (W & EW).
    destruct (found_word p W e x rest gs EW A2) as (w & Iw & Hw). destruct (word_parts w e rest gs Hw) as (Eg & _).
    assert (Da : digits a = true).
    { assert (R : rules_shaped db) by exact (t_rules _ T). destruct (R m _ Hm A3) as (a' & k' & E' & D' & _).
      apply rule_text_inj in E' as [-> _]. now apply all_digits_iff. }
    assert (Dr : digits rest = true) by (destruct A2 as (E & _); eapply Suf; exact E).
    rewrite !digits_app, Da, Dr, andb_true_r. rewrite Eg, group_span by lia. destruct (span_of k (w_grps w)) as [[o z]|]; [|reflexivity].
    cbn [option_map text_or_none fst snd]. rewrite <- (firstn_skipn o e), digits_app in De. apply andb_true_iff in De as [_ De].
    rewrite <- (firstn_skipn z (skipn o e)), digits_app in De. now apply andb_true_iff in De. }
  assert (D2 : digits e2 = true).
  { destruct S2 as [(np & _ & E)|[-> _]]; [|exact D1]. rewrite E, digits_app in D1. now apply andb_true_iff in D1. }
  destruct C as [(_ & -> & _)|(_ & -> & _)]; assumption.
Qed.
(** what the rules see: the digits as they stand, or after a dialling prefix *)
Definition undial (db : database) (country : option id) (d d0 : str) : Prop :=
  (d0 = d /\ forall d', ~ dialled db country d d') \/ dialled db country d d0.
Definition fit (e : str) : Prop := digits e = true /\ 2 <= length e <= 17 /\ (1 <= value_of e < 2 ^ 56)%N.
Lemma one_step : forall db country d p, tame db -> db_settles db = true -> digits d = true -> number db country true None d (Ok p) ->
  exists d0 c l e0 e ca, p = mk_phone (mk_code c SrcPlus) (packed e) None ca /\ by_code db c = Some l /\ fit e
    /\ undial db country d d0 /\ d0 = dec c ++ e0
    /\ (e = e0 \/ length e < length e0 \/ longer db c l e0 e)
    /\ ((forall m, In m l -> quiet m e0) -> e = e0).
Proof.
  intros db country d p T S Dd H.
  assert (I : exists d0, undial db country d d0 /\ digits d0 = true /\ international db SrcPlus None d0 (Ok p)).
  { inversion H as [d1 r A I|r N Sg I|N Sg Cn|i m e r N Sg Cn M E Z W|i m r N Sg Cn M Z W]; try discriminate.
    - exists d1. split; [now right|]. split; [exact (dialled_digits _ _ _ _ Dd A)|exact I].
    - exists d. split; [now left|auto]. }
  destruct I as (d0 & U & D0 & I). inversion I as [|L N|c e0 r L K E A]; subst r. 
  destruct (by_code db c) as [l|] eqn:Ec; [|now elim K]. clear K.
  assert (De : digits e0 = true) by (rewrite E, digits_app in D0; now apply andb_true_iff in D0).
  destruct A as (o & Uo & W).
  assert (G : exists e ca, judged c SrcPlus None e ca (Ok p) /\ digits e = true /\ (e = e0 \/ length e < length e0 \/ longer db c l e0 e)
    /\ ((forall m, In m l -> quiet m e0) -> e = e0)).
  { inversion W as [o' L'|m e ca r L' R J|r L' J]; subst.
    - assert (Im : In m l).
      { destruct (proj1 (Uo L' m) eq_refl) as [Q|(b & a & Q & _)]; rewrite Ec in Q; injection Q as ->; [now left|apply in_app_iff; right; now left]. }
      exists e, ca. split; [exact J|]. split; [|split].
      + apply (remains_digits db m e0 e ca T); auto. right. eauto.
      + exact (remains_settles db c l m e0 e ca T S Ec Im De R).
      + intros Q. specialize (Q m Im). destruct Q as [Q1 Q2]. destruct R as (e1 & e2 & c1 & F & S2 & C).
        assert (E1 : e1 = e0).
        { destruct F as [A1 A2|np r A1 A2 A3|p' A1 A2|p' x rest gs A1 A2 A3|p' x rest gs a k A1 A2 A3 A4 A5 A6 A7|p' x rest gs a k g A1 A2 A3 A4 A5 A6 A7];
            try reflexivity; exfalso.
          - apply (Q2 np A2). now exists r.
          - apply (Q1 p' A1). eapply found_prefix; exact A2.
          - apply (Q1 p' A1). eapply found_prefix; exact A2. }
        subst e1. assert (E2 : e2 = e0). { destruct S2 as [(np & N1 & N2)|[-> _]]; [|reflexivity]. exfalso. apply (Q2 np N1). now exists e2. }
        subst e2. destruct C as [(_ & -> & _)|(_ & -> & _)]; reflexivity.
    - exists e0, None. split; [exact J|]. split; [exact De|]. split; [now left|reflexivity]. }
  destruct G as (e & ca & J & D & G1 & G2). inversion J as [| | | |L2 V2 E2]; subst.
  exists (dec c ++ e0), c, l, e0, e, ca. split; [reflexivity|]. split; [exact Ec|]. split; [unfold fit; auto|]. auto.
Qed.

(** ** At most so many changes *)
Definition grown (db : database) (d : str) : Prop :=
  after_dial db d /\ forall c l e, by_code db c = Some l -> d = dec c ++ e -> forall m, In m l -> quiet m e.
Definition rank (db : database) (n : nat) (d : str) : Prop :=
  (spent db d /\ length d <= n) \/ (grown db d /\ length d <= n) \/ length d + 5 <= n.
Lemma undial_length : forall db country d d0, tame db -> db_settles db = true -> undial db country d d0 -> length d0 <= length d.
Proof. intros db country d d0 T S [[-> _]|U]; [lia|]. apply dialled_shorter in U; auto. lia. Qed.

Lemma spent_dial : forall db country d d0 c e, tame db -> db_settles db = true -> digits d = true -> spent db d -> undial db country d d0 ->
  by_code db c <> None -> d = dec c ++ e -> spent db d0.
Proof.
  intros db country d d0 c e T S Dd Sp U K E. destruct U as [[-> _]|U]; [exact Sp|].
  destruct Sp as [Sp|Sp]; [left; apply dialled_shorter in U; auto; lia|]. exfalso.
  destruct (by_code db c) as [l|] eqn:Ec; [|now elim K]. pose proof (Sp c l Ec (ex_intro _ e E)) as C.
  destruct (dialled_word db country d d0 T U) as (w & gs & Iw & Hw).
  unfold calm in C. cbn [fst snd] in C. destruct (none_both _ _) eqn:N; [|discriminate].
  pose proof (wgo_exactly (dec c) e) as W. rewrite <- E in W. exact (none_both_use _ _ w d _ _ N Iw Dd W Hw).
Qed.
Lemma spent_rules : forall db c l e0 e, tame db -> spent db (dec c ++ e0) -> by_code db c = Some l ->
  (e = e0 \/ length e < length e0 \/ longer db c l e0 e) ->
  spent db (dec c ++ e) /\ (e = e0 \/ length e < length e0).
Proof.
  intros db c l e0 e T Sp Hc St.
  assert (N : ~ longer db c l e0 e).
  { intros (_ & _ & _ & L8 & C). destruct Sp as [Sp|Sp]; [lia|]. rewrite (Sp c l Hc) in C by now exists e0. discriminate. }
  assert (G : e = e0 \/ length e < length e0) by (destruct St as [St|[St|St]]; auto; contradiction).
  split; [|exact G]. destruct Sp as [Sp|Sp].
  - left. rewrite app_length in *. destruct G as [->|G]; lia.
  - right. intros c2 l2 Hc2 (rest & E2). destruct (codes_same db c c2 e rest T) as [-> _]; [congruence|congruence|exact E2|].
    apply (Sp c l2 Hc2). now exists e0.
Qed.

Lemma rank_step : forall db country n d p, tame db -> db_settles db = true -> digits d = true ->
  (exists c e, by_code db c <> None /\ d = dec c ++ e) -> rank db n d -> number db country true None d (Ok p) ->
  exists c e ca, p = mk_phone (mk_code c SrcPlus) (packed e) None ca /\ by_code db c <> None /\ fit e
    /\ (dec c ++ e = d \/ exists n', n = S n' /\ rank db n' (dec c ++ e)).
Proof.
  intros db country n d p T S Dd K R H. destruct (one_step db country d p T S Dd H) as (d0 & c & l & e0 & e & ca & -> & Hc & Fe & U & E0 & St & Q).
  exists c, e, ca. split; [reflexivity|]. split; [congruence|]. split; [exact Fe|].
  pose proof (undial_length db country d d0 T S U) as L0.
  assert (Ln : length d0 = length (dec c) + length e0) by (rewrite E0; apply app_length).
  destruct R as [[R L]|[[[R1 R2] L]|L]].
  - destruct K as (c1 & e1 & K1 & E1). pose proof (spent_dial db country d d0 c1 e1 T S Dd R U K1 E1) as Sp. rewrite E0 in Sp.
    destruct (spent_rules db c l e0 e T Sp Hc St) as [Sp' G].
    assert (G' : dec c ++ e = d \/ length (dec c ++ e) < length d).
    { destruct G as [->|G]; [|right; rewrite app_length; lia]. rewrite <- E0. destruct U as [[-> _]|U]; [now left|right]. now apply (dialled_shorter db country). }
    destruct G' as [G'|G']; [now left|right].
    destruct n as [|n]; [lia|]. exists n. split; [reflexivity|]. left. split; [exact Sp'|lia].
  - destruct U as [[U _]|U].
    + left. rewrite Q; [now rewrite <- E0|]. apply (R2 c l e0 Hc). now rewrite <- U.
    + right. pose proof (dialled_shorter db country d d0 T S U) as Lt. pose proof (R1 country d0 U) as Sp. rewrite E0 in Sp.
      destruct (spent_rules db c l e0 e T Sp Hc St) as [Sp' G].
      destruct n as [|n]; [lia|]. exists n. split; [reflexivity|]. left. split; [exact Sp'|]. rewrite app_length. destruct G as [->|G]; lia.
  - destruct St as [->|[St|St]].
    + destruct U as [[-> _]|U]; [left; now symmetry|]. apply dialled_shorter in U; auto. right. rewrite <- E0.
      destruct n as [|n]; [lia|]. exists n. split; [reflexivity|]. right. right. lia.
    + right. destruct n as [|n]; [lia|]. exists n. split; [reflexivity|]. right. right. rewrite app_length. lia.
    + right. destruct n as [|n]; [lia|]. exists n. split; [reflexivity|]. right. left. destruct St as (Q1 & Q2 & Q3 & Q4 & Q5).
      split; [|rewrite app_length; lia]. split; [exact Q2|]. intros c2 l2 e2 Hc2 E2.
      destruct (codes_same db c c2 e e2 T) as [-> ->]; [congruence|congruence|exact E2|].
      rewrite Hc in Hc2. injection Hc2 as <-. exact Q1.
Qed.

(** ** C58 *)
Lemma default_settles : db_settles default_db = true.
Proof. vm_cast_no_check (eq_refl true). Qed.
Lemma parse_not_panic : forall country s, parse_with default_db country s <> Panic.
Proof. intros country s. destruct (C01_parse_returns country s) as [(p & E)|(p & E)]; unfold parse in E; rewrite E; discriminate. Qed.
Lemma fit_text : forall c s e x ca, by_code default_db c <> None -> fit e ->
  phone_to_string (mk_phone (mk_code c s) (packed e) x ca) = Ok (lit "+" ++ dec c ++ e).
Proof.
  intros c s e x ca K (D & L & V). rewrite known_render by exact K. cbn [ph_code code_value ph_national]. now rewrite show_packed.
Qed.
Lemma plus_length : forall c e, (1 <= c <= 999)%N -> fit e -> 3 <= length (dec c ++ e) <= 20 /\ digits (dec c ++ e) = true.
Proof.
  intros c e Hc (D & L & V). rewrite app_length, digits_app, digits_dec, D. split; [|reflexivity].
  destruct (dec_head c ltac:(lia)) as (z & t & E & _). assert (length (dec c) <= 3); [|rewrite E in *; cbn [length] in *; lia].
  apply dec_length_pow; [change (10 ^ N.of_nat 3)%N with 1000%N; lia|lia].
Qed.
(** every E.164 text of a number that has been read *)
Lemma written : forall country s t, rewritten country s t ->
  exists c e, by_code default_db c <> None /\ fit e /\ t = ch_plus :: dec c ++ e.
Proof.
  intros country s t (p & Hp & Ht). destruct (parsed_code _ _ _ _ default_db_ok Hp) as (m & l & Hc).
  assert (K : known p) by (unfold known; rewrite Hc; discriminate).
  destruct (C04_default country s p Hp) as (e & E & D & L & V & _ & B). rewrite (known_render p K) in Ht. injection Ht as <-.
  exists (code_value (ph_code p)), e. split; [exact K|]. split; [|rewrite E; reflexivity].
  split; [apply all_digits_iff; exact D|]. split; [exact L|]. unfold value_of. now rewrite <- V.
Qed.
Lemma known_range : forall c, by_code default_db c <> None -> (1 <= c <= 999)%N.
Proof. exact code_range. Qed.
Lemma rewritten_number : forall country c e t, by_code default_db c <> None -> fit e -> rewritten country (ch_plus :: dec c ++ e) t ->
  exists p, number default_db country true None (dec c ++ e) (Ok p) /\ phone_to_string p = Ok t.
Proof.
  intros country c e t K Fe (p & Hp & Ht). exists p. split; [|exact Ht]. destruct (plus_length c e (known_range c K) Fe) as [L D].
  apply (plus_number default_db country (dec c ++ e) (Ok p) default_tame D); [lia|apply parse_not_panic|exact Hp].
Qed.
Lemma changes_rank : forall n c e k, by_code default_db c <> None -> fit e -> rank default_db n (dec c ++ e) ->
  changes k (ch_plus :: dec c ++ e) -> k + 3 <= n.
Proof.
  intros n c e k K Fe R H. remember (ch_plus :: dec c ++ e) as s eqn:Es. revert n c e K Fe R Es.
  induction H as [s|k country s t W Ne H IH]; intros n c e K Fe R Es; destruct (plus_length c e (known_range c K) Fe) as [L D].
  - destruct R as [[_ R]|[[_ R]|R]]; lia.
  - subst s. destruct (rewritten_number country c e t K Fe W) as (p & Hn & Ht).
    destruct (rank_step default_db country n (dec c ++ e) p default_tame default_settles D) as (c' & e' & ca & -> & K' & Fe' & G); [exists c, e; auto|exact R|exact Hn|].
    rewrite (fit_text c' SrcPlus e' None ca K' Fe') in Ht. injection Ht as <-.
    destruct G as [G|(n' & -> & G)]; [elim Ne; cbn [lit]; now rewrite G|].
    specialize (IH n' c' e' K' Fe' G eq_refl). lia.
Qed.

(** However often a text is read and written in E.164 form, each time with any
    country of reference, it changes at most 23 times. *)
Theorem C58_changes : forall n s, changes n s -> n <= 23.
Proof.
  intros n s H. destruct H as [s|n country s t W Ne H]; [lia|]. destruct (written country s t W) as (c & e & K & Fe & ->).
  destruct (plus_length c e (known_range c K) Fe) as [L _].
  assert (R : rank default_db 25 (dec c ++ e)) by (right; right; lia). pose proof (changes_rank 25 c e n K Fe R H). lia.
Qed.
Print Assumptions C58_changes.

Lemma rewritten_once : forall country s t u, rewritten country s t -> rewritten country s u -> u = t.
Proof. intros country s t u (p & Hp & Ht) (q & Hq & Hu). congruence. Qed.
Lemma str_dec : forall a b : str, {a = b} + {a <> b}.
Proof. apply list_eq_dec. exact N.eq_dec. Qed.
(** With the same country every time it settles. *)
Theorem C58_settles : forall country s, settles country 23 s.
Proof.
  intros country s.
  assert (G : forall k s, (forall n, changes n s -> n <= k) -> settles country k s).
  { induction k as [|k IH]; intros s0 B;
      (destruct (C01_parse_returns country s0) as [(p & Hp)|(er & Hp)]; [|now apply (St_error country _ s0 er)]);
      destruct (proj1 (C03_default country s0 p Hp)) as (t & Ht);
      (assert (W : rewritten country s0 t) by (exists p; auto));
      (destruct (str_dec t s0) as [E|Ne]; [apply St_same; now rewrite E in W|]).
    - exfalso. specialize (B 1). assert (1 <= 0); [|lia]. apply B. apply (Ch_more 0 country s0 t W Ne). constructor.
    - apply (St_more country k s0 t W). apply IH. intros n H. assert (S n <= S k); [|lia]. apply B. now apply (Ch_more n country s0 t). }
  apply G. intros n. apply C58_changes.
Qed.
Print Assumptions C58_settles.

(** ** A text that does not get shorter is final, as long as no dialling prefix is looked for *)
Lemma none_undialled : forall c e d', by_code default_db c <> None -> ~ dialled default_db None (dec c ++ e) d'.
Proof.
  intros c e d' K (r & x & gs & R & F & _). cbn in R. subst r. pose proof (known_range c K) as B. destruct (dec_head c ltac:(lia)) as (z & t & E & Hz).
  apply found_prefix in F as (u & v & Eu & L). rewrite E in Eu. cbn [app] in Eu.
  assert (Q : first_in ascii_digits (lit "0") (re_ast DEFAULT_IDD) = true) by (vm_compute; reflexivity).
  destruct u as [|y u].
  - exact (never_empty_sound (re_ast DEFAULT_IDD) v ltac:(vm_compute; reflexivity) L).
  - cbn [app] in Eu. injection Eu as <- _. assert (I : In z ascii_digits).
    { apply digit_in. pose proof (digits_dec c) as D. rewrite E in D. cbn [digits forallb] in D. now apply andb_true_iff in D. }
    pose proof (first_in_sound _ _ _ _ _ _ Q I L) as J. destruct J as [J|[]]. now apply Hz.
Qed.
Lemma quiet_final : forall c l e, by_code default_db c = Some l -> fit e -> (forall m, In m l -> quiet m e) ->
  rewritten None (ch_plus :: dec c ++ e) (ch_plus :: dec c ++ e).
Proof.
  intros c l e Hc Fe Q. assert (K : by_code default_db c <> None) by congruence.
  destruct (plus_length c e (known_range c K) Fe) as [L D]. pose proof (parse_not_panic None (ch_plus :: dec c ++ e)) as NP.
  pose proof (proj1 (plus_number default_db None (dec c ++ e) _ default_tame D ltac:(lia) NP) eq_refl) as H.
  fold (parse None (ch_plus :: dec c ++ e)) in H. set (r := parse None (ch_plus :: dec c ++ e)) in *.
  assert (I : international default_db SrcPlus None (dec c ++ e) r).
  { inversion H as [d1 r' A I|r' N Sg I|N Sg Cn|i m e' r' N Sg Cn M E Z W|i m r' N Sg Cn M Z W]; try discriminate; [|exact I].
    exfalso. exact (none_undialled c e d1 K A). }
  inversion I as [L'|L' N|c' e' r' L' K' E A]; [exfalso; lia|exfalso; apply (N c K); now exists e|]. subst r'.
  destruct (codes_same default_db c c' e e' default_tame K K' E) as [-> ->]. destruct A as (o & Uo & W).
  assert (J : exists ca, judged c SrcPlus None e ca r).
  { inversion W as [o' L2|m e2 ca r2 L2 R J|r2 L2 J]; subst; [exfalso; destruct Fe as (_ & Fe & _); lia| |eauto].
    assert (Im : In m l).
    { destruct (proj1 (Uo L2 m) eq_refl) as [P|(b & a & P & _)]; rewrite Hc in P; injection P as ->; [now left|apply in_app_iff; right; now left]. }
    exists ca. replace e with e2; [exact J|]. destruct (Q m Im) as [Q1 Q2]. destruct R as (e1 & e3 & c1 & F & S2 & C).
    assert (E1 : e1 = e).
    { destruct F as [A1 A2|np r0 A1 A2 A3|p' A1 A2|p' x rest gs A1 A2 A3|p' x rest gs a k A1 A2 A3 A4 A5 A6 A7|p' x rest gs a k g A1 A2 A3 A4 A5 A6 A7];
        try reflexivity; exfalso.
      - apply (Q2 np A2). now exists r0.
      - apply (Q1 p' A1). eapply found_prefix; exact A2.
      - apply (Q1 p' A1). eapply found_prefix; exact A2. }
    subst e1. assert (E2 : e3 = e). { destruct S2 as [(np & N1 & N2)|[-> _]]; [|reflexivity]. exfalso. apply (Q2 np N1). now exists e3. }
    subst e3. destruct C as [(_ & -> & _)|(_ & -> & _)]; reflexivity. }
  destruct J as (ca & J). destruct Fe as (F1 & F2 & F3). pose proof (judged_once _ _ _ _ _ _ _ J (J_ok c SrcPlus None e ca F2 F3)) as E'.
  exists (mk_phone (mk_code c SrcPlus) (packed e) None ca). split; [exact E'|]. apply (fit_text c SrcPlus e None ca K). unfold fit. auto.
Qed.
(** If rewriting the E.164 text of a number does not shorten it, the result stays. *)
Theorem C58_final : forall c0 country s t u, rewritten c0 s t -> rewritten country t u -> length t <= length u -> rewritten None u u.
Proof.
  intros c0 country s t u W0 W L. destruct (written c0 s t W0) as (c & e & K & Fe & ->).
  destruct (plus_length c e (known_range c K) Fe) as [_ D].
  destruct (rewritten_number country c e u K Fe W) as (p & Hn & Ht).
  destruct (one_step default_db country (dec c ++ e) p default_tame default_settles D Hn) as (d0 & c' & l & e0 & e' & ca & Ep & Hc & Fe' & U & E0 & St & Q).
  assert (K' : by_code default_db c' <> None) by congruence.
  rewrite Ep, (fit_text c' SrcPlus e' None ca K' Fe') in Ht. injection Ht as <-. change (lit "+" ++ dec c' ++ e') with (ch_plus :: dec c' ++ e') in *.
  cbn [length] in L. rewrite (app_length (dec c') e') in L.
  pose proof (undial_length default_db country _ d0 default_tame default_settles U) as L0.
  assert (Ln : length d0 = length (dec c') + length e0) by (rewrite E0; apply app_length).
  destruct St as [->|[St|St]]; [|exfalso; lia|].
  2:{ destruct St as (Q1 & _). exact (quiet_final c' l e' Hc Fe' Q1). }
  destruct U as [[U N]|U]; [|apply (dialled_shorter default_db country _ _ default_tame default_settles) in U; exfalso; lia].
  rewrite <- E0, U. exists p. split; [|rewrite Ep, <- U, E0; now apply fit_text].
  apply (plus_number default_db None (dec c ++ e) (Ok p) default_tame D); [|apply parse_not_panic|].
  { destruct (plus_length c e (known_range c K) Fe). lia. }
  inversion Hn as [d1 r A I|r N' Sg I|N' Sg Cn|i m e1 r N' Sg Cn M E Z W1|i m r N' Sg Cn M Z W1]; try discriminate; [exfalso; exact (N d1 A)|].
  apply D_signed; [|reflexivity|exact I]. intros d1. now apply none_undialled.
Qed.
Print Assumptions C58_final.
(** a text that stays as it is stands for one number *)
Theorem C58_one_number : forall country t p q, rewritten country t t -> parse country t = Ok p -> known q -> phone_to_string q = Ok t -> same_number p q.
Proof.
  intros country t p q (p' & Hp' & Ht) Hp Kq Hq. rewrite Hp in Hp'. injection Hp' as <-.
  apply C54_e164; [|exact Kq|congruence]. destruct (parsed_code _ _ _ _ default_db_ok Hp) as (m & l & Hc). unfold known. rewrite Hc. discriminate.
Qed.
Print Assumptions C58_one_number.

(** ** Instances *)
Lemma rewritten_by : forall country s t, match parse country s with Ok p => match phone_to_string p with Ok u => str_eqb u t | _ => false end | _ => false end = true ->
  rewritten country s t.
Proof.
  intros country s t H. destruct (parse country s) as [p| |] eqn:E; try discriminate. exists p. split; [exact E|].
  destruct (phone_to_string p) as [u| |]; try discriminate. apply str_eqb_eq in H. now rewrite H.
Qed.
Ltac by_reading := apply rewritten_by; vm_compute; reflexivity.
(** a local number of San Marino is completed once *)
Example C58_final_ex : rewritten None (lit "+378 812345") (lit "+3780549812345") /\ rewritten None (lit "+3780549812345") (lit "+3780549812345").
Proof. split; by_reading. Qed.
(** the prefix of a Russian number, written several times, goes away bit by bit *)
Example C58_changes_ex : changes 4 (lit "+7 8888888 123456789") /\ rewritten None (lit "+7123456789") (lit "+7123456789").
Proof.
  split; [|by_reading].
  apply (Ch_more 3 None _ (lit "+788888123456789")); [by_reading|discriminate|].
  apply (Ch_more 2 None _ (lit "+7888123456789")); [by_reading|discriminate|].
  apply (Ch_more 1 None _ (lit "+78123456789")); [by_reading|discriminate|].
  apply (Ch_more 0 None _ (lit "+7123456789")); [by_reading|discriminate|]. constructor.
Qed.
(** a local number of American Samoa, completed; then read in Chad, where 16 is a dialling prefix *)
Example C58_countries_ex : changes 2 (lit "+16842123").
Proof.
  apply (Ch_more 1 None _ (lit "+16846842123")); [by_reading|discriminate|].
  apply (Ch_more 0 (Some ID_TD) _ (lit "+846842123")); [by_reading|discriminate|]. constructor.
Qed.
Example C58_one_number_ex : rewritten None (lit "+3225551234") (lit "+3225551234")
  /\ parse None (lit "+3225551234") = Ok (mk_phone (mk_code 32 SrcPlus) (mk_national 25551234) None None).
Proof. split; [by_reading|vm_compute; reflexivity]. Qed.
(** Not every text that is written can be read again: what is left of this
    number after the prefix is zero. *)
Theorem C58_error_refuted : exists s t e, rewritten None s t /\ parse None t = Err e.
Proof. exists (lit "+7 888 0000000000"), (lit "+780000000000"), MalformedInteger. split; [by_reading|vm_compute; reflexivity]. Qed.
Print Assumptions C58_error_refuted.
(** Nor does a text that stays the same without a country of reference stay the same in every country. *)
Theorem C58_every_country_refuted : exists t u, rewritten None t t /\ rewritten (Some ID_TD) t u /\ u <> t.
Proof. exists (lit "+16846842123"), (lit "+846842123"). split; [by_reading|]. split; [by_reading|discriminate]. Qed.
Print Assumptions C58_every_country_refuted.
