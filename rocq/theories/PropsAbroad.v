(** * C71: calls abroad: a number of one country dialled from another *)
From Verif Require Import Base Unicode Regex RegexSyntax Consts CountryId Types NationalNumber
  Metadata Database Validator Valid Number Rfc3966 Helper Natural PhoneNumber Parser Formatter Loader
  DefaultDb DefaultDbOk Api.
From Verif Require Import StrFacts NationalFacts RegexLang RegexFacts RegexCaps RegexDeriv RegexMany RegexExact RegexCover
  DatabaseFacts ParserFacts ParseInv TextFacts ViableFacts PhoneText E164Facts CoreFacts DialFacts FormatFacts FormatDigits
  PropsPanic PropsE164 PropsValid PropsNational PropsDial PropsZeros ClaimFacts PropsClaims PropsGrouped PropsErrors PropsDescribed
  PropsZeroFirst PropsOwnCode PropsIds.

(** ** The property *)
(** [x] is what is dialled in a country to call abroad *)
Definition calls_abroad (m : metadata) (x : str) : Prop :=
  exists r, md_international_prefix m = Some r /\ all_digits x /\ matches_whole (re_ast r) x.
(** the text is read, in country [r], as a valid number dialled from there *)
Definition reached (r : id) (s : str) (c : N) (w : str) : Prop :=
  exists p, parse (Some r) s = Ok p /\ code_value (ph_code p) = c /\ code_source (ph_code p) = SrcIdd
    /\ nn_show (ph_national p) = w /\ ph_extension p = None /\ is_valid p = Ok true.
(** countries where what is dialled may run into the calling code *)
Definition runs_on : list str := [lit "BO"; lit "HK"].
(** calling codes under which numbers are misread even behind a plus sign, C08 *)
Definition codes_misread : list N := [7; 55; 62; 66; 81; 82; 91; 250; 359; 370; 375; 598]%N.

(** ** The finitely many digit strings of a pattern *)
Definition joins (l1 l2 : list str) : list str := flat_map (fun x => map (app x) l2) l1.
Fixpoint copies (n : nat) (l : list str) : list str :=
  match n with 0 => [[]] | S n' => joins l (copies n' l) end.
Fixpoint words (r : re) : option (list str) :=
  match r with
  | REps => Some [[]]
  | RCls c => Some (map (fun x => [x]) (filter (in_cls c) ascii_digits))
  | RCat a b => match words a, words b with Some la, Some lb => Some (joins la lb) | _, _ => None end
  | RAlt a b => match words a, words b with Some la, Some lb => Some (la ++ lb) | _, _ => None end
  | RRep _ mn (Some mx) r => match words r with Some l => Some (flat_map (fun n => copies n l) (seq mn (S (Nat.max mn mx) - mn))) | None => None end
  | RRep _ _ None _ => None
  | RGrp _ r => words r
  | RStart | REnd => None
  end.
Lemma in_joins : forall t l1 l2, In t (joins l1 l2) <-> exists x y, In x l1 /\ In y l2 /\ t = x ++ y.
Proof.
  intros t l1 l2. unfold joins. rewrite in_flat_map. split.
  - intros (x & I & J). apply in_map_iff in J as (y & <- & J). eauto.
  - intros (x & y & I & J & ->). exists x. split; [exact I|]. now apply in_map.
Qed.
Ltac some_eq := match goal with H : Some ?x = Some ?y |- _ => let E := fresh in assert (E : y = x) by congruence; clear H; subst y end.
Lemma words_complete :
  (forall r b t a, lang r b t a -> forall l, words r = Some l -> digits t = true -> In t l) /\
  (forall r n b t a, langs r n b t a -> forall l, words r = Some l -> digits t = true -> In t (copies n l)).
Proof.
  apply lang_langs_ind; intros; cbn [words] in *; try discriminate.
  - some_eq. now left.
  - some_eq. apply (in_map (fun x => [x])), filter_In. split; [|assumption].
    apply digit_in. cbn [digits forallb] in *. now apply andb_true_iff in H0 as [H0 _].
  - destruct (words r1) as [w1|]; [|discriminate]. destruct (words r2) as [w2|]; [|discriminate].
    some_eq.
    match goal with H : digits (_ ++ _) = true |- _ => rewrite digits_app in H; apply andb_true_iff in H as [D1 D2] end.
    apply in_joins. exists t1, t2. auto.
  - destruct (words r1) as [w1|]; [|discriminate]. destruct (words r2) as [w2|]; [|discriminate].
    some_eq. apply in_app_iff. left. auto.
  - destruct (words r1) as [w1|]; [|discriminate]. destruct (words r2) as [w2|]; [|discriminate].
    some_eq. apply in_app_iff. right. auto.
  - destruct mx as [mx|]; [|discriminate]. destruct (words r) as [w1|]; [|discriminate].
    some_eq. apply in_flat_map. exists n. split; [apply in_seq; lia|]. auto.
  - auto.
  - now left.
  - match goal with H : digits (_ ++ _) = true |- _ => rewrite digits_app in H; apply andb_true_iff in H as [D1 D2] end.
    cbn [copies]. apply in_joins. exists t1, t2. auto.
Qed.
Lemma words_sound : forall r l, words r = Some l -> forall t b a, In t l -> lang r b t a.
Proof.
  induction r as [|c|r1 IH1 r2 IH2|r1 IH1 r2 IH2|g mn mx r IH|i r IH| |]; intros l H t b a I; cbn [words] in H; try discriminate.
  - some_eq. destruct I as [<-|[]]. constructor.
  - some_eq. apply in_map_iff in I as (x & <- & I). apply filter_In in I as [_ I]. now constructor.
  - destruct (words r1) as [l1|]; [|discriminate]. destruct (words r2) as [l2|]; [|discriminate]. some_eq.
    apply in_joins in I as (x & y & Ix & Iy & ->). constructor; [now apply (IH1 l1)|now apply (IH2 l2)].
  - destruct (words r1) as [l1|]; [|discriminate]. destruct (words r2) as [l2|]; [|discriminate]. some_eq.
    apply in_app_iff in I as [I|I]; [apply L_alt1; now apply (IH1 l1)|apply L_alt2; now apply (IH2 l2)].
  - destruct mx as [mx|]; [|discriminate]. destruct (words r) as [l1|]; [|discriminate]. some_eq.
    apply in_flat_map in I as (n & Is & I). apply in_seq in Is. apply (L_rep g mn (Some mx) r n); [lia|lia|].
    clear Is. revert t b I. induction n as [|n IHn]; intros t b I; cbn [copies] in I.
    + destruct I as [<-|[]]. constructor.
    + apply in_joins in I as (x & y & Ix & Iy & ->). constructor; [now apply (IH l1)|now apply IHn].
  - constructor. now apply (IH l).
Qed.

(** ** Patterns of which no match is another with more digits behind it *)
(** what a match can begin with; whether it has a digit at all *)
Fixpoint solid (r : re) : bool :=
  match r with
  | RCls _ => true
  | RCat a b => if solid a then true else solid b
  | RAlt a b => if solid a then solid b else false
  | RGrp _ r => solid r
  | _ => false
  end.
Fixpoint can_begin (r : re) (c : char) : bool :=
  match r with
  | RCls k => in_cls k c
  | RCat a b => if can_begin a c then true else if solid a then false else can_begin b c
  | RAlt a b => if can_begin a c then true else can_begin b c
  | RGrp _ r => can_begin r c
  | _ => false
  end.
Fixpoint separate (r : re) : bool :=
  match r with
  | REps | RCls _ => true
  | RCat a b => if separate a then separate b else false
  | RAlt a b => if separate a then if separate b then if solid a then if solid b then
      forallb (fun c => if can_begin a c then negb (can_begin b c) else true) ascii_digits else false else false else false else false
  | RGrp _ r => separate r
  | _ => false
  end.
Lemma solid_sound : forall r b t a, lang r b t a -> solid r = true -> t <> [].
Proof.
  induction r as [|c|r1 IH1 r2 IH2|r1 IH1 r2 IH2|g mn mx r IH|i r IH| |]; intros b t a L H; cbn [solid] in H; try discriminate;
    inversion L; subst.
  - discriminate.
  - destruct (solid r1) eqn:S.
    + match goal with K : lang r1 _ ?t1 _ |- _ => pose proof (IH1 _ _ _ K eq_refl); now destruct t1 end.
    + match goal with K : lang r2 _ ?t2 _ |- ?t1 ++ _ <> _ => pose proof (IH2 _ _ _ K H); destruct t1; [assumption|discriminate] end.
  - destruct (solid r1); [|discriminate]. eapply IH1; eauto.
  - destruct (solid r1); [|discriminate]. eapply IH2; eauto.
  - eapply IH; eauto.
Qed.
Lemma can_begin_sound : forall r b c t a, lang r b (c :: t) a -> separate r = true -> can_begin r c = true.
Proof.
  induction r as [|k|r1 IH1 r2 IH2|r1 IH1 r2 IH2|g mn mx r IH|i r IH| |]; intros b c t a L H; cbn [separate can_begin] in *; try discriminate.
  - inversion L.
  - inversion L; subst. assumption.
  - destruct (separate r1) eqn:S1; [|discriminate]. inversion L as [| |s1 s2 b' t1 t2 a' L1 L2| | | | | |]; subst.
    destruct t1 as [|y t1].
    + cbn [app] in *. subst t2. destruct (can_begin r1 c); [reflexivity|]. destruct (solid r1) eqn:So; [|eapply IH2; eauto].
      now elim (solid_sound _ _ _ _ L1 So).
    + match goal with K : _ = c :: t |- _ => cbn [app] in K; injection K as -> K end. now rewrite (IH1 _ _ _ _ L1 eq_refl).
  - destruct (separate r1) eqn:S1; [|discriminate]. destruct (separate r2) eqn:S2; [|discriminate]. inversion L; subst.
    + match goal with K : lang r1 _ _ _ |- _ => now rewrite (IH1 _ _ _ _ K eq_refl) end.
    + match goal with K : lang r2 _ _ _ |- _ => rewrite (IH2 _ _ _ _ K eq_refl) end. now destruct (can_begin r1 c).
  - inversion L; subst. eapply IH; eauto.
Qed.
Lemma separate_sound : forall r, separate r = true -> forall b t a b' t' a', lang r b t a -> lang r b' t' a' ->
  digits (t ++ a) = true -> t ++ a = t' ++ a' -> t = t'.
Proof.
  induction r as [|k|r1 IH1 r2 IH2|r1 IH1 r2 IH2|g mn mx r IH|i r IH| |]; intros S b t a b' t' a' L L' D E; try discriminate S.
  - inversion L; inversion L'; now subst.
  - inversion L; inversion L'; subst. cbn [app] in E. congruence.
  - cbn [separate] in S. destruct (separate r1); [|discriminate].
    inversion L as [| |x1 x2 b1 t1 t2 a1 L1 L2| | | | | |]; subst. inversion L' as [| |y1 y2 b2 u1 u2 a2 K1 K2| | | | | |]; subst.
    rewrite <- !app_assoc in E. rewrite <- app_assoc in D. assert (F : t1 = u1) by (eapply (IH1 eq_refl); eauto). subst u1. apply app_inv_head in E.
    rewrite digits_app in D. apply andb_true_iff in D as [_ D]. assert (F : t2 = u2) by (eapply (IH2 S); eauto). now subst.
  - pose proof S as S0. cbn [separate] in S. destruct (separate r1) eqn:S1; [|discriminate]. destruct (separate r2) eqn:S2; [|discriminate].
    destruct (solid r1) eqn:O1; [|discriminate]. destruct (solid r2) eqn:O2; [|discriminate]. rewrite forallb_forall in S.
    assert (X : forall v w x y v' w', lang r1 v w x -> lang r2 v' w' y -> digits (w ++ x) = true -> w ++ x = w' ++ y -> False).
    { intros v w x y v' w' A B Dw Ew. destruct w as [|c w]; [now elim (solid_sound _ _ _ _ A O1)|].
      destruct w' as [|c' w']; [now elim (solid_sound _ _ _ _ B O2)|]. cbn [app] in Ew. injection Ew as <- Ew.
      cbn [app digits forallb] in Dw. apply andb_true_iff in Dw as [Dc _]. pose proof (S c (digit_in c Dc)) as Z.
      rewrite (can_begin_sound _ _ _ _ _ A S1), (can_begin_sound _ _ _ _ _ B S2) in Z. discriminate. }
    inversion L; inversion L'; subst.
    + eapply (IH1 eq_refl); eauto.
    + exfalso. eapply X; eauto.
    + exfalso. eapply X; [| |rewrite <- E; exact D|symmetry; exact E]; eauto.
    + eapply (IH2 eq_refl); eauto.
  - inversion L; inversion L'; subst. eapply (IH S); eauto.
Qed.
(** without anchors what follows does not matter *)
Lemma separate_after : forall r, separate r = true -> forall b t a, lang r b t a -> forall b' a', lang r b' t a'.
Proof.
  induction r as [|k|r1 IH1 r2 IH2|r1 IH1 r2 IH2|g mn mx r IH|i r IH| |]; intros S b t a L b' a'; cbn [separate] in S; try discriminate S.
  - inversion L; subst. constructor.
  - inversion L; subst. now constructor.
  - destruct (separate r1); [|discriminate]. inversion L; subst. constructor; eauto.
  - destruct (separate r1); [|discriminate]. destruct (separate r2); [|discriminate]. inversion L; subst; [apply L_alt1|apply L_alt2]; eauto.
  - inversion L; subst. constructor. eauto.
Qed.
Lemma separate_only : forall r x d, separate (re_ast r) = true -> matches_whole (re_ast r) x -> digits (x ++ d) = true -> only_match r x d.
Proof.
  intros r x d S L D. split; [now apply (separate_after _ S [] x [])|]. intros t a E K.
  symmetry. now apply (separate_sound _ S [] x d [] t a); [apply (separate_after _ S [] x [])| | |].
Qed.
(** the same with only what the search returns *)
Definition found (r : regex) (x d : str) : Prop := exists m, re_find r (x ++ d) = Some m /\ mr_pre m = [] /\ mr_text m = x /\ mr_post m = d.
Lemma strip_found : forall E r x w, found r x w -> starts_with w [ch_0] = false ->
  @strip_idd E (Some r) (CoreFacts.bare (x ++ w)) = Ok (mk_number SrcIdd w None None None).
Proof.
  intros E r x w (m & Em & Hp & Ht & Hq) Hw. unfold strip_idd, CoreFacts.bare.
  cbn [pn_national pn_country]. rewrite Em. unfold mr_start, mr_end, mr_start. rewrite Hp, Ht. change (blen []) with 0.
  cbn [Nat.eqb Nat.add]. rewrite slice_from_app. cbn [unwrap obind]. rewrite Hw. unfold trim. rewrite slice_from_app. reflexivity.
Qed.
Lemma parse_found : forall db country r x d, idd_of db country = Some r -> found r x d ->
  digits x = true -> digits d = true -> 3 <= length d -> starts_with d [ch_0] = false ->
  parse_with db country (x ++ d) =
  match code_len db d with
  | None => Err InvalidCountryCode
  | Some k =>
      let code := digits_val (firstn k d) in
      let e := skipn k d in
      let* src := source_for db code (trim_start_char ch_0 e) in
      let* n := strip_national (source_meta db src) (mk_number SrcIdd e (Some (dec code)) None None) in
      finish n
  end.
Proof.
  intros db country r x d Hr Hm Hx Hd Hl H0.
  assert (Hw : digits (x ++ d) = true) by now rewrite digits_app, Hx, Hd.
  assert (Lw : 2 <= length (x ++ d)) by (rewrite app_length; lia).
  unfold parse_with. rewrite p_phone_digits; [|exact Hw|intros E; rewrite E in Lw; cbn in Lw; lia].
  cbn [obind]. change (pn_national (CoreFacts.bare (x ++ d))) with (x ++ d). rewrite viable_digits by assumption. cbn [negb].
  unfold country_code. fold (idd_of db country). rewrite Hr.
  rewrite international_prefix_digits by exact Hw. rewrite strip_found by assumption.
  cbn [obind pn_country pn_national pn_prefix]. rewrite digits_blen by exact Hd.
  destruct (Nat.leb_spec (length d) MIN_LENGTH_FOR_NSN); [unfold MIN_LENGTH_FOR_NSN in *; lia|]. rewrite H0.
  rewrite find_code_spec; [|now constructor|exact Hl]. cbn [pn_national].
  destruct (code_len db d) as [k|] eqn:Ek; [|reflexivity]. cbn [obind]. cbn zeta.
  unfold set_prefix, set_national. cbn [pn_country pn_national pn_prefix pn_extension pn_carrier].
  assert (Hk : k <= 3).
  { unfold code_len in Ek. apply find_some in Ek as [I _]. cbn in I. intuition lia. }
  assert (Hu : (digits_val (firstn k d) <= u16_max)%N).
  { apply digits_val_3; [now apply digits_firstn|]. rewrite firstn_length. lia. }
  unfold select_meta. cbn [pn_country pn_national]. rewrite prefix_value_dec by exact Hu.
  destruct country; cbn [obind];
  destruct (source_for db (digits_val (firstn k d)) (trim_start_char ch_0 (skipn k d))); reflexivity.
Qed.
(** as behind the plus sign, without a reference country *)
Lemma found_plus : forall db r m rx x d, by_id db (id_name r) = Some m -> md_international_prefix m = Some rx -> found rx x d ->
  digits x = true -> digits d = true -> 3 <= length d -> starts_with d [ch_0] = false ->
  parse_with db (Some r) (x ++ d) = parse_with db None (lit "00" ++ d).
Proof.
  intros db r m rx x d Hm Hrx Hf Hx Hd Hl H0. rewrite (parse_found db (Some r) rx x d); auto; [|unfold idd_of; now rewrite Hm, Hrx].
  rewrite (parse_found db None DEFAULT_IDD (lit "00") d); auto.
  apply only_match_find. split; [|apply only_00]. apply can_match_sound. reflexivity.
Qed.

(** ** The built-in metadata *)
Definition sc_pattern (db : database) : option re :=
  match by_id db (lit "SC") with Some m => option_map re_ast (md_international_prefix m) | None => None end.
Definition sc_ast : option re := Eval vm_compute in sc_pattern default_db.
Lemma sc_pattern_ok : sc_pattern default_db = sc_ast.
Proof. vm_cast_no_check (eq_refl sc_ast). Qed.
Definition abroad_ok (k : str) (m : metadata) : bool :=
  if str_mem k (lit "SC" :: runs_on) then true else
  match md_international_prefix m with
  | Some r => separate (re_ast r)
  | None => true
  end.
Lemma default_abroad : entries_forall abroad_ok default_db = true.
Proof. vm_cast_no_check (eq_refl true). Qed.
Lemma abroad_use : forall db r m rx x d, entries_forall abroad_ok db = true -> by_id db (id_name r) = Some m ->
  md_international_prefix m = Some rx -> ~ In (id_name r) runs_on -> id_name r <> lit "SC" -> matches_whole (re_ast rx) x ->
  digits x = true -> digits d = true -> found rx x d.
Proof.
  intros db r m rx x d Hdb Hm Hrx Hn Hs L Dx Dd. pose proof (entries_forall_use _ _ _ _ Hdb Hm) as B. unfold abroad_ok in B.
  destruct (str_mem (id_name r) (lit "SC" :: runs_on)) eqn:E.
  { apply str_mem_in in E. destruct E as [E|E]; [now elim Hs|now elim Hn]. }
  rewrite Hrx in B. apply only_match_find, separate_only; auto. now rewrite digits_app, Dx, Dd.
Qed.
(** Seychelles: "010" as well as "01", the longer one is tried first *)
Definition sc_words : list str := [lit "010"; lit "00"; lit "01"; lit "02"].
Lemma sc_use : forall r db m rx x d, r = sc_ast -> sc_pattern db = r -> by_id db (lit "SC") = Some m -> md_international_prefix m = Some rx ->
  matches_whole (re_ast rx) x -> digits x = true -> digits d = true -> starts_with d [ch_0] = false -> found rx x d.
Proof.
  intros r db m rx x d Hr Hp Hm Hrx L Dx Dd H0. subst r. unfold sc_pattern in Hp. rewrite Hm, Hrx in Hp. cbn [option_map] in Hp.
  unfold sc_ast in Hp. assert (E : re_ast rx = match sc_ast with Some r => r | None => REps end) by (unfold sc_ast; congruence).
  assert (W : words (re_ast rx) = Some sc_words) by (rewrite E; reflexivity).
  pose proof (proj1 words_complete _ _ _ _ L _ W Dx) as I. unfold sc_words in I.
  destruct I as [<-|I].
  { assert (M : exists m, re_find rx (lit "010" ++ d) = Some m /\ mr_pre m = [] /\ mr_post m = d).
    { unfold re_find. rewrite E. eexists. split; [vm_compute; reflexivity|]. cbn [mr_pre mr_post]. now split. }
    destruct M as (mr & M1 & M2 & M3). exists mr. split; [exact M1|]. split; [exact M2|]. split; [|exact M3].
    apply re_find_some in M1 as (F & _). rewrite M2, M3 in F. cbn [app] in F. symmetry. apply (app_inv_tail d). exact F. }
  apply only_match_find. split; [apply (words_sound _ _ W); unfold sc_words; now right|]. intros t a F K.
  assert (D : digits (t ++ a) = true) by now rewrite <- F, digits_app, Dx, Dd. rewrite digits_app in D. apply andb_true_iff in D as [Dt _].
  pose proof (proj1 words_complete _ _ _ _ K _ W Dt) as J. unfold sc_words in J. clear K L Dx Dt Dd W E Hp.
  destruct J as [<-|J].
  - exfalso. destruct I as [<-|[<-|[<-|[]]]]; cbn in F; try discriminate F. injection F as F. rewrite F in H0. destruct a; vm_compute in H0; discriminate H0.
  - destruct I as [<-|[<-|[<-|[]]]]; destruct J as [<-|[<-|[<-|[]]]]; (reflexivity || (cbn in F; discriminate F)).
Qed.

(** ** C71 *)
Lemma dialled_head : forall c w, (1 <= c)%N -> starts_with (dec c ++ w) [ch_0] = false.
Proof.
  intros c w Hc. assert (Hz : c <> 0%N) by lia. destruct (dec_head _ Hz) as (x & t & -> & Hx). cbn [app starts_with].
  destruct (N.eqb_spec x ch_0) as [E|]; [now elim Hx|reflexivity].
Qed.
(** Whatever is dialled in a country to call abroad, calling code and number behind it are read as behind the plus sign. *)
Theorem C71_as_plus : forall r m x c w, by_id default_db (id_name r) = Some m -> calls_abroad m x -> ~ In (id_name r) runs_on ->
  by_code default_db c <> None -> all_digits w -> 2 <= length w ->
  parse (Some r) (x ++ dec c ++ w) = but_source SrcIdd (parse None (lit "+" ++ dec c ++ w)).
Proof.
  intros r m x c w Hm (rx & Hrx & Dx & L) Hn Hc Dw Hl. apply code_range in Hc.
  assert (Dd : all_digits (dec c ++ w)). { apply all_digits_iff. rewrite digits_app, digits_dec. now apply all_digits_iff. }
  assert (Ld : 3 <= length (dec c ++ w)). { rewrite app_length. pose proof (dec_nonempty c) as Z. destruct (dec c); [now elim Z|cbn [length]; lia]. }
  assert (H0 : starts_with (dec c ++ w) [ch_0] = false) by (apply dialled_head; lia).
  unfold parse. rewrite <- (C40_default_prefix default_db (dec c ++ w) Dd Ld).
  2:{ intros B. apply starts_with_spec in B. change (lit "0") with [ch_0] in B. congruence. }
  apply all_digits_iff in Dx, Dd. apply (found_plus default_db r m rx x); auto.
  destruct (str_eqb (id_name r) (lit "SC")) eqn:Es.
  - apply str_eqb_eq in Es. rewrite Es in Hm. exact (sc_use sc_ast default_db m rx x _ eq_refl sc_pattern_ok Hm Hrx L Dx Dd H0).
  - apply (abroad_use default_db r m rx x _ default_abroad Hm Hrx Hn); auto. intros K. apply str_eqb_eq in K. congruence.
Qed.
(** So a described number of any country, dialled from any other, is reached. *)
Theorem C71_reached : forall r m x c l n w, by_id default_db (id_name r) = Some m -> calls_abroad m x -> ~ In (id_name r) runs_on ->
  by_code default_db c = Some l -> In n l -> all_digits w -> whole_number n w -> value_of w <> 0%N -> ~ In c codes_misread ->
  reached r (x ++ dec c ++ w) c w.
Proof.
  intros r m x c l n w Hm Hx Hr Hc In Dw Hw Hv Hn. destruct (C67_parsed c l n w Hc In Dw Hw Hv Hn) as (p & P & Pc & Pn & Pv & Px & _).
  destruct (C66_described c l n w Hc In Dw Hw) as (Hl & _).
  pose proof (C71_as_plus r m x c w Hm Hx Hr) as K. rewrite P in K. cbn [but_source] in K.
  exists (mk_phone (mk_code (code_value (ph_code p)) SrcIdd) (ph_national p) (ph_extension p) (ph_carrier p)).
  cbn [ph_code code_value code_source ph_national ph_extension]. split; [apply K; [rewrite Hc; discriminate|exact Dw|lia]|].
  split; [exact Pc|]. split; [reflexivity|]. split; [exact Pn|]. split; [exact Px|].
  rewrite <- Pv. apply valid_same; reflexivity.
Qed.
(** The dialling prefix and country it is dialled in make no difference. *)
Corollary C71_same : forall r m x r' m' x' c w, by_id default_db (id_name r) = Some m -> calls_abroad m x -> ~ In (id_name r) runs_on ->
  by_id default_db (id_name r') = Some m' -> calls_abroad m' x' -> ~ In (id_name r') runs_on ->
  by_code default_db c <> None -> all_digits w -> 2 <= length w ->
  parse (Some r) (x ++ dec c ++ w) = parse (Some r') (x' ++ dec c ++ w).
Proof.
  intros r m x r' m' x' c w A B C A' B' C' D E F. rewrite (C71_as_plus r m x c w A B C D E F).
  symmetry. exact (C71_as_plus r' m' x' c w A' B' C' D E F).
Qed.

(** Bolivia and Hong Kong: "00" may be followed by a digit or two of its own, which are taken off the calling code. *)
Definition missed (db : database) (x : id * str * N * str) : bool :=
  let '(r, x, c, w) := x in
  match by_id db (id_name r), by_code db c with
  | Some m, Some (n :: _) =>
      match md_international_prefix m with
      | Some rx => if can_match (re_ast rx) x then if digits x then if digits w then if described_b n TFixedLine w then
          if N.eqb (value_of w) 0 then false else
          match parse_with db (Some r) (x ++ dec c ++ w) with
          | Ok p => if N.eqb (code_value (ph_code p)) c then negb (str_eqb (nn_show (ph_national p)) w) else true
          | _ => true
          end else false else false else false else false
      | None => false
      end
  | _, _ => false
  end.
Definition missed_calls : list (id * str * N * str) :=
  [(ID_BO, lit "00", 1%N, lit "2125550123"); (ID_HK, lit "00", 1%N, lit "2125550123")].
Lemma default_missed : forallb (missed default_db) missed_calls = true.
Proof. vm_cast_no_check (eq_refl true). Qed.
Lemma missed_names : map (fun x => id_name (fst (fst (fst x)))) missed_calls = runs_on.
Proof. vm_compute. reflexivity. Qed.
Lemma missed_use : forall db r x c w, missed db (r, x, c, w) = true ->
  exists m l n, by_id db (id_name r) = Some m /\ calls_abroad m x /\ by_code db c = Some l /\ In n l /\ all_digits w /\ whole_number n w
    /\ value_of w <> 0%N /\ ~ exists p, parse_with db (Some r) (x ++ dec c ++ w) = Ok p /\ code_value (ph_code p) = c /\ nn_show (ph_national p) = w.
Proof.
  intros db r x c w H. unfold missed in H. destruct (by_id db (id_name r)) as [m|]; [|discriminate].
  destruct (by_code db c) as [[|n l]|]; try discriminate. destruct (md_international_prefix m) as [rx|] eqn:Er; [|discriminate].
  destruct (can_match _ x) eqn:Ec; [|discriminate]. destruct (digits x) eqn:Dx; [|discriminate]. destruct (digits w) eqn:Dw; [|discriminate].
  destruct (described_b n TFixedLine w) eqn:Ed; [|discriminate]. destruct (N.eqb_spec (value_of w) 0) as [|Hv]; [discriminate|].
  exists m, (n :: l), n. split; [reflexivity|]. split.
  { exists rx. split; [exact Er|]. split; [now apply all_digits_iff|]. now apply can_match_sound. }
  split; [reflexivity|]. split; [now left|]. split; [now apply all_digits_iff|]. split; [now apply (described_whole n TFixedLine), described_b_use|].
  split; [exact Hv|]. intros (p & P & Pc & Pn). rewrite P, Pc, Pn, N.eqb_refl in H.
  assert (E : str_eqb w w = true) by now apply str_eqb_eq. rewrite E in H. discriminate.
Qed.
(** A country is none of the two exactly if from there every such call is read as meant. *)
Theorem C71_exactly : forall r m, by_id default_db (id_name r) = Some m ->
  (~ In (id_name r) runs_on <->
   forall x c l n w, calls_abroad m x -> by_code default_db c = Some l -> In n l -> all_digits w -> whole_number n w -> value_of w <> 0%N ->
     ~ In c codes_misread -> reached r (x ++ dec c ++ w) c w).
Proof.
  intros r m Hm. split.
  - intros Hr x c l n w Hx. now apply (C71_reached r m x c l n w Hm Hx Hr).
  - intros H I. rewrite <- missed_names in I. apply in_map_iff in I as ([[[r' x] c] w] & E & I). cbn [fst] in E. apply name_inj in E. subst r'.
    assert (Hc : ~ In c codes_misread).
    { unfold missed_calls in I. assert (Ec : c = 1%N) by (destruct I as [I|[I|[]]]; congruence). subst c. unfold codes_misread. cbn [In]. intuition discriminate. }
    pose proof default_missed as D. rewrite forallb_forall in D. apply D in I.
    destruct (missed_use default_db r x c w I) as (m' & l & n & A1 & A2 & A3 & A4 & A5 & A6 & A7 & X). rewrite Hm in A1. injection A1 as <-.
    destruct (H x c l n w A2 A3 A4 A5 A6 A7 Hc) as (p & P & Pc & _ & Pn & _). apply X. exists p. split; [exact P|]. now split.
Qed.

(** Every country has something to dial. *)
Fixpoint some_word (r : re) : str :=
  match r with
  | RCls c => match filter (in_cls c) ascii_digits with x :: _ => [x] | [] => [] end
  | RCat a b => some_word a ++ some_word b
  | RAlt a _ | RGrp _ a => some_word a
  | _ => []
  end.
Definition dialling (k : str) (m : metadata) : bool :=
  if str_eqb k (lit "001") then true else
  match md_international_prefix m with Some r => if digits (some_word (re_ast r)) then can_match (re_ast r) (some_word (re_ast r)) else false | None => false end.
Lemma default_dialling : entries_forall dialling default_db = true.
Proof. vm_cast_no_check (eq_refl true). Qed.
Lemma dialling_use : forall db r m, entries_forall dialling db = true -> by_id db (id_name r) = Some m -> exists x, calls_abroad m x.
Proof.
  intros db r m H Hm. pose proof (entries_forall_use _ _ _ _ H Hm) as B. unfold dialling in B.
  destruct (str_eqb (id_name r) (lit "001")) eqn:E. { apply str_eqb_eq in E. destruct r; discriminate E. }
  destruct (md_international_prefix m) as [rx|] eqn:Er; [|discriminate]. destruct (digits (some_word (re_ast rx))) eqn:D; [|discriminate].
  exists (some_word (re_ast rx)), rx. split; [exact Er|]. split; [now apply all_digits_iff|now apply can_match_sound].
Qed.
Theorem C71_everywhere : forall r m, by_id default_db (id_name r) = Some m -> exists x, calls_abroad m x.
Proof. intros r m. exact (dialling_use default_db r m default_dialling). Qed.

(** From Australia, Seychelles and Singapore to London. *)
Definition rings (db : database) (x : id * str) : bool :=
  match parse_with db (Some (fst x)) (snd x ++ lit "442079460123") with
  | Ok p => if N.eqb (code_value (ph_code p)) 44 then str_eqb (nn_show (ph_national p)) (lit "2079460123") else false
  | _ => false
  end.
Example C71_ex : forallb (rings default_db)
  [(ID_AU, lit "0011"); (ID_AU, lit "14880011"); (ID_SC, lit "010"); (ID_SC, lit "01"); (ID_SG, lit "019"); (ID_US, lit "011")] = true.
Proof. vm_cast_no_check (eq_refl true). Qed.
