(** * C65: numbers are shown in groups *)
From Verif Require Import Base Unicode Regex RegexSyntax Consts CountryId Types NationalNumber
  Metadata Database Validator Valid Number Rfc3966 Helper Natural PhoneNumber Parser Formatter Loader
  DefaultDb DefaultDbOk Api.
From Verif Require Import StrFacts NationalFacts RegexLang RegexFacts RegexCaps RegexDeriv RegexMany RegexExact RegexCover
  DatabaseFacts ParserFacts ParseInv TextFacts ViableFacts PhoneText E164Facts CoreFacts DialFacts FormatFacts FormatDigits
  FormatDollar PropsPanic PropsE164 PropsValid PropsText PropsFormat PropsTemplate PropsDial PropsNational ClaimFacts.

(** ** The property *)
(** digits of one of the kinds of number the entry describes: a length listed for
    the kind, and both the kind's pattern and the general one match all of them *)
Definition whole_number (m : metadata) (w : str) : Prop :=
  exists d, In d (types_of (md_descriptors m)) /\ In (N.of_nat (length w)) (d_possible_length d)
    /\ matches_whole (re_ast (d_national_number d)) w
    /\ matches_whole (re_ast (d_national_number (ds_general (md_descriptors m)))) w.
(** the digits, cut by the first usable format into one piece for each group of
    its pattern, nothing left over, and shown as its template (in national text
    with its rule) says *)
Definition divided (md : mode) (h : metadata) (p : phone) (body : str) : Prop :=
  exists f k a j ts show gs, first_usable (digits_of p) (formats_of md h) (Some f) /\ regular h f k a j ts
    /\ layout md h p f a j ts show /\ length gs = k /\ concat gs = digits_of p /\ body = show gs.

(** Countries (with their calling codes) some of whose numbers are shown as a mere
    row of digits, with such a number: in national text ... *)
Definition undivided_national : list (N * str * str) :=
  [(247%N, lit "AC", lit "62000"); (61%N, lit "AU", lit "13450000"); (61%N, lit "CC", lit "13450000");
   (61%N, lit "CX", lit "13450000"); (359%N, lit "BG", lit "008000000000"); (49%N, lit "DE", lit "330000");
   (500%N, lit "FK", lit "20000"); (350%N, lit "GI", lit "51000000"); (686%N, lit "KI", lit "30000000");
   (352%N, lit "LU", lit "2020"); (47%N, lit "NO", lit "02000"); (47%N, lit "SJ", lit "02000");
   (683%N, lit "NU", lit "4000"); (507%N, lit "PA", lit "00800000000"); (595%N, lit "PY", lit "980000000");
   (974%N, lit "QA", lit "800000000"); (677%N, lit "SB", lit "13000"); (248%N, lit "SC", lit "8500000");
   (290%N, lit "SH", lit "20000"); (290%N, lit "TA", lit "8000"); (66%N, lit "TH", lit "0018000000000");
   (690%N, lit "TK", lit "2200"); (678%N, lit "VU", lit "81100"); (260%N, lit "ZM", lit "630000000");
   (870%N, lit "001", lit "774400000000")].
(** ... and, in addition, in international text and telephone URIs, where some
    formats are not to be used *)
Definition undivided_abroad : list (N * str * str) :=
  [(86%N, lit "CN", lit "16000000"); (504%N, lit "HN", lit "80020000000"); (62%N, lit "ID", lit "00180300000");
   (91%N, lit "IN", lit "0008000000000"); (81%N, lit "JP", lit "00777000"); (82%N, lit "KR", lit "00308000000");
   (31%N, lit "NL", lit "14010"); (977%N, lit "NP", lit "16600100000"); (421%N, lit "SK", lit "9090000");
   (90%N, lit "TR", lit "4440000"); (84%N, lit "VN", lit "1990000")].
Definition undivided (md : mode) : list (N * str * str) :=
  match md with National => undivided_national | _ => undivided_national ++ undivided_abroad end.

(** ** Deciding it *)
Definition whole (r : re) : re := RCat r REnd.
Lemma whole_iff : forall r w, matches_prefix (whole r) w <-> matches_whole r w.
Proof.
  intros r w. split.
  - intros (t & a & -> & L). inversion L as [| |r1 r2 b' t1 t2 a' L1 L2| | | | | |]; subst. inversion L2; subst.
    unfold matches_whole. rewrite !app_nil_r in *. exact L1.
  - intros L. exists w, []. split; [now rewrite app_nil_r|]. rewrite <- (app_nil_r w). constructor; [exact L|constructor].
Qed.
Definition parts_of (f : format) : list re :=
  match f_leading_digits f with
  | [] => [whole (re_ast (f_pattern f))]
  | l => [re_ast (last l regex_never); whole (re_ast (f_pattern f))]
  end.
Lemma parts_usable : forall f w, longest (re_ast (f_pattern f)) = true -> Forall (fun r => matches_prefix r w) (parts_of f) ->
  usable f w /\ exists m, re_find (f_pattern f) w = Some m /\ mr_pre m = [] /\ mr_post m = [].
Proof.
  intros f w Hl H. split.
  - apply needed_usable; [exact Hl|]. unfold needed, parts_of in *. destruct (f_leading_digits f); [constructor|exact H].
  - apply longest_whole; [exact Hl|]. apply whole_iff. unfold parts_of in H.
    destruct (f_leading_digits f); [now inversion H|]. inversion H as [|x0 l0 A B]; subst. now inversion B.
Qed.
(** the formats that can be chosen: none after one without leading-digit patterns *)
Fixpoint reached (fs : list format) : list format :=
  match fs with [] => [] | f :: fs' => if leadless f then [f] else f :: reached fs' end.
Lemma reached_in : forall fs f, In f (reached fs) -> In f fs.
Proof.
  induction fs as [|g fs IH]; intros f H; cbn [reached] in H; [easy|]. destruct (leadless g).
  - destruct H as [<-|[]]. now left.
  - destruct H as [<-|H]; [now left|]. right. auto.
Qed.
Lemma reached_stop : forall a f b, leadless f = true -> (forall g, In g a -> leadless g = false) -> reached (a ++ f :: b) = a ++ [f].
Proof.
  induction a as [|g a IH]; intros f b Hf Ha; cbn [reached app]; [now rewrite Hf|]. rewrite (Ha g) by now left.
  f_equal. apply IH; auto. intros x I. apply Ha. now right.
Qed.
Lemma leadless_usable : forall f w, leadless f = true -> usable f w.
Proof. intros f w H. left. unfold leadless in H. destruct (f_leading_digits f); [reflexivity|discriminate]. Qed.
Lemma reached_first : forall w fs f, forallb (fun f => longest (re_ast (f_pattern f))) (reached fs) = true ->
  In f (reached fs) -> Forall (fun r => matches_prefix r w) (parts_of f) ->
  exists g, first_usable w fs (Some g) /\ exists m, re_find (f_pattern g) w = Some m /\ mr_pre m = [] /\ mr_post m = [].
Proof.
  intros w fs f Hl If Hf. rewrite forallb_forall in Hl. pose proof (choose_spec w fs) as C.
  destruct (parts_usable f w (Hl f If) Hf) as [Uf Wf].
  destruct (choose_format w fs) as [g|]; [|exfalso; exact (C f (reached_in _ _ If) Uf)].
  exists g. split; [exact C|]. destruct C as (a & b & E & U & Hb). destruct (leadless g) eqn:G.
  - rewrite E, reached_stop in If; [|exact G|].
    + apply in_app_iff in If as [If|[<-|[]]]; [exfalso; exact (Hb f If Uf)|exact Wf].
    + intros x I. destruct (leadless x) eqn:X; [|reflexivity]. exfalso. exact (Hb x I (leadless_usable _ _ X)).
  - destruct U as [U|[_ U]]; [|exact U]. unfold leadless in G. rewrite U in G. discriminate.
Qed.

Definition fits_all (n : nat) (r : re) : bool := combos ascii_digits n (fun v => forallb (fun b => b) v) REps [r].
Lemma fits_all_use : forall r e, digits e = true -> fits_all (length e) r = true -> matches_prefix r e.
Proof.
  intros r e De H. destruct (combos_sound ascii_digits _ REps [r] e (in_ascii e De) H) as (v & Hv & HF).
  { exists [], e. split; [reflexivity|constructor]. }
  inversion HF as [|t x v' l A B]; subst. cbn [forallb] in Hv. apply A. now destruct t.
Qed.
Fixpoint uniq (l acc : list N) : list N :=
  match l with [] => acc | x :: l' => if memN x acc then uniq l' acc else uniq l' (x :: acc) end.
Lemma uniq_in : forall l acc x, In x l \/ In x acc -> In x (uniq l acc).
Proof.
  induction l as [|y l IH]; intros acc x H; cbn [uniq]; [destruct H; easy|]. destruct (memN y acc) eqn:E; apply IH.
  - destruct H as [[<-|H]|H]; auto. right. now apply memN_in.
  - destruct H as [[<-|H]|H]; cbn [In]; auto.
Qed.
Definition lengths_of (m : metadata) : list N := uniq (flat_map d_possible_length (types_of (md_descriptors m))) [].
Definition kinds_at (m : metadata) (k : N) : list re :=
  flat_map (fun d => if memN k (d_possible_length d) then [re_ast (d_national_number d)] else []) (types_of (md_descriptors m)).
Lemma alts_lang : forall l r b t a, In r l -> lang r b t a -> lang (alts l) b t a.
Proof.
  induction l as [|x l IH]; intros r b t a I L; [easy|]. cbn [alts fold_right]. fold (alts l).
  destruct I as [->|I]; [now apply L_alt1|]. apply L_alt2. now apply (IH r).
Qed.
(** every number of the entry has a format *)
Definition covers (fs : list format) (m : metadata) : bool :=
  let rs := reached fs in
  if forallb (fun f => longest (re_ast (f_pattern f))) rs then
    forallb (fun k => let n := N.to_nat k in
      re_cover ascii_digits n [whole (re_ast (d_national_number (ds_general (md_descriptors m)))); whole (alts (kinds_at m k))]
               (map (fun f => filter (fun r => negb (fits_all n r)) (parts_of f)) rs)) (lengths_of m)
  else false.
Lemma covers_use : forall fs m w, digits w = true -> covers fs m = true -> whole_number m w ->
  exists f, first_usable w fs (Some f) /\ exists mr, re_find (f_pattern f) w = Some mr /\ mr_pre mr = [] /\ mr_post mr = [].
Proof.
  intros fs m w Dw H (d & Id & Il & L1 & L2). unfold covers in H. cbv zeta in H.
  destruct (forallb _ (reached fs)) eqn:Hl; [|discriminate]. rewrite forallb_forall in H.
  assert (K : In (N.of_nat (length w)) (lengths_of m)).
  { apply uniq_in. left. apply in_flat_map. eauto. }
  apply H in K. rewrite Nat2N.id in K.
  destruct (re_cover_sound ascii_digits _ _ w (in_ascii w Dw) K) as (g & Ig & Hg).
  { constructor; [now apply whole_iff|]. constructor; [|constructor]. apply whole_iff.
    apply alts_lang with (re_ast (d_national_number d)); [|exact L1]. apply in_flat_map. exists d. split; [exact Id|].
    replace (memN _ _) with true by (symmetry; now apply memN_in). now left. }
  apply in_map_iff in Ig as (f & <- & If). apply (reached_first w fs f Hl If).
  rewrite Forall_forall in *. intros r Ir. destruct (fits_all (length w) r) eqn:E; [now apply fits_all_use|].
  apply Hg. apply filter_In. split; [exact Ir|]. now rewrite E.
Qed.

(** the exceptions, and a check of each *)
Fixpoint lookup (c : N) (i : str) (l : list (N * str * str)) : option str :=
  match l with
  | [] => None
  | (c', i', w) :: l' => if N.eqb c c' then if str_eqb i i' then Some w else lookup c i l' else lookup c i l'
  end.
Definition listed_in (md : mode) (c : N) (m : metadata) : Prop := exists w, In (c, md_id m, w) (undivided md).
Lemma lookup_iff : forall c i l, (exists w, In (c, i, w) l) <-> lookup c i l <> None.
Proof.
  intros c i. induction l as [|[[c' i'] w'] l IH]; cbn [lookup]; [split; [now intros (w & [])|congruence]|].
  destruct (N.eqb_spec c c') as [<-|Hc].
  - destruct (str_eqb i i') eqn:Es.
    + apply str_eqb_eq in Es. subst i'. split; [discriminate|]. intros _. exists w'. now left.
    + rewrite <- IH. split; intros (w & I); [|exists w; now right]. destruct I as [E|I]; [|eauto].
      inversion E; subst. assert (str_eqb i i = true) by (apply str_eqb_eq; reflexivity). congruence.
  - rewrite <- IH. split; intros (w & I); [|exists w; now right]. destruct I as [E|I]; [|eauto]. congruence.
Qed.
Definition whole_match (r : regex) (w : str) : bool := found_at_start (re_find (mk_regex [] (whole (re_ast r)) 0) w).
Lemma whole_match_use : forall r w, whole_match r w = true -> matches_whole (re_ast r) w.
Proof. intros r w H. unfold whole_match in H. apply found_at_start_spec in H. now apply whole_iff in H. Qed.
Definition wholeb (m : metadata) (w : str) : bool :=
  if whole_match (d_national_number (ds_general (md_descriptors m))) w then
    existsb (fun d => if memN (N.of_nat (length w)) (d_possible_length d) then whole_match (d_national_number d) w else false)
      (types_of (md_descriptors m))
  else false.
Lemma wholeb_use : forall m w, wholeb m w = true -> whole_number m w.
Proof.
  intros m w H. unfold wholeb in H. destruct (whole_match _ w) eqn:E; [|discriminate].
  apply existsb_exists in H as (d & Id & H). destruct (memN _ _) eqn:M; [|discriminate]. exists d.
  split; [exact Id|]. split; [now apply memN_in|]. split; now apply whole_match_use.
Qed.
Definition plain (c : N) (w : str) : option phone :=
  match nn_parse w with Ok n => Some (mk_phone (mk_code c SrcPlus) n None None) | _ => None end.
Definition bare (fs : list format) (c : N) (m : metadata) (w : str) : bool :=
  match plain c w with
  | Some p => if str_eqb (digits_of p) w then if wholeb m w then
              match choose_format w fs with None => true | Some _ => false end else false else false
  | None => false
  end.
Definition grouped_by (exc : list (N * str * str)) (fs : metadata -> list format) (c : N) (h m : metadata) : bool :=
  match lookup c (md_id m) exc with
  | Some w => bare (fs h) c m w
  | None => covers (fs h) m
  end.
Definition entry_grouped (md : mode) : N -> metadata -> metadata -> bool := grouped_by (undivided md) (formats_of md).
Definition codes_forall (f : N -> metadata -> metadata -> bool) (db : database) : bool :=
  forallb (fun p => match snd p with h :: l => forallb (f (fst p) h) (h :: l) | [] => true end) (db_by_code db).
Lemma codes_forall_use : forall f db c h l m, codes_forall f db = true -> by_code db c = Some (h :: l) -> In m (h :: l) -> f c h m = true.
Proof.
  intros f db c h l m H E I. apply nget_in in E. unfold codes_forall in H. rewrite forallb_forall in H.
  specialize (H _ E). cbn [fst snd] in H. rewrite forallb_forall in H. now apply H.
Qed.
Lemma default_national_grouped : codes_forall (entry_grouped National) default_db = true.
Proof. vm_cast_no_check (eq_refl true). Qed.
Lemma default_abroad_grouped : codes_forall (entry_grouped International) default_db = true.
Proof. vm_cast_no_check (eq_refl true). Qed.
Lemma rfc_grouped : entry_grouped Rfc3966 = entry_grouped International.
Proof. unfold entry_grouped. exact (f_equal2 grouped_by (eq_refl (undivided International)) (eq_refl (formats_of International))). Qed.
Lemma grouped_with : forall db md, codes_forall (entry_grouped National) db = true ->
  codes_forall (entry_grouped International) db = true -> md <> E164 -> codes_forall (entry_grouped md) db = true.
Proof. intros db [] H1 H2 H; [now elim H|exact H2|exact H1|]. rewrite rfc_grouped. exact H2. Qed.
Lemma default_grouped : forall md, md <> E164 -> codes_forall (entry_grouped md) default_db = true.
Proof. intros md. exact (grouped_with default_db md default_national_grouped default_abroad_grouped). Qed.

(** ** C65 *)
(** Numbers of every country but the listed ones are divided by a format. *)
Theorem C65_divided : forall md c h l m p, md <> E164 -> by_code default_db c = Some (h :: l) -> In m (h :: l) ->
  code_value (ph_code p) = c -> match ph_carrier p with Some x => no_mark x | None => True end ->
  whole_number m (digits_of p) -> ~ listed_in md c m ->
  exists body, render default_db md p = Ok (frame md h p (match md with Rfc3966 => hyphens body | _ => body end))
    /\ divided md h p body.
Proof.
  intros md c h l m p Hmd Hc Im Hp Hcar Hw Hx. pose proof (codes_forall_use _ _ _ _ _ _ (default_grouped md Hmd) Hc Im) as G.
  unfold entry_grouped, grouped_by in G. destruct (lookup c (md_id m) (undivided md)) as [w|] eqn:El.
  { exfalso. apply Hx. apply lookup_iff. rewrite El. discriminate. }
  subst c. destruct (C41_default md p h l Hmd Hc Hcar) as (body & Et & o & Ho & S). exists body. split; [exact Et|].
  destruct (covers_use _ _ _ (nn_show_digits (ph_national p)) G Hw) as (f & Hf & mr & Em & Hpre & Hpost).
  assert (Eo : o = Some f).
  { rewrite <- (first_unique _ _ _ Ho). exact (first_unique _ _ _ Hf). }
  subst o. destruct S as (k & a & j & ts & show & R & Ly & S). exists f, k, a, j, ts, show.
  destruct S as [(pre & gs & post & Ew & Hk & _ & _ & Hm & Eb)|[Hno _]].
  - destruct (Hm mr Em) as [-> ->]. rewrite Hpre, Hpost in *. cbn [app] in *. rewrite app_nil_r in *. exists gs.
    split; [exact Hf|]. split; [exact R|]. split; [exact Ly|]. split; [exact Hk|]. split; [now symmetry|exact Eb].
  - exfalso. apply Hno. pose proof (re_find_some _ _ _ Em) as (F & L & _). exists (mr_pre mr), (mr_text mr), (mr_post mr). auto.
Qed.
Print Assumptions C65_divided.

(** No country can be left out of the lists: each has a number that none of the
    formats can be used for, and which is shown as it is. *)
Theorem C65_exact : forall md c h l m, md <> E164 -> by_code default_db c = Some (h :: l) -> In m (h :: l) ->
  listed_in md c m <->
  exists p, code_value (ph_code p) = c /\ ph_carrier p = None /\ ph_extension p = None /\ whole_number m (digits_of p)
    /\ (forall f, In f (formats_of md h) -> ~ usable f (digits_of p))
    /\ render default_db md p = Ok (frame md h p (digits_of p)).
Proof.
  intros md c h l m Hmd Hc Im. pose proof (codes_forall_use _ _ _ _ _ _ (default_grouped md Hmd) Hc Im) as G.
  unfold entry_grouped, grouped_by in G. unfold listed_in. rewrite lookup_iff.
  destruct (lookup c (md_id m) (undivided md)) as [w|] eqn:El; (split; [|]).
  - intros _. unfold bare in G. destruct (plain c w) as [p|] eqn:Ep; [|discriminate].
    destruct (str_eqb (digits_of p) w) eqn:Es; [|discriminate]. apply str_eqb_eq in Es.
    destruct (wholeb m w) eqn:Ew; [|discriminate]. apply wholeb_use in Ew.
    unfold plain in Ep. destruct (nn_parse w) as [n|x|]; [|discriminate..]. inversion Ep; subst p. clear Ep.
    set (p := mk_phone _ _ _ _) in *. exists p. split; [reflexivity|]. split; [reflexivity|]. split; [reflexivity|].
    rewrite Es. split; [exact Ew|]. pose proof (choose_spec w (formats_of md h)) as C.
    destruct (choose_format w (formats_of md h)); [discriminate|]. split; [exact C|].
    rewrite <- Es in *. change (render default_db md p) with (render_with default_db md None p).
    apply (C41_no_format default_db md p h l Hc). exact C.
  - discriminate.
  - intros H. now elim H.
  - intros (p & <- & _ & _ & Hw & Hno & _) _.
    destruct (covers_use _ _ _ (nn_show_digits (ph_national p)) G Hw) as (f & (a & b & E & U & _) & _).
    apply (Hno f); [rewrite E; apply in_app_iff; right; now left|exact U].
Qed.
Print Assumptions C65_exact.

(** Hypotheses met by a London number, a Swiss one and an international freephone
    number; the pieces are those of the texts. *)
Definition grouped_ex (md : mode) (c : N) (w t : str) : bool :=
  match by_code default_db c, plain c w with
  | Some (h :: l), Some p =>
      if str_eqb (digits_of p) w then if existsb (fun m => if wholeb m w then
        match lookup c (md_id m) (undivided md) with None => true | Some _ => false end else false) (h :: l)
      then match render default_db md p with Ok u => str_eqb u t | _ => false end else false else false
  | _, _ => false
  end.
Example C65_ex :
  grouped_ex National 44 (lit "2079460958") (lit "020 7946 0958") = true /\
  grouped_ex International 41 (lit "446681800") (lit "+41 44 668 18 00") = true /\
  grouped_ex Rfc3966 800 (lit "12345678") (lit "tel:+800-1234-5678") = true.
Proof. vm_compute. auto. Qed.
(** "02000" in Norway has no format. *)
Example C65_norway : exists p, plain 47 (lit "02000") = Some p /\ render default_db National p = Ok (lit "02000")
  /\ render default_db International p = Ok (lit "+47 02000").
Proof. eexists. repeat split. Qed.
