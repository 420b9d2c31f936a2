(** * ReadFacts: exactly which part of a text is the number and which the extension *)
From Verif Require Import Base Unicode Regex RegexSyntax Consts CountryId Types NationalNumber
  Metadata Database Validator Valid Number Rfc3966 Helper Natural PhoneNumber Parser.
From Verif Require Import StrFacts NationalFacts RegexLang RegexFacts RegexCaps DatabaseFacts ParserFacts
  ParseInv TextFacts ViableFacts PhoneText E164Facts CoreFacts ExtFacts.

(** ** Finite patterns: the sequences of classes they stand for *)
Fixpoint shapes (r : re) : option (list (list cls)) :=
  match r with
  | REps => Some [[]]
  | RCls c => Some [[c]]
  | RCat a b => match shapes a, shapes b with
                | Some l, Some k => Some (flat_map (fun x => map (app x) k) l)
                | _, _ => None
                end
  | RAlt a b => match shapes a, shapes b with Some l, Some k => Some (l ++ k) | _, _ => None end
  | RRep _ O (Some 1) r => match shapes r with Some l => Some ([] :: l) | None => None end
  | RGrp _ r => shapes r
  | _ => None
  end.
Definition fits (cs : list cls) (t : str) : Prop := Forall2 (fun k x => in_cls k x = true) cs t.

Lemma fits_app : forall a b t, fits (a ++ b) t <-> exists u v, t = u ++ v /\ fits a u /\ fits b v.
Proof.
  intros a b t. split.
  - intros H. apply Forall2_app_inv_l in H as (u & v & H1 & H2 & ->). eauto.
  - intros (u & v & -> & H1 & H2). now apply Forall2_app.
Qed.
Lemma lang_opt : forall g r b t a, lang (RRep g 0 (Some 1) r) b t a <-> t = [] \/ lang r b t a.
Proof.
  intros g r b t a. split.
  - intros H. inversion H as [| | | | |g' mn mx r' n b' t' a' H1 H2 LS| | |]; subst. cbn in H2.
    destruct n as [|[|n]]; [| |lia].
    + inversion LS; subst. now left.
    + inversion LS as [|r' n b' t1 t2 a' L LS']; subst. inversion LS'; subst. cbn [app] in L. rewrite app_nil_r. now right.
  - intros [->|H].
    + apply (L_rep _ _ _ _ 0); [lia|cbn; lia|constructor].
    + apply (L_rep _ _ _ _ 1); [lia|cbn; lia|]. rewrite <- (app_nil_r t). constructor; [exact H|constructor].
Qed.
Lemma shapes_iff : forall r l, shapes r = Some l -> forall b t a,
  lang r b t a <-> exists cs, In cs l /\ fits cs t.
Proof.
  induction r as [|c|r1 IH1 r2 IH2|r1 IH1 r2 IH2|g mn mx r IH|i r IH| |]; intros l H b t a; cbn [shapes] in H; try discriminate H.
  - injection H as <-. split.
    + intros L. inversion L; subst. exists []. split; [now left|constructor].
    + intros (cs & [<-|[]] & F). inversion F; subst. constructor.
  - injection H as <-. rewrite lang_cls. split.
    + intros (x & -> & Hx). exists [c]. split; [now left|]. constructor; [exact Hx|constructor].
    + intros (cs & [<-|[]] & F). inversion F as [|? x ? ? Hx F']; subst. inversion F'; subst. eauto.
  - destruct (shapes r1) as [l1|]; [|discriminate]. destruct (shapes r2) as [l2|]; [|discriminate]. injection H as <-. split.
    + intros L. apply lang_cat_inv in L as (t1 & t2 & -> & L1 & L2).
      apply (IH1 _ eq_refl) in L1 as (c1 & I1 & F1). apply (IH2 _ eq_refl) in L2 as (c2 & I2 & F2).
      exists (c1 ++ c2). split; [|apply fits_app; eauto]. apply in_flat_map. exists c1. split; [exact I1|].
      apply in_map_iff. eauto.
    + intros (cs & I & F). apply in_flat_map in I as (c1 & I1 & I2). apply in_map_iff in I2 as (c2 & <- & I2).
      apply fits_app in F as (u & v & -> & F1 & F2). constructor; [apply (IH1 _ eq_refl)|apply (IH2 _ eq_refl)]; eauto.
  - destruct (shapes r1) as [l1|]; [|discriminate]. destruct (shapes r2) as [l2|]; [|discriminate]. injection H as <-. split.
    + intros L. apply lang_alt_inv in L as [L|L]; [apply (IH1 _ eq_refl) in L|apply (IH2 _ eq_refl) in L];
        destruct L as (cs & I & F); exists cs; (split; [apply in_app_iff; auto|exact F]).
    + intros (cs & I & F). apply in_app_iff in I as [I|I]; [apply L_alt1, (IH1 _ eq_refl)|apply L_alt2, (IH2 _ eq_refl)]; eauto.
  - destruct mn; [|discriminate]. destruct mx as [[|[|]]|]; try discriminate. destruct (shapes r) as [l1|]; [|discriminate].
    injection H as <-. rewrite lang_opt, (IH _ eq_refl). split.
    + intros [->|(cs & I & F)]; [exists []; split; [now left|constructor]|exists cs; split; [now right|exact F]].
    + intros (cs & [<-|I] & F); [inversion F; now left|right; eauto].
  - split.
    + intros L. apply lang_grp_inv in L. now apply (IH _ H) in L.
    + intros X. constructor. now apply (IH _ H).
Qed.

(** the characters of a class of single characters, up to case *)
Fixpoint points (c : cls) : option (list N) :=
  match c with
  | CFold (CRange lo hi) => if N.eqb lo hi then Some [lo] else None
  | CUnion a b => match points a, points b with Some l, Some k => Some (l ++ k) | _, _ => None end
  | _ => None
  end.
Fixpoint spell (cs : list cls) : option (list str) :=
  match cs with
  | [] => Some [[]]
  | c :: cs' => match points c, spell cs' with
                | Some l, Some k => Some (flat_map (fun x => map (cons x) k) l)
                | _, _ => None
                end
  end.
Fixpoint spells (l : list (list cls)) : option (list str) :=
  match l with
  | [] => Some []
  | cs :: l' => match spell cs, spells l' with Some a, Some b => Some (a ++ b) | _, _ => None end
  end.

(** small letters for capital ones: ASCII, full-width, O with acute; the long s is an s *)
Definition small (c : char) : char :=
  (if in_range 65 90 c then c + 32 else if in_range 65313 65338 c then c + 32
   else if N.eqb c 211 then 243 else if N.eqb c 383 then 115 else c)%N.
(** the characters that occur in the patterns *)
Definition pattern_chars : list N :=
  lit "extnsioa" ++ [769; 243; 65349; 65368; 65364; 65358; 65353; 65283; 65374; 65294; 160; 9]%N ++ lit " ,;#~:.-=".

Lemma variants_iff : forall k x, In k (case_variants x) <->
  ((65 <= x <= 90 /\ x + 32 = k) \/ (97 <= x <= 122 /\ x - 32 = k) \/ ((x = 115 \/ x = 83) /\ 383 = k)
   \/ (x = 383 /\ (115 = k \/ 83 = k)) \/ ((x = 107 \/ x = 75) /\ 8490 = k) \/ (x = 8490 /\ (107 = k \/ 75 = k))
   \/ (65313 <= x <= 65338 /\ x + 32 = k) \/ (65345 <= x <= 65370 /\ x - 32 = k)
   \/ (192 <= x <= 222 /\ x <> 215 /\ x + 32 = k) \/ (224 <= x <= 254 /\ x <> 247 /\ x - 32 = k))%N.
Proof.
  intros k x. unfold case_variants. rewrite !in_app_iff.
  assert (G : forall (b : bool) (P : Prop) (l : list N), (b = true <-> P) -> (In k (if b then l else []) <-> P /\ In k l)).
  { intros b P l H. destruct b; [tauto|]. split; [intros []|]. intros [HP _]. apply H in HP. discriminate. }
  assert (R : forall lo hi y, in_range lo hi y = true <-> (lo <= y <= hi)%N).
  { intros lo hi y. unfold in_range. rewrite andb_true_iff, !N.leb_le. tauto. }
  rewrite (G _ _ _ (R _ _ _)), (G _ _ _ (R _ _ _)), (G (N.eqb x 115 || N.eqb x 83) (x = 115 \/ x = 83)%N),
    (G (N.eqb x 383) (x = 383)%N), (G (N.eqb x 107 || N.eqb x 75) (x = 107 \/ x = 75)%N), (G (N.eqb x 8490) (x = 8490)%N),
    (G _ _ _ (R _ _ _)), (G _ _ _ (R _ _ _)), (G (in_range 192 222 x && negb (N.eqb x 215)) (192 <= x <= 222 /\ x <> 215)%N),
    (G (in_range 224 254 x && negb (N.eqb x 247)) (224 <= x <= 254 /\ x <> 247)%N);
  try (rewrite ?orb_true_iff, ?andb_true_iff, ?negb_true_iff, ?N.eqb_eq, ?N.eqb_neq, ?R; tauto).
  cbn [In]. tauto.
Qed.

Definition near (k : N) : list N := [k; k - 32; k + 32; 211; 383; 115; 83; 8490; 107; 75]%N.
Lemma fold_point : forall k, In k pattern_chars -> forall x, in_cls (CFold (CRange k k)) x = true <-> small x = k.
Proof.
  intros k Hk x.
  assert (G : forallb (fun k => forallb (fun x => Bool.eqb (in_cls (CFold (CRange k k)) x) (N.eqb (small x) k)) (near k)) pattern_chars = true)
    by (vm_compute; reflexivity).
  rewrite forallb_forall in G. apply G in Hk. clear G. rewrite forallb_forall in Hk.
  assert (K : In x (near k) -> in_cls (CFold (CRange k k)) x = true <-> small x = k).
  { intros I. apply Hk, eqb_prop in I. rewrite I. apply N.eqb_eq. }
  clear Hk. split; intros H; apply K; auto.
  - cbn [in_cls] in H. rewrite in_range_single in H. destruct (N.eqb_spec x k) as [->|]; [now left|].
    apply existsb_exists in H as (y & I & Hy). rewrite in_range_single in Hy. apply N.eqb_eq in Hy. subst y.
    clear K. apply variants_iff in I. unfold near. cbn [In].
    repeat (destruct I as [I|I]; [lia|]). lia.
  - clear K. unfold small, in_range in H. unfold near. cbn [In].
    destruct (N.leb 65 x && N.leb x 90); [lia|]. destruct (N.leb 65313 x && N.leb x 65338); [lia|].
    destruct (N.eqb_spec x 211); [lia|]. destruct (N.eqb_spec x 383); lia.
Qed.

Lemma points_iff : forall c l, points c = Some l -> incl l pattern_chars -> forall x, in_cls c x = true <-> In (small x) l.
Proof.
  induction c as [lo hi|u|c IH|a IHa b IHb|a IHa b IHb|c IH]; intros l H Hl x; cbn [points] in H; try discriminate H.
  - destruct (points a) as [la|]; [|discriminate]. destruct (points b) as [lb|]; [|discriminate]. injection H as <-.
    apply incl_app_inv in Hl as [Ha Hb]. change (in_cls (CUnion a b) x) with (if in_cls a x then true else in_cls b x).
    rewrite in_app_iff, <- (IHa _ eq_refl Ha), <- (IHb _ eq_refl Hb). destruct (in_cls a x); intuition.
  - destruct c as [lo hi| | | | |]; try discriminate H. destruct (N.eqb_spec lo hi); [|discriminate H]. injection H as <-. subst hi.
    rewrite fold_point by (apply Hl; now left). cbn [In]. intuition.
Qed.
Lemma spell_iff : forall cs l, spell cs = Some l -> (forall w, In w l -> incl w pattern_chars) -> forall t,
  fits cs t <-> In (map small t) l.
Proof.
  induction cs as [|c cs IH]; intros l H Hl t; cbn [spell] in H.
  - injection H as <-. split.
    + intros F. inversion F. now left.
    + intros [E|[]]. destruct t; [constructor|discriminate E].
  - destruct (points c) as [lc|] eqn:Ec; [|discriminate]. destruct (spell cs) as [k|]; [|discriminate]. injection H as <-.
    assert (Hin : forall x w, In x lc -> In w k -> incl (x :: w) pattern_chars).
    { intros x w Hx Hw. apply Hl. apply in_flat_map. exists x. split; [exact Hx|]. now apply in_map. }
    assert (Kn : k = [] \/ exists w, In w k) by (destruct k as [|w k]; [now left|right; exists w; now left]).
    destruct Kn as [->|(w0 & Hw0)].
    { split.
      - intros F. inversion F as [|? x ? t' Hx F']; subst. apply (IH _ eq_refl) in F'; [destruct F'|]. intros w [].
      - intros I. apply in_flat_map in I as (x & _ & I). destruct I. }
    assert (Hc : incl lc pattern_chars). { intros x Hx. apply (Hin x w0 Hx Hw0). now left. }
    assert (Ln : lc = [] \/ exists x, In x lc) by (destruct lc as [|x lc]; [now left|right; exists x; now left]).
    split.
    + intros F. inversion F as [|? x ? t' Hx F']; subst. apply (points_iff _ _ Ec Hc) in Hx.
      apply (IH _ eq_refl) in F'.
      * cbn [map]. apply in_flat_map. exists (small x). split; [exact Hx|]. apply in_map, F'.
      * intros w Hw y Iy. apply (Hin _ w Hx Hw). now right.
    + intros I. apply in_flat_map in I as (x & Hx & I). apply in_map_iff in I as (w & Ew & Hw).
      destruct t as [|y t]; [discriminate Ew|]. cbn [map] in Ew. injection Ew as -> ->. constructor.
      * now apply (points_iff _ _ Ec Hc).
      * apply (IH _ eq_refl); [|exact Hw]. intros w Hw' z Iz. apply (Hin _ w Hx Hw'). now right.
Qed.
Lemma spells_iff : forall l k, spells l = Some k -> (forall w, In w k -> incl w pattern_chars) -> forall t,
  (exists cs, In cs l /\ fits cs t) <-> In (map small t) k.
Proof.
  induction l as [|cs l IH]; intros k H Hk t; cbn [spells] in H.
  - injection H as <-. split; [intros (cs & [] & _)|intros []].
  - destruct (spell cs) as [a|] eqn:Ea; [|discriminate]. destruct (spells l) as [b|]; [|discriminate]. injection H as <-.
    rewrite in_app_iff, <- (IH _ eq_refl), <- (spell_iff _ _ Ea).
    + split; [intros (c & [<-|I] & F); [now left|right; eauto]|intros [F|(c & I & F)]; [exists cs|exists c]; cbn; auto].
    + intros w I. apply Hk, in_app_iff. now left.
    + intros w I. apply Hk, in_app_iff. now right.
Qed.

(** the words of a pattern *)
Theorem finite_pattern : forall r l k, shapes r = Some l -> spells l = Some k ->
  forallb (fun w => forallb (fun c => existsb (N.eqb c) pattern_chars) w) k = true ->
  forall b t a, lang r b t a <-> In (map small t) k.
Proof.
  intros r l k Hs Hp Hc b t a. rewrite (shapes_iff _ _ Hs), (spells_iff _ _ Hp); [tauto|].
  intros w I c J. rewrite forallb_forall in Hc. apply Hc in I. rewrite forallb_forall in I. apply I in J.
  apply existsb_exists in J as (y & K & Ey). apply N.eqb_eq in Ey. now subst y.
Qed.

(** ** What the extension pattern captures *)
Lemma cap_skip : forall i news l, has i news = false -> cap_lookup i (news ++ l) = cap_lookup i l.
Proof.
  intros i news l H. induction news as [|[j c] news IH]; [reflexivity|].
  cbn [has existsb fst] in H. apply orb_false_iff in H as [H1 H2]. cbn [app cap_lookup]. rewrite H1. apply IH, H2.
Qed.
Lemma find_ext_cases : forall s m, re_find EXTN_PATTERN s = Some m ->
  s = mr_pre m ++ mr_text m /\ mr_post m = [] /\
  ((cap_get m 2 = None /\ (lang extn1 (mr_pre m) (mr_text m) [] \/ lang extn3 (mr_pre m) (mr_text m) []))
   \/ exists mk e h c, mr_text m = mk ++ e ++ h /\ (exists b a, lang extn_mark b mk a) /\ (exists b a, lang extn_digits b e a)
        /\ (exists b a, lang extn_hash b h a) /\ cap_get m 2 = Some c /\ cap_text c = e).
Proof.
  intros s m Ef. pose proof (re_find_some _ _ _ Ef) as (Es & Hl & _).
  assert (Ep : mr_post m = []).
  { rewrite extn_shape in Hl. apply lang_cat_inv in Hl as (t1 & t2 & _ & _ & He). now apply lang_end_inv in He as [_ He]. }
  rewrite Ep, app_nil_r in Es. split; [exact Es|]. split; [exact Ep|].
  destruct (re_find_run _ _ _ Ef) as (st & Hin & Hrest & Hcaps). rewrite Ep, app_nil_r in Hin. rewrite Ep in Hrest.
  rewrite extn_shape in Hin. cbn [ms] in Hin. apply in_flat_map in Hin as (s1 & Hin & Hfin).
  destruct (m_rest s1) as [|q qs] eqn:Er; [|destruct Hfin]. destruct Hfin as [<-|[]].
  set (s0 := mk_mst (blen (mr_pre m)) (mr_text m) []) in *.
  assert (Snd : forall r, In s1 (ms r s0) -> lang r (mr_pre m) (mr_text m) []).
  { intros r Hi. destruct (ms_sound r _ _ (mr_pre m) Hi eq_refl) as (t & (R1 & _) & R2).
    cbn [m_rest s0] in R1. rewrite Er, app_nil_r in R1. rewrite Er in R2. now subst t. }
  assert (Nv : forall r, never 2 r = true -> In s1 (ms r s0) -> cap_get m 2 = None).
  { intros r Hn Hi. destruct (never_sound 2 r _ _ Hn Hi) as (news & Hnews & Hhas).
    cbn [cap_get]. rewrite <- Hcaps, Hnews, cap_skip by exact Hhas. reflexivity. }
  apply in_app_iff in Hin as [Hin|Hin].
  2:{ left. split; [exact (Nv extn3 eq_refl Hin)|right; now apply Snd]. }
  apply in_app_iff in Hin as [Hin|Hin].
  { left. split; [exact (Nv extn1 eq_refl Hin)|left; now apply Snd]. }
  right. rewrite extn2_shape in Hin.
  change (ms (RCat (RCat extn_mark (RGrp 2 extn_digits)) extn_hash))
    with (fun s => flat_map (ms extn_hash) (flat_map (ms (RGrp 2 extn_digits)) (ms extn_mark s))) in Hin.
  cbv beta in Hin. apply in_flat_map in Hin as (s2 & Hin & Hh). apply in_flat_map in Hin as (s3 & Hin & Hg).
  destruct (ms_sound _ _ _ (mr_pre m) Hin eq_refl) as (tx & (X1 & X2) & X3).
  change (ms (RGrp 2 extn_digits) s3) with (map (close_grp 2 s3) (ms extn_digits s3)) in Hg.
  apply in_map_iff in Hg as (s4 & <- & Hg).
  destruct (ms_sound _ _ _ (mr_pre m ++ tx) Hg) as (g & (G1 & G2) & G3); [exact X2|].
  destruct (ms_sound _ _ _ ((mr_pre m ++ tx) ++ g) Hh) as (th & (T1 & T2) & T3); [exact G2|].
  cbn [close_grp m_rest m_pos] in T1, T2. rewrite Er in T1. rewrite app_nil_r in T1.
  cbn [m_rest s0] in X1. rewrite G1, T1 in X1.
  destruct (never_sound 2 extn_hash _ _ eq_refl Hh) as (news & Hnews & Hhas).
  exists tx, g, th, (mk_cap (m_pos s3) (m_pos s4) (consumed s3 s4)). split; [exact X1|].
  split; [eauto|]. split; [eauto|]. split; [eauto|]. split.
  - cbn [cap_get]. rewrite <- Hcaps, Hnews, cap_skip by exact Hhas. reflexivity.
  - cbn [cap_text]. apply (consumed_reach (mr_pre m ++ tx) s3 s4 g). split; assumption.
Qed.

(** ** Any extension is carried along, normalised like the number *)
Lemma international_prefix_ext : forall E idd o s,
  @international_prefix E idd (xt o (bare s))
  = oxt (option_map (act (choose_mappings s)) o) (international_prefix idd (bare s)).
Proof.
  intros E idd o s. unfold international_prefix.
  change (pn_national (xt o (bare s))) with s. change (pn_prefix (xt o (bare s))) with (@None str).
  change (pn_national (bare s)) with s. change (pn_prefix (bare s)) with (@None str). cbv iota.
  fold (choose_mappings s). set (mp := choose_mappings s).
  assert (Nx : forall n, pn_extension n = None -> normalize mp (xt o n) = xt (option_map (act mp) o) (normalize mp n)).
  { intros [k a p x c] Hx. reflexivity. }
  destruct (negb (Nat.eqb (ignore_plus_len s) 0)).
  - unfold trim. destruct (slice_from s (ignore_plus_len s)) as [t|]; [|reflexivity]. cbn [unwrap obind].
    change (set_national (set_country (xt o (bare s)) SrcPlus) t)
      with (xt o (set_national (set_country (bare s) SrcPlus) t)).
    rewrite Nx by reflexivity. set (n1 := normalize mp _).
    change (pn_national (xt (option_map (act mp) o) n1)) with (pn_national n1).
    destruct (negb _); [reflexivity|]. apply strip_idd_xt.
  - change (set_country (xt o (bare s)) SrcDefault) with (xt o (set_country (bare s) SrcDefault)).
    rewrite Nx by reflexivity. apply strip_idd_xt.
Qed.
Lemma country_code_oxt : forall db country o' n n0,
  (forall idd, @international_prefix perr idd n = oxt o' (international_prefix idd n0)) ->
  country_code db country n = oxt o' (country_code db country n0).
Proof.
  intros db country e n n0 H. unfold country_code. rewrite H.
  destruct (international_prefix _ n0) as [n1| |]; cbn [oxt obind]; try reflexivity.
  change (pn_country (xt e n1)) with (pn_country n1). change (pn_prefix (xt e n1)) with (pn_prefix n1).
  change (pn_national (xt e n1)) with (pn_national n1).
  assert (A : (if blen (pn_national n1) <=? MIN_LENGTH_FOR_NSN then Err TooShortNsn
      else match pn_prefix n1 with
        | Some p => let* prefix := ok_or (parse_u16 p) MalformedInteger in
                    match by_code db prefix with None => Err InvalidCountryCode | Some _ => Ok (xt e n1) end
        | None => if starts_with (pn_national n1) [ch_0] then Err InvalidCountryCode
                  else find_code db (xt e n1) (seq 1 MAX_LENGTH_FOR_COUNTRY_CODE) end)
    = oxt e (if blen (pn_national n1) <=? MIN_LENGTH_FOR_NSN then Err TooShortNsn
      else match pn_prefix n1 with
        | Some p => let* prefix := ok_or (parse_u16 p) MalformedInteger in
                    match by_code db prefix with None => Err InvalidCountryCode | Some _ => Ok n1 end
        | None => if starts_with (pn_national n1) [ch_0] then Err InvalidCountryCode
                  else find_code db n1 (seq 1 MAX_LENGTH_FOR_COUNTRY_CODE) end)).
  { destruct (blen (pn_national n1) <=? MIN_LENGTH_FOR_NSN); [reflexivity|]. destruct (pn_prefix n1) as [p|].
    - destruct (parse_u16 p) as [v|]; cbn [ok_or obind]; [|reflexivity]. destruct (by_code db v); reflexivity.
    - destruct (starts_with _ _); [reflexivity|]. apply find_code_xt. }
  destruct (pn_country n1); [exact A|exact A|exact A|]. clear A.
  destruct country as [i|]; [|reflexivity]. destruct (by_id db (id_name i)) as [m|]; [|reflexivity]. cbn [unwrap obind].
  match goal with |- context [if ?c then _ else _] => destruct c end; [|reflexivity].
  unfold trim. destruct (slice_from (pn_national n1) (blen (dec (md_country_code m)))); reflexivity.
Qed.

Definition rest_of_parse (db : database) (country : option id) (n : number) : outcome perr phone :=
  let* n := country_code db country n in
  let* meta := select_meta db country n in
  let* n := strip_national meta n in finish n.
Lemma rest_xt : forall db country o' n n0, country_code db country n = oxt o' (country_code db country n0) ->
  rest_of_parse db country n = let* p := rest_of_parse db country n0 in Ok (with_ext o' p).
Proof.
  intros db country o' n n0 H. unfold rest_of_parse. rewrite H.
  destruct (country_code db country n0) as [n1| |]; cbn [oxt obind]; try reflexivity.
  rewrite select_meta_xt. destruct (select_meta db country n1) as [meta| |]; cbn [obind]; try reflexivity.
  rewrite strip_national_xt. destruct (strip_national meta n1) as [n2| |]; cbn [oxt obind]; try reflexivity.
  apply finish_xt.
Qed.
