(** * C67: the numbers the metadata describe are recognised *)
From Verif Require Import Base Unicode Regex RegexSyntax Consts CountryId Types NationalNumber
  Metadata Database Validator Valid Number Rfc3966 Helper Natural PhoneNumber Parser Formatter Loader
  DefaultDb DefaultDbOk Api.
From Verif Require Import StrFacts NationalFacts RegexLang RegexFacts RegexCaps RegexDeriv RegexMany RegexExact RegexCover
  DatabaseFacts ParserFacts ParseInv TextFacts ViableFacts PhoneText E164Facts CoreFacts DialFacts FormatFacts FormatDigits
  PropsPanic PropsE164 PropsValid PropsNational ClaimFacts PropsClaims PropsGrouped PropsErrors.

(** ** The property *)
(** digits of a kind of number the entry describes: a length listed for the kind,
    and both the kind's pattern and the general one match all of them *)
Definition described_as (m : metadata) (t : ptype) (w : str) : Prop :=
  exists d, In (t, Some d) (type_order (md_descriptors m)) /\ In (N.of_nat (length w)) (d_possible_length d)
    /\ matches_whole (re_ast (d_national_number d)) w
    /\ matches_whole (re_ast (d_national_number (ds_general (md_descriptors m)))) w.
(** the type reported for such a number; fixed lines and mobiles may not be told apart *)
Definition named (t t' : ptype) : Prop :=
  t' = t \/ ((t = TFixedLine \/ t = TMobile) /\ t' = TFixedLineOrMobile).
(** kinds with numbers for which another type is reported: Brazilian mobiles, Chinese
    fixed lines, freephone numbers of New Zealand *)
Definition misnamed : list (str * ptype) := [(lit "BR", TMobile); (lit "CN", TFixedLine); (lit "NZ", TTollFree)].

(** ** Kinds by their place in the order of types *)
Definition no_kind : ptype * option descriptor := (TUnknown, None).
Definition kind (i : nat) (m : metadata) : ptype * option descriptor := nth i (type_order (md_descriptors m)) no_kind.
Lemma kind_in : forall m t d, In (t, Some d) (type_order (md_descriptors m)) -> exists i, i < 10 /\ kind i m = (t, Some d).
Proof. intros m t d I. apply (In_nth _ _ no_kind) in I as (i & L & E). exists i. split; [exact L|exact E]. Qed.
Lemma kind_types : forall i m t d, kind i m = (t, Some d) -> In (t, Some d) (type_order (md_descriptors m)).
Proof.
  intros i m t d E. unfold kind in E. destruct (nth_in_or_default i (type_order (md_descriptors m)) no_kind) as [I|I].
  - now rewrite E in I.
  - rewrite E in I. discriminate.
Qed.
Lemma kind_same : forall i m x, fst (kind i m) = fst (kind i x).
Proof. intros i m x. unfold kind, type_order. do 11 (destruct i as [|i]; [reflexivity|]). reflexivity. Qed.
Lemma kind_mobile : forall m, kind 9 m = (TMobile, ds_mobile (md_descriptors m)).
Proof. reflexivity. Qed.
Lemma kind_eight : forall m t o, kind 8 m = (t, o) -> t = TFixedLine.
Proof. intros m t o E. unfold kind, type_order in E. cbn [nth] in E. congruence. Qed.
Lemma same_type : forall a b, ptype_eqb a b = true <-> a = b.
Proof. intros a b. split; [|intros <-; now destruct a]. destruct a, b; (reflexivity || discriminate). Qed.
Definition fits_kind (i : nat) (x : metadata) (w : str) : Prop := exists t d, kind i x = (t, Some d) /\ fits d w.

Lemma type_named : forall x w i t t', fst (kind i x) = t -> fits (ds_general (md_descriptors x)) w -> fits_kind i x w ->
  (forall j, j < i -> ~ (j = 8 /\ i = 9) -> ~ fits_kind j x w) -> has_type x w t' -> named t t'.
Proof.
  intros x w i t t' Et G (t0 & d & Ek & F) B H. rewrite Ek in Et. cbn [fst] in Et. subst t0.
  assert (K : known_type x w).
  { split; [exact G|]. exists t, (Some d). split; [now apply (kind_types i)|]. exists d. auto. }
  destruct H as [[N _]|(_ & b & k & o & a & O & Hb & Fo & C)]; [now elim N|].
  assert (Ej : kind (length b) x = (k, o)).
  { unfold kind. rewrite O. rewrite app_nth2, Nat.sub_diag by lia. reflexivity. }
  destruct (lt_eq_lt_dec (length b) i) as [[L|E]|L].
  - assert (X : length b = 8 /\ i = 9).
    { destruct (Nat.eq_dec (length b) 8), (Nat.eq_dec i 9); try (now split); exfalso;
        (apply (B _ L); [lia|]); destruct Fo as (d0 & -> & F0); exists k, d0; auto. }
    destruct X as [X ->]. rewrite X in Ej. pose proof (kind_eight _ _ _ Ej) as ->. rewrite kind_mobile in Ek.
    injection Ek as <- Em. right. split; [now right|]. destruct C as [[N _]|[(_ & _ & ->)|(_ & N & _)]]; [now elim N|reflexivity|].
    exfalso. apply N. left. exists d. auto.
  - subst i. rewrite Ek in Ej. injection Ej as <- <-. destruct C as [[_ ->]|[(-> & _ & ->)|(-> & _ & ->)]].
    + now left.
    + right. auto.
    + now left.
  - exfalso. apply (Hb t (Some d)); [|exists d; auto]. rewrite <- Ek. unfold kind. rewrite O.
    rewrite app_nth1 by exact L. now apply nth_In.
Qed.

(** ** Deciding it *)
Definition gen (m : metadata) : re := whole (re_ast (d_national_number (ds_general (md_descriptors m)))).
Definition all_kinds (k : N) (m : metadata) : list re := [gen m; whole (alts (kinds_at m k))].
Definition known_at (k : N) (x : metadata) : list re := [at_len k (ds_general (md_descriptors x)); alts (types_at k x)].
Definition misnamedb (m : metadata) (t : ptype) : bool :=
  existsb (fun p => if ptype_eqb (snd p) t then str_eqb (fst p) (md_id m) else false) misnamed.
Definition kind_at (k : N) (x : metadata) (i : nat) : re := match kind i x with (_, Some d) => at_len k d | _ => void end.
(** no kind before the [i]-th fits *)
Definition earlier (n : nat) (k : N) (rs : list re) (x : metadata) (i : nat) : bool :=
  forallb (fun j => if (if Nat.eqb j 8 then Nat.eqb i 9 else false) then true else
    match kind j x with
    | (_, Some d) => if admits k d then re_cover ascii_digits n (re_ast (d_national_number d) :: rs) [] else true
    | _ => true
    end) (seq 0 i).
Definition kinds_ok (own : bool) (k : N) (m x : metadata) : bool :=
  let n := N.to_nat k in
  forallb (fun i => match kind i m with
    | (_, None) => true
    | (t, Some d) =>
        if memN k (d_possible_length d) then if misnamedb m t then true else
          let base := [gen m; whole (re_ast (d_national_number d))] ++ (if own then [] else claim_res k x) in
          if (if own then true else re_cover ascii_digits n base [[kind_at k x i]]) then earlier n k base x i else false
        else true
    end) (seq 0 10).
Definition own_ok (m : metadata) : bool :=
  forallb (fun k => if admits k (ds_general (md_descriptors m)) then kinds_ok true k m m else false) (lengths_of m).
Definition pair_ok (m x : metadata) : bool :=
  forallb (fun k => let n := N.to_nat k in let base := all_kinds k m ++ claim_res k x in
    if re_cover ascii_digits n base [] then true else
    if (match md_leading_digits x with None => true | Some _ => re_cover ascii_digits n base [known_at k x] end)
    then kinds_ok false k m x else false) (lengths_of m).
Definition both_ok (m x : metadata) : bool := if pair_ok m x then pair_ok x m else false.
Definition claimed (l : list metadata) (m : metadata) : bool :=
  forallb (fun k => re_cover ascii_digits (N.to_nat k) (all_kinds k m) (map (claim_res k) l)) (lengths_of m).
Definition recognised (l : list metadata) : bool :=
  if forallb own_ok l then match l with [_] => true | _ => if forallb (claimed l) l then each_pair both_ok l else false end else false.
Definition all_recognised (db : database) : bool := forallb (fun p => recognised (snd p)) (db_by_code db).
Lemma default_recognised : all_recognised default_db = true.
Proof. vm_cast_no_check (eq_refl true). Qed.

Lemma cover_none : forall w rs, digits w = true -> re_cover ascii_digits (length w) rs [] = true ->
  ~ Forall (fun r => matches_prefix r w) rs.
Proof. intros w rs Dw H F. destruct (re_cover_sound ascii_digits _ _ w (in_ascii w Dw) H F) as (g & [] & _). Qed.
Lemma cover_one : forall w rs g, digits w = true -> re_cover ascii_digits (length w) rs [g] = true ->
  Forall (fun r => matches_prefix r w) rs -> Forall (fun r => matches_prefix r w) g.
Proof. intros w rs g Dw H F. now destruct (re_cover_sound ascii_digits _ _ w (in_ascii w Dw) H F) as (g' & [<-|[]] & K). Qed.
Lemma fits_at : forall d v, fits d v <-> matches_prefix (at_len (N.of_nat (length v)) d) v.
Proof.
  intros d v. rewrite at_len_iff. unfold fits, admits. destruct (d_possible_length d) as [|x l]; [intuition|].
  rewrite <- memN_in. intuition discriminate.
Qed.
Lemma whole_prefix : forall r w, matches_whole r w -> matches_prefix r w.
Proof. intros r w L. exists w, []. split; [now rewrite app_nil_r|exact L]. Qed.
Lemma known_at_iff : forall x v, Forall (fun r => matches_prefix r v) (known_at (N.of_nat (length v)) x) -> known_type x v.
Proof.
  intros x v F. inversion F as [|r l A B]; subst. inversion B as [|r' l' C _]; subst. split; [now apply fits_at|].
  apply alts_iff in C. apply types_at_iff in C as (t & d & I & M). exists t, (Some d). split; [exact I|]. exists d.
  split; [reflexivity|]. now apply fits_at.
Qed.
Lemma described_whole : forall m t w, described_as m t w -> whole_number m w.
Proof. intros m t w (d & I & L & A & B). exists d. split; [now apply (types_in _ t)|]. auto. Qed.
Lemma whole_described : forall m w, whole_number m w <-> exists t, described_as m t w.
Proof.
  intros m w. split; [|intros (t & H); now apply (described_whole m t)]. intros (d & I & L & A & B).
  assert (K : exists t, In (t, Some d) (type_order (md_descriptors m))).
  { unfold types_of in I. apply in_flat_map in I as (o & I & J). destruct o as [d'|]; [|easy]. destruct J as [->|[]].
    change (In (Some d) (map snd (type_order (md_descriptors m)))) in I. apply in_map_iff in I as ([t o] & E & I).
    cbn [snd] in E. subst o. eauto. }
  destruct K as (t & K). exists t, d. auto.
Qed.

Lemma misnamedb_iff : forall m t, misnamedb m t = true <-> In (md_id m, t) misnamed.
Proof.
  intros m t. unfold misnamedb. rewrite existsb_exists. split.
  - intros ([r t0] & Ir & E). cbn [fst snd] in E. destruct (ptype_eqb t0 t) eqn:E1; [|discriminate].
    apply same_type in E1. apply str_eqb_eq in E. now subst.
  - intros I. exists (md_id m, t). split; [exact I|]. cbn [fst snd]. rewrite (proj2 (same_type t t) eq_refl). apply str_eqb_refl.
Qed.
Lemma misnamed_dec : forall m t, In (md_id m, t) misnamed \/ ~ In (md_id m, t) misnamed.
Proof.
  intros m t. destruct (misnamedb m t) eqn:E; [left; now apply misnamedb_iff|right]. intros I. apply misnamedb_iff in I. congruence.
Qed.
Lemma earlier_use : forall w rs x i j, digits w = true -> Forall (fun r => matches_prefix r w) rs ->
  earlier (length w) (N.of_nat (length w)) rs x i = true -> j < i -> ~ (j = 8 /\ i = 9) -> ~ fits_kind j x w.
Proof.
  intros w rs x i j Dw F H L N (t & d & E & Fd). unfold earlier in H. rewrite forallb_forall in H.
  specialize (H j ltac:(apply in_seq; lia)). rewrite E in H.
  destruct (if Nat.eqb j 8 then Nat.eqb i 9 else false) eqn:X.
  { destruct (Nat.eqb_spec j 8); [|discriminate]. apply Nat.eqb_eq in X. apply N. auto. }
  apply fits_at, at_len_iff in Fd as [A M]. rewrite A in H. apply (cover_none w _ Dw H). constructor; assumption.
Qed.
Lemma kinds_ok_use : forall own m x t w, digits w = true -> kinds_ok own (N.of_nat (length w)) m x = true ->
  described_as m t w -> (if own then m = x else claims x w) -> ~ In (md_id m, t) misnamed ->
  exists i, fst (kind i x) = t /\ fits_kind i x w /\ forall j, j < i -> ~ (j = 8 /\ i = 9) -> ~ fits_kind j x w.
Proof.
  intros own m x t w Dw H (d & I & Il & Lk & Lg) Hx Hm. destruct (kind_in m t d I) as (i & Hi & Ek). exists i.
  assert (Et : fst (kind i x) = t) by (rewrite (kind_same i x m), Ek; reflexivity). split; [exact Et|].
  unfold kinds_ok in H. cbv zeta in H. rewrite Nat2N.id in H. rewrite forallb_forall in H.
  specialize (H i ltac:(apply in_seq; lia)). rewrite Ek in H.
  replace (memN _ _) with true in H by (symmetry; now apply memN_in).
  destruct (misnamedb m t) eqn:Em.
  { exfalso. apply Hm. now apply misnamedb_iff. }
  assert (F : Forall (fun r => matches_prefix r w) ([gen m; whole (re_ast (d_national_number d))] ++
    (if own then [] else claim_res (N.of_nat (length w)) x))).
  { constructor; [now apply whole_iff|]. constructor; [now apply whole_iff|]. destruct own; [constructor|]. now apply claims_res. }
  destruct own.
  - subst x. split; [|intros j; now apply (earlier_use w _ m i j Dw F H)]. exists t, d. split; [exact Ek|].
    split; [now right|now apply whole_prefix].
  - destruct (re_cover ascii_digits (length w) _ [[kind_at _ x i]]) eqn:E; [|discriminate].
    split; [|intros j; now apply (earlier_use w _ x i j Dw F H)].
    pose proof (cover_one w _ _ Dw E F) as K. inversion K as [|r l K1 _]; subst. unfold kind_at in K1. unfold fits_kind.
    destruct (kind i x) as [t0 [d0|]]; [|now apply void_none in K1]. exists t0, d0. split; [reflexivity|]. now apply fits_at.
Qed.
Lemma kinds_match_at : forall m t w, described_as m t w ->
  In (N.of_nat (length w)) (lengths_of m) /\ Forall (fun r => matches_prefix r w) (all_kinds (N.of_nat (length w)) m).
Proof. intros m t w H. apply kinds_match. now apply (described_whole m t). Qed.

Lemma first_claimant : forall l w, digits w = true -> length w < 1000 -> (exists x, In x l /\ claims x w) ->
  exists b y a, l = b ++ y :: a /\ claims y w /\ forall x, In x b -> ~ claims x w.
Proof.
  intros l w Dw Lw. induction l as [|z l IH]; intros (x & I & C); [easy|]. destruct (hit w z) eqn:E.
  - apply hit_iff in E. exists [], z, l. split; [reflexivity|]. split; [|easy]. apply claims_res.
    rewrite digits_blen in E by exact Dw. unfold as_u16 in E. rewrite N.mod_small in E by lia. exact E.
  - assert (N : ~ claims z w).
    { intros K. apply claims_res in K. assert (hit w z = true); [|congruence]. apply hit_iff.
      rewrite digits_blen by exact Dw. unfold as_u16. rewrite N.mod_small by lia. exact K. }
    destruct I as [->|I]; [now elim N|]. destruct IH as (b & y & a & -> & Cy & B); [eauto|].
    exists (z :: b), y, a. split; [reflexivity|]. split; [exact Cy|]. intros u [<-|Iu]; auto.
Qed.
Lemma pair_ok_use : forall m x t w, digits w = true -> pair_ok m x = true -> described_as m t w -> claims x w ->
  known_type x w /\ (In (md_id m, t) misnamed \/ forall t', has_type x w t' -> named t t').
Proof.
  intros m x t w Dw H Hd Cx. destruct (kinds_match_at m t w Hd) as [Il F]. unfold pair_ok in H. rewrite forallb_forall in H.
  specialize (H _ Il). cbv zeta in H. rewrite Nat2N.id in H.
  assert (F' : Forall (fun r => matches_prefix r w) (all_kinds (N.of_nat (length w)) m ++ claim_res (N.of_nat (length w)) x)).
  { apply Forall_app. split; [exact F|]. now apply claims_res. }
  destruct (re_cover ascii_digits (length w) (all_kinds _ m ++ claim_res _ x) []) eqn:E0; [now apply (cover_none w _ Dw E0) in F'|].
  assert (K : known_type x w /\ kinds_ok false (N.of_nat (length w)) m x = true).
  { unfold claims in Cx. destruct (md_leading_digits x) as [r|].
    - destruct (re_cover ascii_digits (length w) _ [known_at _ x]) eqn:E; [|discriminate]. split; [|exact H].
      apply known_at_iff. exact (cover_one w _ _ Dw E F').
    - auto. }
  destruct K as [K Hk]. split; [exact K|]. destruct (misnamed_dec m t) as [Hm|Hm]; [now left|]. right. intros t' Ht.
  destruct (kinds_ok_use false m x t w Dw Hk Hd Cx Hm) as (i & E & Fi & B). exact (type_named x w i t t' E (proj1 K) Fi B Ht).
Qed.
(** some entry is responsible, knows the number, and names its kind *)
Lemma recognise : forall db c l m t w, all_recognised db = true -> by_code db c = Some l -> In m l -> digits w = true -> length w < 1000 ->
  described_as m t w ->
  exists y, responsible db c w y /\ known_type y w /\ In y l /\
    (In (md_id m, t) misnamed \/ forall t', has_type y w t' -> named t t').
Proof.
  intros db c l m t w H Hc Im Dw Lw Hd. unfold all_recognised in H. rewrite forallb_forall in H.
  pose proof (nget_in _ _ _ _ Hc) as Ic. apply H in Ic. cbn [snd] in Ic. clear H. unfold recognised in Ic.
  destruct (forallb own_ok l) eqn:Ho; [|discriminate]. rewrite forallb_forall in Ho.
  destruct (kinds_match_at m t w Hd) as [Il F].
  pose proof (misnamed_dec m t) as Hmis.
  assert (Own : known_type m w /\ (In (md_id m, t) misnamed \/ forall t', has_type m w t' -> named t t')).
  { specialize (Ho m Im). unfold own_ok in Ho. rewrite forallb_forall in Ho. specialize (Ho _ Il).
    destruct (admits _ _) eqn:A; [|discriminate]. destruct Hd as (d & I & Ll & Lk & Lg).
    assert (G : fits (ds_general (md_descriptors m)) w).
    { apply fits_at, at_len_iff. split; [exact A|]. now apply whole_prefix. }
    split.
    - split; [exact G|]. exists t, (Some d). split; [exact I|]. exists d. split; [reflexivity|]. split; [now right|now apply whole_prefix].
    - destruct Hmis as [?|Hm]; [now left|]. right. intros t' Ht.
      destruct (kinds_ok_use true m m t w Dw Ho) as (i & E & Fi & B); [now exists d|reflexivity|exact Hm|].
      exact (type_named m w i t t' E G Fi B Ht). }
  assert (Single : l = [m] -> exists y, responsible db c w y /\ known_type y w /\ In y l /\
    (In (md_id m, t) misnamed \/ forall t', has_type y w t' -> named t t')).
  { intros ->. exists m. split; [now left|]. destruct Own. auto. }
  assert (Shared : forallb (claimed l) l = true -> each_pair both_ok l = true -> length l <> 1 -> exists y, responsible db c w y /\ known_type y w /\ In y l /\
    (In (md_id m, t) misnamed \/ forall t', has_type y w t' -> named t t')).
  { intros Hcl Hp Hlen. rewrite forallb_forall in Hcl. specialize (Hcl m Im). unfold claimed in Hcl. rewrite forallb_forall in Hcl.
    specialize (Hcl _ Il). rewrite Nat2N.id in Hcl.
    destruct (re_cover_sound ascii_digits _ _ w (in_ascii w Dw) Hcl F) as (g & Ig & Hg). apply in_map_iff in Ig as (x & <- & Ix).
    destruct (first_claimant l w Dw Lw) as (b & y & a & El & Cy & By); [exists x; split; [exact Ix|now apply claims_res]|].
    assert (Q : known_type y w /\ (In (md_id m, t) misnamed \/ forall t', has_type y w t' -> named t t')).
    { assert (Im' : In m (b ++ y :: a)) by (now rewrite <- El). apply in_app_iff in Im' as [I|[->|I]]; [|exact Own|];
        (eapply pair_ok_use; [exact Dw| |exact Hd|exact Cy]); apply in_split in I as (u & v & E); subst.
      - assert (P : both_ok m y = true). { eapply (each_pair_sound both_ok _ u m v y a Hp). now rewrite <- app_assoc. }
        unfold both_ok in P. now destruct (pair_ok m y).
      - assert (P : both_ok y m = true). { eapply (each_pair_sound both_ok _ b y u m v Hp). reflexivity. }
        unfold both_ok in P. now destruct (pair_ok y m). }
    exists y. split; [|split; [apply Q|split; [|apply Q]]].
    - right. exists b, a. split; [now rewrite <- El|]. split; [|auto]. intros E. apply app_eq_nil in E as [-> ->].
      rewrite El in Hlen. now apply Hlen.
    - rewrite El. apply in_app_iff. right. now left. }
  destruct l as [|z [|z' l]]; [easy|apply Single; now destruct Im as [->|[]]|].
  destruct (forallb (claimed (z :: z' :: l)) (z :: z' :: l)) eqn:E1; [|discriminate]. apply Shared; [reflexivity|exact Ic|discriminate].
Qed.

(** ** C67 *)
(** Every number the metadata describe is valid. *)
Theorem C67_valid : forall c l m p, by_code default_db c = Some l -> In m l -> code_value (ph_code p) = c ->
  whole_number m (nn_show (ph_national p)) -> is_valid p = Ok true.
Proof.
  intros c l m p Hc Im Hp Hw. apply whole_described in Hw as (t & Hd). apply C16_default. rewrite Hp.
  destruct (recognise default_db c l m t _ default_recognised Hc Im (nn_show_digits _) (nn_show_length _) Hd) as (y & R & K & _). eauto.
Qed.

(** It is read from its E.164 text, unless the calling code is one of the twelve of C08. *)
Lemma valid_same : forall p q, code_value (ph_code q) = code_value (ph_code p) -> ph_national q = ph_national p -> is_valid q = is_valid p.
Proof. intros p q A B. unfold is_valid, is_valid_with. now rewrite A, B. Qed.
Theorem C67_parsed : forall c l m w, by_code default_db c = Some l -> In m l -> all_digits w -> whole_number m w -> value_of w <> 0%N ->
  ~ In c [7; 55; 62; 66; 81; 82; 91; 250; 359; 370; 375; 598]%N ->
  exists p, parse None (lit "+" ++ dec c ++ w) = Ok p /\ code_value (ph_code p) = c /\ nn_show (ph_national p) = w
    /\ is_valid p = Ok true /\ ph_extension p = None /\ ph_carrier p = None.
Proof.
  intros c l m w Hc Im Dw Hw Hv Hn. destruct (C66_held c l m w Hc Im Dw Hw Hv) as (n & P & S & V & Raw).
  set (p := mk_phone (mk_code c SrcPlus) n None None).
  assert (Va : is_valid p = Ok true). { apply (C67_valid c l m p Hc Im eq_refl). cbn [p ph_national]. now rewrite S. }
  destruct (C08_default None p) as (t & q & _ & Eq & -> & Ec & En & _ & Ex).
  - exact Raw.
  - cbn [p ph_national]. now rewrite V.
  - exact Va.
  - exact Hn.
  - now left.
  - cbn [p ph_code code_value ph_national] in *. rewrite S in Eq. exists q. split; [exact Eq|]. split; [exact Ec|].
    split; [now rewrite En|]. split; [|exact Ex]. rewrite (valid_same p q); [exact Va|exact Ec|exact En].
Qed.

(** *** Type and country, which are looked up without leading zeros *)
Lemma no_zeros : forall n, ~ (exists r, nn_show n = 48%N :: r) -> dec (nn_value n) = nn_show n.
Proof.
  intros n H. unfold nn_show in *. destruct (N.to_nat (nn_zeros n)) as [|k]; [reflexivity|]. exfalso. apply H. cbn [repeat app]. eauto.
Qed.
(** The type reported is the kind that describes the number. *)
Theorem C67_type : forall c l m t p, by_code default_db c = Some l -> In m l -> code_value (ph_code p) = c ->
  described_as m t (nn_show (ph_national p)) -> ~ (exists r, nn_show (ph_national p) = 48%N :: r) ->
  ~ In (md_id m, t) misnamed ->
  exists t', ph_number_type p = Ok t' /\ named t t'.
Proof.
  intros c l m t p Hc Im Hp Hd Hz Hm. pose proof (no_zeros _ Hz) as E.
  destruct (recognise default_db c l m t _ default_recognised Hc Im (nn_show_digits _) (nn_show_length _) Hd)
    as (y & R & _ & _ & [N|N]); [now elim Hm|].
  pose proof (number_type_has y _ (nn_show_digits (ph_national p)) (nn_show_length _)) as T.
  exists (number_type y (nn_show (ph_national p))). split; [|now apply N]. apply C17_default. left. exists y. rewrite E, Hp. auto.
Qed.
(** The country reported is one with this calling code in whose metadata the number is valid. *)
Theorem C67_country : forall c l m p, by_code default_db c = Some l -> In m l -> md_id m <> lit "001" -> code_value (ph_code p) = c ->
  whole_number m (nn_show (ph_national p)) -> ~ (exists r, nn_show (ph_national p) = 48%N :: r) ->
  exists i y, country_id p = Ok (Some i) /\ In y l /\ md_id y = id_name i /\ known_type y (nn_show (ph_national p)).
Proof.
  intros c l m p Hc Im Hi Hp Hw Hz. apply whole_described in Hw as (t & Hd). pose proof (no_zeros _ Hz) as E.
  destruct (recognise default_db c l m t _ default_recognised Hc Im (nn_show_digits _) (nn_show_length _) Hd) as (y & R & K & Iy & _).
  destruct default_regular as [_ Hids]. destruct (Hids c l Hc) as [(m0 & -> & H0)|H].
  { destruct Im as [<-|[]]. now elim Hi. }
  destruct (H y Iy) as (_ & i & Ei). apply id_of_name_inv in Ei. exists i, y. split; [|auto].
  destruct (C20_country default_db p default_regular) as (_ & C & _). apply C. exists y. rewrite E, Hp. auto.
Qed.

(** None of the three can be left out. *)
Definition misnamed_numbers : list (str * ptype * (N * str)) :=
  [(lit "BR", TMobile, (55%N, lit "4370000000")); (lit "CN", TFixedLine, (86%N, lit "1010100000"));
   (lit "NZ", TTollFree, (64%N, lit "508800000"))].
Definition described_b (m : metadata) (t : ptype) (w : str) : bool :=
  existsb (fun p => if ptype_eqb (fst p) t then match snd p with
    | Some d => if memN (N.of_nat (length w)) (d_possible_length d) then if whole_match (d_national_number d) w
                then whole_match (d_national_number (ds_general (md_descriptors m))) w else false else false
    | None => false end else false) (type_order (md_descriptors m)).
Lemma described_b_use : forall m t w, described_b m t w = true -> described_as m t w.
Proof.
  intros m t w H. apply existsb_exists in H as ([t0 o] & I & H). cbn [fst snd] in H. destruct (ptype_eqb t0 t) eqn:E; [|discriminate].
  apply same_type in E. subst t0. destruct o as [d|]; [|discriminate]. destruct (memN _ _) eqn:M; [|discriminate].
  destruct (whole_match (d_national_number d) w) eqn:W; [|discriminate]. exists d. split; [exact I|]. split; [now apply memN_in|].
  split; now apply whole_match_use.
Qed.
Definition namedb (t t' : ptype) : bool :=
  if ptype_eqb t' t then true else if (if ptype_eqb t TFixedLine then true else ptype_eqb t TMobile) then ptype_eqb t' TFixedLineOrMobile else false.
Lemma namedb_use : forall t t', named t t' -> namedb t t' = true.
Proof.
  intros t t' [->|[H ->]]; unfold namedb; [now rewrite (proj2 (same_type t t) eq_refl)|]. destruct H as [->| ->]; reflexivity.
Qed.
Definition misnames (db : database) (x : str * ptype * (N * str)) : bool :=
  let '(r, t, (c, w)) := x in
  match plain c w, by_code db c with
  | Some p, Some l =>
      if str_eqb (nn_show (ph_national p)) w then if existsb (fun m => if str_eqb (md_id m) r then described_b m t w else false) l then
        match number_type_with db p with Ok t' => negb (namedb t t') | _ => false end else false else false
  | _, _ => false
  end.
Lemma misnames_use : forall db r t c w, misnames db (r, t, (c, w)) = true ->
  exists l m p t', by_code db c = Some l /\ In m l /\ md_id m = r /\ code_value (ph_code p) = c
    /\ described_as m t (nn_show (ph_national p)) /\ nn_show (ph_national p) = w /\ number_type_with db p = Ok t' /\ ~ named t t'.
Proof.
  intros db r t c w H. unfold misnames in H. destruct (plain c w) as [p|] eqn:Ep; [|discriminate].
  destruct (by_code db c) as [l|]; [|discriminate]. destruct (str_eqb (nn_show _) w) eqn:Es; [|discriminate]. apply str_eqb_eq in Es.
  destruct (existsb _ l) eqn:Ex; [|discriminate]. apply existsb_exists in Ex as (m & Im & D).
  destruct (str_eqb (md_id m) r) eqn:Er; [|discriminate]. apply str_eqb_eq in Er.
  destruct (number_type_with db p) as [t'| |] eqn:Et; [|discriminate..]. exists l, m, p, t'.
  split; [reflexivity|]. split; [exact Im|]. split; [exact Er|].
  split. { unfold plain in Ep. destruct (nn_parse w); [|discriminate..]. now inversion Ep. }
  split; [rewrite Es; now apply described_b_use|]. split; [exact Es|]. split; [exact Et|].
  intros N. apply namedb_use in N. rewrite N in H. discriminate.
Qed.
Lemma default_misnames : forallb (misnames default_db) misnamed_numbers = true.
Proof. vm_cast_no_check (eq_refl true). Qed.
Lemma misnamed_numbers_in : forall r t, In (r, t) misnamed -> exists c w, In (r, t, (c, w)) misnamed_numbers /\ ~ (exists v, w = 48%N :: v).
Proof.
  intros r t [E|[E|[E|[]]]]; injection E as <- <-; do 2 eexists.
  - split; [left; reflexivity|]. intros (v & Ev). discriminate Ev.
  - split; [right; left; reflexivity|]. intros (v & Ev). discriminate Ev.
  - split; [right; right; left; reflexivity|]. intros (v & Ev). discriminate Ev.
Qed.
Theorem C67_type_exact : forall r t, In (r, t) misnamed ->
  exists c l m p t', by_code default_db c = Some l /\ In m l /\ md_id m = r /\ code_value (ph_code p) = c
    /\ described_as m t (nn_show (ph_national p)) /\ ~ (exists v, nn_show (ph_national p) = 48%N :: v)
    /\ ph_number_type p = Ok t' /\ ~ named t t'.
Proof.
  intros r t I. destruct (misnamed_numbers_in r t I) as (c & w & Iw & Hz). pose proof default_misnames as D. rewrite forallb_forall in D.
  apply D in Iw. destruct (misnames_use default_db r t c w Iw) as (l & m & p & t' & A1 & A2 & A3 & A4 & A5 & A6 & A7 & A8).
  exists c, l, m, p, t'. repeat (split; [assumption|]). split; [now rewrite A6|]. split; [exact A7|exact A8].
Qed.

(** An Italian fixed line begins with a zero: valid, but without type and country. *)
Definition italian : phone := mk_phone (mk_code 39 SrcPlus) (mk_national (1 * 2 ^ 56 + 236618300)) None None.
Definition nameless (db : database) (p : phone) : bool :=
  match by_code db (code_value (ph_code p)) with
  | Some l => if existsb (fun m => described_b m TFixedLine (nn_show (ph_national p))) l then
      match number_type_with db p, country_id_with db p with Ok TUnknown, Ok None => true | _, _ => false end else false
  | None => false
  end.
Lemma nameless_use : forall db p, nameless db p = true -> exists l m, by_code db (code_value (ph_code p)) = Some l /\ In m l
  /\ described_as m TFixedLine (nn_show (ph_national p)) /\ number_type_with db p = Ok TUnknown /\ country_id_with db p = Ok None.
Proof.
  intros db p H. unfold nameless in H. destruct (by_code db _) as [l|]; [|discriminate]. destruct (existsb _ l) eqn:E; [|discriminate].
  apply existsb_exists in E as (m & Im & D). exists l, m. split; [reflexivity|]. split; [exact Im|]. split; [now apply described_b_use|].
  destruct (number_type_with db p) as [[]| |]; try discriminate. destruct (country_id_with db p) as [[]| |]; try discriminate. auto.
Qed.
Lemma default_nameless : nameless default_db italian = true.
Proof. vm_cast_no_check (eq_refl true). Qed.
Theorem C67_zero_refuted : exists l m p, by_code default_db (code_value (ph_code p)) = Some l /\ In m l
  /\ described_as m TFixedLine (nn_show (ph_national p)) /\ ph_number_type p = Ok TUnknown /\ country_id p = Ok None.
Proof.
  destruct (nameless_use default_db italian default_nameless) as (l & m & A & B & C & D & E). exists l, m, italian. auto.
Qed.

(** Numbers that meet the hypotheses: a Belgian mobile, a British freephone number, a
    number of the Bahamas, one of an international network. *)
Definition recognised_ex (db : database) (x : N * str * ptype) : bool :=
  let '(c, w, t) := x in
  match plain c w, by_code db c with
  | Some p, Some l => if str_eqb (nn_show (ph_national p)) w then if existsb (fun m => described_b m t w) l then
      match is_valid_with db p, number_type_with db p with Ok true, Ok t' => namedb t t' | _, _ => false end else false else false
  | _, _ => false
  end.
Example C67_ex : forallb (recognised_ex default_db)
  [(32%N, lit "470123456", TMobile); (44%N, lit "8001234567", TTollFree); (1%N, lit "2423456789", TFixedLine);
   (1%N, lit "2423591234", TMobile); (882%N, lit "3421234", TMobile)] = true.
Proof. vm_cast_no_check (eq_refl true). Qed.
