(** * C45, continued: the built-in metadata; calling codes behind which only zeros are ever taken off *)
From Verif Require Import Base Unicode Regex RegexSyntax Consts CountryId Types NationalNumber
  Metadata Database Validator Valid Number Rfc3966 Helper Natural PhoneNumber Parser Formatter Loader
  DefaultDb DefaultDbOk Api.
From Verif Require Import StrFacts NationalFacts RegexLang RegexFacts RegexCaps RegexDeriv DatabaseFacts ParserFacts
  ParseInv TextFacts ViableFacts PhoneText E164Facts CoreFacts FormatFacts FormatDigits FormatDollar ExtFacts DialFacts
  PropsPanic PropsE164 PropsValid PropsTemplate PropsDial PropsOutcome.

(** ** The built-in metadata *)
Definition rule_ok (m : metadata) : bool :=
  match md_national_prefix_transform_rule m with
  | None => true
  | Some tr => match rev tr with
               | k :: x :: a => if N.eqb x 36 then if digits a then if N.leb 49 k then N.leb k 57 else false else false else false
               | _ => false
               end
  end.
Definition db_forall (f : metadata -> bool) (db : database) : bool :=
  if forallb (fun p => f (snd p)) (db_by_id db) then forallb (fun p => forallb f (snd p)) (db_by_code db) else false.
Lemma db_forall_use : forall f db m, db_forall f db = true -> db_has db m -> f m = true.
Proof.
  intros f db m H. unfold db_forall in H. destruct (forallb _ (db_by_id db)) eqn:E; [|discriminate].
  rewrite forallb_forall in E, H. intros [(k & K)|(c & l & K & I)].
  - apply sget_in in K. exact (E _ K).
  - apply nget_in in K. apply H in K. rewrite forallb_forall in K. exact (K _ I).
Qed.
Lemma default_rules_ok : db_forall rule_ok default_db = true.
Proof. vm_cast_no_check (eq_refl true). Qed.
Lemma rules_shaped_with : forall db, db_forall rule_ok db = true -> rules_shaped db.
Proof.
  intros db H m tr Hm Ht. pose proof (db_forall_use _ _ _ H Hm) as R. unfold rule_ok in R. rewrite Ht in R.
  rewrite <- (rev_involutive tr). destruct (rev tr) as [|k [|x a]]; [discriminate|discriminate|].
  destruct (N.eqb_spec x 36) as [->|Hx]; [|discriminate].
  destruct (digits a) eqn:Da; [|discriminate]. destruct (N.leb_spec 49 k); [|discriminate]. apply N.leb_le in R.
  exists (rev a), (N.to_nat (k - 48)). cbn [rev]. rewrite <- app_assoc. cbn [app]. unfold rule_text.
  replace (48 + N.of_nat (N.to_nat (k - 48)))%N with k by lia. split; [reflexivity|]. split; [|lia].
  intros c I. apply in_rev in I. revert c I. now apply all_digits_iff.
Qed.
Theorem default_rules_shaped : rules_shaped default_db.
Proof. exact (rules_shaped_with _ default_rules_ok). Qed.
Lemma basic_code : forall db i m, entries_forall entry_basic db = true -> by_id db (id_name i) = Some m -> (md_country_code m < 2 ^ 16)%N.
Proof.
  intros db i m Hdb Hm. pose proof (entries_forall_use _ _ _ _ Hdb Hm) as B. unfold entry_basic in B.
  destruct (N.ltb_spec (md_country_code m) 65536) as [Hc|]; [|discriminate]. exact Hc.
Qed.

(** Every text of a '+' and digits, whatever the reference country. *)
Theorem C45_plus_default : forall country d, all_digits d -> not_dialled default_db country d ->
  (length d < 3 /\ parse country (lit "+" ++ d) = Err NoNumber)
  \/ (3 <= length d /\ international default_db SrcPlus d (parse country (lit "+" ++ d))).
Proof.
  intros country d Hd Hi. apply (C45_plus default_db country d default_regular default_rules_shaped Hd Hi).
  destruct (C01_parse_returns country (lit "+" ++ d)) as [(p & E)|(p & E)]; unfold parse in E; rewrite E; discriminate.
Qed.
Print Assumptions C45_plus_default.
(** Every text of digits alone. *)
Theorem C45_digits_default : forall country d, all_digits d ->
  unsigned_digits default_db country d (parse country d).
Proof.
  intros country d Hd. apply (C45_digits default_db country d default_regular default_rules_shaped); [|exact Hd|].
  - intros i m. exact (basic_code _ i m default_basic).
  - destruct (C01_parse_returns country d) as [(p & E)|(p & E)]; unfold parse in E; rewrite E; discriminate.
Qed.
Print Assumptions C45_digits_default.

(** ** Nothing is invented: without a transform rule the national digits end the text *)
Lemma left_over_end : forall m e e', md_national_prefix_transform_rule m = None -> left_over m e e' -> exists x, e = x ++ e'.
Proof.
  intros m e e' Ht (e1 & e2 & H1 & H2 & H3). destruct H3 as [[_ ->]|[_ ->]]; [|now exists []].
  assert (E1 : exists x, e = x ++ e1).
  { unfold first_off in H1. destruct (md_national_prefix_for_parsing m) as [p|].
    - destruct H1 as [[_ ->]|(x & rest & -> & _ & [[-> _]|(tr & K & _)])]; [now exists []|now exists x|congruence].
    - destruct H1 as [(np & _ & ->)|[-> _]]; [now exists np|now exists []]. }
  destruct E1 as (x & ->). destruct H2 as [(np & _ & ->)|[-> _]]; [|now exists x].
  exists (x ++ np). now rewrite app_assoc.
Qed.
Theorem C45_nothing_invented : forall country d p, all_digits d -> not_dialled default_db country d ->
  parse country (lit "+" ++ d) = Ok p ->
  (forall l m, by_code default_db (code_value (ph_code p)) = Some l -> In m l -> md_national_prefix_transform_rule m = None) ->
  exists x, d = dec (code_value (ph_code p)) ++ x ++ nn_show (ph_national p).
Proof.
  intros country d p Hd Hi. pose proof (C45_plus_default country d Hd Hi) as H. intros Hp.
  destruct H as [(_ & H)|(_ & H)]; [rewrite Hp in H; discriminate|]. rewrite Hp in H.
  revert H. generalize default_db as db. intros db H Ht. inversion H as [|c e o e' r Hk Hc Ed Hmin Hu Ho Hv]; subst.
  inversion Hv; subst. cbn [ph_code code_value ph_national] in *.
  destruct o as [m|]; cbn [left_over_of] in Ho.
  - destruct Hu as [Hu _]. destruct (Hu m eq_refl) as (l & El & Il).
    destruct (left_over_end m e _ (Ht l m El Il) Ho) as (x & ->). now exists x.
  - subst. now exists [].
Qed.
Print Assumptions C45_nothing_invented.

(** ** Codes behind which only zeros are taken off *)
Definition zeros_off (e e' : str) : Prop := exists k, k <= 2 /\ e = repeat 48%N k ++ e'.
Fixpoint exact_len (r : re) : option nat :=
  match r with
  | REps | RStart | REnd => Some 0
  | RCls _ => Some 1
  | RCat a b => match exact_len a, exact_len b with Some x, Some y => Some (x + y) | _, _ => None end
  | RAlt a b => match exact_len a, exact_len b with Some x, Some y => if Nat.eqb x y then Some x else None | _, _ => None end
  | RRep _ mn mx r => match mx, exact_len r with Some k, Some x => if Nat.eqb mn k then Some (mn * x) else None | _, _ => None end
  | RGrp _ r => exact_len r
  end.
Lemma exact_len_sound :
  (forall r b t a, lang r b t a -> forall n, exact_len r = Some n -> length t = n) /\
  (forall r n b t a, langs r n b t a -> forall k, exact_len r = Some k -> length t = n * k).
Proof.
  apply lang_langs_ind; cbn [exact_len]; intros; rewrite ?app_length; cbn [length]; try (now inversion H); try (now inversion H0).
  - destruct (exact_len r1) as [x|]; [|discriminate]. destruct (exact_len r2) as [y|]; [|discriminate]. inversion H1; subst.
    rewrite (H x eq_refl), (H0 y eq_refl). reflexivity.
  - destruct (exact_len r1) as [x|]; [|discriminate]. destruct (exact_len r2) as [y|]; [|discriminate].
    destruct (Nat.eqb_spec x y); [|discriminate]. inversion H0; subst. auto.
  - destruct (exact_len r1) as [x|]; [|discriminate]. destruct (exact_len r2) as [y|]; [|discriminate].
    destruct (Nat.eqb_spec x y); [|discriminate]. inversion H0; subst. auto.
  - destruct mx as [k|]; [|discriminate]. destruct (exact_len r) as [x|]; [|discriminate].
    destruct (Nat.eqb_spec mn k); [|discriminate]. inversion H0; subst. rewrite (H x eq_refl). f_equal. lia.
  - auto.
  - rewrite (H k H1), (H0 k H1). lia.
Qed.

Definition is_zero (s : str) : bool := str_eqb s (lit "0").
Definition np_zero (m : metadata) : bool := match md_national_prefix m with None => true | Some t => is_zero t end.
(** no pattern, or the pattern "0" *)
Definition zero_plain (m : metadata) : bool :=
  match md_national_prefix_for_parsing m with
  | None => true
  | Some p => match md_national_prefix_transform_rule m, lit_text (re_ast p) with None, Some t => is_zero t | _, _ => false end
  end.
(** "0" and a group that is kept *)
Definition zero_group (m : metadata) : bool :=
  match md_national_prefix_for_parsing m, md_national_prefix_transform_rule m with
  | Some p, Some tr =>
      match re_ast p with
      | RCat z (RGrp 1 r) =>
          match lit_text z, exact_len r, grps r with
          | Some t, Some _, [] =>
              if is_zero t then if str_eqb tr (lit "$1") then if Nat.eqb (re_ngroups p) 1 then
              if never_empty r then first_in ascii_digits nonzero_digits r else false else false else false else false
          | _, _, _ => false
          end
      | _ => false
      end
  | _, _ => false
  end.
(** alternatives that are "0" or do not start with '0' *)
Fixpoint zero_alts (r : re) : bool :=
  match r with
  | RAlt a b => if zero_alts a then zero_alts b else false
  | _ => if never_empty r then
           if match lit_text r with Some t => is_zero t | None => false end then true else first_in ascii_digits nonzero_digits r
         else false
  end.
Definition zero_claimed (m : metadata) : bool :=
  match md_national_prefix_for_parsing m, md_leading_digits m with
  | Some p, None =>
      if zero_alts (re_ast p) then
      if forallb (fun d => match d_possible_length d with [] => false | l =>
           forallb (fun n => re_apart ascii_digits (N.to_nat n) (re_ast (d_national_number d)) (re_ast p)) l end) (types_of (md_descriptors m)) then
      if Nat.eqb (re_ngroups p) 0 then match md_national_prefix_transform_rule m with None => true | _ => false end
      else forallb (fun g => Nat.leb 2 (minlen (snd g))) (grps (re_ast p))
      else false else false
  | _, _ => false
  end.
Definition zero_entry (single : bool) (m : metadata) : bool :=
  if np_zero m then if zero_plain m then true else if zero_group m then true else if single then false else zero_claimed m else false.

Lemma is_zero_eq : forall t, is_zero t = true -> t = [48%N].
Proof. intros t H. now apply str_eqb_eq in H. Qed.
Lemma second_zero : forall m e1 e2, np_zero m = true -> second_off m e1 e2 -> e1 = e2 \/ e1 = 48%N :: e2.
Proof.
  intros m e1 e2 H [(np & Hn & ->)|[-> _]]; [|now left]. unfold np_zero in H. rewrite Hn in H. apply is_zero_eq in H. subst np. now right.
Qed.
Lemma nonzero_first : forall r t a, first_in ascii_digits nonzero_digits r = true -> ~ lang r [] (48%N :: t) a.
Proof.
  intros r t a H L. assert (I : In 48%N ascii_digits) by (apply digit_in; reflexivity).
  pose proof (first_in_sound _ _ _ _ _ _ H I L) as K. vm_compute in K. intuition discriminate.
Qed.
Lemma zero_alts_sound : forall r t a, zero_alts r = true -> lang r [] t a -> (exists c t', t = c :: t') /\ forall t', t = 48%N :: t' -> t' = [].
Proof.
  intros r t a. assert (B : forall r, (if never_empty r then
           if match lit_text r with Some t => is_zero t | None => false end then true else first_in ascii_digits nonzero_digits r
         else false) = true -> lang r [] t a -> (exists c t', t = c :: t') /\ forall t', t = 48%N :: t' -> t' = []).
  { clear r. intros r H L. destruct (never_empty r) eqn:Ne; [|discriminate]. split.
    - destruct t as [|c t]; [|eauto]. exfalso. eapply never_empty_sound; eauto.
    - intros t' ->. destruct (match lit_text r with Some t => is_zero t | None => false end) eqn:Em.
      + destruct (lit_text r) as [u|] eqn:Eu; [|discriminate]. apply (lit_text_lang _ _ Eu) in L. apply is_zero_eq in Em. congruence.
      + exfalso. exact (nonzero_first _ _ _ H L). }
  induction r as [|c|a1 IH1 a2 IH2|a1 IH1 a2 IH2|g mn mx r1 IH1|i r1 IH1| |]; intros H L;
    match type of L with
    | lang (RAlt _ _) _ _ _ => idtac
    | lang ?q _ _ _ => exact (B q H L)
    end.
  cbn [zero_alts] in H. destruct (zero_alts a1); [|discriminate]. apply lang_alt_inv in L as [L|L]; auto.
Qed.

Lemma lit_grps : forall z t, lit_text z = Some t -> grps z = [].
Proof.
  induction z; intros t H; cbn [lit_text] in H; try discriminate; try reflexivity. cbn [grps].
  destruct (lit_text z1) as [x|]; [|discriminate]. destruct (lit_text z2) as [y|]; [|discriminate].
  now rewrite (IHz1 x), (IHz2 y).
Qed.
Lemma first_zero : forall single m e e1, np_zero m = true ->
  zero_entry single m = true -> digits e = true -> length e < 1000 -> (single = false -> claims m (strip_zeros e)) ->
  first_off m e e1 -> e = e1 \/ e = 48%N :: e1.
Proof.
  intros single m e e1 Hn H De Le Hcl F. unfold zero_entry in H. rewrite Hn in H. unfold first_off in F.
  destruct (zero_plain m) eqn:Zp.
  - unfold zero_plain in Zp. destruct (md_national_prefix_for_parsing m) as [p|].
    + destruct (md_national_prefix_transform_rule m) as [tr|] eqn:Et; [discriminate|].
      destruct (lit_text (re_ast p)) as [t|] eqn:El; [|discriminate]. apply is_zero_eq in Zp. subst t.
      destruct F as [[_ ->]|(x & rest & -> & L & [[-> _]|(tr & K & _)])]; [now left| |congruence].
      apply (lit_text_lang _ _ El) in L. subst x. now right.
    + unfold np_zero in Hn. destruct F as [(np & E & ->)|[-> _]]; [|now left]. rewrite E in Hn. apply is_zero_eq in Hn. subst np. now right.
  - clear Zp. destruct (zero_group m) eqn:Zg.
    + clear H. unfold zero_group in Zg. destruct (md_national_prefix_for_parsing m) as [p|]; [|discriminate].
      destruct (md_national_prefix_transform_rule m) as [tr|] eqn:Et; [|discriminate].
      destruct (re_ast p) as [| |z y| | | | |] eqn:Ep; try discriminate. destruct y as [| | | | |i r| |]; try discriminate.
      destruct i as [|[|i]]; try discriminate.
      destruct (lit_text z) as [t|] eqn:Ez; [|discriminate]. destruct (exact_len r) as [n|] eqn:En; [|discriminate].
      destruct (grps r) eqn:Eg; [|discriminate]. destruct (is_zero t) eqn:It; [|discriminate]. apply is_zero_eq in It. subst t.
      destruct (str_eqb tr (lit "$1")) eqn:Est; [|discriminate]. apply str_eqb_eq in Est. subst tr.
      destruct (Nat.eqb_spec (re_ngroups p) 1) as [Eng|]; [|discriminate]. destruct (never_empty r) eqn:Ne; [|discriminate].
      assert (Al : always 1 (RCat z (RGrp 1 r)) = true) by (cbn; now destruct (always 1 z)).
      destruct F as [[_ ->]|(x & rest & -> & L & [[_ [K|K]]|(tr & K & TP & [C|[-> _]])])]; [now left|discriminate| | |now left].
      { rewrite Eng in K. congruence. }
      inversion K; subst tr. clear K. destruct C as (a & k & g & Etr & Ha & Hk & -> & Tk).
      assert (Ek : a = [] /\ k = 1).
      { unfold rule_text in Etr. destruct a as [|a0 a]; cbn [app] in Etr.
        - split; [reflexivity|]. injection Etr as Etr. lia.
        - exfalso. destruct a as [|a1 a]; [discriminate Etr|]. destruct a; discriminate Etr. }
      destruct Ek as [-> ->]. rewrite Ep in Tk. destruct Tk as [(r' & b & c & Ex & I & Lg)|[_ K]]; [|congruence].
      rewrite Ep in I. cbn [grps] in I. rewrite Eg in I. apply in_app_iff in I as [I|[I|[]]].
      { exfalso. rewrite (lit_grps _ _ Ez) in I. destruct I. }
      inversion I; subst r'. clear I. apply lang_cat_inv in L as (t1 & y & -> & L1 & L2).
      apply (lit_text_lang _ _ Ez) in L1. subst t1. apply lang_grp_inv in L2.
      pose proof (proj1 exact_len_sound _ _ _ _ L2 n En) as Ly. pose proof (proj1 exact_len_sound _ _ _ _ Lg n En) as Lgn.
      right. cbn [app]. destruct b as [|b0 b].
      * exfalso. cbn [app] in Ex. destruct g as [|g0 g]; [eapply never_empty_sound; eauto|].
        cbn [app] in Ex. injection Ex as E0 _. subst g0.
        exact (nonzero_first _ _ _ Zg Lg).
      * cbn [app] in Ex. injection Ex as <- Ex. assert (El : length y = length (b ++ g ++ c)) by congruence.
        rewrite !app_length in El. assert (b = []) by (destruct b; [reflexivity|cbn in El; lia]).
        assert (c = []) by (destruct c; [reflexivity|cbn in El; lia]). subst b c. cbn [app] in Ex. rewrite app_nil_r in Ex. now subst.
    + destruct single; [discriminate|]. specialize (Hcl eq_refl). unfold zero_claimed in H.
      destruct (md_national_prefix_for_parsing m) as [p|]; [|discriminate]. unfold claims in Hcl.
      destruct (md_leading_digits m); [discriminate|]. destruct (zero_alts (re_ast p)) eqn:Za; [|discriminate].
      destruct (forallb _ (types_of (md_descriptors m))) eqn:Zt; [|discriminate].
      destruct F as [[_ ->]|(x & rest & -> & L & F)]; [now left|].
      destruct (zero_alts_sound _ _ _ Za L) as ((x0 & x' & ->) & Hz). destruct (N.eq_dec x0 48) as [->|Hx].
      * specialize (Hz x' eq_refl). subst x'. destruct F as [[-> _]|(tr & K & TP & F)]; [now right|]. exfalso.
        destruct (Nat.eqb_spec (re_ngroups p) 0) as [E0|E0]; [rewrite K in H; discriminate|].
        destruct TP as [TP|(g & r & b & c & Ex & I & Lg)]; [now elim E0|]. rewrite forallb_forall in H. apply H in I.
        cbn [snd] in I. apply Nat.leb_le in I. apply (proj1 minlen_sound) in Lg. apply (f_equal (@length _)) in Ex.
        rewrite !app_length in Ex. cbn [length] in Ex. lia.
      * exfalso. cbn [app strip_zeros] in Hcl. destruct (N.eqb_spec x0 48); [now elim Hx|].
        destruct Hcl as (_ & t & o & It & d & -> & Hf). destruct (types_in _ _ _ It) as [Id _].
        rewrite forallb_forall in Zt. apply Zt in Id. destruct Hf as [Hl Hm].
        destruct (d_possible_length d) as [|n0 l0]; [discriminate|]. destruct Hl as [Hl|Hl]; [discriminate|].
        rewrite forallb_forall in Id. apply Id in Hl. rewrite Nnat.Nat2N.id in Hl.
        eapply re_apart_sound; [|exact Hl|exact Hm|].
        -- intros c Ic. apply digit_in. unfold digits in De. rewrite forallb_forall in De. now apply De.
        -- exists (x0 :: x'), rest. split; [reflexivity|]. split; [discriminate|exact L].
Qed.

Lemma zero_left : forall single m e e', zero_entry single m = true -> digits e = true -> length e < 1000 ->
  (single = false -> claims m (strip_zeros e)) -> left_over m e e' -> zeros_off e e'.
Proof.
  intros single m e e' H De Le Hc (e1 & e2 & H1 & H2 & H3). destruct H3 as [[_ ->]|[_ ->]]; [|exists 0; split; [lia|reflexivity]].
  assert (Hn : np_zero m = true) by (unfold zero_entry in H; now destruct (np_zero m)).
  apply (second_zero m) in H2; [|exact Hn]. apply (first_zero single m) in H1; auto.
  destruct H1 as [->| ->], H2 as [->| ->]; [exists 0|exists 1|exists 1|exists 2]; (split; [lia|reflexivity]).
Qed.

(** The calling codes with an entry that takes more than zeros off, or adds something. *)
Definition changing : list N :=
  [1; 7; 36; 44; 54; 55; 57; 81; 82; 86; 261; 298; 352; 370; 375; 378; 423; 506; 591; 672; 692; 993]%N.
Definition zero_codes (db : database) : bool :=
  forallb (fun p => if memN (fst p) changing then true
                    else match snd p with [m] => zero_entry true m | l => forallb (zero_entry false) l end) (db_by_code db).
Lemma default_zero_codes : zero_codes default_db = true.
Proof. vm_cast_no_check (eq_refl true). Qed.
Lemma zero_codes_use : forall db c e o e', zero_codes db = true -> ~ In c changing -> digits e = true -> length e < 1000 ->
  entry_used db c e o -> left_over_of o e e' -> zeros_off e e'.
Proof.
  intros db c e o e' Hdb Hc De Le (U1 & U2) Lo. destruct o as [m|]; cbn [left_over_of] in Lo.
  2:{ subst. exists 0. split; [lia|reflexivity]. }
  destruct (U1 m eq_refl) as (l & El & Il). pose proof (proj1 (U2 Le m) eq_refl) as Rm.
  unfold by_code in El. pose proof El as E'. apply nget_in in E'. unfold zero_codes in Hdb. rewrite forallb_forall in Hdb. apply Hdb in E'.
  cbn [fst snd] in E'. destruct (memN c changing) eqn:Mc; [now apply memN_in in Mc|]. fold (by_code db c) in El.
  destruct l as [|m1 [|m2 l]].
  - destruct Il.
  - destruct Il as [Il|Il]; [subst m1|destruct Il]. apply (zero_left true m); auto. discriminate.
  - rewrite forallb_forall in E'. apply (zero_left false m); auto. intros _.
    destruct Rm as [Rm|(bf & af & _ & _ & Rm & _)]; [congruence|exact Rm].
Qed.
Lemma default_code_unique : forall c c' e e', by_code default_db c <> None -> by_code default_db c' <> None ->
  dec c ++ e = dec c' ++ e' -> c = c' /\ e = e'.
Proof.
  intros c c' e e' H H' E.
  assert (G : exists x, dec c = dec c' ++ x \/ dec c' = dec c ++ x).
  { clear - E. revert E. generalize (dec c') as u, (dec c) as v. intros u v. revert v.
    induction u as [|a u IH]; intros v E; [exists v; now left|]. destruct v as [|b v]; [exists (a :: u); now right|].
    cbn [app] in E. injection E as -> E. destruct (IH v E) as (x & [->| ->]); exists x; [now left|now right]. }
  destruct G as (x & [G|G]).
  - pose proof (codes_unique _ _ _ H' H G). subst x. rewrite app_nil_r in G. rewrite G in E. apply app_inv_head in E. split; [|exact E].
    apply (f_equal digits_val) in G. now rewrite !digits_val_dec in G.
  - pose proof (codes_unique _ _ _ H H' G). subst x. rewrite app_nil_r in G. rewrite G in E. apply app_inv_head in E. split; [|exact E].
    apply (f_equal digits_val) in G. now rewrite !digits_val_dec in G.
Qed.

(** For all other codes: the number is read whenever its value is representable, and
    its value is that of the digits written; every error has one cause. *)
Lemma zeros_verdict : forall c s e e' r, digits e = true -> zeros_off e e' -> verdict c s e' r ->
  (4 <= length e <= 17 ->
     (value_of e = 0%N -> r = Err MalformedInteger)
     /\ ((1 <= value_of e < 2 ^ 56)%N -> exists p, r = Ok p /\ code_value (ph_code p) = c /\ code_source (ph_code p) = s
           /\ ph_extension p = None /\ nn_value (ph_national p) = value_of e /\ zeros_off e (nn_show (ph_national p)))
     /\ ((2 ^ 56 <= value_of e)%N -> r = Err TooLong))
  /\ (20 <= length e -> r = Err TooLong).
Proof.
  intros c s e e' r De (k & Hk & Ee) V.
  assert (Ev : value_of e = value_of e') by (change (digits_val e = digits_val e'); rewrite Ee; apply digits_val_zeros).
  assert (El : length e = k + length e') by (rewrite Ee, app_length, repeat_length; reflexivity).
  split.
  - intros Hl. split; [|split].
    + intros H0. destruct V; try reflexivity; lia.
    + intros Hv. destruct V as [| | |H1 H2|n ca H1 H2 H3 H4]; try lia. eexists. split; [reflexivity|].
      cbn [ph_code ph_national ph_extension code_value code_source]. rewrite H4, H3. repeat split; [now symmetry|]. exists k. auto.
    + intros Hv. destruct V; try reflexivity; lia.
  - intros Hl. destruct V; try reflexivity; lia.
Qed.
Theorem C45_zeros : forall country c e, by_code default_db c <> None -> ~ In c changing ->
  all_digits e -> country = None \/ not_dialled default_db country (dec c ++ e) ->
  let r := parse country (lit "+" ++ dec c ++ e) in
  (4 <= length e <= 17 ->
     (value_of e = 0%N -> r = Err MalformedInteger)
     /\ ((1 <= value_of e < 2 ^ 56)%N -> exists p, r = Ok p /\ code_value (ph_code p) = c /\ code_source (ph_code p) = SrcPlus
           /\ ph_extension p = None /\ nn_value (ph_national p) = value_of e /\ zeros_off e (nn_show (ph_national p)))
     /\ ((2 ^ 56 <= value_of e)%N -> r = Err TooLong))
  /\ (20 <= length e < 1000 -> r = Err TooLong).
Proof.
  intros country c e Hk Hc He Hd r.
  assert (Hr : (1 <= c <= 999)%N) by now apply code_range.
  assert (Hd' : not_dialled default_db country (dec c ++ e)).
  { destruct Hd as [->|Hd]; [|exact Hd]. apply default_idd_free. lia. }
  assert (Ha : all_digits (dec c ++ e)).
  { apply all_digits_iff. rewrite digits_app, digits_dec. now apply all_digits_iff. }
  destruct (Nat.lt_ge_cases (length e) 1000) as [Le|Le]; [|split; intros; lia].
  destruct (Nat.lt_ge_cases (length e) 4) as [L4|L4]; [split; intros; lia|].
  destruct (C45_plus_default country (dec c ++ e) Ha Hd') as [[K _]|[_ I]]; [rewrite app_length in K; lia|]. fold r in I.
  apply all_digits_iff in He. revert I. generalize r. clear r. intros r I.
  assert (G : exists e' , zeros_off e e' /\ verdict c SrcPlus e' r).
  { inversion I as [Hn|c' e0 o e' r' Hk' Hr' Ed Hmin Hu Ho Hv]; subst.
    - exfalso. specialize (Hn c e Hk (proj2 Hr) eq_refl). lia.
    - destruct (default_code_unique c c' e e0 Hk Hk' Ed) as [<- <-]. exists e'. split; [|exact Hv].
      exact (zero_codes_use default_db c e o e' default_zero_codes Hc He Le Hu Ho). }
  destruct G as (e' & Hz & Hv). destruct (zeros_verdict c SrcPlus e e' r He Hz Hv) as [H1 H2]. split; [exact H1|]. intros. apply H2. lia.
Qed.
Print Assumptions C45_zeros.

(** The list is exact: behind each listed code some number of four to seventeen digits is changed. *)
Definition altered (x : N * str) : bool :=
  match parse None (lit "+" ++ dec (fst x) ++ snd x) with
  | Ok p => negb (N.eqb (nn_value (ph_national p)) (value_of (snd x)))
  | _ => true
  end.
Definition altered_list : list (N * str) :=
  [(1, lit "2641234"); (7, lit "81234567"); (36, lit "0612345"); (44, lit "745761"); (54, lit "111512345678"); (55, lit "90123456");
   (57, lit "0312345"); (81, lit "0037681234"); (82, lit "0812345"); (86, lit "1110012345"); (261, lit "4123456"); (298, lit "1001123456");
   (352, lit "15001234567"); (370, lit "81234567"); (375, lit "8012345"); (378, lit "812345"); (423, lit "10011234"); (506, lit "190012345");
   (591, lit "01023456"); (672, lit "12345"); (692, lit "1234567"); (993, lit "81234567")]%N.
Lemma altered_check : forallb (fun x => if altered x then if digits (snd x) then if N.leb 1 (value_of (snd x)) then
    if N.ltb (value_of (snd x)) (2 ^ 56) then if Nat.leb 4 (length (snd x)) then Nat.leb (length (snd x)) 17 else false
    else false else false else false else false) altered_list = true.
Proof. vm_compute. reflexivity. Qed.
Lemma altered_codes : map fst altered_list = changing.
Proof. reflexivity. Qed.
Theorem C45_zeros_exact : forall c, by_code default_db c <> None ->
  (~ In c changing <->
   forall e, all_digits e -> 4 <= length e <= 17 -> (1 <= value_of e < 2 ^ 56)%N ->
     exists p, parse None (lit "+" ++ dec c ++ e) = Ok p /\ nn_value (ph_national p) = value_of e).
Proof.
  intros c Hk. split.
  - intros Hc e He Hl Hv. destruct (C45_zeros None c e Hk Hc He (or_introl eq_refl)) as [H _].
    destruct (H Hl) as (_ & H2 & _). destruct (H2 Hv) as (p & H3 & _ & _ & _ & H4 & _). eauto.
  - intros H I. rewrite <- altered_codes in I. apply in_map_iff in I as ((c' & e) & Ec & I). cbn [fst] in Ec. subst c'.
    pose proof altered_check as K. rewrite forallb_forall in K. apply K in I. cbn [fst snd] in I.
    destruct (altered (c, e)) eqn:Ea; [|discriminate]. destruct (digits e) eqn:De; [|discriminate].
    destruct (N.leb_spec 1 (value_of e)); [|discriminate]. destruct (N.ltb_spec (value_of e) (2 ^ 56)); [|discriminate].
    destruct (Nat.leb_spec 4 (length e)); [|discriminate]. apply Nat.leb_le in I.
    destruct (H e) as (p & Hp & Hv); [now apply all_digits_iff|auto|auto|].
    unfold altered in Ea. cbn [fst snd] in Ea. rewrite Hp, Hv, N.eqb_refl in Ea. discriminate.
Qed.
Print Assumptions C45_zeros_exact.

(** ** A calling code of one region: every number of it belongs to that region *)
Theorem C20_single : forall p m i, by_code default_db (code_value (ph_code p)) = Some [m] -> md_id m = id_name i ->
  country_id p = Ok (Some i).
Proof.
  intros p m i Hm Hi. destruct (C20_country default_db p default_regular) as (_ & H & _). apply H. exists m. split; [now left|exact Hi].
Qed.
Print Assumptions C20_single.

(** ** Belgian numbers (the property test of tests/prop.rs, and where it fails) *)
Lemma belgium_entry : match by_code default_db 32 with Some [m] => str_eqb (md_id m) (lit "BE") | _ => false end = true.
Proof. vm_compute. reflexivity. Qed.
Theorem C45_belgium : forall e, all_digits e -> 8 <= length e <= 9 ->
  (value_of e <> 0%N /\ exists p, parse None (lit "+32" ++ e) = Ok p /\ country_id p = Ok (Some ID_BE)
     /\ nn_value (ph_national p) = value_of e)
  \/ (value_of e = 0%N /\ parse None (lit "+32" ++ e) = Err MalformedInteger).
Proof.
  intros e He Hl. pose proof belgium_entry as B. destruct (by_code default_db 32) as [[|m [|m2 l]]|] eqn:Em; try discriminate.
  apply str_eqb_eq in B. change (lit "+32" ++ e) with (lit "+" ++ dec 32 ++ e).
  assert (Hk : by_code default_db 32 <> None) by congruence.
  assert (Hc : ~ In 32%N changing) by (intros I; apply memN_in in I; discriminate).
  destruct (C45_zeros None 32 e Hk Hc He (or_introl eq_refl)) as [H _]. destruct H as (H0 & H1 & _); [lia|].
  destruct (N.eq_dec (value_of e) 0) as [E|E]; [right; auto|]. left. split; [exact E|].
  assert (Hb : (value_of e < 2 ^ 56)%N).
  { apply all_digits_iff in He. rewrite value_digits. pose proof (digits_val_lt_pow _ He) as K.
    assert (10 ^ N.of_nat (length e) <= 10 ^ 9)%N by (apply N.pow_le_mono_r; lia).
    change (10 ^ 9)%N with 1000000000%N in *. change (2 ^ 56)%N with 72057594037927936%N. lia. }
  destruct H1 as (p & Hp & Hcode & _ & _ & Hv & _); [lia|]. exists p. split; [exact Hp|]. split; [|exact Hv].
  apply (C20_single p m ID_BE); [|exact B]. now rewrite Hcode.
Qed.
Print Assumptions C45_belgium.
Theorem C45_every_belgian_refuted : exists e, all_digits e /\ length e = 8 /\ parse None (lit "+32" ++ e) = Err MalformedInteger.
Proof.
  exists (lit "00000000"). split; [|split; [reflexivity|vm_compute; reflexivity]]. apply all_digits_iff. reflexivity.
Qed.

(** Non-vacuity: each verdict occurs. *)
Definition said (country : option id) (s : str) : outcome perr (N * str) :=
  match parse country s with
  | Ok p => Ok (code_value (ph_code p), nn_show (ph_national p))
  | Err e => Err e
  | Panic => Panic
  end.
Example C45_ex_plus :
  map (said None) [lit "+32"; lit "+321"; lit "+99912345678"; lit "+32000000"; lit "+32123456789012345678";
                   lit "+3299999999999999999"; lit "+320471234567"; lit "+12461234"; lit "+241011123456"]
  = [Err NoNumber; Err TooShortNsn; Err InvalidCountryCode; Err MalformedInteger; Err TooLong;
     Err TooLong; Ok (32%N, lit "471234567"); Ok (1%N, lit "2462461234"); Ok (241%N, lit "11123456")].
Proof. vm_compute. reflexivity. Qed.
Example C45_ex_digits :
  map (said (Some ID_BE)) [lit "7"; lit "0032"; lit "0032471234567"; lit "32471234567"; lit "0471234567"; lit "000"]
  = [Err NoNumber; Err TooShortNsn; Ok (32%N, lit "471234567"); Ok (32%N, lit "471234567"); Ok (32%N, lit "471234567"); Err TooShortNsn]
  /\ said None (lit "471234567") = Err InvalidCountryCode.
Proof. vm_compute. auto. Qed.
Example C45_ex_hyp : not_dialled default_db None (lit "320471234567") /\ all_digits (lit "0471234567") /\ ~ In 32%N changing.
Proof.
  split; [exact (default_idd_free 32 (lit "0471234567") ltac:(lia))|]. split; [now apply all_digits_iff|].
  intros I. apply memN_in in I. discriminate.
Qed.
