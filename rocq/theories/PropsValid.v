(** * C16-C18, C20: validity, number type and country *)
From Verif Require Import Base Unicode Regex RegexSyntax Consts CountryId Types NationalNumber
  Metadata Database Validator Valid Number Rfc3966 Helper Natural PhoneNumber Parser Formatter Loader
  DefaultDb DefaultDbOk Api.
From Verif Require Import StrFacts NationalFacts RegexLang RegexFacts RegexCaps RegexDeriv DatabaseFacts ParserFacts
  ParseInv TextFacts ViableFacts PhoneText E164Facts FormatFacts PropsPanic PropsE164.

(** ** Vocabulary *)
(** The digits have a listed length (or no length is listed) and the pattern of
    the descriptor matches at their start. *)
Definition fits (d : descriptor) (v : str) : Prop :=
  (d_possible_length d = [] \/ In (N.of_nat (length v)) (d_possible_length d)) /\
  matches_prefix (re_ast (d_national_number d)) v.
Definition fits_opt (o : option descriptor) (v : str) : Prop := exists d, o = Some d /\ fits d v.

(** The ten types a number can have, in the documented order of priority. *)
Definition type_order (ds : descriptors) : list (ptype * option descriptor) :=
  [(TPremiumRate, ds_premium_rate ds); (TTollFree, ds_toll_free ds); (TSharedCost, ds_shared_cost ds);
   (TVoip, ds_voip ds); (TPersonalNumber, ds_personal_number ds); (TPager, ds_pager ds); (TUan, ds_uan ds);
   (TVoicemail, ds_voicemail ds); (TFixedLine, ds_fixed_line ds); (TMobile, ds_mobile ds)].

(** mobile numbers cannot be told from fixed lines *)
Definition mobile_too (ds : descriptors) (v : str) : Prop :=
  fits_opt (ds_mobile ds) v \/
  exists f m, ds_fixed_line ds = Some f /\ ds_mobile ds = Some m /\ re_src (d_national_number f) = re_src (d_national_number m).

Definition known_type (m : metadata) (v : str) : Prop :=
  fits (ds_general (md_descriptors m)) v /\
  exists t o, In (t, o) (type_order (md_descriptors m)) /\ fits_opt o v.

Definition has_type (m : metadata) (v : str) (t : ptype) : Prop :=
  (~ known_type m v /\ t = TUnknown) \/
  (fits (ds_general (md_descriptors m)) v /\
   exists before k o after, type_order (md_descriptors m) = before ++ (k, o) :: after /\
     (forall k' o', In (k', o') before -> ~ fits_opt o' v) /\ fits_opt o v /\
     ((k <> TFixedLine /\ t = k) \/
      (k = TFixedLine /\ mobile_too (md_descriptors m) v /\ t = TFixedLineOrMobile) \/
      (k = TFixedLine /\ ~ mobile_too (md_descriptors m) v /\ t = TFixedLine))).

(** The entry responsible for a number: the only one with its calling code, or
    the first (main countries first) that claims its digits. *)
Definition claims (m : metadata) (v : str) : Prop :=
  match md_leading_digits m with
  | Some r => matches_prefix (re_ast r) v
  | None => known_type m v
  end.
Definition responsible (db : database) (c : N) (v : str) (m : metadata) : Prop :=
  by_code db c = Some [m] \/
  exists before after, by_code db c = Some (before ++ m :: after) /\ before ++ after <> [] /\
    claims m v /\ forall x, In x before -> ~ claims x v.

(** A database in which every entry has a country id of its own, except for
    entries "001" which are alone with their calling code. *)
Record regular (db : database) : Prop := {
  reg_ok : exists entries, db_from entries = Ok db;
  reg_ids : forall c l, by_code db c = Some l ->
    (exists m, l = [m] /\ md_id m = lit "001") \/
    forall m, In m l -> by_id db (md_id m) = Some m /\ exists i, id_of_name (md_id m) = Some i }.

(** ** Matching *)
Lemma as_u16_small : forall n, n < 1000 -> as_u16 n = N.of_nat n.
Proof. intros n H. unfold as_u16, u16_max. rewrite N.mod_small; [reflexivity|]. lia. Qed.

Lemma fits_iff : forall d v, digits v = true -> length v < 1000 -> d_is_match d v = true <-> fits d v.
Proof.
  intros d v Hd Hl. unfold d_is_match, fits. rewrite digits_blen, (as_u16_small _ Hl) by exact Hd.
  rewrite <- found_at_start_spec. destruct (d_possible_length d) as [|x l] eqn:E; [intuition|].
  rewrite <- memN_in. destruct (memN (N.of_nat (length v)) (x :: l)); cbn [negb].
  - intuition.
  - split; [discriminate|]. intros [[H|H] _]; discriminate.
Qed.
Lemma fits_opt_iff : forall o v, digits v = true -> length v < 1000 -> od_is_match o v = true <-> fits_opt o v.
Proof.
  intros [d|] v Hd Hl; cbn [od_is_match]; unfold fits_opt.
  - rewrite fits_iff by assumption. split; [eauto|]. intros (x & H & F). inversion H; subst. exact F.
  - split; [discriminate|]. intros (x & H & _). discriminate.
Qed.
Lemma fits_opt_false : forall o v, digits v = true -> length v < 1000 -> od_is_match o v = false -> ~ fits_opt o v.
Proof. intros o v Hd Hl H F. apply fits_opt_iff in F; [congruence|assumption..]. Qed.

(** ** C17 *)
Lemma has_type_unique : forall m v t1 t2, has_type m v t1 -> has_type m v t2 -> t1 = t2.
Proof.
  assert (P : forall ds v b1 k1 o1 a1 b2 k2 o2 a2,
    type_order ds = b1 ++ (k1, o1) :: a1 -> type_order ds = b2 ++ (k2, o2) :: a2 ->
    (forall k' o', In (k', o') b1 -> ~ fits_opt o' v) -> (forall k' o', In (k', o') b2 -> ~ fits_opt o' v) ->
    fits_opt o1 v -> fits_opt o2 v -> k1 = k2).
  { intros ds v b1. generalize (type_order ds) as l. induction b1 as [|[x y] b1 IH]; intros l k1 o1 a1 b2 k2 o2 a2 E1 E2 N1 N2 F1 F2; subst l.
    - destruct b2 as [|[x y] b2]; inversion E2; subst; [reflexivity|]. exfalso. apply (N2 x y); [now left|assumption].
    - destruct b2 as [|[x2 y2] b2]; inversion E2; subst; [exfalso; apply (N1 k2 o2); [now left|assumption]|].
      eapply (IH (b1 ++ (k1, o1) :: a1) k1 o1 a1 b2 k2 o2 a2); eauto; intros k' o' I; [apply (N1 k' o')|apply (N2 k' o')]; now right. }
  intros m v t1 t2 [[N1 ->]|(G1 & b1 & k1 & o1 & a1 & E1 & B1 & F1 & C1)] [[N2 ->]|(G2 & b2 & k2 & o2 & a2 & E2 & B2 & F2 & C2)].
  - reflexivity.
  - exfalso. apply N1. split; [exact G2|]. exists k2, o2. split; [|exact F2]. rewrite E2. apply in_app_iff. right. now left.
  - exfalso. apply N2. split; [exact G1|]. exists k1, o1. split; [|exact F1]. rewrite E1. apply in_app_iff. right. now left.
  - pose proof (P _ v _ _ _ _ _ _ _ _ E1 E2 B1 B2 F1 F2) as K. subst k2.
    destruct C1 as [[H1 ->]|[(H1 & M1 & ->)|(H1 & M1 & ->)]], C2 as [[H2 ->]|[(H2 & M2 & ->)|(H2 & M2 & ->)]];
      try reflexivity; contradiction.
Qed.

Lemma option_eqb_src : forall a b, option_eqb str_eqb (option_map (fun d => re_src (d_national_number d)) (Some a))
    (option_map (fun d => re_src (d_national_number d)) b) = true <->
  exists m, b = Some m /\ re_src (d_national_number a) = re_src (d_national_number m).
Proof.
  intros a [b|]; cbn; [|split; [discriminate|intros (m & H & _); discriminate]].
  rewrite str_eqb_eq. split; [eauto|]. intros (m & H & E). inversion H; subst. exact E.
Qed.

Lemma number_type_has : forall m v, digits v = true -> length v < 1000 -> has_type m v (number_type m v).
Proof.
  intros m v Hd Hl. unfold has_type, number_type. cbv zeta. set (ds := md_descriptors m).
  destruct (d_is_match (ds_general ds) v) eqn:G; cbn [negb].
  2: { left. split; [|reflexivity]. intros [F _]. apply fits_iff in F; [|assumption..]. fold ds in F. congruence. }
  apply fits_iff in G; [|assumption..].
  assert (T : forall o, od_is_match o v = true -> fits_opt o v) by (intros o; apply fits_opt_iff; assumption).
  pose proof (fits_opt_false) as F. specialize (fun o => F o v Hd Hl).
  assert (R : forall before k o after, type_order ds = before ++ (k, o) :: after -> k <> TFixedLine ->
      forallb (fun p => negb (od_is_match (snd p) v)) before = true -> od_is_match o v = true ->
      exists before0 k0 o0 after0, type_order ds = before0 ++ (k0, o0) :: after0 /\
        (forall k' o', In (k', o') before0 -> ~ fits_opt o' v) /\ fits_opt o0 v /\
        ((k0 <> TFixedLine /\ k = k0) \/ (k0 = TFixedLine /\ mobile_too ds v /\ k = TFixedLineOrMobile) \/
         (k0 = TFixedLine /\ ~ mobile_too ds v /\ k = TFixedLine))).
  { intros before k o after E Hk Hb Ho. exists before, k, o, after. split; [exact E|]. split; [|auto].
    intros k' o' I. rewrite forallb_forall in Hb. apply Hb in I. apply F. cbn in I. now apply negb_true_iff in I. }
  destruct (od_is_match (ds_premium_rate ds) v) eqn:E1; [right; split; [exact G|]; apply (R [] TPremiumRate (ds_premium_rate ds) _ eq_refl); [discriminate|reflexivity|assumption]|].
  destruct (od_is_match (ds_toll_free ds) v) eqn:E2; [right; split; [exact G|]; eapply (R [_] TTollFree); [reflexivity|discriminate|cbn [forallb snd]; now rewrite E1|assumption]|].
  destruct (od_is_match (ds_shared_cost ds) v) eqn:E3; [right; split; [exact G|]; eapply (R [_; _] TSharedCost); [reflexivity|discriminate|cbn [forallb snd]; now rewrite E1, E2|assumption]|].
  destruct (od_is_match (ds_voip ds) v) eqn:E4; [right; split; [exact G|]; eapply (R [_; _; _] TVoip); [reflexivity|discriminate|cbn [forallb snd]; now rewrite E1, E2, E3|assumption]|].
  destruct (od_is_match (ds_personal_number ds) v) eqn:E5; [right; split; [exact G|]; eapply (R [_; _; _; _] TPersonalNumber); [reflexivity|discriminate|cbn [forallb snd]; now rewrite E1, E2, E3, E4|assumption]|].
  destruct (od_is_match (ds_pager ds) v) eqn:E6; [right; split; [exact G|]; eapply (R [_; _; _; _; _] TPager); [reflexivity|discriminate|cbn [forallb snd]; now rewrite E1, E2, E3, E4, E5|assumption]|].
  destruct (od_is_match (ds_uan ds) v) eqn:E7; [right; split; [exact G|]; eapply (R [_; _; _; _; _; _] TUan); [reflexivity|discriminate|cbn [forallb snd]; now rewrite E1, E2, E3, E4, E5, E6|assumption]|].
  destruct (od_is_match (ds_voicemail ds) v) eqn:E8; [right; split; [exact G|]; eapply (R [_; _; _; _; _; _; _] TVoicemail); [reflexivity|discriminate|cbn [forallb snd]; now rewrite E1, E2, E3, E4, E5, E6, E7|assumption]|].
  destruct (od_is_match (ds_fixed_line ds) v) eqn:E9.
  - right. split; [exact G|].
    exists [(TPremiumRate, ds_premium_rate ds); (TTollFree, ds_toll_free ds); (TSharedCost, ds_shared_cost ds);
      (TVoip, ds_voip ds); (TPersonalNumber, ds_personal_number ds); (TPager, ds_pager ds); (TUan, ds_uan ds);
      (TVoicemail, ds_voicemail ds)], TFixedLine, (ds_fixed_line ds), [(TMobile, ds_mobile ds)].
    split; [reflexivity|]. split.
    { intros k' o' I. cbn [In] in I. repeat (destruct I as [I|I]; [inversion I; subst; now apply F|]). destruct I. }
    split; [now apply T|]. right. pose proof E9 as E9'. destruct (ds_fixed_line ds) as [f|] eqn:Ef; [|discriminate].
    destruct (option_eqb str_eqb _ _) eqn:Eq.
    + left. apply option_eqb_src in Eq as (mo & E & S). repeat split. right. exists f, mo. auto.
    + destruct (od_is_match (ds_mobile ds) v) eqn:E10.
      * left. repeat split. left. now apply T.
      * right. repeat split. intros [H|(f' & mo & H1 & H2 & H3)]; [now apply F in E10|].
        rewrite Ef in H1. inversion H1; subst f'.
        assert (W : option_eqb str_eqb (option_map (fun d => re_src (d_national_number d)) (Some f))
          (option_map (fun d => re_src (d_national_number d)) (ds_mobile ds)) = true); [apply option_eqb_src; eauto|congruence].
  - destruct (od_is_match (ds_mobile ds) v) eqn:E10.
    + right. split; [exact G|]. eapply (R [_; _; _; _; _; _; _; _; _] TMobile); [reflexivity|discriminate|cbn [forallb snd]; now rewrite E1, E2, E3, E4, E5, E6, E7, E8, E9|assumption].
    + left. split; [|reflexivity]. intros [_ (k & o & I & H)]. cbn [type_order In] in I.
      repeat (destruct I as [I|I]; [inversion I; subst; eapply F; [|exact H]; assumption|]). destruct I.
Qed.

Theorem C17_number_type : forall m v t, all_digits v -> length v < 1000 ->
  (number_type m v = t <-> has_type m v t).
Proof.
  intros m v t Hd Hl. apply all_digits_iff in Hd. pose proof (number_type_has m v Hd Hl) as H.
  split; [now intros <-|]. intros H'. eapply has_type_unique; eauto.
Qed.
Print Assumptions C17_number_type.

(** Types that are never reported. *)
Theorem C17_never_reported : forall m v, 
  ~ In (number_type m v) [TEmergency; TShortCode; TStandardRate; TCarrier; TNoInternational].
Proof.
  intros m v. unfold number_type. cbv zeta.
  repeat match goal with |- context [if ?b then _ else _] => destruct b end; cbn; intuition discriminate.
Qed.

Lemma known_type_iff : forall m v, digits v = true -> length v < 1000 ->
  (negb (ptype_eqb (number_type m v) TUnknown) = true <-> known_type m v).
Proof.
  intros m v Hd Hl. pose proof (number_type_has m v Hd Hl) as H.
  assert (E : negb (ptype_eqb (number_type m v) TUnknown) = true <-> number_type m v <> TUnknown).
  { destruct (number_type m v); cbn; split; intros; congruence. }
  rewrite E. destruct H as [[N U]|(G & b & k & o & a & O & B & F & C)].
  - rewrite U. split; [easy|]. intros K. now elim N.
  - assert (K : known_type m v). { split; [exact G|]. exists k, o. split; [|exact F]. rewrite O. apply in_app_iff. right. now left. }
    split; [auto|]. intros _ U. rewrite U in C. destruct C as [[_ C]|[(_ & _ & C)|(_ & _ & C)]]; try discriminate C.
    subst k. assert (I : In (TUnknown, o) (type_order (md_descriptors m))). { rewrite O. apply in_app_iff. right. now left. }
    cbn [type_order In] in I. repeat (destruct I as [I|I]; [discriminate I|]). destruct I.
Qed.

(** ** The responsible entry *)
Lemma claims_iff : forall m v, digits v = true -> length v < 1000 ->
  (match md_leading_digits m with
   | Some pattern => found_at_start (re_find pattern v)
   | None => negb (ptype_eqb (number_type m v) TUnknown)
   end = true <-> claims m v).
Proof.
  intros m v Hd Hl. unfold claims. destruct (md_leading_digits m) as [r|]; [apply found_at_start_spec|now apply known_type_iff].
Qed.

Lemma id_of_name_001 : id_of_name (lit "001") = None.
Proof. vm_compute. reflexivity. Qed.

Lemma source_loop_first : forall db v l, digits v = true -> length v < 1000 ->
  (forall m, In m l -> by_id db (md_id m) = Some m /\ exists i, id_of_name (md_id m) = Some i) ->
  exists s, source_loop db v (map md_id l) = Ok s /\
   ((s = None /\ forall m, In m l -> ~ claims m v) \/
    (exists before m after, l = before ++ m :: after /\ claims m v /\ (forall x, In x before -> ~ claims x v) /\
       source_meta db s = Some m)).
Proof.
  intros db v l Hd Hl. induction l as [|m l IH]; intros H; cbn [map source_loop].
  - exists None. split; [reflexivity|]. left. split; [reflexivity|]. intros m [].
  - destruct (H m) as [Hid (i & Hi)]; [now left|]. rewrite Hid. cbn [unwrap obind].
    pose proof (claims_iff m v Hd Hl) as C. destruct (match md_leading_digits m with Some _ => _ | None => _ end).
    + rewrite Hi. cbn [unwrap obind]. eexists. split; [reflexivity|]. right. exists [], m, l. split; [reflexivity|].
      split; [now apply C|]. split; [intros x []|]. cbn [source_meta]. apply id_of_name_inv in Hi. now rewrite Hi.
    + destruct IH as (s & Es & IH); [intros x I; apply H; now right|]. exists s. split; [exact Es|].
      assert (NC : ~ claims m v). { intros K. apply C in K. discriminate. }
      destruct IH as [[-> IH]|(b & m' & a & -> & K & B & S)].
      * left. split; [reflexivity|]. intros x [<-|I]; auto.
      * right. exists (m :: b), m', a. split; [reflexivity|]. split; [exact K|]. split; [|exact S].
        intros x [<-|I]; auto.
Qed.

Lemma responsible_unique : forall db c v m1 m2, responsible db c v m1 -> responsible db c v m2 -> m1 = m2.
Proof.
  intros db c v m1 m2 [H1|(b1 & a1 & H1 & N1 & K1 & B1)] [H2|(b2 & a2 & H2 & N2 & K2 & B2)].
  - congruence.
  - rewrite H1 in H2. inversion H2 as [E]. destruct b2 as [|x [|y b2]]; inversion E; subst.
    now elim N2.
  - rewrite H1 in H2. inversion H2 as [E]. destruct b1 as [|x [|y b1]]; inversion E; subst.
    now elim N1.
  - rewrite H1 in H2. inversion H2 as [E]. clear - E B1 B2 K1 K2. revert b2 E B2.
    induction b1 as [|x b1 IH]; intros [|y b2] E B2; inversion E; subst.
    + reflexivity.
    + exfalso. apply (B2 y); [now left|assumption].
    + exfalso. apply (B1 m2); [now left|assumption].
    + eapply IH; eauto; intros z I; [apply B1|apply B2]; now right.
Qed.

Lemma source_responsible : forall db c v, regular db -> digits v = true -> length v < 1000 ->
  exists s, source_for db c v = Ok s /\ forall m, source_meta db s = Some m <-> responsible db c v m.
Proof.
  intros db c v [(entries & Hdb) Hids] Hd Hl. pose proof (db_from_db_ok _ _ Hdb) as OK.
  unfold source_for. rewrite (ok_region _ OK c). destruct (by_code db c) as [l|] eqn:E; cbn [option_map].
  2: { exists None. split; [reflexivity|]. intros m. split; [discriminate|].
       intros [H|(b & a & H & _)]; congruence. }
  assert (L : exists s, source_loop db v (map md_id l) = Ok s /\ (2 <= length l -> forall m, source_meta db s = Some m <-> responsible db c v m) \/ exists m, l = [m]).
  { destruct l as [|m0 [|m1 l]]; [now apply (ok_code_ne _ OK) in E|exists None; right; eauto|].
    destruct (Hids _ _ E) as [(m & H & _)|H]; [discriminate|].
    destruct (source_loop_first db v (m0 :: m1 :: l) Hd Hl H) as (s & Es & S). exists s. left. split; [exact Es|].
    intros _ m. destruct S as [[-> N]|(b & m' & a & El & K & B & Sm)].
    - split; [discriminate|]. intros [H'|(b & a & H' & _ & K & _)]; [congruence|].
      rewrite E in H'. inversion H' as [El]. exfalso. apply (N m); [|exact K]. rewrite El. apply in_app_iff. right. now left.
    - assert (R : responsible db c v m').
      { right. exists b, a. rewrite E, El. split; [reflexivity|]. split; [|auto].
        intros Z. apply app_eq_nil in Z as [-> ->]. discriminate El. }
      rewrite Sm. split; [intros H'; inversion H'; subst; exact R|]. intros R'. f_equal. eapply responsible_unique; eauto. }
  destruct L as (s & L). destruct l as [|m0 [|m1 l]]; [now apply (ok_code_ne _ OK) in E| |].
  - cbn [map]. assert (R : responsible db c v m0) by now left.
    assert (Goal1 : forall s, source_meta db s = Some m0 -> forall m, source_meta db s = Some m <-> responsible db c v m).
    { intros s' Hs m. rewrite Hs. split; [intros H; inversion H; subst; exact R|]. intros R'. f_equal. eapply responsible_unique; eauto. }
    destruct (Hids _ _ E) as [(m & H & H001)|H].
    + inversion H; subst m. rewrite H001, str_eqb_refl. eexists. split; [reflexivity|]. apply Goal1. cbn [source_meta]. now rewrite E.
    + destruct (H m0) as [Hid (i & Hi)]; [now left|].
      destruct (str_eqb (md_id m0) (lit "001")) eqn:E1.
      { apply str_eqb_eq in E1. rewrite E1, id_of_name_001 in Hi. discriminate. }
      rewrite Hi. eexists. split; [reflexivity|]. apply Goal1. cbn [source_meta]. apply id_of_name_inv in Hi. now rewrite Hi.
  - destruct L as [[Es S]|(m & H)]; [|discriminate]. cbn [map] in *. exists s. split; [exact Es|]. apply S. cbn. lia.
Qed.

(** ** C16 *)
Theorem C16_is_valid_iff : forall db p, regular db ->
  (exists b, is_valid_with db p = Ok b) /\
  (is_valid_with db p = Ok true <->
   exists m, responsible db (code_value (ph_code p)) (nn_show (ph_national p)) m /\
     known_type m (nn_show (ph_national p))).
Proof.
  intros db p R. unfold is_valid_with. cbv zeta. set (v := nn_show (ph_national p)).
  assert (Hd : digits v = true) by apply nn_show_digits. assert (Hl : length v < 1000) by apply nn_show_length.
  destruct (source_responsible db (code_value (ph_code p)) v R Hd Hl) as (s & -> & S). cbn [obind]. split; [eauto|].
  destruct (source_meta db s) as [m|].
  - pose proof (proj1 (S m) eq_refl) as Rm. pose proof (known_type_iff m v Hd Hl) as K. split.
    + intros H. inversion H as [H0]. exists m. split; [exact Rm|]. now apply K.
    + intros (m' & R' & K'). rewrite (responsible_unique _ _ _ _ _ R' Rm) in K'. apply K in K'. now rewrite K'.
  - split; [discriminate|]. intros (m & Rm & _). apply S in Rm. discriminate.
Qed.
Print Assumptions C16_is_valid_iff.

(** ** C17 for numbers *)
Lemma dec_value_ok : forall n, digits (dec (nn_value n)) = true /\ length (dec (nn_value n)) < 1000.
Proof.
  intros n. split; [apply digits_dec|]. pose proof (nn_show_length n) as H. unfold nn_show in H. rewrite app_length in H.
  eapply Nat.le_lt_trans; [|exact H]. apply Nat.le_add_l.
Qed.

Theorem C17_api : forall db p t, regular db ->
  (number_type_with db p = Ok t <->
   (exists m, responsible db (code_value (ph_code p)) (dec (nn_value (ph_national p))) m
      /\ has_type m (dec (nn_value (ph_national p))) t) \/
   (t = TUnknown /\ forall m, ~ responsible db (code_value (ph_code p)) (dec (nn_value (ph_national p))) m)).
Proof.
  intros db p t R. unfold number_type_with, ph_metadata. destruct (dec_value_ok (ph_national p)) as [Hd Hl].
  set (v := dec (nn_value (ph_national p))) in *.
  destruct (source_responsible db (code_value (ph_code p)) v R Hd Hl) as (s & -> & S). cbn [obind].
  destruct (source_meta db s) as [m|].
  - pose proof (proj1 (S m) eq_refl) as Rm. pose proof (number_type_has m v Hd Hl) as K. split.
    + intros H. inversion H; subst t. left. eauto.
    + intros [(m' & R' & K')|[_ N]]; [|now apply N in Rm]. rewrite (responsible_unique _ _ _ _ _ R' Rm) in K'.
      f_equal. eapply has_type_unique; eauto.
  - split.
    + intros H. inversion H; subst t. right. split; [reflexivity|]. intros m Rm. apply S in Rm. discriminate.
    + intros [(m & Rm & _)|[-> _]]; [apply S in Rm; discriminate|reflexivity].
Qed.
Print Assumptions C17_api.

(** ** C18 *)
Theorem C18_agree : forall db p, nn_zeros (ph_national p) = 0%N ->
  (is_valid_with db p = Ok true <-> exists t, number_type_with db p = Ok t /\ t <> TUnknown).
Proof.
  intros db p Hz. unfold is_valid_with, number_type_with, ph_metadata, nn_show. rewrite Hz. cbv zeta. cbn [N.to_nat repeat app].
  destruct (source_for _ _ _) as [s|e|]; cbn [obind].
  2: split; [discriminate|intros (t & H & _); discriminate].
  2: split; [discriminate|intros (t & H & _); discriminate].
  destruct (source_meta db s) as [m|].
  - set (t := number_type m _). split.
    + intros H. inversion H. exists t. split; [reflexivity|]. intros E. rewrite E in *. discriminate.
    + intros (t' & H & N). inversion H; subst t'. clearbody t. destruct t; try reflexivity. now elim N.
  - split; [discriminate|]. intros (t & H & N). inversion H; subst. now elim N.
Qed.
Print Assumptions C18_agree.

(** ** C20 *)
Theorem C20_country : forall db p, regular db ->
  country_id_with db p <> Panic /\
  (forall i, country_id_with db p = Ok (Some i) <->
     exists m, responsible db (code_value (ph_code p)) (dec (nn_value (ph_national p))) m /\ md_id m = id_name i) /\
  (country_id_with db p = Ok None <->
     forall m, ~ responsible db (code_value (ph_code p)) (dec (nn_value (ph_national p))) m) /\
  ((exists e, country_id_with db p = Err e) <->
     exists m, by_code db (code_value (ph_code p)) = Some [m] /\ md_id m = lit "001").
Proof.
  intros db p R. unfold country_id_with, ph_metadata. destruct (dec_value_ok (ph_national p)) as [Hd Hl].
  set (v := dec (nn_value (ph_national p))) in *. set (c := code_value (ph_code p)).
  destruct (source_responsible db c v R Hd Hl) as (s & -> & S). cbn [obind].
  assert (Hn : forall m, responsible db c v m -> id_of_name (md_id m) = None <-> by_code db c = Some [m] /\ md_id m = lit "001").
  { intros m Rm. split.
    - intros N. assert (Il : exists l, by_code db c = Some l /\ In m l).
      { destruct Rm as [->|(b & a & -> & _)]; eexists; (split; [reflexivity|]); [now left|]. apply in_app_iff. right. now left. }
      destruct Il as (l & El & I). destruct R as [_ R]. destruct (R _ _ El) as [(m' & -> & H)|H].
      + destruct I as [->|[]]. auto.
      + destruct (H m I) as [_ (i & Hi)]. congruence.
    - intros [_ ->]. apply id_of_name_001. }
  assert (Hname : forall i, id_of_name (id_name i) = Some i) by (intros i; destruct i; vm_compute; reflexivity).
  destruct (source_meta db s) as [m|].
  - pose proof (proj1 (S m) eq_refl) as Rm. pose proof (Hn m Rm) as Hm.
    destruct (id_of_name (md_id m)) as [i|] eqn:Ei.
    + split; [discriminate|]. split; [|split].
      * intros i'. split.
        -- intros H. inversion H; subst i'. exists m. split; [exact Rm|]. symmetry. now apply id_of_name_inv.
        -- intros (m' & R' & E). rewrite (responsible_unique _ _ _ _ _ R' Rm) in E. rewrite E, Hname in Ei. congruence.
      * split; [discriminate|]. intros N. now apply N in Rm.
      * split; [intros (e & H); discriminate|]. intros (m' & H1 & H2).
        assert (m' = m) by (eapply responsible_unique; [left; exact H1|exact Rm]). subst m'.
        assert (Some i = None) by now apply Hm. discriminate.
    + split; [discriminate|]. split; [|split].
      * intros i. split; [discriminate|]. intros (m' & R' & E). rewrite (responsible_unique _ _ _ _ _ R' Rm) in E.
        rewrite E, Hname in Ei. discriminate.
      * split; [discriminate|]. intros N. now apply N in Rm.
      * split; [|eauto]. intros _. exists m. now apply Hm.
  - split; [discriminate|]. split; [|split].
    * intros i. split; [discriminate|]. intros (m & Rm & _). apply S in Rm. discriminate.
    * split; [|reflexivity]. intros _ m Rm. apply S in Rm. discriminate.
    * split; [intros (e & H); discriminate|]. intros (m & H & _). assert (responsible db c v m) as Rm by now left.
      apply S in Rm. discriminate.
Qed.
Print Assumptions C20_country.

Theorem C20_belongs : forall db p i, regular db -> country_id_with db p = Ok (Some i) ->
  exists m, by_id db (id_name i) = Some m /\ md_country_code m = code_value (ph_code p).
Proof.
  intros db p i R H. destruct (C20_country db p R) as (_ & H1 & _). apply H1 in H as (m & Rm & Hid).
  exists m. rewrite <- Hid. destruct R as [(entries & Hdb) R]. pose proof (db_from_db_ok _ _ Hdb) as OK.
  assert (Il : exists l, by_code db (code_value (ph_code p)) = Some l /\ In m l).
  { destruct Rm as [->|(b & a & -> & _)]; eexists; (split; [reflexivity|]); [now left|]. apply in_app_iff. right. now left. }
  destruct Il as (l & El & I). split; [|eapply ok_code; eauto]. destruct (R _ _ El) as [(m' & -> & H)|H].
  - destruct I as [->|[]]. rewrite H in Hid. exfalso. assert (K : id_of_name (lit "001") = Some i).
    { rewrite Hid. destruct i; vm_compute; reflexivity. } rewrite id_of_name_001 in K. discriminate.
  - now apply H.
Qed.
Print Assumptions C20_belongs.

(** ** The built-in metadata *)
Fixpoint nodupb (l : list str) : bool :=
  match l with [] => true | x :: l' => if existsb (str_eqb x) l' then false else nodupb l' end.
Definition ids_check (ls : list (list str)) : bool :=
  if forallb (fun l => match l with
       | [x] => if str_eqb x (lit "001") then true else is_some (id_of_name x)
       | _ => forallb (fun x => is_some (id_of_name x)) l end) ls
  then nodupb (filter (fun x => negb (str_eqb x (lit "001"))) (concat ls)) else false.

Lemma nodupb_inj : forall (f : str -> bool) (L : list metadata), nodupb (filter f (map md_id L)) = true ->
  forall m m', In m L -> In m' L -> f (md_id m) = true -> md_id m = md_id m' -> m = m'.
Proof.
  assert (I2 : forall f (L : list metadata) m, In m L -> f (md_id m) = true -> In (md_id m) (filter f (map md_id L))).
  { intros f L m I H. apply filter_In. split; [now apply in_map|exact H]. }
  intros f L. induction L as [|x L IH]; cbn [map filter]; intros H m m' I I' F E; [destruct I|].
  assert (X : forall y, In y L -> f (md_id y) = true -> f (md_id x) = true -> md_id y = md_id x -> False).
  { intros y Iy Fy Fx Ey. rewrite Fx in H. cbn [nodupb] in H.
    destruct (existsb (str_eqb (md_id x)) (filter f (map md_id L))) eqn:Z; [discriminate|].
    assert (W : existsb (str_eqb (md_id x)) (filter f (map md_id L)) = true); [|congruence].
    apply existsb_exists. exists (md_id y). split; [now apply I2|]. rewrite Ey. apply str_eqb_refl. }
  destruct I as [<-|I], I' as [<-|I'].
  - reflexivity.
  - exfalso. apply (X m' I'); congruence.
  - exfalso. apply (X m I); congruence.
  - apply IH; auto. destruct (f (md_id x)); [|exact H]. cbn [nodupb] in H. destruct (existsb _ _); [discriminate|exact H].
Qed.

Lemma regular_check : forall db entries, db_from entries = Ok db ->
  ids_check (map (fun p => map md_id (snd p)) (db_by_code db)) = true -> regular db.
Proof.
  intros db entries Hdb H. split; [eauto|]. pose proof (db_from_db_ok _ _ Hdb) as OK. unfold ids_check in H.
  destruct (forallb _ _) eqn:K; [|discriminate]. rewrite forallb_forall in K.
  assert (L : forall c l m, by_code db c = Some l -> In m l -> In m (concat (map snd (db_by_code db)))).
  { intros c l m E I. apply nget_in in E. apply in_concat. exists l. split; [|exact I]. apply (in_map snd) in E. exact E. }
  rewrite <- map_map, <- concat_map in H. pose proof (nodupb_inj _ _ H) as J. clear H.
  intros c l E. assert (Kl : In (map md_id l) (map (fun p => map md_id (snd p)) (db_by_code db))).
  { pose proof E as E'. apply nget_in in E'. apply (in_map (fun p => map md_id (snd p))) in E'. exact E'. }
  apply K in Kl. assert (R : (exists m, l = [m] /\ md_id m = lit "001") \/ forall m, In m l -> exists i, id_of_name (md_id m) = Some i).
  { assert (W : forall x, is_some (id_of_name x) = true -> exists i, id_of_name x = Some i).
    { intros x Hx. destruct (id_of_name x) as [i|]; [eauto|discriminate]. }
    assert (G : forall l, forallb (fun x => is_some (id_of_name x)) (map md_id l) = true -> forall m, In m l -> exists i, id_of_name (md_id m) = Some i).
    { intros l' Hl m I. rewrite forallb_forall in Hl. apply W, Hl. now apply in_map. }
    destruct l as [|m [|m2 l]]; [right; intros m []| |right; now apply G].
    cbn [map] in Kl. destruct (str_eqb (md_id m) (lit "001")) eqn:E1.
    - left. exists m. split; [reflexivity|]. now apply str_eqb_eq.
    - right. intros m' [<-|[]]. now apply W. }
  destruct R as [R|R]; [now left|right]. intros m I. destruct (R m I) as (i & Hi). split; [|eauto].
  destruct (ok_code_id _ OK _ _ _ E I) as (m' & Hm'). rewrite Hm'. f_equal. symmetry. apply J.
  - eapply L; eauto.
  - destruct (ok_id_code _ OK _ _ Hm') as (l' & E' & I'). eapply L; eauto.
  - destruct (str_eqb (md_id m) (lit "001")) eqn:E1; [|reflexivity]. apply str_eqb_eq in E1. rewrite E1, id_of_name_001 in Hi. discriminate.
  - symmetry. eapply ok_id; eauto.
Qed.

Definition default_ids : list (list str) := Eval vm_compute in map (fun p => map md_id (snd p)) (db_by_code default_db).
Lemma default_ids_ok : map (fun p => map md_id (snd p)) (db_by_code default_db) = default_ids.
Proof. vm_cast_no_check (eq_refl default_ids). Qed.
Lemma default_ids_check : ids_check default_ids = true.
Proof. vm_compute. reflexivity. Qed.
Theorem default_regular : regular default_db.
Proof. apply (regular_check default_db default_entries default_db_built). rewrite default_ids_ok. apply default_ids_check. Qed.

(** The five API statements for the built-in metadata. *)
Theorem C16_default : forall p,
  is_valid p = Ok true <->
  exists m, responsible default_db (code_value (ph_code p)) (nn_show (ph_national p)) m /\ known_type m (nn_show (ph_national p)).
Proof. intros p. apply C16_is_valid_iff, default_regular. Qed.
Theorem C17_default : forall p t,
  ph_number_type p = Ok t <->
   (exists m, responsible default_db (code_value (ph_code p)) (dec (nn_value (ph_national p))) m
      /\ has_type m (dec (nn_value (ph_national p))) t) \/
   (t = TUnknown /\ forall m, ~ responsible default_db (code_value (ph_code p)) (dec (nn_value (ph_national p))) m).
Proof. intros p t. apply C17_api, default_regular. Qed.
Theorem C20_default : forall p i, country_id p = Ok (Some i) ->
  exists m, by_id default_db (id_name i) = Some m /\ md_country_code m = code_value (ph_code p).
Proof. intros p i. apply C20_belongs, default_regular. Qed.

(** A valid number has a length listed for its type. *)
Definition lists_lengths (m : metadata) : Prop := forall d, In d (types_of (md_descriptors m)) -> d_possible_length d <> [].
Lemma types_in : forall ds t d, In (t, Some d) (type_order ds) -> In d (types_of ds) /\ ds_get ds t = Some d.
Proof.
  intros ds t d I. split.
  - unfold types_of. apply in_flat_map. exists (Some d). split; [|now left].
    change (In (Some d) (map snd (type_order ds))). apply (in_map snd) in I. exact I.
  - cbn [type_order In] in I. repeat (destruct I as [I|I]; [inversion I; subst; cbn [ds_get]; congruence|]). destruct I.
Qed.
Theorem C16_length : forall db p, regular db ->
  (forall c l m, by_code db c = Some l -> In m l -> lists_lengths m) ->
  is_valid_with db p = Ok true ->
  exists m t d, responsible db (code_value (ph_code p)) (nn_show (ph_national p)) m /\
    has_type m (nn_show (ph_national p)) t /\ ds_get (md_descriptors m) t = Some d /\
    In (N.of_nat (length (nn_show (ph_national p)))) (d_possible_length d).
Proof.
  intros db p R HL H. apply C16_is_valid_iff in H as (m & Rm & K); [|exact R]. set (v := nn_show (ph_national p)) in *.
  assert (Hm : lists_lengths m).
  { destruct Rm as [E|(b & a & E & _)]; eapply HL; eauto; [now left|]. apply in_app_iff. right. now left. }
  assert (Hd : digits v = true) by apply nn_show_digits. assert (Hl : length v < 1000) by apply nn_show_length.
  pose proof (number_type_has m v Hd Hl) as T. exists m, (number_type m v).
  pose proof T as T0. destruct T as [[N _]|(G & b & k & o & a & E & B & (d & -> & F) & C)]; [now elim N|].
  assert (I : In (k, Some d) (type_order (md_descriptors m))). { rewrite E. apply in_app_iff. right. now left. }
  apply types_in in I as [I Eg]. exists d. split; [exact Rm|]. split; [exact T0|]. split.
  - destruct C as [[_ ->]|[(-> & _ & ->)|(-> & _ & ->)]]; exact Eg.
  - destruct F as [[Z|F] _]; [|exact F]. exfalso. eapply Hm; eauto.
Qed.
Definition lengths_check (db : database) : bool :=
  forallb (fun p => forallb (fun m => forallb (fun d => match d_possible_length d with [] => false | _ => true end)
    (types_of (md_descriptors m))) (snd p)) (db_by_code db).
Lemma default_lengths_check : lengths_check default_db = true.
Proof. vm_cast_no_check (eq_refl true). Qed.
Lemma lengths_check_ok : forall db, lengths_check db = true -> forall c l m, by_code db c = Some l -> In m l -> lists_lengths m.
Proof.
  intros db H c l m E I d Id Z. unfold lengths_check in H. rewrite forallb_forall in H. apply nget_in, H in E.
  cbn [snd] in E. rewrite forallb_forall in E. apply E in I. rewrite forallb_forall in I. apply I in Id. rewrite Z in Id. discriminate.
Qed.
Corollary C16_length_default : forall p, is_valid p = Ok true ->
  exists m t d, responsible default_db (code_value (ph_code p)) (nn_show (ph_national p)) m /\
    has_type m (nn_show (ph_national p)) t /\ ds_get (md_descriptors m) t = Some d /\
    In (N.of_nat (length (nn_show (ph_national p)))) (d_possible_length d).
Proof. intros p. apply C16_length; [apply default_regular|]. apply lengths_check_ok, default_lengths_check. Qed.
Print Assumptions C16_length_default.

(** Patterns are not anchored at the end: +972 33142764978 is valid although no
    type pattern of its region matches the whole number. *)
Definition no_whole (v : str) (o : option (list metadata)) : bool :=
  match o with
  | Some [m] => forallb (fun d => forallb (fun s => match m_rest s with [] => false | _ => true end)
                  (ms (re_ast (d_national_number d)) (mk_mst 0 v []))) (types_of (md_descriptors m))
  | _ => false
  end.
Lemma no_whole_ok : forall v o, no_whole v o = true ->
  exists m, o = Some [m] /\ forall d, In d (types_of (md_descriptors m)) -> ~ matches_whole (re_ast (d_national_number d)) v.
Proof.
  intros v [[|m [|m2 l]]|] H; try discriminate. exists m. split; [reflexivity|]. intros d I L. cbn [no_whole] in H.
  rewrite forallb_forall in H. apply H in I. rewrite forallb_forall in I.
  destruct (ms_complete _ _ _ _ L (mk_mst 0 v []) eq_refl) as (s & Is & Hs & _); [cbn; now rewrite app_nil_r|].
  apply I in Is. rewrite Hs in Is. discriminate.
Qed.
Theorem C16_whole_match_refuted : exists s p m,
  parse None s = Ok p /\ is_valid p = Ok true /\ by_code default_db (code_value (ph_code p)) = Some [m] /\
  forall d, In d (types_of (md_descriptors m)) -> ~ matches_whole (re_ast (d_national_number d)) (nn_show (ph_national p)).
Proof.
  destruct (no_whole_ok (lit "33142764978") (by_code default_db 972)) as (m & E & H); [vm_cast_no_check (eq_refl true)|].
  exists (lit "+97233142764978"), (mk_phone (mk_code 972 SrcPlus) (mk_national 33142764978) None None), m.
  split; [vm_cast_no_check (@eq_refl (outcome perr phone) (Ok (mk_phone (mk_code 972 SrcPlus) (mk_national 33142764978) None None)))|].
  split; [vm_cast_no_check (@eq_refl (outcome perr bool) (Ok true))|]. split; [exact E|].
  assert (W : nn_show (mk_national 33142764978) = lit "33142764978") by (vm_compute; reflexivity).
  cbn [ph_national]. rewrite W. exact H.
Qed.

(** Leading zeros: an Italian fixed line is valid, but has no type and no country. *)
Theorem C18_zeros_refuted : exists s p, parse None s = Ok p /\ is_valid p = Ok true /\ ph_number_type p = Ok TUnknown.
Proof. exists (lit "+390236618300"). eexists. split; [vm_compute; reflexivity|]. split; vm_compute; reflexivity. Qed.
Theorem C20_valid_without_country_refuted : exists s p, parse (Some ID_IT) s = Ok p /\ is_valid p = Ok true /\ country_id p = Ok None.
Proof. exists (lit "0236618300"). eexists. split; [vm_compute; reflexivity|]. split; vm_compute; reflexivity. Qed.

(** Non-vacuity *)
Definition outcome_of (s : str) :=
  match parse None s with Ok p => Some (is_valid p, ph_number_type p, country_id p) | _ => None end.
Example C16_C17_C20_ex :
  outcome_of (lit "+447912345678") = Some (Ok true, Ok TMobile, Ok (Some ID_GB)) /\
  outcome_of (lit "+16502530000") = Some (Ok true, Ok TFixedLineOrMobile, Ok (Some ID_US)) /\
  outcome_of (lit "+14165550123") = Some (Ok true, Ok TFixedLineOrMobile, Ok (Some ID_CA)) /\
  outcome_of (lit "+80012345678") = Some (Ok true, Ok TTollFree, Err InvalidCountryCode) /\
  outcome_of (lit "+12530000") = Some (Ok false, Ok TUnknown, Ok None) /\
  outcome_of (lit "+3197012345678") = Some (Ok true, Ok TMobile, Ok (Some ID_NL)).
Proof. vm_compute. repeat split. Qed.
