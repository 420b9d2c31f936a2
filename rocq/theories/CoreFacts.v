(** * CoreFacts: texts that lead to the same digits parse alike *)
From Verif Require Import Base Unicode Regex RegexSyntax Consts CountryId Types NationalNumber
  Metadata Database Validator Valid Number Rfc3966 Helper Natural PhoneNumber Parser.
From Verif Require Import StrFacts NationalFacts RegexLang RegexFacts RegexCaps DatabaseFacts ParserFacts
  ParseInv TextFacts ViableFacts PhoneText E164Facts.

(** a number whose text is [s] and that has nothing else *)
Definition bare (s : str) : number := mk_number SrcDefault s None None None.

Lemma starts_plus_span : forall s, starts_plus s = false -> snd (span is_plus s) = s.
Proof. intros [|c s] H; [easy|]. cbn in *. now rewrite H. Qed.

Lemma international_prefix_core : forall E idd s s', starts_plus s = starts_plus s' ->
  plus_digits (bare s) = plus_digits (bare s') ->
  @international_prefix E idd (bare s) = international_prefix idd (bare s').
Proof.
  intros E idd s s' Hs H. unfold plus_digits, bare in H. cbn [pn_national] in H.
  unfold international_prefix, bare. cbn [pn_prefix pn_national]. fold (choose_mappings s). fold (choose_mappings s').
  rewrite !ignore_plus_len_0, <- Hs. destruct (starts_plus s) eqn:E1.
  - unfold trim. rewrite !slice_from_plus. cbn [unwrap obind]. unfold normalize, set_national, set_country.
    cbn [pn_national pn_prefix pn_extension pn_carrier pn_country option_map]. now rewrite H.
  - rewrite !starts_plus_span in H by congruence.
    unfold normalize, set_country. cbn [pn_national pn_prefix pn_extension pn_carrier pn_country option_map]. now rewrite H.
Qed.

Lemma country_code_core : forall db c s s', starts_plus s = starts_plus s' ->
  plus_digits (bare s) = plus_digits (bare s') ->
  country_code db c (bare s) = country_code db c (bare s').
Proof. intros db c s s' H1 H2. unfold country_code. now rewrite (international_prefix_core _ _ s s'). Qed.

Lemma parse_core : forall db c x y s s', p_phone_number x = Ok (bare s) -> p_phone_number y = Ok (bare s') ->
  is_viable s = is_viable s' -> starts_plus s = starts_plus s' ->
  plus_digits (bare s) = plus_digits (bare s') ->
  parse_with db c x = parse_with db c y.
Proof.
  intros db c x y s s' Hx Hy Hv H1 H2. unfold parse_with. rewrite Hx, Hy. cbn [obind].
  change (pn_national (bare s)) with s. change (pn_national (bare s')) with s'. rewrite Hv.
  destruct (is_viable s'); [|easy]. cbn [negb]. now rewrite (country_code_core db c s s').
Qed.

(** ** Viability *)
Definition count_digits (s : str) : nat := length (filter is_digit s).
Definition sep_or_digit (c : char) : bool := sep_char c || is_digit c.

Lemma next_digit : forall h, forallb sep_or_digit h = true -> 1 <= count_digits h ->
  exists g d h', h = g ++ d :: h' /\ forallb sep_char g = true /\ is_digit d = true
    /\ forallb sep_or_digit h' = true /\ count_digits h = S (count_digits h').
Proof.
  induction h as [|c h IH]; intros H1 H2; [cbn in H2; lia|]. cbn [forallb] in H1. apply andb_true_iff in H1 as [Hc H1].
  unfold count_digits in *. cbn [filter] in H2. destruct (is_digit c) eqn:D.
  - exists [], c, h. cbn [filter app]. rewrite D. auto 7.
  - destruct IH as (g & d & h' & -> & Hg & Hd & Hh & Hn); auto. exists (c :: g), d, h'.
    split; [easy|]. cbn [forallb]. unfold sep_or_digit in Hc. rewrite D, orb_false_r in Hc. rewrite Hc.
    cbn [filter app]. rewrite D. auto.
Qed.

Lemma sep_digit_tail : forall s, forallb sep_or_digit s = true -> forallb tail_char s = true.
Proof.
  intros s H. apply forallb_forall. intros c I. rewrite forallb_forall in H. apply H in I.
  unfold sep_or_digit, sep_char in I. unfold tail_char. rewrite I. easy.
Qed.

Lemma viable_enough : forall plus h r, forallb is_plus plus = true -> forallb sep_or_digit h = true ->
  3 <= count_digits h -> forallb tail_char r = true -> is_viable (plus ++ h ++ r) = true.
Proof.
  intros plus h r Hp Hh Hn Hr. apply is_viable_spec. right.
  destruct (next_digit h Hh) as (g1 & d1 & h1 & -> & Hg1 & Hd1 & Hh1 & N1); [lia|].
  destruct (next_digit h1 Hh1) as (g2 & d2 & h2 & -> & Hg2 & Hd2 & Hh2 & N2); [lia|].
  destruct (next_digit h2 Hh2) as (g3 & d3 & h3 & -> & Hg3 & Hd3 & Hh3 & N3); [lia|].
  exists plus, g1, d1, g2, d2, g3, d3, (h3 ++ r).
  split; [repeat (rewrite <- app_assoc; cbn [app]); easy|]. repeat split; auto.
  rewrite forallb_app, Hr, sep_digit_tail by easy. easy.
Qed.

Lemma viable_too_few : forall s, starts_plus s = true -> count_digits s < 3 -> is_viable s = false.
Proof.
  intros s Hs Hn. destruct (is_viable s) eqn:E; [|easy]. exfalso.
  apply is_viable_spec in E as [(a & b & -> & Ha & _)|E].
  - cbn in Hs. now rewrite digit_not_plus in Hs.
  - destruct E as (plus & g1 & d1 & g2 & d2 & g3 & d3 & rest & -> & _ & A & B & C & D1 & D2 & D3 & _).
    unfold count_digits in Hn.
    assert (G : forall u d v, is_digit d = true -> length (filter is_digit (u ++ d :: v)) >= S (length (filter is_digit v))).
    { intros u d v D. rewrite filter_app. cbn [filter]. rewrite D, app_length. cbn. lia. }
    rewrite filter_app, app_length in Hn.
    pose proof (G g1 d1 (g2 ++ d2 :: g3 ++ d3 :: rest) D1). pose proof (G g2 d2 (g3 ++ d3 :: rest) D2).
    pose proof (G g3 d3 rest D3). lia.
Qed.

(** ** Plain texts *)
(** ASCII digits and the separators, no plus sign *)
Definition unsigned (s : str) : Prop := forall c, In c s -> In c (lit "0123456789 -.()/").

Lemma unsigned_plain : forall s, unsigned s -> plain s.
Proof. intros s H c I. apply H in I. revert I. vm_compute. tauto. Qed.
Lemma unsigned_sep : forall s, unsigned s -> forallb sep_or_digit s = true.
Proof.
  intros s H. apply forallb_forall. intros c I. apply H in I.
  assert (G : forallb sep_or_digit (lit "0123456789 -.()/") = true) by (vm_compute; reflexivity).
  rewrite forallb_forall in G. auto.
Qed.
Lemma unsigned_no_plus : forall s, unsigned s -> starts_plus s = false.
Proof.
  intros [|c s] H; [easy|]. assert (I : In c (lit "0123456789 -.()/")) by (apply H; now left).
  assert (G : forallb (fun c => negb (is_plus c)) (lit "0123456789 -.()/") = true) by (vm_compute; reflexivity).
  rewrite forallb_forall in G. apply G in I. cbn. now apply negb_true_iff.
Qed.
Lemma unsigned_sub : forall s a, unsigned s -> (forall c, In c a -> In c s) -> unsigned a.
Proof. intros s a H Ha c I. auto. Qed.
Lemma unsigned_digits : forall s, unsigned (filter is_digit s).
Proof.
  intros s c I. apply filter_In in I as [_ D]. apply is_digit_spec in D.
  assert (E : (c = 48 \/ c = 49 \/ c = 50 \/ c = 51 \/ c = 52 \/ c = 53 \/ c = 54 \/ c = 55 \/ c = 56 \/ c = 57)%N) by lia.
  repeat (destruct E as [E|E]; [subst c; vm_compute; auto 20; fail|]). subst c. vm_compute; auto 20.
Qed.
Lemma filter_idem : forall s, filter is_digit (filter is_digit s) = filter is_digit s.
Proof.
  induction s as [|c s IH]; [easy|]. cbn [filter]. destruct (is_digit c) eqn:D; [|easy]. cbn [filter]. now rewrite D, IH.
Qed.

Lemma plus_digits_plain_eq : forall s, plain s -> plus_digits (bare s) = filter is_digit s.
Proof.
  intros s H. unfold plus_digits. cbn [bare pn_national]. rewrite plain_alpha by exact H.
  rewrite act_plain.
  - destruct (span is_plus s) as [a b] eqn:E. apply span_spec in E as (-> & Ha & _). cbn [snd].
    rewrite filter_app. replace (filter is_digit a) with (@nil char); [easy|]. clear H.
    induction a as [|c a IH]; [easy|]. cbn [forallb filter] in *. apply andb_true_iff in Ha as [Hc Ha].
    rewrite <- IH by exact Ha. destruct (is_digit c) eqn:D; [|easy]. now rewrite digit_not_plus in Hc.
  - eapply plain_sub; [exact H|]. intros c I. rewrite <- (span_app is_plus). apply in_app_iff. now right.
Qed.

(** the natural form of a plain text: cut to its first start character and its
    last wanted one *)
Lemma natural_plain_any : forall s, plain s ->
  natural s = match trim_end unwanted_end (snd (span (fun c => negb (start_char c)) s)) with
              | [] => Err tt | u => Ok (bare u) end.
Proof.
  intros s Hp. unfold natural. rewrite extract_spec.
  set (r0 := snd (span (fun c => negb (start_char c)) s)) in *.
  assert (Hr : plain r0).
  { eapply plain_sub; [exact Hp|]. intros c I. rewrite <- (span_app (fun c => negb (start_char c)) s). apply in_app_iff. now right. }
  destruct (trim_end_spec unwanted_end r0) as (z & Hs & _).
  assert (Hp1 : plain (trim_end unwanted_end r0)).
  { eapply plain_sub; [exact Hr|]. intros c I. rewrite Hs. apply in_app_iff. now left. }
  clearbody r0. destruct r0 as [|x r].
  - reflexivity.
  - rewrite plain_second by exact Hp1. destruct (trim_end unwanted_end (x :: r)) as [|y u] eqn:E; [easy|].
    cbn [obind]. now rewrite plain_extn.
Qed.

Lemma filter_skip_start : forall s, filter is_digit (snd (span (fun c => negb (start_char c)) s)) = filter is_digit s.
Proof.
  intros s. destruct (span _ s) as [a b] eqn:E. apply span_spec in E as (-> & Ha & _). cbn [snd].
  rewrite filter_app. replace (filter is_digit a) with (@nil char); [easy|].
  induction a as [|c a IH]; [easy|]. cbn [forallb filter] in *. apply andb_true_iff in Ha as [Hc Ha].
  rewrite <- IH by exact Ha. destruct (is_digit c) eqn:D; [|easy]. now rewrite digit_start in Hc.
Qed.

Lemma tag_tel_digit_sep : forall s, plain s -> tag_tel s = None.
Proof.
  intros s H. unfold tag_tel. destruct s as [|a [|b [|c [|d s]]]]; try reflexivity.
  assert (I : In a plain_chars) by (apply H; now left).
  assert (G : forallb (fun c => negb (N.eqb (ascii_lower c) 116)) plain_chars = true) by (vm_compute; reflexivity).
  rewrite forallb_forall in G. apply G, negb_true_iff in I. now rewrite I.
Qed.

Lemma unsigned_r_check : forall s, unsigned s -> s <> [] -> r_check s = false.
Proof.
  intros [|c s] H Hne; [easy|]. assert (I : In c (lit "0123456789 -.()/")) by (apply H; now left).
  assert (G : forallb (fun c => negb (N.eqb c 59)) (lit "0123456789 -.()/") = true) by (vm_compute; reflexivity).
  rewrite forallb_forall in G. apply G, negb_true_iff in I. exact I.
Qed.

(** what is read from an unsigned text: a part of it with the same digits *)
Lemma p_phone_unsigned : forall s, unsigned s -> 1 <= count_digits s ->
  exists u, p_phone_number s = Ok (bare u) /\ unsigned u /\ filter is_digit u = filter is_digit s.
Proof.
  intros s H Hn. unfold p_phone_number. destruct (rfc3966 s) as [n|] eqn:Er.
  - unfold rfc3966 in Er. destruct (mem_char 32%N s); [discriminate|].
    rewrite tag_tel_digit_sep in Er by now apply unsigned_plain.
    assert (Hp : r_prefix s = None).
    { pose proof (unsigned_no_plus s H) as P. unfold r_prefix. destruct s as [|c s]; [easy|]. cbn in P.
      unfold is_plus in P. apply orb_false_iff in P as [P _]. now rewrite P. }
    rewrite Hp in Er. destruct (span r_number s) as [a b] eqn:E. apply span_spec in E as (-> & _ & _).
    destruct a as [|x a]; [discriminate|].
    destruct b as [|y b].
    + cbn in Er. inversion Er; subst. exists (x :: a). rewrite app_nil_r in *. auto.
    + rewrite unsigned_r_check in Er; [discriminate| |easy]. eapply unsigned_sub; [exact H|].
      intros c I. apply in_app_iff. now right.
  - rewrite natural_plain_any by now apply unsigned_plain.
    set (r0 := snd (span (fun c => negb (start_char c)) s)).
    assert (F : filter is_digit (trim_end unwanted_end r0) = filter is_digit s).
    { rewrite filter_trim_end. apply filter_skip_start. }
    assert (U : unsigned (trim_end unwanted_end r0)).
    { eapply unsigned_sub; [exact H|]. intros c I. destruct (trim_end_spec unwanted_end r0) as (z & Hs & _).
      rewrite <- (span_app (fun c => negb (start_char c)) s). apply in_app_iff. right. fold r0. rewrite Hs.
      apply in_app_iff. now left. }
    destruct (trim_end unwanted_end r0) as [|y u] eqn:E.
    + exfalso. unfold count_digits in Hn. rewrite <- F in Hn. cbn in Hn. lia.
    + exists (y :: u). auto.
Qed.

Lemma parse_unsigned : forall db c s, unsigned s -> 3 <= count_digits s ->
  parse_with db c s = parse_with db c (filter is_digit s).
Proof.
  intros db c s H Hn. destruct (p_phone_unsigned s H) as (u & Hu & Uu & Fu); [lia|].
  assert (Ud : unsigned (filter is_digit s)) by apply unsigned_digits.
  assert (Nd : count_digits (filter is_digit s) = count_digits s) by (unfold count_digits; now rewrite filter_idem).
  destruct (p_phone_unsigned _ Ud) as (v & Hv & Uv & Fv); [lia|]. rewrite filter_idem in Fv.
  apply (parse_core _ _ _ _ u v Hu Hv).
  - assert (Vu : forall w, unsigned w -> filter is_digit w = filter is_digit s -> is_viable w = true).
    { intros w Uw Fw. rewrite <- (app_nil_r w). change (w ++ []) with ([] ++ w ++ []).
      apply viable_enough; auto using unsigned_sep. unfold count_digits. rewrite Fw. exact Hn. }
    now rewrite !Vu.
  - now rewrite !unsigned_no_plus.
  - rewrite !plus_digits_plain_eq by now apply unsigned_plain. congruence.
Qed.

(** ** Signed texts *)
Lemma rfc_space : forall s, In 32%N s -> rfc3966 s = None.
Proof.
  intros s I. unfold rfc3966. replace (mem_char 32%N s) with true; [easy|]. symmetry.
  unfold mem_char. apply existsb_exists. exists 32%N. split; [exact I|apply N.eqb_refl].
Qed.

Lemma sep_not_start : forall c, In c (lit " -.()/") -> start_char c = false.
Proof.
  intros c I. assert (G : forallb (fun c => negb (start_char c)) (lit " -.()/") = true) by (vm_compute; reflexivity).
  rewrite forallb_forall in G. now apply G, negb_true_iff in I.
Qed.

(** separators, '+', digits and separators, with a space somewhere *)
Lemma parse_signed : forall db c pre t, (forall x, In x pre -> In x (lit " -.()/")) -> unsigned t ->
  In 32%N (pre ++ ch_plus :: t) ->
  parse_with db c (pre ++ ch_plus :: t) = parse_with db c (ch_plus :: filter is_digit t).
Proof.
  intros db c pre t Hpre Ht Hsp.
  assert (Hpre' : forallb (fun x => negb (start_char x)) pre = true).
  { apply forallb_forall. intros x I. apply Hpre, sep_not_start in I. now rewrite I. }
  assert (Hp : plain (ch_plus :: t)).
  { intros x [<-|I]; [vm_compute; tauto|exact (unsigned_plain _ Ht x I)]. }
  assert (Hd : digits (filter is_digit t) = true) by apply digits_filter.
  assert (Ex : p_phone_number (pre ++ ch_plus :: t) =
               Ok (bare (trim_end unwanted_end (ch_plus :: t))) \/ count_digits t = 0).
  { unfold p_phone_number. rewrite rfc_space by exact Hsp. rewrite natural_skip by exact Hpre'.
    rewrite natural_plain_any by exact Hp.
    change (snd (span (fun c => negb (start_char c)) (ch_plus :: t))) with ((ch_plus :: t) : str).
    destruct (trim_end unwanted_end (ch_plus :: t)) as [|y u] eqn:E; [right|now left].
    pose proof (filter_trim_end (ch_plus :: t)) as F. rewrite E in F. unfold count_digits.
    change (filter is_digit t) with (filter is_digit (ch_plus :: t)). now rewrite <- F. }
  destruct Ex as [Ex|Hz].
  2:{ unfold count_digits in Hz. apply length_zero_iff_nil in Hz. rewrite Hz.
      assert (V : parse_with db c (ch_plus :: []) = Err NoNumber) by reflexivity. rewrite V.
      unfold parse_with. destruct (p_phone_number (pre ++ ch_plus :: t)) as [n|e|] eqn:En.
      3:{ unfold p_phone_number in En. rewrite rfc_space in En by exact Hsp. rewrite natural_skip in En by exact Hpre'.
          rewrite natural_plain_any in En by exact Hp. destruct (trim_end _ _); discriminate. }
      2:{ unfold p_phone_number in En. rewrite rfc_space in En by exact Hsp.
          destruct (natural (pre ++ ch_plus :: t)); inversion En. reflexivity. }
      cbn [obind]. destruct (is_viable (pn_national n)) eqn:Ev; [|easy]. exfalso.
      apply viable_digit in Ev as (x & I & D). apply p_phone_number_start in En as (P & _).
      eapply part_in in I; [|exact P]. apply in_app_iff in I as [I|[<-|I]].
      - apply Hpre, sep_not_start in I. now rewrite digit_start in I.
      - discriminate.
      - assert (In x (filter is_digit t)) by now apply filter_In. rewrite Hz in H. destruct H. }
  destruct (trim_end unwanted_end (ch_plus :: t)) as [|y u] eqn:E.
  { exfalso. unfold p_phone_number in Ex. rewrite rfc_space in Ex by exact Hsp. rewrite natural_skip in Ex by exact Hpre'.
    rewrite natural_plain_any in Ex by exact Hp.
    change (snd (span (fun c => negb (start_char c)) (ch_plus :: t))) with ((ch_plus :: t) : str) in Ex.
    rewrite E in Ex. discriminate. }
  destruct (trim_end_spec unwanted_end (ch_plus :: t)) as (z & Hs & _). rewrite E in Hs. cbn [app] in Hs.
  injection Hs as Ey Et. subst y.
  assert (Fu : filter is_digit u = filter is_digit t).
  { pose proof (filter_trim_end (ch_plus :: t)) as F. rewrite E in F. exact F. }
  assert (Uu : unsigned u). { eapply unsigned_sub; [exact Ht|]. intros x I. rewrite Et. apply in_app_iff. now left. }
  destruct (filter is_digit t) as [|d0 dd] eqn:Ed.
  { (* no digit *) unfold parse_with. rewrite Ex. cbn [obind]. change (pn_national (bare (ch_plus :: u))) with (ch_plus :: u).
    rewrite viable_too_few; [reflexivity|reflexivity|]. unfold count_digits. cbn [filter].
    change (is_digit ch_plus) with false. cbv iota. rewrite Fu. cbn. lia. }
  rewrite <- Ed in *.
  apply (parse_core _ _ _ _ (ch_plus :: u) (ch_plus :: filter is_digit t) Ex).
  - apply p_phone_plus_digits; [exact Hd|congruence].
  - assert (V : forall w, unsigned w -> filter is_digit w = filter is_digit t ->
      is_viable (ch_plus :: w) = (3 <=? count_digits t)).
    { intros w Uw Fw. destruct (Nat.leb_spec 3 (count_digits t)).
      - rewrite <- (app_nil_r w). change (ch_plus :: w ++ []) with ([ch_plus] ++ w ++ []).
        apply viable_enough; auto using unsigned_sep. unfold count_digits. now rewrite Fw.
      - apply viable_too_few; [easy|]. unfold count_digits. cbn [filter]. change (is_digit ch_plus) with false. cbv iota.
        now rewrite Fw. }
    rewrite !V; auto using unsigned_digits, filter_idem.
  - reflexivity.
  - rewrite !plus_digits_plain_eq.
    + cbn [filter]. change (is_digit ch_plus) with false. cbv iota. now rewrite filter_idem.
    + now apply plus_digits_plain.
    + intros x [<-|I]; [vm_compute; tauto|exact (unsigned_plain _ Uu x I)].
Qed.
