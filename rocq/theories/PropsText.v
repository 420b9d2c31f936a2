(** * C12-C15, C28, C34, C36: how the text of a number is read *)
From Verif Require Import Base Unicode Regex RegexSyntax Consts CountryId Types NationalNumber
  Metadata Database Validator Valid Number Rfc3966 Helper Natural PhoneNumber Parser Formatter Loader
  DefaultDb DefaultDbOk Api.
From Verif Require Import StrFacts NationalFacts RegexLang RegexFacts RegexCaps DatabaseFacts ParserFacts
  ParseInv TextFacts ViableFacts PhoneText E164Facts CoreFacts FormatFacts PropsParse PropsE164.

(** ** C12: separators *)
Definition separators : str := lit " -.()/".
(** the text without its separators *)
Definition without_separators (s : str) : str := filter (fun c => negb (existsb (N.eqb c) separators)) s.
Definition made_of (l s : str) : Prop := forall c, In c s -> In c l.

Lemma without_unsigned : forall s, made_of (lit "0123456789" ++ separators) s ->
  unsigned s /\ without_separators s = filter is_digit s.
Proof.
  intros s H. split.
  - intros c I. apply H in I. revert I. vm_compute. tauto.
  - unfold without_separators. apply filter_ext_in. intros c I. apply H in I.
    assert (G : forallb (fun c => Bool.eqb (negb (existsb (N.eqb c) separators)) (is_digit c))
                  (lit "0123456789" ++ separators) = true) by (vm_compute; reflexivity).
    rewrite forallb_forall in G. now apply G, Bool.eqb_prop in I.
Qed.

(** Digits and separators after '+' (and separators before it), a space
    somewhere: same result as without the separators, success or error. *)
Theorem C12_with_plus : forall db country pre t,
  made_of separators pre -> made_of (lit "0123456789" ++ separators) t -> In 32%N (pre ++ t) ->
  parse_with db country (pre ++ lit "+" ++ t) = parse_with db country (lit "+" ++ without_separators t).
Proof.
  intros db country pre t Hp Ht Hs. apply without_unsigned in Ht as [Ut ->].
  change (lit "+" ++ filter is_digit t) with (ch_plus :: filter is_digit t).
  change (lit "+" ++ t) with (ch_plus :: t). apply parse_signed; auto.
  apply in_app_iff in Hs. apply in_app_iff. destruct Hs; [now left|right; now right].
Qed.
(** Digits and separators, no '+', at least three digits. *)
Theorem C12_without_plus : forall db country t,
  made_of (lit "0123456789" ++ separators) t -> 3 <= length (without_separators t) ->
  parse_with db country t = parse_with db country (without_separators t).
Proof.
  intros db country t Ht Hn. apply without_unsigned in Ht as [Ut E]. rewrite E in *. now apply parse_unsigned.
Qed.
Print Assumptions C12_with_plus.
Print Assumptions C12_without_plus.
Example C12_ex : without_separators (lit "1 (650) 253-0000") = lit "16502530000" /\
  parse None (lit "+1 (650) 253-0000") = Ok (mk_phone (mk_code 1 SrcPlus) (mk_national 6502530000) None None)
  /\ parse (Some ID_US) (lit "(650) 253-0000") = Ok (mk_phone (mk_code 1 SrcDefault) (mk_national 6502530000) None None).
Proof. vm_compute. auto. Qed.

(** Without a space the RFC 3966 reader takes everything up to the first
    separator as the calling code. *)
Theorem C12_no_space_refuted : exists t,
  made_of (lit "0123456789" ++ separators) t /\
  parse None (lit "+" ++ t) = Err InvalidCountryCode /\
  parse None (lit "+" ++ without_separators t) = Ok (mk_phone (mk_code 1 SrcPlus) (mk_national 6502530000) None None).
Proof. exists (lit "1650-253-0000"). split; [refine (forallb_mem _ _ _); vm_compute; reflexivity|vm_compute; auto]. Qed.
(** Two digits: accepted together, refused apart. *)
Theorem C12_two_digits_refuted : exists t,
  made_of (lit "0123456789" ++ separators) t /\
  parse (Some ID_US) t = Err NoNumber /\
  parse (Some ID_US) (without_separators t) = Ok (mk_phone (mk_code 1 SrcDefault) (mk_national 99) None None).
Proof. exists (lit "9 9"). split; [refine (forallb_mem _ _ _); vm_compute; reflexivity|vm_compute; auto]. Qed.

(** ** C14: the grammar of viable texts *)
(** the punctuation that may appear: hyphens and dashes, spaces, brackets, dots,
    slashes, tildes, 'x' *)
Definition punctuation : list N :=
  [45; 120; 8208; 8209; 8210; 8211; 8212; 8213; 8722; 12540; 65293; 65295; 32; 160; 173; 8203; 8288; 12288;
   40; 41; 65288; 65289; 65339; 65341; 46; 91; 93; 47; 126; 8275; 8764; 65374]%N.
Definition filler (c : char) : Prop := In c punctuation \/ c = 42%N.
Definition adigit (c : char) : Prop := (48 <= c <= 57)%N.
Definition aletter (c : char) : Prop := (65 <= c <= 90)%N \/ (97 <= c <= 122)%N.
Definition aplus (c : char) : Prop := c = 43%N \/ c = 65291%N.

Definition viable_grammar (s : str) : Prop :=
  (exists a b, s = [a; b] /\ adigit a /\ adigit b) \/
  (exists plus g1 d1 g2 d2 g3 d3 rest,
     s = plus ++ (g1 ++ [d1]) ++ (g2 ++ [d2]) ++ (g3 ++ [d3]) ++ rest
     /\ Forall aplus plus /\ Forall filler g1 /\ Forall filler g2 /\ Forall filler g3
     /\ adigit d1 /\ adigit d2 /\ adigit d3
     /\ Forall (fun c => filler c \/ adigit c \/ aletter c) rest).

Lemma adigit_iff : forall c, is_digit c = true <-> adigit c.
Proof. intros c. apply is_digit_spec. Qed.
Lemma aplus_iff : forall c, is_plus c = true <-> aplus c.
Proof.
  intros c. unfold is_plus, aplus. rewrite orb_true_iff, !N.eqb_eq. tauto.
Qed.
Lemma filler_iff : forall c, sep_char c = true <-> filler c.
Proof.
  intros c. unfold sep_char, filler, is_star. rewrite orb_true_iff, N.eqb_eq.
  assert (E : is_punctuation c = true <-> In c punctuation); [|rewrite E; tauto].
  unfold is_punctuation, mem_char. rewrite existsb_exists. split.
  - intros (x & I & Ex). apply N.eqb_eq in Ex. subst x. revert I. vm_compute. tauto.
  - intros I. exists c. split; [|apply N.eqb_refl]. revert I. vm_compute. tauto.
Qed.
Lemma aletter_iff : forall c, is_alpha c = true <-> aletter c.
Proof.
  intros c. unfold is_alpha, is_ascii_alpha, aletter, in_range.
  rewrite ?orb_true_iff, ?andb_true_iff, ?N.leb_le. tauto.
Qed.
Lemma tail_iff : forall c, tail_char c = true <-> filler c \/ adigit c \/ aletter c.
Proof.
  intros c. unfold tail_char. rewrite !orb_true_iff, adigit_iff, aletter_iff, <- filler_iff.
  unfold sep_char. rewrite orb_true_iff. tauto.
Qed.
Lemma forall_iff : forall (p : char -> bool) (P : char -> Prop), (forall c, p c = true <-> P c) ->
  forall s, forallb p s = true <-> Forall P s.
Proof.
  intros p P H s. rewrite forallb_forall, Forall_forall. split; intros G c I; apply H; auto.
Qed.

Theorem C14_viable_iff_grammar : forall s, is_viable s = true <-> viable_grammar s.
Proof.
  intros s. pose proof (forall_iff _ _ aplus_iff) as FP. pose proof (forall_iff _ _ filler_iff) as FF.
  pose proof (forall_iff _ _ tail_iff) as FT. pose proof adigit_iff as FD.
  rewrite is_viable_spec. unfold viable_grammar. split.
  - intros [(a & b & -> & Ha & Hb)|(plus & g1 & d1 & g2 & d2 & g3 & d3 & rest & -> & Hp & A & B & C & D1 & D2 & D3 & Hr)].
    + left. exists a, b. apply FD in Ha. apply FD in Hb. auto.
    + right. exists plus, g1, d1, g2, d2, g3, d3, rest.
      apply FD in D1, D2, D3. apply FP in Hp. apply FF in A. apply FF in B. apply FF in C. apply FT in Hr.
      split; [|auto 10]. repeat (rewrite <- app_assoc; cbn [app]). reflexivity.
  - intros [(a & b & -> & Ha & Hb)|(plus & g1 & d1 & g2 & d2 & g3 & d3 & rest & -> & Hp & A & B & C & D1 & D2 & D3 & Hr)].
    + left. exists a, b. apply FD in Ha. apply FD in Hb. auto.
    + right. exists plus, g1, d1, g2, d2, g3, d3, rest.
      apply FD in D1, D2, D3. apply FP in Hp. apply FF in A. apply FF in B. apply FF in C. apply FT in Hr.
      split; [|auto 10]. repeat (rewrite <- app_assoc; cbn [app]). reflexivity.
Qed.
Print Assumptions C14_viable_iff_grammar.

(** ... and a text outside it is refused by every parse, whatever the database:
    what the parser accepts contains a viable part. *)
Theorem C14_parsed_part_viable : forall db country s p, parse_with db country s = Ok p ->
  exists a u b, s = a ++ u ++ b /\ viable_grammar u.
Proof.
  intros db country s p H. apply parse_with_inv in H as (n & _ & _ & _ & Hn & Hv & _).
  apply p_phone_number_start in Hn as ((a & b & E) & _). exists a, (pn_national n), b.
  split; [exact E|now apply C14_viable_iff_grammar].
Qed.
Example C14_ex : is_viable (lit "+1 (800) FLOWERS") = true /\ is_viable (lit "12") = true
  /\ is_viable (lit "1 2") = false /\ is_viable (lit "1-800A") = true /\ is_viable (lit "12A3") = false.
Proof. vm_compute. auto. Qed.

(** ** C34: leading text; C36: trailing punctuation *)
(** Text before the first plus sign or decimal digit, when a space follows. *)
Theorem C34_leading_text : forall db country pre s,
  (forall c, In c pre -> ~ aplus c /\ in_ranges tbl_Nd c = false) -> In 32%N s ->
  parse_with db country (pre ++ s) = parse_with db country s.
Proof.
  intros db country pre s Hp Hs. unfold parse_with, p_phone_number.
  rewrite !rfc_space; [|exact Hs|apply in_app_iff; now right]. rewrite natural_skip; [easy|].
  apply forallb_forall. intros c I. destruct (Hp c I) as [H1 H2]. unfold start_char. rewrite H2, orb_false_r.
  apply negb_true_iff. destruct (is_plus c) eqn:E; [|easy]. now apply aplus_iff in E.
Qed.
Print Assumptions C34_leading_text.
(** The same for leading text with a space before digits and separators. *)
Theorem C34_leading_text_digits : forall db country pre t,
  (forall c, In c pre -> ~ aplus c /\ in_ranges tbl_Nd c = false) -> In 32%N pre ->
  made_of (lit "0123456789" ++ separators) t -> 3 <= length (without_separators t) ->
  parse_with db country (pre ++ t) = parse_with db country t.
Proof.
  intros db country pre t Hp Hs Ht Hn. rewrite (C12_without_plus db country t Ht Hn).
  apply without_unsigned in Ht as [Ut E]. rewrite E in *.
  assert (Hpre : forallb (fun c => negb (start_char c)) pre = true).
  { apply forallb_forall. intros c I. destruct (Hp c I) as [H1 H2]. unfold start_char. rewrite H2, orb_false_r.
    apply negb_true_iff. destruct (is_plus c) eqn:E'; [|easy]. now apply aplus_iff in E'. }
  assert (Hsp : unsigned (lit " " ++ t)).
  { intros c I. apply in_app_iff in I as [I|I]; [revert I; vm_compute; tauto|now apply Ut]. }
  assert (F : filter is_digit (lit " " ++ t) = filter is_digit t) by reflexivity.
  transitivity (parse_with db country (lit " " ++ t)).
  - unfold parse_with, p_phone_number.
    rewrite !rfc_space; [|now left|apply in_app_iff; now left].
    rewrite natural_skip by exact Hpre. rewrite natural_skip; [easy|reflexivity].
  - rewrite parse_unsigned; [|exact Hsp|unfold count_digits; rewrite F; exact Hn]. now rewrite F.
Qed.
Example C34_ex : (forall c, In c (lit "Phone: ") -> ~ aplus c /\ in_ranges tbl_Nd c = false)
  /\ parse None (lit "Phone: +41 44 668 18 00") = parse None (lit "+41 44 668 18 00")
  /\ parse None (lit "+41 44 668 18 00") = Ok (mk_phone (mk_code 41 SrcPlus) (mk_national 446681800) None None).
Proof.
  split; [|vm_compute; auto]. intros c I. unfold aplus. vm_compute in I.
  repeat (destruct I as [<-|I]; [split; [intuition discriminate|vm_compute; reflexivity]|]). destruct I.
Qed.
(** Without a space the leading text is not always ignored: the rest is read as
    an RFC 3966 number. *)
Theorem C34_no_space_refuted : exists pre s,
  (forall c, In c pre -> ~ aplus c /\ in_ranges tbl_Nd c = false) /\
  parse None (pre ++ s) = Ok (mk_phone (mk_code 1 SrcPlus) (mk_national 6502530000) None None) /\
  parse None s = Err InvalidCountryCode.
Proof.
  exists (lit "#"), (lit "+1650-253-0000"). split; [|vm_compute; auto].
  intros c [<-|[]]. split; [unfold aplus; intuition discriminate|vm_compute; reflexivity].
Qed.

(** a character that is not a letter, not a numeral and not '#' *)
Definition trailing_junk (c : char) : Prop :=
  in_ranges tbl_N c = false /\ in_ranges tbl_L c = false /\ c <> 35%N.

Lemma trim_end_app : forall p a z, forallb p z = true -> trim_end p (a ++ z) = trim_end p a.
Proof.
  intros p a z H. unfold trim_end. rewrite rev_app_distr. rewrite span_app_nil; [easy|].
  apply forallb_forall. intros c I. apply in_rev in I. rewrite forallb_forall in H. auto.
Qed.
Lemma span_stop : forall (p : char -> bool) a b, snd (span p a) <> [] -> snd (span p (a ++ b)) = snd (span p a) ++ b.
Proof.
  intros p a b H. induction a as [|c a IH]; [easy|]. cbn [app span] in *. destruct (p c); [|easy].
  destruct (span p a) as [x y]. destruct (span p (a ++ b)) as [u v]. cbn [snd] in *. auto.
Qed.

Theorem C36_trailing_punctuation : forall db country s post,
  Forall trailing_junk post -> In 32%N s -> (exists c, In c s /\ (aplus c \/ in_ranges tbl_Nd c = true)) ->
  parse_with db country (s ++ post) = parse_with db country s.
Proof.
  intros db country s post Hp Hs (c & Ic & Hc). unfold parse_with, p_phone_number.
  rewrite !rfc_space; [|exact Hs|apply in_app_iff; now left].
  assert (E : natural (s ++ post) = natural s); [|now rewrite E].
  unfold natural. rewrite !extract_spec.
  assert (Hne : snd (span (fun c => negb (start_char c)) s) <> []).
  { intros En. destruct (span (fun c => negb (start_char c)) s) as [a b] eqn:Es. cbn in En. subst b.
    apply span_spec in Es as (E & Ha & _). rewrite app_nil_r in E. subst a. rewrite forallb_forall in Ha.
    apply Ha, negb_true_iff in Ic. unfold start_char in Ic. apply orb_false_iff in Ic as [I1 I2].
    destruct Hc as [Hc|Hc]; [apply aplus_iff in Hc; congruence|congruence]. }
  rewrite span_stop by exact Hne. set (r := snd (span _ s)) in *.
  destruct r as [|x r]; [easy|]. cbn [app]. change (x :: r ++ post) with ((x :: r) ++ post).
  rewrite trim_end_app.
  - reflexivity.
  - apply forallb_forall. intros y I. rewrite Forall_forall in Hp. apply Hp in I as (H1 & H2 & H3).
    unfold unwanted_end. rewrite H1, H2. apply N.eqb_neq in H3. now rewrite H3.
Qed.
Print Assumptions C36_trailing_punctuation.
Example C36_ex : Forall trailing_junk (lit "). ") /\
  parse (Some ID_CH) (lit "(044 668 18 00). ") = parse (Some ID_CH) (lit "(044 668 18 00")
  /\ parse (Some ID_CH) (lit "(044 668 18 00") = Ok (mk_phone (mk_code 41 SrcDefault) (mk_national 446681800) None None).
Proof.
  split; [|vm_compute; auto]. repeat constructor; try (vm_compute; reflexivity); intros E; discriminate E.
Qed.

(** ** C28: what is rejected *)
(** A text without an ASCII digit is [NoNumber], for every database. *)
Theorem C28_no_digit : forall db country s, (forall c, In c s -> ~ adigit c) ->
  parse_with db country s = Err NoNumber.
Proof.
  intros db country s H. unfold parse_with. destruct (p_phone_number s) as [n|e|] eqn:En.
  - cbn [obind]. destruct (is_viable (pn_national n)) eqn:Ev; [|easy]. exfalso.
    apply viable_digit in Ev as (x & I & D). apply p_phone_number_start in En as (P & _).
    apply (H x); [eapply part_in; eauto|now apply adigit_iff].
  - unfold p_phone_number in En. destruct (rfc3966 s); [discriminate|]. destruct (natural s); inversion En. reflexivity.
  - now apply p_phone_number_no_panic in En.
Qed.
Print Assumptions C28_no_digit.
Example C28_ex1 : parse (Some ID_US) (lit "This is not a phone number") = Err NoNumber
  /\ parse None (lit "+---") = Err NoNumber.
Proof. vm_compute. auto. Qed.

(** Whatever is accepted has 2 to 17 national digits, not all zero, and a value
    below 2^56. *)
Theorem C28_bounds : forall country s p, parse country s = Ok p ->
  2 <= length (nn_show (ph_national p)) <= 17 /\ (1 <= nn_value (ph_national p) < 2 ^ 56)%N.
Proof.
  intros country s p H. apply parsed_national in H as (t & <- & _ & Hl & _ & _ & Hv & _); [auto|].
  apply default_rules_no_plus.
Qed.
(** '+', a calling code and more than 17 digits, or fewer than 2, to which no
    national-prefix rule applies: refused as too long / too short. *)
Theorem C28_length : forall db country c e src,
  all_digits e -> (1 <= c <= 999)%N -> by_code db c <> None ->
  (forall c' rest, by_code db c' <> None -> (c' <= 999)%N -> dec c = dec c' ++ rest -> rest = []) ->
  not_dialled db country (dec c ++ e) ->
  3 <= length (dec c ++ e) ->
  source_for db c (trim_start_char ch_0 e) = Ok src ->
  (forall m, source_meta db src = Some m -> ~ rule_applies m e) ->
  (17 < length e -> parse_with db country (lit "+" ++ dec c ++ e) = Err TooLong) /\
  (length e < 2 -> parse_with db country (lit "+" ++ dec c ++ e) = Err TooShortNsn).
Proof.
  intros db country c e src He Hc Hk Huniq Hd Hl Hsrc Hr. apply all_digits_iff in He.
  assert (E : parse_with db country (lit "+" ++ dec c ++ e) = finish (mk_number SrcPlus e (Some (dec c)) None None)).
  { change (lit "+" ++ dec c ++ e) with (ch_plus :: dec c ++ e).
    apply (parse_e164_finish db country c e src); auto; [lia|lia|now apply not_dialled_free|].
    intros m Hm. now apply no_rule_silent, Hr. }
  rewrite E. unfold finish. cbn [pn_national]. rewrite digits_blen by exact He.
  unfold MIN_LENGTH_FOR_NSN, MAX_LENGTH_FOR_NSN. split; intros H.
  - destruct (Nat.ltb_spec (length e) 2); [lia|]. now destruct (Nat.ltb_spec 17 (length e)); [|lia].
  - now destruct (Nat.ltb_spec (length e) 2); [|lia].
Qed.
Print Assumptions C28_length.
Example C28_ex2 : parse None (lit "+41446681800123456789") = Err TooLong
  /\ parse None (lit "+441") = Err TooShortNsn /\ parse None (lit "+2105551234") = Err InvalidCountryCode.
Proof. vm_compute. auto. Qed.

(** ** C13: letters *)
Definition letter (c : char) : bool := (N.leb 65 c && N.leb c 90) || (N.leb 97 c && N.leb c 122).
Definition letters (s : str) : str := filter letter s.
(** the telephone keypad: ABC DEF GHI JKL MNO PQRS TUV WXYZ on 2 ... 9 *)
Definition keypad (c : char) : str :=
  if is_digit c then [c]
  else if (N.leb 65 c && N.leb c 90)%bool
       then match nth_error (lit "22233344455566677778889999") (N.to_nat (c - 65)) with Some d => [d] | None => [] end
  else if (N.leb 97 c && N.leb c 122)%bool
       then match nth_error (lit "22233344455566677778889999") (N.to_nat (c - 97)) with Some d => [d] | None => [] end
  else [].

Definition any_cls : cls := CNeg (CRange 10 10).
Definition letter_cls : cls := CUnion (CRange 65 90) (CRange 97 122).
Lemma alpha_ast : re_ast VALID_ALPHA_PHONE =
  RCat (RRep true 3 (Some 3) (RCat (RRep false 0 None (RCls any_cls)) (RCls letter_cls)))
       (RRep true 0 None (RCls any_cls)).
Proof. reflexivity. Qed.
Lemma letter_cls_ok : forall c, in_cls letter_cls c = letter c.
Proof.
  intros c. cbn [in_cls letter_cls]. unfold letter, in_range.
  destruct (N.leb 65 c), (N.leb c 90), (N.leb 97 c), (N.leb c 122); reflexivity.
Qed.
Lemma any_cls_ok : forall c, c <> 10%N -> in_cls any_cls c = true.
Proof. intros c H. cbn [in_cls any_cls]. rewrite in_range_single. apply N.eqb_neq in H. now rewrite H. Qed.

Lemma next_letter : forall s, 1 <= length (letters s) -> exists x l s', s = x ++ l :: s' /\ letter l = true
  /\ length (letters s) = S (length (letters s')).
Proof.
  induction s as [|c s IH]; intros H; [cbn in H; lia|]. unfold letters in *. cbn [filter] in *.
  destruct (letter c) eqn:E.
  - exists [], c, s. auto.
  - destruct (IH H) as (x & l & s' & -> & Hl & Hn). exists (c :: x), l, s'. auto.
Qed.

Lemma letters_app : forall a b, length (letters (a ++ b)) = length (letters a) + length (letters b).
Proof. intros a b. unfold letters. rewrite filter_app. apply app_length. Qed.

Lemma langs_letters : forall n b t a,
  langs (RCat (RRep false 0 None (RCls any_cls)) (RCls letter_cls)) n b t a -> n <= length (letters t).
Proof.
  induction n as [|n IH]; intros b t a H; [lia|]. inversion H as [|r n' b' t1 t2 a' L LS]; subst.
  apply IH in LS. rewrite letters_app. inversion L as [| |r1 r2 b' u1 u2 a' L1 L2| | | | | |]; subst.
  apply lang_cls in L2 as (y & -> & Hy). rewrite letter_cls_ok in Hy. rewrite letters_app.
  unfold letters at 2. cbn [filter]. rewrite Hy. cbn. lia.
Qed.

Lemma alpha_match : forall s, ~ In 10%N s -> re_is_match VALID_ALPHA_PHONE s = (3 <=? length (letters s)).
Proof.
  intros s Hnl. destruct (re_is_match VALID_ALPHA_PHONE s) eqn:E.
  - symmetry. apply Nat.leb_le. apply re_is_match_spec in E as (b & t & a & -> & L). rewrite alpha_ast in L.
    inversion L as [| |r1 r2 b' u1 u2 a' L1 L2| | | | | |]; subst.
    inversion L1 as [| | | | |g mn mx r n b' t a' H1 H2 LS| | |]; subst. apply langs_letters in LS.
    rewrite !letters_app. lia.
  - symmetry. apply Nat.leb_gt. destruct (Nat.lt_ge_cases (length (letters s)) 3) as [|G]; [easy|]. exfalso.
    assert (M : re_is_match VALID_ALPHA_PHONE s = true); [|congruence]. apply re_is_match_spec.
    destruct (next_letter s) as (x1 & l1 & s1 & E1 & H1 & N1); [lia|].
    destruct (next_letter s1) as (x2 & l2 & s2 & E2 & H2 & N2); [lia|].
    destruct (next_letter s2) as (x3 & l3 & s3 & E3 & H3 & N3); [lia|].
    assert (Any : forall u, (forall c, In c u -> In c s) -> forallb (in_cls any_cls) u = true).
    { intros u Hu. apply forallb_forall. intros c I. apply any_cls_ok. intros ->. auto. }
    assert (Unit : forall x l b a, (forall c, In c x -> In c s) -> letter l = true ->
      lang (RCat (RRep false 0 None (RCls any_cls)) (RCls letter_cls)) b (x ++ [l]) a).
    { intros x l b a Hx Hl. constructor.
      - apply lang_rep_cls. split; [lia|]. split; [easy|auto].
      - apply lang_cls. exists l. split; [easy|now rewrite letter_cls_ok]. }
    assert (I1 : forall c, In c s1 -> In c s). { intros c I. rewrite E1. apply in_app_iff. right. now right. }
    assert (I2 : forall c, In c s2 -> In c s). { intros c I. apply I1. rewrite E2. apply in_app_iff. right. now right. }
    assert (I3 : forall c, In c s3 -> In c s). { intros c I. apply I2. rewrite E3. apply in_app_iff. right. now right. }
    exists [], ((x1 ++ [l1]) ++ (x2 ++ [l2]) ++ (x3 ++ [l3]) ++ []), s3. rewrite alpha_ast. split.
    { rewrite E1, E2, E3. repeat (rewrite <- app_assoc; cbn [app]). reflexivity. }
    rewrite <- (app_nil_r ((x1 ++ [l1]) ++ _)). constructor; [|apply lang_rep_cls; cbn; auto].
    apply (L_rep _ _ _ _ 3); [lia|cbn; lia|].
    constructor. { apply Unit; auto. intros c I. rewrite E1. apply in_app_iff. now left. }
    constructor. { apply Unit; auto. intros c I. apply I1. rewrite E2. apply in_app_iff. now left. }
    constructor. { apply Unit; auto. intros c I. apply I2. rewrite E3. apply in_app_iff. now left. }
    constructor.
Qed.

(** every ASCII character *)
Definition ascii : list char := map N.of_nat (seq 0 128).
Lemma ascii_in : forall c, (c < 128)%N -> In c ascii.
Proof.
  intros c H. unfold ascii. apply in_map_iff. exists (N.to_nat c). split; [apply Nnat.N2Nat.id|]. apply in_seq. lia.
Qed.
Lemma alpha_push : forall c, (c < 128)%N -> act_push ALPHA_PHONE_MAPPINGS c = keypad c.
Proof.
  intros c H. apply ascii_in in H.
  assert (G : forallb (fun c => str_eqb (act_push ALPHA_PHONE_MAPPINGS c) (keypad c)) ascii = true) by (vm_compute; reflexivity).
  rewrite forallb_forall in G. now apply str_eqb_eq, G.
Qed.
Lemma ascii_push : forall c, (c < 128)%N -> act_push ASCII_MAPPINGS c = if is_digit c then [c] else [].
Proof.
  intros c H. apply ascii_in in H.
  assert (G : forallb (fun c => str_eqb (act_push ASCII_MAPPINGS c) (if is_digit c then [c] else [])) ascii = true) by (vm_compute; reflexivity).
  rewrite forallb_forall in G. now apply str_eqb_eq, G.
Qed.

(** the digits that the letters and digits of a text stand for *)
Definition dialled (s : str) : str := if 3 <=? length (letters s) then flat_map keypad s else filter is_digit s.

Lemma act_ascii : forall s t, (forall c, In c t -> (c < 128)%N) -> ~ In 10%N s -> length (letters t) = length (letters s) ->
  act (choose_mappings s) t = dialled t.
Proof.
  intros s t Ht Hs Hl. unfold choose_mappings, dialled. rewrite alpha_match by exact Hs. rewrite Hl.
  rewrite act_flat_map. destruct (3 <=? length (letters s)); clear Hl.
  - induction t as [|c t IH]; [easy|]. cbn [flat_map]. rewrite alpha_push by (apply Ht; now left).
    f_equal. apply IH. intros d I. apply Ht. now right.
  - induction t as [|c t IH]; [easy|]. cbn [flat_map filter]. rewrite ascii_push by (apply Ht; now left).
    rewrite IH by (intros d I; apply Ht; now right). now destruct (is_digit c).
Qed.

Lemma keypad_digits : forall c, digits (keypad c) = true.
Proof.
  intros c. unfold keypad. destruct (is_digit c) eqn:E; [cbn; now rewrite E|].
  assert (G : forall n, digits (match nth_error (lit "22233344455566677778889999") n with Some d => [d] | None => [] end) = true).
  { intros n. destruct (nth_error _ n) as [d|] eqn:En; [|easy]. apply nth_error_In in En.
    assert (D : digits (lit "22233344455566677778889999") = true) by reflexivity.
    unfold digits in D. rewrite forallb_forall in D. cbn. now rewrite D. }
  destruct (_ && _)%bool; [apply G|]. destruct (_ && _)%bool; [apply G|easy].
Qed.
Lemma dialled_digits : forall s, digits (dialled s) = true.
Proof.
  intros s. unfold dialled. destruct (3 <=? _); [|apply digits_filter].
  induction s as [|c s IH]; [easy|]. cbn [flat_map]. now rewrite digits_app, keypad_digits.
Qed.
Lemma dialled_length : forall h r, count_digits h <= length (dialled (h ++ r)).
Proof.
  intros h r. unfold dialled. destruct (3 <=? _).
  - rewrite flat_map_app, app_length. apply Nat.le_trans with (length (flat_map keypad h)); [|lia].
    unfold count_digits. induction h as [|c h IH]; [easy|]. cbn [filter flat_map]. rewrite app_length.
    unfold keypad at 1. destruct (is_digit c); cbn [length]; lia.
  - rewrite filter_app, app_length. unfold count_digits. lia.
Qed.

(** A number written with letters: [sign] is "" or "+", [h] holds at least three
    digits, letters come after; the code's patterns for extensions and second
    numbers find nothing. *)
Theorem C13_letters : forall db country sign h r x,
  sign = [] \/ sign = lit "+" ->
  made_of (lit "0123456789" ++ separators) h -> 3 <= length (without_separators h) ->
  (forall c, In c (r ++ [x]) -> In c (lit "0123456789" ++ separators) \/ letter c = true) ->
  letter x = true \/ is_digit x = true ->
  (sign = [] -> exists d h', h = d :: h' /\ is_digit d = true) ->
  In 32%N (h ++ r) ->
  ~ matches_somewhere (re_ast EXTN_PATTERN) (sign ++ h ++ r ++ [x]) ->
  ~ matches_somewhere (re_ast SECOND_NUMBER_START) (sign ++ h ++ r ++ [x]) ->
  parse_with db country (sign ++ h ++ r ++ [x]) = parse_with db country (sign ++ dialled (h ++ r ++ [x])).
Proof.
  intros db country sign h r x Hsign Hh Hn Hr Hx Hd Hsp Hext Hsec.
  apply without_unsigned in Hh as [Uh E]. rewrite E in Hn. clear E.
  set (s := sign ++ h ++ r ++ [x]) in *.
  assert (Hascii : forall c, In c (h ++ r ++ [x]) -> (c < 128)%N /\ c <> 10%N /\ c <> 43%N).
  { assert (G : forallb (fun c => (N.ltb c 128 && negb (N.eqb c 10) && negb (N.eqb c 43))%bool) (lit "0123456789" ++ separators) = true)
      by (vm_compute; reflexivity). rewrite forallb_forall in G.
    assert (G' : forall c, In c (lit "0123456789" ++ separators) -> (c < 128)%N /\ c <> 10%N /\ c <> 43%N).
    { intros c I. apply G in I. rewrite !andb_true_iff, !negb_true_iff, N.ltb_lt, !N.eqb_neq in I. tauto. }
    intros c I. apply in_app_iff in I as [I|I].
    - apply G'. apply Uh in I. exact I.
    - apply Hr in I as [I|I]; [now apply G'|]. unfold letter in I.
      rewrite orb_true_iff, !andb_true_iff, !N.leb_le in I. clear - I. lia. }
  assert (Hsgn : forallb is_plus sign = true) by (destruct Hsign; subst sign; reflexivity).
  assert (Es : exists a, s = a ++ [x]). { exists (sign ++ h ++ r). unfold s. now rewrite !app_assoc. }
  destruct Es as (a & Es).
  assert (Hstart : start_char (hd 0%N (a ++ [x])) = true).
  { rewrite <- Es. unfold s. destruct Hsign; subst sign; [|reflexivity].
    destruct (Hd eq_refl) as (d & h' & -> & D). cbn. now apply digit_start. }
  assert (Hend : unwanted_end x = false).
  { destruct Hx as [Hx|Hx]; [|now apply digit_N].
    assert (I : In x ascii). { apply ascii_in. unfold letter in Hx. rewrite orb_true_iff, !andb_true_iff, !N.leb_le in Hx. clear - Hx. lia. }
    assert (G : forallb (fun c => if letter c then negb (unwanted_end c) else true) ascii = true) by (vm_compute; reflexivity).
    rewrite forallb_forall in G. apply G in I. rewrite Hx in I. now apply negb_true_iff. }
  assert (Hnat : p_phone_number s = Ok (bare s)).
  { unfold p_phone_number. rewrite rfc_space.
    - apply re_find_none in Hext. apply re_find_none in Hsec.
      unfold natural. rewrite Es in *. rewrite extract_ends; auto.
      + cbn [obind]. set (e0 := re_find EXTN_PATTERN _); replace e0 with (@None mres) by (symmetry; exact Hext); reflexivity.
      + unfold cut_second. set (e0 := re_find SECOND_NUMBER_START _); replace e0 with (@None mres) by (symmetry; exact Hsec); reflexivity.
    - unfold s. apply in_app_iff. right. rewrite app_assoc. apply in_app_iff. now left. }
  assert (Htail : forallb tail_char (r ++ [x]) = true).
  { apply forallb_forall. intros c I. apply Hr in I as [I|I].
    - assert (G : forallb tail_char (lit "0123456789" ++ separators) = true) by (vm_compute; reflexivity).
      rewrite forallb_forall in G. auto.
    - apply tail_iff. right. right. unfold letter in I. rewrite orb_true_iff, !andb_true_iff, !N.leb_le in I. exact I. }
  assert (Hv : is_viable s = true) by (apply viable_enough; auto using unsigned_sep).
  assert (Hdd : digits (dialled (h ++ r ++ [x])) = true) by apply dialled_digits.
  assert (Hdl : 3 <= length (dialled (h ++ r ++ [x]))).
  { pose proof (dialled_length h (r ++ [x])). unfold count_digits in H. lia. }
  set (D := dialled (h ++ r ++ [x])) in *.
  assert (Hfd : filter is_digit D = D). { clear - Hdd. induction D as [|c D IH]; [easy|]. cbn in *.
    apply andb_true_iff in Hdd as [H1 H2]. rewrite H1. now rewrite IH. }
  assert (HD : exists v, p_phone_number (sign ++ D) = Ok (bare v) /\ is_viable v = true
             /\ starts_plus v = starts_plus s /\ plus_digits (bare v) = D).
  { destruct Hsign as [->| ->].
    - cbn [app]. destruct (p_phone_unsigned D) as (v & Hv' & Uv & Fv).
      + rewrite <- Hfd. apply unsigned_digits.
      + unfold count_digits. rewrite Hfd. lia.
      + exists v. split; [easy|]. rewrite Hfd in Fv. split.
        { rewrite <- (app_nil_r v). change (v ++ []) with ([] ++ v ++ []). apply viable_enough; auto using unsigned_sep.
          unfold count_digits. now rewrite Fv. }
        split.
        { rewrite unsigned_no_plus by easy. unfold s. destruct (Hd eq_refl) as (d & h' & -> & Dd). cbn. now rewrite digit_not_plus. }
        rewrite plus_digits_plain_eq by now apply unsigned_plain. exact Fv.
    - exists (ch_plus :: D). split; [|split; [|split]].
      + apply p_phone_plus_digits; [easy|]. intros E. rewrite E in Hdl. cbn in Hdl. lia.
      + rewrite viable_plus_digits by easy. now apply Nat.leb_le.
      + reflexivity.
      + rewrite plus_digits_plain_eq by now apply plus_digits_plain. exact Hfd. }
  destruct HD as (v & Pv & Vv & Sv & Dv).
  apply (parse_core _ _ _ _ s v Hnat Pv); [congruence|congruence|]. rewrite Dv.
  unfold plus_digits. cbn [bare pn_national].
  assert (Hspan : snd (span is_plus s) = h ++ r ++ [x]).
  { unfold s. rewrite span_app_nil by exact Hsgn. cbn [snd]. apply starts_plus_span.
    destruct (h ++ r ++ [x]) as [|c w] eqn:E; [easy|]. cbn. destruct (Hascii c) as (H1 & _ & H2); [now left|].
    unfold is_plus. apply orb_false_iff. split; apply N.eqb_neq; [exact H2|]. intros ->. vm_compute in H1. discriminate H1. }
  rewrite Hspan. apply act_ascii.
  - intros c I. now apply Hascii.
  - intros I. unfold s in I. apply in_app_iff in I as [I|I].
    + destruct Hsign; subst sign; [destruct I|]. destruct I as [I|[]]. discriminate I.
    + apply Hascii in I as (_ & I & _). now elim I.
  - unfold s. rewrite (letters_app sign). destruct Hsign; subst sign; reflexivity.
Qed.
Print Assumptions C13_letters.

(** Without the letters T and X no extension or second number can be found. *)
Definition harmless : list char := Eval vm_compute in
  lit "0123456789+ -.()/ABCDEFGHIJKLMNOPQRSUVWYZabcdefghijklmnopqrsuvwyz".
Corollary C13_letters_no_TX : forall db country sign h r x,
  sign = [] \/ sign = lit "+" ->
  made_of (lit "0123456789" ++ separators) h -> 3 <= length (without_separators h) ->
  (forall c, In c (r ++ [x]) -> In c (lit "0123456789" ++ separators) \/ letter c = true) ->
  letter x = true \/ is_digit x = true ->
  (sign = [] -> exists d h', h = d :: h' /\ is_digit d = true) ->
  In 32%N (h ++ r) -> (forall c, In c (r ++ [x]) -> ~ In c (lit "TXtx")) ->
  parse_with db country (sign ++ h ++ r ++ [x]) = parse_with db country (sign ++ dialled (h ++ r ++ [x])).
Proof.
  intros db country sign h r x Hsign Hh Hn Hr Hx Hd Hsp HT.
  assert (Hq : forall c, In c (sign ++ h ++ r ++ [x]) -> In c harmless).
  { assert (G : forall c, In c (lit "0123456789" ++ separators) -> In c harmless) by (vm_compute; tauto).
    intros c I. apply in_app_iff in I as [I|I].
    { destruct Hsign; subst sign; [destruct I|]. destruct I as [<-|[]]. vm_compute. tauto. }
    apply in_app_iff in I as [I|I]; [auto|]. pose proof (HT c I) as N. apply Hr in I as [I|I]; [auto|].
    assert (Ia : In c ascii). { apply ascii_in. unfold letter in I. rewrite orb_true_iff, !andb_true_iff, !N.leb_le in I. lia. }
    assert (K : forallb (fun c => if letter c then (existsb (N.eqb c) (lit "TXtx") || existsb (N.eqb c) harmless)%bool else true) ascii = true)
      by (vm_compute; reflexivity).
    rewrite forallb_forall in K. apply K in Ia. rewrite I in Ia. apply orb_true_iff in Ia as [Ia|Ia];
      apply existsb_exists in Ia as (y & Iy & Ey); apply N.eqb_eq in Ey; subst y; [now elim N|easy]. }
  apply C13_letters; auto.
  - intros M. apply re_is_match_spec in M. unfold re_is_match in M.
    rewrite (avoids_find EXTN_PATTERN harmless) in M; [discriminate|vm_compute; reflexivity|exact Hq].
  - intros M. apply re_is_match_spec in M. unfold re_is_match in M.
    rewrite (avoids_find SECOND_NUMBER_START harmless) in M; [discriminate|vm_compute; reflexivity|exact Hq].
Qed.
Print Assumptions C13_letters_no_TX.
Example C13_ex : dialled (lit "1 800 FLOWERS") = lit "18003569377" /\ dialled (lit "1 650-253-000 ab") = lit "1650253000"
  /\ parse None (lit "+1 800 FLOWERS") = Ok (mk_phone (mk_code 1 SrcPlus) (mk_national 8003569377) None None)
  /\ parse None (lit "+18003569377") = Ok (mk_phone (mk_code 1 SrcPlus) (mk_national 8003569377) None None).
Proof. vm_compute. auto. Qed.

(** ** C15: digits of other scripts *)
(** a decimal digit that is not ASCII *)
Definition other_digit (c : char) : Prop := in_ranges tbl_Nd c = true /\ ~ adigit c.

Definition all_Nd : list char := Eval vm_compute in
  flat_map (fun p => map (fun k => (fst p + N.of_nat k)%N) (seq 0 (N.to_nat (snd p - fst p + 1)))) tbl_Nd.
Lemma all_Nd_ok : all_Nd =
  flat_map (fun p => map (fun k => (fst p + N.of_nat k)%N) (seq 0 (N.to_nat (snd p - fst p + 1)))) tbl_Nd.
Proof. vm_compute. reflexivity. Qed.
Lemma in_ranges_listed : forall t c, in_ranges t c = true ->
  In c (flat_map (fun p => map (fun k => (fst p + N.of_nat k)%N) (seq 0 (N.to_nat (snd p - fst p + 1)))) t).
Proof.
  intros t c. induction t as [|[a b] t IH]; cbn [in_ranges flat_map]; [easy|]. intros H. apply in_app_iff.
  destruct (in_range a b c) eqn:E; [left|right; auto].
  unfold in_range in E. apply in_map_iff. exists (N.to_nat (c - a)). cbn [fst snd].
  destruct (N.leb_spec a c); [|discriminate]. apply N.leb_le in E. split; [lia|]. apply in_seq. lia.
Qed.
Lemma Nd_listed : forall c, in_ranges tbl_Nd c = true -> In c all_Nd.
Proof. intros c H. rewrite all_Nd_ok. now apply in_ranges_listed. Qed.
Definition scripts : list char := Eval vm_compute in plain_chars ++ all_Nd.
Lemma scripts_extn : avoids scripts (re_ast EXTN_PATTERN) = true.
Proof. vm_compute. reflexivity. Qed.
Lemma scripts_second : avoids scripts (re_ast SECOND_NUMBER_START) = true.
Proof. vm_compute. reflexivity. Qed.
Lemma Nd_wanted : forallb (fun c => negb (unwanted_end c)) all_Nd = true.
Proof. vm_compute. reflexivity. Qed.
Lemma Nd_not_viable : forallb (fun c => if is_digit c then true else negb (viable_char c)) all_Nd = true.
Proof. vm_compute. reflexivity. Qed.

Lemma other_scripts : forall db country s,
  (forall c, In c s -> In c (lit "0123456789+" ++ separators) \/ other_digit c) -> rfc3966 s = None ->
  (exists c, In c s /\ other_digit c) -> parse_with db country s = Err NoNumber.
Proof.
  intros db country s Hs Hrfc (c & Ic & (Hc & Hna)).
  assert (Hq : forall x, In x s -> In x scripts).
  { intros x I. change scripts with (plain_chars ++ all_Nd). apply in_app_iff.
    apply Hs in I as [I|[I _]]; [left|right; now apply Nd_listed]. revert I. vm_compute. tauto. }
  unfold parse_with, p_phone_number. rewrite Hrfc.
  destruct (natural s) as [n|e|] eqn:En; [|reflexivity|now apply natural_no_panic in En].
  cbn [obind]. pose proof (Nd_listed c Hc) as Hl. assert (In c (pn_national n)).
  { unfold natural in En. rewrite extract_spec in En.
    destruct (span (fun c => negb (start_char c)) s) as [pre r0] eqn:Esp. cbn [snd] in En.
    apply span_spec in Esp as (-> & Hpre & _).
    assert (Ir : In c r0).
    { apply in_app_iff in Ic as [Ic|Ic]; [|easy]. exfalso. rewrite forallb_forall in Hpre. apply Hpre in Ic.
      unfold start_char in Ic. rewrite Hc, orb_true_r in Ic. discriminate. }
    destruct (trim_end_spec unwanted_end r0) as (z & Er & Hz & _).
    assert (Iu : In c (trim_end unwanted_end r0)).
    { rewrite Er in Ir. apply in_app_iff in Ir as [Ir|Ir]; [easy|]. exfalso. rewrite forallb_forall in Hz. apply Hz in Ir.
      pose proof Nd_wanted as W. rewrite forallb_forall in W. apply W in Hl. rewrite Ir in Hl. discriminate Hl. }
    assert (Hq' : forall x, In x (trim_end unwanted_end r0) -> In x scripts).
    { intros x I. apply Hq. apply in_app_iff. right. rewrite Er. apply in_app_iff. now left. }
    destruct r0 as [|y r]; [destruct Ir|]. set (u := trim_end unwanted_end (y :: r)) in *. clearbody u.
    unfold cut_second in En. rewrite (avoids_find _ scripts _ scripts_second Hq') in En.
    destruct u as [|w u]; [destruct Iu|]. cbn [obind] in En.
    rewrite (avoids_find _ scripts _ scripts_extn Hq') in En. inversion En. exact Iu. }
  destruct (is_viable (pn_national n)) eqn:Ev; [|reflexivity]. exfalso.
  eapply viable_chars in Ev; [|exact H]. pose proof Nd_not_viable as W. rewrite forallb_forall in W.
  apply W in Hl. destruct (is_digit c) eqn:D; [now apply adigit_iff in D|].
  rewrite Ev in Hl. discriminate Hl.
Qed.

(** Read in natural form (with a space), a number containing one is refused. *)
Theorem C15_other_scripts_refused : forall db country s,
  (forall c, In c s -> In c (lit "0123456789+" ++ separators) \/ other_digit c) -> In 32%N s ->
  (exists c, In c s /\ other_digit c) -> parse_with db country s = Err NoNumber.
Proof. intros db country s Hs Hsp Hc. apply other_scripts; auto using rfc_space. Qed.
Print Assumptions C15_other_scripts_refused.

(** Without a plus sign the space is not needed. *)
Theorem C15_refused_without_plus : forall db country s,
  (forall c, In c s -> In c (lit "0123456789" ++ separators) \/ other_digit c) ->
  (exists c, In c s /\ other_digit c) -> parse_with db country s = Err NoNumber.
Proof.
  intros db country s Hs Hc. apply other_scripts; auto.
  { intros c I. apply Hs in I as [I|I]; [left|now right]. revert I. vm_compute. tauto. }
  destruct Hc as (c & Ic & Hc & Hna).
  assert (Ok : forall x, In x s -> (N.eqb (ascii_lower x) 116 = false /\ N.eqb x 43 = false /\ N.eqb x 59 = false)).
  { assert (G : forallb (fun x => if N.eqb (ascii_lower x) 116 then false else if N.eqb x 43 then false else negb (N.eqb x 59))
        (lit "0123456789" ++ separators ++ all_Nd) = true) by (vm_compute; reflexivity).
    rewrite forallb_forall in G. intros x I. assert (I' : In x (lit "0123456789" ++ separators ++ all_Nd)).
    { apply Hs in I as [I|[I _]].
      - rewrite app_assoc. apply in_app_iff. now left.
      - apply in_app_iff. right. apply in_app_iff. right. now apply Nd_listed. }
    apply G in I'. destruct (N.eqb (ascii_lower x) 116); [discriminate|]. destruct (N.eqb x 43); [discriminate|].
    apply negb_true_iff in I'. auto. }
  unfold rfc3966. destruct (mem_char 32%N s); [reflexivity|].
  assert (Ht : tag_tel s = None).
  { unfold tag_tel. destruct s as [|x [|y [|z [|w s]]]]; try reflexivity. destruct (Ok x) as (-> & _); [now left|]. reflexivity. }
  rewrite Ht. assert (Hp : r_prefix s = None).
  { unfold r_prefix. destruct s as [|x s]; [reflexivity|]. destruct (Ok x) as (_ & -> & _); [now left|]. reflexivity. }
  rewrite Hp. destruct (span r_number s) as [a b] eqn:E. apply span_spec in E as (E & Ha & Hb).
  destruct a as [|x a]; [reflexivity|]. destruct b as [|y b].
  - exfalso. rewrite app_nil_r in E. rewrite E in Ic. rewrite forallb_forall in Ha. apply Ha in Ic.
    assert (G : forallb (fun x => if is_digit x then true else negb (r_number x)) all_Nd = true) by (vm_compute; reflexivity).
    rewrite forallb_forall in G. apply Nd_listed, G in Hc. destruct (is_digit c) eqn:D; [now apply adigit_iff in D|].
    rewrite Ic in Hc. discriminate Hc.
  - cbn [r_check]. destruct (Ok y) as (_ & _ & ->); [rewrite E; apply in_app_iff; right; now left|]. reflexivity.
Qed.
Print Assumptions C15_refused_without_plus.
(** the number +41 44 668 18 00 in Arabic-Indic and in full-width digits *)
Definition arabic (s : str) : str := map (fun c => if is_digit c then (c - 48 + 1632)%N else c) s.
Definition fullwidth (s : str) : str := map (fun c => if is_digit c then (c - 48 + 65296)%N else c) s.
Example C15_ex : Forall other_digit (arabic (lit "0123456789")) /\ Forall other_digit (fullwidth (lit "0123456789"))
  /\ parse None (arabic (lit "+41 44 668 18 00")) = Err NoNumber
  /\ parse (Some ID_CH) (fullwidth (lit "0446681800")) = Err NoNumber
  /\ parse None (lit "+41 44 668 18 00") = Ok (mk_phone (mk_code 41 SrcPlus) (mk_national 446681800) None None).
Proof.
  assert (W : forall s, forallb (fun c => (in_ranges tbl_Nd c && negb (is_digit c))%bool) s = true -> Forall other_digit s).
  { intros s H. apply Forall_forall. intros c I. rewrite forallb_forall in H. apply H, andb_true_iff in I as [H1 H2].
    split; [exact H1|]. intros A. apply adigit_iff in A. rewrite A in H2. discriminate. }
  split; [apply W; vm_compute; reflexivity|]. split; [apply W; vm_compute; reflexivity|]. vm_compute. auto.
Qed.
(** In the RFC 3966 form the calling code may be written in other digits, the
    national number may not. *)
Theorem C15_code_accepted_refuted : exists code,
  Forall other_digit code /\
  parse None (lit "+" ++ code ++ lit "-446681800") = Ok (mk_phone (mk_code 41 SrcPlus) (mk_national 446681800) None None).
Proof.
  exists (arabic (lit "41")). split; [|vm_compute; reflexivity].
  apply Forall_forall. intros c I. assert (Hc : c = 1636%N \/ c = 1633%N) by (vm_compute in I; intuition).
  destruct Hc; subst c; (split; [vm_compute; reflexivity|]); intros [A B]; vm_compute in B; now elim B.
Qed.
