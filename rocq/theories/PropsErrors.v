(** * C66: what the documentation of the parsing errors says

    error.rs:48-89 explains each error.  Which explanations are true of which
    texts, for the built-in metadata; C57 has the exact conditions. *)
From Verif Require Import Base Unicode Regex RegexSyntax Consts CountryId Types NationalNumber
  Metadata Database Validator Valid Number Rfc3966 Helper Natural PhoneNumber Parser Formatter Loader
  DefaultDb DefaultDbOk Api.
From Verif Require Import RegexMany RegexExact RegexCover PropsNational ClaimFacts PropsGrouped.
From Verif Require Import StrFacts NationalFacts RegexLang RegexFacts RegexCaps RegexDeriv RegexWords DatabaseFacts ParserFacts
  ParseInv TextFacts ViableFacts PhoneText E164Facts CoreFacts FormatFacts FormatDigits FormatDollar DialFacts ExtFacts ReadFacts
  PropsPanic PropsE164 PropsValid PropsTemplate PropsDial PropsOutcome PropsZeros PropsText PropsRfc PropsTel PropsReading PropsGives PropsSettle.

(** ** Where in a text things stand *)
(** a number that may be one is read, the calling code not apart from it; [d]: its digits *)
Definition one_number (s : str) (signed : bool) (d : str) : Prop :=
  exists n x, reads s (Some (None, n, x)) /\ viable_grammar n /\ d = PropsReading.digits_of n n
    /\ signed = match sign n with [] => false | _ => true end.
(** a number and, apart from it, the digits [k] of a calling code *)
Definition code_apart (s k d : str) : Prop :=
  exists k0 n x, reads s (Some (Some k0, n, x)) /\ viable_grammar n /\ k = PropsReading.digits_of n k0
    /\ d = PropsReading.digits_of n n.
(** [d] follows a dialling prefix or a sign, so it has to begin with a calling code *)
Definition behind_prefix (country : option id) (s d : str) : Prop :=
  exists g d0, one_number s g d0 /\
    (dialled default_db country d0 d \/ (forall d', ~ dialled default_db country d0 d') /\ g = true /\ d = d0).
(** neither *)
Definition neither (country : option id) (s d : str) : Prop :=
  one_number s false d /\ forall d', ~ dialled default_db country d d'.
(** [e] follows the calling code [c], or is read with the code [c] of the reference country *)
Inductive national_part (country : option id) (s : str) (c : N) (e : str) : Prop :=
| B_prefix : behind_prefix country s (dec c ++ e) -> by_code default_db c <> None -> national_part country s c e
| B_apart : forall k, code_apart s k e -> k <> [] -> value_of k = c -> by_code default_db c <> None -> national_part country s c e
| B_code : forall i m, country = Some i -> by_id default_db (id_name i) = Some m -> md_country_code m = c ->
    neither country s (dec c ++ e) -> national_part country s c e
| B_plain : forall i m, country = Some i -> by_id default_db (id_name i) = Some m -> md_country_code m = c ->
    neither country s e -> national_part country s c e.
(** [e'] is [e], or what the rules of an entry make of it *)
Definition trimmed (e e' : str) : Prop := e' = e \/ exists m ca, db_has default_db m /\ remains m e e' ca.

(** ** What the errors come from *)
Inductive cause (country : option id) (s : str) : perr -> Prop :=
| E_none : (forall k n x, reads s (Some (k, n, x)) -> ~ viable_grammar n) -> cause country s NoNumber
| E_nowhere : forall d, country = None -> neither country s d -> cause country s InvalidCountryCode
| E_unknown : forall d, behind_prefix country s d -> 3 <= length d ->
    (forall c, by_code default_db c <> None -> ~ starts d (dec c)) -> cause country s InvalidCountryCode
| E_unknown_apart : forall k d, code_apart s k d -> 3 <= length d -> k <> [] -> (value_of k <= 65535)%N ->
    by_code default_db (value_of k) = None -> cause country s InvalidCountryCode
| E_few : forall d, behind_prefix country s d -> length d < 3 -> cause country s TooShortNsn
| E_few_apart : forall k d, code_apart s k d -> length d < 3 -> cause country s TooShortNsn
| E_short : forall c e e', national_part country s c e -> trimmed e e' -> length e' < 2 -> cause country s TooShortNsn
| E_long : forall c e e', national_part country s c e -> trimmed e e' ->
    17 < length e' \/ length e' = 17 /\ (2 ^ 56 <= value_of e')%N -> cause country s TooLong
| E_zero : forall c e e', national_part country s c e -> trimmed e e' -> 2 <= length e' <= 17 -> value_of e' = 0%N ->
    cause country s MalformedInteger
| E_code : forall k d, code_apart s k d -> 3 <= length d -> k = [] \/ (65535 < value_of k)%N -> cause country s MalformedInteger.

Lemma judged_cause : forall country s c0 c e e' src x ca er, national_part country s c e -> trimmed e e' ->
  judged c0 src x e' ca (Err er) -> cause country s er.
Proof.
  intros country s c0 c e e' src x ca er P T J. inversion J; subst.
  - now apply (E_short country s c e e' P T).
  - apply (E_long country s c e e' P T). now left.
  - now apply (E_zero country s c e e' P T).
  - apply (E_long country s c e e' P T). right. auto.
Qed.
Lemma with_entry_cause : forall country s c0 c e src x o er, national_part country s c e ->
  (forall m, o = Some m -> length e <= 100 -> db_has default_db m) -> with_entry c0 src x e o (Err er) -> cause country s er.
Proof.
  intros country s c0 c e src x o er P Ho W. inversion W; subst.
  - apply (E_long country s c e e P); [now left|]. left. lia.
  - match goal with H : remains _ _ _ _ |- _ => rename H into R end.
    assert (Hm : db_has default_db m) by auto. eapply judged_cause; [exact P|right; eauto|eassumption].
  - eapply judged_cause; [exact P|now left|eassumption].
Qed.
Lemma responsible_has : forall db c v m, responsible db c v m -> db_has db m.
Proof.
  intros db c v m [E|(a & b & E & _)]; right; exists c; eexists; (split; [exact E|]); [now left|]. apply in_app_iff. right. now left.
Qed.
Lemma after_code_cause : forall country s c0 c e src x er, national_part country s c e ->
  after_code default_db c0 src x e (Err er) -> cause country s er.
Proof.
  intros country s c0 c e src x er P (o & Ho & W). eapply with_entry_cause; [exact P| |exact W].
  intros m -> L. destruct (Ho L m) as [H _]. eapply responsible_has. now apply H.
Qed.
Lemma international_cause : forall country s d src x er, behind_prefix country s d ->
  international default_db src x d (Err er) -> cause country s er.
Proof.
  intros country s d src x er B H. inversion H; subst.
  - now apply (E_few country s d).
  - now apply (E_unknown country s d).
  - eapply after_code_cause; [|eassumption]. now apply (B_prefix country s c e).
Qed.
(** Every error comes from one of these. *)
Theorem C66_cause : forall country s er, parse country s = Err er -> cause country s er.
Proof.
  intros country s er H. apply C57_exact in H. inversion H as [R|k n x R V|n x r R V N|k n x r R V N]; subst.
  - apply E_none. intros k n x R'. apply reads_complete in R, R'. congruence.
  - apply E_none. intros k' n' x' R'. apply reads_complete in R, R'. assert (E : n' = n) by congruence. now rewrite E.
  - assert (O : one_number s (match sign n with [] => false | _ => true end) (PropsReading.digits_of n n)) by (exists n, x; auto).
    set (g := match sign n with [] => false | _ => true end) in *. set (d := PropsReading.digits_of n n) in *.
    inversion N as [d' r Hd Hi|r Hd Hg Hi|Hd Hg Hc|i m e r Hd Hg Hc Hm He Ha Hw|i m r Hd Hg Hc Hm Ha Hw]; subst r || subst er.
    + eapply international_cause; [|exact Hi]. exists g, d. auto.
    + eapply international_cause; [|exact Hi]. exists g, d. auto.
    + apply (E_nowhere country s d Hc). rewrite Hg in O. split; assumption.
    + eapply after_code_cause; [|exact Hw]. rewrite Hg in O. apply (B_code country s _ e i m Hc Hm eq_refl). rewrite <- He. now split.
    + eapply with_entry_cause; [|intros m' E _|exact Hw].
      * rewrite Hg in O. apply (B_plain country s _ d i m Hc Hm eq_refl). now split.
      * inversion E; subst m'. left. eauto.
  - assert (A : code_apart s (PropsReading.digits_of n k) (PropsReading.digits_of n n)) by (exists k, n, x; auto).
    inversion N; subst.
    + eapply E_few_apart; eassumption.
    + eapply E_code; eassumption.
    + eapply E_unknown_apart; eassumption.
    + eapply after_code_cause; [|eassumption]. eapply B_apart; eauto.
Qed.

(** ** "The country code did not belong to a supported country": exact *)
Theorem C66_code : forall country s, parse country s = Err InvalidCountryCode <-> cause country s InvalidCountryCode.
Proof.
  intros country s. split; [apply C66_cause|]. intros H. apply C57_exact. inversion H; subst.
  - match goal with A : neither _ _ _ |- _ => destruct A as ((n & x & R & V & -> & Hs) & Hd) end.
    apply (P_number default_db None s n x _ R V). rewrite <- Hs. now apply D_nowhere.
  - match goal with A : behind_prefix _ _ _ |- _ => destruct A as (g & d0 & (n & x & R & V & -> & Hs) & Hd) end.
    apply (P_number default_db country s n x _ R V). rewrite <- Hs. destruct Hd as [Hd|(Hd & Hg & ->)].
    + apply (D_dialled default_db country g _ _ d _ Hd). now apply I_unknown.
    + apply D_signed; [exact Hd|exact Hg|]. now apply I_unknown.
  - match goal with A : code_apart _ _ _ |- _ => destruct A as (k0 & n & x & R & V & -> & ->) end.
    apply (P_coded default_db country s k0 n x _ R V). now apply K_unknown.
Qed.

(** ** "Too short after the dialling prefix": never reported *)
Lemma rest_not_after_idd : forall db country n, rest_of_parse db country n <> Err TooShortAfterIdd.
Proof.
  intros db country n. unfold rest_of_parse.
  assert (CC : country_code db country n <> Err TooShortAfterIdd).
  { unfold country_code. fold (idd_of db country).
    assert (ST : forall i k, @strip_idd perr i k <> Err TooShortAfterIdd).
    { intros i k. unfold strip_idd, trim. destruct (match i with Some r => _ | None => None end); [|discriminate].
      destruct (Nat.eqb _ _); [|discriminate]. destruct (slice_from _ _); cbn [unwrap obind]; [|discriminate].
      destruct (starts_with _ _); discriminate. }
    assert (IP : @international_prefix perr (idd_of db country) n <> Err TooShortAfterIdd).
    { unfold international_prefix. destruct (pn_prefix n); [discriminate|]. destruct (negb _); [|apply ST]. unfold trim.
      destruct (slice_from _ _); cbn [unwrap obind]; [|discriminate]. destruct (negb _); [discriminate|apply ST]. }
    destruct (international_prefix _ n) as [n1|er|]; cbn [obind]; [|intros [= ->]; now apply IP|discriminate].
    assert (FC : forall l, find_code db n1 l <> Err TooShortAfterIdd).
    { induction l as [|k l IH]; cbn [find_code]; [discriminate|]. unfold trim. destruct (slice_to _ _); cbn [unwrap obind]; [|discriminate].
      destruct (parse_u16 _); cbn [unwrap obind]; [|discriminate]. destruct (is_some _); [|exact IH].
      destruct (slice_from _ _); discriminate. }
    assert (PP : (if blen (pn_national n1) <=? MIN_LENGTH_FOR_NSN then Err TooShortNsn
        else match pn_prefix n1 with
          | Some p => let* prefix := ok_or (parse_u16 p) MalformedInteger in
                      match by_code db prefix with None => Err InvalidCountryCode | Some _ => Ok n1 end
          | None => if starts_with (pn_national n1) [ch_0] then Err InvalidCountryCode
                    else find_code db n1 (seq 1 MAX_LENGTH_FOR_COUNTRY_CODE)
          end) <> Err TooShortAfterIdd).
    { destruct (_ <=? _); [discriminate|]. destruct (pn_prefix n1) as [p|].
      - destruct (parse_u16 p) as [v|]; cbn [ok_or obind]; [|discriminate]. destruct (by_code db v); discriminate.
      - destruct (starts_with _ _); [discriminate|apply FC]. }
    destruct (pn_country n1); try exact PP. destruct country as [c|]; [|discriminate].
    destruct (by_id db (id_name c)) as [m|]; cbn [unwrap obind]; [|discriminate].
    destruct (_ && _); [|discriminate]. unfold trim. destruct (slice_from _ _); discriminate. }
  destruct (country_code db country n) as [n1|er|]; cbn [obind]; [|intros [= ->]; now apply CC|discriminate].
  assert (SM : select_meta db country n1 <> Err TooShortAfterIdd).
  { assert (G : (let* code := prefix_value n1 in let* s := source_for db code (trim_start_char ch_0 (pn_national n1)) in
       Ok (source_meta db s)) <> Err TooShortAfterIdd).
    { unfold prefix_value. destruct (pn_prefix n1) as [p|]; [destruct (parse_u16 p) as [v|]; cbn [ok_or obind]; [|discriminate]|cbn [obind]];
      (destruct (source_for _ _ _) as [o|er|] eqn:E; cbn [obind]; [discriminate|now apply source_for_no_err in E|discriminate]). }
    unfold select_meta. destruct country as [c|]; [|exact G]. destruct (pn_country n1); try exact G. discriminate. }
  destruct (select_meta db country n1) as [o|er|]; cbn [obind]; [|intros [= ->]; now apply SM|discriminate].
  destruct (strip_national o n1) as [n2|er|] eqn:E; cbn [obind]; [|now apply strip_national_no_err in E|discriminate].
  unfold finish. destruct (_ <? _); [discriminate|]. destruct (_ <? _); [discriminate|].
  assert (NN : nn_parse (pn_national n2) <> Err TooShortAfterIdd).
  { unfold nn_parse. destruct (slice_from _ _) as [t|]; cbn [unwrap obind]; [|discriminate].
    destruct (parse_u64 t) as [v|]; cbn [ok_or obind]; [|discriminate]. unfold nn_new. destruct (N.leb _ _); discriminate. }
  unfold prefix_value. destruct (pn_prefix n2) as [p|]; [destruct (parse_u16 p) as [v|]; cbn [ok_or obind]; [|discriminate]|cbn [obind]];
  (destruct (nn_parse _) as [w|er|]; cbn [obind]; [discriminate|intros [= ->]; now apply NN|discriminate]).
Qed.

Theorem C66_never : forall db country s, parse_with db country s <> Err TooShortAfterIdd.
Proof.
  intros db country s. pose proof (reads_sound s) as R. destruct (reading_of s) as [[[k n] x]|].
  2:{ rewrite (C46_unread db country s R). discriminate. }
  destruct (is_viable n) eqn:V.
  - intros H. pose proof (reads_parts _ _ _ _ R) as P. unfold parse_with in H. rewrite P in H. cbn [obind pn_national] in H.
    rewrite V in H. cbn [negb] in H. exact (rest_not_after_idd db country _ H).
  - assert (N : ~ viable_grammar n) by (intros G; apply C14_viable_iff_grammar in G; congruence).
    rewrite (C46_not_viable db country s k n x R N). discriminate.
Qed.

(** ** Numbers the metadata describe, against these limits *)
(** calling codes with a described number that is all zeros *)
Definition zero_codes : list N := [992; 800; 881; 888]%N.
Definition r_zero : re := RCls (CRange 48 48).
Definition described_ok (c : N) (h m : metadata) : bool :=
  forallb (fun k => let n := N.to_nat k in
    let rs := [whole (re_ast (d_national_number (ds_general (md_descriptors m)))); whole (alts (kinds_at m k))] in
    if N.leb 4 k then if N.leb k 17 then
    if (if N.eqb k 17 then re_cover ascii_digits n rs [[r_zero]] else true) then
    if memN c zero_codes then true else re_cover [48%N] n rs [] else false else false else false) (lengths_of m).
Lemma default_described : codes_forall described_ok default_db = true.
Proof. vm_cast_no_check (eq_refl true). Qed.
Lemma kinds_match : forall m w, whole_number m w ->
  In (N.of_nat (length w)) (lengths_of m) /\
  Forall (fun r => matches_prefix r w) [whole (re_ast (d_national_number (ds_general (md_descriptors m)))); whole (alts (kinds_at m (N.of_nat (length w))))].
Proof.
  intros m w (d & Id & Il & L1 & L2). split.
  - apply uniq_in. left. apply in_flat_map. eauto.
  - constructor; [now apply whole_iff|]. constructor; [|constructor]. apply whole_iff.
    apply alts_lang with (re_ast (d_national_number d)); [|exact L1]. apply in_flat_map. exists d. split; [exact Id|].
    replace (memN _ _) with true by (symmetry; now apply memN_in). now left.
Qed.
Lemma zero_value : forall w, digits w = true -> value_of w = 0%N -> forall c, In c w -> In c [48%N].
Proof.
  intros w Dw Hv c Ic. rewrite value_digits in Hv. destruct (leading_zeros w) as (t & E & Ht).
  rewrite E, digits_val_zeros in Hv. assert (Dt : digits t = true). { rewrite E, digits_app in Dw. now apply andb_true_iff in Dw. }
  destruct t as [|x t].
  - rewrite app_nil_r in E. rewrite E in Ic. apply repeat_spec in Ic. now left.
  - exfalso. assert (K : dec 0 = x :: t) by (rewrite <- Hv; now apply dec_digits_val). assert (E0 : x = 48%N) by (injection K as <- _; reflexivity). exact (Ht E0).
Qed.
(** Every described number has 4 to 17 digits, its value is below 2^56, and it
    is zero for four calling codes only. *)
Theorem C66_described : forall c l m w, by_code default_db c = Some l -> In m l -> all_digits w -> whole_number m w ->
  4 <= length w <= 17 /\ (value_of w < 2 ^ 56)%N /\ (value_of w = 0%N -> In c [992; 800; 881; 888]%N).
Proof.
  intros c l m w Hc Im Dw Hw. apply all_digits_iff in Dw. destruct l as [|h l]; [easy|].
  pose proof (codes_forall_use _ _ _ _ _ _ default_described Hc Im) as D. unfold described_ok in D. rewrite forallb_forall in D.
  destruct (kinds_match m w Hw) as [Il F]. apply D in Il. clear D. cbv zeta in Il. rewrite Nat2N.id in Il.
  destruct (N.leb_spec 4 (N.of_nat (length w))); [|discriminate]. destruct (N.leb_spec (N.of_nat (length w)) 17); [|discriminate].
  destruct (if N.eqb (N.of_nat (length w)) 17 then _ else true) eqn:E17; [|discriminate]. split; [lia|]. split.
  - rewrite value_digits. pose proof (digits_val_lt_pow w Dw) as B. change (2 ^ 56)%N with 72057594037927936%N.
    assert (P16 : forall k, (k <= 16)%N -> (10 ^ k <= 10000000000000000)%N).
    { intros k Hk. change 10000000000000000%N with (10 ^ 16)%N. apply N.pow_le_mono_r; lia. }
    destruct (N.eqb_spec (N.of_nat (length w)) 17) as [E|E].
    + destruct (re_cover_sound ascii_digits _ _ w (in_ascii w Dw) E17 F) as (g & [<-|[]] & Hg).
      inversion Hg as [|r0 l0 (t & a & Et & Lt) _]; subst. inversion Lt; subst.
      match goal with H : in_cls _ ?x = true |- _ => assert (x = 48%N) as -> by
        (unfold in_cls, in_range in H; apply andb_true_iff in H; destruct H as [H1 H2]; apply N.leb_le in H1, H2; lia) end.
      clear Hg Lt. cbn [app] in *. change (48%N :: a) with (repeat 48%N 1 ++ a) in B |- *. rewrite digits_val_zeros.
      pose proof (digits_val_lt_pow a (proj2 (proj1 (andb_true_iff _ _) Dw))) as B'. cbn [length] in E.
      specialize (P16 (N.of_nat (length a)) ltac:(lia)). lia.
    + specialize (P16 (N.of_nat (length w)) ltac:(lia)). lia.
  - intros Hz. destruct (memN c zero_codes) eqn:M; [now apply memN_in in M|]. exfalso.
    destruct (re_cover_sound [48%N] _ _ w (zero_value w Dw Hz) Il F) as (g & [] & _).
Qed.

(** So the number type holds every described number that is not zero, digit for digit ... *)
Theorem C66_held : forall c l m w, by_code default_db c = Some l -> In m l -> all_digits w -> whole_number m w -> value_of w <> 0%N ->
  exists n, nn_parse w = Ok n /\ nn_show n = w /\ nn_value n = value_of w /\ (nn_raw n < 2 ^ 64)%N.
Proof.
  intros c l m w Hc Im Dw Hw Hv. destruct (C66_described c l m w Hc Im Dw Hw) as (L & B & _). apply all_digits_iff in Dw.
  rewrite value_digits in *. destruct (leading_zeros w) as (t & E & Ht).
  assert (Dt : digits t = true). { rewrite E, digits_app in Dw. now apply andb_true_iff in Dw. }
  rewrite E, digits_val_zeros in Hv, B. destruct t as [|x t]; [now elim Hv|].
  destruct (nn_parse_digits (count_zeros w) (x :: t) Dt Ht) as (n & P & V & _ & S & Raw); [|exact B|].
  - assert (K : length w = count_zeros w + length (x :: t)) by (rewrite E at 1; now rewrite app_length, repeat_length). lia.
  - rewrite <- E in P, S. exists n. split; [exact P|]. split; [exact S|]. split; [|exact Raw]. rewrite V. rewrite E. symmetry. apply digits_val_zeros.
Qed.
(** ... and the others are refused: of these four codes such numbers are described. *)
Definition zeros_described (db : database) (c : N) (w : str) : bool :=
  match by_code db c with
  | Some l => if digits w then if N.eqb (value_of w) 0 then existsb (fun m => wholeb m w) l else false else false
  | None => false
  end.
Lemma zeros_described_use : forall db c w, zeros_described db c w = true ->
  exists l m, by_code db c = Some l /\ In m l /\ all_digits w /\ whole_number m w /\ value_of w = 0%N.
Proof.
  intros db c w E. unfold zeros_described in E. destruct (by_code db c) as [l|]; [|discriminate].
  destruct (digits w) eqn:D; [|discriminate]. destruct (N.eqb_spec (value_of w) 0) as [V|]; [|discriminate].
  apply existsb_exists in E as (m & Im & Hw). exists l, m. split; [reflexivity|]. split; [exact Im|].
  split; [now apply all_digits_iff|]. split; [now apply wholeb_use|exact V].
Qed.
Definition malformed (r : outcome perr phone) : bool := match r with Err MalformedInteger => true | _ => false end.
Lemma malformed_use : forall r, malformed r = true -> r = Err MalformedInteger.
Proof. intros [p|[]|]; (discriminate || reflexivity). Qed.
Definition zero_numbers : list (N * str) :=
  [(992%N, lit "000000000"); (800%N, lit "00000000"); (881%N, lit "000000000"); (888%N, lit "00000000000")].
Lemma zero_numbers_codes : forall c, In c [992; 800; 881; 888]%N -> exists w, In (c, w) zero_numbers.
Proof.
  intros c [<-|[<-|[<-|[<-|[]]]]]; eexists; [left|right; left|right; right; left|right; right; right; left]; reflexivity.
Qed.
Definition zero_refused (db : database) (p : N * str) : bool :=
  if zeros_described db (fst p) (snd p) then malformed (parse_with db None (lit "+" ++ dec (fst p) ++ snd p)) else false.
Lemma zero_refused_use : forall db c, forallb (zero_refused db) zero_numbers = true -> In c [992; 800; 881; 888]%N ->
  exists l m w, by_code db c = Some l /\ In m l /\ all_digits w /\ whole_number m w /\ value_of w = 0%N
    /\ parse_with db None (lit "+" ++ dec c ++ w) = Err MalformedInteger.
Proof.
  intros db c Z Ic. destruct (zero_numbers_codes c Ic) as (w & Iw). rewrite forallb_forall in Z. apply Z in Iw.
  unfold zero_refused in Iw. cbn [fst snd] in Iw. destruct (zeros_described db c w) eqn:E; [|discriminate].
  apply zeros_described_use in E as (l & m & A & B & C & D & F). exists l, m, w. repeat (split; [assumption|]). now apply malformed_use.
Qed.
Lemma default_zero_refused : forallb (zero_refused default_db) zero_numbers = true.
Proof. vm_cast_no_check (eq_refl true). Qed.
Theorem C66_zero : forall c,
  (exists l m w, by_code default_db c = Some l /\ In m l /\ all_digits w /\ whole_number m w /\ value_of w = 0%N)
  <-> In c [992; 800; 881; 888]%N.
Proof.
  intros c. split.
  - intros (l & m & w & Hc & Im & Dw & Hw & Hv). now apply (C66_described c l m w).
  - intros Ic. destruct (zero_refused_use default_db c default_zero_refused Ic) as (l & m & w & A & B & C & D & E & _).
    exists l, m, w. repeat (split; [assumption|]). assumption.
Qed.
Theorem C66_zero_refuted : forall c, In c [992; 800; 881; 888]%N ->
  exists l m w, by_code default_db c = Some l /\ In m l /\ all_digits w /\ whole_number m w
    /\ parse None (lit "+" ++ dec c ++ w) = Err MalformedInteger.
Proof.
  intros c Ic. destruct (zero_refused_use default_db c default_zero_refused Ic) as (l & m & w & A & B & C & D & _ & E).
  exists l, m, w. repeat (split; [assumption|]). exact E.
Qed.

(** ** "More digits than any valid phone number could have" *)
Lemma one_number_digits : forall s g d, one_number s g d -> digits d = true.
Proof. intros s g d (n & x & _ & V & -> & _). apply digits_of_digits. now apply C14_viable_iff_grammar. Qed.
Lemma dialled_digits : forall db country d d', dialled db country d d' -> digits d = true -> digits d' = true.
Proof. intros db country d d' (r & x & gs & _ & (E & _) & _) D. rewrite E, digits_app in D. now apply andb_true_iff in D. Qed.
Lemma national_digits : forall country s c e, national_part country s c e -> digits e = true.
Proof.
  intros country s c e H. assert (A : forall d, digits (dec c ++ d) = true -> digits d = true).
  { intros d D. rewrite digits_app in D. now apply andb_true_iff in D. }
  destruct H as [(g & d0 & O & [K|(_ & _ & <-)]) _|k (k0 & n & x & _ & V & _ & ->) _ _ _|i m _ _ _ [O _]|i m _ _ _ [O _]].
  - apply A. eapply dialled_digits; [exact K|]. eapply one_number_digits. exact O.
  - apply A. eapply one_number_digits. exact O.
  - apply digits_of_digits. now apply C14_viable_iff_grammar.
  - apply A. eapply one_number_digits. exact O.
  - eapply one_number_digits. exact O.
Qed.
Theorem C66_long : forall country s, parse country s = Err TooLong ->
  exists c e e', national_part country s c e /\ trimmed e e' /\ all_digits e'
    /\ forall c' l m, by_code default_db c' = Some l -> In m l -> ~ whole_number m e'.
Proof.
  intros country s H. apply C66_cause in H. inversion H as [| | | | | | |c e e' P T L| |]; subst. exists c, e, e'.
  assert (D : all_digits e').
  { apply all_digits_iff. pose proof (national_digits _ _ _ _ P) as De. destruct T as [->|(m & ca & Hm & R)]; [exact De|].
    exact (remains_digits default_db m e e' ca default_tame Hm De R). }
  split; [exact P|]. split; [exact T|]. split; [exact D|]. intros c' l m Hc Im Hw.
  destruct (C66_described c' l m e' Hc Im D Hw) as (A & B & _). lia.
Qed.


(** ** "Less than 3 digits": neither way *)
Definition ascii_count (s : str) : nat := length (filter (fun c => (N.leb 48 c && N.leb c 57)%bool) s).
Theorem C66_no_number_refuted :
  (exists country s, parse country s = Err NoNumber /\ 3 <= ascii_count s)
  /\ (exists country s, parse country s <> Err NoNumber /\ ascii_count s < 3).
Proof.
  split.
  - exists None, (lit "1/ x23"). split; [vm_compute; reflexivity|]. vm_compute. repeat constructor.
  - exists None, (lit "Room 75"). split; [vm_compute; discriminate|]. vm_compute. repeat constructor.
Qed.

(** Every error but one occurs, from every kind of cause; the digits may be too few
    only because a national prefix is taken off. *)
Definition said (country : option id) (s : str) (er : perr) : bool :=
  match parse country s with
  | Err er' => match er, er' with
    | NoNumber, NoNumber | InvalidCountryCode, InvalidCountryCode | TooShortNsn, TooShortNsn
    | TooLong, TooLong | MalformedInteger, MalformedInteger => true
    | _, _ => false
    end
  | _ => false
  end.
Example C66_ex :
  said None (lit "no digits") NoNumber = true
  /\ said None (lit "0475 12 34 56") InvalidCountryCode = true
  /\ said None (lit "+999 1234567") InvalidCountryCode = true
  /\ said (Some ID_BE) (lit "00 999 1234567") InvalidCountryCode = true
  /\ said None (lit "1234567;phone-context=+999") InvalidCountryCode = true
  /\ said (Some ID_BE) (lit "00 32") TooShortNsn = true
  /\ said None (lit "+32 4") TooShortNsn = true
  /\ said None (lit "+49 05") TooShortNsn = true
  /\ said None (lit "+32 123456789012345678") TooLong = true
  /\ said None (lit "+32 99999999999999999") TooLong = true
  /\ said None (lit "+32 00000") MalformedInteger = true
  /\ said None (lit "1234567;phone-context=+99999") MalformedInteger = true.
Proof. vm_compute. repeat split. Qed.
(** A described number of 17 digits (Indonesia), one of 9 (Belgium). *)
Definition described_in (db : database) (c : N) (w : str) : bool :=
  match by_code db c with Some l => if digits w then existsb (fun m => wholeb m w) l else false | None => false end.
Example C66_described_ex :
  described_in default_db 62 (lit "00180312345678901") = true /\ described_in default_db 32 (lit "475123456") = true
  /\ described_in default_db 32 (lit "475123") = false.
Proof. vm_compute. repeat split. Qed.
