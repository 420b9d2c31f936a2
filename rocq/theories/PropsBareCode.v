(** * C72: the calling code without a plus sign, in the country it belongs to *)
From Verif Require Import Base Unicode Regex RegexSyntax Consts CountryId Types NationalNumber
  Metadata Database Validator Valid Number Rfc3966 Helper Natural PhoneNumber Parser Formatter Loader
  DefaultDb DefaultDbOk Api.
From Verif Require Import StrFacts NationalFacts RegexLang RegexFacts RegexCaps RegexDeriv RegexMany RegexExact RegexCover
  DatabaseFacts ParserFacts ParseInv TextFacts ViableFacts PhoneText E164Facts CoreFacts DialFacts FormatFacts FormatDigits
  PropsPanic PropsE164 PropsValid PropsNational PropsDial PropsZeros ClaimFacts PropsClaims PropsGrouped PropsErrors PropsDescribed
  PropsZeroFirst PropsOwnCode PropsIds PropsTrunk PropsAbroad.

(** ** The property *)
(** the text is read, in country [r], as a valid number whose calling code was written in front of it *)
Definition with_code (r : id) (s : str) (c : N) (w : str) : Prop :=
  exists p, parse (Some r) s = Ok p /\ code_value (ph_code p) = c /\ code_source (ph_code p) = SrcNumber
    /\ nn_show (ph_national p) = w /\ ph_extension p = None /\ is_valid p = Ok true.

(** ** No dialling prefix begins as the country's own calling code *)
Definition first_digit (c : N) : char := match dec c with x :: _ => x | [] => 0%N end.
Definition code_apart (k : str) (m : metadata) : bool :=
  match md_international_prefix m with
  | Some r => if never_empty (re_ast r) then
      first_in ascii_digits (filter (fun x => negb (N.eqb x (first_digit (md_country_code m)))) ascii_digits) (re_ast r) else false
  | None => true
  end.
Lemma default_apart : entries_forall code_apart default_db = true.
Proof. vm_cast_no_check (eq_refl true). Qed.
Lemma apart_use : forall db r m w, entries_forall code_apart db = true -> by_id db (id_name r) = Some m -> digits w = true ->
  not_dialled db (Some r) (dec (md_country_code m) ++ w).
Proof.
  intros db r m w H Hm Dw rx (m' & Hm' & Er) (t & a & E & L). rewrite Hm in Hm'. injection Hm' as <-.
  pose proof (entries_forall_use _ _ _ _ H Hm) as B. unfold code_apart in B. rewrite Er in B.
  destruct (never_empty (re_ast rx)) eqn:Ne; [|discriminate]. destruct t as [|y t]; [now elim (never_empty_sound _ a Ne)|].
  pose proof (digits_dec (md_country_code m)) as Dd. unfold first_digit in B. pose proof (dec_nonempty (md_country_code m)) as Z.
  destruct (dec (md_country_code m)) as [|x s]; [now elim Z|]. cbn [app] in E. injection E as -> E.
  cbn [digits forallb] in Dd. apply andb_true_iff in Dd as [Dy _].
  eapply first_in_sound in L; [|exact B|now apply digit_in]. apply filter_In in L as [_ L]. rewrite N.eqb_refl in L. discriminate.
Qed.

(** ** C72 *)
(** Any digits behind the country's own calling code: as behind a plus sign. *)
Theorem C72_as_plus : forall r m w, by_id default_db (id_name r) = Some m -> all_digits w -> 2 <= length w < 900 ->
  parse (Some r) (dec (md_country_code m) ++ w) = but_source SrcNumber (parse None (lit "+" ++ dec (md_country_code m) ++ w)).
Proof.
  intros r m w Hm Dw Hl. apply (C40_own_code_default r m w Hm Dw).
  - destruct (under_use default_db r m default_regular default_under Hm) as (l & Hc & _).
    assert (K : (1 <= md_country_code m <= 999)%N) by (apply code_range; rewrite Hc; discriminate).
    rewrite app_length. pose proof (dec_nonempty (md_country_code m)) as Z. assert (S : length (dec (md_country_code m)) <= 3) by (apply dec_length_pow; [change (10 ^ N.of_nat 3)%N with 1000%N; lia|lia]).
    destruct (dec (md_country_code m)); [now elim Z|cbn [length] in *]. lia.
  - apply (apart_use default_db r m w default_apart Hm). now apply all_digits_iff.
Qed.
Theorem C72_with_code : forall r m t w, by_id default_db (id_name r) = Some m -> ~ In (md_country_code m) codes_misread ->
  all_digits w -> described_as m t w -> value_of w <> 0%N -> with_code r (dec (md_country_code m) ++ w) (md_country_code m) w.
Proof.
  intros r m t w Hm Hn Dw Hd Hv. destruct (under_use default_db r m default_regular default_under Hm) as (l & Hc & Im).
  destruct (C67_parsed _ l m w Hc Im Dw (described_whole m t w Hd) Hv Hn) as (p & P & Pc & Pn & Pv & Px & _).
  destruct (C66_described _ l m w Hc Im Dw (described_whole m t w Hd)) as (Hl & _).
  pose proof (C72_as_plus r m w Hm Dw) as K. rewrite P in K. cbn [but_source] in K.
  exists (mk_phone (mk_code (code_value (ph_code p)) SrcNumber) (ph_national p) (ph_extension p) (ph_carrier p)).
  cbn [ph_code code_value code_source ph_national ph_extension]. split; [apply K; lia|]. split; [exact Pc|]. split; [reflexivity|].
  split; [exact Pn|]. split; [exact Px|]. rewrite <- Pv. apply valid_same; reflexivity.
Qed.

(** Each country under the twelve codes has a described number that is not read as itself. *)
Definition code_witness (db : database) (x : id * ptype * str) : bool :=
  let '(r, t, w) := x in
  match by_id db (id_name r) with
  | Some m => if digits w then if described_b m t w then if N.eqb (value_of w) 0 then false
      else differs (parse_with db (Some r) (dec (md_country_code m) ++ w)) (md_country_code m) w else false else false
  | None => false
  end.
Definition code_numbers : list (id * ptype * str) :=
  [(ID_BG, TTollFree, lit "008005199341"); (ID_BR, TPremiumRate, lit "900123456"); (ID_BY, TPremiumRate, lit "8103799282");
   (ID_ID, TTollFree, lit "0018039998790"); (ID_IN, TTollFree, lit "0008006251091"); (ID_JP, TTollFree, lit "0088255283");
   (ID_KR, TTollFree, lit "007988319337"); (ID_KZ, TPremiumRate, lit "8095126133"); (ID_LT, TSharedCost, lit "80800000");
   (ID_RU, TPremiumRate, lit "8092346421"); (ID_RW, TFixedLine, lit "06482418");
   (ID_TH, TTollFree, lit "0018007865959"); (ID_UY, TTollFree, lit "0004315977364")].
Lemma default_code_numbers : forallb (code_witness default_db) code_numbers = true.
Proof. vm_cast_no_check (eq_refl true). Qed.
Definition code_names : list str := Eval vm_compute in map (fun x => id_name (fst (fst x))) code_numbers.
Lemma code_names_eq : map (fun x => id_name (fst (fst x))) code_numbers = code_names.
Proof. vm_compute. reflexivity. Qed.
Definition named (k : str) (m : metadata) : bool := if memN (md_country_code m) codes_misread then str_mem k code_names else true.
Lemma default_named : entries_forall named default_db = true.
Proof. vm_cast_no_check (eq_refl true). Qed.
Lemma named_use : forall db k m, entries_forall named db = true -> by_id db k = Some m -> In (md_country_code m) codes_misread -> In k code_names.
Proof.
  intros db k m H Hm I. pose proof (entries_forall_use _ _ _ _ H Hm) as B. unfold named in B.
  rewrite (proj2 (memN_in _ _) I) in B. now apply str_mem_in.
Qed.
Lemma code_witness_use : forall db r t w, code_witness db (r, t, w) = true ->
  exists m, by_id db (id_name r) = Some m /\ all_digits w /\ described_as m t w /\ value_of w <> 0%N
    /\ ~ exists p, parse_with db (Some r) (dec (md_country_code m) ++ w) = Ok p /\ code_value (ph_code p) = md_country_code m
         /\ nn_show (ph_national p) = w.
Proof.
  intros db r t w H. unfold code_witness in H. destruct (by_id db (id_name r)) as [m|]; [|discriminate]. exists m. split; [reflexivity|].
  destruct (digits w) eqn:Dw; [|discriminate]. split; [now apply all_digits_iff|]. destruct (described_b m t w) eqn:D; [|discriminate].
  split; [now apply described_b_use|]. destruct (N.eqb_spec (value_of w) 0) as [|Hv]; [discriminate|]. split; [exact Hv|].
  intros (p & P & Pc & Pn). unfold differs in H. rewrite P, Pc, Pn, N.eqb_refl in H.
  assert (E : str_eqb w w = true) by now apply str_eqb_eq. rewrite E in H. discriminate.
Qed.
Theorem C72_exactly : forall r m, by_id default_db (id_name r) = Some m ->
  (~ In (md_country_code m) codes_misread <->
   forall t w, all_digits w -> described_as m t w -> value_of w <> 0%N ->
     with_code r (dec (md_country_code m) ++ w) (md_country_code m) w).
Proof.
  intros r m Hm. split.
  - intros Hn t w. now apply (C72_with_code r m t w Hm Hn).
  - intros H I. pose proof (named_use default_db (id_name r) m default_named Hm I) as J. rewrite <- code_names_eq in J.
    apply in_map_iff in J as ([[r' t] w] & E & J). cbn [fst] in E. apply name_inj in E. subst r'.
    pose proof default_code_numbers as D. rewrite forallb_forall in D. apply D in J.
    destruct (code_witness_use default_db r t w J) as (m' & A1 & A2 & A3 & A4 & X). rewrite Hm in A1. injection A1 as <-.
    destruct (H t w A2 A3 A4) as (p & P & Pc & _ & Pn & _). apply X. exists p. split; [exact P|]. split; [exact Pc|exact Pn].
Qed.

(** All the ways to write the code, one number: behind a plus sign, behind any dialling prefix of any country, and bare at home. *)
Theorem C72_three_ways : forall r m h x n w, by_id default_db (id_name r) = Some m -> all_digits w -> 2 <= length w < 900 ->
  by_id default_db (id_name h) = Some n -> calls_abroad n x -> ~ In (id_name h) runs_on ->
  let d := dec (md_country_code m) ++ w in
  but_source SrcPlus (parse (Some r) d) = but_source SrcPlus (parse None (lit "+" ++ d)) /\
  but_source SrcPlus (parse (Some h) (x ++ d)) = but_source SrcPlus (parse None (lit "+" ++ d)).
Proof.
  intros r m h x n w Hm Dw Hl Hh Hx Hr d. assert (T : forall s o, but_source SrcPlus (but_source s o) = but_source SrcPlus o) by (intros s [p|e|]; reflexivity).
  split.
  - unfold d. rewrite (C72_as_plus r m w Hm Dw Hl). apply T.
  - unfold d. rewrite (C71_as_plus h n x (md_country_code m) w Hh Hx Hr); [apply T| |exact Dw|lia].
    destruct (under_use default_db r m default_regular default_under Hm) as (l & Hc & _). rewrite Hc. discriminate.
Qed.

(** A number of Paris and one of New York, written so at home. *)
Definition at_home (db : database) (x : id * N * str) : bool :=
  let '(r, c, w) := x in negb (differs (parse_with db (Some r) (dec c ++ w)) c w).
Example C72_ex : forallb (at_home default_db) [(ID_FR, 33%N, lit "142685300"); (ID_US, 1%N, lit "2125550123"); (ID_SG, 65%N, lit "65123456")] = true.
Proof. vm_cast_no_check (eq_refl true). Qed.
Example C72_described_ex : match by_id default_db (id_name ID_FR) with Some m => described_b m TFixedLine (lit "142685300") | None => false end = true.
Proof. vm_cast_no_check (eq_refl true). Qed.
