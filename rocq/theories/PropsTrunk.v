(** * C70: described numbers behind the trunk prefix, read in their own country *)
From Verif Require Import Base Unicode Regex RegexSyntax Consts CountryId Types NationalNumber
  Metadata Database Validator Valid Number Rfc3966 Helper Natural PhoneNumber Parser Formatter Loader
  DefaultDb DefaultDbOk Api.
From Verif Require Import StrFacts NationalFacts RegexLang RegexFacts RegexCaps RegexDeriv RegexMany RegexExact RegexCover
  DatabaseFacts ParserFacts ParseInv TextFacts ViableFacts PhoneText E164Facts CoreFacts DialFacts FormatFacts FormatDigits
  PropsPanic PropsE164 PropsValid PropsNational PropsDial PropsZeros ClaimFacts PropsClaims PropsGrouped PropsErrors PropsDescribed
  PropsZeroFirst PropsOwnCode PropsIds.

(** ** The property *)
(** the text is read as this number *)
Definition read_as (r : id) (s : str) (c : N) (w : str) : Prop :=
  exists p, parse (Some r) s = Ok p /\ code_value (ph_code p) = c /\ nn_show (ph_national p) = w /\ ph_extension p = None.
(** countries with numbers that are not read as themselves behind the trunk prefix *)
Definition trunk_misread : list str :=
  [lit "AR"; lit "BG"; lit "BY"; lit "CO"; lit "ID"; lit "IL"; lit "IN"; lit "JP"; lit "KR"; lit "KZ"; lit "RU"; lit "RW"; lit "TH"; lit "UY"].

(** ** North America: the trunk prefix is the calling code *)
Definition plan_ok (k : str) (m : metadata) : bool :=
  if str_mem k nanp then
    if N.eqb (md_country_code m) 1 then
      match md_national_prefix m, md_international_prefix m with
      | Some np, Some r => if str_eqb np (dec 1) then
          forallb (fun d => forallb (fun n => front_all ascii_digits np (N.to_nat n) [whole (re_ast (d_national_number d))] (re_ast r))
            (d_possible_length d)) (types_of (md_descriptors m)) else false
      | _, _ => false
      end
    else false
  else true.
Lemma default_plan : entries_forall plan_ok default_db = true.
Proof. vm_cast_no_check (eq_refl true). Qed.
Lemma plan_use : forall k m np w t, plan_ok k m = true -> In k nanp -> md_national_prefix m = Some np -> digits w = true -> described_as m t w ->
  md_country_code m = 1%N /\ np = dec 1 /\ forall r, md_international_prefix m = Some r -> ~ matches_prefix (re_ast r) (np ++ w).
Proof.
  intros k m np w t H I Hnp Dw (d & It & Il & Lk & _). unfold plan_ok in H. rewrite (in_str_mem _ _ I) in H.
  destruct (N.eqb_spec (md_country_code m) 1) as [Ec|]; [|discriminate]. rewrite Hnp in H.
  destruct (md_international_prefix m) as [r|]; [|discriminate]. destruct (str_eqb np (dec 1)) eqn:En; [|discriminate].
  apply str_eqb_eq in En. split; [exact Ec|]. split; [exact En|]. intros r' Er. injection Er as <-.
  rewrite forallb_forall in H. pose proof (proj1 (types_in _ _ _ It)) as Id. apply H in Id. rewrite forallb_forall in Id. apply Id in Il.
  rewrite Nat2N.id in Il. apply (front_all_sound ascii_digits np _ _ w (in_ascii w Dw) Il). constructor; [now apply whole_iff|constructor].
Qed.

(** ** C70 *)
Lemma trunk_lists : forall k, In k (trunk_not_covered ++ trunk_unclear) -> In k trunk_misread \/ In k nanp.
Proof.
  intros k I. apply in_app_iff in I as [I|I]; [left|].
  - unfold trunk_not_covered in I. unfold trunk_misread. cbn [In] in *. tauto.
  - unfold trunk_unclear in I. apply in_app_iff in I as [I|I]; [left|now right]. unfold trunk_misread. cbn [In] in *. tauto.
Qed.
Theorem C70_trunk : forall r m np t w, by_id default_db (id_name r) = Some m -> md_national_prefix m = Some np ->
  ~ In (id_name r) trunk_misread -> all_digits w -> described_as m t w -> value_of w <> 0%N ->
  read_as r (np ++ w) (md_country_code m) w.
Proof.
  intros r m np t w Hm Hnp Hx Dw Hd Hv. destruct (under_use default_db r m default_regular default_under Hm) as (l & Hc & Im).
  destruct (C66_described _ l m w Hc Im Dw (described_whole m t w Hd)) as (Hl & B & _).
  assert (Hn : number_of m w).
  { destruct Hd as (d & I & L & Lk & _). exists d. split; [now apply (types_in _ t)|]. split; [exact L|]. now apply whole_prefix. }
  destruct (str_mem (id_name r) nanp) eqn:E.
  - apply str_mem_in in E. pose proof (proj1 (all_digits_iff w) Dw) as Dw'.
    destruct (plan_use _ m np w t (entries_forall_use _ _ _ _ default_plan Hm) E Hnp Dw' Hd) as (Ec & -> & Hi).
    destruct (C67_parsed _ l m w Hc Im Dw (described_whole m t w Hd) Hv) as (q & Q1 & Q2 & Q3 & _ & Q4 & _).
    { rewrite Ec. cbn [In]. intuition discriminate. }
    pose proof (C40_own_code_default r m w Hm Dw) as K. rewrite Ec in *. rewrite Q1 in K. cbn [but_source] in K.
    exists (mk_phone (mk_code (code_value (ph_code q)) SrcNumber) (ph_national q) (ph_extension q) (ph_carrier q)).
    cbn [ph_code code_value ph_national ph_extension]. split.
    + apply K.
      * rewrite app_length. pose proof (dec_nonempty 1) as Z. change (length (dec 1)) with 1. lia.
      * intros rx (m' & Hm' & Er). rewrite Hm in Hm'. injection Hm' as <-. now apply Hi.
    + split; [exact Q2|]. split; [exact Q3|]. exact Q4.
  - destruct (C39_trunk_clear r m np w Hm) as (p & P1 & P2 & _ & P3 & P4 & _); auto; [|lia|exists p; auto].
    intros I. apply trunk_lists in I as [I|I]; [now apply Hx|]. apply in_str_mem in I. congruence.
Qed.

(** Each of the fourteen countries has a described number that is not read as itself. *)
Definition differs (o : outcome perr phone) (c : N) (w : str) : bool :=
  match o with
  | Ok p => if N.eqb (code_value (ph_code p)) c then negb (str_eqb (nn_show (ph_national p)) w) else true
  | _ => true
  end.
Definition trunk_witness (db : database) (x : id * ptype * str) : bool :=
  let '(r, t, w) := x in
  match by_id db (id_name r) with
  | Some m =>
      match md_national_prefix m with
      | Some np => if digits w then if described_b m t w then if N.eqb (value_of w) 0 then false
          else differs (parse_with db (Some r) (np ++ w)) (md_country_code m) w else false else false
      | None => false
      end
  | None => false
  end.
Definition trunk_numbers : list (id * ptype * str) :=
  [(ID_AR, TFixedLine, lit "3436154193"); (ID_BG, TTollFree, lit "008005199341"); (ID_BY, TPremiumRate, lit "8103799282");
   (ID_CO, TPremiumRate, lit "9010149526"); (ID_ID, TTollFree, lit "0018039998790"); (ID_IL, TPremiumRate, lit "12121404");
   (ID_IN, TTollFree, lit "0008006251091"); (ID_JP, TTollFree, lit "0088255283"); (ID_KR, TTollFree, lit "007988319337");
   (ID_KZ, TPremiumRate, lit "8095126133"); (ID_RU, TPremiumRate, lit "8092346421"); (ID_RW, TFixedLine, lit "06482418");
   (ID_TH, TTollFree, lit "0018007865959"); (ID_UY, TTollFree, lit "0004315977364")].
Lemma default_trunk_numbers : forallb (trunk_witness default_db) trunk_numbers = true.
Proof. vm_cast_no_check (eq_refl true). Qed.
Lemma trunk_numbers_in : map (fun x => id_name (fst (fst x))) trunk_numbers = trunk_misread.
Proof. vm_compute. reflexivity. Qed.
Lemma trunk_witness_use : forall db r t w, trunk_witness db (r, t, w) = true ->
  exists m np, by_id db (id_name r) = Some m /\ md_national_prefix m = Some np /\ all_digits w /\ described_as m t w /\ value_of w <> 0%N
    /\ ~ exists p, parse_with db (Some r) (np ++ w) = Ok p /\ code_value (ph_code p) = md_country_code m /\ nn_show (ph_national p) = w.
Proof.
  intros db r t w H. unfold trunk_witness in H. destruct (by_id db (id_name r)) as [m|]; [|discriminate].
  destruct (md_national_prefix m) as [np|] eqn:En; [|discriminate]. exists m, np. split; [reflexivity|]. split; [exact En|].
  destruct (digits w) eqn:Dw; [|discriminate]. split; [now apply all_digits_iff|]. destruct (described_b m t w) eqn:D; [|discriminate].
  split; [now apply described_b_use|]. destruct (N.eqb_spec (value_of w) 0) as [|Hv]; [discriminate|]. split; [exact Hv|].
  intros (p & P & Pc & Pn). unfold differs in H. rewrite P, Pc, Pn, N.eqb_refl in H.
  assert (E : str_eqb w w = true) by now apply str_eqb_eq. rewrite E in H. discriminate.
Qed.
Theorem C70_misread : forall k, In k trunk_misread -> exists r m np t w, id_name r = k /\ by_id default_db k = Some m
  /\ md_national_prefix m = Some np /\ all_digits w /\ described_as m t w /\ value_of w <> 0%N
  /\ ~ read_as r (np ++ w) (md_country_code m) w.
Proof.
  intros k I. rewrite <- trunk_numbers_in in I. apply in_map_iff in I as ([[r t] w] & E & I). cbn [fst snd] in E. subst k.
  pose proof default_trunk_numbers as D. rewrite forallb_forall in D. apply D in I.
  destruct (trunk_witness_use default_db r t w I) as (m & np & A & B & C & F & G & H). exists r, m, np, t, w.
  repeat (split; [assumption || reflexivity|]). intros (p & P1 & P2 & P3 & _). apply H. exists p. split; [exact P1|]. split; [exact P2|exact P3].
Qed.

(** The two together: exactly outside the fourteen is every described number, written behind the trunk prefix, read as itself. *)
Theorem C70_exactly : forall r m np, by_id default_db (id_name r) = Some m -> md_national_prefix m = Some np ->
  (~ In (id_name r) trunk_misread <->
   forall t w, all_digits w -> described_as m t w -> value_of w <> 0%N -> read_as r (np ++ w) (md_country_code m) w).
Proof.
  intros r m np Hm Hnp. split.
  - intros Hx t w. now apply (C70_trunk r m np t w Hm Hnp Hx).
  - intros H I. destruct (C70_misread _ I) as (r' & m' & np' & t & w & E & Hm' & Hnp' & Dw & Hd & Hv & X).
    rewrite Hm in Hm'. injection Hm' as <-. rewrite Hnp in Hnp'. injection Hnp' as <-. apply PropsIds.name_inj in E. subst r'.
    now apply X, (H t).
Qed.

(** Numbers behind the trunk prefix that are read as themselves: one of London, one of New York, one of Berlin. *)
Definition trunk_fine (db : database) (x : id * ptype * str) : bool :=
  let '(r, t, w) := x in
  match by_id db (id_name r) with
  | Some m =>
      match md_national_prefix m with
      | Some np => if digits w then if described_b m t w then negb (differs (parse_with db (Some r) (np ++ w)) (md_country_code m) w)
          else false else false
      | None => false
      end
  | None => false
  end.
Example C70_ex : forallb (trunk_fine default_db)
  [(ID_GB, TFixedLine, lit "2079460123"); (ID_US, TFixedLine, lit "2125550123"); (ID_DE, TFixedLine, lit "3012345678")] = true.
Proof. vm_cast_no_check (eq_refl true). Qed.
