(** * C69: numbers that begin with the calling code of their country *)
From Verif Require Import Base Unicode Regex RegexSyntax Consts CountryId Types NationalNumber
  Metadata Database Validator Valid Number Rfc3966 Helper Natural PhoneNumber Parser Formatter Loader
  DefaultDb DefaultDbOk Api.
From Verif Require Import StrFacts NationalFacts RegexLang RegexFacts RegexCaps RegexDeriv RegexMany RegexExact RegexCover
  DatabaseFacts ParserFacts ParseInv TextFacts ViableFacts PhoneText E164Facts CoreFacts DialFacts FormatFacts FormatDigits
  PropsPanic PropsE164 PropsValid PropsNational PropsDial PropsZeros ClaimFacts PropsClaims PropsGrouped PropsErrors PropsDescribed
  PropsZeroFirst.

(** ** The property *)
(** countries and kinds with numbers that begin with the country's own calling code *)
Definition own_code_kinds : list (str * ptype) :=
  [(lit "AD", TMobile); (lit "AE", TFixedLine); (lit "AL", TFixedLine); (lit "AO", TFixedLine); (lit "AT", TFixedLine); (lit "FI", TFixedLine);
   (lit "AZ", TMobile); (lit "BA", TFixedLine); (lit "BE", TFixedLine); (lit "BG", TFixedLine); (lit "BH", TPremiumRate); (lit "GP", TFixedLine);
   (lit "BL", TFixedLine); (lit "MF", TFixedLine); (lit "BR", TFixedLine); (lit "BR", TMobile); (lit "BZ", TFixedLine); (lit "CD", TFixedLine);
   (lit "CH", TFixedLine); (lit "CR", TMobile); (lit "CU", TMobile); (lit "CV", TFixedLine); (lit "DE", TFixedLine); (lit "DK", TFixedLine);
   (lit "DK", TMobile); (lit "DZ", TFixedLine); (lit "EG", TFixedLine); (lit "ET", TFixedLine); (lit "FJ", TFixedLine); (lit "FK", TMobile);
   (lit "FO", TMobile); (lit "FR", TFixedLine); (lit "GA", TMobile); (lit "GF", TFixedLine); (lit "GH", TMobile); (lit "GL", TMobile);
   (lit "GM", TMobile); (lit "GT", TMobile); (lit "HU", TFixedLine); (lit "ID", TFixedLine); (lit "IL", TFixedLine); (lit "IN", TMobile);
   (lit "IT", TMobile); (lit "VA", TMobile); (lit "JO", TPremiumRate); (lit "KG", TMobile); (lit "KH", TMobile); (lit "KP", TFixedLine);
   (lit "KW", TMobile); (lit "KZ", TVoip); (lit "KZ", TFixedLine); (lit "KZ", TMobile); (lit "LB", TFixedLine); (lit "LR", TFixedLine);
   (lit "LS", TFixedLine); (lit "LT", TFixedLine); (lit "LY", TFixedLine); (lit "MC", TMobile); (lit "MD", TFixedLine); (lit "MM", TMobile);
   (lit "MN", TMobile); (lit "MO", TFixedLine); (lit "MQ", TFixedLine); (lit "MR", TMobile); (lit "MU", TFixedLine); (lit "MV", TMobile);
   (lit "NL", TFixedLine); (lit "NO", TMobile); (lit "SJ", TMobile); (lit "NU", TMobile); (lit "OM", TMobile); (lit "PA", TFixedLine);
   (lit "PE", TFixedLine); (lit "PH", TFixedLine); (lit "PK", TUan); (lit "PK", TFixedLine); (lit "PL", TFixedLine); (lit "PM", TFixedLine);
   (lit "PM", TMobile); (lit "PW", TMobile); (lit "RE", TFixedLine); (lit "RW", TFixedLine); (lit "SB", TFixedLine); (lit "SE", TFixedLine);
   (lit "SG", TFixedLine); (lit "SH", TFixedLine); (lit "SI", TFixedLine); (lit "SK", TFixedLine); (lit "SO", TFixedLine); (lit "SV", TMobile);
   (lit "SY", TMobile); (lit "TH", TMobile); (lit "TJ", TMobile); (lit "TN", TMobile); (lit "TR", TPremiumRate); (lit "TW", TFixedLine);
   (lit "TZ", TFixedLine); (lit "UA", TFixedLine); (lit "UZ", TMobile); (lit "VN", TMobile); (lit "WS", TFixedLine); (lit "XK", TFixedLine);
   (lit "ZA", TFixedLine); (lit "ZA", TMobile); (lit "ZW", TFixedLine)].
(** the two of these countries whose prefixes are rewritten *)
Definition rewriting : list str := [lit "BR"; lit "GA"].

(** ** A word at the start *)
Fixpoint word (s : str) : re := match s with [] => REps | c :: s' => RCat (RCls (CRange c c)) (word s') end.
Lemma word_in : forall s r, matches_prefix (word s) (s ++ r).
Proof.
  intros s r. exists s, r. split; [reflexivity|]. assert (G : forall b, lang (word s) b s r); [|apply G].
  induction s as [|c s IH]; intros b; cbn [word]; [constructor|]. change (c :: s) with ([c] ++ s). constructor; [|apply IH].
  constructor. cbn [in_cls]. unfold in_range. now rewrite N.leb_refl.
Qed.

(** ** Deciding it *)
Definition own_kinds_ok (k : str) (m : metadata) : bool :=
  forallb (fun i => match kind i m with
    | (t, Some d) =>
        let rs := [gen m; whole (re_ast (d_national_number d)); word (dec (md_country_code m))] in
        if pairb k t own_code_kinds then
          match md_international_prefix m with
          | None => true
          | Some r => forallb (fun n => re_cover ascii_digits (N.to_nat n) (rs ++ [re_ast r]) []) (d_possible_length d)
          end
        else forallb (fun n => re_cover ascii_digits (N.to_nat n) rs []) (d_possible_length d)
    | _ => true
    end) (seq 0 10).
Definition country_ok (k : str) (m : metadata) : bool := if str_eqb k (lit "001") then true else own_kinds_ok k m.
Lemma default_own_kinds : entries_forall country_ok default_db = true.
Proof. vm_cast_no_check (eq_refl true). Qed.
Lemma country_use : forall db r m, entries_forall country_ok db = true -> by_id db (id_name r) = Some m -> own_kinds_ok (id_name r) m = true.
Proof.
  intros db r m H Hm. pose proof (entries_forall_use _ _ _ _ H Hm) as E. unfold country_ok in E.
  replace (str_eqb (id_name r) (lit "001")) with false in E; [exact E|]. destruct r; vm_compute; reflexivity.
Qed.
Lemma own_kinds_use : forall k m t w, own_kinds_ok k m = true -> digits w = true -> described_as m t w -> begins w (dec (md_country_code m)) ->
  In (k, t) own_code_kinds /\ forall r, md_international_prefix m = Some r -> ~ matches_prefix (re_ast r) w.
Proof.
  intros k m t w H Dw (d & I & Il & Lk & Lg) (rest & E). destruct (kind_in m t d I) as (i & Hi & Ek).
  unfold own_kinds_ok in H. rewrite forallb_forall in H. specialize (H i ltac:(apply in_seq; lia)). rewrite Ek in H. cbv zeta in H.
  assert (F : Forall (fun r => matches_prefix r w) [gen m; whole (re_ast (d_national_number d)); word (dec (md_country_code m))]).
  { constructor; [now apply whole_iff|]. constructor; [now apply whole_iff|]. constructor; [|constructor]. rewrite E. apply word_in. }
  destruct (pairb k t own_code_kinds) eqn:P.
  - split; [now apply pairb_iff|]. intros r Er Mr. rewrite Er, forallb_forall in H. apply H in Il. rewrite Nat2N.id in Il.
    apply (cover_none w _ Dw Il). apply Forall_app. split; [exact F|]. now constructor.
  - exfalso. rewrite forallb_forall in H. apply H in Il. rewrite Nat2N.id in Il. now apply (cover_none w _ Dw Il).
Qed.
(** every country is listed under its calling code *)
Definition under_code (db : database) (k : str) (m : metadata) : bool :=
  match by_code db (md_country_code m) with Some l => existsb (fun x => str_eqb (md_id x) k) l | None => false end.
Definition all_under (db : database) : bool := entries_forall (under_code db) db.
Lemma default_under : all_under default_db = true.
Proof. vm_cast_no_check (eq_refl true). Qed.
Lemma under_use : forall db r m, regular db -> all_under db = true -> by_id db (id_name r) = Some m ->
  exists l, by_code db (md_country_code m) = Some l /\ In m l.
Proof.
  intros db r m R H Hm. unfold all_under in H. pose proof (entries_forall_use _ _ _ _ H Hm) as U. unfold under_code in U.
  destruct (by_code db (md_country_code m)) as [l|] eqn:El; [|discriminate]. exists l. split; [reflexivity|].
  apply existsb_exists in U as (x & Ix & E). apply str_eqb_eq in E. destruct R as [_ R]. destruct (R _ _ El) as [(x' & -> & N)|K].
  - destruct Ix as [->|[]]. exfalso. rewrite E in N. assert (K : id_of_name (lit "001") = Some r).
    { rewrite <- N. destruct r; vm_compute; reflexivity. }
    rewrite id_of_name_001 in K. discriminate.
  - destruct (K x Ix) as [B _]. rewrite E, Hm in B. now injection B as ->.
Qed.
Definition steady_ok (db : database) (k : str) (m : metadata) : bool :=
  if str_mem k rewriting then true else if existsb (fun p => str_eqb (fst p) k) own_code_kinds then
    match by_code db (md_country_code m) with
    | Some l => forallb (fun x => match md_national_prefix_transform_rule x with None => true | Some _ => false end) l
    | None => false
    end else true.
Definition all_steady (db : database) : bool := entries_forall (steady_ok db) db.
Lemma default_steady : all_steady default_db = true.
Proof. vm_cast_no_check (eq_refl true). Qed.

(** ** C69 *)
(** Which countries and kinds of number are concerned. *)
Theorem C69_where : forall r m t w, by_id default_db (id_name r) = Some m -> all_digits w -> described_as m t w ->
  begins w (dec (md_country_code m)) -> In (id_name r, t) own_code_kinds.
Proof.
  intros r m t w Hm Dw Hd Hb. apply all_digits_iff in Dw.
  exact (proj1 (own_kinds_use _ m t w (country_use default_db r m default_own_kinds Hm) Dw Hd Hb)).
Qed.

(** Read in its own country such a number means what it means behind '+': its first digits
    are taken for the calling code. *)
Theorem C69_taken : forall r m t w, by_id default_db (id_name r) = Some m -> all_digits w -> described_as m t w ->
  begins w (dec (md_country_code m)) -> parse (Some r) w = but_source SrcNumber (parse None (lit "+" ++ w)).
Proof.
  intros r m t w Hm Dw Hd Hb. destruct (under_use default_db r m default_regular default_under Hm) as (l & Hc & Im).
  destruct (C66_described _ l m w Hc Im Dw (described_whole m t w Hd)) as (Hl & _).
  destruct (own_kinds_use _ m t w (country_use default_db r m default_own_kinds Hm) (proj1 (all_digits_iff w) Dw) Hd Hb) as [_ Hi].
  destruct Hb as (v & ->). apply (C40_own_code_default r m v Hm).
  - intros c I. apply Dw. apply in_app_iff. now right.
  - lia.
  - intros rx (m' & Hm' & Er). rewrite Hm in Hm'. injection Hm' as <-. now apply Hi.
Qed.

(** So it is never read as the number it is. *)
Lemma steady_use : forall db r m t, all_steady db = true -> by_id db (id_name r) = Some m -> In (id_name r, t) own_code_kinds -> ~ In (id_name r) rewriting ->
  forall l x, by_code db (md_country_code m) = Some l -> In x l -> md_national_prefix_transform_rule x = None.
Proof.
  intros db r m t H Hm I N l x Hc Ix. unfold all_steady in H. pose proof (entries_forall_use _ _ _ _ H Hm) as S. unfold steady_ok in S.
  destruct (str_mem (id_name r) rewriting) eqn:E; [apply str_mem_in in E; now elim N|].
  assert (X : existsb (fun p => str_eqb (fst p) (id_name r)) own_code_kinds = true).
  { apply existsb_exists. exists (id_name r, t). split; [exact I|apply str_eqb_refl]. }
  rewrite X, Hc, forallb_forall in S. apply S in Ix. now destruct (md_national_prefix_transform_rule x).
Qed.
Lemma plus_code : forall w v q c, all_digits w -> w = dec c ++ v -> by_code default_db c <> None -> not_dialled default_db None w ->
  parse None (lit "+" ++ w) = Ok q -> code_value (ph_code q) = c.
Proof.
  intros w v q c Dw Ew Hk Hi Hq. destruct (C11_shortest_known default_db None w q Dw Hi Hq) as (Hk' & _ & (v' & Ev) & _).
  rewrite Ew in Ev. apply app_eq_app in Ev as (x & [[E _]|[E _]]).
  - pose proof (codes_unique _ _ _ Hk' Hk E) as ->. rewrite app_nil_r in E. symmetry. now apply dec_inj.
  - pose proof (codes_unique _ _ _ Hk Hk' E) as ->. rewrite app_nil_r in E. now apply dec_inj.
Qed.
Theorem C69_misread : forall r m t w p, by_id default_db (id_name r) = Some m -> all_digits w -> described_as m t w ->
  begins w (dec (md_country_code m)) -> ~ In (id_name r) rewriting -> parse (Some r) w = Ok p ->
  code_source (ph_code p) = SrcNumber /\ nn_show (ph_national p) <> w.
Proof.
  intros r m t w p Hm Dw Hd Hb Hr Hp. pose proof (C69_where r m t w Hm Dw Hd Hb) as Hk.
  rewrite (C69_taken r m t w Hm Dw Hd Hb) in Hp. destruct (parse None (lit "+" ++ w)) as [q| |] eqn:Eq; [|discriminate..].
  cbn [but_source] in Hp. injection Hp as <-. cbn [ph_code code_source ph_national]. split; [reflexivity|]. intros E.
  destruct Hb as (v & Ew).
  assert (Hc : (1 <= md_country_code m)%N).
  { destruct (under_use default_db r m default_regular default_under Hm) as (l & Hc & _).
    assert (Hk' : by_code default_db (md_country_code m) <> None) by (rewrite Hc; discriminate). pose proof (code_range _ Hk'). lia. }
  assert (Hi : not_dialled default_db None w) by (rewrite Ew; now apply default_idd_free).
  assert (Cq : code_value (ph_code q) = md_country_code m).
  { apply (plus_code w v q (md_country_code m) Dw Ew); [|exact Hi|exact Eq].
    destruct (under_use default_db r m default_regular default_under Hm) as (l & Hl & _). rewrite Hl. discriminate. }
  destruct (C45_nothing_invented None w q Dw Hi Eq) as (x & Ex).
  { intros l y Hl Iy. rewrite Cq in Hl. exact (steady_use default_db r m t default_steady Hm Hk Hr l y Hl Iy). }
  rewrite E in Ex. apply (f_equal (@length char)) in Ex. rewrite !app_length in Ex.
  pose proof (dec_nonempty (code_value (ph_code q))) as Z. destruct (dec (code_value (ph_code q))); [now elim Z|]. cbn [length] in Ex. lia.
Qed.

(** Typed in its own country, a described number of a country that C39 covers is read as
    itself exactly if it does not begin with the country's calling code. *)
Theorem C69_exactly : forall r m t w, by_id default_db (id_name r) = Some m -> ~ In (id_name r) plain_not_covered -> ~ In (id_name r) rewriting ->
  all_digits w -> described_as m t w -> value_of w <> 0%N ->
  ((exists p, parse (Some r) w = Ok p /\ code_value (ph_code p) = md_country_code m /\ nn_show (ph_national p) = w)
   <-> ~ begins w (dec (md_country_code m))).
Proof.
  intros r m t w Hm Hx Hr Dw Hd Hv. split.
  - intros (p & Hp & _ & E) Hb. now apply (C69_misread r m t w p Hm Dw Hd Hb Hr Hp).
  - intros Hb. destruct (under_use default_db r m default_regular default_under Hm) as (l & Hc & Im).
    destruct (C66_described _ l m w Hc Im Dw (described_whole m t w Hd)) as (_ & B & _).
    destruct (C39_plain r m w Hm Hx Dw) as (p & P1 & P2 & _ & P3 & _); [lia| |exact Hb|exists p; auto].
    destruct Hd as (d & I & L & Lk & _). exists d. split; [now apply (types_in _ t)|]. split; [exact L|]. now apply whole_prefix.
Qed.

(** ** Nothing can be left out of the list *)
Definition own_numbers : list (id * ptype * str) :=
  [(ID_AD, TMobile, lit "376981"); (ID_AE, TFixedLine, lit "97199616"); (ID_AL, TFixedLine, lit "35557572"); (ID_AO, TFixedLine, lit "244676065");
   (ID_AT, TFixedLine, lit "43592404"); (ID_FI, TFixedLine, lit "35839678"); (ID_AZ, TMobile, lit "994556481"); (ID_BA, TFixedLine, lit "38744998");
   (ID_BE, TFixedLine, lit "32247787"); (ID_BG, TFixedLine, lit "3591175"); (ID_BH, TPremiumRate, lit "97395451"); (ID_GP, TFixedLine, lit "590572312");
   (ID_BL, TFixedLine, lit "590355464"); (ID_MF, TFixedLine, lit "590436967"); (ID_BR, TFixedLine, lit "5535930282"); (ID_BR, TMobile, lit "5576340375");
   (ID_BZ, TFixedLine, lit "5015689"); (ID_CD, TFixedLine, lit "2432768"); (ID_CH, TFixedLine, lit "413408812"); (ID_CR, TMobile, lit "50633262");
   (ID_CU, TMobile, lit "53700049"); (ID_CV, TFixedLine, lit "2383325"); (ID_DE, TFixedLine, lit "496591999009"); (ID_DK, TFixedLine, lit "45327359");
   (ID_DK, TMobile, lit "45777373"); (ID_DZ, TFixedLine, lit "21381790"); (ID_EG, TFixedLine, lit "200636200"); (ID_ET, TFixedLine, lit "251156943");
   (ID_FJ, TFixedLine, lit "6793022"); (ID_FK, TMobile, lit "50044"); (ID_FO, TMobile, lit "298113"); (ID_FR, TFixedLine, lit "332583935");
   (ID_GA, TMobile, lit "2410124"); (ID_GF, TFixedLine, lit "594618658"); (ID_GH, TMobile, lit "233702722"); (ID_GL, TMobile, lit "299368");
   (ID_GM, TMobile, lit "2202110"); (ID_GT, TMobile, lit "50253174"); (ID_HU, TFixedLine, lit "36037473"); (ID_ID, TFixedLine, lit "62846947");
   (ID_IL, TFixedLine, lit "97298588"); (ID_IN, TMobile, lit "9108127042"); (ID_IT, TMobile, lit "3962623479"); (ID_VA, TMobile, lit "394512202");
   (ID_JO, TPremiumRate, lit "96281774"); (ID_KG, TMobile, lit "996043244"); (ID_KH, TMobile, lit "85550212"); (ID_KP, TFixedLine, lit "85025409");
   (ID_KW, TMobile, lit "96541408"); (ID_KZ, TVoip, lit "7512712490"); (ID_KZ, TFixedLine, lit "7235902514"); (ID_KZ, TMobile, lit "7856226130");
   (ID_LB, TFixedLine, lit "9615283"); (ID_LR, TFixedLine, lit "23123418"); (ID_LS, TFixedLine, lit "26614019"); (ID_LT, TFixedLine, lit "37045840");
   (ID_LY, TFixedLine, lit "218810178"); (ID_MC, TMobile, lit "37784190"); (ID_MD, TFixedLine, lit "37388502"); (ID_MM, TMobile, lit "95337202");
   (ID_MN, TMobile, lit "97647432"); (ID_MO, TFixedLine, lit "85349658"); (ID_MQ, TFixedLine, lit "596808877"); (ID_MR, TMobile, lit "22293918");
   (ID_MU, TFixedLine, lit "2306981"); (ID_MV, TMobile, lit "9607965"); (ID_NL, TFixedLine, lit "317760423"); (ID_NO, TMobile, lit "47462051");
   (ID_SJ, TMobile, lit "47938786"); (ID_NU, TMobile, lit "6830"); (ID_OM, TMobile, lit "96888642"); (ID_PA, TFixedLine, lit "5071037");
   (ID_PE, TFixedLine, lit "51707103"); (ID_PH, TFixedLine, lit "631732338"); (ID_PK, TUan, lit "922111013674"); (ID_PK, TFixedLine, lit "924721819");
   (ID_PL, TFixedLine, lit "488339555"); (ID_PM, TFixedLine, lit "508974"); (ID_PM, TMobile, lit "508272"); (ID_PW, TMobile, lit "6809770");
   (ID_RE, TFixedLine, lit "262159280"); (ID_RW, TFixedLine, lit "250596291"); (ID_SB, TFixedLine, lit "67735"); (ID_SE, TFixedLine, lit "462217900");
   (ID_SG, TFixedLine, lit "65997295"); (ID_SH, TFixedLine, lit "29099"); (ID_SI, TFixedLine, lit "38686560"); (ID_SK, TFixedLine, lit "4216142");
   (ID_SO, TFixedLine, lit "2528827"); (ID_SV, TMobile, lit "50383564"); (ID_SY, TMobile, lit "963240489"); (ID_TH, TMobile, lit "665700986");
   (ID_TJ, TMobile, lit "992322857"); (ID_TN, TMobile, lit "21605831"); (ID_TR, TPremiumRate, lit "9000425849"); (ID_TW, TFixedLine, lit "88679233");
   (ID_TZ, TFixedLine, lit "255851095"); (ID_UA, TFixedLine, lit "380517366"); (ID_UZ, TMobile, lit "998532581"); (ID_VN, TMobile, lit "842369258");
   (ID_WS, TFixedLine, lit "68559"); (ID_XK, TFixedLine, lit "38354780694"); (ID_ZA, TFixedLine, lit "275352504"); (ID_ZA, TMobile, lit "274950029");
   (ID_ZW, TFixedLine, lit "263459")].
Definition own_witness (db : database) (x : id * ptype * str) : bool :=
  let '(r, t, w) := x in
  match by_id db (id_name r) with
  | Some m => if digits w then if described_b m t w then starts_with w (dec (md_country_code m)) else false else false
  | None => false
  end.
Lemma default_own_numbers : forallb (own_witness default_db) own_numbers = true.
Proof. vm_cast_no_check (eq_refl true). Qed.
Lemma own_numbers_in : map (fun x => (id_name (fst (fst x)), snd (fst x))) own_numbers = own_code_kinds.
Proof. vm_compute. reflexivity. Qed.
Lemma own_witness_use : forall db r t w, own_witness db (r, t, w) = true ->
  exists m, by_id db (id_name r) = Some m /\ all_digits w /\ described_as m t w /\ begins w (dec (md_country_code m)).
Proof.
  intros db r t w H. unfold own_witness in H. destruct (by_id db (id_name r)) as [m|]; [|discriminate]. exists m. split; [reflexivity|].
  destruct (digits w) eqn:Dw; [|discriminate]. split; [now apply all_digits_iff|]. destruct (described_b m t w) eqn:D; [|discriminate].
  split; [now apply described_b_use|]. apply starts_with_spec in H as (v & E). now exists v.
Qed.
Theorem C69_where_exact : forall k t, In (k, t) own_code_kinds -> exists r m w, id_name r = k /\ by_id default_db k = Some m /\ all_digits w
  /\ described_as m t w /\ begins w (dec (md_country_code m)).
Proof.
  intros k t I. rewrite <- own_numbers_in in I. apply in_map_iff in I as ([[r t0] w] & E & I). cbn [fst snd] in E. injection E as <- ->.
  pose proof default_own_numbers as D. rewrite forallb_forall in D. apply D in I.
  destruct (own_witness_use default_db r t w I) as (m & A & B & C & F). exists r, m, w. auto.
Qed.

(** An Indian mobile number loses its first two digits, a Singaporean fixed line as well. *)
Definition loses (db : database) (x : id * N * str * str) : bool :=
  let '(r, c, w, v) := x in
  match parse_with db (Some r) w with
  | Ok p => if N.eqb (code_value (ph_code p)) c then if str_eqb (nn_show (ph_national p)) v then
      match code_source (ph_code p) with SrcNumber => true | _ => false end else false else false
  | _ => false
  end.
Example C69_ex : forallb (loses default_db)
  [(ID_IN, 91%N, lit "9123456789", lit "23456789"); (ID_SG, 65%N, lit "65123456", lit "123456");
   (ID_IT, 39%N, lit "3912345678", lit "12345678"); (ID_NO, 47%N, lit "47123456", lit "123456")] = true.
Proof. vm_cast_no_check (eq_refl true). Qed.
Example C69_described_ex : forallb (own_witness default_db)
  [(ID_IN, TMobile, lit "9123456789"); (ID_SG, TFixedLine, lit "65123456"); (ID_IT, TMobile, lit "3912345678"); (ID_NO, TMobile, lit "47123456")] = true.
Proof. vm_cast_no_check (eq_refl true). Qed.
