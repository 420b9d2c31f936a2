(** * C42: how the parts of an RFC 3966 text are read *)
From Verif Require Import Base Unicode Regex RegexSyntax Consts CountryId Types NationalNumber
  Metadata Database Validator Valid Number Rfc3966 Helper Natural PhoneNumber Parser DefaultDb Api.
From Verif Require Import StrFacts NationalFacts RegexLang RegexFacts RegexCaps DatabaseFacts ParserFacts
  ParseInv TextFacts ViableFacts PhoneText E164Facts CoreFacts PropsE164 PropsRfc.

(** ** Vocabulary *)
(** [tel:] in any case, or nothing *)
Definition scheme (s : str) : Prop :=
  s = [] \/ exists a b c, s = [a; b; c; 58%N] /\ In a (lit "tT") /\ In b (lit "eE") /\ In c (lit "lL").
Definition letter_or_digit (c : char) : Prop := (48 <= c <= 57 \/ 65 <= c <= 90 \/ 97 <= c <= 122)%N.
Definition hex (c : char) : Prop := (48 <= c <= 57 \/ 65 <= c <= 70 \/ 97 <= c <= 102)%N.
Definition visual (c : char) : Prop := In c (lit "-.()").
Definition local_char (c : char) : Prop := hex c \/ visual c.
Definition name_char (c : char) : Prop := letter_or_digit c \/ c = 45%N.
Definition value_char (c : char) : Prop := letter_or_digit c \/ In c (lit "[]/:&+$-_.!~*'()").
(** parameters [;name=value] *)
Definition params_text (ps : list (str * str)) : str :=
  concat (map (fun kv => 59%N :: fst kv ++ 61%N :: snd kv) ps).
(** the text: scheme, [+code] for a global number, the local part, the parameters,
    and whatever follows them *)
Definition tel_text (sch : str) (code : option str) (local : str) (ps : list (str * str)) (rest : str) : str :=
  sch ++ match code with Some cc => 43%N :: cc | None => [] end ++ local ++ params_text ps ++ rest.
(** [rest] is nothing, or cannot be read as a continuation of the parameters *)
Definition stops (ps : list (str * str)) (rest : str) : Prop :=
  match rest with
  | [] => True
  | c :: r => ~ value_char c /\ (ps = [] -> c = 59%N)
              /\ (c = 59%N -> forall k v, r = k ++ 61%N :: v -> ~ Forall name_char k)
  end.
Record well_formed (sch : str) (code : option str) (local : str) (ps : list (str * str)) (rest : str) : Prop := {
  wf_scheme : scheme sch;
  wf_code : match code with
            | Some cc => cc <> [] /\ Forall (fun c => ~ visual c /\ c <> 32%N) cc
                         /\ match local with c :: _ => visual c | [] => False end
            | None => True
            end;
  wf_local : local <> [] /\ Forall local_char local;
  wf_params : Forall (fun kv => Forall name_char (fst kv) /\ Forall value_char (snd kv)) ps;
  wf_rest : stops ps rest /\ ~ In 32%N rest }.
(** the value of the last parameter of a name *)
Definition last_is (k : str) (ps : list (str * str)) (o : option str) : Prop :=
  match o with
  | Some v => exists a b, ps = a ++ (k, v) :: b /\ forall v', ~ In (k, v') b
  | None => forall v, ~ In (k, v) ps
  end.
(** a value without a plus sign in front *)
Definition unplussed (v : str) : str := match v with c :: v' => if N.eqb c 43 then v' else v | [] => [] end.

(** ** The reader *)
Lemma letter_digit_b : forall c, letter_or_digit c <-> is_alphanum c = true.
Proof.
  intros c. unfold letter_or_digit, is_alphanum, is_ascii_alpha, is_digit, in_range.
  rewrite !orb_true_iff, !andb_true_iff, !N.leb_le. lia.
Qed.
Lemma name_char_b : forall c, name_char c <-> r_pname c = true.
Proof. intros c. unfold name_char, r_pname. rewrite orb_true_iff, N.eqb_eq, letter_digit_b. tauto. Qed.
Lemma value_char_b : forall c, value_char c <-> r_pchar c = true.
Proof.
  intros c. unfold value_char, r_pchar. rewrite !orb_true_iff, letter_digit_b.
  unfold r_param_unreserved, r_mark. rewrite !mem_char_in. cbn. tauto.
Qed.
Lemma visual_b : forall c, visual c <-> r_separator c = true.
Proof. intros c. unfold visual, r_separator. rewrite !orb_true_iff, !N.eqb_eq. cbn. intuition congruence. Qed.
Lemma local_char_b : forall c, local_char c <-> r_number c = true.
Proof.
  intros c. unfold local_char, r_number. rewrite visual_b, orb_true_iff. unfold hex, r_digit, is_hex_digit, is_digit, in_range.
  rewrite !orb_true_iff, !andb_true_iff, !N.leb_le. lia.
Qed.
Lemma Forall_forallb : forall (P : char -> Prop) p s, (forall c, P c <-> p c = true) -> Forall P s <-> forallb p s = true.
Proof. intros P p s H. rewrite Forall_forall, forallb_forall. split; intros G x I; apply H, G, I. Qed.

Lemma param_read : forall k v s, Forall name_char k -> Forall value_char v ->
  match s with [] => True | c :: _ => ~ value_char c end ->
  r_parameter (59%N :: k ++ 61%N :: v ++ s) = Some ((k, v), s).
Proof.
  intros k v s Hk Hv Hs. unfold r_parameter. change (N.eqb 59 59) with true. cbv iota.
  rewrite (span_app_stop r_pname k 61%N); [|now apply (Forall_forallb _ _ _ name_char_b)|reflexivity].
  change (N.eqb 61 61) with true. cbv iota.
  apply (Forall_forallb _ _ _ value_char_b) in Hv. destruct s as [|c s].
  - rewrite app_nil_r, span_all by exact Hv. reflexivity.
  - rewrite (span_app_stop r_pchar v c); [reflexivity|exact Hv|].
    destruct (r_pchar c) eqn:E; [|reflexivity]. apply value_char_b in E. contradiction.
Qed.
Lemma rest_unread : forall ps rest, stops ps rest -> r_parameter rest = None.
Proof.
  intros ps [|c r] H; [reflexivity|]. destruct H as (_ & _ & H). unfold r_parameter.
  destruct (N.eqb_spec c 59) as [Ec|]; [|reflexivity]. destruct (span r_pname r) as [k s2] eqn:E. apply span_spec in E as (-> & Hk & _).
  destruct s2 as [|e s3]; [reflexivity|]. destruct (N.eqb_spec e 61); [|reflexivity]. subst e.
  exfalso. apply (H Ec k s3 eq_refl). now apply (Forall_forallb _ _ _ name_char_b).
Qed.
Lemma params_cons : forall kv ps, params_text (kv :: ps) = 59%N :: fst kv ++ 61%N :: snd kv ++ params_text ps.
Proof. intros kv ps. unfold params_text. cbn [map concat app]. rewrite <- app_assoc. reflexivity. Qed.
Lemma stops_tail : forall kv ps rest, stops (kv :: ps) rest -> stops ps rest \/ ps = [].
Proof.
  intros kv [|kv' ps] [|c r] H; auto. left. destruct H as (H1 & _ & H3). split; [exact H1|]. split; [discriminate|exact H3].
Qed.
Lemma params_read : forall ps rest fuel, length (params_text ps ++ rest) <= fuel ->
  Forall (fun kv => Forall name_char (fst kv) /\ Forall value_char (snd kv)) ps ->
  match rest with [] => True | c :: _ => ~ value_char c end -> r_parameter rest = None ->
  fst (r_many fuel (params_text ps ++ rest)) = ps.
Proof.
  induction ps as [|[k v] ps IH]; intros rest fuel Hf Hp Hr Hn.
  - cbn [params_text map concat app]. destruct fuel; [reflexivity|]. cbn [r_many]. rewrite Hn. reflexivity.
  - inversion Hp as [|? ? [Hk Hv] Hp']; subst. cbn [fst snd] in *.
    assert (T : params_text ((k, v) :: ps) ++ rest = 59%N :: k ++ 61%N :: v ++ (params_text ps ++ rest)).
    { rewrite params_cons. cbn [fst snd app]. rewrite <- !app_assoc. cbn [app]. rewrite <- app_assoc. reflexivity. }
    rewrite T in *. clear T.
    destruct fuel as [|fuel]; [cbn [length] in Hf; inversion Hf|]. cbn [r_many].
    assert (Hq : match params_text ps ++ rest with [] => True | c :: _ => ~ value_char c end).
    { destruct ps as [|kv' ps]; [exact Hr|]. rewrite params_cons. cbn [app]. intros V. apply value_char_b in V. discriminate V. }
    match goal with |- context [r_parameter ?t] =>
      assert (P : r_parameter t = Some ((k, v), params_text ps ++ rest)) by (exact (param_read k v _ Hk Hv Hq)) end.
    rewrite P. destruct (r_many fuel (params_text ps ++ rest)) as [l r] eqn:E. cbn [fst]. f_equal.
    rewrite <- (IH rest fuel); [now rewrite E| |exact Hp'|exact Hr|exact Hn].
    cbn [length] in Hf. rewrite app_length in Hf. cbn [length] in Hf. rewrite app_length in Hf.
    apply le_S_n in Hf. eapply Nat.le_trans; [|exact Hf].
    eapply Nat.le_trans; [|apply Nat.le_add_l]. apply le_S. apply Nat.le_add_l.
Qed.
Lemma last_get : forall k ps o, last_is k ps o -> params_get ps k = o.
Proof.
  intros k ps o. induction ps as [|[k' v'] ps IH] in o |- *; cbn [params_get].
  - destruct o as [v|]; [|reflexivity]. intros (a & b & E & _). destruct a; discriminate.
  - intros H. destruct o as [v|].
    + destruct H as (a & b & E & N). destruct a as [|x a]; cbn [app] in E; [injection E as E1 E2 E3|injection E as E1 E2].
      * assert (G : params_get ps k = None) by (apply IH; cbn; rewrite E3; exact N). rewrite G.
        rewrite E1, str_eqb_refl. now rewrite E2.
      * rewrite (IH (Some v)); [reflexivity|]. exists a, b. auto.
    + rewrite (IH None) by (intros v I; apply (H v); now right). destruct (str_eqb k' k) eqn:E; [|reflexivity].
      apply str_eqb_eq in E. subst k'. exfalso. apply (H v'). now left.
Qed.
Lemma last_ex : forall k ps, exists o, last_is k ps o.
Proof.
  intros k. induction ps as [|[k' v'] ps [[v|] IH]]; [now exists None|..].
  - destruct IH as (a & b & -> & N). exists (Some v), ((k', v') :: a), b. auto.
  - destruct (str_eqb k' k) eqn:E.
    + apply str_eqb_eq in E. subst k'. exists (Some v'), [], ps. auto.
    + exists None. intros v [I|I]; [|apply (IH v I)]. injection I as I1 I2. rewrite I1, str_eqb_refl in E. discriminate.
Qed.

Lemma scheme_read : forall sch s, scheme sch -> match s with c :: _ => r_number c = true \/ c = 43%N | [] => True end ->
  match tag_tel (sch ++ s) with Some r => r | None => sch ++ s end = s.
Proof.
  intros sch s [->|(a & b & c & -> & Ha & Hb & Hc)] Hs.
  - cbn [app]. destruct (tag_tel s) as [r|] eqn:E; [|reflexivity]. exfalso. unfold tag_tel in E.
    destruct s as [|x [|y [|z [|w s]]]]; try discriminate. destruct (_ && _) eqn:G; [|discriminate].
    apply andb_true_iff in G as [G _]. apply andb_true_iff in G as [G _]. apply andb_true_iff in G as [G _].
    apply N.eqb_eq in G. unfold ascii_lower in G. destruct Hs as [Hs|Hs]; [|subst x; discriminate G].
    apply local_char_b in Hs. unfold local_char, hex, visual in Hs. unfold in_range in G.
    destruct Hs as [Hs|Hs]; [|revert Hs; cbn; intros [<-|[<-|[<-|[<-|[]]]]]; discriminate G].
    destruct (N.leb_spec 65 x), (N.leb_spec x 90); cbn in G; clear - Hs G H H0; lia.
  - cbn [app]. destruct Ha as [<-|[<-|[]]], Hb as [<-|[<-|[]]], Hc as [<-|[<-|[]]]; reflexivity.
Qed.
Lemma no_space : forall P (s : list N), Forall P s -> (forall c, P c -> c <> 32%N) -> ~ In 32%N s.
Proof. intros P s H N I. rewrite Forall_forall in H. apply (N _ (H _ I) eq_refl). Qed.
Lemma value_space : forall c, value_char c -> c <> 32%N.
Proof. intros c H ->. apply value_char_b in H. discriminate H. Qed.
Lemma name_space : forall c, name_char c -> c <> 32%N.
Proof. intros c H ->. apply name_char_b in H. discriminate H. Qed.
Lemma local_space : forall c, local_char c -> c <> 32%N.
Proof. intros c H ->. apply local_char_b in H. discriminate H. Qed.

Lemma tel_read : forall sch code local ps rest x y, well_formed sch code local ps rest ->
  last_is (lit "ext") ps x -> last_is (lit "phone-context") ps y ->
  rfc3966 (tel_text sch code local ps rest)
  = Some (mk_number SrcDefault local (match code with Some cc => Some cc | None => option_map unplussed y end) x None).
Proof.
  intros sch code local ps rest x y [Hs Hc [Hl0 Hl] Hp [Hr Hr0]] Hx Hy.
  assert (Hps : ~ In 32%N (params_text ps ++ rest)).
  { intros I. apply in_app_iff in I as [I|I]; [|contradiction]. unfold params_text in I. apply in_concat in I as (w & I & J).
    apply in_map_iff in I as ([k v] & <- & I). rewrite Forall_forall in Hp. destruct (Hp _ I) as [Hk Hv]. cbn [fst snd] in *.
    destruct J as [J|J]; [discriminate J|]. apply in_app_iff in J as [J|[J|J]]; [|discriminate J|].
    - apply (no_space _ _ Hk name_space J).
    - apply (no_space _ _ Hv value_space J). }
  assert (Hrc : r_check (params_text ps ++ rest) = true).
  { destruct ps as [|kv ps]; [|rewrite params_cons; reflexivity]. cbn [params_text map concat app].
    destruct rest as [|c r]; [reflexivity|]. destruct Hr as (_ & Hr & _). rewrite Hr by reflexivity. reflexivity. }
  assert (Hnum : forall s, forallb r_number s = true -> span r_number (s ++ params_text ps ++ rest) = (s, params_text ps ++ rest)).
  { intros s H. destruct (params_text ps ++ rest) as [|c r] eqn:E; [rewrite app_nil_r; now apply span_all|].
    apply span_app_stop; [exact H|]. cbn in Hrc. apply N.eqb_eq in Hrc. subst c. reflexivity. }
  assert (Hln : forallb r_number local = true) by now apply (Forall_forallb _ _ _ local_char_b).
  assert (Hread : r_parameters (params_text ps ++ rest) = ps).
  { unfold r_parameters. apply params_read; [apply le_n|exact Hp| |apply (rest_unread ps), Hr].
    destruct rest as [|c r]; [exact I|]. apply Hr. }
  unfold rfc3966, tel_text. rewrite not_mem_char.
  2:{ intros I. apply in_app_iff in I as [I|I].
      { destruct Hs as [->|(a & b & c & -> & Ha & Hb & Hc')]; [destruct I|].
        assert (N : forall z, In z (lit "tTeElL") -> z <> 32%N) by (intros z J ->; revert J; cbn; intuition discriminate).
        destruct I as [I|[I|[I|[I|[]]]]]; [| | |discriminate I]; revert I; apply N.
        - revert Ha. cbn. tauto. - revert Hb. cbn. tauto. - revert Hc'. cbn. tauto. }
      apply in_app_iff in I as [I|I].
      { destruct code as [cc|]; [|destruct I]. destruct I as [I|I]; [discriminate I|]. destruct Hc as (_ & Hc & _).
        rewrite Forall_forall in Hc. now destruct (Hc _ I). }
      apply in_app_iff in I as [I|I]; [apply (no_space _ _ Hl local_space I)|contradiction]. }
  rewrite scheme_read; [|exact Hs|].
  2:{ destruct code as [cc|]; [now right|]. cbn [app]. destruct local as [|c local]; [now elim Hl0|]. cbn [app]. left.
      apply local_char_b. now inversion Hl. }
  destruct code as [cc|]; cbn [app].
  - destruct Hc as (Hc0 & Hc & Hl1). destruct local as [|c local]; [destruct Hl1|].
    assert (P : r_prefix (43%N :: cc ++ (c :: local) ++ params_text ps ++ rest) = Some (cc, (c :: local) ++ params_text ps ++ rest)).
    { unfold r_prefix. change (N.eqb 43 43) with true. cbv iota. cbn [app].
      rewrite (span_app_stop (fun c => negb (r_separator c)) cc c).
      - destruct cc; [now elim Hc0|reflexivity].
      - apply forallb_forall. intros z I. rewrite Forall_forall in Hc. apply negb_true_iff.
        destruct (r_separator z) eqn:E; [|reflexivity]. apply visual_b in E. now destruct (Hc _ I).
      - apply negb_false_iff, visual_b, Hl1. }
    match goal with |- context [r_prefix ?t] =>
      assert (P' : r_prefix t = Some (cc, (c :: local) ++ params_text ps ++ rest)) by exact P end.
    rewrite P'. cbv iota beta. change (c :: local ++ params_text ps ++ rest) with ((c :: local) ++ params_text ps ++ rest).
    rewrite (Hnum (c :: local) Hln). rewrite Hrc, Hread. rewrite (last_get _ _ _ Hx). reflexivity.
  - assert (P : r_prefix (local ++ params_text ps ++ rest) = None).
    { destruct local as [|c local]; [now elim Hl0|]. cbn [app r_prefix]. destruct (N.eqb_spec c 43); [|reflexivity].
      subst c. inversion Hl as [|? ? L]. apply local_char_b in L. discriminate L. }
    rewrite P. cbv iota beta. rewrite (Hnum local Hln). destruct local as [|c local]; [now elim Hl0|]. rewrite Hrc, Hread.
    rewrite (last_get _ _ _ Hx), (last_get _ _ _ Hy). cbv zeta. f_equal. f_equal. destruct y as [y|]; [|reflexivity].
    cbn [option_map]. f_equal. unfold strip_prefix_char, unplussed, ch_plus. destruct y as [|c' y]; [reflexivity|].
    destruct (N.eqb c' 43); reflexivity.
Qed.

(** ** C42 *)
(** Only the code, the local part, the last [ext] and, without a code, the last
    [phone-context] (with or without its plus sign) matter: not the scheme and its
    case, not other parameters, earlier values or the order, not what follows the
    parameters. *)
Theorem C42_relevant : forall db country sch sch' code local ps ps' rest rest' x y y',
  well_formed sch code local ps rest -> well_formed sch' code local ps' rest' ->
  last_is (lit "ext") ps x -> last_is (lit "ext") ps' x ->
  last_is (lit "phone-context") ps y -> last_is (lit "phone-context") ps' y' ->
  (code = None -> option_map unplussed y = option_map unplussed y') ->
  parse_with db country (tel_text sch code local ps rest) = parse_with db country (tel_text sch' code local ps' rest').
Proof.
  intros db country sch sch' code local ps ps' rest rest' x y y' H H' Hx Hx' Hy Hy' E.
  unfold parse_with, p_phone_number. rewrite (tel_read _ _ _ _ _ x y H Hx Hy), (tel_read _ _ _ _ _ x y' H' Hx' Hy').
  destruct code as [cc|]; [reflexivity|]. rewrite E by reflexivity. reflexivity.
Qed.

(** What is read: the code of a global number, else the context, is the calling
    code and the source says so; the last [ext], if of digits, is the extension. *)
Theorem C42_result : forall db country sch code local ps rest x y cc p,
  well_formed sch code local ps rest -> last_is (lit "ext") ps x -> last_is (lit "phone-context") ps y ->
  match code with Some c => Some c | None => option_map unplussed y end = Some cc -> all_digits cc ->
  parse_with db country (tel_text sch code local ps rest) = Ok p ->
  code_value (ph_code p) = digits_val cc /\ code_source (ph_code p) = SrcPlus
  /\ match x with None => ph_extension p = None | Some e => all_digits e -> ph_extension p = Some e end.
Proof.
  intros db country sch code local ps rest x y cc p H Hx Hy Hcc Dcc Hp.
  apply parse_with_inv in Hp as (n0 & n1 & meta & n2 & H0 & _ & H1 & _ & H3 & H4).
  unfold p_phone_number in H0. rewrite (tel_read _ _ _ _ _ x y H Hx Hy), Hcc in H0. injection H0 as <-.
  pose proof (country_code_inv _ _ _ _ H1) as R. destruct R as [_ _ Rx Rs _]. cbn [pn_prefix pn_national pn_extension is_some orb] in Rx, Rs.
  apply strip_national_same in H3 as (S1 & S2 & S3). apply finish_inv in H4 as (c & nat_ & F1 & _ & -> & _).
  cbn [ph_code ph_extension code_value code_source]. rewrite S1, S3.
  assert (Px : pn_prefix n1 = Some cc).
  { unfold country_code in H1. unfold international_prefix in H1. cbn [pn_prefix pn_national] in H1.
    fold (choose_mappings local) in H1. cbn [obind normalize set_country pn_country pn_prefix pn_national option_map] in H1.
    rewrite (act_id _ cc) in H1 by (now apply all_digits_iff). destruct (_ <=? _) in H1; [discriminate|].
    destruct (parse_u16 cc); [|discriminate]. cbn [ok_or obind] in H1. destruct (by_code db n); [|discriminate].
    injection H1 as <-. cbn [normalize set_country pn_prefix option_map]. f_equal. apply act_id. now apply all_digits_iff. }
  split; [|split; [exact Rs|]].
  - unfold prefix_value in F1. rewrite S2, Px in F1. destruct (parse_u16 cc) as [v|] eqn:E; [|discriminate]. cbn in F1.
    injection F1 as <-. apply parse_uint_inv in E as (_ & body & Hb & _ & _ & ->). destruct Hb as [->|Hb]; [reflexivity|].
    exfalso. apply all_digits_iff in Dcc. rewrite Hb in Dcc. discriminate Dcc.
  - rewrite Rx. destruct x as [e|]; [|reflexivity]. intros De. cbn [option_map]. f_equal. apply act_id. now apply all_digits_iff.
Qed.

(** A context of digits is the same as writing the code: "tel:local;phone-context=+cc"
    is read as "tel:+cc-local". *)
Definition plain_local (s : str) : Prop := forall c, In c s -> (48 <= c <= 57)%N \/ visual c.
Lemma plain_unsigned : forall s, plain_local s -> unsigned s.
Proof.
  intros s H c I. destruct (H c I) as [D|D].
  - apply is_digit_spec, digit_in in D. revert D. cbn. tauto.
  - revert D. unfold visual. cbn. tauto.
Qed.
Theorem C42_context : forall db country sch sch' local ps ps' rest rest' x y y' cc,
  well_formed sch None local ps rest -> well_formed sch' (Some cc) (lit "-" ++ local) ps' rest' ->
  plain_local local -> 3 <= length (filter is_digit local) ->
  last_is (lit "ext") ps x -> last_is (lit "ext") ps' x ->
  last_is (lit "phone-context") ps (Some y) -> last_is (lit "phone-context") ps' y' -> unplussed y = cc ->
  parse_with db country (tel_text sch None local ps rest)
  = parse_with db country (tel_text sch' (Some cc) (lit "-" ++ local) ps' rest').
Proof.
  intros db country sch sch' local ps ps' rest rest' x y y' cc H H' Hl H3 Hx Hx' Hy Hy' E.
  unfold parse_with, p_phone_number. rewrite (tel_read _ _ _ _ _ x _ H Hx Hy), (tel_read _ _ _ _ _ x y' H' Hx' Hy').
  cbn [option_map]. rewrite E. cbn [obind pn_national].
  pose proof (plain_unsigned _ Hl) as U.
  assert (U' : unsigned (lit "-" ++ local)).
  { intros c I. apply in_app_iff in I as [I|I]; [|auto]. destruct I as [<-|[]]. cbn. tauto. }
  assert (V : forall s, unsigned s -> 3 <= length (filter is_digit s) -> is_viable s = true).
  { intros s Us Hs. replace s with ([] ++ s ++ []) by (cbn [app]; now rewrite app_nil_r).
    apply viable_enough; [reflexivity|now apply unsigned_sep|exact Hs|reflexivity]. }
  assert (F : filter is_digit (lit "-" ++ local) = filter is_digit local) by reflexivity.
  rewrite (V local U H3). rewrite (V (lit "-" ++ local) U') by (rewrite F; exact H3). cbn [negb].
  unfold country_code. fold (idd_of db country). unfold international_prefix. cbn [pn_prefix pn_national].
  fold (choose_mappings local). fold (choose_mappings (lit "-" ++ local)).
  rewrite !plain_alpha by (now apply unsigned_plain). unfold normalize, set_country.
  cbn [pn_country pn_national pn_prefix pn_extension pn_carrier]. rewrite !act_plain by (now apply unsigned_plain). rewrite F. reflexivity.
Qed.

(** A context without digits, such as a domain name, is refused. *)
Theorem C42_domain : forall db country sch local ps rest y p,
  well_formed sch None local ps rest -> plain_local local ->
  last_is (lit "phone-context") ps (Some y) -> (forall c, In c y -> ~ (48 <= c <= 57)%N) ->
  parse_with db country (tel_text sch None local ps rest) <> Ok p.
Proof.
  intros db country sch local ps rest y p H Hl Hy Hd Hp. destruct (last_ex (lit "ext") ps) as (x & Hx).
  apply parse_with_inv in Hp as (n0 & n1 & meta & n2 & H0 & _ & H1 & _ & _ & _).
  unfold p_phone_number in H0. rewrite (tel_read _ _ _ _ _ x _ H Hx Hy) in H0. injection H0 as <-.
  unfold country_code in H1. fold (idd_of db country) in H1. unfold international_prefix in H1. cbn [pn_prefix pn_national option_map] in H1.
  fold (choose_mappings local) in H1. rewrite plain_alpha in H1 by (now apply unsigned_plain, plain_unsigned).
  cbn [obind normalize set_country pn_country pn_prefix pn_national option_map] in H1.
  destruct (_ <=? _) in H1; [discriminate|].
  assert (Y : Forall value_char y).
  { destruct H as [_ _ _ Hp _]. destruct Hy as (a & b & -> & _). rewrite Forall_forall in Hp.
    apply (Hp (lit "phone-context", y)). apply in_app_iff. right. now left. }
  assert (A : act ASCII_MAPPINGS (unplussed y) = []).
  { assert (G : forall s, Forall value_char s -> (forall c, In c s -> ~ (48 <= c <= 57)%N) -> act ASCII_MAPPINGS s = []).
    { intros s Hv Hn. rewrite act_flat_map. induction s as [|c s IH]; [reflexivity|]. inversion Hv as [|? ? V Hv']; subst.
      cbn [flat_map]. rewrite IH; [|exact Hv'|intros z I; apply Hn; now right]. rewrite app_nil_r.
      assert (N : is_digit c = false).
      { destruct (is_digit c) eqn:D; [|reflexivity]. apply is_digit_spec in D. exfalso. apply (Hn c); [now left|exact D]. }
      assert (B : (c < 128)%N).
      { destruct V as [V|V]; [unfold letter_or_digit in V; clear - V; lia|].
        assert (Q : forallb (fun c => N.ltb c 128) (lit "[]/:&+$-_.!~*'()") = true) by reflexivity.
        rewrite forallb_forall in Q. apply N.ltb_lt, Q, V. }
      assert (Q : forallb (fun k => let c := N.of_nat k in if is_digit c then true else match act_push ASCII_MAPPINGS c with [] => true | _ => false end)
                   (seq 0 128) = true) by (vm_compute; reflexivity).
      rewrite forallb_forall in Q. specialize (Q (N.to_nat c)). cbv zeta in Q. rewrite N2Nat.id, N in Q.
      destruct (act_push ASCII_MAPPINGS c); [reflexivity|]. discriminate Q. apply in_seq. clear - B. lia. }
    destruct y as [|c y]; [reflexivity|]. cbn [unplussed]. inversion Y; subst.
    destruct (N.eqb c 43); apply G; auto. intros z I. apply Hd. now right. }
  rewrite A in H1. discriminate H1.
Qed.

(** An example of the hypotheses: scheme in capitals, two extensions, another
    parameter, and a flag parameter that ends the list. *)
Definition ex_local : str := lit "(650)253-0000".
Definition ex_params : list (str * str) := [(lit "isub", lit "1"); (lit "ext", lit "3"); (lit "phone-context", lit "+1"); (lit "ext", lit "45")].
Lemma local_by : forall s, forallb r_number s = true -> Forall local_char s.
Proof. intros s H. now apply (Forall_forallb _ _ _ local_char_b). Qed.
Lemma params_by : forall ps, forallb (fun kv => forallb r_pname (fst kv) && forallb r_pchar (snd kv)) ps = true ->
  Forall (fun kv : str * str => Forall name_char (fst kv) /\ Forall value_char (snd kv)) ps.
Proof.
  intros ps H. apply Forall_forall. intros kv I. rewrite forallb_forall in H. apply H, andb_true_iff in I as [I1 I2].
  split; [now apply (Forall_forallb _ _ _ name_char_b)|now apply (Forall_forallb _ _ _ value_char_b)].
Qed.
Lemma ex_local_plain : plain_local ex_local.
Proof.
  intros c I. assert (G : forallb (fun c => is_digit c || r_separator c) ex_local = true) by (vm_compute; reflexivity).
  rewrite forallb_forall in G. apply G, orb_true_iff in I as [I|I]; [left; now apply is_digit_spec|right; now apply visual_b].
Qed.
Example C42_ex : well_formed (lit "TEL:") None ex_local ex_params (lit ";lr")
  /\ well_formed (lit "tel:") (Some (lit "1")) (lit "-" ++ ex_local) [(lit "ext", lit "45")] []
  /\ last_is (lit "ext") ex_params (Some (lit "45")) /\ last_is (lit "phone-context") ex_params (Some (lit "+1"))
  /\ tel_text (lit "TEL:") None ex_local ex_params (lit ";lr")
     = lit "TEL:(650)253-0000;isub=1;ext=3;phone-context=+1;ext=45;lr"
  /\ parse (Some ID_BE) (lit "TEL:(650)253-0000;isub=1;ext=3;phone-context=+1;ext=45;lr")
     = Ok (mk_phone (mk_code 1 SrcPlus) (mk_national 6502530000) (Some (lit "45")) None).
Proof.
  split; [|split; [|split; [|split; [|split]]]].
  - constructor.
    + right. exists 84%N, 69%N, 76%N. cbn. tauto.
    + exact I.
    + split; [discriminate|]. apply local_by. vm_compute. reflexivity.
    + apply params_by. vm_compute. reflexivity.
    + split; [|vm_compute; intuition discriminate]. split; [intros V; apply value_char_b in V; discriminate V|].
      split; [discriminate|]. intros _ k v E. exfalso.
      assert (J : In 61%N (k ++ 61%N :: v)) by (apply in_app_iff; right; now left). rewrite <- E in J.
      revert J. vm_compute. intuition discriminate.
  - constructor.
    + right. exists 116%N, 101%N, 108%N. cbn. tauto.
    + split; [discriminate|]. split; [|vm_compute; tauto]. constructor; [|constructor].
      split; [vm_compute; intuition discriminate|discriminate].
    + split; [discriminate|]. apply local_by. vm_compute. reflexivity.
    + apply params_by. vm_compute. reflexivity.
    + split; [exact I|intros []].
  - exists [(lit "isub", lit "1"); (lit "ext", lit "3"); (lit "phone-context", lit "+1")], []. split; [reflexivity|intros v []].
  - exists [(lit "isub", lit "1"); (lit "ext", lit "3")], [(lit "ext", lit "45")]. split; [reflexivity|].
    intros v [I|[]]. vm_compute in I. discriminate I.
  - reflexivity.
  - vm_compute. reflexivity.
Qed.

(** Where the reading differs from RFC 3966. *)
Definition tel_of (s : str) : option (N * str * option str) :=
  match parse None s with
  | Ok p => Some (code_value (ph_code p), nn_show (ph_national p), ph_extension p)
  | _ => None
  end.
(** A parameter without a value, or with an escaped character, hides those after it;
    names are compared with their case. *)
Theorem C42_hidden_refuted :
  tel_of (lit "tel:+1-6502530000;ext=5") = Some (1%N, lit "6502530000", Some (lit "5"))
  /\ map tel_of [lit "tel:+1-6502530000;lr;ext=5"; lit "tel:+1-6502530000;a=%20;ext=5"; lit "tel:+1-6502530000;EXT=5"]
     = repeat (Some (1%N, lit "6502530000", None)) 3.
Proof. split; vm_compute; reflexivity. Qed.
(** The digits of a domain name are taken for a calling code. *)
Theorem C42_domain_digits_refuted : exists y, y = lit "web1.example.com"
  /\ tel_of (lit "tel:6502530000;phone-context=" ++ y) = Some (1%N, lit "6502530000", None).
Proof. exists (lit "web1.example.com"). split; [reflexivity|]. vm_compute. reflexivity. Qed.
(** A code has to be the whole text up to the first separator: a context with an
    area code, or a separator placed later, is refused. *)
Theorem C42_area_refuted :
  tel_of (lit "tel:+1-650-2530000") = Some (1%N, lit "6502530000", None)
  /\ map tel_of [lit "tel:+1650-2530000"; lit "+1650-2530000"; lit "tel:2530000;phone-context=+1650"] = repeat None 3.
Proof. split; vm_compute; reflexivity. Qed.
Print Assumptions C42_relevant.
