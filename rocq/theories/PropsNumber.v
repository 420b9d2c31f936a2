(** * C05, C06, C07, C24, C25, C35: numbers and formatter settings *)
From Verif Require Import Base Regex CountryId Types NationalNumber Metadata Database Validator
  PhoneNumber Formatter DefaultDb Api.
From Verif Require Import StrFacts NationalFacts.

(** ** C06 *)
(** [new] succeeds exactly below 2^56 and loses nothing. *)
Theorem C06_pack : forall v z, (v < 2 ^ 64)%N -> (z < 256)%N ->
  ((v < 2 ^ 56)%N -> exists n, nn_new v z = Ok n /\ nn_value n = v /\ nn_zeros n = z) /\
  ((2 ^ 56 <= v)%N -> nn_new v z = Err TooLong).
Proof.
  intros v z Hv Hz. split; intros H.
  - destruct (nn_new v z) as [n|e|] eqn:E.
    + exists n. split; [easy|]. split; [eapply nn_new_value|eapply nn_new_zeros]; eauto.
    + unfold nn_new in E. rewrite two56_pow in E. destruct (N.leb_spec (2 ^ 56) v); [lia|easy].
    + unfold nn_new in E. destruct (_ <=? _)%N; easy.
  - unfold nn_new. rewrite two56_pow. destruct (N.leb_spec (2 ^ 56) v); [easy|lia].
Qed.
Print Assumptions C06_pack.

(** Two numbers made by [new] are equal iff both components are. *)
Theorem C06_equal : forall v1 z1 v2 z2 n1 n2, (z1 < 256)%N -> (z2 < 256)%N ->
  nn_new v1 z1 = Ok n1 -> nn_new v2 z2 = Ok n2 -> (n1 = n2 <-> v1 = v2 /\ z1 = z2).
Proof.
  intros v1 z1 v2 z2 n1 n2 B1 B2 H1 H2. split.
  - intros ->. split.
    + rewrite <- (nn_new_value _ _ _ H1). eapply nn_new_value; eauto.
    + rewrite <- (nn_new_zeros _ _ _ B1 H1). eapply nn_new_zeros; eauto.
  - intros [-> ->]. congruence.
Qed.
Print Assumptions C06_equal.

Example C06_ex :
  nn_new (2 ^ 56 - 1) 255 = Ok (mk_national (2 ^ 64 - 1)) /\ nn_new (2 ^ 56) 0 = Err TooLong
  /\ option_map nn_value (match nn_new 236618300 1 with Ok n => Some n | _ => None end) = Some 236618300%N.
Proof. vm_compute. repeat split. Qed.

(** ** C07 *)
(** A digit string is [k] zeros and a rest that does not start with a zero. *)
Theorem C07_read_print : forall k rest c rest', rest = c :: rest' -> c <> 48%N ->
  forallb is_digit rest = true -> k < 256 -> (digits_val rest < 2 ^ 56)%N ->
  exists n, nn_parse (repeat 48%N k ++ rest) = Ok n /\ nn_show n = repeat 48%N k ++ rest
    /\ nn_value n = digits_val rest /\ nn_zeros n = N.of_nat k.
Proof.
  intros k rest c rest' -> Hc Hd Hk Hv.
  destruct (nn_parse_digits k (c :: rest') Hd Hc Hk Hv) as (n & H1 & H2 & H3 & H4 & _). eauto.
Qed.
Print Assumptions C07_read_print.

Theorem C07_print_read : forall v z n, (z < 256)%N -> nn_new v z = Ok n -> v <> 0%N ->
  forallb is_digit (nn_show n) = true /\ nn_parse (nn_show n) = Ok n.
Proof.
  intros v z n Hz Hn Hv. split.
  - unfold nn_show. rewrite forallb_app. apply andb_true_iff. split; [|apply digits_dec].
    induction (N.to_nat (nn_zeros n)); [easy|]. cbn. exact IHn0.
  - apply nn_show_parse; [eapply nn_new_bound; eauto|]. now rewrite (nn_new_value _ _ _ Hn).
Qed.
Print Assumptions C07_print_read.

(** Nothing but zeros is refused, however long. *)
Theorem C07_only_zeros : forall k, nn_parse (repeat 48%N k) = Err MalformedInteger.
Proof. exact nn_parse_zeros. Qed.
Print Assumptions C07_only_zeros.

Example C07_ex : option_map nn_show (match nn_parse (lit "0012345678901234") with Ok n => Some n | _ => None end)
  = Some (lit "0012345678901234").
Proof. vm_compute. reflexivity. Qed.

(** Without the bound on the zeros the count silently wraps; and a plus sign
    after the zeros is swallowed. *)
Theorem C07_unbounded_refuted :
  (exists s n, forallb is_digit s = true /\ digits_val s <> 0%N /\ nn_parse s = Ok n /\ nn_show n <> s)
  /\ (exists s n, nn_parse s = Ok n /\ In ch_plus s /\ nn_show n <> s).
Proof.
  split.
  - exists (repeat 48%N 256 ++ lit "5"). eexists. split; [vm_compute; reflexivity|].
    split; [vm_compute; discriminate|]. split; [vm_compute; reflexivity|]. vm_compute. discriminate.
  - exists (lit "0+5"). eexists. split; [vm_compute; reflexivity|]. split; [cbn; tauto|]. vm_compute. discriminate.
Qed.
Print Assumptions C07_unbounded_refuted.

(** ** C05 *)
(** '+', then the decimal calling code, then as many zeros as [zeros()] says,
    then the decimal value; for any database, custom format, extension and
    carrier. *)
Theorem C05_e164 : forall dflt f db p, fm_mode f = E164 -> fm_number f = p ->
  db = match fm_database f with Some db => db | None => dflt end ->
  (exists m l, by_code db (code_value (ph_code p)) = Some (m :: l)) ->
  exists ds, fmt_display dflt f = Ok (ch_plus :: ds) /\ forallb is_digit ds = true /\
    ds = dec (code_value (ph_code p)) ++ repeat ch_0 (N.to_nat (nn_zeros (ph_national p)))
         ++ dec (nn_value (ph_national p)).
Proof.
  intros dflt f db p Hm Hp Hdb (m & l & Hc). unfold fmt_display. rewrite Hp, <- Hdb, Hc, Hm. cbn [ok_or obind].
  eexists. split; [reflexivity|]. split; [|reflexivity].
  fold (digits (dec (code_value (ph_code p)) ++ nn_show (ph_national p))).
  unfold nn_show. rewrite !digits_app, !digits_dec.
  assert (Z : forall k, digits (repeat 48%N k) = true) by (induction k; easy). now rewrite Z.
Qed.
Print Assumptions C05_e164.

(** The only other outcome is the error for an unknown code. *)
Theorem C05_unknown_code : forall dflt f db, 
  db = match fm_database f with Some db => db | None => dflt end ->
  by_code db (code_value (ph_code (fm_number f))) = None -> fmt_display dflt f = Err tt.
Proof. intros dflt f db Hdb H. unfold fmt_display. rewrite <- Hdb, H. reflexivity. Qed.
Print Assumptions C05_unknown_code.

Example C05_ex : phone_to_string
  (mk_phone (mk_code 39 SrcDefault) (mk_national (2 ^ 56 + 236618300)) (Some (lit "12")) (Some (lit "9")))
  = Ok (lit "+390236618300").
Proof. vm_compute. reflexivity. Qed.

(** ** C24 *)
Lemma option_eqb_spec : forall a b : option str, option_eqb str_eqb a b = true <-> a = b.
Proof.
  intros [a|] [b|]; cbn; split; intros H; try easy.
  - apply str_eqb_eq in H. congruence.
  - inversion H. apply str_eqb_refl.
Qed.
(** A number as it can exist in memory: the packed field is a [u64]. *)
Definition phone_u64 (p : phone) : Prop := (nn_raw (ph_national p) < 2 ^ 64)%N.

(** What is compared, and that the code source is not. *)
Theorem C24_equality : forall a b, phone_u64 a -> phone_u64 b ->
  (phone_eqb a b = true <->
     code_value (ph_code a) = code_value (ph_code b)
     /\ nn_value (ph_national a) = nn_value (ph_national b)
     /\ nn_zeros (ph_national a) = nn_zeros (ph_national b)
     /\ ph_extension a = ph_extension b /\ ph_carrier a = ph_carrier b).
Proof.
  intros a b Ha Hb. unfold phone_eqb, code_eqb. rewrite !andb_true_iff, !N.eqb_eq, !option_eqb_spec.
  split.
  - intros [[[H1 H2] H3] H4]. unfold nn_value, nn_zeros. rewrite H2. auto.
  - intros (H1 & H2 & H3 & H4 & H5). repeat split; auto.
    rewrite (nn_raw_eq _ Ha), (nn_raw_eq _ Hb). congruence.
Qed.
Print Assumptions C24_equality.

Theorem C24_equivalence :
  (forall a, phone_eqb a a = true)
  /\ (forall a b, phone_eqb a b = phone_eqb b a)
  /\ (forall a b c, phone_eqb a b = true -> phone_eqb b c = true -> phone_eqb a c = true).
Proof.
  assert (S : forall a b, phone_eqb a b = true <->
    code_value (ph_code a) = code_value (ph_code b) /\ nn_raw (ph_national a) = nn_raw (ph_national b)
    /\ ph_extension a = ph_extension b /\ ph_carrier a = ph_carrier b).
  { intros a b. unfold phone_eqb, code_eqb. rewrite !andb_true_iff, !N.eqb_eq, !option_eqb_spec. tauto. }
  split; [|split].
  - intros a. now apply S.
  - intros a b. apply eq_true_iff_eq. rewrite !S. intuition congruence.
  - intros a b c. rewrite !S. intuition congruence.
Qed.
Print Assumptions C24_equivalence.

(** Equal numbers feed the same data to a hasher, different ones never do. *)
Theorem C24_hash : forall a b, phone_eqb a b = true <-> phone_hash a = phone_hash b.
Proof.
  intros a b. unfold phone_eqb, code_eqb, phone_hash.
  rewrite !andb_true_iff, !N.eqb_eq, !option_eqb_spec. split.
  - intros [[[-> ->] ->] ->]. easy.
  - intros H. inversion H. destruct (ph_extension a), (ph_extension b), (ph_carrier a), (ph_carrier b);
      cbn in *; repeat split; auto; congruence.
Qed.
Print Assumptions C24_hash.

Example C24_ex :
  let a := mk_phone (mk_code 32 SrcPlus) (mk_national 474091150) None None in
  let b := mk_phone (mk_code 32 SrcDefault) (mk_national 474091150) None None in
  let c := mk_phone (mk_code 32 SrcPlus) (mk_national (2 ^ 56 + 474091150)) None None in
  a <> b /\ phone_eqb a b = true /\ phone_eqb a c = false /\ phone_hash a <> phone_hash c.
Proof. cbn zeta. repeat split; try discriminate; vm_compute; reflexivity. Qed.

(** ** C25 *)
Inductive setting := SetMode (m : mode) | SetDatabase (db : database) | SetFormat (x : format).
Definition apply_setting (f : formatter) (s : setting) : formatter :=
  match s with
  | SetMode m => fm_set_mode f m
  | SetDatabase db => fm_set_database f db
  | SetFormat x => fm_with f x
  end.
(** the last setting of each kind *)
Fixpoint last_mode (d : mode) (l : list setting) : mode :=
  match l with [] => d | SetMode m :: l' => last_mode m l' | _ :: l' => last_mode d l' end.
Fixpoint last_database (d : option database) (l : list setting) : option database :=
  match l with [] => d | SetDatabase x :: l' => last_database (Some x) l' | _ :: l' => last_database d l' end.
Fixpoint last_format (d : option format) (l : list setting) : option format :=
  match l with [] => d | SetFormat x :: l' => last_format (Some x) l' | _ :: l' => last_format d l' end.

(** Whatever the sequence of settings, only the last one of each kind counts,
    and the kinds do not influence each other. *)
Theorem C25_settings : forall p l,
  let f := fold_left apply_setting l (fmt_format p) in
  fm_number f = p /\ fm_mode f = last_mode E164 l
  /\ fm_database f = last_database None l /\ fm_format f = last_format None l.
Proof.
  intros p l.
  assert (G : forall f0, let f := fold_left apply_setting l f0 in
    fm_number f = fm_number f0 /\ fm_mode f = last_mode (fm_mode f0) l
    /\ fm_database f = last_database (fm_database f0) l /\ fm_format f = last_format (fm_format f0) l).
  { induction l as [|s l IH]; intros f0; [easy|]. cbn [fold_left].
    specialize (IH (apply_setting f0 s)). cbn zeta in *.
    destruct IH as (-> & -> & -> & ->). destruct s; easy. }
  apply (G (fmt_format p)).
Qed.
Print Assumptions C25_settings.

(** Hence any two sequences with the same last settings print the same. *)
Theorem C25_order_irrelevant : forall p l1 l2,
  last_mode E164 l1 = last_mode E164 l2 -> last_database None l1 = last_database None l2 ->
  last_format None l1 = last_format None l2 ->
  fmt_display default_db (fold_left apply_setting l1 (fmt_format p))
  = fmt_display default_db (fold_left apply_setting l2 (fmt_format p)).
Proof.
  intros p l1 l2 H1 H2 H3.
  pose proof (C25_settings p l1) as A. pose proof (C25_settings p l2) as B. cbn zeta in *.
  destruct (fold_left apply_setting l1 (fmt_format p)), (fold_left apply_setting l2 (fmt_format p)).
  cbn in *. destruct A as (-> & -> & -> & ->), B as (-> & -> & -> & ->). congruence.
Qed.
Print Assumptions C25_order_irrelevant.

(** [format_with] is [format] followed by setting the database: nothing else
    about the starting point differs, so without further settings the text is
    that of E.164 and settings made afterwards count in the same way. *)
Theorem C25_format_with : forall p d l,
  fmt_display default_db (fold_left apply_setting l (fmt_format_with d p))
  = fmt_display default_db (fold_left apply_setting (SetDatabase d :: l) (fmt_format p)).
Proof. reflexivity. Qed.
Print Assumptions C25_format_with.

Example C25_ex : forall p, 
  fmt_display default_db (fold_left apply_setting [SetMode National; SetDatabase db_empty; SetMode Rfc3966; SetDatabase default_db] (fmt_format p))
  = fmt_display default_db (fold_left apply_setting [SetDatabase default_db; SetMode Rfc3966] (fmt_format p)).
Proof. intros p. apply C25_order_irrelevant; reflexivity. Qed.
Lemma format_with_own : forall db p, fmt_display db (fmt_format_with db p) = fmt_display db (fmt_format p).
Proof. reflexivity. Qed.
Example C25_with_ex : forall p,
  fmt_display default_db (fmt_format_with default_db p) = fmt_display default_db (fmt_format p).
Proof. exact (format_with_own default_db). Qed.

(** ** C35 *)
Theorem C35_classified : forall v,
  xorb (is_possible v) (is_invalid v) = true /\ (is_invalid_length v = true -> is_invalid v = true)
  /\ (is_invalid v = true -> is_invalid_length v = false -> v = VInvalidCountryCode).
Proof. destruct v; cbn; repeat split; easy. Qed.
Print Assumptions C35_classified.
