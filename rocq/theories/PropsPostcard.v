(** * C30: the embedded database is the one read from the XML *)
From Verif Require Import Base CountryId Types Metadata Database Loader DbEvents DefaultDb DefaultDbOk Postcard Api.
From Verif Require Import StrFacts NationalFacts DatabaseFacts PropsLoader PropsXml.

(** What holds of every text ([T]), number ([U]) and vector length ([S]) in an entry. *)
Definition opt_ok {A} (P : A -> Prop) (o : option A) : Prop := forall a, o = Some a -> P a.
Definition vec_all {A} (P : A -> Prop) (S : nat -> Prop) (l : list A) : Prop := Forall P l /\ S (length l).
Definition desc_all (T : str -> Prop) (U : N -> Prop) (S : nat -> Prop) (d : ldescriptor) : Prop :=
  opt_ok T (ld_national_number d) /\ vec_all U S (ld_possible_length d)
  /\ vec_all U S (ld_possible_local_length d) /\ opt_ok T (ld_example d).
Definition fmt_all (T : str -> Prop) (S : nat -> Prop) (f : lformat) : Prop :=
  opt_ok T (lf_pattern f) /\ opt_ok T (lf_format f) /\ vec_all T S (lf_leading_digits f)
  /\ opt_ok T (lf_national_prefix_formatting_rule f) /\ opt_ok T (lf_domestic_carrier f).
Definition meta_all (T : str -> Prop) (U : N -> Prop) (S : nat -> Prop) (m : lmetadata) : Prop :=
  (forall d, has_description m d -> desc_all T U S d) /\ desc_all T U S (lm_default_descriptor m)
  /\ opt_ok T (lm_id m) /\ opt_ok U (lm_country_code m)
  /\ opt_ok T (lm_international_prefix m) /\ opt_ok T (lm_preferred_international_prefix m)
  /\ opt_ok T (lm_national_prefix m) /\ opt_ok T (lm_preferred_extension_prefix m)
  /\ opt_ok T (lm_national_prefix_for_parsing m) /\ opt_ok T (lm_national_prefix_transform_rule m)
  /\ vec_all (fmt_all T S) S (lm_formats m) /\ vec_all (fmt_all T S) S (lm_international_formats m)
  /\ opt_ok T (lm_leading_digits m) /\ fmt_all T S (lm_default_format m).

(** What the wire format can hold: 16-bit numbers, Unicode text, and lengths
    below 2^64 (no vector or string in memory is longer). *)
Definition scalar (c : char) : Prop := (c < 1114112)%N /\ ~ (55296 <= c <= 57343)%N.
Definition size_ok (n : nat) : Prop := (N.of_nat n < 18446744073709551616)%N.
Definition unicode (s : str) : Prop := forall c, In c s -> scalar c.
Definition text_ok (s : str) : Prop := unicode s /\ size_ok (blen s).
Definition short (n : N) : Prop := (n <= 65535)%N.
Definition vec_ok {A} (P : A -> Prop) (l : list A) : Prop := vec_all P size_ok l.
Definition descriptor_ok := desc_all text_ok short size_ok.
Definition format_ok := fmt_all text_ok size_ok.
Definition metadata_ok := meta_all text_ok short size_ok.

(** [dec] undoes [enc] on values satisfying [P], whatever follows *)
Definition codec {A} (P : A -> Prop) (enc : A -> bytes) (dec : bytes -> dec_res A) : Prop :=
  forall a rest, P a -> dec (enc a ++ rest) = Ok (a, rest).

Lemma varint_codec : forall k last weight acc n rest, (0 < k)%nat -> (last < 128)%N ->
  (n < 128 ^ N.of_nat (k - 1) * (last + 1))%N ->
  dec_varint k last weight acc (enc_varint k n ++ rest) = Ok ((acc + n * weight)%N, rest).
Proof.
  induction k as [|k IH]; intros last weight acc n rest K L H; [lia|]. cbn [enc_varint].
  destruct (N.ltb_spec n 128) as [Hn|Hn].
  - cbn [app dec_varint]. replace (N.ltb n 128) with true by (symmetry; apply N.ltb_lt; exact Hn).
    destruct k; [|reflexivity]. replace (N.ltb last n) with false; [reflexivity|]. symmetry. apply N.ltb_ge.
    change (128 ^ N.of_nat (1 - 1))%N with 1%N in H. lia.
  - cbn [app dec_varint]. pose proof (N.div_mod n 128 ltac:(discriminate)) as D. pose proof (N.mod_lt n 128 ltac:(discriminate)) as M.
    replace (N.ltb (n mod 128 + 128) 128) with false by (symmetry; apply N.ltb_ge; lia).
    destruct k as [|k].
    + change (128 ^ N.of_nat (1 - 1))%N with 1%N in H. lia.
    + rewrite IH; [|lia|exact L|].
      * f_equal. f_equal. replace (n mod 128 + 128 - 128)%N with (n mod 128)%N by lia.
        transitivity (acc + (128 * (n / 128) + n mod 128) * weight)%N; [lia|]. now rewrite <- D.
      * replace (S (S k) - 1) with (S k) in H by lia. replace (S k - 1) with k by lia.
        rewrite Nat2N.inj_succ, N.pow_succ_r' in H. apply N.div_lt_upper_bound; [discriminate|]. lia.
Qed.
Lemma u16_codec : codec short enc_u16 dec_u16.
Proof.
  intros n rest H. unfold dec_u16, enc_u16. rewrite varint_codec; [f_equal; f_equal; lia|lia|reflexivity|].
  change (128 ^ N.of_nat (3 - 1) * (3 + 1))%N with 65536%N. unfold short in H. lia.
Qed.
Lemma len_codec : forall n rest, size_ok n -> dec_len (enc_len n ++ rest) = Ok (N.of_nat n, rest).
Proof.
  intros n rest H. unfold dec_len, enc_len. rewrite varint_codec; [f_equal; f_equal; lia|lia|reflexivity|].
  change (128 ^ N.of_nat (10 - 1) * (1 + 1))%N with 18446744073709551616%N. exact H.
Qed.
Lemma bool_codec : codec (fun _ => True) enc_bool dec_bool.
Proof. intros [] rest _; reflexivity. Qed.
Lemma opt_codec : forall A (P : A -> Prop) enc dec, codec P enc dec -> codec (opt_ok P) (enc_opt enc) (dec_opt dec).
Proof.
  intros A P enc dec C [a|] rest H; cbn [enc_opt app dec_opt]; [|reflexivity].
  change (N.eqb 1 0) with false. change (N.eqb 1 1) with true. cbv iota. rewrite C; [reflexivity|]. now apply H.
Qed.
Lemma vec_codec : forall A (P : A -> Prop) enc dec, codec P enc dec -> codec (vec_ok P) (enc_vec enc) (dec_vec dec).
Proof.
  intros A P enc dec C l rest [F S]. unfold dec_vec, enc_vec. rewrite <- app_assoc, len_codec by exact S. cbn [obind].
  rewrite Nat2N.id. clear S. induction F as [|a l Ha F IH]; [reflexivity|].
  cbn [length flat_map dec_seq]. rewrite <- app_assoc, C by exact Ha. cbn [obind]. rewrite IH. reflexivity.
Qed.

Lemma utf8_char : forall c r, scalar c -> dec_utf8 (enc_char c ++ r) = let* s := dec_utf8 r in Ok (c :: s).
Proof.
  intros c r [H1 H2]. unfold enc_char.
  destruct (N.ltb_spec c 128) as [A|A].
  { cbn [app dec_utf8]. replace (N.ltb c 128) with true by (symmetry; now apply N.ltb_lt). reflexivity. }
  pose proof (N.div_mod c 64 ltac:(discriminate)) as D1. pose proof (N.mod_lt c 64 ltac:(discriminate)) as M1.
  pose proof (N.div_mod (c / 64) 64 ltac:(discriminate)) as D2. pose proof (N.mod_lt (c / 64) 64 ltac:(discriminate)) as M2.
  pose proof (N.div_mod (c / 64 / 64) 64 ltac:(discriminate)) as D3. pose proof (N.mod_lt (c / 64 / 64) 64 ltac:(discriminate)) as M3.
  rewrite N.div_div in D2, D3, M3 by discriminate. rewrite N.div_div in D3 by discriminate.
  change (64 * 64)%N with 4096%N in *. change (4096 * 64)%N with 262144%N in *.
  set (q1 := (c / 64)%N) in *. set (r1 := (c mod 64)%N) in *. set (q2 := (c / 4096)%N) in *. set (r2 := (q1 mod 64)%N) in *.
  set (q3 := (c / 262144)%N) in *. set (r3 := (q2 mod 64)%N) in *. clearbody q1 q2 q3 r1 r2 r3.
  assert (T : forall a b x, (a <= x <= b)%N -> in_range a b x = true).
  { intros a b x K. unfold in_range. apply andb_true_iff. split; now apply N.leb_le. }
  assert (F : forall a b x, ~ (a <= x <= b)%N -> in_range a b x = false).
  { intros a b x K. unfold in_range. apply andb_false_iff. rewrite !N.leb_gt. lia. }
  destruct (N.ltb_spec c 2048) as [B|B].
  { cbn [app dec_utf8]. replace (N.ltb (192 + q1) 128) with false by (symmetry; apply N.ltb_ge; lia).
    rewrite (T 194 223 (192 + q1))%N by lia. unfold is_cont. rewrite T by lia.
    replace ((192 + q1 - 192) * 64 + (128 + r1 - 128))%N with c by lia. reflexivity. }
  destruct (N.ltb_spec c 65536) as [C|C].
  { cbn [app dec_utf8]. replace (N.ltb (224 + q2) 128) with false by (symmetry; apply N.ltb_ge; lia).
    rewrite (F 194 223 (224 + q2))%N by lia. rewrite (T 224 239 (224 + q2))%N by lia.
    unfold is_cont. rewrite (T 128 191 (128 + r2))%N, (T 128 191 (128 + r1))%N by lia. cbn [andb].
    assert (X : (if (224 + q2 =? 224)%N then in_range 160 191 (128 + r2) else if (224 + q2 =? 237)%N then in_range 128 159 (128 + r2) else true) = true).
    { destruct (N.eqb_spec (224 + q2) 224); [apply T; lia|]. destruct (N.eqb_spec (224 + q2) 237); [apply T; lia|reflexivity]. }
    rewrite X. replace ((224 + q2 - 224) * 4096 + (128 + r2 - 128) * 64 + (128 + r1 - 128))%N with c by lia. reflexivity. }
  cbn [app dec_utf8]. replace (N.ltb (240 + q3) 128) with false by (symmetry; apply N.ltb_ge; lia).
  rewrite (F 194 223 (240 + q3))%N, (F 224 239 (240 + q3))%N by lia. rewrite (T 240 244 (240 + q3))%N by lia.
  unfold is_cont. rewrite (T 128 191 (128 + r3))%N, (T 128 191 (128 + r2))%N, (T 128 191 (128 + r1))%N by lia. cbn [andb].
  assert (X : (if (240 + q3 =? 240)%N then in_range 144 191 (128 + r3) else if (240 + q3 =? 244)%N then in_range 128 143 (128 + r3) else true) = true).
  { destruct (N.eqb_spec (240 + q3) 240); [apply T; lia|]. destruct (N.eqb_spec (240 + q3) 244); [apply T; lia|reflexivity]. }
  rewrite X. replace ((240 + q3 - 240) * 262144 + (128 + r3 - 128) * 4096 + (128 + r2 - 128) * 64 + (128 + r1 - 128))%N with c by lia.
  reflexivity.
Qed.
Lemma utf8_text : forall s, (forall c, In c s -> scalar c) -> dec_utf8 (flat_map enc_char s) = Ok s.
Proof.
  induction s as [|c s IH]; intros H; [reflexivity|]. cbn [flat_map]. rewrite utf8_char by (apply H; now left).
  rewrite IH; [reflexivity|]. intros x I. apply H. now right.
Qed.
Lemma utf8_bytes : forall s, length (flat_map enc_char s) = blen s.
Proof.
  induction s as [|c s IH]; [reflexivity|]. cbn [flat_map blen]. rewrite app_length, IH. f_equal.
  unfold enc_char, utf8_len. destruct (N.ltb c 128); [reflexivity|]. destruct (N.ltb c 2048); [reflexivity|].
  destruct (N.ltb c 65536); reflexivity.
Qed.
Lemma str_codec : codec text_ok enc_str dec_str.
Proof.
  intros s rest [H S]. unfold dec_str, enc_str. cbv zeta. rewrite <- app_assoc, len_codec by (now rewrite utf8_bytes).
  cbn [obind]. rewrite Nat2N.id. unfold take_bytes. rewrite app_length.
  replace (length (flat_map enc_char s) <=? _) with true by (symmetry; apply Nat.leb_le; lia).
  cbn [obind]. rewrite firstn_app, Nat.sub_diag, firstn_all, skipn_app, Nat.sub_diag, skipn_all. cbn [firstn skipn app].
  rewrite app_nil_r, utf8_text by exact H. reflexivity.
Qed.
Ltac field C := rewrite <- ?app_assoc; rewrite C by assumption; cbn [obind].
Lemma descriptor_codec : codec descriptor_ok enc_descriptor dec_descriptor.
Proof.
  intros [a b c d] rest (H1 & H2 & H3 & H4). cbn [ld_national_number ld_possible_length ld_possible_local_length ld_example] in *.
  unfold dec_descriptor, enc_descriptor. cbn [ld_national_number ld_possible_length ld_possible_local_length ld_example].
  field (opt_codec _ _ _ _ str_codec). field (vec_codec _ _ _ _ u16_codec). field (vec_codec _ _ _ _ u16_codec).
  field (opt_codec _ _ _ _ str_codec). reflexivity.
Qed.
Lemma format_codec : codec format_ok enc_format dec_format.
Proof.
  intros [a b c d e f] rest (H1 & H2 & H3 & H4 & H5).
  unfold dec_format, enc_format. cbn [lf_pattern lf_format lf_leading_digits lf_national_prefix_formatting_rule
    lf_national_prefix_optional_when_formatting lf_domestic_carrier] in *.
  field (opt_codec _ _ _ _ str_codec). field (opt_codec _ _ _ _ str_codec). field (vec_codec _ _ _ _ str_codec).
  field (opt_codec _ _ _ _ str_codec). rewrite <- ?app_assoc. rewrite (bool_codec e) by exact I. cbn [obind].
  field (opt_codec _ _ _ _ str_codec). reflexivity.
Qed.
Lemma metadata_codec : codec metadata_ok enc_metadata dec_metadata.
Proof.
  intros m rest (D & H1 & H2 & H3 & H4 & H5 & H6 & H7 & H8 & H9 & H10 & H11 & H12 & H13).
  assert (O : forall o, In o [lm_general m; lm_fixed_line m; lm_mobile m; lm_toll_free m; lm_premium_rate m; lm_shared_cost m;
    lm_personal_number m; lm_voip m; lm_pager m; lm_uan m; lm_emergency m; lm_voicemail m; lm_short_code m;
    lm_standard_rate m; lm_carrier m; lm_no_international m] -> opt_ok descriptor_ok o).
  { intros o Ho d ->. now apply D. }
  cbn [In] in O. unfold dec_metadata, enc_metadata. rewrite <- !app_assoc.
  do 16 (rewrite (opt_codec _ _ _ _ descriptor_codec) by (apply O; tauto); cbn [obind]).
  rewrite (opt_codec _ _ _ _ str_codec) by assumption; cbn [obind].
  rewrite (opt_codec _ _ _ _ u16_codec) by assumption; cbn [obind].
  do 6 (rewrite (opt_codec _ _ _ _ str_codec) by assumption; cbn [obind]).
  do 2 (rewrite (vec_codec _ _ _ _ format_codec) by assumption; cbn [obind]).
  rewrite (bool_codec (lm_main_country_for_code m)) by exact I; cbn [obind].
  rewrite (opt_codec _ _ _ _ str_codec) by assumption; cbn [obind].
  rewrite (bool_codec (lm_mobile_number_portable m)) by exact I; cbn [obind].
  rewrite format_codec by assumption; cbn [obind].
  rewrite descriptor_codec by assumption; cbn [obind].
  destruct m. reflexivity.
Qed.

(** Decoding what was encoded gives the entries back, whatever bytes follow. *)
Theorem C30_round_trip : forall l rest, vec_ok metadata_ok l -> from_bytes (to_bytes l ++ rest) = Ok l.
Proof.
  intros l rest H. unfold from_bytes, to_bytes. rewrite (vec_codec _ _ _ _ metadata_codec) by exact H. reflexivity.
Qed.
Print Assumptions C30_round_trip.

(** ** The entries read from a document can all be encoded *)
Definition unicode_event (e : event) : Prop :=
  match e with
  | EvText t => unicode t
  | EvStart _ attrs | EvEmpty _ attrs => forall k v, In (Some (k, v)) attrs -> unicode v
  | _ => True
  end.
Lemma parse_u16_short : forall s n, parse_u16 s = Some n -> short n.
Proof. intros s n H. apply parse_uint_inv in H as [H _]. exact H. Qed.
Lemma length_part_short : forall s l, length_part s = Ok l -> Forall short l.
Proof.
  intros s l H. unfold length_part in H. destruct s as [|c s]; [discriminate|].
  destruct (N.eqb c 91).
  - match type of H with context [split_char 45%N ?x] => destruct (split_char 45%N x) as [|p [|e ps]] end.
    + inversion H. constructor.
    + inversion H. constructor.
    + apply obind_ok in H as (s1 & _ & H). apply obind_ok in H as (n & Hn & H).
      destruct (blen e); [discriminate|]. apply obind_ok in H as (e1 & _ & H). apply obind_ok in H as (x & Hx & H).
      apply ok_or_inv in Hx. apply parse_u16_short in Hx. destruct (N.eqb x 65535); [discriminate|]. inversion H; subst.
      unfold range_list. apply Forall_forall. intros y I. apply in_map_iff in I as (k & <- & I). apply in_seq in I.
      unfold short in *. lia.
  - apply obind_ok in H as (n & Hn & H). apply ok_or_inv in Hn. inversion H; subst. constructor; [|constructor].
    now apply parse_u16_short in Hn.
Qed.
Lemma lengths_short : forall v l, lengths v = Ok l -> Forall short l.
Proof.
  intros v l H. unfold lengths in H. revert l H. induction (split_char 44%N v) as [|p ps IH]; intros l H; cbn [lengths_loop] in H.
  - inversion H. constructor.
  - apply obind_ok in H as (a & Ha & H). apply obind_ok in H as (b & Hb & H). inversion H; subst.
    apply Forall_app. split; [now apply length_part_short in Ha|now apply IH].
Qed.
Lemma listed_short : forall o, vec_all short (fun _ => True) (listed o).
Proof.
  intros [v|]; cbn [listed]; [|split; [constructor|exact I]]. destruct (lengths v) eqn:E; (split; [|exact I]); try constructor.
  now apply lengths_short in E.
Qed.

Lemma last_of_in : forall A B (f : A -> option B) l b, last_of f l = Some b -> exists a, In a l /\ f a = Some b.
Proof.
  intros A B f. induction l as [|a l IH]; intros b H; cbn [last_of] in H; [discriminate|].
  destruct (last_of f l) eqn:E.
  - inversion H; subst. destruct (IH b eq_refl) as (x & I & J). exists x. split; [now right|exact J].
  - exists a. split; [now left|exact H].
Qed.
Lemma all_of_in : forall A B (f : A -> option B) l b, In b (all_of f l) -> exists a, In a l /\ f a = Some b.
Proof.
  intros A B f l b H. apply in_flat_map in H as (a & I & J). exists a. split; [exact I|].
  destruct (f a); [|destruct J]. destruct J as [->|[]]. reflexivity.
Qed.
Definition unicode_attrs (kvs : list (str * str)) : Prop := forall k v, In (k, v) kvs -> unicode v.
Lemma attr_in_unicode : forall k kvs, unicode_attrs kvs -> opt_ok unicode (attr_in k kvs).
Proof.
  intros k kvs H v E. apply last_of_in in E as ([k' v'] & I & J). cbn [fst snd] in J.
  destruct (str_eqb k' k); [|discriminate]. inversion J; subst. exact (H k' v I).
Qed.
Definition unicode_events (l : list event) : Prop := forall e, In e l -> unicode_event e.
Lemma start_attrs : forall n kvs l, unicode_events (EvStart n (map Some kvs) :: l) -> unicode_attrs kvs.
Proof.
  intros n kvs l H k v I. apply (H _ (or_introl eq_refl) k v). apply in_map_iff. exists (k, v). auto.
Qed.
Lemma pieces_unicode : forall n tag ps, unicode_events (text_element n tag ps) -> unicode (concat ps).
Proof.
  intros n tag ps H c I. apply in_concat in I as (p & J & K). apply (H (EvText p)); [|exact K].
  right. apply in_app_iff. left. now apply in_map.
Qed.
Lemma flat_unicode : forall A (f : A -> list event) l a, unicode_events (flat_map f l) -> In a l -> unicode_events (f a).
Proof. intros A f l a H I e J. apply H. apply in_flat_map. exists a. auto. Qed.
Lemma inner_unicode : forall n tag l x, unicode_events (EvStart n tag :: l ++ x) -> unicode_events l.
Proof. intros n tag l x H e I. apply H. right. apply in_app_iff. now left. Qed.

Lemma description_unicode : forall items, unicode_events (flat_map desc_item_events items) ->
  desc_all unicode short (fun _ => True) (description items).
Proof.
  intros items H. split; [|split; [apply listed_short|split; [apply listed_short|]]].
  - intros t E. apply last_of_in in E as (i & I & J). destruct i; try discriminate. inversion J; subst.
    exact (pieces_unicode _ _ _ (flat_unicode _ _ _ _ H I)).
  - intros t E. apply last_of_in in E as (i & I & J). destruct i; try discriminate. inversion J; subst.
    exact (pieces_unicode _ _ _ (flat_unicode _ _ _ _ H I)).
Qed.
Lemma opt_or : forall A (P : A -> Prop) a b, opt_ok P a -> opt_ok P b -> opt_ok P (or_else a b).
Proof. intros A P [a|] b H1 H2; [exact H1|exact H2]. Qed.
Lemma rules_unicode : forall kvs, unicode_attrs kvs -> fmt_all unicode (fun _ => True) (rules kvs).
Proof.
  intros kvs H. split; [intros t E; discriminate|]. split; [intros t E; discriminate|].
  split; [split; [constructor|exact I]|]. split; now apply attr_in_unicode.
Qed.
Lemma number_format_unicode : forall r kvs items, fmt_all unicode (fun _ => True) r -> unicode_attrs kvs ->
  unicode_events (flat_map fmt_item_events items) -> fmt_all unicode (fun _ => True) (number_format r kvs items).
Proof.
  intros r kvs items (_ & _ & _ & R1 & R2) K H. split; [now apply attr_in_unicode|]. split; [|split; [|split]].
  - intros t E. apply last_of_in in E as (i & I & J). destruct i; try discriminate. inversion J; subst.
    exact (pieces_unicode _ _ _ (flat_unicode _ _ _ _ H I)).
  - split; [|exact I]. apply Forall_forall. intros t E. apply all_of_in in E as (i & J & L). destruct i; try discriminate. inversion L; subst.
    exact (pieces_unicode _ _ _ (flat_unicode _ _ _ _ H J)).
  - apply opt_or; [now apply attr_in_unicode|exact R1].
  - apply opt_or; [now apply attr_in_unicode|exact R2].
Qed.
Lemma template_unicode : forall items, unicode_events (flat_map fmt_item_events items) -> opt_ok unicode (international_template items).
Proof.
  intros items H t E. unfold international_template in E. destruct (last_of _ items) as [o|] eqn:L; [|discriminate]. subst o.
  apply last_of_in in L as (i & I & J). destruct i; try discriminate.
  - inversion J; subst. exact (pieces_unicode _ _ _ (flat_unicode _ _ _ _ H I)).
  - destruct (str_eqb (concat pieces) (lit "NA")); [discriminate|]. inversion J; subst.
    exact (pieces_unicode _ _ _ (flat_unicode _ _ _ _ H I)).
Qed.
Lemma formats_unicode : forall r items, fmt_all unicode (fun _ => True) r -> unicode_events (flat_map fmts_item_events items) ->
  Forall (fmt_all unicode (fun _ => True)) (national_formats r items)
  /\ Forall (fmt_all unicode (fun _ => True)) (international_formats r items).
Proof.
  intros r items R H. split; apply Forall_forall; intros f E; apply all_of_in in E as (i & I & J);
    destruct i as [n|kvs fi]; try discriminate; pose proof (flat_unicode _ _ _ _ H I) as U; cbn [fmts_item_events] in U;
    pose proof (number_format_unicode r kvs fi R (start_attrs _ _ _ U) (inner_unicode _ _ _ _ U)) as N.
  - inversion J; subst. exact N.
  - destruct (international_template fi) as [t|] eqn:T; [|discriminate]. inversion J; subst.
    destruct N as (N1 & _ & N3 & N4 & N5). split; [exact N1|]. split; [|split; [exact N3|split; [exact N4|exact N5]]].
    intros x E. cbn in E. inversion E; subst. exact (template_unicode fi (inner_unicode _ _ _ _ U) x T).
Qed.
Lemma entry_unicode : forall kvs items, unicode_attrs kvs -> unicode_events (flat_map terr_item_events items) ->
  meta_all unicode short (fun _ => True) (entry kvs items).
Proof.
  intros kvs items K H.
  assert (F : unicode_events (flat_map fmts_item_events (formats_child items))).
  { unfold formats_child. destruct (last_of _ items) as [fi|] eqn:E; [|intros e []].
    apply last_of_in in E as (i & I & J). destruct i; try discriminate. inversion J; subst.
    exact (inner_unicode _ _ _ _ (flat_unicode _ _ _ _ H I)). }
  apply (formats_unicode (rules kvs) _ (rules_unicode kvs K)) in F as [F1 F2].
  assert (C : forall s d, child s items = Some d -> desc_all unicode short (fun _ => True) d).
  { intros s d E. apply last_of_in in E as (i & I & J). destruct i as [| |t tag di|]; try discriminate.
    destruct (same_slot s t); [|discriminate]. inversion J; subst. apply description_unicode.
    exact (inner_unicode _ _ _ _ (flat_unicode _ _ _ _ H I)). }
  split; [|split; [|split; [now apply attr_in_unicode|split; [|repeat (split; [now apply attr_in_unicode|])]]]].
  - intros d I. unfold has_description in I. cbn in I.
    repeat (destruct I as [I|I]; [try discriminate I; exact (C _ _ I)|]). destruct I.
  - change (desc_all unicode short (fun _ => True) (mk_ldescriptor None [] [] None)).
    split; [intros t E; discriminate|]. split; [split; [constructor|exact I]|]. split; [split; [constructor|exact I]|]. intros t E; discriminate.
  - intros c E. unfold entry in E. cbn [lm_country_code] in E. unfold code_of in E. destruct (attr_in _ kvs); [|discriminate].
    now apply parse_u16_short in E.
  - split; [split; [exact F1|exact I]|]. split; [split; [exact F2|exact I]|]. split; [now apply attr_in_unicode|now apply rules_unicode].
Qed.
Lemma load_unicode : forall evs l, load evs = Ok l -> unicode_events evs -> Forall (meta_all unicode short (fun _ => True)) l.
Proof.
  intros evs l H U. apply C29_only in H as (d & rest & _ & -> & ->). apply Forall_forall. intros m I.
  unfold entries in I. apply in_flat_map in I as (i & I & J). destruct i as [| | | |tag items]; try destruct J.
  apply all_of_in in J as (t & Jt & E). destruct t as [| |kvs ts]; try discriminate. inversion E; subst.
  assert (V : unicode_events (terrs_item_events (UTerritory kvs ts))).
  { intros e V. apply U. apply in_app_iff. left. unfold render. apply in_app_iff. left. apply in_flat_map. exists (OTerritories tag items).
    split; [exact I|]. cbn [doc_item_events]. right. apply in_app_iff. left. apply in_flat_map. exists (UTerritory kvs ts). auto. }
  cbn [terrs_item_events] in V. apply entry_unicode; [exact (start_attrs _ _ _ V)|exact (inner_unicode _ _ _ _ V)].
Qed.

Lemma opt_both : forall A (P Q R : A -> Prop) o, (forall a, P a -> Q a -> R a) -> opt_ok P o -> opt_ok Q o -> opt_ok R o.
Proof. intros A P Q R o H H1 H2 a E. apply H; auto. Qed.
Lemma vec_both : forall A (P Q R : A -> Prop) S l, (forall a, P a -> Q a -> R a) -> vec_all P (fun _ => True) l -> vec_all Q S l -> vec_all R S l.
Proof.
  intros A P Q R S l H [H1 _] [H2 H3]. split; [|exact H3]. rewrite Forall_forall in *. intros a I. apply H; auto.
Qed.
Section Both.
  Context (T1 T2 T : str -> Prop) (U1 U2 U : N -> Prop) (S : nat -> Prop).
  Context (HT : forall s, T1 s -> T2 s -> T s) (HU : forall n, U1 n -> U2 n -> U n).
  Lemma desc_both : forall d, desc_all T1 U1 (fun _ => True) d -> desc_all T2 U2 S d -> desc_all T U S d.
  Proof.
    intros d (A1 & A2 & A3 & A4) (B1 & B2 & B3 & B4).
    split; [|split; [|split]]; eauto using opt_both, vec_both.
  Qed.
  Lemma fmt_both : forall f, fmt_all T1 (fun _ => True) f -> fmt_all T2 S f -> fmt_all T S f.
  Proof.
    intros f (A1 & A2 & A3 & A4 & A5) (B1 & B2 & B3 & B4 & B5).
    split; [|split; [|split; [|split]]]; eauto using opt_both, vec_both.
  Qed.
  Lemma meta_both : forall m, meta_all T1 U1 (fun _ => True) m -> meta_all T2 U2 S m -> meta_all T U S m.
  Proof.
    intros m (A0 & A1 & A2 & A3 & A4 & A5 & A6 & A7 & A8 & A9 & A10 & A11 & A12 & A13)
      (B0 & B1 & B2 & B3 & B4 & B5 & B6 & B7 & B8 & B9 & B10 & B11 & B12 & B13).
    split; [intros d Hd; apply desc_both; auto|]. split; [apply desc_both; auto|].
    do 8 (split; [eauto using opt_both|]).
    split; [eapply vec_both; [intros a; apply fmt_both|exact A10|exact B10]|].
    split; [eapply vec_both; [intros a; apply fmt_both|exact A11|exact B11]|].
    split; [eauto using opt_both|]. apply fmt_both; auto.
  Qed.
End Both.

(** Entries that fit in memory: *)
Definition in_memory (l : list lmetadata) : Prop :=
  vec_all (meta_all (fun s => size_ok (blen s)) (fun _ => True) size_ok) size_ok l.
(** Whatever document of Unicode text is loaded at build time, the library
    decodes the same entries at run time, and builds the same database. *)
Theorem C30_embedded : forall evs l rest, load evs = Ok l -> (forall e, In e evs -> unicode_event e) -> in_memory l ->
  from_bytes (to_bytes l ++ rest) = Ok l
  /\ forall db, embedded_db (to_bytes l ++ rest) = Ok db <-> db_parse evs = Ok db.
Proof.
  intros evs l rest H U [M1 M2].
  assert (E : from_bytes (to_bytes l ++ rest) = Ok l).
  { apply C30_round_trip. split; [|exact M2]. pose proof (load_unicode evs l H U) as F. rewrite Forall_forall in *.
    intros m I. apply (meta_both unicode (fun s => size_ok (blen s)) text_ok short (fun _ => True) short size_ok); auto.
    intros s H1 H2. split; assumption. }
  split; [exact E|]. intros db. unfold embedded_db, db_parse. rewrite E, H. cbn [obind].
  destruct (db_from l); split; intros X; try discriminate; inversion X; reflexivity.
Qed.
Print Assumptions C30_embedded.

(** *** The database shipped with the library *)
Definition optb {A} (p : A -> bool) (o : option A) : bool := match o with Some a => p a | None => true end.
Definition smallb (n : nat) : bool := N.ltb (N.of_nat n) 18446744073709551616.
Definition textb (s : str) : bool := smallb (blen s).
Definition descb (d : ldescriptor) : bool :=
  (if optb textb (ld_national_number d) then if smallb (length (ld_possible_length d)) then
   if smallb (length (ld_possible_local_length d)) then optb textb (ld_example d) else false else false else false).
Definition fmtb (f : lformat) : bool :=
  forallb (fun b : bool => b) [optb textb (lf_pattern f); optb textb (lf_format f); forallb textb (lf_leading_digits f);
    smallb (length (lf_leading_digits f)); optb textb (lf_national_prefix_formatting_rule f); optb textb (lf_domestic_carrier f)].
Definition metab (m : lmetadata) : bool :=
  forallb (fun b : bool => b) [
    forallb (optb descb) [lm_general m; lm_fixed_line m; lm_mobile m; lm_toll_free m; lm_premium_rate m; lm_shared_cost m;
      lm_personal_number m; lm_voip m; lm_pager m; lm_uan m; lm_emergency m; lm_voicemail m; lm_short_code m;
      lm_standard_rate m; lm_carrier m; lm_no_international m];
    descb (lm_default_descriptor m); optb textb (lm_id m); optb textb (lm_international_prefix m);
    optb textb (lm_preferred_international_prefix m); optb textb (lm_national_prefix m);
    optb textb (lm_preferred_extension_prefix m); optb textb (lm_national_prefix_for_parsing m);
    optb textb (lm_national_prefix_transform_rule m); forallb fmtb (lm_formats m); smallb (length (lm_formats m));
    forallb fmtb (lm_international_formats m); smallb (length (lm_international_formats m));
    optb textb (lm_leading_digits m); fmtb (lm_default_format m)].
Lemma optb_ok : forall A (p : A -> bool) (P : A -> Prop) o, (forall a, p a = true -> P a) -> optb p o = true -> opt_ok P o.
Proof. intros A p P [a|] H E x K; [inversion K; subst; now apply H|discriminate]. Qed.
Lemma smallb_ok : forall n, smallb n = true -> size_ok n.
Proof. intros n H. now apply N.ltb_lt. Qed.
Lemma textb_ok : forall s, textb s = true -> size_ok (blen s).
Proof. intros s. apply smallb_ok. Qed.
Lemma forallb_Forall : forall A (p : A -> bool) (P : A -> Prop) l, (forall a, p a = true -> P a) -> forallb p l = true -> Forall P l.
Proof. intros A p P l H E. apply Forall_forall. intros x I. apply H. rewrite forallb_forall in E. now apply E. Qed.
Lemma descb_ok : forall d, descb d = true -> desc_all (fun s => size_ok (blen s)) (fun _ => True) size_ok d.
Proof.
  intros d H. unfold descb in H. destruct (optb textb (ld_national_number d)) eqn:E1; [|discriminate].
  destruct (smallb (length (ld_possible_length d))) eqn:E2; [|discriminate].
  destruct (smallb (length (ld_possible_local_length d))) eqn:E3; [|discriminate].
  split; [exact (optb_ok _ _ _ _ textb_ok E1)|]. split; [split; [apply Forall_forall; auto|now apply smallb_ok]|].
  split; [split; [apply Forall_forall; auto|now apply smallb_ok]|]. exact (optb_ok _ _ _ _ textb_ok H).
Qed.
Ltac conj H := cbn [forallb] in H; repeat (apply andb_true_iff in H as [? H]).
Lemma fmtb_ok : forall f, fmtb f = true -> fmt_all (fun s => size_ok (blen s)) size_ok f.
Proof.
  intros f H. unfold fmtb in H. remember (forallb textb (lf_leading_digits f)) as b eqn:Eb. symmetry in Eb. conj H.
  match goal with K : b = true |- _ => rewrite K in Eb end.
  repeat split; eauto using optb_ok, textb_ok, smallb_ok, forallb_Forall.
Qed.
Lemma metab_ok : forall m, metab m = true -> meta_all (fun s => size_ok (blen s)) (fun _ => True) size_ok m.
Proof.
  intros m H. unfold metab in H.
  remember (forallb (optb descb) _) as b0 eqn:E0 in H. remember (forallb fmtb (lm_formats m)) as b1 eqn:E1 in H.
  remember (forallb fmtb (lm_international_formats m)) as b2 eqn:E2 in H. symmetry in E0, E1, E2. conj H.
  repeat match goal with K : b0 = true |- _ => rewrite K in E0; clear K | K : b1 = true |- _ => rewrite K in E1; clear K
    | K : b2 = true |- _ => rewrite K in E2; clear K end.
  split.
  { intros d I. rewrite forallb_forall in E0. specialize (E0 (Some d) I). now apply descb_ok. }
  split; [now apply descb_ok|]. split; [eauto using optb_ok, textb_ok|]. split; [intros c _; exact I|].
  do 6 (split; [eauto using optb_ok, textb_ok|]).
  split; [split; [eauto using forallb_Forall, fmtb_ok|now apply smallb_ok]|].
  split; [split; [eauto using forallb_Forall, fmtb_ok|now apply smallb_ok]|].
  split; [eauto using optb_ok, textb_ok|now apply fmtb_ok].
Qed.
Definition unicodeb (s : str) : bool :=
  forallb (fun c => if N.ltb c 55296 then true else if N.ltb c 57344 then false else N.ltb c 1114112) s.
Definition eventb (e : event) : bool :=
  match e with
  | EvText t => unicodeb t
  | EvStart _ attrs | EvEmpty _ attrs => forallb (optb (fun kv => unicodeb (snd kv))) attrs
  | _ => true
  end.
Lemma unicodeb_ok : forall s, unicodeb s = true -> unicode s.
Proof.
  intros s H c I. unfold unicodeb in H. rewrite forallb_forall in H. specialize (H c I).
  destruct (N.ltb_spec c 55296); [split; lia|]. destruct (N.ltb_spec c 57344); [discriminate|].
  apply N.ltb_lt in H. split; lia.
Qed.
Lemma eventb_ok : forall e, eventb e = true -> unicode_event e.
Proof.
  intros e H. destruct e; cbn [eventb unicode_event] in *; try exact I; try (now apply unicodeb_ok).
  - intros k v J. rewrite forallb_forall in H. specialize (H _ J). now apply unicodeb_ok.
  - intros k v J. rewrite forallb_forall in H. specialize (H _ J). now apply unicodeb_ok.
Qed.
Lemma default_in_memory : in_memory default_entries.
Proof.
  split.
  - apply (forallb_Forall _ metab); [exact metab_ok|]. vm_cast_no_check (eq_refl true).
  - apply smallb_ok. vm_cast_no_check (eq_refl true).
Qed.
Lemma default_unicode : forall e, In e db_events -> unicode_event e.
Proof.
  assert (H : forallb eventb db_events = true) by vm_cast_no_check (eq_refl true).
  intros e I. apply eventb_ok. rewrite forallb_forall in H. now apply H.
Qed.
(** The bytes that build.rs embeds decode to the database all the other claims
    are about. *)
Theorem C30_default : forall rest, embedded_db (to_bytes default_entries ++ rest) = Ok default_db.
Proof.
  intros rest.
  destruct (C30_embedded db_events default_entries rest default_entries_loaded default_unicode default_in_memory) as [_ H].
  apply H. unfold db_parse. rewrite default_entries_loaded. cbn [obind]. exact default_db_built.
Qed.
Print Assumptions C30_default.

(** ** Truncated bytes are refused: a decoder that succeeds reads the same
    thing when more bytes follow, so no strict prefix of an encoding decodes. *)
Definition steady {A} (dec : bytes -> dec_res A) : Prop :=
  forall bs a r x, dec bs = Ok (a, r) -> dec (bs ++ x) = Ok (a, r ++ x).
Lemma steady_refuses : forall A (P : A -> Prop) enc dec, codec P enc dec -> steady dec ->
  forall a cut rest, P a -> enc a = cut ++ rest -> rest <> [] -> forall b r, dec cut <> Ok (b, r).
Proof.
  intros A P enc dec C S a cut rest H E N b r D. apply (S _ _ _ rest) in D. rewrite <- E in D.
  specialize (C a [] H). rewrite app_nil_r in C. rewrite C in D. injection D as _ D.
  symmetry in D. apply app_eq_nil in D. now apply N.
Qed.
Lemma steady_varint : forall k last w acc, steady (dec_varint k last w acc).
Proof.
  induction k as [|k IH]; intros last w acc bs a r x H; [discriminate|]. destruct bs as [|b bs]; [discriminate|].
  cbn [dec_varint app] in *. destruct (N.ltb b 128).
  - destruct k; [destruct (N.ltb last b); [discriminate|]|]; injection H as <- <-; reflexivity.
  - now apply IH.
Qed.
Lemma steady_bind : forall A B (d : bytes -> dec_res A) (f : A -> bytes -> dec_res B),
  steady d -> (forall a, steady (f a)) -> steady (fun bs => let* (a, bs2) := d bs in f a bs2).
Proof.
  intros A B d f D F bs b r x H. cbv beta in *. destruct (d bs) as [[a bs2]|e|] eqn:E; try discriminate.
  rewrite (D _ _ _ x E). cbn [obind] in *. now apply F.
Qed.
Lemma steady_ret : forall A (a : A), steady (fun bs => Ok (a, bs)).
Proof. intros A a bs b r x H. injection H as <- <-. reflexivity. Qed.
Lemma steady_bool : steady dec_bool.
Proof.
  intros [|b bs] a r x H; [discriminate|]. cbn [dec_bool app] in *. destruct (N.eqb b 0); [|destruct (N.eqb b 1); [|discriminate]];
    injection H as <- <-; reflexivity.
Qed.
Lemma steady_opt : forall A (d : bytes -> dec_res A), steady d -> steady (dec_opt d).
Proof.
  intros A d D [|b bs] a r x H; [discriminate|]. cbn [dec_opt app] in *. destruct (N.eqb b 0); [injection H as <- <-; reflexivity|].
  destruct (N.eqb b 1); [|discriminate]. revert H.
  apply (steady_bind _ _ d (fun a bs2 => Ok (Some a, bs2)) D). intros y. apply steady_ret.
Qed.
Lemma steady_vec : forall A (d : bytes -> dec_res A), steady d -> steady (dec_vec d).
Proof.
  intros A d D. unfold dec_vec. apply steady_bind; [apply steady_varint|]. intros n. induction (N.to_nat n) as [|k IH].
  - apply steady_ret.
  - cbn [dec_seq]. apply (steady_bind _ _ d (fun a bs2 => let* (l, bs3) := dec_seq d k bs2 in Ok (a :: l, bs3)) D).
    intros a. apply (steady_bind _ _ (dec_seq d k) (fun l bs3 => Ok (a :: l, bs3)) IH). intros l. apply steady_ret.
Qed.
Lemma steady_str : steady dec_str.
Proof.
  unfold dec_str. apply steady_bind; [apply steady_varint|]. intros n bs s r x H. cbv beta in *.
  unfold take_bytes in *. destruct (Nat.leb_spec (N.to_nat n) (length bs)) as [L|L]; [|discriminate].
  rewrite app_length. replace (N.to_nat n <=? length bs + length x) with true by (symmetry; apply Nat.leb_le; lia).
  cbn [obind] in *. rewrite firstn_app, skipn_app. replace (N.to_nat n - length bs) with 0 by lia. cbn [firstn skipn].
  rewrite app_nil_r. destruct (dec_utf8 (firstn (N.to_nat n) bs)); try discriminate. cbn [obind] in *. injection H as <- <-. reflexivity.
Qed.
Ltac steady_fields := repeat first
  [ apply steady_ret | apply steady_str | apply steady_varint | apply steady_bool
  | apply steady_opt | apply steady_vec
  | match goal with |- steady (fun bs => let* (_, _) := ?d bs in _) => refine (steady_bind _ _ d (fun a bs => _) _ _); [|intros ?] end ].
Lemma steady_descriptor : steady dec_descriptor.
Proof. unfold dec_descriptor. steady_fields. Qed.
Lemma steady_format : steady dec_format.
Proof. unfold dec_format. steady_fields. Qed.
Lemma steady_metadata : steady dec_metadata.
Proof. unfold dec_metadata. steady_fields; try apply steady_descriptor; apply steady_format. Qed.

(** Cut anywhere short of its end, the encoding is refused. *)
Theorem C30_truncated : forall l cut rest, vec_ok metadata_ok l -> to_bytes l = cut ++ rest -> rest <> [] ->
  forall l', from_bytes cut <> Ok l'.
Proof.
  intros l cut rest H E N l' D. unfold from_bytes in D. destruct (dec_vec dec_metadata cut) as [[b r]|e|] eqn:X; try discriminate.
  exact (steady_refuses _ _ _ _ (vec_codec _ _ _ _ metadata_codec) (steady_vec _ _ steady_metadata) l cut rest H E N b r X).
Qed.
Print Assumptions C30_truncated.

(** Non-ASCII text, long varints, and each tag byte. *)
Definition ex_metadata : lmetadata :=
  mk_lmetadata (Some (mk_ldescriptor (Some [97; 233; 8364; 128512]%N) [5; 200; 65535]%N [] None))
    None None None None None None None None None None None None None None None (Some (lit "XX")) (Some 999%N)
    None None None None None None [] [] true None false lformat_default ldescriptor_default.
Example C30_ex : vec_ok metadata_ok [ex_metadata]
  /\ firstn 22 (to_bytes [ex_metadata]) = [1; 1;1;10; 97; 195;169; 226;130;172; 240;159;152;128; 3; 5; 200;1; 255;255;3; 0]%N.
Proof.
  split; [|vm_compute; reflexivity]. split; [|vm_compute; reflexivity]. constructor; [|constructor].
  assert (T : forall s, unicodeb s = true -> textb s = true -> text_ok s).
  { intros s H1 H2. split; [now apply unicodeb_ok|now apply textb_ok]. }
  assert (D : desc_all text_ok short size_ok ldescriptor_default).
  { split; [intros t E; discriminate|]. split; [split; [constructor|vm_compute; reflexivity]|].
    split; [split; [constructor|vm_compute; reflexivity]|]. intros t E; discriminate. }
  split; [|split; [exact D|]].
  { intros d I. unfold has_description in I. cbn in I. repeat (destruct I as [I|I]; [try discriminate I|]); [|destruct I].
    injection I as <-. split; [intros t E; injection E as <-; apply T; vm_compute; reflexivity|].
    split; [split; [repeat constructor; vm_compute; discriminate|vm_compute; reflexivity]|].
    split; [split; [constructor|vm_compute; reflexivity]|]. intros t E; discriminate. }
  split; [intros t E; injection E as <-; apply T; vm_compute; reflexivity|].
  split; [intros t E; injection E as <-; vm_compute; discriminate|].
  do 6 (split; [intros t E; discriminate|]).
  do 2 (split; [split; [constructor|vm_compute; reflexivity]|]).
  split; [intros t E; discriminate|].
  do 2 (split; [intros t E; discriminate|]). split; [split; [constructor|vm_compute; reflexivity]|].
  split; intros t E; discriminate.
Qed.
