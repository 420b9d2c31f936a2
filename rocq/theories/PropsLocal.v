(** * C62: the metadata of other calling codes do not matter *)
From Verif Require Import Base Unicode Regex RegexSyntax Consts CountryId Types NationalNumber
  Metadata Database Validator Valid Number Rfc3966 Helper Natural PhoneNumber Parser Formatter Loader Xml
  DefaultDb DefaultDbOk Api.
From Verif Require Import StrFacts DatabaseFacts ParserFacts FormatFacts E164Facts PropsTemplate PropsE164 PropsNumber.

(** the entries of a calling code, and those of a name *)
Definition of_code (c : N) (m : lmetadata) : bool := match lm_country_code m with Some k => N.eqb k c | None => false end.
Definition of_id (k : str) (m : lmetadata) : bool := match lm_id m with Some i => str_eqb i k | None => false end.
(** No entry of the code shares its name with an entry of another code - unless it is the only one and
    named 001, as all entries of codes without a country are. *)
Definition own_names (c : N) (es : list lmetadata) : Prop :=
  forall e e', In e es -> In e' es -> of_code c e = true -> lm_id e' = lm_id e ->
    of_code c e' = true \/ (filter (of_code c) es = [e] /\ lm_id e = Some (lit "001")).
(** Two lists of entries with the same entries of a calling code, in the same order. *)
Definition same_at (c : N) (es es' : list lmetadata) : Prop :=
  filter (of_code c) es = filter (of_code c) es' /\ own_names c es /\ own_names c es'.

Lemma entry_keys : forall lm m, db_metadata lm = Ok m -> lm_id lm = Some (md_id m) /\ lm_country_code lm = Some (md_country_code m).
Proof.
  intros lm m H. unfold db_metadata in H. do 17 (apply obind_ok in H as (? & _ & H)).
  apply obind_ok in H as (i & Ei & H). apply obind_ok in H as (cc & Ec & H). do 5 (apply obind_ok in H as (? & _ & H)).
  inversion H. cbn [md_id md_country_code]. destruct (lm_id lm), (lm_country_code lm); try discriminate. cbn in Ei, Ec. now inversion Ei; inversion Ec.
Qed.
Lemma omap_filter : forall (f : lmetadata -> bool) (g : metadata -> bool), (forall lm m, db_metadata lm = Ok m -> f lm = g m) ->
  forall es mds, omap_list db_metadata es = Ok mds -> omap_list db_metadata (filter f es) = Ok (filter g mds).
Proof.
  intros f g K. induction es as [|e es IH]; intros mds H; cbn [omap_list filter] in *; [now inversion H|].
  apply obind_ok in H as (m & Hm & H). apply obind_ok in H as (ms & Hms & H). inversion H. cbn [filter]. rewrite (K _ _ Hm).
  destruct (g m); [|now apply IH]. cbn [omap_list]. rewrite Hm. cbn [obind]. now rewrite (IH _ Hms).
Qed.
Lemma code_keys : forall c lm m, db_metadata lm = Ok m -> of_code c lm = has_code c m.
Proof. intros c lm m H. apply entry_keys in H as [_ H]. unfold of_code, has_code. now rewrite H. Qed.
Lemma id_keys : forall k lm m, db_metadata lm = Ok m -> of_id k lm = has_id k m.
Proof. intros k lm m H. apply entry_keys in H as [H _]. unfold of_id, has_id. now rewrite H. Qed.
Lemma omap_in : forall es mds m, omap_list db_metadata es = Ok mds -> In m mds -> exists e, In e es /\ db_metadata e = Ok m.
Proof.
  induction es as [|e es IH]; intros mds m H I; cbn [omap_list] in H; [inversion H; now subst|].
  apply obind_ok in H as (x & Hx & H). apply obind_ok in H as (ms & Hms & H). inversion H. subst mds.
  destruct I as [->|I]; [exists e; split; [now left|exact Hx]|]. destruct (IH ms m Hms I) as (y & Y & Hy). exists y. split; [now right|exact Hy].
Qed.
Lemma find_filter : forall A (f g : A -> bool) l, (forall x, In x l -> f x = true -> g x = true) -> find f l = find f (filter g l).
Proof.
  intros A f g l K. induction l as [|x l IH]; [reflexivity|]. cbn [find filter]. specialize (IH (fun y I => K y (or_intror I))).
  destruct (f x) eqn:E.
  - rewrite (K x (or_introl eq_refl) E). cbn [find]. now rewrite E.
  - destruct (g x); [cbn [find]; now rewrite E|exact IH].
Qed.
Lemma filter_rev : forall A (f : A -> bool) l, filter f (rev l) = rev (filter f l).
Proof.
  intros A f. induction l as [|x l IH]; [reflexivity|]. cbn [rev filter]. rewrite filter_app, IH. cbn [filter].
  destruct (f x); [reflexivity|]. now rewrite app_nil_r.
Qed.

(** what the lookups then have in common *)
Definition same_lookups (c : N) (db db' : database) : Prop :=
  by_code db c = by_code db' c /\ region db c = region db' c /\
  (region db c = Some [lit "001"] \/ forall rs r, region db c = Some rs -> In r rs -> by_id db r = by_id db' r).
Lemma same_at_lookups : forall c es es' db db', same_at c es es' -> db_from es = Ok db -> db_from es' = Ok db' -> same_lookups c db db'.
Proof.
  intros c es es' db db' (F & O & O') H H'. apply db_from_ok in H as (mds & M & ->). apply db_from_ok in H' as (mds' & M' & ->).
  pose proof (omap_filter (of_code c) (has_code c) (code_keys c) es mds M) as Q.
  pose proof (omap_filter (of_code c) (has_code c) (code_keys c) es' mds' M') as Q'. rewrite <- F, Q in Q'. inversion Q' as [E]. clear Q'.
  assert (B : by_code (db_of mds) c = by_code (db_of mds') c) by (rewrite !db_of_by_code; now rewrite E).
  split; [exact B|]. split; [rewrite !db_of_region; now rewrite B|].
  (* entries with the name of a region of the code have the code *)
  assert (K : forall l ms, filter (of_code c) l = filter (of_code c) es -> own_names c l -> omap_list db_metadata l = Ok ms -> filter (has_code c) ms = filter (has_code c) mds ->
            region (db_of ms) c = Some [lit "001"] \/
            forall m x, In m ms -> In x ms -> has_code c m = true -> md_id x = md_id m -> has_code c x = true).
  { intros l ms Fl Ol Ml El.
    destruct (existsb (fun m => has_code c m && existsb (fun x => str_eqb (md_id x) (md_id m) && negb (has_code c x)) ms) ms) eqn:X.
    - left. apply existsb_exists in X as (m & Im & X). apply andb_true_iff in X as [Hm X]. apply existsb_exists in X as (x & Ix & X).
      apply andb_true_iff in X as [Ex Hx]. apply str_eqb_eq in Ex. apply negb_true_iff in Hx.
      destruct (omap_in _ _ _ Ml Im) as (e & Ie & He). destruct (omap_in _ _ _ Ml Ix) as (e' & Ie' & He').
      destruct (Ol e e' Ie Ie') as [C|[C1 C2]].
      + now rewrite (code_keys c e m He).
      + rewrite (proj1 (entry_keys _ _ He)), (proj1 (entry_keys _ _ He')). now rewrite Ex.
      + rewrite (code_keys c e' x He') in C. congruence.
      + rewrite db_of_region, db_of_by_code. pose proof (omap_filter (of_code c) (has_code c) (code_keys c) l ms Ml) as Z. rewrite C1 in Z.
        cbn [omap_list] in Z. rewrite He in Z. cbn [obind] in Z. inversion Z as [Z']. unfold code_order. cbn [filter].
        rewrite (proj1 (entry_keys _ _ He)) in C2. inversion C2 as [C3]. destruct (is_main m); cbn; now rewrite C3.
    - right. intros m x Im Ix Hm Ex. destruct (has_code c x) eqn:Hx; [reflexivity|exfalso].
      assert (Y : existsb (fun m => has_code c m && existsb (fun x => str_eqb (md_id x) (md_id m) && negb (has_code c x)) ms) ms = true); [|congruence].
      apply existsb_exists. exists m. split; [exact Im|]. rewrite Hm. cbn [andb]. apply existsb_exists. exists x. split; [exact Ix|].
      rewrite Ex, str_eqb_refl, Hx. reflexivity. }
  destruct (K es mds eq_refl O M eq_refl) as [Z|K1]; [now left|].
  destruct (K es' mds' (eq_sym F) O' M' (eq_sym E)) as [Z|K2]; [left; now rewrite db_of_region, B, <- db_of_region|]. right.
  intros rs r Hr I. rewrite db_of_region, db_of_by_code in Hr.
  assert (Hr' : rs = map md_id (code_order (filter (has_code c) mds))).
  { destruct (code_order (filter (has_code c) mds)) as [|m0 l0]; [discriminate|]. unfold some_if_any in Hr. cbn [option_map] in Hr. congruence. }
  rewrite Hr' in I. apply in_map_iff in I as (m & Er & I). apply (proj1 (code_order_in _ _)) in I.
  rewrite !db_of_by_id.
  rewrite (find_filter _ (has_id r) (has_code c) (rev mds)), (find_filter _ (has_id r) (has_code c) (rev mds')).
  - now rewrite !filter_rev, E.
  - intros x Ix Hx. apply in_rev in Ix. unfold has_id in Hx. apply str_eqb_eq in Hx. rewrite E in I. apply filter_In in I as [I1 I2].
    apply (K2 m x I1 Ix I2). congruence.
  - intros x Ix Hx. apply in_rev in Ix. unfold has_id in Hx. apply str_eqb_eq in Hx. apply filter_In in I as [I1 I2].
    apply (K1 m x I1 Ix I2). congruence.
Qed.
Lemma local_source : forall c db db' v, same_lookups c db db' -> source_for db c v = source_for db' c v /\
  forall o, source_for db c v = Ok o -> source_meta db o = source_meta db' o.
Proof.
  intros c db db' v (B & R & I). unfold source_for. rewrite <- R.
  assert (L : forall rs, (forall r, In r rs -> by_id db r = by_id db' r) -> source_loop db v rs = source_loop db' v rs /\
    forall o, source_loop db v rs = Ok o -> source_meta db o = source_meta db' o).
  { induction rs as [|r rs IH]; intros K; [split; [reflexivity|intros o H; now inversion H]|]. cbn [source_loop].
    rewrite <- (K r (or_introl eq_refl)). destruct (by_id db r) as [m|]; cbn [unwrap obind]; [|split; [reflexivity|discriminate]].
    destruct (match md_leading_digits m with Some _ => _ | None => _ end); [|apply IH; intros x Ix; apply K; now right].
    destruct (id_of_name r) as [i|] eqn:Ei; cbn [unwrap obind]; [|split; [reflexivity|discriminate]].
    split; [reflexivity|]. intros o H. inversion H. cbn [source_meta]. apply id_of_name_inv in Ei. rewrite Ei. apply K. now left. }
  destruct (region db c) as [rs|] eqn:Er; [|split; [reflexivity|intros o H; now inversion H]].
  assert (G : rs = [lit "001"] \/ forall r, In r rs -> by_id db r = by_id db' r).
  { destruct I as [I|I]; [left; congruence|right; intros r; now apply I]. }
  destruct rs as [|r [|r' rs]].
  - apply L. intros r [].
  - destruct (str_eqb r (lit "001")) eqn:E1.
    + split; [reflexivity|]. intros o H. inversion H. cbn [source_meta]. now rewrite B.
    + destruct G as [G|G]; [inversion G; subst r; discriminate E1|]. destruct (id_of_name r) as [i|] eqn:Ei; [|split; [reflexivity|intros o H; now inversion H]].
      split; [reflexivity|]. intros o H. inversion H. cbn [source_meta]. apply id_of_name_inv in Ei. rewrite Ei. apply G. now left.
  - destruct G as [G|G]; [discriminate|]. now apply L.
Qed.

(** ** The theorems *)
(** Numbers of the code: the same texts in every mode and with every format, the same validity, type and country. *)
Theorem C62_numbers : forall es es' db db' p md fo, db_from es = Ok db -> db_from es' = Ok db' -> same_at (code_value (ph_code p)) es es' ->
  render_with db md fo p = render_with db' md fo p /\ is_valid_with db p = is_valid_with db' p /\
  number_type_with db p = number_type_with db' p /\ country_id_with db p = country_id_with db' p.
Proof.
  intros es es' db db' p md fo H H' S. pose proof (same_at_lookups _ es es' db db' S H H') as L.
  pose proof (local_source _ db db' (dec (nn_value (ph_national p))) L) as [E1 M1].
  pose proof (local_source _ db db' (nn_show (ph_national p)) L) as [E2 M2].
  assert (P : ph_metadata db p = ph_metadata db' p).
  { unfold ph_metadata. rewrite <- E1. destruct (source_for db _ _) as [o|e|]; cbn [obind]; try reflexivity. now rewrite (M1 o eq_refl). }
  split; [|split; [|split]].
  - unfold render_with, fmt_display. destruct L as (B & _).
    destruct fo; cbn [fm_with fm_set_mode fmt_format_with fm_database fm_number fm_mode fm_format]; now rewrite B.
  - unfold is_valid_with. cbv zeta. rewrite <- E2. destruct (source_for db _ (nn_show (ph_national p))) as [o|e|]; cbn [obind]; try reflexivity. now rewrite (M2 o eq_refl).
  - unfold number_type_with. now rewrite P.
  - unfold country_id_with. now rewrite P.
Qed.
Print Assumptions C62_numbers.

(** a listed code that is a shorter beginning of another *)
Definition shorter (k c : N) : Prop := exists x, x <> [] /\ dec c = dec k ++ x.
Definition no_shorter (c : N) (es : list lmetadata) : Prop := forall e k, In e es -> lm_country_code e = Some k -> ~ shorter k c.
Definition same_reference (country : option id) (es es' : list lmetadata) : Prop :=
  match country with Some i => filter (of_id (id_name i)) es = filter (of_id (id_name i)) es' | None => True end.
Lemma listed_code : forall es db k, db_from es = Ok db -> is_some (by_code db k) = true -> exists e, In e es /\ lm_country_code e = Some k.
Proof.
  intros es db k H L. apply db_from_ok in H as (mds & M & ->). rewrite db_of_by_code in L.
  destruct (code_order (filter (has_code k) mds)) as [|m l] eqn:E; [discriminate|].
  assert (I : In m (code_order (filter (has_code k) mds))) by (rewrite E; now left). apply (proj1 (code_order_in _ _)) in I.
  apply filter_In in I as [I Hc]. destruct (omap_in _ _ _ M I) as (e & Ie & He). exists e. split; [exact Ie|].
  apply entry_keys in He as [_ He]. rewrite He. unfold has_code in Hc. apply N.eqb_eq in Hc. now rewrite Hc.
Qed.
Lemma same_by_id : forall es es' db db' k, db_from es = Ok db -> db_from es' = Ok db' -> filter (of_id k) es = filter (of_id k) es' ->
  by_id db k = by_id db' k.
Proof.
  intros es es' db db' k H H' F. apply db_from_ok in H as (mds & M & ->). apply db_from_ok in H' as (mds' & M' & ->).
  pose proof (omap_filter (of_id k) (has_id k) (id_keys k) es mds M) as Q.
  pose proof (omap_filter (of_id k) (has_id k) (id_keys k) es' mds' M') as Q'. rewrite <- F, Q in Q'. inversion Q' as [E].
  rewrite !db_of_by_id, (find_filter _ _ (has_id k) (rev mds)), (find_filter _ _ (has_id k) (rev mds')) by auto. now rewrite !filter_rev, E.
Qed.
Lemma shorter_first : forall d i j, digits d = true -> starts_with d [ch_0] = false -> 1 <= j -> j < i -> i <= length d ->
  shorter (digits_val (firstn j d)) (digits_val (firstn i d)).
Proof.
  intros d i j D Z J L I. destruct d as [|c d]; [cbn in I; lia|]. assert (N : c <> 48%N) by (intros ->; pose proof (starts_with_app [ch_0] d) as W; cbn [app] in W; unfold ch_0 in *; congruence).
  destruct j as [|j]; [lia|]. destruct i as [|i]; [lia|]. cbn [firstn] in *. cbn [length] in I.
  assert (Dd : forall n, digits (c :: firstn n d) = true).
  { intros n. cbn [digits forallb] in *. apply andb_true_iff in D as [D1 D2]. unfold digits. cbn [forallb]. rewrite D1. cbn [andb]. now apply digits_firstn. }
  exists (firstn (i - j) (skipn j d)). split.
  - intros E. apply (f_equal (@length _)) in E. rewrite firstn_length, skipn_length in E. cbn in E. lia.
  - rewrite !dec_digits_val by auto. cbn [app]. f_equal. rewrite <- (firstn_skipn j d) at 1. rewrite firstn_app.
    rewrite firstn_firstn, firstn_length. replace (Nat.min i j) with j by lia. replace (i - Nat.min j (length d)) with (i - j) by lia. reflexivity.
Qed.
Lemma local_code : forall es es' db db' country n n1 c, db_from es = Ok db -> db_from es' = Ok db' ->
  same_at c es es' -> same_reference country es es' -> no_shorter c es' ->
  country_code db country n = Ok n1 -> prefix_value n1 = Ok c -> country_code db' country n = Ok n1.
Proof.
  intros es es' db db' country n n1 c H H' S R N K V. pose proof (same_at_lookups c es es' db db' S H H') as (B & _).
  assert (Bi : forall i, country = Some i -> by_id db (id_name i) = by_id db' (id_name i)).
  { intros i ->. exact (same_by_id es es' db db' _ H H' R). }
  unfold country_code in *. cbv zeta in *.
  assert (E : match country with Some c => match by_id db (id_name c) with Some m => md_international_prefix m | None => None end | None => None end
            = match country with Some c => match by_id db' (id_name c) with Some m => md_international_prefix m | None => None end | None => None end)
    by (destruct country as [i|]; [now rewrite (Bi i eq_refl)|reflexivity]).
  rewrite <- E. clear E. set (idd := match match country with Some c0 => _ | None => _ end with Some r => _ | None => _ end) in *. clearbody idd.
  destruct (international_prefix_ok perr idd n) as (n0 & E0 & Nm & _). rewrite E0 in K |- *. cbn [obind] in K |- *.
  assert (G : (if blen (pn_national n0) <=? MIN_LENGTH_FOR_NSN then Err TooShortNsn else
        match pn_prefix n0 with
        | Some p => let* prefix := ok_or (parse_u16 p) MalformedInteger in match by_code db prefix with None => Err InvalidCountryCode | Some _ => Ok n0 end
        | None => if starts_with (pn_national n0) [ch_0] then Err InvalidCountryCode else find_code db n0 (seq 1 MAX_LENGTH_FOR_COUNTRY_CODE)
        end) = Ok n1 ->
      (if blen (pn_national n0) <=? MIN_LENGTH_FOR_NSN then Err TooShortNsn else
        match pn_prefix n0 with
        | Some p => let* prefix := ok_or (parse_u16 p) MalformedInteger in match by_code db' prefix with None => Err InvalidCountryCode | Some _ => Ok n0 end
        | None => if starts_with (pn_national n0) [ch_0] then Err InvalidCountryCode else find_code db' n0 (seq 1 MAX_LENGTH_FOR_COUNTRY_CODE)
        end) = @Ok perr _ n1).
  { destruct (Nat.leb_spec (blen (pn_national n0)) MIN_LENGTH_FOR_NSN) as [Lb|Lb]; [discriminate|]. destruct (pn_prefix n0) as [p|] eqn:P.
    - destruct (parse_u16 p) as [v|] eqn:U; cbn [ok_or obind]; [|discriminate]. intros Q.
      destruct (by_code db v) as [l|] eqn:Bv; [|discriminate]. inversion Q; subst n1. unfold prefix_value in V. rewrite P, U in V. cbn in V. inversion V; subst v.
      now rewrite <- B, Bv.
    - destruct (starts_with (pn_national n0) [ch_0]) eqn:Z; [discriminate|]. pose proof (norm_nat _ Nm) as D.
      rewrite digits_blen in Lb by exact D. unfold MIN_LENGTH_FOR_NSN in Lb.
      rewrite !find_code_spec by (try exact Nm; lia). destruct (code_len db (pn_national n0)) as [k|] eqn:Ck; [|discriminate]. intros Q. inversion Q; subst n1.
      set (d := pn_national n0) in *. unfold code_len in Ck.
      assert (Hc : digits_val (firstn k d) = c /\ 1 <= k <= 3 /\ is_some (by_code db (digits_val (firstn k d))) = true).
      { apply find_some in Ck as [I T]. split; [|split; [cbn in I; intuition lia|exact T]].
        unfold prefix_value in V. cbn [pn_prefix set_prefix set_national] in V. destruct (parse_u16 (dec (digits_val (firstn k d)))) as [v|] eqn:U; cbn in V; [|discriminate].
        apply ParseInv.parse_u16_dec_inv in U. congruence. }
      destruct Hc as (Hc & Hk & T).
      assert (T' : is_some (by_code db' (digits_val (firstn k d))) = true) by (rewrite Hc in *; now rewrite <- B).
      assert (F : forall j, 1 <= j -> j < k -> is_some (by_code db' (digits_val (firstn j d))) = false).
      { intros j J1 J2. destruct (is_some (by_code db' (digits_val (firstn j d)))) eqn:X; [exfalso|reflexivity].
        destruct (listed_code es' db' _ H' X) as (e & Ie & Ee). apply (N e _ Ie Ee). rewrite <- Hc. apply shorter_first; auto; lia. }
      assert (Ck' : code_len db' d = Some k).
      { unfold code_len. cbn [find]. clear - T' F Hk. assert (Y : k = 1 \/ k = 2 \/ k = 3) by lia.
        destruct Y as [->|[->| ->]]; [now rewrite T'|rewrite (F 1) by lia; now rewrite T'|rewrite (F 1), (F 2) by lia; now rewrite T']. }
      now rewrite Ck'. }
  destruct (pn_country n0); try (exact (G K)). destruct country as [i|]; [|discriminate]. rewrite <- (Bi i eq_refl). exact K.
Qed.
Theorem C62_parse : forall es es' db db' country s p, db_from es = Ok db -> db_from es' = Ok db' ->
  same_at (code_value (ph_code p)) es es' -> same_reference country es es' -> no_shorter (code_value (ph_code p)) es' ->
  parse_with db country s = Ok p -> parse_with db' country s = Ok p.
Proof.
  intros es es' db db' country s p H H' S R N K. unfold parse_with in *. destruct (p_phone_number s) as [n|e|]; cbn [obind] in *; try discriminate.
  destruct (negb _); [discriminate|]. apply obind_ok in K as (n1 & K1 & K). apply obind_ok in K as (o & K2 & K). apply obind_ok in K as (n2 & K3 & K).
  assert (V : prefix_value n1 = Ok (code_value (ph_code p))).
  { unfold finish in K. destruct (_ <? _); [discriminate|]. destruct (_ <? _); [discriminate|]. apply obind_ok in K as (c & Kc & K).
    apply obind_ok in K as (v & Kv & K). inversion K. cbn [ph_code code_value]. rewrite <- Kc.
    assert (P : pn_prefix n2 = pn_prefix n1); [|unfold prefix_value; now rewrite P].
    destruct o as [m|]; cbn [strip_national] in K3; [|now inversion K3]. apply obind_ok in K3 as (a & A & K3). apply obind_ok in K3 as (b & Bq & K3).
    assert (Pa : pn_prefix a = pn_prefix n1).
    { unfold national_number in A. cbv zeta in A.
      repeat match type of A with
             | match ?x with _ => _ end = _ => destruct x
             | (if ?x then _ else _) = _ => destruct x
             | obind ?x _ = _ => apply obind_ok in A as (? & _ & A)
             | Ok _ = Ok _ => inversion A; reflexivity
             end. }
    assert (Pb : pn_prefix b = pn_prefix a).
    { destruct (md_national_prefix m); [|now inversion Bq]. destruct (starts_with _ _); [|now inversion Bq].
      apply obind_ok in Bq as (? & _ & Bq). now inversion Bq. }
    destruct (v_length m (pn_national b) TUnknown); inversion K3; subst; congruence. }
  rewrite (local_code es es' db db' country n n1 _ H H' S R N K1 V). cbn [obind].
  assert (Q : select_meta db' country n1 = Ok o).
  { pose proof (same_at_lookups _ es es' db db' S H H') as L. unfold select_meta in *.
    assert (G : (let* code := prefix_value n1 in let* s0 := source_for db code (trim_start_char ch_0 (pn_national n1)) in Ok (source_meta db s0)) = Ok o ->
                (let* code := prefix_value n1 in let* s0 := source_for db' code (trim_start_char ch_0 (pn_national n1)) in Ok (source_meta db' s0)) = Ok o).
    { rewrite V. cbn [obind]. destruct (local_source _ db db' (trim_start_char ch_0 (pn_national n1)) L) as [E M]. rewrite <- E.
      intros X. apply obind_ok in X as (so & Xs & X). rewrite Xs. cbn [obind]. now rewrite <- (M so Xs). }
    destruct country as [i|]; [|exact (G K2)]. destruct (pn_country n1); try exact (G K2).
    now rewrite <- (same_by_id es es' db db' _ H H' R). }
  rewrite Q. cbn [obind]. rewrite K3. exact K.
Qed.
Print Assumptions C62_parse.

(** ** The built-in metadata, trimmed
    A metadata file with part of the territories gives the same results for the codes it has in full. *)
Definition own_names_b (es : list lmetadata) : bool :=
  forallb (fun e => match lm_id e, lm_country_code e with
    | Some i, Some c => if str_eqb i (lit "001") then (match filter (of_code c) es with [_] => true | _ => false end)
                        else forallb (fun e' => if of_id i e' then of_code c e' else true) es
    | _, _ => false end) es.
Lemma own_names_sound : forall es, own_names_b es = true -> forall c, own_names c es.
Proof.
  intros es H c e e' I I' C E. unfold own_names_b in H. rewrite forallb_forall in H. pose proof (H e I) as K.
  unfold of_code in C. destruct (lm_country_code e) as [k|] eqn:Ek; [|discriminate]. apply N.eqb_eq in C. subst k.
  destruct (lm_id e) as [i|] eqn:Ei; [|discriminate]. destruct (str_eqb i (lit "001")) eqn:Z.
  - right. apply str_eqb_eq in Z. subst i. split; [|reflexivity].
    assert (J : In e (filter (of_code c) es)) by (apply filter_In; split; [exact I|]; unfold of_code; rewrite Ek; apply N.eqb_refl).
    destruct (filter (of_code c) es) as [|x [|y l]]; try discriminate. destruct J as [->|[]]. reflexivity.
  - left. rewrite forallb_forall in K. specialize (K e' I'). unfold of_id in K. rewrite E, str_eqb_refl in K. exact K.
Qed.
Definition codes_of (es : list lmetadata) : list str := flat_map (fun e => match lm_country_code e with Some k => [dec k] | None => [] end) es.
Definition prefix_free_b (l : list str) : bool := forallb (fun a => forallb (fun b => if starts_with b a then str_eqb a b else true) l) l.
Lemma prefix_free_sound : forall es, prefix_free_b (codes_of es) = true -> forall c, (exists e, In e es /\ of_code c e = true) -> no_shorter c es.
Proof.
  intros es H c (e & I & C) e' k I' K (x & X & E). unfold prefix_free_b in H. rewrite forallb_forall in H.
  assert (J : forall y z, In y es -> lm_country_code y = Some z -> In (dec z) (codes_of es)).
  { intros y z Iy Ey. apply in_flat_map. exists y. split; [exact Iy|]. rewrite Ey. now left. }
  unfold of_code in C. destruct (lm_country_code e) as [k'|] eqn:Ek; [|discriminate]. apply N.eqb_eq in C. subst k'.
  specialize (H _ (J e' k I' K)). rewrite forallb_forall in H. specialize (H _ (J e c I Ek)). rewrite E, starts_with_app in H.
  apply str_eqb_eq in H. apply X. rewrite <- (app_nil_r (dec k)) in H at 1. now apply app_inv_head in H.
Qed.
Lemma default_own : own_names_b default_entries = true.
Proof. vm_cast_no_check (eq_refl true). Qed.
Lemma default_prefix_free : prefix_free_b (codes_of default_entries) = true.
Proof. vm_cast_no_check (eq_refl true). Qed.
Lemma filter_builds : forall keep es mds, omap_list db_metadata es = Ok mds -> exists mds', omap_list db_metadata (filter keep es) = Ok mds'.
Proof.
  intros keep. induction es as [|e es IH]; intros mds H; cbn [omap_list filter] in *; [now exists []|].
  apply obind_ok in H as (m & Hm & H). apply obind_ok in H as (ms & Hms & H). destruct (IH ms Hms) as (ms' & E).
  destruct (keep e); [|now exists ms']. exists (m :: ms'). cbn [omap_list]. rewrite Hm. cbn [obind]. now rewrite E.
Qed.
Lemma filter_keep : forall A (f keep : A -> bool) l, (forall x, In x l -> f x = true -> keep x = true) -> filter f (filter keep l) = filter f l.
Proof.
  intros A f keep l K. induction l as [|x l IH]; [reflexivity|]. cbn [filter]. specialize (IH (fun y I => K y (or_intror I))).
  destruct (f x) eqn:E.
  - rewrite (K x (or_introl eq_refl) E). cbn [filter]. now rewrite E, IH.
  - destruct (keep x); [cbn [filter]; now rewrite E|exact IH].
Qed.
Lemma trimmed_any : forall es db keep, db_from es = Ok db -> own_names_b es = true -> prefix_free_b (codes_of es) = true ->
  exists db', db_from (filter keep es) = Ok db' /\
  forall c, (exists e, In e es /\ of_code c e = true) -> (forall e, In e es -> of_code c e = true -> keep e = true) ->
    (forall country s p, code_value (ph_code p) = c -> (forall i e, country = Some i -> In e es -> of_id (id_name i) e = true -> keep e = true) ->
       (parse_with db country s = Ok p <-> parse_with db' country s = Ok p)) /\
    forall p md fo, code_value (ph_code p) = c -> render_with db md fo p = render_with db' md fo p /\ is_valid_with db p = is_valid_with db' p /\
       number_type_with db p = number_type_with db' p /\ country_id_with db p = country_id_with db' p.
Proof.
  intros es db keep H O P. pose proof (own_names_sound es O) as Ow. pose proof (prefix_free_sound es P) as Pf.
  destruct (proj1 (db_from_ok es db) H) as (mds & M & _). destruct (filter_builds keep es mds M) as (mds' & M').
  exists (db_of mds'). assert (H' : db_from (filter keep es) = Ok (db_of mds')) by (apply db_from_ok; now exists mds').
  split; [exact H'|]. intros c L K.
  assert (F : filter (of_code c) (filter keep es) = filter (of_code c) es) by now apply filter_keep.
  assert (Ow' : own_names c (filter keep es)).
  { intros e e' I I' C E. apply filter_In in I as [I _]. apply filter_In in I' as [I' _]. rewrite F. exact (Ow c e e' I I' C E). }
  assert (Pf' : no_shorter c (filter keep es)).
  { intros e k I E. apply filter_In in I as [I _]. exact (Pf c L e k I E). }
  assert (S : same_at c es (filter keep es)) by (split; [now symmetry|split; [apply Ow|exact Ow']]).
  assert (S' : same_at c (filter keep es) es) by (split; [exact F|split; [exact Ow'|apply Ow]]).
  split.
  - intros country s p E R.
    assert (Fr : same_reference country (filter keep es) es).
    { destruct country as [i|]; [|exact I]. apply filter_keep. intros x Ix Hx. exact (R i x eq_refl Ix Hx). }
    assert (Fr' : same_reference country es (filter keep es)) by (destruct country as [i|]; [symmetry; exact Fr|exact I]).
    rewrite <- E in *. split; intros X.
    + exact (C62_parse es (filter keep es) db (db_of mds') country s p H H' S Fr' Pf' X).
    + exact (C62_parse (filter keep es) es (db_of mds') db country s p H' H S' Fr (Pf _ L) X).
  - intros p md fo E. rewrite <- E in *. exact (C62_numbers es (filter keep es) db (db_of mds') p md fo H H' S).
Qed.
Theorem C62_trimmed : forall keep, exists db', db_from (filter keep default_entries) = Ok db' /\
  forall c, (exists e, In e default_entries /\ of_code c e = true) -> (forall e, In e default_entries -> of_code c e = true -> keep e = true) ->
    (forall country s p, code_value (ph_code p) = c ->
       (forall i e, country = Some i -> In e default_entries -> of_id (id_name i) e = true -> keep e = true) ->
       (parse_with default_db country s = Ok p <-> parse_with db' country s = Ok p)) /\
    forall p md fo, code_value (ph_code p) = c -> render_with default_db md fo p = render_with db' md fo p /\ is_valid_with default_db p = is_valid_with db' p /\
       number_type_with default_db p = number_type_with db' p /\ country_id_with default_db p = country_id_with db' p.
Proof. intros keep. exact (trimmed_any default_entries default_db keep default_db_built default_own default_prefix_free). Qed.
Print Assumptions C62_trimmed.

(** Belgium and France alone. *)
Definition be_fr (e : lmetadata) : bool := of_code 32 e || of_code 33 e.
Example C62_ex : exists db', db_from (filter be_fr default_entries) = Ok db' /\ length (filter be_fr default_entries) = 2 /\
  (exists p, parse_with db' (Some ID_BE) (lit "0033 1 42 68 53 00") = Ok p /\ code_value (ph_code p) = 33%N) /\
  parse_with db' None (lit "+44 20 7946 0018") = Err InvalidCountryCode.
Proof.
  eexists. split; [vm_compute; reflexivity|]. split; [vm_compute; reflexivity|]. split; [|vm_compute; reflexivity].
  eexists. split; vm_compute; reflexivity.
Qed.
(** Why no shorter code may be listed: with an entry for 4, a British number belongs to it. *)
Definition with_four : str := lit "<phoneNumberMetadata><territories><territory id='XA' countryCode='44'><generalDesc><nationalNumberPattern>\d{10}</nationalNumberPattern></generalDesc></territory><territory id='XB' countryCode='4'><generalDesc><nationalNumberPattern>\d{5,11}</nationalNumberPattern></generalDesc></territory></territories></phoneNumberMetadata>".
Definition code_read (keep : lmetadata -> bool) : option N :=
  match load_text with_four with
  | Ok es => match db_from (filter keep es) with
             | Ok db => match parse_with db None (lit "+44 2079460018") with Ok p => Some (code_value (ph_code p)) | _ => None end
             | _ => None end
  | _ => None end.
Example C62_shorter_ex : code_read (of_code 44) = Some 44%N /\ code_read (fun _ => true) = Some 4%N.
Proof. split; vm_compute; reflexivity. Qed.

(** ** C24: equal numbers *)
(** Equal numbers behave alike: with every database the same texts in every mode and with every format,
    the same validity, type and country - however their codes were found. *)
Theorem C24_alike : forall a b db md fo, phone_eqb a b = true ->
  render_with db md fo a = render_with db md fo b /\ is_valid_with db a = is_valid_with db b /\
  number_type_with db a = number_type_with db b /\ country_id_with db a = country_id_with db b.
Proof.
  intros [[c1 s1] [n1] e1 k1] [[c2 s2] [n2] e2 k2] db md fo H. unfold phone_eqb, code_eqb in H.
  cbn [ph_code ph_national ph_extension ph_carrier code_value nn_raw] in H.
  rewrite !andb_true_iff, !N.eqb_eq, !option_eqb_spec in H. destruct H as [[[-> ->] ->] ->].
  split; [|split; [reflexivity|split; reflexivity]]. destruct fo; destruct md; reflexivity.
Qed.
Print Assumptions C24_alike.
Example C24_alike_ex : exists a b, parse (Some ID_BE) (lit "02 552 41 14") = Ok a /\ parse None (lit "+32 2 552 41 14") = Ok b /\
  code_source (ph_code a) <> code_source (ph_code b) /\ phone_eqb a b = true.
Proof. eexists; eexists. split; [vm_compute; reflexivity|]. split; [vm_compute; reflexivity|]. split; [discriminate|vm_compute; reflexivity]. Qed.
