(** * C08, C09, C11: numbers written with a '+' *)
From Verif Require Import Base Unicode Regex RegexSyntax Consts CountryId Types NationalNumber
  Metadata Database Validator Valid Number Rfc3966 Helper Natural PhoneNumber Parser Formatter Loader
  DefaultDb DefaultDbOk Api.
From Verif Require Import StrFacts NationalFacts RegexLang RegexFacts RegexCaps RegexDeriv DatabaseFacts ParserFacts
  ParseInv TextFacts ViableFacts PhoneText E164Facts FormatFacts PropsPanic.

(** ** Vocabulary *)
(** a string of ASCII digits *)
Definition all_digits (s : str) : Prop := forall c, In c s -> (48 <= c <= 57)%N.
(** its value in base ten *)
Definition value_of (s : str) : N := fold_left (fun v c => v * 10 + (c - 48))%N s 0%N.

Lemma all_digits_iff : forall s, all_digits s <-> digits s = true.
Proof.
  intros s. unfold all_digits, digits. rewrite forallb_forall. split; intros H c I; specialize (H c I); now apply is_digit_spec.
Qed.

(** the dialling-prefix pattern that goes with a reference country, or "00" *)
Definition dial_prefix (db : database) (country : option id) (r : regex) : Prop :=
  match country with
  | Some c => exists m, by_id db (id_name c) = Some m /\ md_international_prefix m = Some r
  | None => r = DEFAULT_IDD
  end.
Definition not_dialled (db : database) (country : option id) (d : str) : Prop :=
  forall r, dial_prefix db country r -> ~ matches_prefix (re_ast r) d.

Lemma not_dialled_free : forall db country d, not_dialled db country d -> idd_free (idd_of db country) d.
Proof.
  intros db [c|] d H; unfold idd_of.
  - destruct (by_id db (id_name c)) as [m|] eqn:E; [|easy].
    destruct (md_international_prefix m) as [r|] eqn:Er; [|easy]. apply H. exists m. easy.
  - apply H. easy.
Qed.

(** a national-prefix rule of the entry applies to the digits *)
Definition rule_applies (m : metadata) (e : str) : Prop :=
  (exists r, md_national_prefix_for_parsing m = Some r /\ matches_prefix (re_ast r) e) \/
  (exists p rest, md_national_prefix m = Some p /\ e = p ++ rest).

Lemma no_rule_silent : forall m e, ~ rule_applies m e -> rules_silent m e.
Proof.
  intros m e H. split.
  - intros p mr Hp Hf Hpre. exfalso. apply H. left. exists p. split; [easy|].
    apply re_find_some in Hf as (E & L & _). rewrite Hpre in *. exists (mr_text mr), (mr_post mr). easy.
  - intros np Hp. destruct (starts_with e np) eqn:E; [|easy]. exfalso. apply H. right.
    apply starts_with_spec in E as (t & ->). eauto.
Qed.

(** ** C08: E.164 text round-trips *)

Lemma parse_e164_finish : forall db country c e src,
  digits e = true -> 3 <= length (dec c ++ e) ->
  c <> 0%N -> (c <= 999)%N -> by_code db c <> None ->
  (forall c' rest, by_code db c' <> None -> (c' <= 999)%N -> dec c = dec c' ++ rest -> rest = []) ->
  idd_free (idd_of db country) (dec c ++ e) ->
  source_for db c (trim_start_char ch_0 e) = Ok src ->
  (forall m, source_meta db src = Some m -> rules_silent m e) ->
  parse_with db country (ch_plus :: dec c ++ e) = finish (mk_number SrcPlus e (Some (dec c)) None None).
Proof.
  intros db country c e src He Hlen Hc Hc9 Hk Huniq Hidd Hsrc Hrules.
  destruct (dec_head _ Hc) as (x & t & Edec & Hx).
  assert (Dd : digits (dec c ++ e) = true) by now rewrite digits_app, digits_dec.
  rewrite parse_plus_digits by easy.
  destruct (Nat.ltb_spec (length (dec c ++ e)) 3); [lia|].
  assert (Hs0 : starts_with (dec c ++ e) [ch_0] = false).
  { rewrite Edec. cbn. destruct (N.eqb_spec x ch_0); [now elim Hx|easy]. }
  rewrite Hs0.
  pose proof (code_len_spec db x (t ++ e)) as S. change (x :: t ++ e) with ((x :: t) ++ e) in S. rewrite <- Edec in S.
  specialize (S Dd Hx). destruct (code_len db (dec c ++ e)) as [k|].
  2: { exfalso. apply (S c e Hk Hc9). reflexivity. }
  destruct S as (Hk3 & code & Kc & Hle & Ecode & Es & Hmin).
  assert (Hcc : code = c).
  { pose proof (Hmin c e Hk Hc9 eq_refl) as Hm.
    assert (E : dec c = dec code ++ skipn (length (dec code)) (dec c)).
    { assert (F : firstn (length (dec code)) (dec c ++ e) = dec code).
      { rewrite Es, firstn_app, Nat.sub_diag, firstn_all, firstn_O. apply app_nil_r. }
      rewrite firstn_app in F. replace (length (dec code) - length (dec c)) with 0 in F by lia.
      rewrite firstn_O, app_nil_r in F. rewrite <- F at 1. symmetry. apply firstn_skipn. }
    pose proof (Huniq code _ Kc Hle E) as R. rewrite R, app_nil_r in E. now apply dec_inj. }
  rewrite Hcc in *. clear Hcc. cbv zeta. rewrite <- Ecode.
  assert (Ee : skipn k (dec c ++ e) = e). { apply app_inv_head in Es. now rewrite <- Es. }
  rewrite Ee, Hsrc. cbn [obind]. rewrite strip_national_silent; [|exact Hrules|easy]. cbn [obind].
  reflexivity.
Qed.

Lemma parse_e164 : forall db country c e src,
  digits e = true -> 2 <= length e <= 17 -> (1 <= digits_val e < 2 ^ 56)%N ->
  c <> 0%N -> (c <= 999)%N -> by_code db c <> None ->
  (forall c' rest, by_code db c' <> None -> (c' <= 999)%N -> dec c = dec c' ++ rest -> rest = []) ->
  idd_free (idd_of db country) (dec c ++ e) ->
  source_for db c (trim_start_char ch_0 e) = Ok src ->
  (forall m, source_meta db src = Some m -> rules_silent m e) ->
  exists nat_, parse_with db country (ch_plus :: dec c ++ e) = Ok (mk_phone (mk_code c SrcPlus) nat_ None None)
    /\ nn_show nat_ = e /\ nn_parse e = Ok nat_.
Proof.
  intros db country c e src He Hl Hv Hc Hc9 Hk Huniq Hidd Hsrc Hrules.
  destruct (dec_head _ Hc) as (x & t & Edec & Hx).
  rewrite (parse_e164_finish db country c e src); auto; [|rewrite app_length, Edec; cbn; lia].
  destruct (finish_digits SrcPlus e c He Hl) as (n & Hn & Hsh & Hp); [unfold u16_max; lia|easy|]. eauto.
Qed.

(** For every database and reference country: national digits to which no
    national-prefix rule of the selected region applies. *)
Theorem C08_any_database : forall db country c e src m0 l,
  all_digits e -> 2 <= length e <= 17 -> (1 <= value_of e < 2 ^ 56)%N ->
  (1 <= c <= 999)%N -> by_code db c = Some (m0 :: l) ->
  (forall c' rest, by_code db c' <> None -> (c' <= 999)%N -> dec c = dec c' ++ rest -> rest = []) ->
  not_dialled db country (dec c ++ e) ->
  source_for db c (trim_start_char ch_0 e) = Ok src ->
  (forall m, source_meta db src = Some m -> ~ rule_applies m e) ->
  exists p, parse_with db country (lit "+" ++ dec c ++ e) = Ok p
    /\ code_value (ph_code p) = c /\ code_source (ph_code p) = SrcPlus
    /\ nn_show (ph_national p) = e /\ ph_extension p = None /\ ph_carrier p = None
    /\ render db E164 p = Ok (lit "+" ++ dec c ++ e).
Proof.
  intros db country c e src m0 l He Hl Hv Hc Hk Huniq Hidd Hsrc Hrules.
  destruct (parse_e164 db country c e src) as (n & Hp & Hs & _); auto.
  - now apply all_digits_iff.
  - lia.
  - lia.
  - congruence.
  - now apply not_dialled_free.
  - intros m Hm. now apply no_rule_silent, Hrules.
  - eexists. split; [exact Hp|]. cbn [ph_code ph_national ph_extension ph_carrier code_value code_source].
    repeat split; auto. unfold render, fmt_display. cbn. rewrite Hk. cbn. now rewrite Hs.
Qed.
Print Assumptions C08_any_database.

(** *** The built-in metadata *)
Definition types_of (ds : descriptors) : list descriptor :=
  flat_map (fun o => match o with Some d => [d] | None => [] end)
  [ds_premium_rate ds; ds_toll_free ds; ds_shared_cost ds; ds_voip ds; ds_personal_number ds;
   ds_pager ds; ds_uan ds; ds_voicemail ds; ds_fixed_line ds; ds_mobile ds].

Lemma number_type_known : forall m v, number_type m v <> TUnknown ->
  exists d, In d (types_of (md_descriptors m)) /\ d_is_match d v = true.
Proof.
  intros m v H. unfold number_type in H. cbv zeta in H. destruct (negb _); [easy|].
  assert (G : forall o, In o [ds_premium_rate (md_descriptors m); ds_toll_free (md_descriptors m);
     ds_shared_cost (md_descriptors m); ds_voip (md_descriptors m); ds_personal_number (md_descriptors m);
     ds_pager (md_descriptors m); ds_uan (md_descriptors m); ds_voicemail (md_descriptors m);
     ds_fixed_line (md_descriptors m); ds_mobile (md_descriptors m)] ->
     od_is_match o v = true -> exists d, In d (types_of (md_descriptors m)) /\ d_is_match d v = true).
  { intros [d|] I Ho; [|discriminate]. exists d. split; [|exact Ho]. apply in_flat_map.
    exists (Some d). split; [exact I|now left]. }
  repeat match type of H with
  | (if od_is_match ?o v then _ else _) <> _ =>
      let E := fresh in destruct (od_is_match o v) eqn:E; [apply (G o); [cbn; auto 12|exact E]|]
  end. easy.
Qed.

Definition ascii_digits : list char := lit "0123456789".
Lemma digit_in : forall c, is_digit c = true -> In c ascii_digits.
Proof.
  intros c H. apply is_digit_spec in H.
  assert (E : (c = 48 \/ c = 49 \/ c = 50 \/ c = 51 \/ c = 52 \/ c = 53 \/ c = 54 \/ c = 55 \/ c = 56 \/ c = 57)%N) by lia.
  repeat (destruct E as [E|E]; [subst c; vm_compute; auto 20; fail|]). subst c. vm_compute; auto 20.
Qed.

Fixpoint lit_re (s : str) : re :=
  match s with [] => REps | c :: s => RCat (RCls (CRange c c)) (lit_re s) end.
Lemma lit_re_lang : forall s b a, lang (lit_re s) b s a.
Proof.
  induction s as [|c s IH]; intros b a; cbn; [constructor|].
  change (c :: s) with ([c] ++ s). constructor; [|apply IH]. constructor. cbn. rewrite in_range_single. apply N.eqb_refl.
Qed.

Definition never_empty (r : re) : bool := if nul true true r then false else negb (nul true false r).
Lemma never_empty_sound : forall r a, never_empty r = true -> ~ lang r [] [] a.
Proof.
  intros r a H L. apply (proj1 nul_sound) in L; [|easy]. unfold never_empty in H. cbn [at_nil] in L.
  destruct (nul true true r) eqn:E1; [discriminate|]. destruct (nul true false r) eqn:E2; [discriminate|].
  destruct (at_nil a); congruence.
Qed.

(** an empty match of the parsing rule captures nothing *)
Definition empty_check (m : metadata) : bool :=
  match md_national_prefix_for_parsing m with
  | Some r => if Nat.eqb (re_ngroups r) 0 then never_empty (re_ast r)
              else forallb (fun g => if Nat.eqb (fst g) (re_ngroups r) then never_empty (snd g) else true)
                           (grps (re_ast r))
  | None => true
  end.
Definition rule_res (m : metadata) : list re :=
  match md_national_prefix_for_parsing m with Some r => [re_ast r] | None => [] end
  ++ match md_national_prefix m with Some [] => [RStart; REps] | Some p => [lit_re p] | None => [] end.
(** [m]'s rules never apply to digits that match the descriptor [d] *)
Definition pair_check (d : descriptor) (m : metadata) : bool :=
  match d_possible_length d with
  | [] => false
  | l => forallb (fun rb => forallb (fun n => re_apart ascii_digits (N.to_nat n) (re_ast (d_national_number d)) rb) l)
                 (rule_res m)
  end.
Definition prefix_nonempty (m : metadata) : bool :=
  match md_national_prefix m with Some [] => false | _ => true end.

Lemma d_is_match_inv : forall d v, d_is_match d v = true -> d_possible_length d <> [] -> blen v < 1000 ->
  In (N.of_nat (blen v)) (d_possible_length d) /\ matches_prefix (re_ast (d_national_number d)) v.
Proof.
  intros d v H Hne Hl. unfold d_is_match in H. destruct (d_possible_length d) as [|n l]; [easy|].
  destruct (memN (as_u16 (blen v)) (n :: l)) eqn:E; [|discriminate]. cbn [negb] in H. split.
  - unfold as_u16 in E. rewrite N.mod_small in E by lia. revert E. generalize (n :: l) as q.
    induction q as [|y q IH]; cbn; [easy|]. destruct (N.eqb_spec (N.of_nat (blen v)) y); auto.
  - now apply found_at_start_spec.
Qed.

Lemma pair_check_silent : forall d m e, pair_check d m = true -> empty_check m = true -> prefix_nonempty m = true ->
  digits e = true -> length e < 1000 -> d_is_match d e = true -> rules_silent m e.
Proof.
  intros d m e H He Hnp Hd Hl Hm. unfold pair_check in H.
  destruct (d_possible_length d) as [|n0 l0] eqn:El; [discriminate|]. rewrite <- El in *.
  apply d_is_match_inv in Hm as [I Hpre]; [|congruence|now rewrite digits_blen].
  rewrite digits_blen in I by easy.
  assert (G : forall rb, In rb (rule_res m) -> ~ exists t a, e = t ++ a /\ t <> [] /\ lang rb [] t a).
  { intros rb Ib Hex. rewrite forallb_forall in H. apply H in Ib. rewrite forallb_forall in Ib. apply Ib in I.
    rewrite Nnat.Nat2N.id in I. eapply re_apart_sound; [|exact I|exact Hpre|exact Hex].
    intros c Ic. apply digit_in. unfold digits in Hd. rewrite forallb_forall in Hd. auto. }
  split.
  - intros p mr Hp Hf Hpr. pose proof Hf as Hf'. apply re_find_some in Hf' as (E & L & _). rewrite Hpr in *.
    assert (Ht : mr_text mr = []).
    { destruct (mr_text mr) as [|c t] eqn:Et; [easy|]. exfalso. apply (G (re_ast p)).
      - unfold rule_res. rewrite Hp. now left.
      - exists (c :: t), (mr_post mr). cbn [app] in E. easy. }
    left. split; [easy|]. unfold empty_check in He. rewrite Hp in He.
    destruct (Nat.eqb_spec (re_ngroups p) 0).
    + exfalso. rewrite Ht in L. eapply never_empty_sound; eauto.
    + destruct (cap_get mr (re_ngroups p)) as [g|] eqn:Eg; [|easy]. exfalso.
      destruct (re_ngroups p) as [|k] eqn:Ek; [easy|].
      destruct (re_find_cap _ _ _ _ _ Hf Eg) as (r' & x & y & Ig & Et & L'). rewrite Hpr in L'. cbn [app fst snd] in *.
      rewrite Ht in Et. symmetry in Et. apply app_eq_nil in Et as [-> Et]. apply app_eq_nil in Et as [Et ->].
      rewrite forallb_forall in He. apply He in Ig. cbn [fst snd] in Ig. rewrite Nat.eqb_refl in Ig.
      rewrite Et in L'. cbn in L'. eapply never_empty_sound; eauto.
  - intros np Hp. destruct (starts_with e np) eqn:E; [|easy]. exfalso.
    apply starts_with_spec in E as (t & E). unfold prefix_nonempty in Hnp. rewrite Hp in Hnp.
    destruct np as [|c np]; [discriminate|]. apply (G (lit_re (c :: np))).
    + unfold rule_res. rewrite Hp. apply in_app_iff. right. now left.
    + exists (c :: np), t. split; [easy|]. split; [easy|apply lit_re_lang].
Qed.

(** An entry whose rule is "an optional character, then optionally a group and two
    more characters", rewritten to "9" and the group: the digits lose a character. *)
Definition shape (r : re) : option (cls * re * re * re) :=
  match r with
  | RCat (RRep _ 0 (Some 1) (RCls z)) (RRep _ 0 (Some 1) (RCat (RCat (RGrp 1 g) a) b)) => Some (z, g, a, b)
  | _ => None
  end.
Lemma shape_inv : forall r z g a b, shape r = Some (z, g, a, b) ->
  exists g1 g2, r = RCat (RRep g1 0 (Some 1) (RCls z)) (RRep g2 0 (Some 1) (RCat (RCat (RGrp 1 g) a) b)).
Proof.
  intros r z g a b H. unfold shape in H.
  repeat match type of H with context [match ?x with _ => _ end] =>
    is_var x; destruct x; try discriminate end.
  inversion H; subst. eauto.
Qed.
Lemma upto1 : forall f g s s', In s' (upto f g false 1 s) -> s' = s \/ In s' (f s).
Proof.
  intros f g s s' H. cbn [upto] in H.
  assert (K : flat_map (fun s => [s]) (f s) = f s).
  { generalize (f s) as l. induction l as [|x l IH]; cbn; [easy|]. now rewrite IH. }
  destruct g.
  - rewrite K in H. apply in_app_iff in H as [H|[H|[]]]; auto.
  - rewrite K in H. destruct H as [H|H]; auto.
Qed.
Lemma opt_inv : forall g r s s', In s' (ms (RRep g 0 (Some 1) r) s) -> s' = s \/ In s' (ms r s).
Proof.
  intros g r s s' H. cbn [ms copies flat_map Nat.sub] in H. rewrite app_nil_r in H. eapply upto1; eauto.
Qed.
Lemma cap_lookup_app : forall i n l, has i n = false -> cap_lookup i (n ++ l) = cap_lookup i l.
Proof.
  induction n as [|[j c] n IH]; intros l H; [easy|]. cbn in H. apply orb_false_iff in H as [H1 H2].
  cbn [app cap_lookup]. rewrite H1. auto.
Qed.
Lemma shape_match : forall r z g a b e mr, shape (re_ast r) = Some (z, g, a, b) ->
  never 1 a = true -> never 1 b = true ->
  (forall c t, e = c :: t -> in_cls z c = false) -> re_find r e = Some mr -> mr_pre mr = [] ->
  (mr_text mr = [] /\ mr_caps mr = [])
  \/ exists c y, cap_get mr 1 = Some c /\ mr_text mr = cap_text c ++ y /\ minlen a + minlen b <= length y.
Proof.
  intros r z g a b e mr Hs Hna Hnb Hz Hf Hp. apply shape_inv in Hs as (g1 & g2 & Hs).
  pose proof (re_find_some _ _ _ Hf) as (E & _). pose proof (re_find_run _ _ _ Hf) as (st & Hst & Hr & Hc).
  rewrite Hs, Hp in Hst. cbn [app blen] in Hst. rewrite Hp in E. cbn [app] in E. rewrite <- E in Hst.
  cbn [ms] in Hst. fold ms in Hst.
  change (In st (flat_map (ms (RRep g2 0 (Some 1) (RCat (RCat (RGrp 1 g) a) b)))
            (ms (RRep g1 0 (Some 1) (RCls z)) (mk_mst 0 e [])))) in Hst.
  apply in_flat_map in Hst as (s1 & H1 & H2). apply opt_inv in H1.
  assert (E1 : s1 = mk_mst 0 e []).
  { destruct H1 as [H1|H1]; [exact H1|]. exfalso. cbn [ms] in H1. unfold step_cls in H1. cbn [m_rest] in H1.
    destruct e as [|x t]; [easy|]. now rewrite (Hz x t eq_refl) in H1. }
  subst s1. apply opt_inv in H2 as [H2|H2].
  - left. subst st. cbn [m_rest m_caps] in *. split; [|congruence]. rewrite <- Hr in E.
    destruct (mr_text mr) as [|x t]; [easy|]. exfalso. apply (f_equal (@length char)) in E. rewrite app_length in E. cbn in E. lia.
  - right. change (In st (flat_map (ms b) (ms (RCat (RGrp 1 g) a) (mk_mst 0 e [])))) in H2.
    apply in_flat_map in H2 as (s2 & H2 & H3).
    change (In s2 (flat_map (ms a) (ms (RGrp 1 g) (mk_mst 0 e [])))) in H2.
    apply in_flat_map in H2 as (s1 & H1' & H2). cbn [ms] in H1'. apply in_map_iff in H1' as (s0 & <- & H0).
    pose proof (ms_sound _ _ _ [] H0 eq_refl) as (t0 & (R0 & P0) & _). cbn [m_rest app] in R0, P0.
    set (s1 := close_grp 1 (mk_mst 0 e []) s0) in *.
    pose proof (ms_sound _ _ _ t0 H2 P0) as (t1 & (R1 & P1) & L1).
    pose proof (ms_sound _ _ _ _ H3 P1) as (t2 & (R2 & _) & L2).
    pose proof (never_sound 1 _ _ _ Hna H2) as (n1 & C1 & N1).
    pose proof (never_sound 1 _ _ _ Hnb H3) as (n2 & C2 & N2).
    exists (mk_cap 0 (m_pos s0) (consumed (mk_mst 0 e []) s0)), (t1 ++ t2).
    assert (Et : consumed (mk_mst 0 e []) s0 = t0).
    { unfold consumed. cbn [m_rest]. rewrite R0, app_length.
      replace (length t0 + length (m_rest s0) - length (m_rest s0)) with (length t0) by lia. rewrite firstn_app, Nat.sub_diag, firstn_all. cbn. now rewrite app_nil_r. }
    rewrite Et. cbn [cap_text]. split; [|split].
    + cbn [cap_get]. rewrite <- Hc, C2, C1. unfold s1, close_grp. cbn [m_caps]. rewrite Et.
      rewrite !cap_lookup_app by assumption. reflexivity.
    + cbn [s1 close_grp m_rest] in R1. rewrite Hr in R2. rewrite R1, R2 in R0. rewrite E in R0.
      rewrite !app_assoc in R0. apply app_inv_tail in R0. rewrite R0. now rewrite <- app_assoc.
    + pose proof (proj1 minlen_sound _ _ _ _ L1) as M1. pose proof (proj1 minlen_sound _ _ _ _ L2) as M2.
      rewrite app_length. clear - M1 M2. lia.
Qed.

Definition not_in (z : cls) : list char := filter (fun c => negb (in_cls z c)) ascii_digits.
Definition rewrite_check (d : descriptor) (m : metadata) : bool :=
  match md_national_prefix_for_parsing m, md_national_prefix_transform_rule m with
  | Some r, Some tr =>
      match shape (re_ast r) with
      | Some (z, g, a, b) =>
          if str_eqb tr (lit "9$1") then if Nat.eqb (re_ngroups r) 1 then
          if never 1 a then if never 1 b then
          if never_empty (re_ast (d_national_number d)) then
          if first_in ascii_digits (not_in z) (re_ast (d_national_number d)) then
          match md_national_prefix m with
          | Some [c] => if first_in ascii_digits (filter (fun x => negb (N.eqb x c)) ascii_digits) (re_ast (d_national_number d))
                        then match d_possible_length d with
                             | [] => false
                             | l => forallb (fun n => S (N.to_nat n)
                                 <? minlen a + minlen b + minlen (re_ast (d_national_number (ds_general (md_descriptors m))))) l
                             end
                        else false
          | _ => false
          end
          else false else false else false else false else false else false
      | None => false
      end
  | _, _ => false
  end.

Lemma rewrite_length : forall r e mr c, re_find r e = Some mr -> cap_get mr 1 = Some c ->
  length (re_replace r e (lit "9$1")) = length (mr_pre mr) + S (length (cap_text c)) + length (mr_post mr).
Proof.
  intros r e mr c H Hc. unfold re_replace. rewrite H. rewrite !app_length.
  assert (E : expand mr (lit "9$1") = 57%N :: cap_text c).
  { transitivity (57%N :: cap_ref_text mr [49%N] ++ []); [reflexivity|]. rewrite app_nil_r.
    assert (K : cap_ref_text mr [49%N] = match cap_get mr 1 with Some c => cap_text c | None => [] end) by reflexivity.
    now rewrite K, Hc. }
  rewrite E. cbn [length]. lia.
Qed.

Lemma no_general : forall d v, length v < minlen (re_ast (d_national_number d)) -> d_is_match d v = false.
Proof.
  intros d v H. destruct (d_is_match d v) eqn:E; [|easy]. exfalso. unfold d_is_match in E.
  assert (F : found_at_start (re_find (d_national_number d) v) = true).
  { destruct (match d_possible_length d with [] => false | _ => _ end); [discriminate|exact E]. }
  apply found_at_start_spec in F as (t & a & -> & L). apply (proj1 minlen_sound) in L. rewrite app_length in H. lia.
Qed.

Lemma rewrite_check_silent : forall d m e, rewrite_check d m = true ->
  digits e = true -> length e < 1000 -> d_is_match d e = true ->
  d_is_match (ds_general (md_descriptors m)) e = true -> rules_silent m e.
Proof.
  intros d m e H De Le Hd Hg. unfold rewrite_check in H.
  destruct (md_national_prefix_for_parsing m) as [r|] eqn:Er; [|discriminate].
  destruct (md_national_prefix_transform_rule m) as [tr|] eqn:Etr; [|discriminate].
  destruct (shape (re_ast r)) as [[[[z g] a] b]|] eqn:Es; [|discriminate].
  destruct (str_eqb tr (lit "9$1")) eqn:Et; [|discriminate]. apply str_eqb_eq in Et. subst tr.
  destruct (Nat.eqb_spec (re_ngroups r) 1) as [En|]; [|discriminate].
  destruct (never 1 a) eqn:Na; [|discriminate]. destruct (never 1 b) eqn:Nb; [|discriminate].
  destruct (never_empty (re_ast (d_national_number d))) eqn:Ne; [|discriminate].
  destruct (first_in ascii_digits (not_in z) _) eqn:F1; [|discriminate].
  destruct (md_national_prefix m) as [[|c [|? ?]]|] eqn:Enp; try discriminate.
  match type of H with (if ?x then _ else _) = _ => destruct x eqn:F2; [|discriminate] end.
  destruct (d_possible_length d) as [|n0 l0] eqn:El; [discriminate|]. rewrite <- El in H.
  apply d_is_match_inv in Hd as [I Hpre]; [|congruence|now rewrite digits_blen].
  rewrite digits_blen in I by easy. rewrite forallb_forall in H. apply H in I. apply Nat.ltb_lt in I.
  rewrite Nnat.Nat2N.id in I. destruct Hpre as (t & rest & E & L).
  destruct t as [|x t]. { exfalso. eapply never_empty_sound; eauto. }
  assert (Dx : In x ascii_digits). { apply digit_in. rewrite E in De. cbn in De. apply andb_true_iff in De as [De _]. exact De. }
  pose proof (first_in_sound _ _ _ _ _ _ F1 Dx L) as G1. pose proof (first_in_sound _ _ _ _ _ _ F2 Dx L) as G2.
  apply filter_In in G1 as [_ G1]. apply filter_In in G2 as [_ G2]. cbn [app] in E.
  split.
  - intros p mr Hp Hf Hpr. rewrite Er in Hp. inversion Hp; subst p.
    destruct (shape_match r z g a b e mr Es Na Nb) as [[Ht Hc]|(k & y & Hk & Ht & Hy)]; [|exact Hf|exact Hpr| |].
    + intros c' t' E'. rewrite E in E'. inversion E'; subst c'. now apply negb_true_iff.
    + left. split; [exact Ht|]. rewrite En. cbn [cap_get]. now rewrite Hc.
    + right. exists (lit "9$1"). split; [exact Etr|]. split; [rewrite En, Hk; discriminate|]. split; [exact Hg|].
      apply no_general. rewrite (rewrite_length _ _ _ _ Hf Hk).
      pose proof (re_find_some _ _ _ Hf) as (E' & _). rewrite Hpr, Ht in *. cbn [app length] in *.
      apply (f_equal (@length char)) in E'. rewrite !app_length in E'. clear - E' I Hy. lia.
  - intros np Hnp. rewrite Enp in Hnp. injection Hnp as <-. rewrite E.
    destruct (starts_with (x :: t ++ rest) [c]) eqn:K; [|easy]. exfalso. apply starts_with_spec in K as (v & K).
    inversion K; subst c. rewrite N.eqb_refl in G2. discriminate.
Qed.

(** one of the two arguments applies *)
Definition descriptor_check (d : descriptor) (m : metadata) : bool :=
  if pair_check d m then true else rewrite_check d m.
Lemma descriptor_check_silent : forall d m e, descriptor_check d m = true ->
  empty_check m = true -> prefix_nonempty m = true ->
  digits e = true -> length e < 1000 -> d_is_match d e = true ->
  d_is_match (ds_general (md_descriptors m)) e = true -> rules_silent m e.
Proof.
  intros d m e H. intros. unfold descriptor_check in H. destruct (pair_check d m) eqn:E.
  - eapply pair_check_silent; eauto.
  - eapply rewrite_check_silent; eauto.
Qed.
Lemma descriptor_check_lengths : forall d m, descriptor_check d m = true -> d_possible_length d <> [].
Proof.
  intros d m H E. unfold descriptor_check, pair_check, rewrite_check in H. rewrite E in H.
  repeat match type of H with context [match ?x with _ => _ end] => destruct x; try discriminate end.
Qed.

(** the entries that can be selected for a calling code *)
Definition candidates (db : database) (c : N) : list metadata :=
  match region db c with
  | Some l => flat_map (fun r => match by_id db r with Some m => [m] | None => [] end) l
  | None => []
  end ++ match by_code db c with Some (m :: _) => [m] | _ => [] end.

Lemma id_of_name_inv : forall s i, id_of_name s = Some i -> id_name i = s.
Proof.
  intros s i. unfold id_of_name. induction all_ids as [|j l IH]; cbn; [easy|].
  destruct (str_eqb (id_name j) s) eqn:E; [|auto]. intros H. inversion H; subst. now apply str_eqb_eq.
Qed.

Lemma source_candidates : forall db c v src m, source_for db c v = Ok src -> source_meta db src = Some m ->
  In m (candidates db c).
Proof.
  intros db c v src m H Hm. unfold source_for in H. unfold candidates.
  destruct (region db c) as [regions|] eqn:Er; [|inversion H; subst; discriminate].
  assert (Hid : forall r i, In r regions -> id_of_name r = Some i -> source_meta db (Some (SLeft i)) = Some m ->
    In m (flat_map (fun r => match by_id db r with Some m => [m] | None => [] end) regions)).
  { intros r i I Hi Hs. apply id_of_name_inv in Hi. cbn in Hs. rewrite Hi in Hs. apply in_flat_map.
    exists r. split; [easy|]. rewrite Hs. now left. }
  assert (Hloop : forall rs, incl rs regions -> source_loop db v rs = Ok src ->
    In m (flat_map (fun r => match by_id db r with Some m => [m] | None => [] end) regions)).
  { induction rs as [|r rs IH]; intros I Hs; cbn [source_loop] in Hs; [inversion Hs; subst; discriminate|].
    apply obind_ok in Hs as (mt & _ & Hs). destruct (match md_leading_digits mt with Some _ => _ | None => _ end).
    - apply obind_ok in Hs as (i & Hi & Hs). destruct (id_of_name r) as [j|] eqn:Ej; [|discriminate].
      inversion Hi; subst j. inversion Hs; subst src. apply (Hid r i); auto. apply I. now left.
    - apply IH; [|easy]. intros x Ix. apply I. now right. }
  apply in_app_iff. destruct regions as [|r [|r2 rs]].
  - left. apply (Hloop []); [easy|exact H].
  - destruct (str_eqb r (lit "001")).
    + right. inversion H; subst src. cbn in Hm. destruct (by_code db c) as [[|m' l]|]; try discriminate.
      inversion Hm; subst. now left.
    + destruct (id_of_name r) as [i|] eqn:Ei; [|inversion H; subst; discriminate]. inversion H; subst src.
      left. apply (Hid r i); [now left|easy|easy].
  - left. apply (Hloop (r :: r2 :: rs)); [apply incl_refl|exact H].
Qed.

Definition no_rules (m : metadata) : bool :=
  match md_national_prefix_for_parsing m, md_national_prefix m with None, None => true | _, _ => false end.
Lemma no_rules_silent : forall m e, no_rules m = true -> rules_silent m e.
Proof.
  intros m e H. unfold no_rules in H.
  destruct (md_national_prefix_for_parsing m) eqn:E1; [discriminate|].
  destruct (md_national_prefix m) eqn:E2; [discriminate|]. split; intros; congruence.
Qed.

Definition single (db : database) (c : N) : bool :=
  match region db c with Some [_] => true | _ => false end.
Definition nonzero_digits : list char := lit "123456789".
Definition lens_ok (d : descriptor) : bool :=
  forallb (fun n => if N.leb 2 n then N.leb n 17 else false) (d_possible_length d).

Definition entry_check (db : database) (c : N) (m : metadata) : bool :=
  if empty_check m then if prefix_nonempty m then
  forallb (fun d => if lens_ok d then
    if descriptor_check d m then
      if single db c then true
      else if first_in ascii_digits nonzero_digits (re_ast (d_national_number d)) then
             never_empty (re_ast (d_national_number d))
      else forallb no_rules (candidates db c)
    else false else false) (types_of (md_descriptors m))
  else false else false.

(** the calling codes for which some valid number is changed by parsing *)
Definition not_covered : list N := [7; 55; 62; 66; 81; 82; 91; 250; 359; 370; 375; 598]%N.

Definition codes_check (db : database) : bool :=
  forallb (fun p => if memN (fst p) not_covered then true
                    else forallb (entry_check db (fst p)) (candidates db (fst p))) (db_regions db).
Lemma default_codes_check : codes_check default_db = true.
Proof. vm_cast_no_check (eq_refl true). Qed.

Lemma memN_in : forall l x, memN x l = true <-> In x l.
Proof.
  induction l as [|y l IH]; intros x; cbn; [easy|]. destruct (N.eqb_spec x y).
  - split; [intros _; left; congruence|easy].
  - rewrite IH. split; [auto|intros [->|]; easy].
Qed.

Lemma trim_zeros_show : forall n, nn_value n <> 0%N -> trim_start_char ch_0 (nn_show n) = dec (nn_value n).
Proof.
  intros n H. unfold nn_show. destruct (dec_head _ H) as (c & t & E & Hc).
  induction (N.to_nat (nn_zeros n)) as [|k IH]; cbn [repeat app].
  - rewrite E. cbn. destruct (N.eqb_spec c ch_0); [now elim Hc|easy].
  - cbn [trim_start_char]. exact IH.
Qed.

Lemma nn_show_digits : forall n, digits (nn_show n) = true.
Proof.
  intros n. unfold nn_show. rewrite digits_app, digits_dec, andb_true_r.
  induction (N.to_nat (nn_zeros n)); [easy|]. exact IHn0.
Qed.
Lemma dec_length_pow : forall n k, (n < 10 ^ N.of_nat k)%N -> 1 <= k -> length (dec n) <= k.
Proof.
  intros n k H Hk. destruct (Nat.le_gt_cases (length (dec n)) k) as [|G]; [easy|]. exfalso.
  destruct (N.eq_dec n 0) as [->|Hz]. { rewrite dec_0 in G. cbn in G. lia. }
  destruct (dec_head _ Hz) as (x & s & E & Hx).
  pose proof (digits_dec n) as D. rewrite E in D. cbn in D. apply andb_true_iff in D as [Dx Ds].
  apply is_digit_spec in Dx. pose proof (digits_val_dec n) as V.
  rewrite E, digits_val_dv in V. cbn [dv fold_left] in V. change (fold_left _ s ?a) with (dv a s) in V.
  rewrite dv_acc in V. rewrite E in G. cbn in G.
  assert (10 ^ N.of_nat k <= 10 ^ N.of_nat (length s))%N by (apply N.pow_le_mono_r; lia).
  assert (1 * 10 ^ N.of_nat (length s) <= (0 * 10 + (x - 48)) * 10 ^ N.of_nat (length s))%N
    by (apply N.mul_le_mono_r; lia). lia.
Qed.
Lemma nn_show_length : forall n, length (nn_show n) < 1000.
Proof.
  intros n. unfold nn_show. rewrite app_length, repeat_length. pose proof (nn_zeros_bound n).
  assert (Hl : length (dec (nn_value n)) <= 17); [|eapply Nat.le_lt_trans; [apply Nat.add_le_mono_l, Hl|lia]]. apply dec_length_pow; [|lia].
  pose proof (nn_value_bound n). change (10 ^ N.of_nat 17)%N with 100000000000000000%N.
  change (2 ^ 56)%N with 72057594037927936%N in *. lia.
Qed.

(** *** Calling codes of the built-in metadata *)
Definition default_codes : list N := Eval vm_compute in map fst (db_by_code default_db).
Lemma default_codes_ok : map fst (db_by_code default_db) = default_codes.
Proof. vm_cast_no_check (eq_refl default_codes). Qed.
Lemma known_listed : forall db c, by_code db c <> None -> In c (map fst (db_by_code db)).
Proof.
  intros db c H. destruct (by_code db c) as [l|] eqn:E; [|easy]. apply nget_in in E. apply (in_map fst) in E. exact E.
Qed.
Lemma known_default : forall c, by_code default_db c <> None -> In c default_codes.
Proof. intros c H. apply known_listed in H. rewrite default_codes_ok in H. exact H. Qed.
Definition is_prefix (a b : str) : bool := starts_with b a.
Lemma default_prefix_free : forallb (fun c1 => forallb (fun c2 =>
    if N.eqb c1 c2 then true else negb (is_prefix (dec c1) (dec c2))) default_codes) default_codes = true.
Proof. vm_compute. reflexivity. Qed.
Lemma default_codes_range : forallb (fun c => if N.leb 1 c then N.leb c 999 else false) default_codes = true.
Proof. vm_compute. reflexivity. Qed.

Lemma code_range : forall c, by_code default_db c <> None -> (1 <= c <= 999)%N.
Proof.
  intros c H. apply known_default in H. pose proof default_codes_range as R. rewrite forallb_forall in R.
  apply R in H. destruct (N.leb_spec 1 c); [|discriminate]. apply N.leb_le in H. lia.
Qed.
Lemma codes_unique : forall c1 c2 rest, by_code default_db c1 <> None -> by_code default_db c2 <> None ->
  dec c2 = dec c1 ++ rest -> rest = [].
Proof.
  intros c1 c2 rest H1 H2 E. apply known_default in H1, H2. pose proof default_prefix_free as P.
  rewrite forallb_forall in P. apply P in H1. rewrite forallb_forall in H1. apply H1 in H2.
  destruct (N.eqb_spec c1 c2).
  - subst c2. apply (f_equal (@length char)) in E. rewrite app_length in E.
    destruct rest; [easy|]. cbn in E. lia.
  - unfold is_prefix in H2. rewrite E, starts_with_app in H2. discriminate.
Qed.

(** For a valid number of a checked code, the rules of the region it is read with
    leave its digits alone. *)
Lemma valid_silent : forall db p,
  db_sane db None -> codes_check db = true ->
  is_valid_with db p = Ok true -> ~ In (code_value (ph_code p)) not_covered ->
  2 <= length (nn_show (ph_national p)) <= 17
  /\ (exists regions, region db (code_value (ph_code p)) = Some regions)
  /\ exists src, source_for db (code_value (ph_code p)) (trim_start_char ch_0 (nn_show (ph_national p))) = Ok src
      /\ forall m', source_meta db src = Some m' -> rules_silent m' (nn_show (ph_national p)).
Proof.
  intros db p S Hcheck Hvalid Hnc. set (c := code_value (ph_code p)) in *. set (e := nn_show (ph_national p)) in *.
  unfold is_valid_with in Hvalid. fold c e in Hvalid.
  apply obind_ok in Hvalid as (src0 & Hsrc0 & Hvalid). inversion Hvalid as [Hval]. clear Hvalid.
  destruct (source_meta db src0) as [m|] eqn:Em; [|discriminate].
  assert (Hty : number_type m e <> TUnknown).
  { intros E. rewrite E in Hval. discriminate. }
  assert (Hgen : d_is_match (ds_general (md_descriptors m)) e = true).
  { unfold number_type in Hty. destruct (d_is_match (ds_general (md_descriptors m)) e); [easy|]. now elim Hty. }
  apply number_type_known in Hty as (d & Id & Hd).
  assert (Hreg : exists regions, region db c = Some regions).
  { unfold source_for in Hsrc0. destruct (region db c) as [l|]; [eauto|]. inversion Hsrc0; subst. discriminate. }
  destruct Hreg as (regions & Hreg).
  assert (Hcand : forall m, In m (candidates db c) -> entry_check db c m = true).
  { intros m' I. pose proof Hcheck as K. unfold codes_check in K. rewrite forallb_forall in K.
    unfold region in Hreg. pose proof Hreg as Hr. apply nget_in in Hr. apply K in Hr. cbn [fst] in Hr.
    destruct (memN c not_covered) eqn:Ec; [now apply memN_in in Ec|]. rewrite forallb_forall in Hr. auto. }
  pose proof (Hcand m (source_candidates _ _ _ _ _ Hsrc0 Em)) as Hm. unfold entry_check in Hm.
  destruct (empty_check m) eqn:He; [|discriminate]. destruct (prefix_nonempty m) eqn:Hpn; [|discriminate].
  rewrite forallb_forall in Hm. apply Hm in Id. clear Hm. destruct (lens_ok d) eqn:Hlens; [|discriminate].
  destruct (descriptor_check d m) eqn:Hpair; [|discriminate].
  assert (De : digits e = true) by apply nn_show_digits.
  assert (Le : length e < 1000) by apply nn_show_length.
  pose proof (descriptor_check_lengths _ _ Hpair) as Hpl.
  assert (Lr : 2 <= length e <= 17).
  { pose proof Hd as Hd'. apply d_is_match_inv in Hd' as [I _]; [|easy|now rewrite digits_blen].
    unfold lens_ok in Hlens. rewrite forallb_forall in Hlens. apply Hlens in I. rewrite digits_blen in I by easy.
    destruct (N.leb_spec 2 (N.of_nat (length e))); [|discriminate]. apply N.leb_le in I. clear - H I. lia. }
  assert (Hrules : exists src, source_for db c (trim_start_char ch_0 e) = Ok src
            /\ forall m', source_meta db src = Some m' -> rules_silent m' e).
  { unfold single in Id. rewrite Hreg in Id. destruct regions as [|r [|r2 rs]].
    - exfalso. unfold source_for in Hsrc0. rewrite Hreg in Hsrc0. cbn in Hsrc0. inversion Hsrc0; subst. discriminate.
    - exists src0. unfold source_for in *. rewrite Hreg in *. split; [exact Hsrc0|].
      intros m' Hm'. rewrite Em in Hm'. inversion Hm'; subst m'. eapply descriptor_check_silent; eauto.
    - destruct (source_for db c (trim_start_char ch_0 e)) as [src|er|] eqn:Hsrc.
      + exists src. split; [easy|]. intros m' Hm'.
        destruct (first_in ascii_digits nonzero_digits (re_ast (d_national_number d))) eqn:Hfi.
        * assert (E0 : trim_start_char ch_0 e = e).
          { pose proof Hd as Hd'. apply d_is_match_inv in Hd' as [_ Hp]; [|easy|now rewrite digits_blen].
            destruct Hp as (t & a & E & L). destruct t as [|x t].
            - exfalso. eapply never_empty_sound; eauto.
            - pose proof De as De'. rewrite E in De'. cbn in De'. apply andb_true_iff in De' as [Dx _].
              eapply first_in_sound in Hfi; [|exact (digit_in _ Dx)|exact L]. rewrite E. cbn [app trim_start_char].
              destruct (N.eqb_spec x ch_0); [|reflexivity]. subst x. exfalso. revert Hfi. vm_compute. intuition discriminate. }
          rewrite E0 in Hsrc. rewrite Hsrc0 in Hsrc. inversion Hsrc; subst src. rewrite Em in Hm'. inversion Hm'; subst m'.
          eapply descriptor_check_silent; eauto.
        * rewrite forallb_forall in Id. apply no_rules_silent, Id. eapply source_candidates; eauto.
      + exfalso. clear - Hsrc Hreg. unfold source_for in Hsrc. rewrite Hreg in Hsrc.
        revert Hsrc. generalize (r :: r2 :: rs) as l. induction l as [|y l IH]; cbn [source_loop]; [easy|].
        destruct (by_id db y); [|easy]. cbn [unwrap obind].
        destruct (match md_leading_digits m with Some _ => _ | None => _ end); [|exact IH].
        destruct (id_of_name y); easy.
      + exfalso. apply (source_for_no_panic db c (trim_start_char ch_0 e) (sane_regions _ _ S) (sane_nonempty _ _ S c) Hsrc). }
  split; [exact Lr|]. split; [exists regions; exact Hreg|]. exact Hrules.
Qed.

Lemma e164_checked : forall db country p,
  db_ok db -> db_sane db None -> codes_check db = true ->
  (forall c, by_code db c <> None -> (1 <= c <= 999)%N) ->
  (forall c1 c2 rest, by_code db c1 <> None -> by_code db c2 <> None -> dec c2 = dec c1 ++ rest -> rest = []) ->
  (nn_raw (ph_national p) < 2 ^ 64)%N -> nn_value (ph_national p) <> 0%N ->
  is_valid_with db p = Ok true -> ~ In (code_value (ph_code p)) not_covered ->
  idd_free (idd_of db country) (dec (code_value (ph_code p)) ++ nn_show (ph_national p)) ->
  exists q m0 l, by_code db (code_value (ph_code p)) = Some (m0 :: l)
    /\ parse_with db country (ch_plus :: dec (code_value (ph_code p)) ++ nn_show (ph_national p)) = Ok q
    /\ code_value (ph_code q) = code_value (ph_code p) /\ ph_national q = ph_national p
    /\ code_source (ph_code q) = SrcPlus /\ ph_extension q = None /\ ph_carrier q = None.
Proof.
  intros db country p Hok S Hcheck Hrange Huniq Hraw Hv Hvalid Hnc Hdial.
  destruct (valid_silent db p S Hcheck Hvalid Hnc) as (Lr & (regions & Hreg) & Hrules).
  set (c := code_value (ph_code p)) in *. set (e := nn_show (ph_national p)) in *.
  assert (De : digits e = true) by apply nn_show_digits.
  destruct Hrules as (src & Hsrc & Hrules).
  assert (Hbc : exists m0 l, by_code db c = Some (m0 :: l)).
  { pose proof (ok_region _ Hok c) as R. rewrite Hreg in R.
    destruct (by_code db c) as [[|m0 l]|] eqn:E; [|eauto|discriminate].
    now apply (ok_code_ne _ Hok) in E. }
  destruct Hbc as (m0 & l & Hbc).
  assert (Hkn : by_code db c <> None) by congruence.
  pose proof (Hrange _ Hkn) as Hc9.
  assert (Hc0 : c <> 0%N) by (clear - Hc9; lia). assert (Hc9' : (c <= 999)%N) by (clear - Hc9; lia).
  assert (Hval' : (1 <= digits_val e < 2 ^ 56)%N).
  { pose proof (nn_value_bound (ph_national p)) as B. unfold e, nn_show. rewrite digits_val_zeros, digits_val_dec.
    clear - B Hv. lia. }
  destruct (parse_e164 db country c e src) as (n & Hp & Hs & Hn); auto.
  - intros c' rest Hk' _ E. exact (Huniq _ _ _ Hk' Hkn E).
  - eexists. exists m0, l. split; [exact Hbc|]. split; [exact Hp|]. cbn. repeat split; auto.
    pose proof (nn_show_parse (ph_national p) Hraw Hv) as Hq. fold e in Hq. congruence.
Qed.

Lemma default_idd_free : forall c e, (1 <= c)%N -> not_dialled default_db None (dec c ++ e).
Proof.
  intros c e Hc r Hr (t & a & E & L). cbn in Hr. subst r.
  assert (Hz : c <> 0%N) by lia. destruct (dec_head _ Hz) as (x & s & Ex & Hx). rewrite Ex in E.
  destruct t as [|y t]. { eapply never_empty_sound; [|exact L]. reflexivity. }
  cbn [app] in E. injection E as <- _.
  assert (D : is_digit x = true).
  { pose proof (digits_dec c) as D. rewrite Ex in D. cbn in D. now apply andb_true_iff in D. }
  eapply (first_in_sound ascii_digits [ch_0]) in L; [|reflexivity|now apply digit_in].
  destruct L as [L|[]]. now elim Hx.
Qed.

(** With the built-in metadata: the text of every valid number (its value not
    zero) parses to the same number, for every calling code but twelve ([C08_exact]: these are exactly the codes for
    which it fails). *)
Theorem C08_default : forall country p,
  (nn_raw (ph_national p) < 2 ^ 64)%N -> nn_value (ph_national p) <> 0%N ->
  is_valid p = Ok true -> ~ In (code_value (ph_code p)) not_covered ->
  country = None \/ not_dialled default_db country (dec (code_value (ph_code p)) ++ nn_show (ph_national p)) ->
  exists t q, phone_to_string p = Ok t /\ parse country t = Ok q
    /\ t = lit "+" ++ dec (code_value (ph_code p)) ++ nn_show (ph_national p)
    /\ code_value (ph_code q) = code_value (ph_code p) /\ ph_national q = ph_national p
    /\ code_source (ph_code q) = SrcPlus /\ ph_extension q = None /\ ph_carrier q = None.
Proof.
  intros country p Hraw Hv Hvalid Hnc Hdial.
  assert (Hk : by_code default_db (code_value (ph_code p)) <> None).
  { intros E. pose proof (ok_region _ default_db_ok (code_value (ph_code p))) as R. rewrite E in R.
    cbn [option_map] in R. unfold is_valid, is_valid_with in Hvalid. unfold source_for in Hvalid. rewrite R in Hvalid.
    cbn [obind source_meta] in Hvalid. discriminate. }
  pose proof (code_range _ Hk).
  destruct (e164_checked default_db country p default_db_ok (db_check_sane _ _ default_db_check) default_codes_check
    code_range codes_unique Hraw Hv Hvalid Hnc) as (q & m0 & l & Hbc & Hp & Hrest).
  - apply not_dialled_free. destruct Hdial as [->|Hdial]; [|exact Hdial]. apply default_idd_free. lia.
  - eexists. exists q. split; [|split; [exact Hp|split; [reflexivity|exact Hrest]]].
    unfold phone_to_string, fmt_display. cbn [fmt_format fm_number fm_database fm_mode fm_format]. rewrite Hbc. reflexivity.
Qed.
Print Assumptions C08_default.

(** Hypotheses of [C08_default] met: the Swiss number of the crate's tests, and an
    Italian one that keeps its leading zero. *)
Example C08_ex1 :
  let p := mk_phone (mk_code 41 SrcDefault) (mk_national 446681800) None None in
  ((nn_raw (ph_national p) < 2 ^ 64)%N /\ nn_value (ph_national p) <> 0%N /\ ~ In (code_value (ph_code p)) not_covered)
  /\ is_valid p = Ok true
  /\ phone_to_string p = Ok (lit "+41446681800")
  /\ parse None (lit "+41446681800") = Ok (mk_phone (mk_code 41 SrcPlus) (mk_national 446681800) None None).
Proof.
  split; [|vm_compute; auto]. split; [vm_compute; reflexivity|]. split; [vm_compute; discriminate|].
  cbn. intuition discriminate.
Qed.
Example C08_ex2 :
  let p := mk_phone (mk_code 39 SrcDefault) (mk_national (2 ^ 56 + 236618300)) None None in
  ((nn_raw (ph_national p) < 2 ^ 64)%N /\ nn_value (ph_national p) <> 0%N /\ ~ In (code_value (ph_code p)) not_covered)
  /\ is_valid p = Ok true
  /\ phone_to_string p = Ok (lit "+390236618300")
  /\ match parse None (lit "+390236618300") with Ok q => ph_national q = ph_national p | _ => False end.
Proof.
  split; [|vm_compute; auto]. split; [vm_compute; reflexivity|]. split; [vm_compute; discriminate|].
  cbn. intuition discriminate.
Qed.

(** A valid number of each of the twelve calling codes for which the round trip
    fails: the national-prefix rule is applied to digits that follow "+code". *)
Definition changed (c : N) (e : str) : bool :=
  match nn_parse e with
  | Ok n =>
      let p := mk_phone (mk_code c SrcPlus) n None None in
      match is_valid p, phone_to_string p with
      | Ok true, Ok t => match parse None t with
                         | Ok q => negb (str_eqb (nn_show (ph_national q)) e)
                         | _ => true
                         end
      | _, _ => false
      end
  | _ => false
  end.
(** a non-zero number of 64 bits that shows as these digits *)
Definition keeps (e : str) : bool :=
  match nn_parse e with
  | Ok n => if str_eqb (nn_show n) e then if N.ltb (nn_raw n) (2 ^ 64) then negb (N.eqb (nn_value n) 0) else false else false
  | _ => false
  end.
Theorem C08_every_code_refuted : exists l, forallb (fun x => if changed (fst x) (snd x) then keeps (snd x) else false) l = true
  /\ map fst l = [7; 55; 62; 66; 81; 82; 91; 250; 359; 370; 375; 598]%N.
Proof.
  exists [(7, lit "8000000000"); (55, lit "900000000"); (62, lit "00180300000"); (66, lit "0018000000000");
          (81, lit "00777000"); (82, lit "00308000000"); (91, lit "0008000000000"); (250, lit "06000000");
          (359, lit "008000000000"); (370, lit "80800000"); (375, lit "8100000000"); (598, lit "000400")]%N.
  vm_compute. auto.
Qed.
(** the text of the number parses to the same number *)
Definition round_trips (p : phone) : Prop :=
  exists t q, phone_to_string p = Ok t /\ parse None t = Ok q
    /\ code_value (ph_code q) = code_value (ph_code p) /\ ph_national q = ph_national p
    /\ ph_extension q = None /\ ph_carrier q = None.
Lemma changed_not_round : forall c e, changed c e = true -> exists n,
  nn_parse e = Ok n /\ is_valid (mk_phone (mk_code c SrcPlus) n None None) = Ok true
  /\ (nn_show n = e -> ~ round_trips (mk_phone (mk_code c SrcPlus) n None None)).
Proof.
  intros c e H. unfold changed in H. destruct (nn_parse e) as [n|x|] eqn:En; [|discriminate..]. exists n.
  split; [reflexivity|]. set (p := mk_phone (mk_code c SrcPlus) n None None) in *.
  destruct (is_valid p) as [[]|x|] eqn:Ev; try discriminate. split; [easy|]. intros Hs (t & q & Ht & Hq & _ & Hn & _).
  rewrite Ht, Hq in H. apply negb_true_iff in H. rewrite Hn in H. cbn [p ph_national] in H. rewrite Hs in H.
  now rewrite str_eqb_refl in H.
Qed.
(** Twelve calling codes, and no others, have a valid number that is changed. *)
Theorem C08_exact : forall c, ~ In c not_covered <->
  (forall p, code_value (ph_code p) = c -> (nn_raw (ph_national p) < 2 ^ 64)%N -> nn_value (ph_national p) <> 0%N ->
     is_valid p = Ok true -> round_trips p).
Proof.
  intros c. split.
  - intros Hc p <- Hraw Hv Hvalid.
    destruct (C08_default None p Hraw Hv Hvalid Hc (or_introl eq_refl)) as (t & q & H1 & H2 & _ & H3 & H4 & _ & H5 & H6).
    exists t, q. repeat split; assumption.
  - intros H I. destruct C08_every_code_refuted as (l & Hl & Em). unfold not_covered in I. rewrite <- Em in I.
    apply in_map_iff in I as ([c' e] & Ec & I). cbn [fst] in Ec. subst c'.
    rewrite forallb_forall in Hl. apply Hl in I. cbn [fst snd] in I. destruct (changed c e) eqn:E; [|discriminate].
    destruct (changed_not_round c e E) as (n & En & Hv & Hn). unfold keeps in I. rewrite En in I.
    destruct (str_eqb (nn_show n) e) eqn:Es; [|discriminate]. apply str_eqb_eq in Es.
    destruct (N.ltb_spec (nn_raw n) (2 ^ 64)) as [Hr|]; [|discriminate]. apply negb_true_iff, N.eqb_neq in I.
    apply (Hn Es). apply H; [reflexivity|exact Hr|exact I|exact Hv].
Qed.
Print Assumptions C08_exact.
(** the same number of a code outside the list and of one inside it *)
Example C08_exact_ex : ~ In 54%N not_covered /\ is_valid (mk_phone (mk_code 54 SrcPlus) (mk_national 1115000000) None None) = Ok true
  /\ parse None (lit "+541115000000") = Ok (mk_phone (mk_code 54 SrcPlus) (mk_national 1115000000) None None)
  /\ In 7%N not_covered.
Proof. split; [cbn; intuition discriminate|]. vm_compute. auto. Qed.
(** a Russian freephone number, as a user would meet it *)
Theorem C08_russia_refuted : exists p, is_valid p = Ok true
  /\ phone_to_string p = Ok (lit "+78001234567") /\ nn_show (ph_national p) = lit "8001234567"
  /\ match parse None (lit "+78001234567") with
     | Ok q => nn_show (ph_national q) = lit "001234567" | _ => False end.
Proof.
  exists (mk_phone (mk_code 7 SrcPlus) (mk_national 8001234567) None None). vm_compute. auto.
Qed.

(** ** C09: a leading plus sign makes the reference country irrelevant *)

Lemma filter_span_plus : forall s, filter is_digit (snd (span is_plus s)) = filter is_digit s.
Proof.
  intros s. destruct (span is_plus s) as [a b] eqn:E. apply span_spec in E as (-> & Ha & _). cbn [snd].
  rewrite filter_app. replace (filter is_digit a) with (@nil char); [easy|].
  induction a as [|c a IH]; [easy|]. cbn [forallb filter] in *. apply andb_true_iff in Ha as [Hc Ha].
  rewrite <- IH by exact Ha. destruct (is_digit c) eqn:D; [|easy]. exfalso. apply is_digit_spec in D.
  unfold is_plus in Hc. apply orb_true_iff in Hc as [Hc|Hc]; apply N.eqb_eq in Hc; subst c; vm_compute in D; intuition discriminate.
Qed.

(** For every database: two reference countries whose dialling prefixes do not
    match the digits of the text (digits, '+', space - . ( ) /) give the same result. *)
Theorem C09_separated_digits : forall db c1 c2 t,
  (forall c, In c t -> In c (lit "0123456789+ -.()/")) ->
  not_dialled db c1 (filter is_digit t) -> not_dialled db c2 (filter is_digit t) ->
  parse_with db c1 (lit "+" ++ t) = parse_with db c2 (lit "+" ++ t).
Proof.
  intros db c1 c2 t Ht H1 H2. change (lit "+" ++ t) with (ch_plus :: t).
  destruct (p_phone_number (ch_plus :: t)) as [n|e|] eqn:En; [|unfold parse_with; now rewrite En..].
  assert (Hp : plain (ch_plus :: t)).
  { intros c [<-|I]; [vm_compute; tauto|]. apply Ht in I. revert I. vm_compute. tauto. }
  eapply parse_plus_free; [exact En|].
  apply plus_text in En as [H|[H|(_ & Hn & u & post & Hu & Eu)]]; auto. right. right.
  apply natural_plain_plus in Hn; [|exact Hp]. subst n. cbn [pn_national] in *.
  assert (Hpu : plain (ch_plus :: u)).
  { intros c I. apply Hp. subst t. destruct I as [<-|I]; [now left|]. right. apply in_app_iff. now left. }
  assert (E : plus_digits (mk_number SrcDefault (trim_end unwanted_end (ch_plus :: t)) None None None) = filter is_digit t).
  { unfold plus_digits. cbn [pn_national]. rewrite Hu, plain_alpha by exact Hpu.
    rewrite act_plain.
    - rewrite filter_span_plus, <- Hu, filter_trim_end. reflexivity.
    - eapply plain_sub; [exact Hpu|]. intros c I. rewrite <- (span_app is_plus). apply in_app_iff. now right. }
  rewrite E, Hu. split; [reflexivity|]. split; now apply not_dialled_free.
Qed.

(** every string of digits that the pattern matches at the start of a text begins with a zero *)
Definition zero_prefixed (db : database) (country : option id) : Prop :=
  forall r t a, dial_prefix db country r -> all_digits t -> lang (re_ast r) [] t a -> exists t', t = lit "0" ++ t'.

Theorem C09_any_text : forall db c1 c2 d rest, (49 <= d <= 57)%N ->
  zero_prefixed db c1 -> zero_prefixed db c2 ->
  parse_with db c1 (lit "+" ++ d :: rest) = parse_with db c2 (lit "+" ++ d :: rest).
Proof.
  intros db c1 c2 d rest Hd H1 H2. change (lit "+" ++ d :: rest) with (ch_plus :: d :: rest).
  destruct (p_phone_number (ch_plus :: d :: rest)) as [n|e|] eqn:En; [|unfold parse_with; now rewrite En..].
  eapply parse_plus_free; [exact En|].
  apply plus_text in En as [H|[H|(_ & _ & u & post & Hu & Eu)]]; auto.
  destruct u as [|y u]. { left. rewrite Hu. vm_compute. reflexivity. }
  cbn [app] in Eu. injection Eu as <- _. right. right. rewrite Hu. split; [reflexivity|].
  assert (E : exists v, plus_digits n = d :: v).
  { unfold plus_digits. rewrite Hu. cbn [span]. change (is_plus ch_plus) with true. cbv iota.
    assert (P : is_plus d = false).
    { unfold is_plus. apply orb_false_iff. split; apply N.eqb_neq; intros ->; vm_compute in Hd; intuition discriminate. }
    rewrite P. cbn [snd]. rewrite act_flat_map. cbn [flat_map].
    rewrite act_push_digit by (apply is_digit_spec; lia). eexists. reflexivity. }
  destruct E as (v & E).
  assert (F : forall c, zero_prefixed db c -> idd_free (idd_of db c) (plus_digits n)).
  { intros c Hz. apply not_dialled_free. intros r Hr (t & a & Et & L). apply (Hz r t a Hr) in L as (t' & ->).
    2:{ apply all_digits_iff. assert (D : digits (plus_digits n) = true) by apply act_digits, choose_mappings_ok.
        rewrite Et, digits_app in D. now apply andb_true_iff in D. }
    rewrite E in Et. cbn in Et. injection Et as -> _. lia. }
  auto.
Qed.

(** the countries whose dialling prefix may start otherwise *)
Definition other_prefix : list id :=
  [ID_AU; ID_AX; ID_BY; ID_CC; ID_CL; ID_CN; ID_CU; ID_CX; ID_FI; ID_IS; ID_KP; ID_KZ; ID_PE; ID_PG; ID_RU;
   ID_SI; ID_TD; ID_TJ; ID_TM].
Definition id_eqb (i j : id) : bool := Nat.eqb (id_index i) (id_index j).
Lemma id_eqb_eq : forall i j, id_eqb i j = true -> i = j.
Proof.
  intros i j H. apply Nat.eqb_eq in H. pose proof (all_ids_nth i) as A. rewrite H, all_ids_nth in A. congruence.
Qed.
Definition zero_check (db : database) (i : id) : bool :=
  match by_id db (id_name i) with
  | Some m => match md_international_prefix m with
              | Some r => if never_empty (re_ast r) then first_in ascii_digits [48%N] (re_ast r) else false
              | None => true end
  | None => true end.
Lemma zero_check_sound : forall db i, zero_check db i = true -> zero_prefixed db (Some i).
Proof.
  intros db i H r t a (m & Hm & Hr) Hd L. unfold zero_check in H. rewrite Hm, Hr in H.
  destruct (never_empty (re_ast r)) eqn:E; [|discriminate]. destruct t as [|c t].
  - exfalso. eapply never_empty_sound; eauto.
  - eapply first_in_sound in H; [|apply digit_in, is_digit_spec, Hd; now left|exact L].
    destruct H as [<-|[]]. exists t. reflexivity.
Qed.
Lemma none_zero : forall db, zero_prefixed db None.
Proof.
  intros db r t a Hr Hd L. cbn in Hr. subst r. destruct t as [|c t].
  - exfalso. eapply never_empty_sound; [|exact L]. reflexivity.
  - eapply (first_in_sound ascii_digits [48%N]) in L; [|reflexivity|apply digit_in, is_digit_spec, Hd; now left].
    destruct L as [<-|[]]. exists t. reflexivity.
Qed.
Lemma default_zero_check : forallb (fun i => if existsb (id_eqb i) other_prefix then true else zero_check default_db i)
  all_ids = true.
Proof. vm_cast_no_check (eq_refl true). Qed.

(** With the built-in metadata: any text that starts with '+' and a digit 1-9. *)
Theorem C09_default : forall c d rest, (49 <= d <= 57)%N -> ~ In c other_prefix ->
  parse (Some c) (lit "+" ++ d :: rest) = parse None (lit "+" ++ d :: rest).
Proof.
  intros c d rest Hd Hc. apply C09_any_text; [exact Hd| |apply none_zero].
  pose proof default_zero_check as H. rewrite forallb_forall in H.
  specialize (H c (all_ids_complete c)). apply zero_check_sound.
  destruct (existsb (id_eqb c) other_prefix) eqn:E; [|exact H].
  apply existsb_exists in E as (x & I & Ex). apply id_eqb_eq in Ex. subst x. now elim Hc.
Qed.
Print Assumptions C09_default.
Lemma forallb_mem : forall s l, forallb (fun c => existsb (N.eqb c) l) s = true -> forall c, In c s -> In c l.
Proof.
  intros s l H c I. rewrite forallb_forall in H. apply H, existsb_exists in I as (x & I & E).
  apply N.eqb_eq in E. now subst.
Qed.
Example C09_ex1 : ~ In ID_US other_prefix /\
  match parse (Some ID_US) (lit "+32 (0)474 09 01 50 ext. 12"), parse None (lit "+32 (0)474 09 01 50 ext. 12") with
  | Ok p, Ok q => p = q /\ code_value (ph_code p) = 32%N /\ ph_extension p = Some (lit "12")
  | _, _ => False end.
Proof. split; [cbn; intuition discriminate|vm_compute; auto]. Qed.
(** a country of the list, with digits its prefix does not match *)
Example C09_ex2 : (forall c, In c (lit "1 650-253-0000") -> In c (lit "0123456789+ -.()/"))
  /\ parse (Some ID_FI) (lit "+1 650-253-0000") = parse None (lit "+1 650-253-0000")
  /\ parse None (lit "+1 650-253-0000") = Ok (mk_phone (mk_code 1 SrcPlus) (mk_national 6502530000) None None).
Proof. split; [|vm_compute; auto]. apply forallb_mem. vm_compute. reflexivity. Qed.

(** The dialling prefix of the reference country is searched even after '+':
    seen from Chad (prefix 00 or 16) an American number loses its first digits, and
    seen from Finland (prefix 00 or 99...) an Azerbaijani number becomes American. *)
Theorem C09_chad_refuted : exists s,
  parse (Some ID_TD) s <> parse None s
  /\ match parse None s with Ok p => code_value (ph_code p) = 1%N | _ => False end.
Proof.
  exists (lit "+16502530000"). split; [|vm_compute; reflexivity]. vm_compute. discriminate.
Qed.
Theorem C09_finland_refuted : exists s p q,
  parse (Some ID_FI) s = Ok p /\ parse None s = Ok q
  /\ code_value (ph_code p) = 1%N /\ code_value (ph_code q) = 994%N.
Proof.
  exists (lit "+994123456789"), (mk_phone (mk_code 1 SrcPlus) (mk_national 23456789) None None),
    (mk_phone (mk_code 994 SrcPlus) (mk_national 123456789) None None). vm_compute. auto.
Qed.

(** ** C11: the calling code after '+' *)

Lemma dec_short : forall c, length (dec c) <= 3 -> (c <= 999)%N.
Proof.
  intros c H. pose proof (digits_val_lt_pow _ (digits_dec c)) as B. rewrite digits_val_dec in B.
  assert (10 ^ N.of_nat (length (dec c)) <= 10 ^ 3)%N by (apply N.pow_le_mono_r; lia). lia.
Qed.
(** For every database: the shortest known code that the digits start with. *)
Theorem C11_shortest_known : forall db country d p,
  all_digits d -> not_dialled db country d -> parse_with db country (lit "+" ++ d) = Ok p ->
  let c := code_value (ph_code p) in
  by_code db c <> None /\ length (dec c) <= 3 /\ (exists rest, d = dec c ++ rest) /\
  forall c' rest', by_code db c' <> None -> length (dec c') <= 3 -> d = dec c' ++ rest' ->
    length (dec c) <= length (dec c').
Proof.
  intros db country d p Hd Hi H c. change (lit "+" ++ d) with (ch_plus :: d) in H.
  apply all_digits_iff in Hd. rewrite parse_plus_digits in H; [|exact Hd|now apply not_dialled_free].
  destruct (length d <? 3) eqn:E3; [discriminate|]. destruct (starts_with d [ch_0]) eqn:E0; [discriminate|].
  destruct d as [|x d]; [discriminate E3|].
  assert (Hx : x <> 48%N). { intros ->. destruct d; vm_compute in E0; discriminate E0. }
  pose proof (code_len_spec db x d Hd Hx) as S. destruct (code_len db (x :: d)) as [k|]; [|discriminate].
  destruct S as (Hk & code & Hcode & Hle & Ecode & Ed & Hmin). cbv zeta in H. rewrite <- Ecode in H.
  apply obind_ok in H as (src & _ & H). apply obind_ok in H as (n & Hn & H).
  apply strip_national_same in Hn as (_ & Hpre & _). apply finish_inv in H as (v & nat_ & Hv & _ & -> & _).
  unfold prefix_value in Hv. rewrite Hpre in Hv. cbn [pn_prefix] in Hv.
  destruct (parse_u16 (dec code)) as [w|] eqn:Ew; [|discriminate]. cbn in Hv. inversion Hv; subst w.
  apply parse_u16_dec_inv in Ew. subst v. unfold c. cbn.
  split; [exact Hcode|]. split; [apply dec_length_pow; lia|]. split; [eauto|].
  intros c' rest' Hc' Hl E. eapply Hmin; eauto. apply dec_short. exact Hl.
Qed.
Print Assumptions C11_shortest_known.

(** ... and an error when there is none *)
Theorem C11_unknown_code : forall db country d,
  all_digits d -> not_dialled db country d -> 3 <= length d ->
  (forall c rest, by_code db c <> None -> d <> dec c ++ rest) ->
  parse_with db country (lit "+" ++ d) = Err InvalidCountryCode.
Proof.
  intros db country d Hd Hi Hl H. change (lit "+" ++ d) with (ch_plus :: d).
  apply all_digits_iff in Hd. rewrite parse_plus_digits; [|exact Hd|now apply not_dialled_free].
  destruct (Nat.ltb_spec (length d) 3); [lia|]. destruct (starts_with d [ch_0]) eqn:E0; [easy|].
  destruct d as [|x d]; [easy|]. assert (Hx : x <> 48%N). { intros ->. destruct d; vm_compute in E0; discriminate E0. }
  pose proof (code_len_spec db x d Hd Hx) as S. destruct (code_len db (x :: d)) as [k|]; [|easy].
  exfalso. destruct S as (_ & code & Hcode & _ & _ & Ed & _). exact (H _ _ Hcode Ed).
Qed.

(** In the built-in metadata at most one calling code fits. *)
Theorem C11_default_unique : forall country d p c' rest',
  all_digits d -> not_dialled default_db country d -> parse country (lit "+" ++ d) = Ok p ->
  by_code default_db c' <> None -> d = dec c' ++ rest' ->
  code_value (ph_code p) = c' /\ (1 <= c' <= 999)%N.
Proof.
  intros country d p c' rest' Hd Hi H Hc' E.
  destruct (C11_shortest_known _ _ _ _ Hd Hi H) as (Hk & _ & (rest & Er) & _). cbv zeta in *.
  set (c := code_value (ph_code p)) in *. clearbody c. split; [|now apply code_range].
  assert (G : exists x, dec c = dec c' ++ x \/ dec c' = dec c ++ x).
  { rewrite E in Er. clear - Er. revert Er. generalize (dec c') as u, (dec c) as v. intros u v. revert v.
    induction u as [|a u IH]; intros v Er; [exists v; now left|]. destruct v as [|b v]; [exists (a :: u); now right|].
    cbn [app] in Er. injection Er as -> Er. destruct (IH v Er) as (x & [-> | ->]); exists x; [now left|now right]. }
  destruct G as (x & [G|G]).
  - pose proof (codes_unique _ _ _ Hc' Hk G). subst x. rewrite app_nil_r in G. now apply dec_inj.
  - pose proof (codes_unique _ _ _ Hk Hc' G). subst x. rewrite app_nil_r in G. symmetry. now apply dec_inj.
Qed.
Print Assumptions C11_default_unique.
Example C11_ex : all_digits (lit "9945551234") /\
  match parse None (lit "+9945551234") with Ok p => code_value (ph_code p) = 994%N | _ => False end
  /\ parse None (lit "+2995551234") = Ok (mk_phone (mk_code 299 SrcPlus) (mk_national 5551234) None None)
  /\ parse None (lit "+2105551234") = Err InvalidCountryCode.
Proof. split; [apply all_digits_iff; reflexivity|vm_compute; auto]. Qed.
