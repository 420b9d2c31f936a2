(** * C55: how long the texts of numbers are *)
From Verif Require Import Base Unicode Regex RegexSyntax Consts CountryId Types NationalNumber
  Metadata Database Validator Valid Number Rfc3966 Helper Natural PhoneNumber Parser Formatter Loader
  DefaultDb DefaultDbOk Api.
From Verif Require Import StrFacts NationalFacts RegexLang RegexFacts RegexCaps DatabaseFacts ParserFacts
  TextFacts FormatFacts FormatDigits FormatDollar ClaimFacts PropsNumber PropsE164 PropsParse PropsFormat PropsText PropsValid
  PropsCarrier PropsTemplate PropsKey.

(** ** The characters a format adds *)
Definition groups_in (ts : list tok) : list nat := flat_map (fun t => match t with Grp k => [k] | Txt _ => [] end) ts.
Definition text_in (ts : list tok) : nat := list_sum (map (fun t => match t with Grp _ => 0 | Txt s => length s end) ts).

Lemma put_length : forall g ts, length (put g ts) = text_in ts + list_sum (map (fun k => length (g k)) (groups_in ts)).
Proof.
  intros g. induction ts as [|[s|k] ts IH]; [reflexivity|..]; unfold put, groups_in, text_in, list_sum in *;
    cbn [map concat flat_map fold_right app] in *; rewrite app_length, IH; cbn [map fold_right]; lia.
Qed.
Lemma refs_app : forall s t, no_mark s -> refs (s ++ t) = refs t.
Proof.
  induction s as [|c s IH]; intros t H; [reflexivity|]. cbn [app refs]. destruct (N.eqb_spec c 36) as [->|N].
  - elim H. now left.
  - apply IH. intros I. apply H. now right.
Qed.
Lemma lits_app : forall s t, no_mark s -> lits (s ++ t) = s ++ lits t.
Proof.
  induction s as [|c s IH]; intros t H; [reflexivity|]. cbn [app lits]. destruct (N.eqb_spec c 36) as [->|N].
  - elim H. now left.
  - f_equal. apply IH. intros I. apply H. now right.
Qed.
Lemma template_counts : forall ts, template_ok ts -> refs (template ts) = groups_in ts /\ length (lits (template ts)) = text_in ts.
Proof.
  induction ts as [|[s|k] ts IH]; intros H; [split; reflexivity|..].
  - destruct H as [H1 H2]. destruct (IH H2) as [A B]. change (template (Txt s :: ts)) with (s ++ template ts).
    rewrite refs_app, lits_app by exact H1. split; [exact A|]. rewrite app_length, B. reflexivity.
  - destruct H as (H1 & _ & H2). destruct (IH H2) as [A B].
    change (template (Grp k :: ts)) with (36%N :: (48 + N.of_nat k)%N :: template ts). cbn [refs lits]. rewrite N.eqb_refl.
    split; [|exact B]. change (groups_in (Grp k :: ts)) with (k :: groups_in ts). rewrite A. f_equal. unfold ref_of. lia.
Qed.

(** distinct pieces together are no longer than all of them *)
Lemma pieces_sum : forall gs l, NoDup l -> (forall k, In k l -> 1 <= k) ->
  list_sum (map (fun k => length (piece gs k)) l) <= length (concat gs).
Proof.
  induction gs as [|g gs IH]; intros l Hn H1.
  - assert (E : forall k, piece [] k = []) by (intros k; unfold piece; destruct (k - 1); reflexivity).
    clear Hn H1. induction l as [|k l IHl]; [cbn; lia|]. cbn [map]. rewrite E. exact IHl.
  - set (l' := map pred (filter (fun k => negb (k =? 1)) l)).
    assert (S : list_sum (map (fun k => length (piece (g :: gs) k)) l)
      <= length g + list_sum (map (fun k => length (piece gs k)) l')).
    { unfold l'. clear l' IH. induction l as [|k l IHl]; [cbn; lia|]. inversion Hn; subst.
      assert (K : 1 <= k) by (apply H1; now left). assert (H1' : forall k, In k l -> 1 <= k) by (intros; apply H1; now right).
      cbn [map filter]. destruct (Nat.eqb_spec k 1) as [->|N].
      - cbn [negb]. change (piece (g :: gs) 1) with g.
        assert (F : filter (fun k => negb (k =? 1)) l = l).
        { clear - H2. induction l as [|x l IH]; [reflexivity|]. cbn [filter]. destruct (Nat.eqb_spec x 1).
          - elim H2. now left.
          - cbn [negb]. f_equal. apply IH. intros I. apply H2. now right. }
        rewrite F. cbn [list_sum fold_right]. fold (list_sum (map (fun k => length (piece (g :: gs) k)) l)).
        apply Nat.add_le_mono_l. clear IHl F Hn H1 K H3. induction l as [|x l IH]; [cbn; lia|].
        assert (X : 1 <= x) by (apply H1'; now left). assert (x <> 1) by (intros ->; apply H2; now left).
        cbn [map list_sum fold_right]. apply Nat.add_le_mono.
        + unfold piece. replace (x - 1) with (S (pred x - 1)) by lia. reflexivity.
        + apply IH; [intros I; apply H2; now right|intros; apply H1'; now right].
      - cbn [negb map list_sum fold_right].
        assert (E : piece (g :: gs) k = piece gs (pred k)).
        { unfold piece. replace (k - 1) with (S (pred k - 1)) by lia. reflexivity. }
        rewrite E. specialize (IHl H3 H1'). unfold list_sum in IHl. lia. }
    cbn [concat]. rewrite app_length. eapply Nat.le_trans; [exact S|]. apply Nat.add_le_mono_l. apply IH; unfold l'.
    + clear - Hn H1. induction l as [|k l IH]; [constructor|]. inversion Hn; subst. cbn [filter].
      assert (K : 1 <= k) by (apply H1; now left). destruct (Nat.eqb_spec k 1); cbn [negb]; [apply IH; auto; intros; apply H1; now right|].
      cbn [map]. constructor; [|apply IH; auto; intros; apply H1; now right].
      intros I. apply in_map_iff in I as (x & Ex & I). apply filter_In in I as [I J].
      destruct (Nat.eqb_spec x 1); [discriminate|]. assert (1 <= x) by (apply H1; now right).
      assert (x = k) by lia. subst. contradiction.
    + intros k I. apply in_map_iff in I as (x & <- & I). apply filter_In in I as [I J].
      destruct (Nat.eqb_spec x 1); [discriminate|]. specialize (H1 x I). lia.
Qed.

(** the length of a rule once [n] characters are put for "$NP", [c] for "$CC" and
    [g] for "$FG" *)
Fixpoint rule_cost (n c g : nat) (s : str) : nat :=
  match s with
  | a :: s1 =>
      if N.eqb a 36
      then match s1 with
           | x :: _ :: s' => (if N.eqb x 78 then n else if N.eqb x 67 then c else g) + rule_cost n c g s'
           | _ => 0
           end
      else S (rule_cost n c g s1)
  | [] => 0
  end.
Lemma rule_cost_plain : forall n c g s t, no_mark s -> rule_cost n c g (s ++ t) = length s + rule_cost n c g t.
Proof.
  induction s as [|x s IH]; intros t H; [reflexivity|]. cbn [app rule_cost length]. destruct (N.eqb_spec x 36) as [->|N].
  - elim H. now left.
  - cbn [Nat.add]. f_equal. apply IH. intros I. apply H. now right.
Qed.
Lemma put_rule_length : forall np cc first rs, (forall s, In (RTxt s) rs -> no_mark s) ->
  length (put_rule np cc first rs) = rule_cost (length np) (length cc) (length first) (rule rs).
Proof.
  intros np cc first. induction rs as [|t rs IH]; intros H; [reflexivity|].
  assert (H' : forall s, In (RTxt s) rs -> no_mark s) by (intros s I; apply H; now right). specialize (IH H').
  destruct t as [s| | |]; unfold put_rule, rule in *; cbn [map concat rtok_text]; rewrite app_length, IH;
    [rewrite rule_cost_plain by (apply H; now left); reflexivity|reflexivity..].
Qed.
Definition firsts (s : str) : nat := rule_cost 0 0 1 s - rule_cost 0 0 0 s.
Lemma rule_cost_first : forall n c g s, rule_cost n c g s = rule_cost n c 0 s + g * firsts s.
Proof.
  assert (M : forall s, rule_cost 0 0 0 s <= rule_cost 0 0 1 s).
  { fix rec 1. intros [|a s]; [cbn; lia|]. cbn [rule_cost]. destruct (N.eqb a 36).
    - destruct s as [|x [|y s]]; try lia. specialize (rec s). destruct (N.eqb x 78), (N.eqb x 67); lia.
    - specialize (rec s). lia. }
  intros n c g. fix rec 1. intros [|a s]; [cbn; lia|]. unfold firsts in *. cbn [rule_cost]. destruct (N.eqb a 36).
  - destruct s as [|x [|y s]]; try lia. specialize (rec s). specialize (M s). rewrite rec.
    destruct (N.eqb x 78); [lia|]. destruct (N.eqb x 67); [lia|]. rewrite Nat.add_0_l.
    cbn [Nat.add]. rewrite Nat.sub_succ_l by exact M. rewrite Nat.mul_succ_r. lia.
  - specialize (rec s). rewrite rec. cbn [Nat.sub]. lia.
Qed.

(** characters added by a format with the given rule and carrier *)
Definition added (m : metadata) (f : format) (r : option str) (c : nat) : nat :=
  length (lits (f_format f)) + match r with Some r => rule_cost (length (prefix_of m)) c 0 r | None => 0 end.
Fixpoint distinct (l : list nat) : bool :=
  match l with [] => true | x :: l => if existsb (Nat.eqb x) l then false else distinct l end.
Lemma distinct_ok : forall l, distinct l = true -> NoDup l.
Proof.
  induction l as [|x l IH]; intros H; [constructor|]. cbn [distinct] in H.
  destruct (existsb (Nat.eqb x) l) eqn:E; [discriminate|]. constructor; [|auto]. intros I.
  assert (existsb (Nat.eqb x) l = true); [|congruence]. apply existsb_exists. exists x. split; [exact I|apply Nat.eqb_refl].
Qed.
Definition once (f : format) (r : option str) : bool :=
  if distinct (refs (f_format f)) then match r with Some r => firsts r <=? 1 | None => true end else false.

Lemma template_ok_groups : forall ts k, template_ok ts -> In k (groups_in ts) -> 1 <= k.
Proof.
  induction ts as [|[s|j] ts IH]; intros k H I; [destruct I|..].
  - destruct H as [_ H]. now apply IH.
  - destruct H as (H1 & _ & H). destruct I as [<-|I]; [lia|now apply IH].
Qed.
Lemma sum_cons : forall x l, list_sum (x :: l) = x + list_sum l.
Proof. reflexivity. Qed.
Lemma shown_length : forall r k show w body n, shown r k show w body ->
  (forall gs, length gs = k -> length (show gs) <= length (concat gs) + n) -> length body <= length w + n.
Proof.
  intros r k show w body n [(pre & gs & post & E & Hl & _ & _ & _ & ->)|[_ ->]] H; [|lia].
  rewrite E, !app_length. specialize (H gs Hl). lia.
Qed.
Definition rule_of (md : mode) (f : format) (p : phone) : option str :=
  match md with
  | National => match ph_carrier p, f_domestic_carrier f with Some _, Some r => Some r | _, _ => f_national_prefix f end
  | _ => None
  end.
Definition carrier_size (f : format) (p : phone) : nat :=
  match ph_carrier p, f_domestic_carrier f with Some c, Some _ => length c | _, _ => 0 end.
Lemma rule_used_of : forall f p o c, rule_used f p o c -> o = rule_of National f p /\ length c = carrier_size f p.
Proof.
  intros f p o c H. unfold rule_of, carrier_size. destruct H as [c r H1 H2|r H1 H2|H1 H2].
  - now rewrite H1, H2.
  - destruct H1 as [-> | ->]; [auto|]. destruct (ph_carrier p); auto.
  - destruct H1 as [-> | ->]; [auto|]. destruct (ph_carrier p); auto.
Qed.
Lemma rule_tok_texts : forall np cc rs s, rule_tok_ok np cc rs -> In (RTxt s) rs -> no_mark s.
Proof.
  induction rs as [|t rs IH]; intros s H I; [destruct I|]. destruct I as [->|I]; [apply H|].
  apply IH; [|exact I]. destruct t; apply H.
Qed.
Lemma layout_length : forall md m p f k a j ts show, regular m f k a j ts -> layout md m p f a j ts show ->
  once f (rule_of md f p) = true -> forall gs, length (show gs) <= length (concat gs) + added m f (rule_of md f p) (carrier_size f p).
Proof.
  intros md m p f k a j ts show (Hg & Ht & Hok & Hr) L O gs. unfold once in O.
  destruct (distinct (refs (f_format f))) eqn:D; [|discriminate]. apply distinct_ok in D.
  destruct (template_counts _ Hok) as [R C]. rewrite Ht, R in D. unfold added. rewrite Ht, C.
  pose proof (pieces_sum gs _ D (fun k => template_ok_groups _ k Hok)) as P.
  change (groups_in (Txt a :: Grp j :: ts)) with (j :: groups_in ts) in P. cbn [map] in P. rewrite sum_cons in P.
  change (text_in (Txt a :: Grp j :: ts)) with (length a + text_in ts).
  destruct L as [U|rs c -> U K].
  - rewrite !app_length, put_length. lia.
  - destruct (rule_used_of _ _ _ _ U) as [E Ec]. rewrite <- E in *. rewrite <- Ec. rewrite !app_length, put_length.
    assert (T : forall s, In (RTxt s) rs -> no_mark s).
    { intros s. now apply rule_tok_texts with (1 := K). }
    rewrite put_rule_length by exact T. rewrite rule_cost_first. apply Nat.leb_le in O.
    assert (length (piece gs j) * firsts (rule rs) <= length (piece gs j)) by nia. lia.
Qed.

(** no number longer than this is shown with the format, if numbers have at most
    17 digits: a format with leading digits is only for what its pattern matches wholly *)
Definition reach (f : format) : nat :=
  match f_leading_digits f with
  | [] => 17
  | _ => match maxlen (re_ast (f_pattern f)) with Some k => Nat.min 17 k | None => 17 end
  end.
Lemma usable_reach : forall f w, usable f w -> length w <= 17 -> length w <= reach f.
Proof.
  intros f w U L. unfold reach. destruct U as [->|[(ls & r & E & _) (m & Em & H1 & H2)]]; [exact L|].
  destruct (f_leading_digits f); [exact L|]. destruct (maxlen (re_ast (f_pattern f))) as [k|] eqn:M; [|exact L].
  apply Nat.min_glb; [exact L|]. apply re_find_some in Em as (F & Lm & _). rewrite H1, H2, app_nil_r in F. cbn in F.
  rewrite F. exact (proj1 maxlen_lang _ _ _ _ Lm _ M).
Qed.

(** what is needed of a format for texts of at most [n] characters *)
Definition fits (n : nat) (m : metadata) (f : format) (r : option str) : bool :=
  if once f r then
  if match r with Some r => rule_cost 0 1 0 r <=? S (rule_cost 0 0 0 r) | None => true end
  then reach f + added m f r 0 <=? n else false else false.
Definition entry_fits (c : N) (m : metadata) : bool :=
  if forallb (fun f => fits (22 - length (dec c)) m f None) (formats_of International m) then
  if forallb (fun f => fits 21 m f (f_national_prefix f)) (md_formats m) then
  if forallb (fun f => match f_domestic_carrier f with Some r => fits 21 m f (Some r) | None => true end) (md_formats m) then
  length (match md_preferred_extension_prefix m with Some x => x | None => lit " ext. " end) <=? 7
  else false else false else false.
Definition db_fits (db : database) : bool :=
  forallb (fun e => match snd e with m :: _ => entry_fits (fst e) m | [] => true end) (db_by_code db).
Lemma db_fits_head : forall db c m l, db_fits db = true -> by_code db c = Some (m :: l) -> entry_fits c m = true.
Proof.
  intros db c m l F Hc. unfold db_fits in F. rewrite forallb_forall in F. apply nget_in in Hc. exact (F _ Hc).
Qed.
Lemma default_fits : db_fits default_db = true.
Proof. vm_cast_no_check (eq_refl true). Qed.

Lemma fits_le : forall n m f r c, fits n m f r = true -> reach f + added m f r c <= n + c /\ once f r = true.
Proof.
  intros n m f r c H. unfold fits in H. destruct (once f r); [|discriminate]. split; [|reflexivity].
  destruct r as [r|].
  - destruct (Nat.leb_spec (rule_cost 0 1 0 r) (S (rule_cost 0 0 0 r))) as [C|]; [|discriminate]. apply Nat.leb_le in H.
    unfold added in *.
    assert (G : forall n s, rule_cost n c 0 s = rule_cost n 0 0 s + c * (rule_cost 0 1 0 s - rule_cost 0 0 0 s)
      /\ rule_cost 0 0 0 s <= rule_cost 0 1 0 s).
    { clear. intros n. fix rec 1. intros [|a s]; [cbn; lia|]. cbn [rule_cost]. destruct (N.eqb a 36).
      - destruct s as [|x [|y s]]; try (split; lia). destruct (rec s) as [R M]. rewrite R.
        destruct (N.eqb x 78); [split; lia|]. destruct (N.eqb x 67); [|split; lia]. split; [|lia].
        cbn [Nat.add]. rewrite Nat.sub_succ_l by exact M. rewrite Nat.mul_succ_r. lia.
      - destruct (rec s) as [R M]. rewrite R. split; cbn [Nat.sub]; lia. }
    destruct (G (length (prefix_of m)) r) as [-> M].
    assert (c * (rule_cost 0 1 0 r - rule_cost 0 0 0 r) <= c) by nia. lia.
  - apply Nat.leb_le in H. unfold added in *. lia.
Qed.
Lemma hyphens_length : forall s, length (hyphens s) <= length s.
Proof.
  induction s as [|c s IH]; [cbn; lia|]. cbn [hyphens]. destruct (separator c); [|cbn [length]; lia].
  destruct s as [|d s]; [cbn; lia|]. destruct (separator d); cbn [length] in *; lia.
Qed.
Lemma dec_le3 : forall c, (1 <= c <= 999)%N -> 1 <= length (dec c) <= 3.
Proof.
  intros c H. assert (F : forallb (fun n => let k := length (dec (N.of_nat n)) in if 1 <=? k then k <=? 3 else false) (seq 1 999) = true)
    by (vm_compute; reflexivity).
  rewrite forallb_forall in F. specialize (F (N.to_nat c)). rewrite N2Nat.id in F.
  assert (I : In (N.to_nat c) (seq 1 999)) by (apply in_seq; lia). specialize (F I). cbv zeta in F.
  destruct (Nat.leb_spec 1 (length (dec c))); [|discriminate]. apply Nat.leb_le in F. lia.
Qed.

(** ** The texts *)
Lemma text_sizes : forall md p m l, by_code default_db (code_value (ph_code p)) = Some (m :: l) -> md <> E164 ->
  length (digits_of p) <= 17 -> match ph_carrier p with Some c => no_mark c | None => True end ->
  exists body, render default_db md p = Ok (frame md m p body)
    /\ length body + match md with National => 0 | _ => length (code_of p) end
       <= match md with National => 21 + match ph_carrier p with Some c => length c | None => 0 end | _ => 22 end
    /\ length (ext_text m p) <= match ph_extension p with Some e => 7 + length e | None => 0 end.
Proof.
  intros md p m l Hc Hmd Hl Hcar. destruct (C41_default md p m l Hmd Hc Hcar) as (body & E & o & Ho & Hb).
  pose proof (db_fits_head _ _ _ _ default_fits Hc) as F.
  unfold entry_fits in F.
  destruct (forallb _ (formats_of International m)) eqn:F1; [|discriminate].
  destruct (forallb _ (md_formats m)) eqn:F2 in F; [|discriminate].
  destruct (forallb _ (md_formats m)) eqn:F3 in F; [|discriminate]. apply Nat.leb_le in F. rewrite forallb_forall in F1, F2, F3.
  assert (D : 1 <= length (code_of p) <= 3) by (apply dec_le3, code_range; congruence).
  eexists. split; [exact E|]. split.
  2:{ unfold ext_text. destruct (ph_extension p); [rewrite app_length; lia|cbn; lia]. }
  assert (B : length body + match md with National => 0 | _ => length (code_of p) end
       <= match md with National => 21 + match ph_carrier p with Some c => length c | None => 0 end | _ => 22 end).
  { destruct o as [f|].
    - destruct Hb as (k & a & j & ts & show & Hr & Hlay & Hs). destruct Ho as (fa & fb & Ef & Hu & _).
      pose proof (usable_reach _ _ Hu Hl) as R.
      assert (If : In f (formats_of md m)) by (rewrite Ef; apply in_app_iff; right; now left).
      assert (G : once f (rule_of md f p) = true /\ reach f + added m f (rule_of md f p) (carrier_size f p)
        + match md with National => 0 | _ => length (code_of p) end
        <= match md with National => 21 + match ph_carrier p with Some c => length c | None => 0 end | _ => 22 end).
      { assert (K : forall n r c, fits n m f r = true -> once f r = true /\ reach f + added m f r c <= n + c)
          by (intros n r c Hf; destruct (fits_le n m f r c Hf); auto).
        unfold carrier_size. destruct md; [now elim Hmd|..].
        - cbn [rule_of]. destruct (K _ _ 0 (F1 f If)) as [K1 K2]. unfold code_of in *. unfold added in *. split; [exact K1|lia].
        - cbn [rule_of formats_of] in *. destruct (K _ _ 0 (F2 f If)) as [K1 K2]. specialize (F3 f If).
          destruct (ph_carrier p) as [c|], (f_domestic_carrier f) as [r|];
            [destruct (K _ _ (length c) F3) as [K3 K4]|..]; (split; [assumption|lia]).
        - cbn [rule_of]. destruct (K _ _ 0 (F1 f If)) as [K1 K2]. unfold code_of in *. unfold added in *. split; [exact K1|lia]. }
      destruct G as [G1 G2]. pose proof (layout_length _ _ _ _ _ _ _ _ _ Hr Hlay G1) as L.
      pose proof (shown_length _ _ _ _ _ _ Hs (fun gs _ => L gs)). lia.
    - subst body. destruct md; [now elim Hmd|..]; lia. }
  destruct md; try exact B. pose proof (hyphens_length body). lia.
Qed.

(** characters an extension takes, after a word of at most [n] characters *)
Definition ext_size (n : nat) (p : phone) : nat := match ph_extension p with Some e => n + length e | None => 0 end.
Definition carrier_room (p : phone) : nat := match ph_carrier p with Some c => length c | None => 0 end.

Lemma parsed_sizes : forall country s p, parse country s = Ok p ->
  (exists m l, by_code default_db (code_value (ph_code p)) = Some (m :: l))
  /\ 2 <= length (digits_of p) <= 17 /\ 1 <= length (code_of p) <= 3
  /\ match ph_carrier p with Some c => no_mark c | None => True end.
Proof.
  intros country s p H. destruct (parsed_code _ _ _ _ default_db_ok H) as (m & l & Hc).
  split; [eauto|]. split; [apply (C28_bounds _ _ _ H)|]. split; [apply dec_le3, code_range; congruence|].
  destruct (ph_carrier p) as [c|] eqn:Ec; [|exact I]. intros J.
  destruct (C27_from_rule _ _ _ _ _ H Ec) as (m' & r & d & _ & _ & D & R). apply reported_part in R as (a & b & ->).
  assert (K : In 36%N (a ++ c ++ b)) by (apply in_app_iff; right; apply in_app_iff; now left).
  apply all_digits_iff in D. unfold digits in D. rewrite forallb_forall in D. apply D in K. discriminate K.
Qed.

(** What to_string() gives for a parsed number has 4 to 21 characters, with an
    extension or without. *)
Theorem C55_e164 : forall country s p, parse country s = Ok p ->
  exists t, phone_to_string p = Ok t /\ 4 <= length t <= 21.
Proof.
  intros country s p H. destruct (parsed_sizes _ _ _ H) as ((m & l & Hc) & Hd & Hcode & _).
  eexists. split; [apply (known_render p); unfold known; congruence|]. fold (digits_of p) (code_of p).
  rewrite !app_length. cbn [length lit]. unfold lit. cbn. lia.
Qed.
Print Assumptions C55_e164.

Lemma digits_in_length : forall t, length (digits_in t) <= length t.
Proof.
  intros t. unfold digits_in. induction t as [|c t IH]; [cbn; lia|]. cbn [filter]. destruct (_ && _); cbn [length]; lia.
Qed.

Theorem C55_international : forall country s p, parse country s = Ok p ->
  exists t, render default_db International p = Ok t /\ 5 <= length t <= 24 + ext_size 7 p.
Proof.
  intros country s p H. destruct (parsed_sizes _ _ _ H) as ((m & l & Hc) & Hd & Hcode & Hcar).
  destruct (text_sizes International p m l Hc ltac:(discriminate) (proj2 Hd) Hcar) as (body & E & B & X).
  eexists. split; [exact E|].
  assert (Hb : length (digits_of p) <= length body).
  { destruct (C21_international_shape p m l Hc) as (t & Et & Dt & _). rewrite E in Et. cbn [frame] in Et.
    apply (f_equal (fun o => match o with Ok x => x | _ => [] end)) in Et. cbv beta iota in Et. unfold ext_text, code_of in Et. do 3 apply app_inv_head in Et. apply app_inv_tail in Et. subst t.
    unfold digits_of. rewrite <- Dt. apply digits_in_length. }
  cbn [frame]. rewrite !app_length. change (length (lit "+")) with 1. change (length (lit " ")) with 1.
  fold (ext_size 7 p) in X. lia.
Qed.
Print Assumptions C55_international.

Theorem C55_rfc3966 : forall country s p, parse country s = Ok p ->
  exists t, render default_db Rfc3966 p = Ok t /\ 9 <= length t <= 28 + ext_size 5 p.
Proof.
  intros country s p H. destruct (parsed_sizes _ _ _ H) as ((m & l & Hc) & Hd & Hcode & Hcar).
  destruct (text_sizes Rfc3966 p m l Hc ltac:(discriminate) (proj2 Hd) Hcar) as (body & E & B & _).
  eexists. split; [exact E|].
  assert (Hb : length (digits_of p) <= length body).
  { assert (Kp : known p) by (unfold known; congruence).
    destruct (C22_shape p Kp) as (t & Et & _ & Dt). rewrite E in Et. cbn [frame] in Et.
    apply (f_equal (fun o => match o with Ok x => x | _ => [] end)) in Et. cbv beta iota in Et. unfold rfc_ext, code_of in Et. do 3 apply app_inv_head in Et. apply app_inv_tail in Et. subst t.
    unfold digits_of. rewrite <- Dt. apply digits_in_length. }
  cbn [frame]. rewrite !app_length. change (length (lit "tel:+")) with 5. change (length (lit "-")) with 1.
  assert (X : length (rfc_ext p) = ext_size 5 p).
  { unfold rfc_ext, ext_size. destruct (ph_extension p); [now rewrite app_length|reflexivity]. }
  lia.
Qed.
Print Assumptions C55_rfc3966.

Theorem C55_national : forall country s p, parse country s = Ok p ->
  exists t, render default_db National p = Ok t /\ length t <= 21 + carrier_room p + ext_size 7 p.
Proof.
  intros country s p H. destruct (parsed_sizes _ _ _ H) as ((m & l & Hc) & Hd & Hcode & Hcar).
  destruct (text_sizes National p m l Hc ltac:(discriminate) (proj2 Hd) Hcar) as (body & E & B & X).
  eexists. split; [exact E|]. cbn [frame]. rewrite app_length. fold (ext_size 7 p) in X. fold (carrier_room p) in B. lia.
Qed.
Print Assumptions C55_national.

(** All these bounds are reached. *)
Definition size_of (o : outcome unit str) : option nat := match o with Ok t => Some (length t) | _ => None end.
Definition sizes (s : str) : option (list (option nat)) :=
  match parse None s with
  | Ok p => Some (size_of (phone_to_string p) :: map (fun md => size_of (render default_db md p)) [International; Rfc3966; National])
  | _ => None
  end.
Theorem C55_sharp :
  sizes (lit "+122") = Some [Some 4; Some 5; Some 9; Some 2]
  /\ sizes (lit "+88812345678901234567") = Some [Some 21; Some 24; Some 28; Some 19]
  /\ sizes (lit "+7 8881234567890123") = Some [Some 16; Some 20; Some 24; Some 21]
  /\ sizes (lit "+51 1 2345678 ext. 1234567") = Some [Some 11; Some 27; Some 29; Some 26].
Proof. repeat split; vm_compute; reflexivity. Qed.

(** ** Valid numbers *)
(** The calling codes with valid numbers of more than the fifteen digits ITU-T
    E.164 allows: Germany, Indonesia, Japan, South Korea, Nigeria and Uruguay. *)
Definition longer : list N := [49; 62; 81; 82; 234; 598]%N.
Definition all_types : list ptype :=
  [TUnknown; TFixedLine; TFixedLineOrMobile; TMobile; TTollFree; TPremiumRate; TSharedCost; TPersonalNumber; TVoip; TPager;
   TUan; TEmergency; TVoicemail; TShortCode; TStandardRate; TCarrier; TNoInternational].
Definition room (c : N) : N := ((if existsb (N.eqb c) longer then 19 else 15) - N.of_nat (length (dec c)))%N.
Definition db_room (db : database) : bool :=
  forallb (fun e => let n := room (fst e) in
    forallb (fun m => forallb (fun t => match ds_get (md_descriptors m) t with
      | Some d => forallb (fun k => N.leb k n) (d_possible_length d) | None => true end) all_types) (snd e)) (db_by_code db).
Lemma default_room : db_room default_db = true.
Proof. vm_cast_no_check (eq_refl true). Qed.
Lemma db_room_in : forall db c l m t d k, db_room db = true -> by_code db c = Some l -> In m l ->
  ds_get (md_descriptors m) t = Some d -> In k (d_possible_length d) -> (k <= room c)%N.
Proof.
  intros db c l m t d k H Hc Im Hd Ik. unfold db_room in H. rewrite forallb_forall in H. apply nget_in, H in Hc.
  cbn [fst snd] in Hc. cbv zeta in Hc. rewrite forallb_forall in Hc. apply Hc in Im. rewrite forallb_forall in Im.
  assert (It : In t all_types) by (destruct t; cbn; auto 20). apply Im in It. rewrite Hd in It.
  rewrite forallb_forall in It. apply It in Ik. now apply N.leb_le.
Qed.
(** to_string() of a valid number, however it was made, has at most 16 characters
    (15 digits) outside those six calling codes, and 20 there. *)
Theorem C55_valid : forall p, is_valid p = Ok true ->
  exists t, phone_to_string p = Ok t
    /\ length t <= (if existsb (N.eqb (code_value (ph_code p))) longer then 20 else 16).
Proof.
  intros p H. destruct (C16_length_default p H) as (m & t & d & R & _ & Hd & I).
  assert (K : exists l, by_code default_db (code_value (ph_code p)) = Some l /\ In m l).
  { destruct R as [R|(b & a & R & _)]; eexists; (split; [exact R|]); [now left|]. apply in_app_iff. right. now left. }
  destruct K as (l & Hc & Im).
  eexists. split; [apply (known_render p); unfold known; congruence|].
  pose proof (db_room_in _ _ _ _ _ _ _ default_room Hc Im Hd I) as B. unfold room in B.
  assert (C : 1 <= length (dec (code_value (ph_code p))) <= 3) by (apply dec_le3, code_range; congruence).
  rewrite !app_length. change (length (lit "+")) with 1.
  destruct (existsb (N.eqb (code_value (ph_code p))) longer); lia.
Qed.
Print Assumptions C55_valid.

(** In each of the six there is such a number, and the bounds are reached. *)
Definition valid_size (s : str) : option (N * nat) :=
  match parse None s with
  | Ok p => match is_valid p, phone_to_string p with Ok true, Ok t => Some (code_value (ph_code p), length t) | _, _ => None end
  | _ => None
  end.
Theorem C55_valid_sharp : map (fun s => valid_size (lit s))
    ["+49800123456789000"; "+6217712345678901234"; "+8112012345600000000"; "+8280123456700000"; "+23480017591759000"; "+5988001234000000"]%bstr
  = [Some (49%N, 18); Some (62%N, 20); Some (81%N, 20); Some (82%N, 17); Some (234%N, 18); Some (598%N, 17)].
Proof. vm_compute. reflexivity. Qed.
Print Assumptions C55_valid_sharp.
(** A valid Austrian number of exactly fifteen digits; a Brazilian number with a
    carrier and an extension. *)
Example C55_ex : valid_size (lit "+436601234567890") = Some (43%N, 16)
  /\ match parse (Some ID_BR) (lit "012 3121286979 ext. 77") with
     | Ok p => ph_carrier p = Some (lit "12") /\ ph_extension p = Some (lit "77")
         /\ map (fun md => size_of (render default_db md p)) [E164; International; Rfc3966; National]
            = [Some 13; Some 24; Some 27; Some 27]
     | _ => False
     end.
Proof. vm_compute. auto. Qed.
