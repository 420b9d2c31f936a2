(** * NationalFacts: packing and text of national numbers *)
From Verif Require Import Base CountryId Types NationalNumber StrFacts.

Lemma two56_pow : two56 = (2 ^ 56)%N.
Proof. reflexivity. Qed.

Lemma lor_disjoint : forall z v, (v < 2 ^ 56)%N -> N.lor (N.shiftl z 56) v = (z * 2 ^ 56 + v)%N.
Proof.
  intros z v Hv. rewrite N.shiftl_mul_pow2.
  symmetry. rewrite N.add_nocarry_lxor, N.lxor_lor; [easy| |].
  all: apply N.bits_inj; intros i; rewrite N.land_spec, N.bits_0.
  all: destruct (N.lt_ge_cases i 56) as [H|H];
    [rewrite N.mul_pow2_bits_low by easy; easy|].
  all: replace (N.testbit v i) with false; [apply andb_false_r|].
  all: destruct (N.eq_dec v 0) as [->|Hz]; [now rewrite N.bits_0|].
  all: symmetry; apply N.bits_above_log2; apply N.lt_le_trans with 56%N; [|easy].
  all: apply N.log2_lt_pow2; lia.
Qed.

Lemma nn_new_ok : forall v z n, nn_new v z = Ok n -> (v < 2 ^ 56)%N /\ nn_raw n = (z * 2 ^ 56 + v)%N.
Proof.
  intros v z n H. unfold nn_new in H. destruct (N.leb_spec two56 v); [discriminate|].
  inversion H; subst. rewrite two56_pow in *. split; [easy|]. cbn. now apply lor_disjoint.
Qed.

Lemma nn_value_raw : forall n, nn_value n = (nn_raw n mod 2 ^ 56)%N.
Proof.
  intros n. unfold nn_value. rewrite <- N.land_ones. reflexivity.
Qed.
Lemma nn_zeros_raw : forall n, nn_zeros n = ((nn_raw n / 2 ^ 56) mod 256)%N.
Proof. intros n. unfold nn_zeros. now rewrite N.shiftr_div_pow2. Qed.

Lemma nn_new_value : forall v z n, nn_new v z = Ok n -> nn_value n = v.
Proof.
  intros v z n H. apply nn_new_ok in H as [H E]. rewrite nn_value_raw, E.
  rewrite N.add_comm, N.mod_add by easy. now apply N.mod_small.
Qed.
Lemma nn_new_zeros : forall v z n, (z < 256)%N -> nn_new v z = Ok n -> nn_zeros n = z.
Proof.
  intros v z n Hz H. apply nn_new_ok in H as [H E]. rewrite nn_zeros_raw, E.
  rewrite N.div_add_l by easy. rewrite N.div_small by easy. rewrite N.add_0_r.
  now apply N.mod_small.
Qed.

Lemma nn_value_bound : forall n, (nn_value n < 2 ^ 56)%N.
Proof. intros. rewrite nn_value_raw. now apply N.mod_lt. Qed.
Lemma nn_zeros_bound : forall n, (nn_zeros n < 256)%N.
Proof. intros. rewrite nn_zeros_raw. now apply N.mod_lt. Qed.

(** a packed number that fits in 64 bits is determined by its two parts *)
Lemma nn_raw_eq : forall n, (nn_raw n < 2 ^ 64)%N ->
  nn_raw n = (nn_zeros n * 2 ^ 56 + nn_value n)%N.
Proof.
  intros n H. rewrite nn_value_raw, nn_zeros_raw.
  rewrite (N.mod_small (nn_raw n / 2 ^ 56)).
  - rewrite N.mul_comm. now apply N.div_mod.
  - apply N.div_lt_upper_bound; [easy|]. exact H.
Qed.
Lemma nn_new_bound : forall v z n, (z < 256)%N -> nn_new v z = Ok n -> (nn_raw n < 2 ^ 64)%N.
Proof.
  intros v z n Hz H. apply nn_new_ok in H as [H ->].
  change (2 ^ 64)%N with (256 * 2 ^ 56)%N. nia.
Qed.

Lemma count_zeros_repeat : forall k t, match t with c :: _ => c <> 48%N | [] => True end ->
  count_zeros (repeat 48%N k ++ t) = k.
Proof.
  induction k; intros t H; cbn.
  - destruct t as [|c t]; [easy|]. cbn. destruct (N.eqb_spec c 48); easy.
  - now rewrite IHk.
Qed.

Lemma leading_zeros : forall s, exists t, s = repeat 48%N (count_zeros s) ++ t
  /\ match t with c :: _ => c <> 48%N | [] => True end.
Proof.
  induction s as [|c s (t & IH2 & IH3)]; cbn [count_zeros].
  - now exists [].
  - destruct (N.eqb_spec c 48).
    + subst. exists t. cbn. split; [f_equal; exact IH2|easy].
    + exists (c :: s). easy.
Qed.

Lemma parse_uint_inv : forall max s v, parse_uint max s = Some v -> (v <= max)%N /\
  exists body, (s = body \/ s = ch_plus :: body) /\ body <> [] /\ digits body = true
    /\ v = digits_val body.
Proof.
  intros max s v H. unfold parse_uint in H.
  assert (G : forall b, match b with
      | [] => None
      | _ => if forallb is_digit b then let v := digits_val b in if N.leb v max then Some v else None else None
      end = Some v -> (v <= max)%N /\ b <> [] /\ digits b = true /\ v = digits_val b).
  { intros b Hb. destruct b as [|c b]; [easy|]. destruct (forallb is_digit (c :: b)) eqn:E; [|easy].
    cbn zeta in Hb. destruct (N.leb_spec (digits_val (c :: b)) max); [|easy].
    inversion Hb; subst v. split; [easy|]. split; [easy|]. split; [exact E|easy]. }
  destruct s as [|c s]; [easy|]. destruct (N.eqb_spec c ch_plus).
  - subst. apply (G s) in H as (H1 & H2). split; [easy|]. exists s. auto.
  - apply (G (c :: s)) in H as (H1 & H2). split; [easy|]. exists (c :: s). auto.
Qed.

(** Reading a text without '+' that has fewer than 256 leading zeros. *)
Lemma nn_parse_ok : forall s n, nn_parse s = Ok n -> ~ In ch_plus s -> count_zeros s < 256 ->
  digits s = true /\ nn_value n = digits_val s /\ nn_zeros n = N.of_nat (count_zeros s)
  /\ (1 <= nn_value n < 2 ^ 56)%N /\ nn_show n = s /\ (nn_raw n < 2 ^ 64)%N.
Proof.
  intros s n H Hp Hz. unfold nn_parse in H.
  destruct (leading_zeros s) as (t & Hs & Ht).
  assert (Hf : slice_from s (count_zeros s) = Some t).
  { rewrite Hs at 1. rewrite <- (blen_repeat0 (count_zeros s)) at 2. apply slice_from_app. }
  rewrite Hf in H. cbn [unwrap obind] in H.
  destruct (parse_u64 t) as [v|] eqn:Ev; [|discriminate]. cbn [ok_or obind] in H.
  apply parse_uint_inv in Ev as (_ & body & Hb & Hne & Hd & ->).
  assert (Hb' : t = body).
  { destruct Hb as [Hb|Hb]; [easy|]. exfalso. apply Hp. rewrite Hs, Hb. apply in_app_iff. right. now left. }
  subst body. clear Hb. destruct t as [|c t]; [easy|].
  assert (Hdig : digits s = true).
  { rewrite Hs, digits_app, Hd, andb_true_r. clear. induction (count_zeros s); easy. }
  assert (Hz' : as_u8 (count_zeros s) = N.of_nat (count_zeros s)).
  { unfold as_u8. apply N.mod_small. lia. }
  rewrite Hz' in H.
  assert (Hv : digits_val s = digits_val (c :: t)) by (rewrite Hs; apply digits_val_zeros).
  pose proof (nn_new_value _ _ _ H) as V. assert (Z : nn_zeros n = N.of_nat (count_zeros s)) by (eapply nn_new_zeros; [|exact H]; lia).
  split; [easy|]. split; [congruence|]. split; [easy|].
  assert (Vp : (1 <= nn_value n)%N).
  { destruct (N.eq_dec (nn_value n) 0) as [E0|]; [|lia]. exfalso.
    assert (Hx : dec (nn_value n) = c :: t) by (rewrite V; now apply dec_digits_val).
    rewrite E0 in Hx. cbn in Hx. congruence. }
  split; [split; [easy|apply nn_value_bound]|]. split.
  - unfold nn_show. rewrite V, Z, Nat2N.id, dec_digits_val by easy. now symmetry.
  - eapply nn_new_bound; [|eauto]. lia.
Qed.

(** Printing then reading. *)
Lemma nn_show_parse : forall n, (nn_raw n < 2 ^ 64)%N -> nn_value n <> 0%N -> nn_parse (nn_show n) = Ok n.
Proof.
  intros n Hr Hv. unfold nn_parse, nn_show. set (k := N.to_nat (nn_zeros n)).
  destruct (dec_head _ Hv) as (c & t & Hd & Hc).
  rewrite count_zeros_repeat by (rewrite Hd; easy).
  rewrite <- (blen_repeat0 k) at 2. rewrite slice_from_app. cbn [unwrap obind].
  unfold parse_u64. rewrite parse_uint_dec.
  - cbn [ok_or obind]. unfold nn_new. pose proof (nn_value_bound n). rewrite two56_pow.
    destruct (N.leb_spec (2 ^ 56) (nn_value n)); [lia|]. f_equal.
    assert (E : as_u8 k = nn_zeros n).
    { unfold as_u8, k. rewrite N2Nat.id. apply N.mod_small. apply nn_zeros_bound. }
    rewrite E, lor_disjoint by easy. rewrite <- nn_raw_eq by easy. now destruct n.
  - pose proof (nn_value_bound n). unfold u64_max. lia.
Qed.

Lemma slice_from_repeat0 : forall k t, slice_from (repeat 48%N k ++ t) k = Some t.
Proof. intros k t. pose proof (slice_from_app (repeat 48%N k) t) as H. now rewrite blen_repeat0 in H. Qed.

(** Reading a digit string with [k] leading zeros. *)
Lemma nn_parse_digits : forall k t, digits t = true ->
  match t with c :: _ => c <> 48%N | [] => False end -> k < 256 -> (digits_val t < 2 ^ 56)%N ->
  exists n, nn_parse (repeat 48%N k ++ t) = Ok n /\ nn_value n = digits_val t
    /\ nn_zeros n = N.of_nat k /\ nn_show n = repeat 48%N k ++ t /\ (nn_raw n < 2 ^ 64)%N.
Proof.
  intros k t Hd Ht Hk Hv. unfold nn_parse. destruct t as [|c t]; [easy|].
  rewrite count_zeros_repeat by easy.
  rewrite slice_from_repeat0. cbn [unwrap obind].
  unfold parse_u64. rewrite parse_uint_digits; [|easy|easy|unfold u64_max; lia].
  cbn [ok_or obind]. assert (E : as_u8 k = N.of_nat k) by (unfold as_u8; apply N.mod_small; lia).
  rewrite E. unfold nn_new. rewrite two56_pow. destruct (N.leb_spec (2 ^ 56) (digits_val (c :: t))); [lia|].
  eexists. split; [reflexivity|].
  assert (H1 : nn_new (digits_val (c :: t)) (N.of_nat k)
    = Ok (mk_national (N.lor (N.shiftl (N.of_nat k) 56) (digits_val (c :: t))))).
  { unfold nn_new. rewrite two56_pow. destruct (N.leb_spec (2 ^ 56) (digits_val (c :: t))); [lia|easy]. }
  pose proof (nn_new_value _ _ _ H1) as V.
  assert (Z : nn_zeros (mk_national (N.lor (N.shiftl (N.of_nat k) 56) (digits_val (c :: t)))) = N.of_nat k).
  { eapply nn_new_zeros; [|exact H1]. lia. }
  split; [easy|]. split; [easy|]. split.
  - unfold nn_show. rewrite V, Z, Nat2N.id. f_equal. now apply dec_digits_val.
  - eapply nn_new_bound; [|exact H1]. lia.
Qed.

Lemma nn_parse_zeros : forall k, nn_parse (repeat 48%N k) = Err MalformedInteger.
Proof.
  intros k. unfold nn_parse. rewrite <- (app_nil_r (repeat 48%N k)), count_zeros_repeat by easy.
  rewrite slice_from_repeat0. reflexivity.
Qed.
