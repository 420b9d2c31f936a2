(** * StrFacts: lemmas about strings, slices and decimal text *)
From Verif Require Import Base.
From Coq Require Decimal DecimalFacts DecimalN DecimalPos.

Global Arguments N.add : simpl never.
Global Arguments N.sub : simpl never.
Global Arguments N.mul : simpl never.
Global Arguments N.modulo : simpl never.
Global Arguments N.div : simpl never.
Global Arguments N.pow : simpl never.

(** ** Characters and byte lengths *)
Lemma utf8_len_pos : forall c, 1 <= utf8_len c.
Proof. intros; unfold utf8_len; repeat destruct (_ <? _)%N; lia. Qed.

Lemma utf8_len_ascii : forall c, (c < 128)%N -> utf8_len c = 1.
Proof. intros; unfold utf8_len. destruct (N.ltb_spec c 128); lia. Qed.

Lemma is_digit_spec : forall c, is_digit c = true <-> (48 <= c <= 57)%N.
Proof. intros; unfold is_digit, in_range. lia. Qed.

Lemma is_digit_len : forall c, is_digit c = true -> utf8_len c = 1.
Proof. intros c H. apply utf8_len_ascii. apply is_digit_spec in H. lia. Qed.

Lemma blen_app : forall a b, blen (a ++ b) = blen a + blen b.
Proof. induction a; intros; cbn; [|rewrite IHa]; lia. Qed.

Lemma blen_nil_iff : forall a, blen a = 0 <-> a = [].
Proof.
  destruct a; cbn; split; intros; try easy. pose proof (utf8_len_pos c). lia.
Qed.

Lemma length_le_blen : forall s, length s <= blen s.
Proof. induction s; cbn; [lia|]. pose proof (utf8_len_pos a). lia. Qed.

Definition digits (s : str) : bool := forallb is_digit s.

Lemma digits_app : forall a b, digits (a ++ b) = (digits a && digits b)%bool.
Proof. intros; apply forallb_app. Qed.

Lemma digits_blen : forall s, digits s = true -> blen s = length s.
Proof.
  induction s; cbn; intros H; [reflexivity|].
  apply andb_true_iff in H as [H1 H2]. rewrite is_digit_len by easy. rewrite IHs; easy.
Qed.

Lemma blen_repeat0 : forall n, blen (repeat 48%N n) = n.
Proof. induction n; cbn; [easy|]. cbn in *. rewrite IHn. easy. Qed.

(** ** Slices *)
Lemma slice_from_app : forall a b, slice_from (a ++ b) (blen a) = Some b.
Proof.
  induction a; intros; cbn [app blen]; [now destruct b|].
  pose proof (utf8_len_pos a). destruct (utf8_len a + blen a0) eqn:E; [lia|].
  cbn [slice_from]. rewrite <- E.
  destruct (Nat.leb_spec (utf8_len a) (utf8_len a + blen a0)); [|lia].
  replace (utf8_len a + blen a0 - utf8_len a) with (blen a0) by lia. apply IHa.
Qed.

Lemma slice_to_app : forall a b, slice_to (a ++ b) (blen a) = Some a.
Proof.
  induction a; intros; cbn [app blen]; [now destruct b|].
  pose proof (utf8_len_pos a). destruct (utf8_len a + blen a0) eqn:E; [lia|].
  cbn [slice_to]. rewrite <- E.
  destruct (Nat.leb_spec (utf8_len a) (utf8_len a + blen a0)); [|lia].
  replace (utf8_len a + blen a0 - utf8_len a) with (blen a0) by lia. now rewrite IHa.
Qed.

Lemma slice_from_0 : forall s, slice_from s 0 = Some s.
Proof. destruct s; reflexivity. Qed.

Lemma slice_from_blen : forall s, slice_from s (blen s) = Some [].
Proof. intros. rewrite <- (app_nil_r s) at 1. apply slice_from_app. Qed.

Lemma slice_from_inv : forall s n t, slice_from s n = Some t -> exists a, s = a ++ t /\ blen a = n.
Proof.
  induction s; intros [|n] t; cbn [slice_from]; intros H.
  - inversion H; now exists [].
  - discriminate.
  - inversion H; now exists [].
  - destruct (Nat.leb_spec (utf8_len a) (S n)); [|discriminate].
    apply IHs in H as (x & -> & Hx). exists (a :: x). split; [easy|]. cbn. lia.
Qed.

Lemma slice_to_inv : forall s n t, slice_to s n = Some t -> exists b, s = t ++ b /\ blen t = n.
Proof.
  induction s; intros [|n] t; cbn [slice_to]; intros H.
  - inversion H; now exists [].
  - discriminate.
  - inversion H; now exists (a :: s).
  - destruct (Nat.leb_spec (utf8_len a) (S n)); [|discriminate].
    destruct (slice_to s _) eqn:E; [|discriminate]. cbn in H. inversion H; subst.
    apply IHs in E as (x & -> & Hx). exists x. split; [easy|]. cbn. lia.
Qed.

Lemma slice_to_digits : forall s n, digits s = true -> n <= length s ->
  slice_to s n = Some (firstn n s).
Proof.
  intros s n Hd Hn. rewrite <- (firstn_skipn n s) at 1.
  assert (E : blen (firstn n s) = n).
  { rewrite digits_blen. rewrite firstn_length; lia.
    rewrite <- (firstn_skipn n s), digits_app in Hd. now apply andb_true_iff in Hd. }
  pose proof (slice_to_app (firstn n s) (skipn n s)) as H. now rewrite E in H.
Qed.

Lemma slice_from_digits : forall s n, digits s = true -> n <= length s ->
  slice_from s n = Some (skipn n s).
Proof.
  intros s n Hd Hn. rewrite <- (firstn_skipn n s) at 1.
  assert (E : blen (firstn n s) = n).
  { rewrite digits_blen. rewrite firstn_length; lia.
    rewrite <- (firstn_skipn n s), digits_app in Hd. now apply andb_true_iff in Hd. }
  pose proof (slice_from_app (firstn n s) (skipn n s)) as H. now rewrite E in H.
Qed.

Lemma digits_firstn : forall n s, digits s = true -> digits (firstn n s) = true.
Proof. intros n s H. rewrite <- (firstn_skipn n s), digits_app in H. now apply andb_true_iff in H. Qed.
Lemma digits_skipn : forall n s, digits s = true -> digits (skipn n s) = true.
Proof. intros n s H. rewrite <- (firstn_skipn n s), digits_app in H. now apply andb_true_iff in H. Qed.

(** ** Comparison *)
Lemma str_eqb_eq : forall a b, str_eqb a b = true <-> a = b.
Proof.
  induction a; destruct b; cbn; split; intros; try easy.
  - apply andb_true_iff in H as [H1 H2]. apply N.eqb_eq in H1. apply IHa in H2. congruence.
  - inversion H; subst. rewrite N.eqb_refl. now apply IHa.
Qed.
Lemma str_eqb_refl : forall a, str_eqb a a = true.
Proof. intros; now apply str_eqb_eq. Qed.
Lemma str_eqb_neq : forall a b, str_eqb a b = false <-> a <> b.
Proof.
  intros. destruct (str_eqb a b) eqn:E; split; intros; try easy.
  - now apply str_eqb_eq in E.
  - intros ->. now rewrite str_eqb_refl in E.
Qed.

Lemma starts_with_spec : forall p s, starts_with s p = true <-> exists t, s = p ++ t.
Proof.
  induction p; intros s; cbn.
  - destruct s; cbn; split; eauto.
  - destruct s; cbn; split; intros H; try easy.
    + now destruct H.
    + apply andb_true_iff in H as [H1 H2]. apply N.eqb_eq in H1. apply IHp in H2 as [t ->].
      exists t; congruence.
    + destruct H as [t H]. inversion H; subst. rewrite N.eqb_refl. apply IHp. now exists t.
Qed.
Lemma starts_with_app : forall p t, starts_with (p ++ t) p = true.
Proof. intros. apply starts_with_spec. now exists t. Qed.

(** ** [span] *)
Lemma span_spec : forall p s a b, span p s = (a, b) ->
  s = a ++ b /\ forallb p a = true /\ (b = [] \/ exists c b', b = c :: b' /\ p c = false).
Proof.
  induction s; intros x y; cbn; intros H.
  - inversion H; subst. repeat split; auto.
  - destruct (p a) eqn:Ep.
    + destruct (span p s) as [u v] eqn:E. inversion H; subst.
      destruct (IHs _ _ eq_refl) as (-> & H2 & H3). cbn. rewrite Ep. repeat split; auto.
    + inversion H; subst. cbn. repeat split; eauto.
Qed.
Lemma span_app : forall p s, fst (span p s) ++ snd (span p s) = s.
Proof. intros. destruct (span p s) eqn:E. apply span_spec in E as (-> & _). reflexivity. Qed.
Lemma span_all : forall p s, forallb p s = true -> span p s = (s, []).
Proof.
  induction s; cbn; intros H; [easy|]. apply andb_true_iff in H as [-> H]. now rewrite (IHs H).
Qed.
Lemma span_app_stop : forall p a c b, forallb p a = true -> p c = false ->
  span p (a ++ c :: b) = (a, c :: b).
Proof.
  induction a; cbn; intros c b H Hc; [now rewrite Hc|].
  apply andb_true_iff in H as [-> H]. now rewrite IHa.
Qed.
Lemma span_app_nil : forall p a b, forallb p a = true ->
  span p (a ++ b) = (a ++ fst (span p b), snd (span p b)).
Proof.
  induction a; cbn; intros b H; [now destruct (span p b)|].
  apply andb_true_iff in H as [-> H]. now rewrite IHa.
Qed.

(** ** Leading zeros *)
Lemma trim_start_char_spec : forall c s, exists n,
  s = repeat c n ++ trim_start_char c s /\
  match trim_start_char c s with x :: _ => x <> c | [] => True end.
Proof.
  induction s; cbn.
  - now exists 0.
  - destruct (N.eqb_spec a c).
    + subst. destruct IHs as (n & H1 & H2). exists (S n). cbn. split; [congruence|easy].
    + exists 0. easy.
Qed.

(** ** Decimal text *)
Lemma digits_uint_str : forall d, digits (uint_str d) = true.
Proof. induction d; cbn; auto. Qed.
Lemma digits_dec : forall n, digits (dec n) = true.
Proof. intros; apply digits_uint_str. Qed.

Definition dv (acc : N) (s : str) : N := fold_left (fun acc c => acc * 10 + (c - 48))%N s acc.
Lemma dv_app : forall s t acc, dv acc (s ++ t) = dv (dv acc s) t.
Proof. intros; apply fold_left_app. Qed.
Lemma digits_val_dv : forall s, digits_val s = dv 0 s.
Proof. reflexivity. Qed.
Lemma dv_acc : forall s acc, dv acc s = (acc * 10 ^ N.of_nat (length s) + dv 0 s)%N.
Proof.
  induction s; intros; cbn [dv fold_left length].
  - cbn. lia.
  - fold (dv (acc * 10 + (a - 48)) s). fold (dv (0 * 10 + (a - 48)) s).
    rewrite (IHs (acc * 10 + (a - 48))%N), (IHs (0 * 10 + (a - 48))%N).
    rewrite Nat2N.inj_succ, N.pow_succ_r'. lia.
Qed.
Lemma dv_bound : forall s, digits s = true -> (dv 0 s < 10 ^ N.of_nat (length s))%N.
Proof.
  induction s; cbn [digits forallb dv fold_left length]; intros H.
  - cbn. lia.
  - apply andb_true_iff in H as [H1 H2]. apply is_digit_spec in H1. specialize (IHs H2).
    fold (dv (0 * 10 + (a - 48)) s). rewrite dv_acc, Nat2N.inj_succ, N.pow_succ_r'.
    nia.
Qed.

Lemma of_uint_acc_dv : forall d acc, N.pos (Pos.of_uint_acc d acc) = dv (N.pos acc) (uint_str d).
Proof.
  induction d; intros acc; cbn [Pos.of_uint_acc uint_str dv fold_left]; try reflexivity;
  rewrite IHd; unfold dv; f_equal; lia.
Qed.
Lemma of_uint_dv : forall d, N.of_uint d = dv 0 (uint_str d).
Proof.
  unfold N.of_uint.
  induction d; cbn [Pos.of_uint uint_str dv fold_left]; try reflexivity;
  try (rewrite of_uint_acc_dv; reflexivity).
  exact IHd.
Qed.
Lemma digits_val_dec : forall n, digits_val (dec n) = n.
Proof.
  intros. unfold dec. rewrite digits_val_dv, <- of_uint_dv. apply DecimalN.Unsigned.of_to.
Qed.

Fixpoint str_uint (s : str) : Decimal.uint :=
  match s with
  | [] => Decimal.Nil
  | c :: s' =>
      (if N.eqb c 48 then Decimal.D0 else if N.eqb c 49 then Decimal.D1 else if N.eqb c 50 then Decimal.D2
       else if N.eqb c 51 then Decimal.D3 else if N.eqb c 52 then Decimal.D4 else if N.eqb c 53 then Decimal.D5
       else if N.eqb c 54 then Decimal.D6 else if N.eqb c 55 then Decimal.D7 else if N.eqb c 56 then Decimal.D8
       else Decimal.D9) (str_uint s')
  end.
Lemma uint_str_uint : forall s, digits s = true -> uint_str (str_uint s) = s.
Proof.
  induction s; cbn; intros H; [easy|]. apply andb_true_iff in H as [H1 H2].
  apply is_digit_spec in H1.
  repeat match goal with |- context [N.eqb a ?x] =>
    destruct (N.eqb_spec a x); [subst; cbn; now rewrite IHs|] end.
  cbn. rewrite IHs by easy. f_equal. lia.
Qed.

Lemma dec_nonempty : forall n, dec n <> [].
Proof.
  intros n H. unfold dec in H.
  destruct n as [|p]; cbn in H; [discriminate|].
  pose proof (DecimalPos.Unsigned.to_uint_nonnil p) as Hn. cbn in *.
  destruct (Pos.to_uint p); cbn in H; try discriminate. easy.
Qed.

(** digit strings without leading zeros are canonical *)
Lemma dec_digits_val : forall c s, digits (c :: s) = true -> c <> 48%N ->
  dec (digits_val (c :: s)) = c :: s.
Proof.
  intros c s Hd Hc. set (t := c :: s) in *.
  assert (E : digits_val t = N.of_uint (str_uint t)).
  { rewrite of_uint_dv, uint_str_uint by easy. reflexivity. }
  rewrite E. unfold dec. rewrite DecimalN.Unsigned.to_of.
  assert (U : Decimal.unorm (str_uint t) = str_uint t).
  { subst t. cbn in Hd. apply andb_true_iff in Hd as [Hd _]. apply is_digit_spec in Hd. cbn.
    destruct (N.eqb_spec c 48); [easy|].
    repeat match goal with |- context [N.eqb c ?x] => destruct (N.eqb_spec c x) end; reflexivity. }
  rewrite U. now apply uint_str_uint.
Qed.

Lemma dec_0 : dec 0 = [48%N].
Proof. reflexivity. Qed.

(** the text of a positive number starts with a non-zero digit *)
Lemma dec_head : forall n, n <> 0%N -> exists c s, dec n = c :: s /\ c <> 48%N.
Proof.
  intros n Hn. destruct (dec n) as [|c s] eqn:E; [now apply dec_nonempty in E|].
  exists c, s. split; [easy|]. intros ->.
  unfold dec in E. destruct n as [|p]; [easy|]. cbn in E.
  assert (U : Decimal.unorm (Pos.to_uint p) = Pos.to_uint p).
  { pose proof (DecimalN.Unsigned.to_of (N.to_uint (N.pos p))) as U.
    rewrite DecimalN.Unsigned.of_to in U. cbn in U. now symmetry. }
  destruct (Pos.to_uint p) eqn:Ep; cbn in E; try discriminate.
  clear E. cbn in U.
  unfold Decimal.unorm in U. cbn in U.
  pose proof (DecimalPos.Unsigned.to_uint_nonzero p) as Hz. rewrite Ep in Hz.
  destruct (Decimal.nzhead u) eqn:Eu; try discriminate.
  - inversion U; subst. easy.
  - pose proof (DecimalFacts.nzhead_nonzero u u0). congruence.
Qed.

Lemma parse_uint_digits : forall max s, digits s = true -> s <> [] -> (digits_val s <= max)%N ->
  parse_uint max s = Some (digits_val s).
Proof.
  intros max s Hd Hn Hm. unfold parse_uint. destruct s as [|c s]; [easy|].
  assert (Hc : N.eqb c ch_plus = false).
  { cbn in Hd. apply andb_true_iff in Hd as [Hd _]. apply is_digit_spec in Hd.
    unfold ch_plus. apply N.eqb_neq. lia. }
  rewrite Hc. fold (digits (c :: s)). rewrite Hd.
  destruct (N.leb_spec (digits_val (c :: s)) max); [easy|lia].
Qed.
Lemma parse_uint_dec : forall max n, (n <= max)%N -> parse_uint max (dec n) = Some n.
Proof.
  intros. rewrite parse_uint_digits; rewrite ?digits_val_dec; auto using digits_dec, dec_nonempty.
Qed.

Lemma dec_inj : forall a b, dec a = dec b -> a = b.
Proof. intros a b H. apply (f_equal digits_val) in H. now rewrite !digits_val_dec in H. Qed.

(** leading zeros do not count *)
Lemma digits_val_zeros : forall n s, digits_val (repeat 48%N n ++ s) = digits_val s.
Proof. induction n; intros; cbn [repeat app]; [easy|]. apply IHn. Qed.

Lemma digits_val_lt_pow : forall s, digits s = true -> (digits_val s < 10 ^ N.of_nat (length s))%N.
Proof. apply dv_bound. Qed.
