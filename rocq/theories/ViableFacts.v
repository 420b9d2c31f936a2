(** * ViableFacts: the texts that [is_viable] accepts *)
From Verif Require Import Base Unicode Regex RegexSyntax Consts Valid.
From Verif Require Import StrFacts.

Definition sep_char (c : char) : bool := is_punctuation c || is_star c.
Definition tail_char (c : char) : bool := is_punctuation c || is_star c || is_digit c || is_alpha c.

Lemma sep_not_digit : forall c, sep_char c = true -> is_digit c = false.
Proof.
  intros c H. unfold sep_char in H. apply orb_true_iff in H as [H|H].
  - unfold is_punctuation in H. destruct (is_digit c) eqn:E; [|easy]. exfalso.
    apply is_digit_spec in E. revert H. unfold mem_char, punctuation_chars. intros H.
    apply existsb_exists in H as (x & I & H). apply N.eqb_eq in H. subst x.
    assert (G : forallb (fun x => negb (is_digit x)) punctuation_chars = true) by (vm_compute; reflexivity).
    rewrite forallb_forall in G. apply G in I. apply is_digit_spec in E. now rewrite E in I.
  - apply N.eqb_eq in H. now subst c.
Qed.

Lemma sep_not_plus : forall c, sep_char c = true -> is_plus c = false.
Proof.
  intros c H. unfold sep_char in H. apply orb_true_iff in H as [H|H].
  - unfold is_punctuation, mem_char in H. apply existsb_exists in H as (x & I & H). apply N.eqb_eq in H. subst x.
    assert (G : forallb (fun x => negb (is_plus x)) punctuation_chars = true) by (vm_compute; reflexivity).
    rewrite forallb_forall in G. apply G in I. now apply negb_true_iff.
  - apply N.eqb_eq in H. now subst c.
Qed.

Lemma digit_not_plus : forall c, is_digit c = true -> is_plus c = false.
Proof.
  intros c H. apply is_digit_spec in H. unfold is_plus.
  destruct (N.eqb_spec c 43), (N.eqb_spec c 65291); try lia; easy.
Qed.

Lemma first_group_app : forall g d r, forallb sep_char g = true -> is_digit d = true ->
  first_group (g ++ d :: r) = Some r.
Proof.
  intros g d r Hg Hd. unfold first_group, many0. change (fun c => is_punctuation c || is_star c) with sep_char.
  rewrite span_app_stop; [cbn; now rewrite Hd|exact Hg|].
  destruct (sep_char d) eqn:E; [|easy]. apply sep_not_digit in E. congruence.
Qed.

Lemma first_group_inv : forall s r, first_group s = Some r ->
  exists g d, s = g ++ d :: r /\ forallb sep_char g = true /\ is_digit d = true.
Proof.
  intros s r. unfold first_group, many0. change (fun c => is_punctuation c || is_star c) with sep_char.
  destruct (span sep_char s) as [g rest] eqn:E. apply span_spec in E as (-> & Hg & Hr). cbn [snd].
  intros H. destruct rest as [|d rest]; [discriminate|]. cbn in H. destruct (is_digit d) eqn:Ed; [|discriminate].
  inversion H; subst. eauto.
Qed.

Lemma p_short_spec : forall s, p_short s = true <-> exists a b, s = [a; b] /\ is_digit a = true /\ is_digit b = true.
Proof.
  intros s. unfold p_short, one_digit. split.
  - intros H. destruct s as [|a [|b [|c s]]]; cbn in H; try (destruct (is_digit a); discriminate); try discriminate.
    + destruct (is_digit a) eqn:Ea; [|discriminate]. destruct (is_digit b) eqn:Eb; [|discriminate]. eauto.
    + destruct (is_digit a); [|discriminate]. destruct (is_digit b); discriminate.
  - intros (a & b & -> & Ha & Hb). rewrite Ha, Hb. easy.
Qed.

(** the long form *)
Definition long_form (s : str) : Prop :=
  exists plus g1 d1 g2 d2 g3 d3 rest,
    s = plus ++ g1 ++ d1 :: g2 ++ d2 :: g3 ++ d3 :: rest
    /\ forallb is_plus plus = true
    /\ forallb sep_char g1 = true /\ forallb sep_char g2 = true /\ forallb sep_char g3 = true
    /\ is_digit d1 = true /\ is_digit d2 = true /\ is_digit d3 = true
    /\ forallb tail_char rest = true.

Lemma tail_span : forall s, match many0 (fun c => is_punctuation c || is_star c || is_digit c || is_alpha c)
     (many0 (fun c => is_punctuation c || is_star c || is_digit c) s) with [] => true | _ => false end = true
  <-> forallb tail_char s = true.
Proof.
  intros s. unfold many0. change (fun c => is_punctuation c || is_star c || is_digit c || is_alpha c) with tail_char.
  set (q := fun c => is_punctuation c || is_star c || is_digit c).
  destruct (span q s) as [a r] eqn:E1. apply span_spec in E1 as (-> & Ha & _). cbn [snd].
  assert (Ha' : forallb tail_char a = true).
  { apply forallb_forall. intros x I. rewrite forallb_forall in Ha. apply Ha in I. unfold tail_char.
    unfold q in I. rewrite I. easy. }
  rewrite forallb_app, Ha'. cbn [andb]. split.
  - intros H. destruct (span tail_char r) as [u v] eqn:E2. apply span_spec in E2 as (-> & Hu & _).
    cbn [snd] in H. destruct v; [|discriminate]. now rewrite app_nil_r.
  - intros H. now rewrite span_all.
Qed.

Lemma p_long_spec : forall s, p_long s = true <-> long_form s.
Proof.
  intros s. unfold p_long. split.
  - intros H. unfold many0 at 1 in H. destruct (span is_plus s) as [plus s0] eqn:E.
    apply span_spec in E as (-> & Hp & _). cbn [snd] in H.
    destruct (first_group s0) as [s1|] eqn:E1; [|discriminate].
    destruct (first_group s1) as [s2|] eqn:E2; [|discriminate].
    destruct (first_group s2) as [s3|] eqn:E3; [|discriminate].
    apply first_group_inv in E1 as (g1 & d1 & -> & A1 & B1).
    apply first_group_inv in E2 as (g2 & d2 & -> & A2 & B2).
    apply first_group_inv in E3 as (g3 & d3 & -> & A3 & B3).
    apply tail_span in H. exists plus, g1, d1, g2, d2, g3, d3, s3. auto 12.
  - intros (plus & g1 & d1 & g2 & d2 & g3 & d3 & rest & -> & Hp & A1 & A2 & A3 & B1 & B2 & B3 & Hr).
    assert (E : many0 is_plus (plus ++ g1 ++ d1 :: g2 ++ d2 :: g3 ++ d3 :: rest)
                = g1 ++ d1 :: g2 ++ d2 :: g3 ++ d3 :: rest).
    { unfold many0. destruct g1 as [|x g1]; cbn [app].
      - rewrite span_app_stop; [easy|exact Hp|]. now apply digit_not_plus.
      - rewrite span_app_stop; [easy|exact Hp|]. cbn in A1. apply andb_true_iff in A1 as [A1 _].
        now apply sep_not_plus. }
    rewrite E, !first_group_app by easy. now apply tail_span.
Qed.

Theorem is_viable_spec : forall s, is_viable s = true <->
  (exists a b, s = [a; b] /\ is_digit a = true /\ is_digit b = true) \/ long_form s.
Proof.
  intros s. unfold is_viable, valid_phone_number. split.
  - intros H. destruct (_ <? _); [discriminate|]. destruct (p_short s) eqn:E.
    + left. now apply p_short_spec.
    + right. now apply p_long_spec.
  - intros H. assert (Hl : 2 <= blen s).
    { destruct H as [(a & b & -> & _)|(plus & g1 & d1 & g2 & d2 & g3 & d3 & rest & -> & _)].
      - cbn. pose proof (utf8_len_pos a). pose proof (utf8_len_pos b). lia.
      - repeat (rewrite blen_app; cbn [blen]). pose proof (utf8_len_pos d1). pose proof (utf8_len_pos d2). lia. }
    destruct (Nat.ltb_spec (blen s) MIN_LENGTH_FOR_NSN); [unfold MIN_LENGTH_FOR_NSN in *; lia|].
    destruct (p_short s) eqn:E; [easy|]. destruct H as [H|H].
    + apply p_short_spec in H. congruence.
    + now apply p_long_spec.
Qed.

(** ** Consequences *)
Definition viable_char (c : char) : bool := is_plus c || tail_char c.

Lemma viable_chars : forall s c, is_viable s = true -> In c s -> viable_char c = true.
Proof.
  intros s c H I. unfold viable_char, tail_char. apply is_viable_spec in H as [(a & b & -> & Ha & Hb)|H].
  - assert (is_digit c = true) by (destruct I as [<-|[<-|[]]]; easy). rewrite H. now rewrite !orb_true_r.
  - destruct H as (plus & g1 & d1 & g2 & d2 & g3 & d3 & rest & -> & Hp & A1 & A2 & A3 & B1 & B2 & B3 & Hr).
    rewrite forallb_forall in Hp, A1, A2, A3, Hr.
    assert (Hs : sep_char c = true -> is_plus c || (is_punctuation c || is_star c || is_digit c || is_alpha c) = true).
    { unfold sep_char. intros ->. now rewrite !orb_true_r. }
    assert (Hd : is_digit c = true -> is_plus c || (is_punctuation c || is_star c || is_digit c || is_alpha c) = true).
    { intros ->. now rewrite !orb_true_r. }
    repeat (apply in_app_iff in I as [I|I]; [try (now rewrite (Hp _ I)); auto; fail|] || (destruct I as [<-|I]; [auto; fail|])).
    apply Hr in I. unfold tail_char in I. rewrite I. now rewrite orb_true_r.
Qed.

Lemma viable_two_digits : forall s, is_viable s = true ->
  exists x a y b z, s = x ++ a :: y ++ b :: z /\ is_digit a = true /\ is_digit b = true.
Proof.
  intros s H. apply is_viable_spec in H as [(a & b & -> & Ha & Hb)|H].
  - exists [], a, [], b, []. easy.
  - destruct H as (plus & g1 & d1 & g2 & d2 & g3 & d3 & rest & -> & _ & _ & _ & _ & B1 & B2 & _).
    exists (plus ++ g1), d1, g2, d2, (g3 ++ d3 :: rest). rewrite <- app_assoc. auto.
Qed.

Lemma viable_digit : forall s, is_viable s = true -> exists a, In a s /\ is_digit a = true.
Proof.
  intros s H. apply viable_two_digits in H as (x & a & y & b & z & -> & Ha & _). exists a.
  split; [|easy]. apply in_app_iff. right. now left.
Qed.
