(** * C32, C33: length lists, and which documents make the loader panic *)
From Verif Require Import Base Unicode Regex RegexSyntax CountryId Types Metadata Database Loader Api.
From Verif Require Import StrFacts.

(** ** C32: length lists *)
(** An item of a possibleLengths attribute, and the lengths it stands for. *)
Inductive item := Num (n : N) | Rng (a b : N).
Definition item_text (i : item) : str :=
  match i with
  | Num n => dec n
  | Rng a b => lit "[" ++ dec a ++ lit "-" ++ dec b ++ lit "]"
  end.
(** [n] consecutive numbers from [a] on *)
Fixpoint count_up (a : N) (n : nat) : list N :=
  match n with O => [] | S n' => a :: count_up (a + 1)%N n' end.
Definition item_lengths (i : item) : list N :=
  match i with
  | Num n => [n]
  | Rng a b => count_up a (N.to_nat (b + 1 - a))
  end.
(** lengths are 16-bit numbers, and a range must end below the largest *)
Definition item_fits (i : item) : Prop :=
  match i with Num n => (n <= 65535)%N | Rng a b => (a <= 65535)%N /\ (b < 65535)%N end.

(** blanks, tabs, line ends *)
Definition blank (s : str) : Prop := forall c, In c s -> In c [9; 10; 13; 32]%N.
(** white space as Unicode has it (the property White_Space), which is what Rust trims *)
Definition white_space : list char :=
  [9; 10; 11; 12; 13; 32; 133; 160; 5760; 8192; 8193; 8194; 8195; 8196; 8197; 8198; 8199; 8200; 8201; 8202;
   8232; 8233; 8239; 8287; 12288]%N.
Definition white (s : str) : Prop := forall c, In c s -> In c white_space.
Record padded := mk_padded { before : str; it : item; after : str }.
Definition padded_ok (p : padded) : Prop := white (before p) /\ white (after p) /\ item_fits (it p).
Definition padded_text (p : padded) : str := before p ++ item_text (it p) ++ after p.
Fixpoint commas (l : list str) : str :=
  match l with [] => [] | [x] => x | x :: l' => x ++ lit "," ++ commas l' end.

Lemma split_char_none : forall c s, ~ In c s -> split_char c s = [s].
Proof.
  induction s as [|x s IH]; intros H; [reflexivity|]. cbn [split_char].
  destruct (N.eqb_spec x c) as [->|]; [elim H; now left|]. rewrite IH; [reflexivity|]. intros I. apply H. now right.
Qed.
Lemma split_char_app : forall c s t, ~ In c s -> split_char c (s ++ c :: t) = s :: split_char c t.
Proof.
  induction s as [|x s IH]; intros t H; cbn [app split_char]; [now rewrite N.eqb_refl|].
  destruct (N.eqb_spec x c) as [->|]; [elim H; now left|]. rewrite IH; [reflexivity|]. intros I. apply H. now right.
Qed.
Lemma split_commas : forall l, l <> [] -> (forall s, In s l -> ~ In 44%N s) -> split_char 44%N (commas l) = l.
Proof.
  induction l as [|x l IH]; intros H1 H2; [now elim H1|]. cbn [commas]. destruct l as [|y l].
  - apply split_char_none, H2. now left.
  - change (x ++ lit "," ++ commas (y :: l)) with (x ++ 44%N :: commas (y :: l)).
    rewrite split_char_app by (apply H2; now left). f_equal. apply IH; [discriminate|].
    intros s I. apply H2. now right.
Qed.

Lemma white_ws : forall s, white s -> forallb is_whitespace s = true.
Proof.
  intros s H. apply forallb_forall. intros c I. apply H in I.
  repeat (destruct I as [<-|I]; [reflexivity|]). destruct I.
Qed.
Lemma is_whitespace_white : forall c, is_whitespace c = true -> In c white_space.
Proof.
  intros c H. unfold is_whitespace in H.
  repeat (apply orb_prop in H as [H|H]);
    first [apply N.eqb_eq in H; subst c; cbn; tauto
          |apply andb_prop in H as [A B]; apply N.leb_le in A, B; unfold white_space; cbn [In]; lia].
Qed.
Lemma span_skip : forall p a c b, forallb p a = true -> p c = false -> snd (span p (a ++ c :: b)) = c :: b.
Proof. intros. now rewrite span_app_stop. Qed.
Lemma forallb_rev : forall A (p : A -> bool) l, forallb p l = true -> forallb p (rev l) = true.
Proof. intros A p l H. rewrite forallb_forall in *. intros x I. apply H. now apply in_rev. Qed.
Lemma trim_ws_pad : forall a b s, forallb is_whitespace a = true -> forallb is_whitespace b = true ->
  s <> [] -> forallb (fun c => negb (is_whitespace c)) s = true -> trim_ws (a ++ s ++ b) = s.
Proof.
  intros a b s Ha Hb Hne Hs. unfold trim_ws.
  assert (E1 : snd (span is_whitespace (a ++ s ++ b)) = s ++ b).
  { destruct s as [|x s]; [now elim Hne|]. cbn [forallb] in Hs. apply andb_prop in Hs as [Hx _].
    apply negb_true_iff in Hx. cbn [app]. now apply span_skip. }
  rewrite E1. cbv zeta. rewrite rev_app_distr.
  assert (E2 : snd (span is_whitespace (rev b ++ rev s)) = rev s).
  { apply forallb_rev in Hs. destruct (rev s) as [|y t] eqn:Er.
    - elim Hne. rewrite <- (rev_involutive s), Er. reflexivity.
    - cbn [forallb] in Hs. apply andb_prop in Hs as [Hy _]. apply negb_true_iff in Hy.
      apply span_skip; [now apply forallb_rev|exact Hy]. }
  rewrite E2. apply rev_involutive.
Qed.

Lemma digit_char : forall n c, In c (dec n) -> (48 <= c <= 57)%N.
Proof.
  intros n c I. pose proof (digits_dec n) as D. unfold digits in D. rewrite forallb_forall in D.
  apply is_digit_spec, D, I.
Qed.
Lemma digit_not_ws : forall c, (48 <= c <= 57)%N -> is_whitespace c = false.
Proof.
  intros c H. assert (K : exists n, (n < 10)%nat /\ c = (48 + N.of_nat n)%N) by (exists (N.to_nat (c - 48)); lia).
  destruct K as (n & Hn & ->). do 10 (destruct n as [|n]; [reflexivity|]). lia.
Qed.
Lemma item_chars : forall i c, In c (item_text i) -> (48 <= c <= 57)%N \/ In c (lit "[-]").
Proof.
  intros [n|a b] c I; cbn [item_text] in I; [left; now apply digit_char in I|].
  apply in_app_iff in I as [I|I]; [right; cbn in *; tauto|].
  apply in_app_iff in I as [I|I]; [left; now apply digit_char in I|].
  apply in_app_iff in I as [I|I]; [right; cbn in *; tauto|].
  apply in_app_iff in I as [I|I]; [left; now apply digit_char in I|right; cbn in *; tauto].
Qed.
Lemma item_ne : forall i, item_text i <> [].
Proof. intros [n|a b]; [apply dec_nonempty|discriminate]. Qed.

Lemma range_list_count : forall a b, range_list a b = count_up a (N.to_nat (b + 1 - a)).
Proof.
  intros a b. unfold range_list. generalize (N.to_nat (b + 1 - a)) as n. intros n.
  assert (G : forall n s, map (fun k => (a + N.of_nat k)%N) (seq s n) = count_up (a + N.of_nat s) n).
  { clear n. induction n as [|n IH]; intros s; [reflexivity|]. cbn [seq map count_up]. f_equal.
    rewrite IH. f_equal. lia. }
  rewrite G. f_equal. lia.
Qed.

Lemma length_part_bracket : forall s, length_part (91%N :: s) =
  match split_char 45%N (91%N :: s) with
  | start :: end_ :: _ =>
      let* s := unwrap (slice_from start 1) in
      let* s := ok_or (parse_u16 s) LInteger in
      match blen end_ with
      | O => Panic
      | S k =>
          let* e := unwrap (slice_to end_ k) in
          let* e := ok_or (parse_u16 e) LInteger in
          if N.eqb e 65535 then Panic else Ok (range_list s e)
      end
  | _ => Ok []
  end.
Proof. reflexivity. Qed.

Lemma length_part_item : forall i, item_fits i -> length_part (item_text i) = Ok (item_lengths i).
Proof.
  intros [n|a b] H; cbn [item_fits item_text item_lengths] in *.
  - unfold length_part. destruct (dec n) as [|c s] eqn:E; [now apply dec_nonempty in E|].
    assert (D : (48 <= c <= 57)%N) by (apply (digit_char n); rewrite E; now left).
    replace (N.eqb c 91) with false by (symmetry; apply N.eqb_neq; lia).
    rewrite <- E. unfold parse_u16. rewrite parse_uint_dec; [reflexivity|exact H].
  - destruct H as [Ha Hb].
    change (length_part (91%N :: dec a ++ 45%N :: dec b ++ [93%N]) = Ok (count_up a (N.to_nat (b + 1 - a)))).
    rewrite length_part_bracket.
    replace (91%N :: dec a ++ 45%N :: dec b ++ [93%N]) with ((91%N :: dec a) ++ 45%N :: dec b ++ [93%N]) by reflexivity.
    assert (Na : ~ In 45%N (91%N :: dec a)).
    { intros [I|I]; [discriminate I|]. apply digit_char in I. lia. }
    assert (Nb : ~ In 45%N (dec b ++ [93%N])).
    { intros I. apply in_app_iff in I as [I|[I|[]]]; [apply digit_char in I; lia|discriminate I]. }
    rewrite split_char_app by exact Na. rewrite split_char_none by exact Nb.
    change (91%N :: dec a) with ([91%N] ++ dec a). rewrite (slice_from_app [91%N] (dec a) : slice_from ([91%N] ++ dec a) 1 = _).
    cbn [unwrap obind]. unfold parse_u16. rewrite parse_uint_dec by exact Ha. cbn [ok_or obind].
    assert (L : blen (dec b ++ [93%N]) = S (blen (dec b))) by (rewrite blen_app; cbn; lia).
    rewrite L. rewrite slice_to_app. cbn [unwrap obind].
    rewrite parse_uint_dec by (unfold u16_max; lia). cbn [ok_or obind].
    replace (N.eqb b 65535) with false by (symmetry; apply N.eqb_neq; lia). now rewrite range_list_count.
Qed.

(** Every non-empty list of items, with any white space around each. *)
Theorem C32_lengths : forall l, l <> [] -> (forall p, In p l -> padded_ok p) ->
  lengths (commas (map padded_text l)) = Ok (concat (map (fun p => item_lengths (it p)) l)).
Proof.
  intros l Hne Hl. unfold lengths.
  rewrite split_commas.
  2:{ destruct l; [now elim Hne|discriminate]. }
  2:{ intros s I. apply in_map_iff in I as (p & <- & I). destruct (Hl p I) as (Hb & Ha & _). unfold padded_text.
      intros J. apply in_app_iff in J as [J|J]; [apply Hb in J; cbn in J; intuition discriminate|].
      apply in_app_iff in J as [J|J]; [|apply Ha in J; cbn in J; intuition discriminate].
      apply item_chars in J as [J|J]; [lia|cbn in J; intuition discriminate]. }
  clear Hne. induction l as [|p l IH]; [reflexivity|]. cbn [map lengths_loop concat].
  destruct (Hl p (or_introl eq_refl)) as (Hb & Ha & Hf).
  unfold padded_text at 1. rewrite trim_ws_pad; [|now apply white_ws|now apply white_ws|apply item_ne|].
  - rewrite length_part_item by exact Hf. cbn [obind]. rewrite IH by (intros q I; apply Hl; now right). reflexivity.
  - apply forallb_forall. intros c I. apply negb_true_iff. apply item_chars in I as [I|I]; [now apply digit_not_ws|].
    repeat (destruct I as [<-|I]; [reflexivity|]). destruct I.
Qed.
Print Assumptions C32_lengths.

(** What a range stands for: the numbers from its start to its end, in order. *)
Theorem C32_range : forall a b k, nth_error (item_lengths (Rng a b)) k
  = if (a + N.of_nat k <=? b)%N then Some (a + N.of_nat k)%N else None.
Proof.
  intros a b k. cbn [item_lengths].
  assert (G : forall n a k, nth_error (count_up a n) k = if (k <? n)%nat then Some (a + N.of_nat k)%N else None).
  { clear. induction n as [|n IH]; intros a [|k]; cbn [count_up nth_error]; try reflexivity.
    - rewrite N.add_0_r. reflexivity.
    - rewrite IH. change (S k <? S n)%nat with (k <? n)%nat. destruct (k <? n)%nat; [|reflexivity]. f_equal. lia. }
  rewrite G. destruct (Nat.ltb_spec k (N.to_nat (b + 1 - a))), (N.leb_spec (a + N.of_nat k) b); try reflexivity; lia.
Qed.
Print Assumptions C32_range.

Example C32_ex : let l := [mk_padded [] (Rng 5 7) []; mk_padded [12288%N] (Num 9) [10%N]; mk_padded [] (Rng 11 11) []] in
  (forall p, In p l -> padded_ok p) /\ l <> []
  /\ commas (map padded_text l) = lit "[5-7]," ++ [12288%N] ++ lit "9" ++ [10%N] ++ lit ",[11-11]"
  /\ lengths (commas (map padded_text l)) = Ok [5; 6; 7; 9; 11]%N.
Proof.
  split; [|split; [discriminate|vm_compute; auto]].
  intros p I. repeat (destruct I as [<-|I];
    [split; [intros c J; cbn in *; tauto|split; [intros c J; cbn in *; tauto|cbn; lia]]|]). destruct I.
Qed.

(** The bound on the end of a range is needed: it overflows. *)
Theorem C32_largest_refuted : lengths (item_text (Rng 1 65535)) = Panic.
Proof. vm_compute. reflexivity. Qed.
Print Assumptions C32_largest_refuted.

(** ** C33: which documents make loading panic *)
(** An item of a length list that the loader cannot handle: an empty one, or a
    range "[a-e" (up to a further '-', if any) whose end [e] is empty, finishes
    with a character outside ASCII, or is 65535 and one more character. *)
Definition bad_item (s : str) : Prop :=
  s = [] \/
  exists a e r, s = lit "[" ++ a ++ lit "-" ++ e ++ r /\ ~ In 45%N e /\ (r = [] \/ exists r', r = lit "-" ++ r')
    /\ (e = [] \/ (exists x c, e = x ++ [c] /\ (128 <= c)%N)
        \/ (exists x c, e = x ++ [c] /\ parse_u16 x = Some 65535%N)).
(** [v] has such an item *)
Definition bad_lengths (v : str) : Prop := exists s, In s (split_char 44%N v) /\ bad_item (trim_ws s).

Lemma obind_panic : forall E A B (o : outcome E A) (f : A -> outcome E B),
  (let* a := o in f a) = Panic -> o = Panic \/ exists a, o = Ok a /\ f a = Panic.
Proof. intros E A B [a|e|] f H; cbn [obind] in H; [right; eauto|discriminate|now left]. Qed.
Lemma unwrap_panic : forall E A (o : option A), @unwrap E A o = Panic -> o = None.
Proof. intros E A [a|] H; [discriminate|reflexivity]. Qed.
Lemma ok_or_no_panic : forall E A (o : option A) (e : E), ok_or o e <> Panic.
Proof. intros E A [a|] e; discriminate. Qed.
Lemma ok_or_inv : forall E A (o : option A) (e : E) a, ok_or o e = Ok a -> o = Some a.
Proof. intros E A [b|] e a H; inversion H. reflexivity. Qed.
Lemma unwrap_inv : forall E A (o : option A) a, @unwrap E A o = Ok a -> o = Some a.
Proof. intros E A [b|] a H; inversion H. reflexivity. Qed.

Lemma split_char_head : forall c s p ps, split_char c s = p :: ps ->
  (ps = [] /\ s = p /\ ~ In c p) \/ (exists t, s = p ++ c :: t /\ ~ In c p /\ split_char c t = ps).
Proof.
  induction s as [|x s IH]; intros p ps H; cbn [split_char] in H.
  - inversion H; subst. left. auto.
  - destruct (N.eqb_spec x c) as [->|Hx].
    + inversion H; subst. right. exists s. auto.
    + destruct (split_char c s) as [|q qs] eqn:E.
      * destruct s; cbn in E; [discriminate|]. destruct (N.eqb _ _); [discriminate|]. destruct (split_char c s); discriminate.
      * inversion H; subst. destruct (IH q ps eq_refl) as [(-> & -> & N)|(t & -> & N & Ht)].
        -- left. split; [reflexivity|]. split; [reflexivity|]. intros [I|I]; [now elim Hx|auto].
        -- right. exists t. split; [reflexivity|]. split; [|exact Ht]. intros [I|I]; [now elim Hx|auto].
Qed.

Lemma length_part_panic : forall s, length_part s = Panic -> bad_item s.
Proof.
  intros [|c s] H; [now left|]. unfold length_part in H. destruct (N.eqb_spec c 91) as [->|Hc].
  2:{ apply obind_panic in H as [H|(n & _ & H)]; [now apply ok_or_no_panic in H|discriminate]. }
  match type of H with context [split_char 45%N ?x] => destruct (split_char 45%N x) as [|p ps] eqn:E end; [discriminate H|].
  destruct ps as [|e ps]; [discriminate H|].
  apply split_char_head in E as [(K & _)|(t & E & Np & Et)]; [discriminate|].
  destruct p as [|c p]; [cbn in E; discriminate|]. cbn [app] in E. injection E as <- ->.
  apply obind_panic in H as [H|(s1 & _ & H)].
  { apply unwrap_panic in H. change (91%N :: p) with ([91%N] ++ p) in H.
    rewrite (slice_from_app [91%N] p : slice_from ([91%N] ++ p) 1 = _) in H. discriminate. }
  apply obind_panic in H as [H|(n & _ & H)]; [now apply ok_or_no_panic in H|].
  right. assert (R : exists r, t = e ++ r /\ ~ In 45%N e /\ (r = [] \/ exists r', r = lit "-" ++ r')).
  { apply split_char_head in Et as [(_ & -> & N)|(u & -> & N & _)].
    - exists []. rewrite app_nil_r. auto.
    - exists (45%N :: u). split; [reflexivity|]. split; [exact N|]. right. exists u. reflexivity. }
  destruct R as (r & -> & Ne & Hr). exists p, e, r. split; [reflexivity|]. split; [exact Ne|]. split; [exact Hr|].
  destruct (rev e) as [|x y] eqn:Er.
  { left. rewrite <- (rev_involutive e), Er. reflexivity. }
  assert (Ee : e = rev y ++ [x]) by (rewrite <- (rev_involutive e), Er; reflexivity).
  right. destruct (N.ltb_spec x 128) as [Hx|Hx].
  2:{ left. exists (rev y), x. auto. }
  right. exists (rev y), x. split; [exact Ee|].
  assert (L : blen e = S (blen (rev y))).
  { rewrite Ee, blen_app. cbn [blen fold_right]. change (blen [x]) with (utf8_len x + 0). rewrite utf8_len_ascii by exact Hx. lia. }
  rewrite L in H. rewrite Ee, slice_to_app in H. cbn [unwrap obind] in H.
  apply obind_panic in H as [H|(n2 & Hn & H)]; [now apply ok_or_no_panic in H|].
  apply ok_or_inv in Hn. destruct (N.eqb_spec n2 65535) as [->|]; [exact Hn|discriminate].
Qed.

Lemma lengths_panic : forall v, lengths v = Panic -> bad_lengths v.
Proof.
  intros v H. unfold lengths in H. unfold bad_lengths. induction (split_char 44%N v) as [|p l IH]; [discriminate|].
  cbn [lengths_loop] in H. apply obind_panic in H as [H|(a & _ & H)].
  - exists p. split; [now left|now apply length_part_panic].
  - apply obind_panic in H as [H|(b & _ & H)]; [|discriminate].
    destruct (IH H) as (s & I & B). exists s. split; [now right|exact B].
Qed.

(** A length attribute with a bad item occurs in the document. *)
Definition bad_doc (evs : list event) : Prop :=
  exists attrs k v, In (EvEmpty (lit "possibleLengths") attrs) evs /\ In (Some (k, v)) attrs
    /\ (k = lit "national" \/ k = lit "localOnly") /\ bad_lengths v.
Lemma bad_doc_incl : forall e1 e2, incl e1 e2 -> bad_doc e1 -> bad_doc e2.
Proof. intros e1 e2 H (attrs & k & v & I & J). exists attrs, k, v. split; [now apply H|exact J]. Qed.

Lemma text_rest : forall name evs acc t rest, l_text name acc evs = Ok (t, rest) -> incl rest evs.
Proof.
  intros name. induction evs as [|e evs IH]; intros acc t rest H; cbn [l_text] in H; [discriminate|].
  destruct e; try discriminate.
  - destruct (str_eqb _ _); [|discriminate]. inversion H; subst. apply incl_tl, incl_refl.
  - apply IH in H. now apply incl_tl.
Qed.
Lemma text_no_panic : forall name evs acc, l_text name acc evs <> Panic.
Proof.
  intros name. induction evs as [|e evs IH]; intros acc; cbn [l_text]; [discriminate|].
  destruct e; try discriminate; [|apply IH]. destruct (str_eqb _ _); discriminate.
Qed.
Lemma ignore_rest : forall evs stack rest, l_ignore stack evs = Ok (tt, rest) -> incl rest evs.
Proof.
  induction evs as [|e evs IH]; intros stack rest H; destruct stack as [|n stack]; cbn [l_ignore] in H; try discriminate.
  - inversion H; subst. apply incl_refl.
  - inversion H; subst. apply incl_refl.
  - destruct e; try discriminate; try (apply IH in H; now apply incl_tl).
    destruct (str_eqb _ _); [|discriminate]. destruct stack; [inversion H; subst; apply incl_tl, incl_refl|].
    apply IH in H. now apply incl_tl.
Qed.
Lemma ignore_no_panic : forall evs stack, l_ignore stack evs <> Panic.
Proof.
  induction evs as [|e evs IH]; intros [|n stack]; cbn [l_ignore]; try discriminate.
  destruct e; try discriminate; try apply IH. destruct (str_eqb _ _); [|discriminate]. destruct stack; [discriminate|apply IH].
Qed.

Lemma fold_attrs_panic : forall A (f : A -> str -> str -> outcome lerr A) l a, fold_attrs f a l = Panic ->
  exists a' k v, In (Some (k, v)) l /\ f a' k v = Panic.
Proof.
  intros A f. induction l as [|[[k v]|] l IH]; intros a H; cbn [fold_attrs] in H; try discriminate.
  apply obind_panic in H as [H|(a' & _ & H)].
  - exists a, k, v. split; [now left|exact H].
  - destruct (IH _ H) as (a2 & k2 & v2 & I & J). exists a2, k2, v2. split; [now right|exact J].
Qed.
Lemma descriptor_attr_panic : forall d k v, descriptor_attr d k v = Panic ->
  (k = lit "national" \/ k = lit "localOnly") /\ bad_lengths v.
Proof.
  intros d k v H. unfold descriptor_attr in H. destruct (str_eqb k (lit "national")) eqn:E1.
  - apply str_eqb_eq in E1. split; [now left|]. apply obind_panic in H as [H|(x & _ & H)]; [now apply lengths_panic|discriminate].
  - destruct (str_eqb k (lit "localOnly")) eqn:E2; [|discriminate]. apply str_eqb_eq in E2. split; [now right|].
    apply obind_panic in H as [H|(x & _ & H)]; [now apply lengths_panic|discriminate].
Qed.
Lemma parse_bool_no_panic : forall s, parse_bool s <> Panic.
Proof. intros s. unfold parse_bool. destruct (str_eqb _ _); [discriminate|]. destruct (str_eqb _ _); discriminate. Qed.

Lemma format_attr_no_panic : forall f k v, format_attr f k v <> Panic.
Proof.
  intros f k v H. unfold format_attr in H.
  repeat match type of H with (if ?b then _ else _) = _ => destruct b end; try discriminate.
  apply obind_panic in H as [H|(x & _ & H)]; [now apply parse_bool_no_panic in H|discriminate].
Qed.
Lemma territory_attr_no_panic : forall m k v, territory_attr m k v <> Panic.
Proof.
  intros m k v H. unfold territory_attr in H. cbv zeta in H.
  repeat match type of H with (if ?b then _ else _) = _ => destruct b end; try discriminate.
  all: apply obind_panic in H as [H|(x & _ & H)];
    [now (apply parse_bool_no_panic in H || apply ok_or_no_panic in H)|discriminate].
Qed.

(** [f] leaves a part of the events, and panics only on a bad document *)
Definition tame {A} (f : list event -> res A) : Prop :=
  forall evs, match f evs with Ok (_, rest) => incl rest evs | Err _ => True | Panic => bad_doc evs end.

Ltac tame_text H := let E := fresh in destruct (l_text _ _ _) as [[? ?]| |] eqn:E; cbn [obind];
  [apply text_rest in E|exact I|exfalso; exact (text_no_panic _ _ _ E)].

Lemma tame_step : forall A (f : list event -> res A) e evs rest, tame f -> incl rest evs ->
  match f rest with Ok (_, r) => incl r (e :: evs) | Err _ => True | Panic => bad_doc (e :: evs) end.
Proof.
  intros A f e evs rest Hf Hi. specialize (Hf rest). destruct (f rest) as [[a r]|x|]; [|exact I|].
  - apply incl_tl. eapply incl_tran; eauto.
  - eapply bad_doc_incl; [|exact Hf]. now apply incl_tl.
Qed.

Lemma tame_descriptor : forall fuel name d, tame (l_descriptor fuel name d).
Proof.
  induction fuel as [|fuel IH]; intros name d evs; cbn [l_descriptor]; [exact I|].
  destruct evs as [|e evs]; [exact I|]. destruct e; try exact I.
  - destruct (str_eqb name0 (lit "nationalNumberPattern")).
    + tame_text H. now apply tame_step.
    + destruct (str_eqb name0 (lit "exampleNumber")); [|exact I]. tame_text H. now apply tame_step.
  - destruct (str_eqb name0 name); [|exact I]. apply incl_tl, incl_refl.
  - destruct (str_eqb name0 (lit "possibleLengths")) eqn:E; [|exact I]. apply str_eqb_eq in E. subst name0.
    destruct (fold_attrs descriptor_attr d attrs) as [d'| |] eqn:F; cbn [obind].
    + apply tame_step; [apply IH|apply incl_refl].
    + exact I.
    + apply fold_attrs_panic in F as (d' & k & v & J & K). apply descriptor_attr_panic in K.
      exists attrs, k, v. split; [now left|]. split; [exact J|exact K].
  - apply tame_step; [apply IH|apply incl_refl].
  - apply tame_step; [apply IH|apply incl_refl].
Qed.

Lemma tame_format_loop : forall fuel name f intl, tame (l_format_loop fuel name f intl).
Proof.
  induction fuel as [|fuel IH]; intros name f intl evs; cbn [l_format_loop]; [exact I|].
  destruct evs as [|e evs]; [exact I|]. destruct e; try exact I.
  - destruct (str_eqb name0 (lit "leadingDigits")); [tame_text H; now apply tame_step|].
    destruct (str_eqb name0 (lit "format")); [tame_text H; now apply tame_step|].
    destruct (str_eqb name0 (lit "intlFormat")); [tame_text H; now apply tame_step|exact I].
  - destruct (str_eqb name0 name); [|exact I]. apply incl_tl, incl_refl.
  - apply tame_step; [apply IH|apply incl_refl].
  - apply tame_step; [apply IH|apply incl_refl].
Qed.
Lemma tame_format : forall fuel dflt name attrs, tame (l_format fuel dflt name attrs).
Proof.
  intros fuel dflt name attrs evs. unfold l_format. destruct (fold_attrs format_attr dflt attrs) as [f| |] eqn:F; cbn [obind].
  - apply tame_format_loop.
  - exact I.
  - apply fold_attrs_panic in F as (a & k & v & _ & K). now apply format_attr_no_panic in K.
Qed.
Lemma tame_bind : forall A B (f : list event -> res A) (g : A -> list event -> res B) e evs,
  tame f -> (forall a, tame (g a)) ->
  match (let* (a, r) := f evs in g a r) with
  | Ok (_, r) => incl r (e :: evs) | Err _ => True | Panic => bad_doc (e :: evs) end.
Proof.
  intros A B f g e evs Hf Hg. specialize (Hf evs). destruct (f evs) as [[a r]| |]; cbn [obind].
  - now apply tame_step.
  - exact I.
  - eapply bad_doc_incl; [|exact Hf]. apply incl_tl, incl_refl.
Qed.
Lemma tame_formats : forall fuel dflt name natl intl, tame (l_formats fuel dflt name natl intl).
Proof.
  induction fuel as [|fuel IH]; intros dflt name natl intl evs; cbn [l_formats]; [exact I|].
  destruct evs as [|e evs]; [exact I|]. destruct e; try exact I.
  - destruct (str_eqb name0 (lit "numberFormat")); [|exact I].
    pose proof (tame_format fuel dflt name0 attrs evs) as T.
    destruct (l_format fuel dflt name0 attrs evs) as [[[f fi] r]| |]; cbn [obind].
    + now apply tame_step.
    + exact I.
    + eapply bad_doc_incl; [|exact T]. apply incl_tl, incl_refl.
  - destruct (str_eqb name0 name); [|exact I]. apply incl_tl, incl_refl.
  - apply tame_step; [apply IH|apply incl_refl].
  - apply tame_step; [apply IH|apply incl_refl].
Qed.
Lemma tame_ignore : forall stack, tame (l_ignore stack).
Proof.
  intros stack evs. destruct (l_ignore stack evs) as [[[] r]| |] eqn:E; [now apply ignore_rest in E|exact I|].
  exfalso. exact (ignore_no_panic _ _ E).
Qed.
Lemma tame_territory_loop : forall fuel m, tame (l_territory_loop fuel m).
Proof.
  induction fuel as [|fuel IH]; intros m evs; cbn [l_territory_loop]; [exact I|].
  destruct evs as [|e evs]; [exact I|]. destruct e; try exact I.
  - destruct (_ || _)%bool.
    { apply (tame_bind unit lmetadata (l_ignore [name]) (fun _ => l_territory_loop fuel m)); [apply tame_ignore|intros; apply IH]. }
    destruct (dslot_find name all_dslots) as [slot|].
    { apply (tame_bind _ _ (l_descriptor fuel name (lm_default_descriptor m))
        (fun d => l_territory_loop fuel (lm_set_slot m slot d))); [apply tame_descriptor|intros; apply IH]. }
    destruct (str_eqb name (lit "availableFormats")); [|exact I].
    pose proof (tame_formats fuel (lm_default_format m) name [] [] evs) as T.
    destruct (l_formats fuel _ name [] [] evs) as [[[f fi] r]| |]; cbn [obind].
    + now apply tame_step.
    + exact I.
    + eapply bad_doc_incl; [|exact T]. apply incl_tl, incl_refl.
  - destruct (str_eqb name (lit "territory")); [|exact I]. apply incl_tl, incl_refl.
  - apply tame_step; [apply IH|apply incl_refl].
  - apply tame_step; [apply IH|apply incl_refl].
Qed.
Lemma tame_territory : forall fuel attrs, tame (l_territory fuel attrs).
Proof.
  intros fuel attrs evs. unfold l_territory. destruct (fold_attrs territory_attr lmetadata_default attrs) as [f| |] eqn:F; cbn [obind].
  - apply tame_territory_loop.
  - exact I.
  - apply fold_attrs_panic in F as (a & k & v & _ & K). now apply territory_attr_no_panic in K.
Qed.
Lemma tame_territories : forall fuel acc, tame (l_territories fuel acc).
Proof.
  induction fuel as [|fuel IH]; intros acc evs; cbn [l_territories]; [exact I|].
  destruct evs as [|e evs]; [exact I|]. destruct e; try exact I.
  - destruct (str_eqb name (lit "territory")).
    + apply (tame_bind _ _ (l_territory fuel attrs) (fun m => l_territories fuel (m :: acc))); [apply tame_territory|intros; apply IH].
    + apply (tame_bind unit _ (l_ignore [name]) (fun _ => l_territories fuel acc)); [apply tame_ignore|intros; apply IH].
  - destruct (str_eqb name (lit "territories")); [|exact I]. apply incl_tl, incl_refl.
  - apply tame_step; [apply IH|apply incl_refl].
  - apply tame_step; [apply IH|apply incl_refl].
Qed.
Lemma metadata_panic : forall fuel acc evs, l_metadata fuel acc evs = Panic -> bad_doc evs.
Proof.
  induction fuel as [|fuel IH]; intros acc evs H; cbn [l_metadata] in H; [discriminate|].
  destruct evs as [|e evs]; [discriminate|].
  assert (S : forall acc r, incl r evs -> l_metadata fuel acc r = Panic -> bad_doc (e :: evs)).
  { intros acc' r Hr Hp. apply IH in Hp. eapply bad_doc_incl; [|exact Hp]. now apply incl_tl. }
  destruct e; try discriminate; try (eapply S; [apply incl_refl|exact H]).
  - destruct (str_eqb name (lit "phoneNumberMetadata")); [eapply S; [apply incl_refl|exact H]|].
    destruct (str_eqb name (lit "territories")).
    + pose proof (tame_territories fuel [] evs) as T. destruct (l_territories fuel [] evs) as [[ts r]| |]; cbn [obind] in H.
      * eapply S; [exact T|exact H].
      * discriminate.
      * eapply bad_doc_incl; [|exact T]. apply incl_tl, incl_refl.
    + pose proof (tame_ignore [name] evs) as T. destruct (l_ignore [name] evs) as [[ts r]| |]; cbn [obind] in H.
      * eapply S; [exact T|exact H].
      * discriminate.
      * eapply bad_doc_incl; [|exact T]. apply incl_tl, incl_refl.
  - destruct (str_eqb name (lit "phoneNumberMetadata")); discriminate.
Qed.

(** Reading the document panics only on such an attribute... *)
Theorem C33_load : forall evs, load evs = Panic -> bad_doc evs.
Proof. intros evs. apply metadata_panic. Qed.
Print Assumptions C33_load.

(** ...and building the database only on a description without a pattern. *)
Definition has_description (m : lmetadata) (d : ldescriptor) : Prop :=
  In (Some d) [lm_general m; lm_fixed_line m; lm_mobile m; lm_toll_free m; lm_premium_rate m; lm_shared_cost m;
    lm_personal_number m; lm_voip m; lm_pager m; lm_uan m; lm_emergency m; lm_voicemail m; lm_short_code m;
    lm_standard_rate m; lm_carrier m; lm_no_international m].

Lemma db_regex_no_panic : forall s, db_regex s <> Panic.
Proof. intros s. apply ok_or_no_panic. Qed.
Lemma db_descriptor_panic : forall d, db_descriptor d = Panic -> ld_national_number d = None.
Proof.
  intros d H. unfold db_descriptor in H. apply obind_panic in H as [H|(a & H1 & H)]; [now apply unwrap_panic in H|].
  apply obind_panic in H as [H|(p & _ & H)]; [now apply ok_or_no_panic in H|].
  apply obind_panic in H as [H|(r & _ & H)]; [now apply db_regex_no_panic in H|discriminate].
Qed.
Lemma omap_opt_panic : forall E A B (f : A -> outcome E B) o, omap_opt f o = Panic -> exists a, o = Some a /\ f a = Panic.
Proof.
  intros E A B f [a|] H; [|discriminate]. cbn [omap_opt] in H. apply obind_panic in H as [H|(b & _ & H)]; [eauto|discriminate].
Qed.
Lemma omap_list_panic : forall E A B (f : A -> outcome E B) l, omap_list f l = Panic -> exists a, In a l /\ f a = Panic.
Proof.
  induction l as [|a l IH]; intros H; cbn [omap_list] in H; [discriminate|].
  apply obind_panic in H as [H|(b & _ & H)]; [exists a; split; [now left|exact H]|].
  apply obind_panic in H as [H|(bs & _ & H)]; [|discriminate]. destruct (IH H) as (x & I & J). exists x. split; [now right|exact J].
Qed.
Lemma db_format_no_panic : forall f, db_format f <> Panic.
Proof.
  intros f H. unfold db_format in H.
  apply obind_panic in H as [H|(p & _ & H)]; [now apply ok_or_no_panic in H|].
  apply obind_panic in H as [H|(r & _ & H)]; [now apply db_regex_no_panic in H|].
  apply obind_panic in H as [H|(t & _ & H)]; [now apply ok_or_no_panic in H|].
  apply obind_panic in H as [H|(l & _ & H)]; [|discriminate].
  apply omap_list_panic in H as (x & _ & H). now apply db_regex_no_panic in H.
Qed.
Lemma db_metadata_panic : forall m, db_metadata m = Panic -> exists d, has_description m d /\ ld_national_number d = None.
Proof.
  intros m H. unfold db_metadata in H.
  apply obind_panic in H as [H|(g & Hg & H)]; [now apply ok_or_no_panic in H|]. apply ok_or_inv in Hg.
  apply obind_panic in H as [H|(g' & _ & H)].
  { apply db_descriptor_panic in H. exists g. split; [left; exact Hg|exact H]. }
  do 15 (apply obind_panic in H as [H|(? & _ & H)];
    [apply omap_opt_panic in H as (d & Hd & H); apply db_descriptor_panic in H; exists d; split; [|exact H];
     unfold has_description; rewrite Hd; cbn [In]; tauto|]).
  apply obind_panic in H as [H|(? & _ & H)]; [now apply ok_or_no_panic in H|].
  apply obind_panic in H as [H|(? & _ & H)]; [now apply ok_or_no_panic in H|].
  apply obind_panic in H as [H|(? & _ & H)]; [apply omap_opt_panic in H as (d & _ & H); now apply db_regex_no_panic in H|].
  apply obind_panic in H as [H|(? & _ & H)]; [apply omap_opt_panic in H as (d & _ & H); now apply db_regex_no_panic in H|].
  apply obind_panic in H as [H|(? & _ & H)]; [apply omap_list_panic in H as (d & _ & H); now apply db_format_no_panic in H|].
  apply obind_panic in H as [H|(? & _ & H)]; [apply omap_list_panic in H as (d & _ & H); now apply db_format_no_panic in H|].
  apply obind_panic in H as [H|(? & _ & H)]; [apply omap_opt_panic in H as (d & _ & H); now apply db_regex_no_panic in H|discriminate].
Qed.
Lemma db_from_panic : forall l, db_from l = Panic ->
  exists m d, In m l /\ has_description m d /\ ld_national_number d = None.
Proof.
  intros l. unfold db_from. generalize db_empty as db. induction l as [|m l IH]; intros db H; cbn [db_from_loop] in H; [discriminate|].
  apply obind_panic in H as [H|(x & _ & H)].
  - apply db_metadata_panic in H as (d & Hd & Hn). exists m, d. split; [now left|auto].
  - destruct (IH _ H) as (y & d & I & J). exists y, d. split; [now right|exact J].
Qed.

Theorem C33_parse : forall evs, db_parse evs = Panic ->
  bad_doc evs \/
  exists l m d, load evs = Ok l /\ In m l /\ has_description m d /\ ld_national_number d = None.
Proof.
  intros evs H. unfold db_parse in H. apply obind_panic in H as [H|(l & Hl & H)]; [left; now apply C33_load|].
  right. apply db_from_panic in H as (m & d & H). exists l, m, d. split; [exact Hl|exact H].
Qed.
Print Assumptions C33_parse.

(** So a document without those two faults never panics: *)
Theorem C33_no_panic : forall evs,
  (forall attrs k v s, In (EvEmpty (lit "possibleLengths") attrs) evs -> In (Some (k, v)) attrs ->
     In s (split_char 44%N v) -> ~ bad_item (trim_ws s)) ->
  (forall l m d, load evs = Ok l -> In m l -> has_description m d -> ld_national_number d <> None) ->
  db_parse evs <> Panic.
Proof.
  intros evs H1 H2 H. apply C33_parse in H as [(attrs & k & v & I & J & _ & s & K & B)|(l & m & d & E & I & D & N)].
  - exact (H1 attrs k v s I J K B).
  - exact (H2 l m d E I D N).
Qed.
Print Assumptions C33_no_panic.

(** Documents that do panic, although an error was to be expected. *)
Definition one_territory (l : list event) : list event :=
  [EvStart (lit "phoneNumberMetadata") []; EvStart (lit "territories") [];
   EvStart (lit "territory") [Some (lit "id", lit "XX"); Some (lit "countryCode", lit "999")]]
  ++ l ++ [EvEnd (lit "territory"); EvEnd (lit "territories"); EvEnd (lit "phoneNumberMetadata")].
Definition general (l : list event) : list event :=
  [EvStart (lit "generalDesc") []] ++ l ++ [EvEnd (lit "generalDesc")].
Definition pattern (s : str) : list event :=
  [EvStart (lit "nationalNumberPattern") []; EvText s; EvEnd (lit "nationalNumberPattern")].
Definition possible (s : str) : event := EvEmpty (lit "possibleLengths") [Some (lit "national", s)].

Example C33_ex : forall attrs k v s,
  In (EvEmpty (lit "possibleLengths") attrs) (one_territory (general (pattern (lit "\d+") ++ [possible (lit "[5-7],9")]))) ->
  In (Some (k, v)) attrs -> In s (split_char 44%N v) -> ~ bad_item (trim_ws s).
Proof.
  intros attrs k v s I J K B. repeat (destruct I as [I|I]; [try discriminate I|]); [|destruct I].
  injection I as <-. destruct J as [J|[]]. injection J as <- <-.
  repeat destruct K as [<-|K]; [| |destruct K].
  all: destruct B as [B|(a & e & r & B & Ne & Hr & B')]; [vm_compute in B; discriminate|].
  - change (trim_ws (lit "[5-7]")) with (lit "[5-7]") in B. destruct a as [|x [|y a]]; vm_compute in B.
    + discriminate.
    + injection B as <- B. destruct e as [|c1 [|c2 [|c3 e]]]; vm_compute in B.
      * subst r. destruct Hr as [Hr|(r' & Hr)]; discriminate.
      * injection B as <- <-. destruct Hr as [Hr|(r' & Hr)]; discriminate.
      * injection B as <- <- <-. destruct B' as [B'|[(x & c & B' & Hc)|(x & c & B' & Hp)]]; [discriminate| |].
        -- destruct x as [|x1 [|x2 x3]]; inversion B'; subst; [lia|]. destruct x3; discriminate.
        -- destruct x as [|x1 [|x2 x3]]; inversion B'; subst; [vm_compute in Hp; discriminate|]. destruct x3; discriminate.
      * destruct e; discriminate.
    + injection B as <- <- B. destruct a as [|z [|w a]]; cbn in B; try discriminate.
      destruct a; discriminate.
  - discriminate.
Qed.

Theorem C33_panics_refuted : exists no_pattern empty_item open_range overflow : list event,
  db_parse no_pattern = Panic /\ db_parse empty_item = Panic /\ db_parse open_range = Panic /\ db_parse overflow = Panic
  /\ no_pattern = one_territory (general [])
  /\ empty_item = one_territory (general (pattern (lit "\d+") ++ [possible (lit "5,,7")]))
  /\ open_range = one_territory (general (pattern (lit "\d+") ++ [possible (lit "[5-")]))
  /\ overflow = one_territory (general (pattern (lit "\d+") ++ [possible (lit "[5-65535]")])).
Proof. repeat eexists; vm_compute; reflexivity. Qed.
