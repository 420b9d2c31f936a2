(** * C43: what is serialised reads back as the same number *)
From Verif Require Import Base CountryId Types NationalNumber Metadata Database PhoneNumber Postcard Serde Formatter
  DefaultDb Api PropsPostcard StrFacts NationalFacts DatabaseFacts ParserFacts ParseInv Number Parser RegexCaps.

(** ** What a stored number looks like *)
(** [fs] has [k] exactly once, with the value [v]; it may have other keys. *)
Definition only (k : str) (fs : list (str * sval)) (v : sval) : Prop :=
  exists before after, fs = before ++ (k, v) :: after
    /\ (forall x, ~ In (k, x) before) /\ (forall x, ~ In (k, x) after).
Definition absent (k : str) (fs : list (str * sval)) : Prop := forall x, ~ In (k, x) fs.

Definition variant (name : str) (t : sval) : Prop := t = VStr name \/ t = VMap [(name, VNull)].
Definition stored_source (t : sval) (s : source) : Prop :=
  match s with
  | SrcPlus => variant (lit "plus") t
  | SrcIdd => variant (lit "idd") t
  | SrcNumber => variant (lit "number") t
  | SrcDefault => variant (lit "default") t
  end.
Definition stored_number (limit : N) (t : sval) (n : N) : Prop := t = VNum n /\ (n <= limit)%N.
Definition stored_text (t : sval) (o : option str) : Prop :=
  match o with None => t = VNull | Some s => t = VStr s end.
(** one optional field: null, a text, or not there at all *)
Definition stored_optional (k : str) (fs : list (str * sval)) (o : option str) : Prop :=
  (absent k fs /\ o = None) \/ exists t, only k fs t /\ stored_text t o.

Definition stored_code (t : sval) (c : code) : Prop :=
  (exists fs a b, t = VMap fs /\ only (lit "value") fs a /\ only (lit "source") fs b
     /\ stored_number 65535 a (code_value c) /\ stored_source b (code_source c))
  \/ exists a b, t = VSeq [a; b] /\ stored_number 65535 a (code_value c) /\ stored_source b (code_source c).
Definition stored_national (t : sval) (n : national) : Prop :=
  (exists fs a, t = VMap fs /\ only (lit "value") fs a /\ stored_number 18446744073709551615 a (nn_raw n))
  \/ exists a, t = VSeq [a] /\ stored_number 18446744073709551615 a (nn_raw n).
Definition stored_phone (t : sval) (p : phone) : Prop :=
  (exists fs a b, t = VMap fs /\ only (lit "code") fs a /\ only (lit "national") fs b
     /\ stored_code a (ph_code p) /\ stored_national b (ph_national p)
     /\ stored_optional (lit "extension") fs (ph_extension p) /\ stored_optional (lit "carrier") fs (ph_carrier p))
  \/ exists a b c d, t = VSeq [a; b; c; d] /\ stored_code a (ph_code p) /\ stored_national b (ph_national p)
     /\ stored_text c (ph_extension p) /\ stored_text d (ph_carrier p).

(** ** Lemmas *)
Lemma only_nil : forall k v, ~ only k [] v.
Proof. intros k v (b & a & E & _). now destruct b. Qed.
Lemma only_other : forall k k' t fs v, k' <> k -> (only k ((k', t) :: fs) v <-> only k fs v).
Proof.
  intros k k' t fs v N. split.
  - intros (b & a & E & B & A). destruct b as [|[k2 t2] b]; cbn [app] in E; inversion E; subst; [contradiction|].
    exists b, a. split; [reflexivity|]. split; [|exact A]. intros x I. apply (B x). now right.
  - intros (b & a & -> & B & A). exists ((k', t) :: b), a. split; [reflexivity|]. split; [|exact A].
    intros x [I|I]; [injection I as I _; contradiction|]. now apply (B x).
Qed.
Lemma only_same : forall k t fs v, only k ((k, t) :: fs) v <-> t = v /\ absent k fs.
Proof.
  intros k t fs v. split.
  - intros (b & a & E & B & A). destruct b as [|[k2 t2] b]; cbn [app] in E; inversion E; subst.
    + now split.
    + exfalso. apply (B t2). now left.
  - intros [-> A]. exists [], fs. split; [reflexivity|]. split; [intros x []|exact A].
Qed.
Lemma absent_cons : forall k k' t fs, absent k ((k', t) :: fs) <-> k' <> k /\ absent k fs.
Proof.
  intros k k' t fs. split.
  - intros A. split; [intros ->; apply (A t); now left|]. intros x I. apply (A x). now right.
  - intros [N A] x [I|I]; [injection I as I _; contradiction|]. now apply (A x).
Qed.
Lemma absent_nil : forall k, absent k [].
Proof. intros k x []. Qed.

Section Slot.
  Context {A : Type} (k : str) (de : sval -> outcome serr A).
  (** the final content of a slot that holds [acc] before [fs] is read *)
  Definition slot (fs : list (str * sval)) (acc : option A) (a : A) : Prop :=
    match acc with Some x => absent k fs /\ x = a | None => exists t, only k fs t /\ de t = Ok a end.
  Lemma slot_nil : forall acc a, slot [] acc a <-> acc = Some a.
  Proof.
    intros [x|] a; cbn [slot]; split.
    - now intros [_ ->]. - intros E. injection E as ->. split; [apply absent_nil|reflexivity].
    - intros (t & O & _). now apply only_nil in O. - discriminate.
  Qed.
  Lemma slot_other : forall k' t fs acc a, k' <> k -> (slot ((k', t) :: fs) acc a <-> slot fs acc a).
  Proof.
    intros k' t fs [x|] a N; cbn [slot].
    - rewrite absent_cons. tauto.
    - split; intros (u & O & D); exists u; (split; [|exact D]); now apply (only_other k k' t fs u N).
  Qed.
  Lemma slot_same : forall t fs acc a,
    slot ((k, t) :: fs) acc a <-> exists acc', fill acc (de t) = Ok acc' /\ slot fs acc' a.
  Proof.
    intros t fs [x|] a; cbn [slot fill].
    - rewrite absent_cons. split; [intros [[N _] _]; contradiction|]. intros (y & E & _). discriminate.
    - split.
      + intros (u & O & D). apply only_same in O. destruct O as [-> O]. rewrite D. exists (Some a). now split.
      + intros (y & E & S). destruct (de t) as [b|e|] eqn:D; try discriminate. injection E as <-. destruct S as [S ->].
        exists t. split; [|exact D]. now apply only_same.
  Qed.
  Definition oslot (d : A) (fs : list (str * sval)) (acc : option A) (a : A) : Prop :=
    (acc = None /\ absent k fs /\ a = d) \/ slot fs acc a.
  Lemma oslot_nil : forall d acc a, oslot d [] acc a <-> a = match acc with Some x => x | None => d end.
  Proof.
    intros d [x|] a; unfold oslot; rewrite slot_nil; split.
    - intros [[E _]|E]; [discriminate|]. now injection E as ->. - intros ->. now right.
    - intros [(_ & _ & E)|E]; [exact E|discriminate]. - intros ->. left. split; [reflexivity|]. split; [apply absent_nil|reflexivity].
  Qed.
  Lemma oslot_other : forall d k' t fs acc a, k' <> k -> (oslot d ((k', t) :: fs) acc a <-> oslot d fs acc a).
  Proof. intros. unfold oslot. rewrite slot_other by assumption. rewrite absent_cons. tauto. Qed.
  Lemma oslot_same : forall d t fs acc a,
    oslot d ((k, t) :: fs) acc a <-> exists acc', fill acc (de t) = Ok acc' /\ oslot d fs acc' a.
  Proof.
    intros d t fs acc a. unfold oslot. rewrite slot_same, absent_cons. split.
    - intros [(_ & [N _] & _)|(y & F & S)]; [contradiction|]. exists y. split; [exact F|]. now right.
    - intros (y & F & [(-> & _ & _)|S]).
      + exfalso. destruct acc; cbn [fill] in F; [discriminate|]. destruct (de t); discriminate.
      + right. exists y. now split.
  Qed.
End Slot.

Lemma fill_bind : forall A B (acc : option A) v (f : option A -> outcome serr B) b,
  (let* s := fill acc v in f s) = Ok b <-> exists s, fill acc v = Ok s /\ f s = Ok b.
Proof.
  intros. destruct (fill acc v) as [s|e|]; cbn [obind]; split.
  - intros H. now exists s. - intros (s' & E & H). now injection E as ->.
  - discriminate. - now intros (s' & E & _). - discriminate. - now intros (s' & E & _).
Qed.
Lemma required_some : forall A (o : option A) a, required o = Ok a <-> o = Some a.
Proof. intros A [x|] a; cbn; split; intros H; try discriminate; now injection H as ->. Qed.

Lemma code_map_read : forall fs v s c, code_map fs v s = Ok c <->
  slot (lit "value") Serde.de_u16 fs v (code_value c) /\ slot (lit "source") de_source fs s (code_source c).
Proof.
  induction fs as [|[k t] fs IH]; intros v s c.
  - rewrite !slot_nil. cbn [code_map]. destruct v as [v|], s as [s|]; cbn; split; intros H; try discriminate;
      try (destruct H; discriminate).
    + injection H as <-. now split. + destruct c as [cv cs]. cbn in H. destruct H as [H1 H2]. congruence.
  - cbn [code_map]. destruct (str_eqb k (lit "value")) eqn:E1.
    { apply str_eqb_eq in E1. subst k. rewrite fill_bind, slot_same, slot_other by discriminate. split.
      - intros (x & F & H). apply IH in H. destruct H as [H1 H2]. split; [exists x; now split|exact H2].
      - intros [(x & F & H1) H2]. exists x. split; [exact F|]. apply IH. now split. }
    assert (N1 : k <> lit "value") by (intros ->; now rewrite str_eqb_refl in E1).
    destruct (str_eqb k (lit "source")) eqn:E2.
    { apply str_eqb_eq in E2. subst k. rewrite fill_bind, slot_same, slot_other by discriminate. split.
      - intros (x & F & H). apply IH in H. destruct H as [H1 H2]. split; [exact H1|exists x; now split].
      - intros [H1 (x & F & H2)]. exists x. split; [exact F|]. apply IH. now split. }
    assert (N2 : k <> lit "source") by (intros ->; now rewrite str_eqb_refl in E2).
    rewrite IH, !slot_other by assumption. reflexivity.
Qed.
Lemma national_map_read : forall fs v n, national_map fs v = Ok n <-> slot (lit "value") de_u64 fs v (nn_raw n).
Proof.
  induction fs as [|[k t] fs IH]; intros v n.
  - rewrite !slot_nil. cbn [national_map]. destruct v as [v|]; cbn; split; intros H; try discriminate.
    + injection H as <-. reflexivity. + destruct n. cbn in H. congruence.
  - cbn [national_map]. destruct (str_eqb k (lit "value")) eqn:E1.
    { apply str_eqb_eq in E1. subst k. rewrite fill_bind, slot_same. split; intros (x & F & H); exists x; (split; [exact F|]); now apply IH. }
    assert (N1 : k <> lit "value") by (intros ->; now rewrite str_eqb_refl in E1).
    rewrite IH, !slot_other by assumption. reflexivity.
Qed.
Lemma phone_map_read : forall fs c n e k p, phone_map fs c n e k = Ok p <->
  slot (lit "code") de_code fs c (ph_code p) /\ slot (lit "national") de_national fs n (ph_national p)
  /\ oslot (lit "extension") de_optional None fs e (ph_extension p) /\ oslot (lit "carrier") de_optional None fs k (ph_carrier p).
Proof.
  induction fs as [|[key t] fs IH]; intros c n e k p.
  - rewrite !slot_nil, !oslot_nil. cbn [phone_map]. destruct c as [c|], n as [n|]; cbn; split; intros H; try discriminate;
      try (destruct H as (H1 & H2 & _); discriminate).
    + injection H as <-. now repeat split.
    + destruct p as [pc pn pe pk]. cbn in H. destruct H as (H1 & H2 & H3 & H4). injection H1 as ->. injection H2 as ->. now subst.
  - cbn [phone_map]. destruct (str_eqb key (lit "code")) eqn:E1.
    { apply str_eqb_eq in E1. subst key. rewrite fill_bind, slot_same, slot_other, !oslot_other by discriminate. split.
      - intros (x & F & H). apply IH in H. destruct H as [H1 H2]. split; [exists x; now split|exact H2].
      - intros [(x & F & H1) H2]. exists x. split; [exact F|]. apply IH. now split. }
    assert (N1 : key <> lit "code") by (intros ->; now rewrite str_eqb_refl in E1).
    destruct (str_eqb key (lit "national")) eqn:E2.
    { apply str_eqb_eq in E2. subst key. rewrite fill_bind, slot_same, slot_other, !oslot_other by discriminate. split.
      - intros (x & F & H). apply IH in H. destruct H as (H1 & H2 & H3). split; [exact H1|]. split; [exists x; now split|exact H3].
      - intros (H1 & (x & F & H2) & H3). exists x. split; [exact F|]. apply IH. now repeat split. }
    assert (N2 : key <> lit "national") by (intros ->; now rewrite str_eqb_refl in E2).
    destruct (str_eqb key (lit "extension")) eqn:E3.
    { apply str_eqb_eq in E3. subst key. rewrite fill_bind, oslot_same, !slot_other, oslot_other by discriminate. split.
      - intros (x & F & H). apply IH in H. destruct H as (H1 & H2 & H3 & H4). split; [exact H1|]. split; [exact H2|].
        split; [exists x; now split|exact H4].
      - intros (H1 & H2 & (x & F & H3) & H4). exists x. split; [exact F|]. apply IH. now repeat split. }
    assert (N3 : key <> lit "extension") by (intros ->; now rewrite str_eqb_refl in E3).
    destruct (str_eqb key (lit "carrier")) eqn:E4.
    { apply str_eqb_eq in E4. subst key. rewrite fill_bind, oslot_same, !slot_other, oslot_other by discriminate. split.
      - intros (x & F & H). apply IH in H. destruct H as (H1 & H2 & H3 & H4). split; [exact H1|]. split; [exact H2|].
        split; [exact H3|exists x; now split].
      - intros (H1 & H2 & H3 & (x & F & H4)). exists x. split; [exact F|]. apply IH. now repeat split. }
    assert (N4 : key <> lit "carrier") by (intros ->; now rewrite str_eqb_refl in E4).
    rewrite IH, !slot_other, !oslot_other by assumption. reflexivity.
Qed.

Lemma de_uint_read : forall l t n, de_uint (N.succ l) t = Ok n <-> stored_number l t n.
Proof.
  intros l t n. unfold stored_number, de_uint. destruct t; split; intros H; try discriminate; try (now destruct H).
  - destruct (N.ltb_spec n0 (N.succ l)); [|discriminate]. injection H as <-. split; [reflexivity|lia].
  - destruct H as [H L]. injection H as ->. destruct (N.ltb_spec n (N.succ l)); [reflexivity|lia].
Qed.
Lemma variant_named_some : forall A (name : A -> str) s l a, variant_named name s l = Some a -> name a = s /\ In a l.
Proof.
  induction l as [|b l IH]; intros a H; [discriminate|]. cbn [variant_named] in H. destruct (str_eqb (name b) s) eqn:E.
  - injection H as <-. apply str_eqb_eq in E. split; [exact E|now left].
  - destruct (IH a H). split; [assumption|now right].
Qed.
Lemma de_enum_read : forall A (name : A -> str) all t a,
  (forall x, variant_named name (name x) all = Some x) -> (de_enum name all t = Ok a <-> variant (name a) t).
Proof.
  intros A name all t a R. split.
  - unfold de_enum, variant. destruct t as [|n|s|fs|l|]; try discriminate.
    + destruct (variant_named name s all) as [x|] eqn:E; [|discriminate]. intros H. injection H as <-.
      apply variant_named_some in E. destruct E as [-> _]. now left.
    + destruct fs as [|[s v] [|? ?]]; try discriminate.
      destruct (variant_named name s all) as [x|] eqn:E; [|discriminate]. destruct v; try discriminate. intros H. injection H as <-.
      apply variant_named_some in E. destruct E as [-> _]. now right.
  - intros [->| ->]; cbn [de_enum]; now rewrite R.
Qed.
Lemma de_source_read : forall t s, de_source t = Ok s <-> stored_source t s.
Proof. intros t s. unfold de_source. rewrite de_enum_read by (intros []; reflexivity). destruct s; reflexivity. Qed.
Lemma de_optional_read : forall t o, de_optional t = Ok o <-> stored_text t o.
Proof.
  intros t o. unfold stored_text. destruct t, o; cbn; split; intros H; try discriminate; try reflexivity; now injection H as ->.
Qed.
Lemma de_code_read : forall t c, de_code t = Ok c <-> stored_code t c.
Proof.
  intros t c. unfold stored_code. split.
  - destruct t as [|n|s|fs|l|]; try discriminate; cbn [de_code].
    + intros H. apply code_map_read in H. cbn [slot] in H. destruct H as [(a & A1 & A2) (b & B1 & B2)].
      left. exists fs, a, b. split; [reflexivity|]. split; [exact A1|]. split; [exact B1|].
      split; [now apply (de_uint_read 65535)|now apply de_source_read].
    + destruct l as [|a [|b [|? ?]]]; try discriminate. intros H. destruct (Serde.de_u16 a) as [v|e|] eqn:E1; try discriminate.
      cbn [obind] in H. destruct (de_source b) as [s|e|] eqn:E2; try discriminate. injection H as <-. right. exists a, b.
      split; [reflexivity|]. split; [now apply (de_uint_read 65535)|now apply de_source_read].
  - intros [(fs & a & b & -> & O1 & O2 & S1 & S2)|(a & b & -> & S1 & S2)]; apply (de_uint_read 65535) in S1; apply de_source_read in S2.
    + cbn [de_code]. apply code_map_read. cbn [slot]. split; [now exists a|now exists b].
    + cbn [de_code]. unfold Serde.de_u16. rewrite (S1 : de_uint 65536 a = _). cbn [obind]. rewrite S2. now destruct c.
Qed.
Lemma de_national_read : forall t n, de_national t = Ok n <-> stored_national t n.
Proof.
  intros t n. unfold stored_national. split.
  - destruct t as [|m|s|fs|l|]; try discriminate; cbn [de_national].
    + intros H. apply national_map_read in H. cbn [slot] in H. destruct H as (a & A1 & A2). left. exists fs, a.
      split; [reflexivity|]. split; [exact A1|]. now apply (de_uint_read 18446744073709551615).
    + destruct l as [|a [|? ?]]; try discriminate. intros H. destruct (de_u64 a) as [v|e|] eqn:E1; try discriminate.
      injection H as <-. right. exists a. split; [reflexivity|]. now apply (de_uint_read 18446744073709551615).
  - intros [(fs & a & -> & O1 & S1)|(a & -> & S1)]; apply (de_uint_read 18446744073709551615) in S1.
    + cbn [de_national]. apply national_map_read. now exists a.
    + cbn [de_national]. unfold de_u64. rewrite (S1 : de_uint 18446744073709551616 a = _). cbn [obind]. now destruct n.
Qed.

(** ** A tree is read as a number exactly when it stores it *)
Theorem C43_read : forall t p, de_phone t = Ok p <-> stored_phone t p.
Proof.
  intros t p. unfold stored_phone. split.
  - destruct t as [|n|s|fs|l|]; try discriminate; cbn [de_phone].
    + intros H. apply phone_map_read in H. unfold oslot in H. cbn [slot] in H.
      destruct H as ((a & A1 & A2) & (b & B1 & B2) & H3 & H4). left. exists fs, a, b.
      split; [reflexivity|]. split; [exact A1|]. split; [exact B1|]. split; [now apply de_code_read|]. split; [now apply de_national_read|].
      split.
      * destruct H3 as [(_ & X & Y)|(u & O & D)]; [left; now split|right; exists u; split; [exact O|now apply de_optional_read]].
      * destruct H4 as [(_ & X & Y)|(u & O & D)]; [left; now split|right; exists u; split; [exact O|now apply de_optional_read]].
    + destruct l as [|a [|b [|c [|d [|? ?]]]]]; try discriminate. intros H.
      destruct (de_code a) as [v|e|] eqn:E1; try discriminate. cbn [obind] in H.
      destruct (de_national b) as [n|e|] eqn:E2; try discriminate. cbn [obind] in H.
      destruct (de_optional c) as [x|e|] eqn:E3; try discriminate. cbn [obind] in H.
      destruct (de_optional d) as [y|e|] eqn:E4; try discriminate. injection H as <-. right. exists a, b, c, d.
      split; [reflexivity|]. split; [now apply de_code_read|]. split; [now apply de_national_read|].
      split; now apply de_optional_read.
  - intros [(fs & a & b & -> & O1 & O2 & S1 & S2 & X1 & X2)|(a & b & c & d & -> & S1 & S2 & X1 & X2)];
      apply de_code_read in S1; apply de_national_read in S2; cbn [de_phone].
    + apply phone_map_read. unfold oslot. cbn [slot]. split; [now exists a|]. split; [now exists b|]. split.
      * destruct X1 as [[X Y]|(u & O & D)]; [left; now repeat split|right; exists u; split; [exact O|now apply de_optional_read]].
      * destruct X2 as [[X Y]|(u & O & D)]; [left; now repeat split|right; exists u; split; [exact O|now apply de_optional_read]].
    + apply de_optional_read in X1, X2. rewrite S1. cbn [obind]. rewrite S2. cbn [obind]. rewrite X1. cbn [obind]. rewrite X2.
      cbn [obind]. now destruct p.
Qed.
Print Assumptions C43_read.

(** Every number that fits the machine integers of its type is written as a
    tree that stores it, and so is read back, its code source included. *)
Definition fits (p : phone) : Prop :=
  (code_value (ph_code p) <= 65535)%N /\ (nn_raw (ph_national p) <= 18446744073709551615)%N.
Lemma only_in : forall k fs v, NoDup (map fst fs) -> In (k, v) fs -> only k fs v.
Proof.
  induction fs as [|[k' t] fs IH]; intros v ND I; [destruct I|]. cbn in ND. inversion ND as [|x l N1 N2]; subst.
  destruct I as [I|I].
  - injection I as -> ->. apply only_same. split; [reflexivity|]. intros x I. apply N1. now apply (in_map fst) in I.
  - apply only_other; [|now apply IH]. intros ->. apply N1. now apply (in_map fst) in I.
Qed.
Theorem C43_written : forall p, fits p -> stored_phone (ser_phone p) p.
Proof.
  intros p [F1 F2]. left. exists [(lit "code", ser_code (ph_code p)); (lit "national", ser_national (ph_national p));
        (lit "extension", ser_opt (ph_extension p)); (lit "carrier", ser_opt (ph_carrier p))],
    (ser_code (ph_code p)), (ser_national (ph_national p)).
  assert (ND : NoDup [lit "code"; lit "national"; lit "extension"; lit "carrier"]).
  { repeat (constructor; [cbn [In]; intros K; repeat (destruct K as [K|K]; [discriminate K|]); exact K|]). constructor. }
  split; [reflexivity|]. split; [apply only_in; [exact ND|cbn [In]; tauto]|]. split; [apply only_in; [exact ND|cbn [In]; tauto]|].
  assert (ND2 : NoDup [lit "value"; lit "source"]).
  { repeat (constructor; [cbn [In]; intros K; repeat (destruct K as [K|K]; [discriminate K|]); exact K|]). constructor. }
  split.
  { left. eexists _, _, _. split; [reflexivity|]. split; [apply only_in; [exact ND2|now left]|].
    split; [apply only_in; [exact ND2|right; now left]|]. split; [now split|]. destruct (code_source (ph_code p)); left; reflexivity. }
  split.
  { left. eexists _, _. split; [reflexivity|]. split; [apply only_in; [|now left]|now split].
    constructor; [intros []|constructor]. }
  assert (T : forall o, stored_text (ser_opt o) o) by (intros [s|]; reflexivity).
  split; right; eexists; (split; [apply only_in; [exact ND|]|apply T]); cbn [In]; tauto.
Qed.
Theorem C43_round_trip : forall p, fits p -> de_phone (ser_phone p) = Ok p.
Proof. intros p F. now apply C43_read, C43_written. Qed.
Print Assumptions C43_round_trip.

(** Numbers that were parsed fit, whatever the database. *)
Theorem C43_parsed_fits : forall db country s p, parse_with db country s = Ok p -> fits p.
Proof.
  intros db country s p H. apply parse_with_inv in H as (n0 & n1 & meta & n2 & _ & _ & _ & _ & _ & H).
  apply finish_inv in H as (c & n & Hc & Hn & -> & _). unfold fits. cbn [ph_code ph_national code_value]. split.
  - unfold prefix_value in Hc. destruct (pn_prefix n2) as [t|]; [|injection Hc as <-; lia].
    destruct (parse_u16 t) as [v|] eqn:E; [|discriminate]. injection Hc as <-.
    apply parse_uint_inv in E as [L _]. exact L.
  - unfold nn_parse in Hn. apply obind_ok in Hn as (rest & _ & Hn). apply obind_ok in Hn as (v & _ & Hn).
    apply nn_new_bound in Hn; [lia|]. unfold as_u8. apply N.mod_lt. discriminate.
Qed.
Theorem C43_parsed : forall db country s p, parse_with db country s = Ok p -> de_phone (ser_phone p) = Ok p.
Proof. intros db country s p H. eapply C43_round_trip, C43_parsed_fits, H. Qed.
Print Assumptions C43_parsed.

(** ** The enums: distinct names, each read back *)
Theorem C43_source : forall s, de_source (ser_source s) = Ok s.
Proof. intros []; reflexivity. Qed.
Theorem C43_type : forall t, de_type (ser_type t) = Ok t.
Proof. intros []; reflexivity. Qed.
Lemma id_variants : forall i, variant_named id_name (id_name i) all_ids = Some i.
Proof. destruct i; vm_compute; reflexivity. Qed.
Theorem C43_id : forall i, de_id (ser_id i) = Ok i.
Proof. intros i. unfold de_id, ser_id, de_enum. now rewrite id_variants. Qed.
(** the words that users of the stored form see *)
Theorem C43_type_names : forall t, In (t, ser_type t)
  [(TFixedLine, VStr (lit "fixed_line")); (TMobile, VStr (lit "mobile"));
   (TFixedLineOrMobile, VStr (lit "fixed_line_or_mobile")); (TTollFree, VStr (lit "toll_free"));
   (TPremiumRate, VStr (lit "premium_rate")); (TSharedCost, VStr (lit "shared_cost"));
   (TPersonalNumber, VStr (lit "personal_number")); (TVoip, VStr (lit "voip")); (TPager, VStr (lit "pager"));
   (TUan, VStr (lit "uan")); (TEmergency, VStr (lit "emergency")); (TVoicemail, VStr (lit "voicemail"));
   (TShortCode, VStr (lit "short_code")); (TStandardRate, VStr (lit "standard_rate")); (TCarrier, VStr (lit "carrier"));
   (TNoInternational, VStr (lit "no_international")); (TUnknown, VStr (lit "unknown"))].
Proof. intros t. destruct t; cbn; tauto. Qed.
Print Assumptions C43_type_names.
(** a text is read as a type or region only if it is its name *)
Theorem C43_enum_exact :
  (forall t s, de_type (VStr s) = Ok t <-> s = type_name t) /\
  (forall i s, de_id (VStr s) = Ok i <-> s = id_name i).
Proof.
  assert (R : forall s t, variant s (VStr t) <-> t = s).
  { intros s t. split; [intros [E|E]; [now injection E as ->|discriminate]|intros ->; now left]. }
  split; intros x s.
  - unfold de_type. rewrite de_enum_read by (intros []; reflexivity). apply R.
  - unfold de_id. rewrite de_enum_read by exact id_variants. apply R.
Qed.

(** ** Which error *)
(** [fs] has [k] at most once, and then with a value as it should be *)
Definition fine (k : str) (ok : sval -> Prop) (fs : list (str * sval)) : Prop :=
  absent k fs \/ exists t, only k fs t /\ ok t.
Definition phone_fine (fs : list (str * sval)) : Prop :=
  fine (lit "code") (fun t => exists c, stored_code t c) fs /\
  fine (lit "national") (fun t => exists n, stored_national t n) fs /\
  fine (lit "extension") (fun t => exists o, stored_text t o) fs /\
  fine (lit "carrier") (fun t => exists o, stored_text t o) fs.

Section Fine.
  Context {A : Type} (k : str) (de : sval -> outcome serr A) (ok : sval -> Prop)
    (reads : forall t, ok t -> exists a, de t = Ok a).
  (** a slot that holds [acc] can take what is in [fs] *)
  Definition room (fs : list (str * sval)) (acc : option A) : Prop := fine k ok fs /\ (acc = None \/ absent k fs).
  Lemma room_other : forall k' t fs acc, k' <> k -> room ((k', t) :: fs) acc -> room fs acc.
  Proof.
    intros k' t fs acc N [F R]. split.
    - destruct F as [F|(u & O & K)]; [left; now apply absent_cons in F|]. right. exists u. split; [|exact K].
      now apply (only_other k k' t fs u N).
    - destruct R as [R|R]; [now left|]. right. now apply absent_cons in R.
  Qed.
  Lemma room_same : forall t fs acc, room ((k, t) :: fs) acc ->
    exists a, fill acc (de t) = Ok (Some a) /\ room fs (Some a) /\ absent k fs.
  Proof.
    intros t fs acc [F R]. destruct F as [F|(u & O & K)]; [apply absent_cons in F; destruct F; contradiction|].
    apply only_same in O. destruct O as [-> O]. destruct R as [->|R]; [|apply absent_cons in R; destruct R; contradiction].
    destruct (reads u K) as (a & E). exists a. cbn [fill]. rewrite E. split; [reflexivity|]. split; [|exact O].
    split; [now left|now right].
  Qed.
End Fine.
Lemma code_reads : forall t, (exists c, stored_code t c) -> exists c, de_code t = Ok c.
Proof. intros t (c & H). exists c. now apply de_code_read. Qed.
Lemma national_reads : forall t, (exists n, stored_national t n) -> exists n, de_national t = Ok n.
Proof. intros t (c & H). exists c. now apply de_national_read. Qed.
Lemma text_reads : forall t, (exists o, stored_text t o) -> exists o, de_optional t = Ok o.
Proof. intros t (c & H). exists c. now apply de_optional_read. Qed.

(** what a slot holds after [fs] *)
Definition after_slot {A} (k : str) (fs : list (str * sval)) (acc acc' : option A) : Prop :=
  (absent k fs -> acc' = acc) /\ (~ absent k fs -> acc' <> None).
Lemma after_other : forall A k k' t fs (a a' : option A), k' <> k -> after_slot k fs a a' -> after_slot k ((k', t) :: fs) a a'.
Proof. intros A k k' t fs a a' N [H1 H2]. split; rewrite absent_cons; [tauto|]. intros H. apply H2. tauto. Qed.
Lemma after_same : forall A k t fs (a a' : option A) x, absent k fs -> after_slot k fs (Some x) a' -> after_slot k ((k, t) :: fs) a a'.
Proof.
  intros A k t fs a a' x N [H1 H2]. split; rewrite absent_cons; [intros [H _]; contradiction|]. intros _. now rewrite H1.
Qed.
Definition phone_room fs (c : option code) (n : option national) (e k : option (option str)) : Prop :=
  room (lit "code") (fun t => exists c, stored_code t c) fs c /\
  room (lit "national") (fun t => exists n, stored_national t n) fs n /\
  room (lit "extension") (fun t => exists o, stored_text t o) fs e /\
  room (lit "carrier") (fun t => exists o, stored_text t o) fs k.
Lemma phone_map_passes : forall fs rest (c : option code) (n : option national) (e k : option (option str)),
  phone_room fs c n e k -> exists c' n' e' k',
    phone_map (fs ++ rest) c n e k = phone_map rest c' n' e' k' /\
    after_slot (lit "code") fs c c' /\ after_slot (lit "national") fs n n' /\
    after_slot (lit "extension") fs e e' /\ after_slot (lit "carrier") fs k k'.
Proof.
  induction fs as [|[key t] fs IH]; intros rest c n e k (R1 & R2 & R3 & R4).
  { exists c, n, e, k. split; [reflexivity|].
    assert (T : forall A key (x : option A), after_slot key [] x x).
    { intros. split; [reflexivity|]. intros H. elim H. apply absent_nil. }
    split; [apply T|split; [apply T|split; apply T]]. }
  cbn [app phone_map].
  destruct (str_eqb key (lit "code")) eqn:E1.
  { apply str_eqb_eq in E1. subst key.
    apply room_other in R2; [|discriminate]. apply room_other in R3; [|discriminate]. apply room_other in R4; [|discriminate].
    destruct (room_same _ de_code _ code_reads _ _ _ R1) as (x & -> & R & N). cbn [obind].
    destruct (IH rest (Some x) n e k) as (c' & n' & e' & k' & E & A1 & A2 & A3 & A4); [split; [assumption|split; [assumption|split; assumption]]|].
    exists c', n', e', k'. split; [exact E|].
    split; [now apply (after_same _ _ _ _ _ _ x)|]. split; [|split]; apply after_other; solve [discriminate|assumption]. }
  assert (N1 : key <> lit "code") by (intros ->; now rewrite str_eqb_refl in E1). apply room_other in R1; [|exact N1].
  destruct (str_eqb key (lit "national")) eqn:E2.
  { apply str_eqb_eq in E2. subst key.
    apply room_other in R3; [|discriminate]. apply room_other in R4; [|discriminate].
    destruct (room_same _ de_national _ national_reads _ _ _ R2) as (x & -> & R & N). cbn [obind].
    destruct (IH rest c (Some x) e k) as (c' & n' & e' & k' & E & A1 & A2 & A3 & A4); [split; [assumption|split; [assumption|split; assumption]]|].
    exists c', n', e', k'. split; [exact E|]. split; [apply after_other; solve [discriminate|assumption]|].
    split; [now apply (after_same _ _ _ _ _ _ x)|]. split; apply after_other; solve [discriminate|assumption]. }
  assert (N2 : key <> lit "national") by (intros ->; now rewrite str_eqb_refl in E2). apply room_other in R2; [|exact N2].
  destruct (str_eqb key (lit "extension")) eqn:E3.
  { apply str_eqb_eq in E3. subst key. apply room_other in R4; [|discriminate].
    destruct (room_same _ de_optional _ text_reads _ _ _ R3) as (x & -> & R & N). cbn [obind].
    destruct (IH rest c n (Some x) k) as (c' & n' & e' & k' & E & A1 & A2 & A3 & A4); [split; [assumption|split; [assumption|split; assumption]]|].
    exists c', n', e', k'. split; [exact E|]. split; [apply after_other; solve [discriminate|assumption]|].
    split; [apply after_other; solve [discriminate|assumption]|].
    split; [now apply (after_same _ _ _ _ _ _ x)|]. apply after_other; solve [discriminate|assumption]. }
  assert (N3 : key <> lit "extension") by (intros ->; now rewrite str_eqb_refl in E3). apply room_other in R3; [|exact N3].
  destruct (str_eqb key (lit "carrier")) eqn:E4.
  { apply str_eqb_eq in E4. subst key.
    destruct (room_same _ de_optional _ text_reads _ _ _ R4) as (x & -> & R & N). cbn [obind].
    destruct (IH rest c n e (Some x)) as (c' & n' & e' & k' & E & A1 & A2 & A3 & A4); [split; [assumption|split; [assumption|split; assumption]]|].
    exists c', n', e', k'. split; [exact E|]. split; [apply after_other; solve [discriminate|assumption]|].
    split; [apply after_other; solve [discriminate|assumption]|]. split; [apply after_other; solve [discriminate|assumption]|].
    now apply (after_same _ _ _ _ _ _ x). }
  assert (N4 : key <> lit "carrier") by (intros ->; now rewrite str_eqb_refl in E4). apply room_other in R4; [|exact N4].
  destruct (IH rest c n e k) as (c' & n' & e' & k' & E & A1 & A2 & A3 & A4); [split; [assumption|split; [assumption|split; assumption]]|].
  exists c', n', e', k'. split; [exact E|]. split; [|split; [|split]]; apply after_other; assumption.
Qed.
Lemma phone_fine_room : forall fs, phone_fine fs -> phone_room fs None None None None.
Proof. intros fs (H1 & H2 & H3 & H4). split; [|split; [|split]]; (split; [assumption|now left]). Qed.

(** A number without its code or its national part, all else being in order, is reported as
    lacking a field; one that goes on with a field it already has is reported as repeating it. *)
Theorem C43_missing : forall fs, phone_fine fs -> absent (lit "code") fs \/ absent (lit "national") fs ->
  de_phone (VMap fs) = Err SeMissing.
Proof.
  intros fs F M. cbn [de_phone].
  destruct (phone_map_passes fs [] _ _ _ _ (phone_fine_room fs F)) as (c & n & e & k & E & [A1 _] & [A2 _] & _).
  rewrite app_nil_r in E. rewrite E. cbn [phone_map]. destruct M as [M|M].
  - now rewrite (A1 M).
  - rewrite (A2 M). destruct c; reflexivity.
Qed.
Print Assumptions C43_missing.
Theorem C43_repeated : forall fs k t t' after, phone_fine fs -> In (k, t) fs ->
  In k [lit "code"; lit "national"; lit "extension"; lit "carrier"] ->
  de_phone (VMap (fs ++ (k, t') :: after)) = Err SeDuplicate.
Proof.
  intros fs k t t' after F I K. cbn [de_phone].
  destruct (phone_map_passes fs ((k, t') :: after) _ _ _ _ (phone_fine_room fs F))
    as (c & n & e & x & -> & [_ A1] & [_ A2] & [_ A3] & [_ A4]).
  assert (P : ~ absent k fs) by (intros A; now apply (A t)).
  destruct K as [<-|[<-|[<-|[<-|[]]]]]; cbn [phone_map].
  - apply A1 in P. destruct c; [reflexivity|contradiction].
  - apply A2 in P. destruct n; [reflexivity|contradiction].
  - apply A3 in P. destruct e; [reflexivity|contradiction].
  - apply A4 in P. destruct x; [reflexivity|contradiction].
Qed.
Print Assumptions C43_repeated.
(** The same for a code and for a national number alone. *)
Theorem C43_missing_parts :
  (forall fs, fine (lit "value") (fun t => exists n, stored_number 65535 t n) fs ->
     fine (lit "source") (fun t => exists s, stored_source t s) fs ->
     absent (lit "value") fs \/ absent (lit "source") fs -> de_code (VMap fs) = Err SeMissing) /\
  (forall fs, absent (lit "value") fs -> de_national (VMap fs) = Err SeMissing).
Proof.
  split.
  - intros fs F1 F2 M. cbn [de_code].
    assert (G : forall fs (v : option N) (s : option source),
      room (lit "value") (fun t => exists n, stored_number 65535 t n) fs v ->
      room (lit "source") (fun t => exists s, stored_source t s) fs s ->
      (v = None /\ absent (lit "value") fs) \/ (s = None /\ absent (lit "source") fs) -> code_map fs v s = Err SeMissing).
    { clear. induction fs as [|[key t] fs IH]; intros v s R1 R2 M.
      { cbn [code_map]. destruct M as [[-> _]|[-> _]]; [reflexivity|]. destruct v; reflexivity. }
      cbn [code_map]. destruct (str_eqb key (lit "value")) eqn:E1.
      { apply str_eqb_eq in E1. subst key. apply room_other in R2; [|discriminate].
        assert (L : forall t, (exists n, stored_number 65535 t n) -> exists n, Serde.de_u16 t = Ok n).
        { intros u (m & H). exists m. now apply (de_uint_read 65535). }
        destruct (room_same _ Serde.de_u16 _ L _ _ _ R1) as (x & -> & R & N). cbn [obind]. apply IH; [exact R|exact R2|].
        right. destruct M as [[_ M]|[M1 M2]]; [apply absent_cons in M; destruct M; contradiction|].
        apply absent_cons in M2. tauto. }
      assert (N1 : key <> lit "value") by (intros ->; now rewrite str_eqb_refl in E1). apply room_other in R1; [|exact N1].
      destruct (str_eqb key (lit "source")) eqn:E2.
      { apply str_eqb_eq in E2. subst key.
        assert (L : forall t, (exists n, stored_source t n) -> exists n, de_source t = Ok n).
        { intros u (m & H). exists m. now apply de_source_read. }
        destruct (room_same _ de_source _ L _ _ _ R2) as (x & -> & R & N). cbn [obind]. apply IH; [exact R1|exact R|].
        left. destruct M as [[M1 M2]|[_ M]]; [|apply absent_cons in M; destruct M; contradiction].
        apply absent_cons in M2. tauto. }
      assert (N2 : key <> lit "source") by (intros ->; now rewrite str_eqb_refl in E2). apply room_other in R2; [|exact N2].
      apply IH; [exact R1|exact R2|]. rewrite !absent_cons in M. tauto. }
    apply G; [split; [assumption|now left]|split; [assumption|now left]|tauto].
  - intros fs A. cbn [de_national]. induction fs as [|[key t] fs IH]; [reflexivity|]. apply absent_cons in A as [N A].
    cbn [national_map]. destruct (str_eqb key (lit "value")) eqn:E; [apply str_eqb_eq in E; contradiction|]. now apply IH.
Qed.
Print Assumptions C43_missing_parts.
Example C43_missing_ex :
  de_phone (VMap [(lit "note", VNum 1%N); (lit "national", VMap [(lit "value", VNum 5%N)])]) = Err SeMissing /\
  de_phone (VMap ([(lit "extension", VNull)] ++ (lit "extension", VNum 1%N) :: [(lit "code", VNull)])) = Err SeDuplicate /\
  de_code (VMap [(lit "value", VNum 1%N)]) = Err SeMissing.
Proof.
  assert (AB : forall k l, forallb (fun p => negb (str_eqb (fst p) k)) l = true -> absent k l).
  { intros k l H x I. rewrite forallb_forall in H. apply H in I. cbn [fst] in I. now rewrite str_eqb_refl in I. }
  split; [|split].
  - apply C43_missing; [|left; now apply AB]. split; [left; now apply AB|]. split; [|split; left; now apply AB].
    right. exists (VMap [(lit "value", VNum 5%N)]). split.
    + eexists [_], []. split; [reflexivity|]. split; [now apply AB|intros x []].
    + exists (mk_national 5%N). left. exists [(lit "value", VNum 5%N)], (VNum 5%N). split; [reflexivity|]. split.
      * exists [], []. split; [reflexivity|]. split; intros x [].
      * split; [reflexivity|discriminate].
  - apply (C43_repeated _ _ VNull); [|now left|cbn [In]; tauto].
    split; [left; now apply AB|]. split; [left; now apply AB|]. split; [|left; now apply AB].
    right. exists VNull. split; [|now exists None]. exists [], []. split; [reflexivity|]. split; intros x [].
  - apply C43_missing_parts; [|left; now apply AB|right; now apply AB].
    right. exists (VNum 1%N). split; [|exists 1%N; split; [reflexivity|discriminate]].
    exists [], []. split; [reflexivity|]. split; intros x [].
Qed.

(** ** Bytes *)
Lemma u32_codec : codec (fun n => n < 4294967296)%N enc_u32 dec_u32.
Proof.
  intros n rest H. unfold dec_u32, enc_u32. rewrite varint_codec; [f_equal; f_equal; lia|lia|reflexivity|].
  change (128 ^ N.of_nat (5 - 1) * (15 + 1))%N with 4294967296%N. exact H.
Qed.
Lemma u64_codec : codec (fun n => n <= 18446744073709551615)%N enc_u64 dec_u64.
Proof.
  intros n rest H. unfold dec_u64, enc_u64. rewrite varint_codec; [f_equal; f_equal; lia|lia|reflexivity|].
  change (128 ^ N.of_nat (10 - 1) * (1 + 1))%N with 18446744073709551616%N. lia.
Qed.
Lemma enum_codec : forall A (all : list A) (index : A -> N),
  (forall a, (index a < 4294967296)%N /\ nth_error all (N.to_nat (index a)) = Some a) ->
  codec (fun _ => True) (fun a => enc_u32 (index a)) (dec_enum all).
Proof.
  intros A all index H a rest _. destruct (H a) as [L E]. unfold dec_enum. rewrite u32_codec by exact L. cbn [obind]. now rewrite E.
Qed.
Lemma source_codec : codec (fun _ => True) enc_source dec_source.
Proof. apply (enum_codec _ all_sources source_index). intros []; split; reflexivity. Qed.
Theorem C43_type_bytes : forall t rest, dec_type (enc_type t ++ rest) = Ok (t, rest).
Proof. intros t rest. apply (enum_codec _ all_types type_index); [intros []; split; reflexivity|exact I]. Qed.
Theorem C43_id_bytes : forall i rest, dec_id (enc_id i ++ rest) = Ok (i, rest).
Proof.
  intros i rest. apply (enum_codec _ all_ids (fun i => N.of_nat (id_index i))); [|exact I].
  intros j. rewrite Nat2N.id. split; [|apply all_ids_nth]. destruct j; reflexivity.
Qed.
(** A position past the last variant is refused as such, in any of the enums,
    and so is a whole number that has it as its source. *)
Lemma enum_beyond : forall A (all : list A) n rest, (n < 4294967296)%N -> (length all <= N.to_nat n)%nat ->
  dec_enum all (enc_u32 n ++ rest) = Err PcBadEnum.
Proof.
  intros A all n rest L H. unfold dec_enum. rewrite u32_codec by exact L. cbn [obind].
  now rewrite (proj2 (nth_error_None all (N.to_nat n)) H).
Qed.
Theorem C43_unknown_variant : forall n rest, (n < 4294967296)%N ->
  ((17 <= n)%N -> dec_type (enc_u32 n ++ rest) = Err PcBadEnum) /\
  ((N.of_nat (length all_ids) <= n)%N -> dec_id (enc_u32 n ++ rest) = Err PcBadEnum) /\
  ((4 <= n)%N -> forall v, (v <= 65535)%N -> dec_phone (enc_u16 v ++ enc_u32 n ++ rest) = Err PcBadEnum).
Proof.
  intros n rest L. split; [|split].
  - intros H. apply enum_beyond; [exact L|]. cbn [all_types length]. lia.
  - intros H. apply enum_beyond; [exact L|]. lia.
  - intros H v V. unfold dec_phone, dec_code. rewrite u16_codec by exact V. cbn [obind].
    unfold dec_source. rewrite enum_beyond; [reflexivity|exact L|]. cbn [all_sources length]. lia.
Qed.
Print Assumptions C43_unknown_variant.
Definition texts_ok (p : phone) : Prop := opt_ok text_ok (ph_extension p) /\ opt_ok text_ok (ph_carrier p).
Lemma phone_codec : codec (fun p => fits p /\ texts_ok p) enc_phone dec_phone.
Proof.
  intros [[v s] [r] e k] rest [[F1 F2] [T1 T2]]. cbn [ph_code ph_national ph_extension ph_carrier code_value nn_raw] in *.
  unfold dec_phone, enc_phone. cbn [ph_code ph_national ph_extension ph_carrier].
  unfold dec_code, enc_code, dec_national, enc_national. cbn [code_value code_source nn_raw].
  rewrite <- !app_assoc. rewrite u16_codec by exact F1. cbn [obind]. rewrite source_codec by exact I. cbn [obind].
  rewrite u64_codec by exact F2. cbn [obind]. rewrite (opt_codec _ _ _ _ str_codec) by exact T1. cbn [obind].
  rewrite (opt_codec _ _ _ _ str_codec) by exact T2. reflexivity.
Qed.
(** The bytes of a number are read back as the number, leaving what follows. *)
Theorem C43_bytes : forall p rest, fits p -> texts_ok p -> dec_phone (enc_phone p ++ rest) = Ok (p, rest).
Proof. intros p rest F T. apply phone_codec. now split. Qed.
Print Assumptions C43_bytes.
Lemma steady_enum : forall A (all : list A), steady (dec_enum all).
Proof.
  intros A all. unfold dec_enum. apply steady_bind; [apply steady_varint|]. intros n bs a r x H.
  destruct (nth_error all (N.to_nat n)); [|discriminate]. injection H as <- <-. reflexivity.
Qed.
Lemma steady_phone : steady dec_phone.
Proof.
  unfold dec_phone. steady_fields; unfold dec_code, dec_national; steady_fields; apply steady_enum.
Qed.
(** Cut short anywhere, they are refused. *)
Theorem C43_bytes_truncated : forall p cut rest, fits p -> texts_ok p -> enc_phone p = cut ++ rest -> rest <> [] ->
  forall q r, dec_phone cut <> Ok (q, r).
Proof.
  intros p cut rest F T. apply (steady_refuses _ _ _ _ phone_codec steady_phone). now split.
Qed.
Print Assumptions C43_bytes_truncated.

(** ** What reading does not check: the calling code.  A stored number with a
    code that no region has is accepted, and panics when it is shown. *)
Theorem C43_shown_refuted : exists t p, de_phone t = Ok p /\ phone_to_string p = Panic.
Proof.
  exists (VMap [(lit "code", VMap [(lit "value", VNum 999); (lit "source", VStr (lit "plus"))]);
                (lit "national", VSeq [VNum 2125551234])]),
    (mk_phone (mk_code 999 SrcPlus) (mk_national 2125551234) None None).
  split; vm_compute; reflexivity.
Qed.
Print Assumptions C43_shown_refuted.

(** A number with a leading zero, an extension and a carrier, written by
    another program with its keys in another order and one more key; without
    its code, and with a repeated one, it is refused. *)
Definition ex_stored : phone :=
  mk_phone (mk_code 39 SrcIdd) (mk_national (72057594037927936 + 236618300)) (Some (lit "12")) None.
Example C43_ex : fits ex_stored /\ texts_ok ex_stored
  /\ de_phone (VMap [(lit "note", VOther); (lit "extension", VStr (lit "12"));
       (lit "national", VMap [(lit "value", VNum 72057594274546236)]);
       (lit "code", VMap [(lit "source", VStr (lit "idd")); (lit "value", VNum 39)])]) = Ok ex_stored
  /\ de_phone (VMap [(lit "national", VMap [(lit "value", VNum 72057594274546236)])]) = Err SeMissing
  /\ de_phone (VMap [(lit "carrier", VNull); (lit "carrier", VStr (lit "15"))]) = Err SeDuplicate
  /\ enc_phone ex_stored = [39; 1; 188;132;234;240;128;128;128;128;1; 1;2;49;50; 0]%N.
Proof.
  split; [split; vm_compute; discriminate|]. split.
  { split; intros a E; [injection E as <-|discriminate]. split; [|vm_compute; reflexivity].
    intros c [<-|[<-|[]]]; split; try (vm_compute; reflexivity); lia. }
  repeat split; vm_compute; reflexivity.
Qed.
