(** * C63: country ids, their texts, and the entries of the built-in metadata *)
From Verif Require Import Base Regex CountryId Types Metadata Database DefaultDb DefaultDbOk Api.
From Verif Require Import StrFacts DatabaseFacts PropsE164.

Definition capital (c : char) : Prop := (65 <= c <= 90)%N.
Lemma find_name : forall s l i, id_find s l = Some i -> id_name i = s.
Proof.
  intros s. induction l as [|j l IH]; intros i H; cbn [id_find] in H; [discriminate|].
  destruct (str_eqb (id_name j) s) eqn:E; [|now apply IH]. apply str_eqb_eq in E. congruence.
Qed.
Lemma name_inj : forall i j, id_name i = id_name j -> i = j.
Proof.
  intros i j H. assert (E : id_of_name (id_name i) = Some i) by (destruct i; vm_compute; reflexivity).
  assert (E' : id_of_name (id_name j) = Some j) by (destruct j; vm_compute; reflexivity). congruence.
Qed.
(** A text is read as a country id exactly when it is that id's text: two capital letters, nothing else. *)
Theorem C63_text : forall s i, id_of_name s = Some i <-> s = id_name i.
Proof.
  intros s i. split; [intros H; symmetry; exact (find_name s all_ids i H)|]. intros ->. destruct i; vm_compute; reflexivity.
Qed.
Print Assumptions C63_text.
Theorem C63_shape : (forall i j, id_name i = id_name j -> i = j) /\ forall i, exists a b, id_name i = [a; b] /\ capital a /\ capital b.
Proof.
  split; [exact name_inj|]. intros i. unfold capital. destruct i; (eexists; eexists; split; [vm_compute; reflexivity|]; split; split; vm_compute; discriminate).
Qed.
Print Assumptions C63_shape.

(** Every id has an entry, which is listed under its calling code; every entry is that of an id, or 001. *)
Definition named_ok (db : database) : bool :=
  forallb (fun i => match by_id db (id_name i) with
                    | Some m => match region db (md_country_code m) with Some l => existsb (str_eqb (id_name i)) l | None => false end
                    | None => false end) all_ids.
Definition known_ok (db : database) : bool :=
  forallb (fun e => if str_eqb (fst e) (lit "001") then true else match id_of_name (fst e) with Some _ => true | None => false end) (db_by_id db).
Definition regions_ok (db : database) : bool :=
  forallb (fun e => match snd e with
                    | [r] => if str_eqb r (lit "001") then true else is_some (id_of_name r)
                    | l => forallb (fun r => is_some (id_of_name r)) l end) (db_regions db).
Lemma default_named : named_ok default_db = true.
Proof. vm_cast_no_check (eq_refl true). Qed.
Lemma default_known : known_ok default_db = true.
Proof. vm_cast_no_check (eq_refl true). Qed.
Lemma default_regions : regions_ok default_db = true.
Proof. vm_cast_no_check (eq_refl true). Qed.
Definition entries_named (db : database) : Prop :=
  (forall i, exists m rs, by_id db (id_name i) = Some m /\ md_id m = id_name i /\ region db (md_country_code m) = Some rs /\ In (id_name i) rs) /\
  (forall s m, by_id db s = Some m -> s = lit "001" \/ exists i, s = id_name i) /\
  (forall c rs, region db c = Some rs -> rs = [lit "001"] \/ forall r, In r rs -> exists i, r = id_name i).
Lemma named_any : forall es db, db_from es = Ok db -> named_ok db = true -> known_ok db = true -> regions_ok db = true -> entries_named db.
Proof.
  intros es db H A B C. pose proof (db_from_db_ok es db H) as OK. split; [|split].
  - intros i. unfold named_ok in A. rewrite forallb_forall in A. specialize (A i (all_ids_complete i)).
    destruct (by_id db (id_name i)) as [m|] eqn:E; [|discriminate]. destruct (region db (md_country_code m)) as [rs|] eqn:R; [|discriminate].
    exists m, rs. split; [reflexivity|]. split; [|split; [exact R|]].
    + apply db_from_ok in H as (mds & _ & ->). rewrite db_of_by_id in E. apply find_some in E as [_ E]. now apply str_eqb_eq in E.
    + apply existsb_exists in A as (x & I & X). apply str_eqb_eq in X. now subst x.
  - intros s m E. apply sget_in in E. unfold known_ok in B. rewrite forallb_forall in B. specialize (B _ E). cbn [fst] in B.
    destruct (str_eqb s (lit "001")) eqn:Z; [left; now apply str_eqb_eq|right]. destruct (id_of_name s) as [i|] eqn:I; [|discriminate].
    exists i. now apply C63_text.
  - intros c rs E. assert (I : In (c, rs) (db_regions db)) by (now apply ParserFacts.nget_in). unfold regions_ok in C. rewrite forallb_forall in C. specialize (C _ I). cbn [snd] in C.
    assert (G : forall l, forallb (fun r => is_some (id_of_name r)) l = true -> forall r, In r l -> exists i, r = id_name i).
    { intros l K r J. rewrite forallb_forall in K. specialize (K r J). destruct (id_of_name r) as [i|] eqn:Ei; [|discriminate]. exists i. now apply C63_text. }
    destruct rs as [|r [|r' rs]].
    + right. intros r [].
    + destruct (str_eqb r (lit "001")) eqn:Z; [left; apply str_eqb_eq in Z; now subst|right]. apply G. cbn [forallb]. now rewrite C.
    + right. now apply G.
Qed.
Theorem C63_entries : entries_named default_db.
Proof. exact (named_any default_entries default_db default_db_built default_named default_known default_regions). Qed.
Print Assumptions C63_entries.

Example C63_ex : id_of_name (lit "BE") = Some ID_BE /\ id_of_name (lit "be") = None /\ id_of_name (lit " BE") = None /\ id_of_name (lit "001") = None.
Proof. repeat split; vm_compute; reflexivity. Qed.
