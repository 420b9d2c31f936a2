(** * C19: the database indexes reflect the loaded entries *)
From Verif Require Import Base Regex RegexSyntax CountryId Types Metadata Database Loader DefaultDb Api.
From Verif Require Import StrFacts DatabaseFacts.

Lemma find_rev_last : forall (f : metadata -> bool) l m,
  find f (rev l) = Some m <-> exists l1 l2, l = l1 ++ m :: l2 /\ f m = true /\ forall x, In x l2 -> f x = false.
Proof.
  intros f. induction l as [|y l IH] using rev_ind; intros m.
  - split; [easy|]. intros (l1 & l2 & H & _). destruct l1; discriminate.
  - rewrite rev_app_distr. cbn. destruct (f y) eqn:E; split.
    + intros H. inversion H; subst. now exists l, [].
    + intros (l1 & l2 & H & Hm & Hl). destruct l2 as [|z l2] using rev_ind.
      * apply app_inj_tail in H as [_ ->]. easy.
      * clear IHl2. rewrite app_comm_cons, app_assoc in H. apply app_inj_tail in H as [_ <-].
        rewrite Hl in E; [easy|]. apply in_app_iff. right. now left.
    + intros H. apply IH in H as (l1 & l2 & -> & Hm & Hl). exists l1, (l2 ++ [y]).
      rewrite <- app_assoc. split; [easy|]. split; [easy|]. intros x I.
      apply in_app_iff in I as [I|[<-|[]]]; auto.
    + intros (l1 & l2 & H & Hm & Hl). apply IH. destruct l2 as [|z l2] using rev_ind.
      * apply app_inj_tail in H as [_ ->]. congruence.
      * clear IHl2. rewrite app_comm_cons, app_assoc in H. apply app_inj_tail in H as [-> _].
        exists l1, l2. split; [easy|]. split; [easy|]. intros x I. apply Hl. apply in_app_iff. now left.
Qed.

(** [by_id] gives the last entry with that id. *)
Theorem C19_by_id : forall entries mds db k m,
  omap_list db_metadata entries = Ok mds -> db_from entries = Ok db ->
  (by_id db k = Some m <->
   exists before after, mds = before ++ m :: after /\ md_id m = k
     /\ forall x, In x after -> md_id x <> k).
Proof.
  intros entries mds db k m Hm H. apply db_from_ok in H as (mds' & E & ->).
  assert (mds' = mds) by congruence. subst mds'. rewrite db_of_by_id, find_rev_last.
  unfold has_id. split; intros (l1 & l2 & -> & H1 & H2); exists l1, l2; (split; [easy|]).
  - apply str_eqb_eq in H1. split; [easy|]. intros x I. apply str_eqb_neq. auto.
  - split; [now apply str_eqb_eq|]. intros x I. apply str_eqb_neq. auto.
Qed.
Print Assumptions C19_by_id.

(** [by_code] lists exactly the entries with that code: main countries in
    front, the others after them in file order; [None] iff there are none. *)
Theorem C19_by_code : forall entries mds db code,
  omap_list db_metadata entries = Ok mds -> db_from entries = Ok db ->
  let with_code := filter (fun m => N.eqb (md_country_code m) code) mds in
  let mains := filter md_main_country_for_code with_code in
  let others := filter (fun m => negb (md_main_country_for_code m)) with_code in
  (with_code = [] /\ by_code db code = None) \/
  (with_code <> [] /\ by_code db code = Some (rev mains ++ others)).
Proof.
  intros entries mds db code Hm H. apply db_from_ok in H as (mds' & E & ->).
  assert (mds' = mds) by congruence. subst mds'. cbn zeta. rewrite db_of_by_code.
  change (filter (fun m => N.eqb (md_country_code m) code) mds) with (filter (has_code code) mds).
  destruct (filter (has_code code) mds) as [|m l] eqn:Ef; [now left|right]. split; [easy|].
  change (rev (filter md_main_country_for_code (m :: l)) ++
          filter (fun m => negb (md_main_country_for_code m)) (m :: l)) with (code_order (m :: l)).
  destruct (code_order (m :: l)) eqn:Eo; [|easy]. now apply (proj1 (code_order_nil _)) in Eo.
Qed.
Print Assumptions C19_by_code.

(** [region] lists the ids of [by_code] in the same order. *)
Theorem C19_region : forall entries db code, db_from entries = Ok db ->
  region db code = option_map (map md_id) (by_code db code).
Proof. intros entries db code H. apply db_from_ok in H as (mds & _ & ->). apply db_of_region. Qed.
Print Assumptions C19_region.

(** [iter] visits each id exactly once. *)
Theorem C19_iter : forall entries mds db,
  omap_list db_metadata entries = Ok mds -> db_from entries = Ok db ->
  NoDup (map md_id (db_iter db)) /\
  (forall m, In m (db_iter db) <-> by_id db (md_id m) = Some m) /\
  (forall k, In k (map md_id (db_iter db)) <-> In k (map md_id mds)).
Proof.
  intros entries mds db Hm H. apply db_from_ok in H as (mds' & E & ->).
  assert (mds' = mds) by congruence. subst mds'. destruct (db_of_iter mds) as [H1 H2].
  split; [easy|]. split; [easy|]. intros k. split.
  - intros I. apply in_map_iff in I as (m & <- & I). apply H2 in I. rewrite db_of_by_id in I.
    apply find_some in I as [I _]. apply in_map. now apply in_rev.
  - intros I. apply in_map_iff in I as (m & <- & I).
    destruct (find_some_in _ (has_id (md_id m)) (rev mds) m) as (y & Hy).
    + now apply in_rev in I.
    + unfold has_id. apply str_eqb_refl.
    + pose proof (find_some _ _ Hy) as [_ Hid]. unfold has_id in Hid. apply str_eqb_eq in Hid.
      rewrite <- db_of_by_id in Hy. rewrite <- Hid in Hy. apply H2 in Hy.
      apply (in_map md_id) in Hy. now rewrite Hid in Hy.
Qed.
Print Assumptions C19_iter.

(** Non-vacuity: in the built-in metadata +1 lists the main country US first,
    and the later of the entries with id "001" is the one found by id. *)
Example C19_ex :
  option_map (fun l => firstn 3 (map md_id l)) (by_code default_db 1) = Some [lit "US"; lit "AG"; lit "AI"]
  /\ option_map md_country_code (by_id default_db (lit "001")) = Some 979%N
  /\ option_map (@length _) (region default_db 44) = Some 4
  /\ by_code default_db 999 = None.
Proof. vm_compute. repeat split. Qed.
