(** * DatabaseFacts: the indexes built by [Database::from] *)
From Verif Require Import Base Regex RegexSyntax CountryId Types Metadata Database StrFacts.

Lemma obind_ok : forall E A B (x : outcome E A) (f : A -> outcome E B) b,
  obind x f = Ok b -> exists a, x = Ok a /\ f a = Ok b.
Proof. intros E A B [a|e|] f b H; cbn in H; try discriminate. eauto. Qed.

Definition db_of (mds : list metadata) : database := fold_left db_insert mds db_empty.

Lemma db_from_loop_ok : forall l db0 db, db_from_loop db0 l = Ok db <->
  exists mds, omap_list db_metadata l = Ok mds /\ db = fold_left db_insert mds db0.
Proof.
  induction l as [|x l IH]; intros db0 db; cbn [db_from_loop omap_list].
  - split; [intros H; inversion H; now exists []|intros (mds & H & ->); inversion H; easy].
  - split.
    + intros H. apply obind_ok in H as (m & Em & H). apply IH in H as (mds & E & ->).
      exists (m :: mds). rewrite Em. cbn. rewrite E. easy.
    + intros (mds & H & ->). apply obind_ok in H as (m & Em & H). apply obind_ok in H as (ms & E & H).
      inversion H; subst. rewrite Em. cbn. apply IH. now exists ms.
Qed.
Lemma db_from_ok : forall l db, db_from l = Ok db <->
  exists mds, omap_list db_metadata l = Ok mds /\ db = db_of mds.
Proof. intros; apply db_from_loop_ok. Qed.

(** ** Association lists *)
Lemma sget_sinsert : forall A (m : list (str * A)) k v k',
  sget (sinsert m k v) k' = if str_eqb k k' then Some v else sget m k'.
Proof.
  induction m as [|[k0 v0] m IH]; intros k v k'; cbn; [easy|].
  destruct (str_eqb k0 k) eqn:E.
  - apply str_eqb_eq in E. subst. cbn. destruct (str_eqb k k'); easy.
  - cbn. rewrite IH. destruct (str_eqb k0 k') eqn:E1; [|easy].
    apply str_eqb_eq in E1. subst k'. destruct (str_eqb k k0) eqn:E2; [|easy].
    apply str_eqb_eq in E2. subst. now rewrite str_eqb_refl in E.
Qed.
Lemma nget_nupdate : forall A (m : list (N * list A)) k f k',
  nget (nupdate m k f) k' =
  if N.eqb k k' then Some (f (match nget m k with Some l => l | None => [] end)) else nget m k'.
Proof.
  induction m as [|[k0 v0] m IH]; intros k f k'; cbn; [easy|].
  destruct (N.eqb_spec k0 k).
  - subst. cbn. destruct (N.eqb k k'); easy.
  - cbn. rewrite IH. destruct (N.eqb_spec k0 k'); [|easy].
    subst. destruct (N.eqb_spec k k'); [congruence|easy].
Qed.

(** keys of the id index are unique and name their entry *)
Lemma sinsert_in : forall A (m : list (str * A)) k v k' v',
  In (k', v') (sinsert m k v) -> (k' = k /\ v' = v) \/ In (k', v') m.
Proof.
  induction m as [|[k0 v0] m IH]; intros k v k' v' H; cbn in H.
  - destruct H as [H|[]]. inversion H; auto.
  - destruct (str_eqb k0 k).
    + destruct H as [H|H]; [inversion H; auto|right; now right].
    + destruct H as [H|H]; [right; now left|]. apply IH in H as [H|H]; [auto|right; now right].
Qed.
Lemma sinsert_keys : forall A (m : list (str * A)) k v k',
  In k' (map fst (sinsert m k v)) -> k' = k \/ In k' (map fst m).
Proof.
  intros A m k v k' H. apply in_map_iff in H as ([k1 v1] & <- & H).
  apply sinsert_in in H as [[-> _]|H]; [auto|]. right. now apply (in_map fst) in H.
Qed.
Lemma sinsert_nodup : forall A (m : list (str * A)) k v,
  NoDup (map fst m) -> NoDup (map fst (sinsert m k v)).
Proof.
  induction m as [|[k0 v0] m IH]; intros k v H; cbn.
  - repeat constructor. easy.
  - cbn in H. inversion H; subst. destruct (str_eqb k0 k) eqn:E.
    + apply str_eqb_eq in E. subst. now constructor.
    + cbn. constructor; [|auto]. intros I. apply sinsert_keys in I as [->|I]; [|easy].
      now rewrite str_eqb_refl in E.
Qed.
Lemma sget_in : forall A (m : list (str * A)) k v, sget m k = Some v -> In (k, v) m.
Proof.
  induction m as [|[k0 v0] m IH]; intros k v H; cbn in H; [easy|].
  destruct (str_eqb k0 k) eqn:E; [|right; auto].
  apply str_eqb_eq in E. inversion H; subst. now left.
Qed.
Lemma in_sget : forall A (m : list (str * A)) k v, NoDup (map fst m) -> In (k, v) m -> sget m k = Some v.
Proof.
  induction m as [|[k0 v0] m IH]; intros k v Hn H; cbn in *; [easy|].
  inversion Hn; subst. destruct H as [H|H].
  - inversion H; subst. now rewrite str_eqb_refl.
  - destruct (str_eqb k0 k) eqn:E; [|auto]. apply str_eqb_eq in E. subst.
    apply (in_map fst) in H. easy.
Qed.

(** ** Specification of the indexes *)
Definition has_code (c : N) (m : metadata) : bool := N.eqb (md_country_code m) c.
Definition has_id (k : str) (m : metadata) : bool := str_eqb (md_id m) k.
Definition is_main (m : metadata) : bool := md_main_country_for_code m.

(** Entries with one calling code, the order in which they are listed: main
    countries in front (the last one first), the others in file order. *)
Definition code_order (l : list metadata) : list metadata :=
  rev (filter is_main l) ++ filter (fun m => negb (is_main m)) l.

Definition some_if_any {A} (l : list A) : option (list A) :=
  match l with [] => None | _ => Some l end.

Lemma code_order_snoc : forall l m, code_order (l ++ [m]) =
  if is_main m then m :: code_order l else code_order l ++ [m].
Proof.
  intros. unfold code_order. rewrite !filter_app. cbn. destruct (is_main m); cbn.
  - rewrite app_nil_r, rev_app_distr. easy.
  - rewrite app_nil_r, app_assoc. easy.
Qed.
Lemma code_order_nil : forall l, code_order l = [] <-> l = [].
Proof.
  intros. split; [|now intros ->]. unfold code_order. intros H. apply app_eq_nil in H as [H1 H2].
  destruct l as [|m l]; [easy|]. cbn in *. destruct (is_main m); cbn in *; [|easy].
  now apply app_eq_nil in H1.
Qed.
Lemma code_order_in : forall l m, In m (code_order l) <-> In m l.
Proof.
  intros. unfold code_order. rewrite in_app_iff, <- in_rev, !filter_In.
  destruct (is_main m); cbn; intuition.
Qed.

Theorem db_of_by_id : forall mds k, by_id (db_of mds) k = find (has_id k) (rev mds).
Proof.
  intros mds. induction mds as [|m mds IH] using rev_ind; intros k; [easy|].
  unfold db_of. rewrite fold_left_app, rev_app_distr. cbn. unfold by_id, db_insert. cbn.
  rewrite sget_sinsert. fold (db_of mds) in *. unfold has_id at 1.
  destruct (str_eqb (md_id m) k); [easy|]. apply IH.
Qed.

Theorem db_of_by_code : forall mds c,
  by_code (db_of mds) c = some_if_any (code_order (filter (has_code c) mds)).
Proof.
  intros mds. induction mds as [|m mds IH] using rev_ind; intros c; [easy|].
  unfold db_of. rewrite fold_left_app. cbn. fold (db_of mds).
  unfold by_code, db_insert. cbn. rewrite nget_nupdate, filter_app. cbn. unfold has_code at 2.
  fold (by_code (db_of mds) c). destruct (N.eqb_spec (md_country_code m) c).
  - fold (by_code (db_of mds) (md_country_code m)). rewrite e, IH, code_order_snoc.
    unfold is_main.
    destruct (code_order _); cbn; destruct (md_main_country_for_code m); easy.
  - rewrite app_nil_r. apply IH.
Qed.

Lemma some_if_any_map : forall A B (f : A -> B) l,
  some_if_any (map f l) = option_map (map f) (some_if_any l).
Proof. destruct l; easy. Qed.

Theorem db_of_region : forall mds c,
  region (db_of mds) c = option_map (map md_id) (by_code (db_of mds) c).
Proof.
  intros mds. induction mds as [|m mds IH] using rev_ind; intros c; [easy|].
  unfold db_of. rewrite fold_left_app. cbn. fold (db_of mds).
  unfold region, by_code, db_insert. cbn. rewrite !nget_nupdate.
  destruct (N.eqb (md_country_code m) c); [|apply IH]. cbn. f_equal.
  specialize (IH (md_country_code m)). unfold region, by_code in IH. rewrite IH.
  destruct (nget (db_by_code (db_of mds)) (md_country_code m)) as [l|]; cbn;
    destruct (md_main_country_for_code m); cbn; rewrite ?map_app; easy.
Qed.

Lemma db_of_keys : forall mds, NoDup (map fst (db_by_id (db_of mds))) /\
  forall k m, In (k, m) (db_by_id (db_of mds)) -> md_id m = k.
Proof.
  intros mds. induction mds as [|m mds [IH1 IH2]] using rev_ind.
  - split; [constructor|easy].
  - unfold db_of. rewrite fold_left_app. cbn. fold (db_of mds). split.
    + now apply sinsert_nodup.
    + intros k m' H. apply sinsert_in in H as [[-> ->]|H]; auto.
Qed.

Theorem db_of_iter : forall mds,
  NoDup (map md_id (db_iter (db_of mds))) /\
  forall m, In m (db_iter (db_of mds)) <-> by_id (db_of mds) (md_id m) = Some m.
Proof.
  intros mds. destruct (db_of_keys mds) as [K1 K2]. unfold db_iter, by_id. split.
  - assert (E : map md_id (map snd (db_by_id (db_of mds))) = map fst (db_by_id (db_of mds))).
    { rewrite map_map. apply map_ext_in. intros [k m] H. cbn. eauto. }
    now rewrite E.
  - intros m. split.
    + intros H. apply in_map_iff in H as ([k m'] & <- & H). cbn.
      rewrite (K2 _ _ H). now apply in_sget.
    + intros H. apply sget_in in H. now apply (in_map snd) in H.
Qed.

(** ** Consequences used by the other proofs *)
Record db_ok (db : database) : Prop := {
  ok_id : forall k m, by_id db k = Some m -> md_id m = k;
  ok_id_code : forall k m, by_id db k = Some m -> exists l, by_code db (md_country_code m) = Some l /\ In m l;
  ok_code : forall c l m, by_code db c = Some l -> In m l -> md_country_code m = c;
  ok_code_ne : forall c, by_code db c <> Some [];
  ok_code_id : forall c l m, by_code db c = Some l -> In m l -> exists m', by_id db (md_id m) = Some m';
  ok_region : forall c, region db c = option_map (map md_id) (by_code db c) }.

Lemma find_some_in : forall A (f : A -> bool) l x, In x l -> f x = true -> exists y, find f l = Some y.
Proof.
  induction l; intros x H Hx; [easy|]. cbn. destruct (f a) eqn:E; [eauto|].
  destruct H as [->|H]; [congruence|eauto].
Qed.

Lemma db_of_ok : forall mds, db_ok (db_of mds).
Proof.
  intros mds. constructor.
  - intros k m H. rewrite db_of_by_id in H. apply find_some in H as [_ H].
    now apply str_eqb_eq in H.
  - intros k m H. rewrite db_of_by_id in H. apply find_some in H as [H _].
    rewrite <- in_rev in H. rewrite db_of_by_code.
    assert (I : In m (code_order (filter (has_code (md_country_code m)) mds))).
    { apply code_order_in, filter_In. split; [easy|]. unfold has_code. apply N.eqb_refl. }
    destruct (code_order _); [easy|]. cbn. eauto.
  - intros c l m H I. rewrite db_of_by_code in H.
    destruct (code_order _) eqn:E; [discriminate|]. cbn in H. inversion H; subst.
    rewrite <- E in I. apply (proj1 (code_order_in _ _)) in I. apply filter_In in I as [_ I].
    now apply N.eqb_eq in I.
  - intros c H. rewrite db_of_by_code in H. destruct (code_order _); discriminate.
  - intros c l m H I. rewrite db_of_by_code in H.
    destruct (code_order _) eqn:E; [discriminate|]. cbn in H. inversion H; subst.
    rewrite <- E in I. apply (proj1 (code_order_in _ _)) in I. apply filter_In in I as [I _].
    rewrite db_of_by_id. eapply find_some_in; [rewrite <- in_rev; exact I|].
    unfold has_id. apply str_eqb_refl.
  - intros c. apply db_of_region.
Qed.

Lemma db_from_db_ok : forall l db, db_from l = Ok db -> db_ok db.
Proof. intros l db H. apply db_from_ok in H as (mds & _ & ->). apply db_of_ok. Qed.
