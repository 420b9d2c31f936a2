(** * C49: the order of the territories does not matter

    The metadata document may list its territories in any order: every text is
    read as the same number, every number is written in the same way and has
    the same validity and type, and belongs to the same country - except for
    the numbers +590 590 27/29/51/52/87 dddd, which both Saint-Barthelemy and
    Saint-Martin claim. *)
From Coq Require Import Permutation.
From Verif Require Import Base Unicode Regex RegexSyntax Consts CountryId Types NationalNumber
  Metadata Database Validator Valid Number Rfc3966 Helper Natural PhoneNumber Parser Formatter Loader
  DefaultDb DefaultDbOk Api.
From Verif Require Import StrFacts NationalFacts RegexLang RegexFacts RegexCaps RegexDeriv DatabaseFacts ParserFacts
  ParseInv TextFacts ViableFacts PhoneText CoreFacts DialFacts RegexMany RegexExact E164Facts FormatFacts PropsPanic
  PropsE164 PropsValid PropsNational ClaimFacts PropsClaims.

(** ** Vocabulary *)
(** National numbers of Guadeloupe's calling code that two countries claim. *)
Definition disputed (v : str) : Prop :=
  exists x rest, In x [lit "27"; lit "29"; lit "51"; lit "52"; lit "87"] /\ length rest = 4 /\ v = lit "590" ++ x ++ rest.
Definition disputed_number (p : phone) : Prop :=
  code_value (ph_code p) = 590%N /\ disputed (dec (nn_value (ph_national p))).

(** ** The entry a number is given *)
Definition entry_for (db : database) (c : N) (v : str) : option metadata :=
  match by_code db c with
  | None => None
  | Some [m] => Some m
  | Some l => find (hit v) l
  end.
Lemma source_loop_find : forall db v l,
  (forall m, In m l -> by_id db (md_id m) = Some m /\ exists i, id_of_name (md_id m) = Some i) ->
  exists s, source_loop db v (map md_id l) = Ok s /\ source_meta db s = find (hit v) l.
Proof.
  intros db v. induction l as [|m l IH]; intros H; cbn [map source_loop find]; [exists None; auto|].
  destruct (H m) as [Hid (i & Hi)]; [now left|]. rewrite Hid. cbn [unwrap obind].
  fold (hit v m). destruct (hit v m).
  - rewrite Hi. cbn [unwrap obind]. eexists. split; [reflexivity|]. cbn [source_meta]. apply id_of_name_inv in Hi. now rewrite Hi.
  - apply IH. intros x I. apply H. now right.
Qed.
Lemma source_entry : forall db c v, regular db -> exists s, source_for db c v = Ok s /\ source_meta db s = entry_for db c v.
Proof.
  intros db c v [(entries & Hdb) Hids]. pose proof (db_from_db_ok _ _ Hdb) as OK. unfold source_for, entry_for.
  rewrite (ok_region _ OK c). destruct (by_code db c) as [l|] eqn:E; cbn [option_map]; [|exists None; auto].
  destruct l as [|m [|m2 l]]; [now apply (ok_code_ne _ OK) in E| |].
  - cbn [map]. destruct (Hids _ _ E) as [(m' & H & H1)|H].
    + inversion H; subst m'. rewrite H1, str_eqb_refl. eexists. split; [reflexivity|]. cbn [source_meta]. now rewrite E.
    + destruct (H m) as [Hid (i & Hi)]; [now left|]. destruct (str_eqb (md_id m) (lit "001")) eqn:E1.
      { apply str_eqb_eq in E1. rewrite E1, id_of_name_001 in Hi. discriminate. }
      rewrite Hi. eexists. split; [reflexivity|]. cbn [source_meta]. apply id_of_name_inv in Hi. now rewrite Hi.
  - destruct (Hids _ _ E) as [(m' & H & _)|H]; [discriminate|].
    change (map md_id (m :: m2 :: l)) with (md_id m :: md_id m2 :: map md_id l) at 1. cbv iota.
    change (md_id m :: md_id m2 :: map md_id l) with (map md_id (m :: m2 :: l)). now apply source_loop_find.
Qed.

(** ** Two orders of the same entries *)
Lemma omap_list_perm : forall E A B (f : A -> outcome E B) l l', Permutation l l' ->
  forall r, omap_list f l = Ok r -> exists r', omap_list f l' = Ok r' /\ Permutation r r'.
Proof.
  intros E A B f. induction 1 as [|x l l' P IH|x y l|l1 l2 l3 P1 IH1 P2 IH2]; intros r H; cbn [omap_list] in *.
  - eauto.
  - apply obind_ok in H as (a & Ha & H). apply obind_ok in H as (r0 & Hr & H). inversion H; subst r.
    destruct (IH _ Hr) as (r' & Hr' & P'). rewrite Ha, Hr'. cbn [obind]. exists (a :: r'). auto.
  - apply obind_ok in H as (a & Ha & H). apply obind_ok in H as (r0 & Hr & H). inversion H; subst r.
    apply obind_ok in Hr as (b & Hb & Hr). apply obind_ok in Hr as (r1 & Hr1 & Hr). inversion Hr; subst r0.
    rewrite Hb, Ha, Hr1. cbn [obind]. exists (b :: a :: r1). split; [reflexivity|constructor].
  - destruct (IH1 _ H) as (r' & H' & P'). destruct (IH2 _ H') as (r2 & H2 & P3). exists r2. split; [exact H2|].
    now transitivity r'.
Qed.
Lemma perm_filter : forall A (f : A -> bool) l l', Permutation l l' -> Permutation (filter f l) (filter f l').
Proof.
  intros A f. induction 1 as [|x l l' P IH|x y l|l1 l2 l3 P1 IH1 P2 IH2]; cbn [filter].
  - constructor.
  - destruct (f x); [now constructor|exact IH].
  - destruct (f x), (f y); try reflexivity. constructor.
  - now transitivity (filter f l2).
Qed.
Lemma code_order_perm : forall l, Permutation (code_order l) l.
Proof.
  intros l. unfold code_order. transitivity (filter is_main l ++ filter (fun m => negb (is_main m)) l).
  - apply Permutation_app_tail. symmetry. apply Permutation_rev.
  - induction l as [|m l IH]; cbn [filter]; [constructor|]. destruct (is_main m); cbn [negb app]; [now constructor|].
    symmetry. apply Permutation_cons_app. now symmetry.
Qed.

(** a main country in front of the others *)
Definition one_main (l : list metadata) : bool :=
  match l with
  | [_] => true
  | m :: rest => if is_main m then forallb (fun x => negb (is_main x)) rest else false
  | [] => false
  end.

Lemma find_perm : forall A (f : A -> bool) l l', Permutation l l' ->
  (forall x y, In x l -> In y l -> f x = true -> f y = true -> x = y) -> find f l' = find f l.
Proof.
  intros A f l l' P U. destruct (find f l) as [x|] eqn:E.
  - apply find_some in E as [I H]. destruct (find f l') as [y|] eqn:E'.
    + apply find_some in E' as [I' H']. f_equal. apply U; auto. now apply (Permutation_in _ (Permutation_sym P)).
    + apply (Permutation_in _ P) in I. pose proof (find_none _ _ E' _ I). congruence.
  - destruct (find f l') as [y|] eqn:E'; [|reflexivity]. apply find_some in E' as [I' H'].
    apply (Permutation_in _ (Permutation_sym P)) in I'. pose proof (find_none _ _ E _ I'). congruence.
Qed.

Section Reorder.
Variables mds mds' : list metadata.
Hypothesis perm : Permutation mds mds'.
Let db := db_of mds.
Let db' := db_of mds'.
Variable reg : regular db.
Variable main : forall c l, by_code db c = Some l -> one_main l = true.

Lemma reorder_code : forall c,
  match by_code db c with
  | None => by_code db' c = None
  | Some [] => False
  | Some (m :: rest) => exists rest', Permutation rest rest' /\ by_code db' c = Some (m :: rest')
  end.
Proof.
  intros c. unfold db, db'. pose proof (main c) as M. unfold db in M. rewrite !db_of_by_code in *.
  set (L := filter (has_code c) mds) in *. set (L' := filter (has_code c) mds').
  assert (P : Permutation L L') by now apply perm_filter.
  destruct (code_order L) as [|m rest] eqn:E; cbn [some_if_any].
  { apply (proj1 (code_order_nil _)) in E. rewrite E in P. apply Permutation_nil in P. now rewrite P. }
  cbn [some_if_any] in M. specialize (M _ eq_refl).
  assert (Q : Permutation (m :: rest) (code_order L')).
  { rewrite <- E. transitivity L; [apply code_order_perm|]. transitivity L'; [exact P|]. symmetry. apply code_order_perm. }
  destruct rest as [|m2 rest].
  { apply Permutation_length_1_inv in Q. rewrite Q. exists []. split; [constructor|reflexivity]. }
  cbn [one_main] in M. destruct (is_main m) eqn:Em; [|discriminate].
  assert (F : filter is_main (code_order L) = [m]).
  { rewrite E. change (filter is_main (m :: m2 :: rest)) with (if is_main m then m :: filter is_main (m2 :: rest) else filter is_main (m2 :: rest)).
    rewrite Em. f_equal. clear - M. set (r := m2 :: rest) in *. clearbody r.
    induction r as [|x r IH]; [reflexivity|]. cbn [forallb filter] in *. apply andb_true_iff in M as [M1 M2].
    destruct (is_main x); [discriminate|]. now apply IH. }
  assert (F' : filter is_main L' = [m]).
  { apply Permutation_length_1_inv. rewrite <- F. transitivity (filter is_main L); [|now apply perm_filter]. apply perm_filter, code_order_perm. }
  assert (E' : code_order L' = m :: filter (fun x => negb (is_main x)) L').
  { unfold code_order. now rewrite F'. }
  rewrite E' in *. cbn [some_if_any]. eexists. split; [|reflexivity]. now apply Permutation_cons_inv in Q.
Qed.
Lemma reorder_code_perm : forall c l', by_code db' c = Some l' -> exists l, by_code db c = Some l /\ Permutation l l'.
Proof.
  intros c l' H. pose proof (reorder_code c) as R. destruct (by_code db c) as [[|m rest]|]; [destruct R| |congruence].
  destruct R as (rest' & P & E). rewrite E in H. inversion H; subst. exists (m :: rest). split; [reflexivity|]. now constructor.
Qed.
Lemma reorder_known : forall c, is_some (by_code db' c) = is_some (by_code db c).
Proof.
  intros c. pose proof (reorder_code c) as R. destruct (by_code db c) as [[|m rest]|]; [destruct R| |now rewrite R].
  destruct R as (rest' & _ & ->). reflexivity.
Qed.
Lemma reorder_first : forall c,
  match by_code db' c with Some (m :: _) => Some m | _ => None end = match by_code db c with Some (m :: _) => Some m | _ => None end.
Proof.
  intros c. pose proof (reorder_code c) as R. destruct (by_code db c) as [[|m rest]|]; [destruct R| |now rewrite R].
  destruct R as (rest' & _ & ->). reflexivity.
Qed.

(** a country id other than "001" belongs to one entry *)
Lemma mds_id : forall m, In m mds -> md_id m <> lit "001" -> by_id db (md_id m) = Some m.
Proof.
  intros m I N. assert (H : exists l, by_code db (md_country_code m) = Some l /\ In m l).
  { unfold db. rewrite db_of_by_code. assert (Im : In m (code_order (filter (has_code (md_country_code m)) mds))).
    { apply code_order_in, filter_In. split; [exact I|]. apply N.eqb_refl. }
    destruct (code_order _) as [|x l]; [destruct Im|]. exists (x :: l). split; [reflexivity|exact Im]. }
  destruct H as (l & El & Il). destruct (reg_ids _ reg _ _ El) as [(m' & -> & H)|H].
  - destruct Il as [->|[]]. contradiction.
  - now apply H.
Qed.
Lemma by_id_in : forall l k m, by_id (db_of l) k = Some m -> In m l /\ md_id m = k.
Proof.
  intros l k m H. rewrite db_of_by_id in H. apply find_some in H as [H1 H2]. split; [now apply in_rev|now apply str_eqb_eq].
Qed.
Lemma reorder_id : forall k, k <> lit "001" -> by_id db' k = by_id db k.
Proof.
  intros k N. destruct (by_id db k) as [m|] eqn:E.
  - apply by_id_in in E as [I Ek]. destruct (by_id db' k) as [m'|] eqn:E'.
    + apply by_id_in in E' as [I' Ek']. apply (Permutation_in _ (Permutation_sym perm)) in I'.
      assert (A : by_id db (md_id m) = Some m) by (apply mds_id; [exact I|congruence]).
      assert (B : by_id db (md_id m') = Some m') by (apply mds_id; [exact I'|congruence]). congruence.
    + exfalso. unfold db' in E'. rewrite db_of_by_id in E'. apply (Permutation_in _ perm) in I. apply in_rev in I.
      pose proof (find_none _ _ E' _ I) as F. unfold has_id in F. rewrite Ek, str_eqb_refl in F. discriminate.
  - destruct (by_id db' k) as [m'|] eqn:E'; [|reflexivity]. exfalso. apply by_id_in in E' as [I' Ek'].
    apply (Permutation_in _ (Permutation_sym perm)) in I'. assert (B : by_id db (md_id m') = Some m') by (apply mds_id; [exact I'|congruence]).
    congruence.
Qed.
Lemma name_not_001 : forall i, id_name i <> lit "001".
Proof.
  intros i E. pose proof id_of_name_001 as H. rewrite <- E in H.
  assert (K : id_of_name (id_name i) = Some i) by (destruct i; vm_compute; reflexivity). congruence.
Qed.
Lemma reorder_name : forall i, by_id db' (id_name i) = by_id db (id_name i).
Proof. intros i. apply reorder_id, name_not_001. Qed.
Lemma reorder_regular : (exists entries, db_from entries = Ok db') -> regular db'.
Proof.
  intros H. split; [exact H|]. intros c l' El'. destruct (reorder_code_perm c l' El') as (l & El & P).
  destruct (reg_ids _ reg _ _ El) as [(m & -> & Hm)|K].
  - left. exists m. split; [|exact Hm]. now apply Permutation_length_1_inv.
  - right. intros m I. apply (Permutation_in _ (Permutation_sym P)) in I. destruct (K m I) as [K1 (i & Hi)]. split; [|eauto].
    rewrite reorder_id; [exact K1|]. intros E. rewrite E, id_of_name_001 in Hi. discriminate.
Qed.

Lemma reorder_find_code : forall n lens, find_code db' n lens = find_code db n lens.
Proof.
  intros n. induction lens as [|len lens IH]; cbn [find_code]; [reflexivity|].
  destruct (unwrap (slice_to (pn_national n) len)) as [pre| |]; cbn [obind]; try reflexivity.
  destruct (unwrap (parse_u16 pre)) as [code| |]; cbn [obind]; try reflexivity.
  rewrite reorder_known, IH. reflexivity.
Qed.
Lemma reorder_country_code : forall country n, country_code db' country n = country_code db country n.
Proof.
  intros country n. unfold country_code.
  assert (E : match country with Some c => match by_id db' (id_name c) with Some m => md_international_prefix m | None => None end | None => None end
    = match country with Some c => match by_id db (id_name c) with Some m => md_international_prefix m | None => None end | None => None end).
  { destruct country as [i|]; [now rewrite reorder_name|reflexivity]. }
  rewrite E. destruct (international_prefix _ n) as [x| |]; cbn [obind]; try reflexivity.
  assert (G : (if blen (pn_national x) <=? MIN_LENGTH_FOR_NSN then Err TooShortNsn
      else match pn_prefix x with
        | Some p => let* prefix := ok_or (parse_u16 p) MalformedInteger in
            match by_code db' prefix with None => Err InvalidCountryCode | Some _ => Ok x end
        | None => if starts_with (pn_national x) [ch_0] then Err InvalidCountryCode
                  else find_code db' x (seq 1 MAX_LENGTH_FOR_COUNTRY_CODE) end)
    = (if blen (pn_national x) <=? MIN_LENGTH_FOR_NSN then Err TooShortNsn
      else match pn_prefix x with
        | Some p => let* prefix := ok_or (parse_u16 p) MalformedInteger in
            match by_code db prefix with None => Err InvalidCountryCode | Some _ => Ok x end
        | None => if starts_with (pn_national x) [ch_0] then Err InvalidCountryCode
                  else find_code db x (seq 1 MAX_LENGTH_FOR_COUNTRY_CODE) end)).
  { destruct (_ <=? _); [reflexivity|]. destruct (pn_prefix x) as [p|]; [|now rewrite reorder_find_code].
    destruct (parse_u16 p) as [v|]; cbn [ok_or obind]; [|reflexivity].
    pose proof (reorder_known v) as K. destruct (by_code db' v), (by_code db v); try reflexivity; discriminate. }
  destruct (pn_country x); [exact G|exact G|exact G|]. destruct country as [i|]; [|reflexivity]. now rewrite reorder_name.
Qed.

Lemma reorder_entry_cases : forall c v,
  entry_for db' c v = entry_for db c v \/
  exists m rest rest' x y, by_code db c = Some (m :: rest) /\ by_code db' c = Some (m :: rest') /\ Permutation rest rest' /\
    hit v m = false /\ entry_for db c v = Some x /\ entry_for db' c v = Some y /\
    In x rest /\ In y rest /\ hit v x = true /\ hit v y = true /\ md_id x <> md_id y.
Proof.
  intros c v. unfold entry_for. pose proof (reorder_code c) as R.
  destruct (by_code db c) as [[|m rest]|] eqn:Ec; [destruct R| |left; now rewrite R].
  destruct R as (rest' & P & E). rewrite E. destruct rest as [|m2 rest].
  { apply Permutation_nil in P. subst rest'. now left. }
  destruct rest' as [|m2' rest']. { now apply Permutation_sym, Permutation_nil in P. }
  cbv iota beta. remember (m2 :: rest) as r eqn:Er. remember (m2' :: rest') as r' eqn:Er'. cbn [find].
  destruct (hit v m) eqn:Hm; [now left|].
  destruct (find (hit v) r) as [x|] eqn:Fx.
  2: { left. destruct (find (hit v) r') as [y|] eqn:Fy; [|reflexivity]. exfalso. apply find_some in Fy as [I Hy].
       apply (Permutation_in _ (Permutation_sym P)) in I. pose proof (find_none _ _ Fx _ I). congruence. }
  destruct (find (hit v) r') as [y|] eqn:Fy.
  2: { exfalso. apply find_some in Fx as [I Hx]. apply (Permutation_in _ P) in I. pose proof (find_none _ _ Fy _ I). congruence. }
  pose proof (find_some _ _ Fx) as [Ix Hx]. pose proof (find_some _ _ Fy) as [Iy Hy]. apply (Permutation_in _ (Permutation_sym P)) in Iy.
  destruct (str_eqb (md_id x) (md_id y)) eqn:Eid.
  - left. apply str_eqb_eq in Eid. destruct (reg_ids _ reg _ _ Ec) as [(z & W & _)|W]; [subst r; discriminate|].
    destruct (W x) as [Wx _]; [now right|]. destruct (W y) as [Wy _]; [now right|]. congruence.
  - right. exists m, r, r', x, y. repeat split; auto. intros Q. rewrite Q, str_eqb_refl in Eid. discriminate.
Qed.
End Reorder.

(** ** The built-in metadata *)
Definition mains_check (db : database) : bool := forallb (fun p => one_main (snd p)) (db_by_code db).
Lemma mains_checked : mains_check default_db = true.
Proof. vm_cast_no_check (eq_refl true). Qed.
Lemma default_main : forall c l, by_code default_db c = Some l -> one_main l = true.
Proof.
  pose proof mains_checked as H. revert H. generalize default_db as db. intros db H c l E. unfold mains_check in H.
  rewrite forallb_forall in H. apply nget_in in E. exact (H _ E).
Qed.

(** what two others claim the main country claims, except for Saint-Barthelemy and Saint-Martin *)
Definition is_pair (a b : metadata) : bool := if str_eqb (md_id a) (lit "BL") then str_eqb (md_id b) (lit "MF") else false.
Definition covered_at (m a b : metadata) (p : nat * N) : bool :=
  combo_at (fun x y z _ => if x then if y then z else true else true) a b m void p.
Definition covered (m a b : metadata) : bool :=
  if rivalb a b then if is_pair a b then true else forallb (covered_at m a b) grid else true.
Definition covers (l : list metadata) : bool :=
  match l with
  | m :: rest => each_pair (covered m) rest
  | [] => true
  end.
Definition covers_check (db : database) : bool := forallb (fun p => covers (snd p)) (db_by_code db).
Lemma covers_checked : covers_check default_db = true.
Proof. vm_cast_no_check (eq_refl true). Qed.

Lemma hit_len : forall v, digits v = true -> length v < 17 -> as_u16 (blen v) = N.of_nat (length v).
Proof. intros v D L. rewrite digits_blen by exact D. apply as_u16_small. lia. Qed.

Lemma claimed_by_two : forall db c m rest b x mid y a v, rivals_check db = true -> covers_check db = true ->
  by_code db c = Some (m :: rest) -> rest = b ++ x :: mid ++ y :: a -> digits v = true ->
  hit v m = false -> hit v x = true -> hit v y = true -> is_pair x y = true.
Proof.
  intros db c m rest b x mid y a v Hr Hc E Er D Hm Hx Hy. subst rest.
  pose proof E as E'. apply nget_in in E'. unfold covers_check in Hc. rewrite forallb_forall in Hc. apply Hc in E'. cbn [snd covers] in E'.
  pose proof (each_pair_sound _ _ b x mid y a E' eq_refl) as P. unfold covered in P.
  assert (R : rivalb x y = true).
  { apply rivalb_in. apply hit_iff in Hx, Hy. exact (claimants_in_order db Hr c (m :: b) x mid y a v _ E D (fun L => hit_len v D L) Hx Hy). }
  rewrite R in P. destruct (is_pair x y) eqn:Q; [reflexivity|]. exfalso. clear E' R Q.
  pose proof (shared_entries db Hr _ _ E) as S. unfold entries_check in S.
  assert (S2 : forallb short (m :: b ++ x :: mid ++ y :: a) = true).
  { destruct b as [|? ?]; cbn [app] in *; destruct (forallb short _) eqn:Q; try reflexivity; discriminate. }
  rewrite forallb_forall in S2. clear S.
  assert (Sm : short m = true) by (apply S2; now left).
  assert (Sx : short x = true) by (apply S2; right; apply in_app_iff; right; now left).
  assert (Sy : short y = true) by (apply S2; right; apply in_app_iff; right; right; apply in_app_iff; right; now left).
  rewrite forallb_forall in P. specialize (P _ (grid_in (as_u16 (blen v)) v (fun L => hit_len v D L))).
  unfold covered_at in P. destruct (combo_at_sound _ _ _ _ _ _ _ (digits_cut 17 v D) P) as (tx & ty & tz & te & Q & Ax & Ay & Az & _).
  apply hit_iff in Hx, Hy. apply (short_cut _ _ _ Sx) in Hx. apply (short_cut _ _ _ Sy) in Hy. apply Ax in Hx. apply Ay in Hy.
  subst tx ty. cbn in Q. apply Az in Q. apply (short_cut _ _ _ Sm) in Q. apply hit_iff in Q. congruence.
Qed.

(** *** The three countries of +590 *)
Definition three : list metadata := Eval vm_compute in match by_code default_db 590 with Some l => l | None => [] end.
Lemma three_ok : by_code default_db 590 = Some three.
Proof. vm_cast_no_check (eq_refl (Some three)). Qed.
Definition no_entry : metadata := mk_metadata (mk_descriptors (mk_descriptor DEFAULT_IDD [] [] None)
  None None None None None None None None None None None None None None None) [] 0 None None None None None None [] [] false None false.
Definition gp := Eval cbv [three nth] in nth 0 three no_entry.
Definition bl := Eval cbv [three nth] in nth 1 three no_entry.
Definition mf := Eval cbv [three nth] in nth 2 three no_entry.
Lemma three_eq : three = [gp; bl; mf].
Proof. reflexivity. Qed.
Lemma three_ids : md_id gp = lit "GP" /\ md_id bl = lit "BL" /\ md_id mf = lit "MF".
Proof. repeat split; reflexivity. Qed.

Definition five : re := alts (map lit_re [lit "59027"; lit "59029"; lit "59051"; lit "59052"; lit "59087"]).
Definition three_at (p : nat * N) : bool :=
  if (if N.eqb (snd p) 9 then Nat.eqb (fst p) 9 else false)
  then combo_at (fun x y z t => eqb (if x then if y then negb z else false else false) t) bl mf gp five p
  else if (if Nat.eqb (fst p) 17 then N.ltb (snd p) 17 else false) then true
  else combo_at (fun x y z _ => if x then if y then z else true else true) bl mf gp void p.
Lemma three_checked : forallb three_at grid = true.
Proof. vm_cast_no_check (eq_refl true). Qed.
Lemma three_short : forallb short three = true.
Proof. vm_cast_no_check (eq_refl true). Qed.

Lemma lit_re_inv : forall p v, matches_prefix (lit_re p) v <-> exists rest, v = p ++ rest.
Proof.
  assert (L : forall p b t a, lang (lit_re p) b t a -> t = p).
  { induction p as [|c p IH]; intros b t a H; cbn [lit_re] in H; inversion H; subst; [reflexivity|].
    match goal with H1 : lang (RCls _) _ _ _ |- _ => inversion H1; subst end.
    match goal with H2 : in_cls _ _ = true |- _ => cbn in H2; rewrite in_range_single in H2; apply N.eqb_eq in H2; subst end.
    cbn [app]. f_equal. eapply IH; eassumption. }
  intros p v. split.
  - intros (t & a & -> & H). apply L in H as ->. eauto.
  - intros (rest & ->). exists p, rest. split; [reflexivity|]. apply lit_re_lang.
Qed.
Lemma five_iff : forall v, digits v = true -> length v = 9 -> matches_prefix five v <-> disputed v.
Proof.
  intros v D L. unfold five. rewrite alts_iff. unfold disputed. split.
  - intros (r & I & M). apply in_map_iff in I as (p & <- & I). apply lit_re_inv in M as (rest & ->).
    assert (Z : exists x, In x [lit "27"; lit "29"; lit "51"; lit "52"; lit "87"] /\ p = lit "590" ++ x).
    { cbn [In] in I. repeat (destruct I as [<-|I]; [eexists; split; [|reflexivity]; cbn [In]; auto 9|]). destruct I. }
    destruct Z as (x & Ix & ->). exists x, rest. split; [exact Ix|]. split; [|now rewrite app_assoc].
    rewrite !app_length in L. assert (length x = 2). { cbn [In] in Ix. repeat (destruct Ix as [<-|Ix]; [reflexivity|]). destruct Ix. }
    cbn in L. lia.
  - intros (x & rest & Ix & _ & ->). exists (lit_re (lit "590" ++ x)). split.
    + apply in_map. cbn [In] in Ix. repeat (destruct Ix as [<-|Ix]; [cbn [In]; auto 9|]). destruct Ix.
    + apply lit_re_inv. exists rest. now rewrite app_assoc.
Qed.
Lemma disputed_len : forall v, disputed v -> length v = 9.
Proof.
  intros v (x & rest & Ix & L & ->). rewrite !app_length, L. cbn [In] in Ix.
  repeat (destruct Ix as [<-|Ix]; [reflexivity|]). destruct Ix.
Qed.
Lemma disputed_iff : forall v, digits v = true -> length v < 1000 ->
  (hit v bl = true /\ hit v mf = true /\ hit v gp = false) <-> disputed v.
Proof.
  intros v D Hl. pose proof three_checked as T. rewrite forallb_forall in T.
  assert (K : as_u16 (blen v) = N.of_nat (length v)) by (rewrite digits_blen by exact D; now apply as_u16_small).
  specialize (T _ (grid_in (as_u16 (blen v)) v (fun L => hit_len v D L))). unfold three_at in T. cbn [fst snd] in T.
  pose proof three_short as S. rewrite three_eq in S. cbn [forallb] in S.
  apply andb_true_iff in S as [Sg S]. apply andb_true_iff in S as [Sb S]. apply andb_true_iff in S as [Sm _].
  assert (G : forall m, short m = true -> hit v m = true <-> all_match (claim_res (N.min (as_u16 (blen v)) 18) m) (firstn 17 v)).
  { intros m Hs. rewrite hit_iff. now apply short_cut. }
  assert (Gg : hit v gp = false <-> ~ all_match (claim_res (N.min (as_u16 (blen v)) 18) gp) (firstn 17 v)).
  { rewrite <- (G gp Sg). destruct (hit v gp); split; intros; congruence. }
  rewrite (G bl Sb), (G mf Sm), Gg. clear G Gg Sb Sm Sg.
  set (k := N.min (as_u16 (blen v)) 18) in *. set (w := firstn 17 v) in *.
  assert (Dw : digits w = true) by now apply digits_cut.
  destruct (Nat.eq_dec (length v) 9) as [L|L].
  - assert (Ek : k = 9%N) by (unfold k; lia). assert (Ew : w = v) by (unfold w; apply firstn_all2; lia).
    assert (C1 : (if N.eqb k 9 then Nat.eqb (length w) 9 else false) = true) by now rewrite Ek, Ew, L.
    rewrite C1 in T. destruct (combo_at_sound _ _ _ _ _ _ w Dw T) as (x & y & z & t & P & X & Y & Z & E).
    rewrite <- (five_iff v D L), <- Ew, <- E, <- X, <- Y, <- Z. apply eqb_prop in P. subst t.
    destruct x, y, z; cbn; intuition congruence.
  - split; [|intros Q; apply disputed_len in Q; contradiction].
    intros (Hb & Hm & Hg). exfalso.
    assert (C1 : (if N.eqb k 9 then Nat.eqb (length w) 9 else false) = false).
    { destruct (N.eqb_spec k 9) as [Ek|]; [|reflexivity]. apply Nat.eqb_neq. unfold k in Ek. lia. }
    assert (C2 : (if Nat.eqb (length w) 17 then N.ltb k 17 else false) = false).
    { destruct (Nat.eqb_spec (length w) 17) as [Ew|]; [|reflexivity]. apply N.ltb_ge. unfold w in Ew. rewrite firstn_length in Ew. unfold k. lia. }
    rewrite C1, C2 in T. destruct (combo_at_sound _ _ _ _ _ _ w Dw T) as (x & y & z & t & P & X & Y & Z & _).
    apply X in Hb. apply Y in Hm. subst x y. apply Hg, Z. exact P.
Qed.

(** *** Their types *)
Lemma twin_type : forall g m v, md_leading_digits g = None -> md_leading_digits m = None ->
  (let a := md_descriptors g in let b := md_descriptors m in
   ds_general a = ds_general b /\ ds_mobile a = ds_mobile b /\ ds_toll_free a = ds_toll_free b /\
   ds_premium_rate a = ds_premium_rate b /\ ds_shared_cost a = ds_shared_cost b /\ ds_personal_number a = ds_personal_number b /\
   ds_voip a = ds_voip b /\ ds_pager a = ds_pager b /\ ds_uan a = ds_uan b /\ ds_voicemail a = ds_voicemail b /\
   option_eqb str_eqb (option_map (fun d => re_src (d_national_number d)) (ds_fixed_line b))
     (option_map (fun d => re_src (d_national_number d)) (ds_mobile b)) = false) ->
  hit v m = true -> hit v g = false -> number_type m v = TFixedLine.
Proof.
  intros g m v Lg Lm S Hm Hg. cbv zeta in S. destruct S as (E0 & E1 & E2 & E3 & E4 & E5 & E6 & E7 & E8 & E9 & N).
  unfold hit in *. rewrite Lg in Hg. rewrite Lm in Hm. apply number_type_known in Hm as [G (t & o & I & M)].
  assert (K : forall t' o', In (t', o') (type_order (md_descriptors g)) -> od_is_match o' v = false).
  { intros t' o' I'. destruct (od_is_match o' v) eqn:Q; [|reflexivity].
    assert (Y : negb (ptype_eqb (number_type g v) TUnknown) = true); [|congruence].
    apply number_type_known. rewrite E0. split; [exact G|]. eauto. }
  cbn [type_order In] in K. rewrite E1, E2, E3, E4, E5, E6, E7, E8, E9 in K. unfold number_type. cbv zeta. rewrite G. cbn [negb].
  rewrite (K TPremiumRate _ ltac:(auto 12)), (K TTollFree _ ltac:(auto 12)), (K TSharedCost _ ltac:(auto 12)), (K TVoip _ ltac:(auto 12)),
    (K TPersonalNumber _ ltac:(auto 12)), (K TPager _ ltac:(auto 12)), (K TUan _ ltac:(auto 12)), (K TVoicemail _ ltac:(auto 12)).
  assert (F : od_is_match (ds_fixed_line (md_descriptors m)) v = true).
  { cbn [type_order In] in I. repeat (destruct I as [I|I]; [inversion I; subst; first [exact M | exfalso; erewrite K in M; [discriminate M|]; auto 12]|]). destruct I. }
  rewrite F. cbn beta. rewrite N. now rewrite (K TMobile _ ltac:(auto 12)).
Qed.
Lemma three_types : forall v m, (m = bl \/ m = mf) -> hit v m = true -> hit v gp = false -> number_type m v = TFixedLine.
Proof.
  intros v m [->| ->] H G; (apply (twin_type gp); [reflexivity|reflexivity| |exact H|exact G]); cbv zeta; repeat split; reflexivity.
Qed.
Lemma strip_twins : forall a b n, md_national_prefix_for_parsing a = md_national_prefix_for_parsing b ->
  md_national_prefix_transform_rule a = md_national_prefix_transform_rule b -> md_national_prefix a = md_national_prefix b ->
  ds_general (md_descriptors a) = ds_general (md_descriptors b) -> strip_national (Some a) n = strip_national (Some b) n.
Proof.
  intros a b n E1 E2 E3 E4. unfold strip_national, national_number, v_length. cbn [ds_get]. now rewrite E1, E2, E3, E4.
Qed.
Lemma three_strip : forall n, strip_national (Some mf) n = strip_national (Some bl) n.
Proof. intros n. apply strip_twins; reflexivity. Qed.

(** ** C49 *)
(** One order of the entries: which entry the digits are given. *)
Lemma order_entry : forall db mds mds' c v, db = db_of mds -> Permutation mds mds' -> regular db ->
  (forall c l, by_code db c = Some l -> one_main l = true) -> rivals_check db = true -> covers_check db = true ->
  by_code db 590 = Some [gp; bl; mf] -> digits v = true ->
  entry_for (db_of mds') c v = entry_for db c v \/
  (c = 590%N /\ hit v gp = false /\ hit v bl = true /\ hit v mf = true /\
   entry_for db c v = Some bl /\ entry_for (db_of mds') c v = Some mf).
Proof.
  intros db mds mds' c v -> P R M Hr Hc E3 D.
  destruct (reorder_entry_cases mds mds' P R M c v) as [H|(m & rest & rest' & x & y & E & E' & Pr & Hm & Ex & Ey & Ix & Iy & Hx & Hy & N)]; [now left|].
  right. assert (Nxy : x <> y) by (intros Q; apply N; now rewrite Q).
  assert (OK : db_ok (db_of mds)) by apply db_of_ok.
  assert (Q : is_pair x y = true \/ is_pair y x = true).
  { destruct (split_two _ rest x y Ix Iy Nxy) as [(b & mid & a & Er)|(b & mid & a & Er)]; [left|right];
      eapply claimed_by_two; eauto. }
  destruct three_ids as (Ig & Ib & If).
  assert (Ids : forall z, In z rest -> by_id (db_of mds) (md_id z) = Some z).
  { intros z Iz. destruct (reg_ids _ R _ _ E) as [(q & W & _)|W]; [|apply W; now right].
    inversion W; subst. destruct Iz. }
  assert (Id3 : forall z, In z [gp; bl; mf] -> by_id (db_of mds) (md_id z) = Some z).
  { intros z Iz. destruct (reg_ids _ R _ _ E3) as [(q & W & _)|W]; [discriminate|now apply W]. }
  assert (Two : forall z, In z rest -> md_id z = lit "BL" \/ md_id z = lit "MF" -> z = bl \/ z = mf).
  { intros z Iz [Ez|Ez].
    - left. pose proof (Ids z Iz) as A. assert (B : by_id (db_of mds) (md_id bl) = Some bl) by (apply Id3; right; now left). congruence.
    - right. pose proof (Ids z Iz) as A. assert (B : by_id (db_of mds) (md_id mf) = Some mf) by (apply Id3; right; right; now left). congruence. }
  assert (Pair : forall a b, is_pair a b = true -> md_id a = lit "BL" /\ md_id b = lit "MF").
  { intros a b W. unfold is_pair in W. destruct (str_eqb (md_id a) (lit "BL")) eqn:W1; [|discriminate]. split; now apply str_eqb_eq. }
  assert (XY : (x = bl /\ y = mf) \/ (x = mf /\ y = bl)).
  { destruct Q as [Q|Q]; apply Pair in Q as [Q1 Q2].
    - left. destruct (Two x Ix (or_introl Q1)) as [W|W]; [|exfalso; rewrite W, If in Q1; discriminate].
      destruct (Two y Iy (or_intror Q2)) as [W'|W']; [exfalso; rewrite W', Ib in Q2; discriminate|auto].
    - right. destruct (Two x Ix (or_intror Q2)) as [W|W]; [exfalso; rewrite W, Ib in Q2; discriminate|].
      destruct (Two y Iy (or_introl Q1)) as [W'|W']; [auto|exfalso; rewrite W', If in Q1; discriminate]. }
  assert (Ec : c = 590%N).
  { assert (A : md_country_code x = c) by (apply (ok_code _ OK _ _ _ E); now right).
    assert (B : md_country_code x = 590%N).
    { apply (ok_code _ OK _ _ _ E3). destruct XY as [[-> _]|[-> _]]; cbn [In]; auto. }
    congruence. }
  subst c. rewrite E3 in E. inversion E; subst m rest.
  assert (B : hit v bl = true /\ hit v mf = true).
  { destruct XY as [[-> ->]|[-> ->]]; auto. }
  destruct B as [B1 B2].
  assert (F : entry_for (db_of mds) 590 v = Some bl).
  { unfold entry_for. rewrite E3. cbn [find]. now rewrite Hm, B1. }
  assert (Xb : x = bl) by congruence. destruct XY as [[_ Ym]|[Xm _]].
  - subst y. auto 8.
  - exfalso. assert (W : md_id bl = md_id mf) by congruence. rewrite Ib, If in W. discriminate.
Qed.

Lemma trim_zero_digits : forall v, digits v = true -> digits (trim_start_char ch_0 v) = true.
Proof.
  intros v D. destruct (trim_start_char_spec ch_0 v) as (n & E & _). rewrite E, digits_app in D. now apply andb_true_iff in D as [_ D].
Qed.

Section Order.
Variable db : database.
Variables mds mds' : list metadata.
Hypothesis is_db : db = db_of mds.
Hypothesis perm : Permutation mds mds'.
Hypothesis reg : regular db.
Hypothesis main : forall c l, by_code db c = Some l -> one_main l = true.
Hypothesis riv : rivals_check db = true.
Hypothesis cov : covers_check db = true.
Hypothesis the3 : by_code db 590 = Some [gp; bl; mf].
Hypothesis loads : exists entries, db_from entries = Ok (db_of mds').
Let db' := db_of mds'.

Lemma order_regular : regular db'.
Proof. subst db. exact (reorder_regular mds mds' perm reg main loads). Qed.
Lemma order_name : forall i, by_id db' (id_name i) = by_id db (id_name i).
Proof. subst db. exact (reorder_name mds mds' perm reg). Qed.
Lemma order_cases : forall c v, digits v = true ->
  entry_for db' c v = entry_for db c v \/
  (c = 590%N /\ hit v gp = false /\ hit v bl = true /\ hit v mf = true /\
   entry_for db c v = Some bl /\ entry_for db' c v = Some mf).
Proof. intros c v D. exact (order_entry db mds mds' c v is_db perm reg main riv cov the3 D). Qed.

Lemma order_parse : forall country s, parse_with db' country s = parse_with db country s.
Proof.
  intros country s. unfold parse_with. destruct (p_phone_number s) as [n| |]; cbn [obind]; try reflexivity.
  destruct (negb (is_viable (pn_national n))); [reflexivity|].
  assert (Ec : country_code db' country n = country_code db country n).
  { subst db. exact (reorder_country_code mds mds' perm reg main country n). }
  rewrite Ec. destruct (country_code db country n) as [n1| |] eqn:E1; cbn [obind]; try reflexivity.
  apply country_code_inv in E1. pose proof (norm_nat _ (cr_norm _ _ _ _ E1)) as D. clear E1 Ec.
  assert (G : forall code, (let* s0 := source_for db' code (trim_start_char ch_0 (pn_national n1)) in Ok (source_meta db' s0))
      = (let* s0 := source_for db code (trim_start_char ch_0 (pn_national n1)) in Ok (source_meta db s0)) \/
      (let* s0 := source_for db' code (trim_start_char ch_0 (pn_national n1)) in @Ok perr _ (source_meta db' s0)) = Ok (Some mf) /\
      (let* s0 := source_for db code (trim_start_char ch_0 (pn_national n1)) in @Ok perr _ (source_meta db s0)) = Ok (Some bl)).
  { intros code. set (v := trim_start_char ch_0 (pn_national n1)). assert (Dv : digits v = true) by now apply trim_zero_digits.
    destruct (source_entry db' code v order_regular) as (s1 & -> & M1). destruct (source_entry db code v reg) as (s2 & -> & M2).
    cbn [obind]. rewrite M1, M2. destruct (order_cases code v Dv) as [->|(_ & _ & _ & _ & -> & ->)]; auto. }
  assert (S : forall x y : outcome perr (option metadata), x = y \/ x = Ok (Some mf) /\ y = Ok (Some bl) ->
    (let* meta := x in let* n2 := strip_national meta n1 in finish n2) = (let* meta := y in let* n2 := strip_national meta n1 in finish n2)).
  { intros x y [->|[-> ->]]; [reflexivity|]. cbn [obind]. now rewrite three_strip. }
  apply S. unfold select_meta. destruct country as [i|].
  - destruct (pn_country n1); try (left; now rewrite order_name);
      (destruct (prefix_value n1) as [code| |]; cbn [obind]; [apply G|now left|now left]).
  - destruct (prefix_value n1) as [code| |]; cbn [obind]; [apply G|now left|now left].
Qed.

Lemma order_meta : forall p, exists s s', 
  source_for db (code_value (ph_code p)) (dec (nn_value (ph_national p))) = Ok s /\
  source_for db' (code_value (ph_code p)) (dec (nn_value (ph_national p))) = Ok s' /\
  (source_meta db' s' = source_meta db s \/
   (disputed_number p /\ hit (dec (nn_value (ph_national p))) gp = false /\ hit (dec (nn_value (ph_national p))) bl = true /\
    hit (dec (nn_value (ph_national p))) mf = true /\ source_meta db s = Some bl /\ source_meta db' s' = Some mf)).
Proof.
  intros p. destruct (dec_value_ok (ph_national p)) as [Hd Hl].
  destruct (source_entry db (code_value (ph_code p)) (dec (nn_value (ph_national p))) reg) as (s & E1 & M1).
  destruct (source_entry db' (code_value (ph_code p)) (dec (nn_value (ph_national p))) order_regular) as (s' & E2 & M2).
  exists s, s'. split; [exact E1|]. split; [exact E2|]. rewrite M1, M2.
  destruct (order_cases (code_value (ph_code p)) (dec (nn_value (ph_national p))) Hd) as [H|(Hc & H1 & H2 & H3 & H4 & H5)]; [now left|].
  right. split; [|auto]. split; [exact Hc|]. apply disputed_iff; auto.
Qed.
Lemma order_type : forall p, number_type_with db' p = number_type_with db p.
Proof.
  intros p. unfold number_type_with, ph_metadata. destruct (order_meta p) as (s & s' & -> & -> & H). cbn [obind].
  destruct H as [->|(_ & G & B & F & -> & ->)]; [reflexivity|].
  rewrite (three_types _ mf) by auto. now rewrite (three_types _ bl) by auto.
Qed.
Lemma order_country : forall p, ~ disputed_number p -> country_id_with db' p = country_id_with db p.
Proof.
  intros p N. unfold country_id_with, ph_metadata. destruct (order_meta p) as (s & s' & -> & -> & H). cbn [obind].
  destruct H as [->|(Q & _)]; [reflexivity|contradiction].
Qed.
Lemma order_disputed : forall p, disputed_number p ->
  country_id_with db p = Ok (Some ID_BL) /\ (country_id_with db' p = Ok (Some ID_BL) \/ country_id_with db' p = Ok (Some ID_MF)).
Proof.
  intros p [Hc Q]. destruct (dec_value_ok (ph_national p)) as [Hd Hl]. apply (disputed_iff _ Hd Hl) in Q as (B & F & G).
  assert (M : source_for db (code_value (ph_code p)) (dec (nn_value (ph_national p))) = Ok (Some (SLeft ID_BL))).
  { destruct (source_entry db (code_value (ph_code p)) (dec (nn_value (ph_national p))) reg) as (s & E & M).
    unfold source_for in *. rewrite Hc in *. destruct reg as [(en & Hen) _]. pose proof (db_from_db_ok _ _ Hen) as OK.
    rewrite (ok_region _ OK), the3 in *. cbn [option_map map] in *. cbn [source_loop] in *.
    destruct three_ids as (Ig & Ib & If).
    assert (Id3 : forall z, In z [gp; bl; mf] -> by_id db (md_id z) = Some z).
    { intros z Iz. destruct (reg_ids _ reg _ _ the3) as [(q & W & _)|W]; [discriminate|now apply W]. }
    rewrite (Id3 gp), (Id3 bl) by (cbn [In]; auto). cbn [unwrap obind]. fold (hit (dec (nn_value (ph_national p))) gp) (hit (dec (nn_value (ph_national p))) bl).
    rewrite G, B, Ib. reflexivity. }
  assert (Cb : country_id_with db p = Ok (Some ID_BL)).
  { unfold country_id_with, ph_metadata. rewrite M. cbn [obind source_meta]. destruct three_ids as (_ & Ib & _).
    assert (Id : by_id db (id_name ID_BL) = Some bl).
    { destruct (reg_ids _ reg _ _ the3) as [(q & W & _)|W]; [discriminate|]. destruct (W bl) as [W1 _]; [cbn [In]; auto|].
      rewrite Ib in W1. exact W1. }
    rewrite Id, Ib. reflexivity. }
  split; [exact Cb|]. rewrite <- Cb. unfold country_id_with, ph_metadata.
  destruct (order_meta p) as (s & s' & -> & -> & H). cbn [obind].
  destruct H as [->|(_ & _ & _ & _ & -> & ->)]; [now left|]. right. destruct three_ids as (_ & _ & ->). reflexivity.
Qed.
Lemma order_valid : forall p, is_valid_with db' p = is_valid_with db p.
Proof.
  intros p. unfold is_valid_with. cbv zeta. set (v := nn_show (ph_national p)).
  assert (Hd : digits v = true) by apply nn_show_digits.
  destruct (source_entry db (code_value (ph_code p)) v reg) as (s & -> & M1).
  destruct (source_entry db' (code_value (ph_code p)) v order_regular) as (s' & -> & M2). cbn [obind]. rewrite M1, M2.
  destruct (order_cases (code_value (ph_code p)) v Hd) as [->|(_ & G & B & F & -> & ->)]; [reflexivity|].
  rewrite (three_types _ mf) by auto. now rewrite (three_types _ bl) by auto.
Qed.
Lemma order_format : forall d f, fmt_display d (fm_set_database f db') = fmt_display d (fm_set_database f db).
Proof.
  intros d f. assert (E : forall c, match by_code db' c with Some (m :: _) => Some m | _ => None end
    = match by_code db c with Some (m :: _) => Some m | _ => None end).
  { subst db. exact (reorder_first mds mds' perm main). }
  unfold fmt_display. cbn [fm_set_database fm_database fm_number fm_mode fm_format]. now rewrite E.
Qed.
End Order.

(** The entries of a calling code when the document is turned round. *)
Lemma reversed_code : forall mds c m rest, by_code (db_of mds) c = Some (m :: rest) -> rest <> [] -> one_main (m :: rest) = true ->
  by_code (db_of (rev mds)) c = Some (m :: rev rest).
Proof.
  intros mds c m rest E N M. rewrite db_of_by_code in *. set (L := filter (has_code c) mds) in *.
  assert (R : filter (has_code c) (rev mds) = rev L).
  { unfold L. clear. induction mds as [|x l IH]; [reflexivity|]. cbn [rev filter]. rewrite filter_app, IH. cbn [filter].
    destruct (has_code c x); [reflexivity|]. apply app_nil_r. }
  assert (Fr : forall f (l : list metadata), filter f (rev l) = rev (filter f l)).
  { intros f. clear. induction l as [|x l IH]; [reflexivity|]. cbn [rev filter]. rewrite filter_app, IH. cbn [filter].
    destruct (f x); [reflexivity|]. apply app_nil_r. }
  rewrite R. unfold some_if_any in *. destruct (code_order L) as [|x l] eqn:O; [discriminate|]. inversion E; subst x l. clear E.
  destruct rest as [|m2 rest]; [now elim N|]. cbn [one_main] in M. destruct (is_main m) eqn:Em; [|discriminate].
  remember (m2 :: rest) as r eqn:Er. clear Er N m2 rest.
  assert (F1 : forall l, filter is_main (filter is_main l) = filter is_main l /\
     filter is_main (filter (fun m => negb (is_main m)) l) = [] /\
     filter (fun m => negb (is_main m)) (filter is_main l) = [] /\
     filter (fun m => negb (is_main m)) (filter (fun m => negb (is_main m)) l) = filter (fun m => negb (is_main m)) l).
  { clear. induction l as [|x l (I1 & I2 & I3 & I4)]; [auto|]. cbn [filter]. destruct (is_main x) eqn:Ex; cbn [filter negb]; rewrite ?Ex; cbn [negb];
      repeat split; auto; now f_equal. }
  assert (A : filter is_main (code_order L) = rev (filter is_main L)).
  { unfold code_order. rewrite filter_app, Fr. destruct (F1 L) as (-> & -> & _). apply app_nil_r. }
  assert (B : filter (fun m => negb (is_main m)) (code_order L) = filter (fun m => negb (is_main m)) L).
  { unfold code_order. rewrite filter_app, Fr. destruct (F1 L) as (_ & _ & -> & ->). reflexivity. }
  assert (Fm : filter is_main r = [] /\ filter (fun m => negb (is_main m)) r = r).
  { clear - M. induction r as [|x r IH]; [auto|]. cbn [forallb] in M. apply andb_true_iff in M as [M1 M2]. destruct (IH M2) as [I1 I2].
    cbn [filter]. destruct (is_main x); [discriminate|]. cbn [negb]. split; [exact I1|now f_equal]. }
  destruct Fm as [Fm1 Fm2].
  rewrite O in A, B. cbn [filter] in A, B. rewrite Em in A, B. cbn [negb] in B. rewrite Fm1 in A. rewrite Fm2 in B.
  assert (C : code_order (rev L) = m :: rev r).
  { unfold code_order. now rewrite !Fr, <- B, <- A. }
  now rewrite C.
Qed.

Definition default_loaded : Prop := exists mds, omap_list db_metadata default_entries = Ok mds /\ default_db = db_of mds.
Lemma default_loaded_ok : default_loaded.
Proof. pose proof default_db_built as H. apply db_from_ok in H as (mds & H1 & H2). exists mds. auto. Qed.
Lemma default_three : by_code default_db 590 = Some [gp; bl; mf].
Proof. rewrite three_ok, three_eq. reflexivity. Qed.

(** ** C49 *)
Theorem C49_order : forall entries, Permutation default_entries entries ->
  exists db, db_from entries = Ok db /\
    (forall country s, parse_with db country s = parse country s) /\
    (forall d f, fmt_display d (fm_set_database f db) = fmt_display d (fm_set_database f default_db)) /\
    (forall p, is_valid_with db p = is_valid p) /\
    (forall p, number_type_with db p = ph_number_type p) /\
    (forall p, ~ disputed_number p -> country_id_with db p = country_id p).
Proof.
  intros entries P. destruct default_loaded_ok as (mds & Hm & Hdb).
  destruct (omap_list_perm _ _ _ _ _ _ P _ Hm) as (mds' & Hm' & Pm). exists (db_of mds').
  assert (L : db_from entries = Ok (db_of mds')) by (apply db_from_ok; eauto).
  split; [exact L|].
  pose proof (ex_intro (fun e => db_from e = Ok (db_of mds')) entries L) as Ld.
  split; [|split; [|split; [|split]]].
  - exact (order_parse default_db mds mds' Hdb Pm default_regular default_main rivals_checked covers_checked default_three Ld).
  - exact (order_format default_db mds mds' Hdb Pm default_regular default_main rivals_checked covers_checked default_three).
  - exact (order_valid default_db mds mds' Hdb Pm default_regular default_main rivals_checked covers_checked default_three Ld).
  - exact (order_type default_db mds mds' Hdb Pm default_regular default_main rivals_checked covers_checked default_three Ld).
  - exact (order_country default_db mds mds' Hdb Pm default_regular default_main rivals_checked covers_checked default_three Ld).
Qed.
Print Assumptions C49_order.

(** The disputed numbers: as the document stands they belong to
    Saint-Barthelemy; in no order to a third country; turned round, the document
    gives them all to Saint-Martin. *)
Theorem C49_disputed : forall p, disputed_number p ->
  country_id p = Ok (Some ID_BL) /\
  (forall entries db, Permutation default_entries entries -> db_from entries = Ok db ->
     country_id_with db p = Ok (Some ID_BL) \/ country_id_with db p = Ok (Some ID_MF)) /\
  (exists entries db, Permutation default_entries entries /\ db_from entries = Ok db /\ country_id_with db p = Ok (Some ID_MF)).
Proof.
  intros p D. destruct default_loaded_ok as (mds & Hm & Hdb).
  assert (All : forall entries db, Permutation default_entries entries -> db_from entries = Ok db ->
    country_id p = Ok (Some ID_BL) /\ (country_id_with db p = Ok (Some ID_BL) \/ country_id_with db p = Ok (Some ID_MF))).
  { intros entries db P H. destruct (omap_list_perm _ _ _ _ _ _ P _ Hm) as (mds' & Hm' & Pm).
    assert (L : db_from entries = Ok (db_of mds')) by (apply db_from_ok; eauto).
    assert (E : db = db_of mds') by congruence. rewrite E.
    pose proof (ex_intro (fun e => db_from e = Ok (db_of mds')) entries L) as Ld.
    exact (order_disputed default_db mds mds' Hdb Pm default_regular default_main rivals_checked covers_checked default_three Ld p D). }
  split; [exact (proj1 (All default_entries default_db (Permutation_refl _) default_db_built))|].
  split; [intros entries db P H; exact (proj2 (All entries db P H))|].
  pose proof (Permutation_rev default_entries) as P.
  assert (Hr : omap_list db_metadata (rev default_entries) = Ok (rev mds)).
  { revert mds Hm Hdb All. generalize default_entries as l. intros l mds Hm _ _. revert mds Hm. clear.
    assert (A : forall l1 l2, omap_list db_metadata (l1 ++ l2) =
      let* a := omap_list db_metadata l1 in let* b := omap_list db_metadata l2 in Ok (a ++ b)).
    { induction l1 as [|x l1 IH]; intros l2; cbn [app omap_list obind]; [destruct (omap_list db_metadata l2); reflexivity|].
      rewrite IH. destruct (db_metadata x); cbn [obind]; try reflexivity.
      destruct (omap_list db_metadata l1); cbn [obind]; try reflexivity. destruct (omap_list db_metadata l2); reflexivity. }
    induction l as [|x l IH]; intros mds Hm; cbn [rev omap_list] in *; [now inversion Hm|].
    apply obind_ok in Hm as (m & Hx & Hm). apply obind_ok in Hm as (r & Hr & Hm). inversion Hm; subst mds.
    rewrite A, (IH _ Hr). cbn [obind omap_list]. rewrite Hx. reflexivity. }
  assert (L : db_from (rev default_entries) = Ok (db_of (rev mds))) by (apply db_from_ok; eauto).
  exists (rev default_entries), (db_of (rev mds)). split; [exact P|]. split; [exact L|].
  pose proof default_three as T. pose proof (default_main _ _ T) as M. rewrite Hdb in T.
  assert (N : [bl; mf] <> []) by discriminate.
  pose proof (reversed_code mds 590 gp [bl; mf] T N M) as Rv. cbn [rev app] in Rv.
  pose proof default_regular as R. rewrite Hdb in R. pose proof default_main as Mn. rewrite Hdb in Mn.
  pose proof (reorder_regular mds (rev mds) (Permutation_rev mds) R Mn
    (ex_intro (fun e => db_from e = Ok (db_of (rev mds))) (rev default_entries) L)) as R'.
  destruct D as [Hc Q]. destruct (dec_value_ok (ph_national p)) as [Hd Hl]. apply (disputed_iff _ Hd Hl) in Q as (B & F & G).
  unfold country_id_with, ph_metadata. rewrite Hc.
  destruct (source_entry (db_of (rev mds)) 590 (dec (nn_value (ph_national p))) R') as (s & -> & Ms). cbn [obind]. rewrite Ms.
  unfold entry_for. rewrite Rv. cbn [find]. rewrite G, F. destruct three_ids as (_ & _ & ->). reflexivity.
Qed.
Print Assumptions C49_disputed.

(** "+590 590 27 12 34" is disputed; "+590 690 00 12 34" is not, though all three claim it. *)
Example C49_example : exists p q, parse None (lit "+590590271234") = Ok p /\ disputed_number p /\
  parse None (lit "+590690001234") = Ok q /\ ~ disputed_number q /\ country_id q = Ok (Some ID_GP).
Proof.
  eexists _, _. split; [vm_compute; reflexivity|]. split.
  - split; [reflexivity|]. exists (lit "27"), (lit "1234"). split; [now left|]. split; reflexivity.
  - split; [vm_compute; reflexivity|]. split; [|vm_compute; reflexivity].
    intros [_ (x & rest & _ & _ & E)]. vm_compute in E. discriminate.
Qed.
