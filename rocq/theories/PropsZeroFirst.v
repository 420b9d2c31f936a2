(** * C68: numbers that begin with a zero *)
From Verif Require Import Base Unicode Regex RegexSyntax Consts CountryId Types NationalNumber
  Metadata Database Validator Valid Number Rfc3966 Helper Natural PhoneNumber Parser Formatter Loader
  DefaultDb DefaultDbOk Api.
From Verif Require Import StrFacts NationalFacts RegexLang RegexFacts RegexCaps RegexDeriv RegexMany RegexExact RegexCover
  DatabaseFacts ParserFacts ParseInv TextFacts ViableFacts PhoneText E164Facts CoreFacts DialFacts FormatFacts FormatDigits
  PropsPanic PropsE164 PropsValid PropsNational ClaimFacts PropsClaims PropsGrouped PropsErrors PropsDescribed.

(** ** The property *)
Definition zero_first (w : str) : Prop := exists r, w = 48%N :: r.
(** calling code, country and kind of the numbers that begin with a zero *)
Definition zero_kinds : list (N * str * ptype) :=
  [(39, lit "IT", TPremiumRate); (39, lit "IT", TFixedLine); (39, lit "VA", TPremiumRate); (39, lit "VA", TFixedLine);
   (47, lit "NO", TUan); (47, lit "SJ", TUan); (62, lit "ID", TTollFree); (66, lit "TH", TTollFree); (81, lit "JP", TTollFree);
   (82, lit "KR", TTollFree); (91, lit "IN", TTollFree); (225, lit "CI", TMobile); (226, lit "BF", TMobile);
   (227, lit "NE", TPremiumRate); (227, lit "NE", TTollFree); (229, lit "BJ", TFixedLine); (229, lit "BJ", TMobile);
   (241, lit "GA", TFixedLine); (241, lit "GA", TMobile); (242, lit "CG", TMobile); (247, lit "AC", TUan); (250, lit "RW", TFixedLine);
   (267, lit "BW", TTollFree); (268, lit "SZ", TTollFree); (359, lit "BG", TTollFree); (378, lit "SM", TFixedLine);
   (501, lit "BZ", TTollFree); (507, lit "PA", TTollFree); (598, lit "UY", TTollFree); (676, lit "TO", TTollFree);
   (679, lit "FJ", TTollFree); (687, lit "NC", TTollFree); (800, lit "001", TTollFree); (853, lit "MO", TTollFree);
   (881, lit "001", TMobile); (888, lit "001", TUan); (974, lit "QA", TTollFree); (992, lit "TJ", TMobile)]%N.
(** kinds of which every number begins with a zero *)
Definition all_zero_kinds : list (str * ptype) := [(lit "IT", TFixedLine); (lit "VA", TFixedLine); (lit "CI", TMobile); (lit "NE", TPremiumRate); (lit "NE", TTollFree); (lit "BJ", TFixedLine); (lit "BJ", TMobile); (lit "CG", TMobile);
   (lit "SZ", TTollFree); (lit "SM", TFixedLine); (lit "BZ", TTollFree); (lit "TO", TTollFree); (lit "FJ", TTollFree); (lit "NC", TTollFree); (lit "MO", TTollFree)].
(** some of these numbers are reported as numbers of another kind *)
Definition wrong_kinds : list (str * ptype) :=
  [(lit "AC", TUan); (lit "IN", TTollFree); (lit "IT", TFixedLine); (lit "JP", TTollFree); (lit "UY", TTollFree)].
(** some of these are reported as what they are *)
Definition right_kinds : list (str * ptype) := [(lit "GA", TMobile); (lit "KR", TTollFree); (lit "QA", TTollFree)].
(** of countries that share their calling code: some of these numbers are given a country *)
Definition placed_kinds : list (str * ptype) := [(lit "IT", TFixedLine); (lit "NO", TUan); (lit "SJ", TUan)].

(** ** Patterns on a text and on what follows its first characters *)
Definition behind_all (q : str) (n : nat) (outer inner : list re) : bool :=
  if forallb no_start inner then
    apartn ascii_digits n (at_nil q) [map (fun r => run true n (start_st r (length q + n)) q) outer ++ starts n inner]
  else false.
Lemma behind_all_sound : forall q v outer inner, digits v = true -> behind_all q (length v) outer inner = true ->
  Forall (fun r => matches_prefix r (q ++ v)) outer -> Forall (fun r => matches_prefix r v) inner -> False.
Proof.
  intros q v outer inner Dv H Ho Hi. unfold behind_all in H. destruct (forallb no_start inner) eqn:Hn; [|discriminate].
  refine (apartn_sound ascii_digits v q _ _ (in_ascii v Dv) H (or_introl eq_refl) _). apply Forall_app. split; [|now apply starts_lead].
  apply Forall_map. eapply Forall_impl; [|exact Ho]. intros r Hr. cbv beta.
  change q with ([] ++ q) at 3. change true with (at_nil []). apply run_leads. rewrite <- app_length. now apply start_leads.
Qed.

(** ** The digits a number is looked up by *)
Lemma zero_split : forall n, zero_first (nn_show n) -> 2 <= length (nn_show n) -> exists z, 1 <= z /\ nn_show n = repeat 48%N z ++ dec (nn_value n).
Proof.
  intros n (r & E) L. unfold nn_show in *. destruct (N.to_nat (nn_zeros n)) as [|z]; [|exists (S z); split; [lia|reflexivity]].
  cbn [repeat app] in *. exfalso. destruct (N.eq_dec (nn_value n) 0) as [Hv|Hv].
  - rewrite Hv, dec_0 in L. cbn in L. lia.
  - destruct (dec_head _ Hv) as (c & s & E' & Hc). congruence.
Qed.
Lemma known_at_all : forall x v, known_type x v -> Forall (fun r => matches_prefix r v) (known_at (N.of_nat (length v)) x).
Proof.
  intros x v (G & t & o & I & d & -> & F). constructor; [now apply fits_at|]. constructor; [|constructor].
  apply alts_iff, types_at_iff. exists t, d. split; [exact I|]. now apply fits_at.
Qed.

(** ** Deciding it *)
Definition zero_pat : re := RCls (CRange 48 48).
Lemma zero_pat_in : forall r, matches_prefix zero_pat (48%N :: r).
Proof. intros r. exists [48%N], r. split; [reflexivity|]. constructor. reflexivity. Qed.
Definition pairb (r : str) (t : ptype) (l : list (str * ptype)) : bool :=
  existsb (fun p => if ptype_eqb (snd p) t then str_eqb (fst p) r else false) l.
Lemma pairb_iff : forall r t l, pairb r t l = true <-> In (r, t) l.
Proof.
  intros r t l. unfold pairb. rewrite existsb_exists. split.
  - intros ([r0 t0] & I & E). cbn [fst snd] in E. destruct (ptype_eqb t0 t) eqn:E1; [|discriminate].
    apply same_type in E1. apply str_eqb_eq in E. now subst.
  - intros I. exists (r, t). split; [exact I|]. cbn [fst snd]. rewrite (proj2 (same_type t t) eq_refl). apply str_eqb_refl.
Qed.
Definition tripleb (c : N) (r : str) (t : ptype) : bool :=
  existsb (fun p => if N.eqb (fst (fst p)) c then if ptype_eqb (snd p) t then str_eqb (snd (fst p)) r else false else false) zero_kinds.
Lemma tripleb_iff : forall c r t, tripleb c r t = true <-> In (c, r, t) zero_kinds.
Proof.
  intros c r t. unfold tripleb. rewrite existsb_exists. split.
  - intros ([[c0 r0] t0] & I & E). cbn [fst snd] in E. destruct (N.eqb_spec c0 c) as [->|]; [|discriminate].
    destruct (ptype_eqb t0 t) eqn:E1; [|discriminate]. apply same_type in E1. apply str_eqb_eq in E. now subst.
  - intros I. exists (c, r, t). split; [exact I|]. cbn [fst snd]. rewrite N.eqb_refl, (proj2 (same_type t t) eq_refl). apply str_eqb_refl.
Qed.
(** the kinds of all entries *)
Definition kinds_forall (P : N -> list metadata -> metadata -> nat -> ptype -> descriptor -> bool) (db : database) : bool :=
  forallb (fun p => forallb (fun m => forallb (fun i =>
    match kind i m with (t, Some d) => P (fst p) (snd p) m i t d | _ => true end) (seq 0 10)) (snd p)) (db_by_code db).
Lemma kinds_forall_use : forall P db c l m i t d, kinds_forall P db = true -> by_code db c = Some l -> In m l -> i < 10 ->
  kind i m = (t, Some d) -> P c l m i t d = true.
Proof.
  intros P db c l m i t d H Hc Im Hi E. unfold kinds_forall in H. rewrite forallb_forall in H.
  apply nget_in in Hc. apply H in Hc. cbn [fst snd] in Hc. rewrite forallb_forall in Hc. apply Hc in Im.
  rewrite forallb_forall in Im. specialize (Im i ltac:(apply in_seq; lia)). now rewrite E in Im.
Qed.
Definition where_ok (c : N) (l : list metadata) (m : metadata) (i : nat) (t : ptype) (d : descriptor) : bool :=
  forallb (fun k => if 2 <=? N.to_nat k then if tripleb c (md_id m) t then true else
    re_cover ascii_digits (N.to_nat k) [gen m; whole (re_ast (d_national_number d)); zero_pat] [] else false) (d_possible_length d).
Lemma default_where : kinds_forall where_ok default_db = true.
Proof. vm_cast_no_check (eq_refl true). Qed.
Lemma where_use : forall c l m i t d w, where_ok c l m i t d = true -> digits w = true -> In (N.of_nat (length w)) (d_possible_length d) ->
  matches_whole (re_ast (d_national_number d)) w -> matches_whole (re_ast (d_national_number (ds_general (md_descriptors m)))) w ->
  2 <= length w /\ (zero_first w -> In (c, md_id m, t) zero_kinds).
Proof.
  intros c l m i t d w H Dw Il Lk Lg. unfold where_ok in H. rewrite forallb_forall in H. apply H in Il. rewrite Nat2N.id in Il.
  destruct (Nat.leb_spec 2 (length w)) as [L|]; [|discriminate]. split; [exact L|]. intros (r & E).
  destruct (tripleb c (md_id m) t) eqn:T; [now apply tripleb_iff|]. exfalso. apply (cover_none w _ Dw Il).
  constructor; [now apply whole_iff|]. constructor; [now apply whole_iff|]. constructor; [|constructor]. rewrite E. apply zero_pat_in.
Qed.

(** no number of the kind leaves digits that [inner] matches when its zeros are taken off *)
Definition tails (m : metadata) (d : descriptor) (inner : N -> list re) : bool :=
  forallb (fun k => let n := N.to_nat k in
    forallb (fun z => behind_all (repeat 48%N z) (n - z) [gen m; whole (re_ast (d_national_number d))] (inner (N.of_nat (n - z)))) (seq 1 (n - 1)))
    (d_possible_length d).
Lemma tails_use : forall m d inner z v, tails m d inner = true -> 1 <= z -> v <> [] -> digits v = true ->
  let w := repeat 48%N z ++ v in In (N.of_nat (length w)) (d_possible_length d) ->
  matches_whole (re_ast (d_national_number d)) w -> matches_whole (re_ast (d_national_number (ds_general (md_descriptors m)))) w ->
  ~ Forall (fun r => matches_prefix r v) (inner (N.of_nat (length v))).
Proof.
  intros m d inner z v H Hz Hv Dv w Il Lk Lg F. unfold tails in H. rewrite forallb_forall in H. apply H in Il. cbv zeta in Il.
  rewrite Nat2N.id in Il. rewrite forallb_forall in Il.
  assert (Ew : length w = z + length v) by (unfold w; now rewrite app_length, repeat_length).
  assert (Lv : 1 <= length v) by (destruct v; [easy|cbn; lia]).
  specialize (Il z ltac:(apply in_seq; lia)). replace (length w - z) with (length v) in Il by lia.
  apply (behind_all_sound _ v _ _ Dv Il); [|exact F]. constructor; [now apply whole_iff|]. constructor; [now apply whole_iff|constructor].
Qed.

Definition lost_ok (c : N) (l : list metadata) (m : metadata) (i : nat) (t : ptype) (d : descriptor) : bool :=
  if tripleb c (md_id m) t then if pairb (md_id m) t (wrong_kinds ++ right_kinds) then true
    else forallb (fun y => tails m d (fun k => known_at k y)) l else true.
Lemma default_lost : kinds_forall lost_ok default_db = true.
Proof. vm_cast_no_check (eq_refl true). Qed.
Definition right_ok (c : N) (l : list metadata) (m : metadata) (i : nat) (t : ptype) (d : descriptor) : bool :=
  if pairb (md_id m) t right_kinds then
    if (match l with [_] => negb (Nat.eqb i 8) | _ => false end) then
      forallb (fun j => if Nat.eqb i j then true else
        tails m d (fun k => [at_len k (ds_general (md_descriptors m)); kind_at k m j])) (seq 0 10)
    else false
  else true.
Lemma default_right : kinds_forall right_ok default_db = true.
Proof. vm_cast_no_check (eq_refl true). Qed.
Definition nowhere_ok (c : N) (l : list metadata) (m : metadata) (i : nat) (t : ptype) (d : descriptor) : bool :=
  match l with
  | [_] => true
  | _ => if tripleb c (md_id m) t then if pairb (md_id m) t placed_kinds then true
         else forallb (fun y => tails m d (fun k => claim_res k y)) l else true
  end.
Lemma default_nowhere : kinds_forall nowhere_ok default_db = true.
Proof. vm_cast_no_check (eq_refl true). Qed.

(** what is known of a described number that begins with a zero *)
Lemma zero_described : forall db c l m t p, kinds_forall where_ok db = true -> by_code db c = Some l -> In m l ->
  described_as m t (nn_show (ph_national p)) -> zero_first (nn_show (ph_national p)) ->
  exists i d z, i < 10 /\ kind i m = (t, Some d) /\ 1 <= z /\ In (c, md_id m, t) zero_kinds
    /\ forall inner, tails m d inner = true ->
       ~ Forall (fun r => matches_prefix r (dec (nn_value (ph_national p)))) (inner (N.of_nat (length (dec (nn_value (ph_national p)))))).
Proof.
  intros db c l m t p H Hc Im (d & I & Il & Lk & Lg) Hz. destruct (kind_in m t d I) as (i & Hi & Ek).
  pose proof (kinds_forall_use _ _ _ _ _ _ _ _ H Hc Im Hi Ek) as W.
  destruct (where_use _ _ _ _ _ _ _ W (nn_show_digits _) Il Lk Lg) as [L2 T].
  destruct (zero_split _ Hz L2) as (z & Z1 & E). exists i, d, z. split; [exact Hi|]. split; [exact Ek|]. split; [exact Z1|].
  split; [now apply T|]. intros inner Hi'. rewrite E in Il, Lk, Lg.
  exact (tails_use m d inner z _ Hi' Z1 (dec_nonempty _) (digits_dec _) Il Lk Lg).
Qed.
Lemma responsible_in : forall db c v y l, by_code db c = Some l -> responsible db c v y -> In y l.
Proof.
  intros db c v y l Hc [E|(b & a & E & _)]; rewrite Hc in E; injection E as ->; [now left|]. apply in_app_iff. right. now left.
Qed.

Lemma type_cases : forall db p, regular db -> exists t, number_type_with db p = Ok t /\
  ((exists m, responsible db (code_value (ph_code p)) (dec (nn_value (ph_national p))) m
      /\ has_type m (dec (nn_value (ph_national p))) t) \/
   (t = TUnknown /\ forall m, ~ responsible db (code_value (ph_code p)) (dec (nn_value (ph_national p))) m)).
Proof.
  intros db p R. assert (T : exists t, number_type_with db p = Ok t).
  { unfold number_type_with, ph_metadata. destruct (dec_value_ok (ph_national p)) as [Hd Hl].
    destruct (source_responsible db (code_value (ph_code p)) _ R Hd Hl) as (s & -> & S). cbn [obind].
    destruct (source_meta db s); eauto. }
  destruct T as (t & E). exists t. split; [exact E|]. now apply C17_api.
Qed.
Lemma untyped : forall y v t, has_type y v t -> ~ known_type y v -> t = TUnknown.
Proof.
  intros y v t [[_ E]|(G & b & k & o & a & E & _ & F & _)] N; [exact E|]. exfalso. apply N. split; [exact G|].
  exists k, o. split; [|exact F]. rewrite E. apply in_app_iff. right. now left.
Qed.

(** ** C68 *)
(** Type and country do not see leading zeros: numbers that differ only in them have the
    same type and the same country, with any metadata. *)
Theorem C68_blind : forall db p q, code_value (ph_code p) = code_value (ph_code q) ->
  nn_value (ph_national p) = nn_value (ph_national q) ->
  number_type_with db p = number_type_with db q /\ country_id_with db p = country_id_with db q.
Proof. intros db p q A B. unfold number_type_with, country_id_with, ph_metadata. rewrite A, B. auto. Qed.

(** Which countries and kinds have numbers that begin with a zero. *)
Theorem C68_where : forall c l m t w, by_code default_db c = Some l -> In m l -> all_digits w -> described_as m t w -> zero_first w ->
  In (c, md_id m, t) zero_kinds.
Proof.
  intros c l m t w Hc Im Dw (d & I & Il & Lk & Lg) Hz. apply all_digits_iff in Dw. destruct (kind_in m t d I) as (i & Hi & Ek).
  pose proof (kinds_forall_use _ _ _ _ _ _ _ _ default_where Hc Im Hi Ek) as W. now apply (where_use _ _ _ _ _ _ _ W Dw Il Lk Lg).
Qed.

(** Which kinds have no other numbers. *)
Definition always_ok (c : N) (l : list metadata) (m : metadata) (i : nat) (t : ptype) (d : descriptor) : bool :=
  if pairb (md_id m) t all_zero_kinds then
    forallb (fun k => re_cover ascii_digits (N.to_nat k) [gen m; whole (re_ast (d_national_number d))] [[zero_pat]]) (d_possible_length d)
  else true.
Lemma default_always : kinds_forall always_ok default_db = true.
Proof. vm_cast_no_check (eq_refl true). Qed.
Lemma zero_pat_only : forall w, matches_prefix zero_pat w -> zero_first w.
Proof.
  intros w (u & a & -> & L). inversion L as [|c0 c b0 a0 E| | | | | | |]; subst. cbn [in_cls] in E. unfold in_range in E.
  exists a. cbn [app]. f_equal. destruct (N.leb_spec 48 c); [|discriminate]. destruct (N.leb_spec c 48); [lia|discriminate].
Qed.
Theorem C68_always : forall c l m t w, by_code default_db c = Some l -> In m l -> all_digits w -> described_as m t w ->
  In (md_id m, t) all_zero_kinds -> zero_first w.
Proof.
  intros c l m t w Hc Im Dw (d & I & Il & Lk & Lg) Hz. apply all_digits_iff in Dw. destruct (kind_in m t d I) as (i & Hi & Ek).
  pose proof (kinds_forall_use _ _ _ _ _ _ _ _ default_always Hc Im Hi Ek) as W. unfold always_ok in W.
  rewrite (proj2 (pairb_iff _ _ _) Hz) in W. rewrite forallb_forall in W. apply W in Il. rewrite Nat2N.id in Il.
  pose proof (cover_one w _ _ Dw Il) as K. apply zero_pat_only.
  assert (F : Forall (fun r => matches_prefix r w) [zero_pat]); [|now inversion F]. apply K.
  constructor; [now apply whole_iff|]. constructor; [now apply whole_iff|constructor].
Qed.

(** Such a number is valid, but outside eight kinds its type is never known. *)
Lemma lost_with : forall db c l m t p, regular db -> kinds_forall where_ok db = true -> kinds_forall lost_ok db = true ->
  by_code db c = Some l -> In m l -> code_value (ph_code p) = c ->
  described_as m t (nn_show (ph_national p)) -> zero_first (nn_show (ph_national p)) ->
  ~ In (md_id m, t) (wrong_kinds ++ right_kinds) -> number_type_with db p = Ok TUnknown.
Proof.
  intros db c l m t p R Hw Hl Hc Im Hp Hd Hz Hn.
  destruct (zero_described db c l m t p Hw Hc Im Hd Hz) as (i & d & z & Hi & Ek & Z1 & T & K).
  pose proof (kinds_forall_use _ _ _ _ _ _ _ _ Hl Hc Im Hi Ek) as W. unfold lost_ok in W.
  rewrite (proj2 (tripleb_iff _ _ _) T) in W. destruct (pairb _ _ _) eqn:E; [apply pairb_iff in E; now elim Hn|].
  rewrite forallb_forall in W. destruct (type_cases db p R) as (t0 & Et & [(y & Ry & Ty)|[-> _]]); [|exact Et].
  rewrite Hp in Ry. rewrite Et. f_equal. apply (untyped y _ _ Ty). intros Ky.
  apply (K _ (W y (responsible_in db c _ y l Hc Ry))). now apply known_at_all.
Qed.

Theorem C68_lost : forall c l m t p, by_code default_db c = Some l -> In m l -> code_value (ph_code p) = c ->
  described_as m t (nn_show (ph_national p)) -> zero_first (nn_show (ph_national p)) ->
  ~ In (md_id m, t) (wrong_kinds ++ right_kinds) -> is_valid p = Ok true /\ ph_number_type p = Ok TUnknown.
Proof.
  intros c l m t p Hc Im Hp Hd Hz Hn. split; [|exact (lost_with default_db c l m t p default_regular default_where default_lost Hc Im Hp Hd Hz Hn)].
  apply (C67_valid c l m p Hc Im Hp). apply whole_described. now exists t.
Qed.

Lemma fixed_eight : forall m i d, i < 10 -> kind i m = (TFixedLine, Some d) -> i = 8.
Proof.
  intros m i d Hi E. unfold kind, type_order in E. do 10 (destruct i as [|i]; [cbn [nth] in E; (reflexivity || (exfalso; congruence))|]). lia.
Qed.
(** For three of the eight it is unknown or right. *)
Lemma right_with : forall db c l m t p, regular db -> kinds_forall where_ok db = true -> kinds_forall right_ok db = true ->
  by_code db c = Some l -> In m l -> code_value (ph_code p) = c ->
  described_as m t (nn_show (ph_national p)) -> zero_first (nn_show (ph_national p)) ->
  In (md_id m, t) right_kinds -> number_type_with db p = Ok TUnknown \/ number_type_with db p = Ok t.
Proof.
  intros db c l m t p R Hw Hl Hc Im Hp Hd Hz Hn.
  destruct (zero_described db c l m t p Hw Hc Im Hd Hz) as (i & d & z & Hi & Ek & Z1 & _ & K).
  pose proof (kinds_forall_use _ _ _ _ _ _ _ _ Hl Hc Im Hi Ek) as W. unfold right_ok in W.
  rewrite (proj2 (pairb_iff _ _ _) Hn) in W. destruct l as [|m0 [|m1 l]]; [discriminate| |discriminate]. destruct Im as [->|[]].
  destruct (Nat.eqb_spec i 8) as [|N8]; [discriminate|]. cbn [negb] in W. rewrite forallb_forall in W.
  destruct (type_cases db p R) as (t0 & Et & [(y & Ry & Ty)|[-> _]]); [|now left]. rewrite Hp in Ry.
  destruct (responsible_in db c _ y _ Hc Ry) as [<-|[]]. rewrite Et.
  destruct Ty as [[_ ->]|(G & b & k & o & a & O & _ & Fo & C)]; [now left|]. right. f_equal.
  assert (Ej : kind (length b) m = (k, o)).
  { unfold kind. rewrite O. rewrite app_nth2, Nat.sub_diag by lia. reflexivity. }
  assert (Lj : length b < 10).
  { assert (X : length (type_order (md_descriptors m)) = 10) by reflexivity. rewrite O, app_length in X. cbn [length] in X. lia. }
  destruct (Nat.eqb_spec i (length b)) as [E|E].
  - rewrite <- E, Ek in Ej. injection Ej as <- <-. destruct C as [[_ ->]|[(-> & _)|(-> & _)]]; [reflexivity| |];
      exfalso; apply N8; now apply (fixed_eight m i d).
  - exfalso. specialize (W (length b) ltac:(apply in_seq; lia)). rewrite (proj2 (Nat.eqb_neq _ _) E) in W.
    apply (K _ W). constructor; [now apply fits_at|]. constructor; [|constructor]. unfold kind_at. rewrite Ej.
    destruct Fo as (d0 & -> & F0). now apply fits_at.
Qed.
Theorem C68_right : forall c l m t p, by_code default_db c = Some l -> In m l -> code_value (ph_code p) = c ->
  described_as m t (nn_show (ph_national p)) -> zero_first (nn_show (ph_national p)) ->
  In (md_id m, t) right_kinds -> ph_number_type p = Ok TUnknown \/ ph_number_type p = Ok t.
Proof.
  intros c l m t p. exact (right_with default_db c l m t p default_regular default_where default_right).
Qed.

(** Where the calling code is shared, such a number has no country, but for three kinds.
    Where it is not, [C20_single] gives the country. *)
Lemma nowhere_with : forall db c l m t p, regular db -> kinds_forall where_ok db = true -> kinds_forall nowhere_ok db = true ->
  by_code db c = Some l -> In m l -> length l <> 1 -> code_value (ph_code p) = c ->
  described_as m t (nn_show (ph_national p)) -> zero_first (nn_show (ph_national p)) ->
  ~ In (md_id m, t) placed_kinds -> country_id_with db p = Ok None.
Proof.
  intros db c l m t p R Hw Hl Hc Im Ll Hp Hd Hz Hn.
  destruct (zero_described db c l m t p Hw Hc Im Hd Hz) as (i & d & z & Hi & Ek & Z1 & T & K).
  pose proof (kinds_forall_use _ _ _ _ _ _ _ _ Hl Hc Im Hi Ek) as W. unfold nowhere_ok in W.
  rewrite (proj2 (tripleb_iff _ _ _) T) in W.
  assert (W' : forallb (fun y => tails m d (fun k => claim_res k y)) l = true).
  { destruct (pairb _ _ _) eqn:E; [apply pairb_iff in E; now elim Hn|]. destruct l as [|m0 [|m1 l]]; [exact W| |exact W]. now elim Ll. }
  clear W. rewrite forallb_forall in W'. destruct (C20_country db p R) as (_ & _ & N & _). apply N. rewrite Hp.
  intros y Ry. pose proof (responsible_in db c _ y l Hc Ry) as Iy. apply (K _ (W' y Iy)). apply claims_res.
  destruct Ry as [E|(b & a & _ & _ & C & _)]; [|exact C]. rewrite Hc in E. injection E as ->. now elim Ll.
Qed.
Theorem C68_nowhere : forall c l m t p, by_code default_db c = Some l -> In m l -> length l <> 1 -> code_value (ph_code p) = c ->
  described_as m t (nn_show (ph_national p)) -> zero_first (nn_show (ph_national p)) ->
  ~ In (md_id m, t) placed_kinds -> country_id p = Ok None.
Proof.
  intros c l m t p. exact (nowhere_with default_db c l m t p default_regular default_where default_nowhere).
Qed.

(** ** Nothing can be left out of the lists *)
Definition witness (db : database) (Q : phone -> bool) (x : str * ptype * (N * str)) : bool :=
  let '(r, t, (c, w)) := x in
  match plain c w, by_code db c with
  | Some p, Some l =>
      if str_eqb (nn_show (ph_national p)) w then if starts_with w (lit "0") then
        if existsb (fun m => if str_eqb (md_id m) r then described_b m t w else false) l then Q p else false else false else false
  | _, _ => false
  end.
Lemma starts_zero : forall w, starts_with w (lit "0") = true -> zero_first w.
Proof. intros w H. apply starts_with_spec in H as (r & E). exists r. exact E. Qed.
Lemma witness_use : forall db Q r t c w, witness db Q (r, t, (c, w)) = true ->
  exists l m p, by_code db c = Some l /\ In m l /\ md_id m = r /\ code_value (ph_code p) = c
    /\ described_as m t (nn_show (ph_national p)) /\ zero_first (nn_show (ph_national p)) /\ nn_show (ph_national p) = w /\ Q p = true.
Proof.
  intros db Q r t c w H. unfold witness in H. destruct (plain c w) as [p|] eqn:Ep; [|discriminate].
  destruct (by_code db c) as [l|]; [|discriminate]. destruct (str_eqb (nn_show _) w) eqn:Es; [|discriminate]. apply str_eqb_eq in Es.
  destruct (starts_with w (lit "0")) eqn:Ez; [|discriminate]. apply starts_zero in Ez.
  destruct (existsb _ l) eqn:Ex; [|discriminate]. apply existsb_exists in Ex as (m & Im & D).
  destruct (str_eqb (md_id m) r) eqn:Er; [|discriminate]. apply str_eqb_eq in Er. exists l, m, p.
  split; [reflexivity|]. split; [exact Im|]. split; [exact Er|].
  split. { unfold plain in Ep. destruct (nn_parse w); [|discriminate..]. now inversion Ep. }
  rewrite Es. split; [now apply described_b_use|]. auto.
Qed.
Definition any_phone (p : phone) : bool := true.
Definition zero_numbers : list (str * ptype * (N * str)) :=
  [(lit "IT", TPremiumRate, (39%N, lit "087855182")); (lit "IT", TFixedLine, (39%N, lit "0236618300")); (lit "VA", TPremiumRate, (39%N, lit "087879271"));
   (lit "VA", TFixedLine, (39%N, lit "0669812345")); (lit "NO", TUan, (47%N, lit "03426")); (lit "SJ", TUan, (47%N, lit "03363"));
   (lit "ID", TTollFree, (62%N, lit "0078033559400")); (lit "TH", TTollFree, (66%N, lit "0018002443293")); (lit "JP", TTollFree, (81%N, lit "007775515"));
   (lit "KR", TTollFree, (82%N, lit "003684349367")); (lit "IN", TTollFree, (91%N, lit "0008007108473")); (lit "CI", TMobile, (225%N, lit "0114339344"));
   (lit "BF", TMobile, (226%N, lit "02726461")); (lit "NE", TPremiumRate, (227%N, lit "09688243")); (lit "NE", TTollFree, (227%N, lit "08060958"));
   (lit "BJ", TFixedLine, (229%N, lit "0123201420")); (lit "BJ", TMobile, (229%N, lit "0127357085")); (lit "GA", TFixedLine, (241%N, lit "01430912"));
   (lit "GA", TMobile, (241%N, lit "07096231")); (lit "CG", TMobile, (242%N, lit "026132193")); (lit "AC", TUan, (247%N, lit "063681"));
   (lit "RW", TFixedLine, (250%N, lit "06067740")); (lit "BW", TTollFree, (267%N, lit "0800375505")); (lit "SZ", TTollFree, (268%N, lit "08005344"));
   (lit "BG", TTollFree, (359%N, lit "008009011319")); (lit "SM", TFixedLine, (378%N, lit "0549973890")); (lit "BZ", TTollFree, (501%N, lit "08009332480"));
   (lit "PA", TTollFree, (507%N, lit "00800044150")); (lit "UY", TTollFree, (598%N, lit "0004986983")); (lit "TO", TTollFree, (676%N, lit "0800377"));
   (lit "FJ", TTollFree, (679%N, lit "08006881885")); (lit "NC", TTollFree, (687%N, lit "050726")); (lit "001", TTollFree, (800%N, lit "00588790"));
   (lit "MO", TTollFree, (853%N, lit "0800569")); (lit "001", TMobile, (881%N, lit "069706618")); (lit "001", TUan, (888%N, lit "02547593294"));
   (lit "QA", TTollFree, (974%N, lit "00800401596")); (lit "TJ", TMobile, (992%N, lit "002879766"))].
Lemma default_zero_numbers : forallb (witness default_db any_phone) zero_numbers = true.
Proof. vm_cast_no_check (eq_refl true). Qed.
Lemma zero_numbers_in : map (fun x => (fst (snd x), fst (fst x), snd (fst x))) zero_numbers = zero_kinds.
Proof. reflexivity. Qed.
Theorem C68_where_exact : forall c r t, In (c, r, t) zero_kinds ->
  exists l m w, by_code default_db c = Some l /\ In m l /\ md_id m = r /\ all_digits w /\ described_as m t w /\ zero_first w.
Proof.
  intros c r t I. rewrite <- zero_numbers_in in I. apply in_map_iff in I as ([[r0 t0] [c0 w0]] & E & I). cbn [fst snd] in E.
  injection E as -> -> ->. pose proof default_zero_numbers as D. rewrite forallb_forall in D. apply D in I.
  destruct (witness_use default_db any_phone r t c w0 I) as (l & m & p & A1 & A2 & A3 & _ & A5 & A6 & _).
  exists l, m, (nn_show (ph_national p)). repeat (split; [assumption|]). split; [|auto]. apply all_digits_iff, nn_show_digits.
Qed.

Definition mistaken (db : database) (t : ptype) (p : phone) : bool :=
  match number_type_with db p with Ok t' => if ptype_eqb t' TUnknown then false else negb (namedb t t') | _ => false end.
Definition wrong_numbers : list (str * ptype * (N * str)) :=
  [(lit "AC", TUan, (247%N, lit "040000")); (lit "IN", TTollFree, (91%N, lit "0008000000065"));
   (lit "IT", TFixedLine, (39%N, lit "0144001393")); (lit "JP", TTollFree, (81%N, lit "00370005802"));
   (lit "UY", TTollFree, (598%N, lit "00042002367"))].
Definition all_mistaken (db : database) : bool := forallb (fun x => witness db (mistaken db (snd (fst x))) x) wrong_numbers.
Lemma default_mistaken : all_mistaken default_db = true.
Proof. vm_cast_no_check (eq_refl true). Qed.
Lemma wrong_numbers_in : map fst wrong_numbers = wrong_kinds.
Proof. reflexivity. Qed.
Lemma mistaken_use : forall db t p, mistaken db t p = true -> exists t', number_type_with db p = Ok t' /\ t' <> TUnknown /\ ~ named t t'.
Proof.
  intros db t p H. unfold mistaken in H. destruct (number_type_with db p) as [t'| |]; [|discriminate..]. exists t'. split; [reflexivity|].
  destruct (ptype_eqb t' TUnknown) eqn:E; [discriminate|]. split.
  - intros ->. discriminate.
  - intros N. apply namedb_use in N. rewrite N in H. discriminate.
Qed.
Theorem C68_wrong : forall r t, In (r, t) wrong_kinds ->
  exists c l m p t', by_code default_db c = Some l /\ In m l /\ md_id m = r /\ code_value (ph_code p) = c
    /\ described_as m t (nn_show (ph_national p)) /\ zero_first (nn_show (ph_national p))
    /\ ph_number_type p = Ok t' /\ t' <> TUnknown /\ ~ named t t'.
Proof.
  intros r t I. rewrite <- wrong_numbers_in in I. apply in_map_iff in I as ([[r0 t0] [c w]] & E & I). cbn [fst] in E.
  injection E as -> ->. pose proof default_mistaken as D. unfold all_mistaken in D. rewrite forallb_forall in D. apply D in I. cbn [fst snd] in I.
  destruct (witness_use default_db _ r t c w I) as (l & m & p & A1 & A2 & A3 & A4 & A5 & A6 & _ & Q).
  destruct (mistaken_use default_db t p Q) as (t' & B). exists c, l, m, p, t'. auto 10.
Qed.
(** An Italian fixed line and its type: premium rate. *)
Definition dear (db : database) (p : phone) : bool := match number_type_with db p with Ok TPremiumRate => true | _ => false end.
Lemma default_dear : witness default_db (dear default_db) (lit "IT", TFixedLine, (39%N, lit "0144001393")) = true.
Proof. vm_cast_no_check (eq_refl true). Qed.
Lemma dear_use : forall db p, dear db p = true -> number_type_with db p = Ok TPremiumRate.
Proof. intros db p H. unfold dear in H. destruct (number_type_with db p) as [[]| |]; (reflexivity || discriminate). Qed.
Theorem C68_premium_refuted : exists l m p, by_code default_db 39 = Some l /\ In m l /\ code_value (ph_code p) = 39%N
  /\ described_as m TFixedLine (nn_show (ph_national p)) /\ nn_show (ph_national p) = lit "0144001393"
  /\ ph_number_type p = Ok TPremiumRate.
Proof.
  destruct (witness_use default_db _ _ _ _ _ default_dear) as (l & m & p & A1 & A2 & A3 & A4 & A5 & A6 & A7 & Q).
  exists l, m, p. pose proof (dear_use default_db p Q) as B. repeat (split; [assumption|]). exact B.
Qed.

Definition as_is (db : database) (t : ptype) (p : phone) : bool :=
  match number_type_with db p with Ok t' => ptype_eqb t' t | _ => false end.
Definition right_numbers : list (str * ptype * (N * str)) :=
  [(lit "GA", TMobile, (241%N, lit "02000208")); (lit "KR", TTollFree, (82%N, lit "00308000000"));
   (lit "QA", TTollFree, (974%N, lit "00800000028"))].
Definition all_right (db : database) : bool := forallb (fun x => witness db (as_is db (snd (fst x))) x) right_numbers.
Lemma default_all_right : all_right default_db = true.
Proof. vm_cast_no_check (eq_refl true). Qed.
Lemma right_numbers_in : map fst right_numbers = right_kinds.
Proof. reflexivity. Qed.
Lemma as_is_use : forall db t p, as_is db t p = true -> number_type_with db p = Ok t.
Proof.
  intros db t p H. unfold as_is in H. destruct (number_type_with db p) as [t'| |]; [|discriminate..]. apply same_type in H. now subst.
Qed.
Theorem C68_right_exact : forall r t, In (r, t) right_kinds ->
  exists c l m p, by_code default_db c = Some l /\ In m l /\ md_id m = r /\ code_value (ph_code p) = c
    /\ described_as m t (nn_show (ph_national p)) /\ zero_first (nn_show (ph_national p)) /\ ph_number_type p = Ok t.
Proof.
  intros r t I. rewrite <- right_numbers_in in I. apply in_map_iff in I as ([[r0 t0] [c w]] & E & I). cbn [fst] in E.
  injection E as -> ->. pose proof default_all_right as D. unfold all_right in D. rewrite forallb_forall in D. apply D in I. cbn [fst snd] in I.
  destruct (witness_use default_db _ r t c w I) as (l & m & p & A1 & A2 & A3 & A4 & A5 & A6 & _ & Q).
  exists c, l, m, p. pose proof (as_is_use default_db t p Q) as B. repeat (split; [assumption|]). exact B.
Qed.

Definition placed (db : database) (p : phone) : bool := match country_id_with db p with Ok (Some _) => true | _ => false end.
Definition placed_numbers : list (str * ptype * (N * str)) :=
  [(lit "IT", TFixedLine, (39%N, lit "0144001393")); (lit "NO", TUan, (47%N, lit "07900")); (lit "SJ", TUan, (47%N, lit "07900"))].
Lemma default_placed : forallb (witness default_db (placed default_db)) placed_numbers = true.
Proof. vm_cast_no_check (eq_refl true). Qed.
Lemma placed_numbers_in : map fst placed_numbers = placed_kinds.
Proof. reflexivity. Qed.
Lemma placed_use : forall db p, placed db p = true -> exists i, country_id_with db p = Ok (Some i).
Proof. intros db p H. unfold placed in H. destruct (country_id_with db p) as [[i|]| |]; try discriminate. eauto. Qed.
Theorem C68_nowhere_exact : forall r t, In (r, t) placed_kinds ->
  exists c l m p i, by_code default_db c = Some l /\ In m l /\ md_id m = r /\ code_value (ph_code p) = c
    /\ described_as m t (nn_show (ph_national p)) /\ zero_first (nn_show (ph_national p)) /\ country_id p = Ok (Some i).
Proof.
  intros r t I. rewrite <- placed_numbers_in in I. apply in_map_iff in I as ([[r0 t0] [c w]] & E & I). cbn [fst] in E.
  injection E as -> ->. pose proof default_placed as D. rewrite forallb_forall in D. apply D in I.
  destruct (witness_use default_db _ r t c w I) as (l & m & p & A1 & A2 & A3 & A4 & A5 & A6 & _ & Q).
  destruct (placed_use default_db p Q) as (i & B). exists c, l, m, p, i. repeat (split; [assumption|]). exact B.
Qed.

(** Numbers that meet the hypotheses: mobiles of the Ivory Coast and of Benin, a Milanese
    fixed line, a premium rate number of the Vatican, a Korean freephone number. *)
Definition says (db : database) (t : ptype) (p : phone) : bool :=
  match is_valid_with db p, number_type_with db p with Ok true, Ok t' => ptype_eqb t' t | _, _ => false end.
Example C68_ex : forallb (witness default_db (says default_db TUnknown))
  [(lit "CI", TMobile, (225%N, lit "0114339344")); (lit "BJ", TMobile, (229%N, lit "0127357085"));
   (lit "IT", TFixedLine, (39%N, lit "0236618300")); (lit "VA", TPremiumRate, (39%N, lit "087879271"));
   (lit "KR", TTollFree, (82%N, lit "003684349367"))] = true.
Proof. vm_cast_no_check (eq_refl true). Qed.
