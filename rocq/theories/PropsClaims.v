(** * C48: a number is claimed by one country

    Several countries share a calling code; the library names the first one
    whose entry claims the digits.  For the built-in metadata no other entry
    claims them, except for the twelve pairs of [rivals]. *)
From Verif Require Import Base Unicode Regex RegexSyntax Consts CountryId Types NationalNumber
  Metadata Database Validator Valid Number Rfc3966 Helper Natural PhoneNumber Parser Formatter Loader
  DefaultDb DefaultDbOk Api.
From Verif Require Import StrFacts NationalFacts RegexLang RegexFacts RegexCaps RegexDeriv DatabaseFacts ParserFacts
  ParseInv TextFacts ViableFacts PhoneText CoreFacts DialFacts RegexMany RegexExact E164Facts FormatFacts PropsPanic
  PropsE164 PropsValid PropsNational ClaimFacts.

(** ** Vocabulary: [claims m v] (PropsValid) *)
(** Two countries with digits that both claim; the first is preferred. *)
Definition rivals : list (str * str) :=
  [(lit "US", lit "CA");
   (lit "AU", lit "CC"); (lit "AU", lit "CX"); (lit "CC", lit "CX");
   (lit "GP", lit "BL"); (lit "GP", lit "MF"); (lit "BL", lit "MF");
   (lit "MA", lit "EH");
   (lit "GB", lit "GG"); (lit "GB", lit "JE"); (lit "GG", lit "JE");
   (lit "RE", lit "YT")].

(** ** The check *)
Definition rivalb (a b : metadata) : bool :=
  existsb (fun p => if str_eqb (fst p) (md_id a) then str_eqb (snd p) (md_id b) else false) rivals.
Lemma rivalb_in : forall a b, rivalb a b = true <-> In (md_id a, md_id b) rivals.
Proof.
  intros a b. unfold rivalb. rewrite existsb_exists. split.
  - intros ([x y] & I & H). cbn [fst snd] in H. destruct (str_eqb x (md_id a)) eqn:E; [|discriminate].
    apply str_eqb_eq in E, H. now subst.
  - intros I. exists (md_id a, md_id b). split; [exact I|]. cbn [fst snd]. now rewrite !str_eqb_refl.
Qed.
Fixpoint each_pair (P : metadata -> metadata -> bool) (l : list metadata) : bool :=
  match l with
  | [] => true
  | x :: l' => if forallb (P x) l' then each_pair P l' else false
  end.
Lemma each_pair_sound : forall P l b x m y a, each_pair P l = true -> l = b ++ x :: m ++ y :: a -> P x y = true.
Proof.
  intros P. induction l as [|z l IH]; intros b x m y a H E; [destruct b; discriminate|]. cbn [each_pair] in H.
  destruct (forallb (P z) l) eqn:F; [|discriminate]. destruct b as [|z' b]; inversion E; subst.
  - rewrite forallb_forall in F. apply F. apply in_app_iff. right. now left.
  - eapply IH; [exact H|reflexivity].
Qed.
Definition rival_or_apart (a b : metadata) : bool := if rivalb a b then true else never_both a b.
Definition entries_check (l : list metadata) : bool :=
  match l with
  | [_] => true
  | _ => if forallb short l then each_pair rival_or_apart l else false
  end.
Definition rivals_check (db : database) : bool := forallb (fun p => entries_check (snd p)) (db_by_code db).
Lemma rivals_checked : rivals_check default_db = true.
Proof. vm_cast_no_check (eq_refl true). Qed.

Lemma split_two : forall A (l : list A) x y, In x l -> In y l -> x <> y ->
  (exists b m a, l = b ++ x :: m ++ y :: a) \/ (exists b m a, l = b ++ y :: m ++ x :: a).
Proof.
  intros A l x y Ix Iy N. apply in_split in Ix as (b & a & ->). apply in_app_iff in Iy as [I|[->|I]]; [| now elim N |].
  - right. apply in_split in I as (b1 & b2 & ->). exists b1, b2, a. now rewrite <- app_assoc.
  - left. apply in_split in I as (a1 & a2 & ->). exists b, a1, a2. reflexivity.
Qed.

Section Generic.
Variable db : database.
Hypothesis checked : rivals_check db = true.
Lemma shared_entries : forall c l, by_code db c = Some l -> entries_check l = true.
Proof.
  intros c l H. unfold rivals_check in checked. rewrite forallb_forall in checked. apply nget_in in H. apply checked in H. exact H.
Qed.
Lemma claimants_in_order : forall c b x m y a v k, by_code db c = Some (b ++ x :: m ++ y :: a) -> digits v = true ->
  (length v < 17 -> k = N.of_nat (length v)) ->
  all_match (claim_res k x) v -> all_match (claim_res k y) v -> In (md_id x, md_id y) rivals.
Proof.
  intros c b x m y a v k H Dv Hk Cx Cy. apply shared_entries in H. unfold entries_check in H.
  assert (H2 : (if forallb short (b ++ x :: m ++ y :: a) then each_pair rival_or_apart (b ++ x :: m ++ y :: a) else false) = true).
  { destruct b as [|z [|z' b]]; cbn [app] in *; try exact H; destruct m; cbn [app] in *; exact H. }
  clear H. destruct (forallb short _) eqn:S; [|discriminate]. rewrite forallb_forall in S.
  assert (Sx : short x = true) by (apply S, in_app_iff; right; now left).
  assert (Sy : short y = true) by (apply S, in_app_iff; right; right; apply in_app_iff; right; now left).
  pose proof (each_pair_sound _ _ b x m y a H2 eq_refl) as P. unfold rival_or_apart in P. apply rivalb_in.
  destruct (rivalb x y); [reflexivity|]. exact (False_ind _ (never_both_sound x y k v Sx Sy P Dv Hk Cx Cy)).
Qed.
Lemma one_claimant : forall c l x y v, by_code db c = Some l -> In x l -> In y l -> all_digits v ->
  claims x v -> claims y v -> x <> y -> In (md_id x, md_id y) rivals \/ In (md_id y, md_id x) rivals.
Proof.
  intros c l x y v H Ix Iy Dv Cx Cy N. apply all_digits_iff in Dv. apply claims_res in Cx. apply claims_res in Cy.
  destruct (split_two _ l x y Ix Iy N) as [(b & m & a & ->)|(b & m & a & ->)]; [left|right];
    eapply claimants_in_order; eauto.
Qed.
Lemma other_claimant : forall c v m l x, by_code db c = Some l -> all_digits v -> responsible db c v m -> In x l ->
  claims x v -> x = m \/ In (md_id m, md_id x) rivals.
Proof.
  intros c v m l x H Dv [E|(b & a & E & _ & Cm & B)] Ix Cx; rewrite E in H; inversion H; subst l.
  - destruct Ix as [->|[]]. now left.
  - apply in_app_iff in Ix as [I|[->|I]]; [exfalso; now apply (B x)|now left|right].
    apply in_split in I as (a1 & a2 & ->). apply all_digits_iff in Dv. apply claims_res in Cx. apply claims_res in Cm.
    eapply claimants_in_order; eauto.
Qed.
End Generic.

(** ** C48 *)
(** Any digits are claimed by at most one of the countries that share a calling
    code, unless they are rivals. *)
Theorem C48_one_claimant : forall c l x y v, by_code default_db c = Some l -> In x l -> In y l -> all_digits v ->
  claims x v -> claims y v -> x <> y -> In (md_id x, md_id y) rivals \/ In (md_id y, md_id x) rivals.
Proof. apply one_claimant, rivals_checked. Qed.
Print Assumptions C48_one_claimant.

(** The country that is reported is the only one that claims the number, or
    the first of two rivals. *)
Theorem C48_country : forall p i l x, country_id p = Ok (Some i) ->
  by_code default_db (code_value (ph_code p)) = Some l -> In x l -> claims x (dec (nn_value (ph_national p))) ->
  md_id x = id_name i \/ In (id_name i, md_id x) rivals.
Proof.
  intros p i l x H El Ix Cx. destruct (C20_country default_db p default_regular) as (_ & H1 & _).
  apply H1 in H as (m & Rm & Em). rewrite <- Em.
  assert (Dv : all_digits (dec (nn_value (ph_national p)))) by (apply all_digits_iff, digits_dec).
  destruct (other_claimant default_db rivals_checked _ _ m l x El Dv Rm Ix Cx) as [->|H]; auto.
Qed.
Print Assumptions C48_country.

(** and for validity, which looks at the leading zeros too *)
Theorem C48_valid : forall p l x, is_valid p = Ok true ->
  by_code default_db (code_value (ph_code p)) = Some l -> In x l -> claims x (nn_show (ph_national p)) ->
  exists m, responsible default_db (code_value (ph_code p)) (nn_show (ph_national p)) m /\
    known_type m (nn_show (ph_national p)) /\ (x = m \/ In (md_id m, md_id x) rivals).
Proof.
  intros p l x H El Ix Cx. apply C16_default in H as (m & Rm & Km). exists m. split; [exact Rm|]. split; [exact Km|].
  apply (other_claimant default_db rivals_checked _ (nn_show (ph_national p)) m l x El); auto.
  apply all_digits_iff, nn_show_digits.
Qed.
Print Assumptions C48_valid.

(** None of the pairs can be left out: numbers that both claim. *)
Definition contest (s : str * str * str) : bool :=
  let '(x, y, s) := s in
  match parse None s with
  | Ok p => match by_id default_db x, by_id default_db y with
            | Some a, Some b =>
                let v := dec (nn_value (ph_national p)) in
                if N.eqb (md_country_code a) (code_value (ph_code p)) then
                if N.eqb (md_country_code b) (code_value (ph_code p)) then
                if hit v a then hit v b else false else false else false
            | _, _ => false
            end
  | _ => false
  end.
Definition contests : list (str * str * str) :=
  [(lit "US", lit "CA", lit "+19002345678");
   (lit "AU", lit "CC", lit "+611900123456"); (lit "AU", lit "CX", lit "+611900123456"); (lit "CC", lit "CX", lit "+611900123456");
   (lit "GP", lit "BL", lit "+590810123456"); (lit "GP", lit "MF", lit "+590810123456"); (lit "BL", lit "MF", lit "+590810123456");
   (lit "MA", lit "EH", lit "+212891234567");
   (lit "GB", lit "GG", lit "+449012345678"); (lit "GB", lit "JE", lit "+445612345678"); (lit "GG", lit "JE", lit "+445612345678");
   (lit "RE", lit "YT", lit "+262801234567")].
Lemma contests_checked : forallb contest contests = true.
Proof. vm_cast_no_check (eq_refl true). Qed.
Lemma contest_sound : forall x y s, contest (x, y, s) = true ->
  exists p a b, parse None s = Ok p /\ by_id default_db x = Some a /\ by_id default_db y = Some b /\
    md_country_code a = code_value (ph_code p) /\ md_country_code b = code_value (ph_code p) /\
    claims a (dec (nn_value (ph_national p))) /\ claims b (dec (nn_value (ph_national p))).
Proof.
  intros x y s H. unfold contest in H. destruct (parse None s) as [p| |]; try discriminate.
  destruct (by_id default_db x) as [a|]; [|discriminate]. destruct (by_id default_db y) as [b|]; [|discriminate].
  cbv zeta in H. destruct (dec_value_ok (ph_national p)) as [Hd Hl]. exists p, a, b.
  destruct (N.eqb_spec (md_country_code a) (code_value (ph_code p))) as [Ea|]; [|discriminate].
  destruct (N.eqb_spec (md_country_code b) (code_value (ph_code p))) as [Eb|]; [|discriminate].
  destruct (hit (dec (nn_value (ph_national p))) a) eqn:Ha; [|discriminate].
  repeat split; auto; (eapply claims_iff; [exact Hd|exact Hl|]); assumption.
Qed.
Theorem C48_rivals_exact : forall x y, In (x, y) rivals ->
  exists s p a b, parse None s = Ok p /\ by_id default_db x = Some a /\ by_id default_db y = Some b /\
    md_country_code a = code_value (ph_code p) /\ md_country_code b = code_value (ph_code p) /\
    claims a (dec (nn_value (ph_national p))) /\ claims b (dec (nn_value (ph_national p))).
Proof.
  intros x y I. assert (E : rivals = map fst contests) by reflexivity. rewrite E in I.
  apply in_map_iff in I as ([[x' y'] s] & Es & I). cbn [fst] in Es. inversion Es; subst x' y'. exists s.
  apply contest_sound. pose proof contests_checked as C. rewrite forallb_forall in C. exact (C _ I).
Qed.
Print Assumptions C48_rivals_exact.

(** "+1 242 365 1234" is claimed by the Bahamas; so it is not by the United States. *)
Example C48_bahamas : exists p, parse None (lit "+12423651234") = Ok p /\ country_id p = Ok (Some ID_BS) /\
  forall l x, by_code default_db 1 = Some l -> In x l -> claims x (dec (nn_value (ph_national p))) -> md_id x = lit "BS".
Proof.
  eexists. split; [vm_compute; reflexivity|]. split; [vm_compute; reflexivity|]. intros l x El Ix Cx.
  match type of Cx with claims x (dec (nn_value (ph_national ?p))) =>
    destruct (C48_country p ID_BS l x) as [H|H]; [vm_compute; reflexivity|exact El|exact Ix|exact Cx|exact H|] end.
  exfalso. assert (N : existsb (fun q => str_eqb (fst q) (id_name ID_BS)) rivals = false) by (vm_compute; reflexivity).
  assert (Y : existsb (fun q => str_eqb (fst q) (id_name ID_BS)) rivals = true); [|congruence].
  apply existsb_exists. exists (id_name ID_BS, md_id x). split; [exact H|]. apply str_eqb_refl.
Qed.
