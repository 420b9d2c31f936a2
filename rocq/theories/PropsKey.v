(** * C54: a rendering identifies the number *)
From Verif Require Import Base Unicode Regex RegexSyntax Consts CountryId Types NationalNumber
  Metadata Database Validator Valid Number Rfc3966 Helper Natural PhoneNumber Parser Formatter Loader
  DefaultDb DefaultDbOk Api.
From Verif Require Import StrFacts NationalFacts RegexLang RegexFacts RegexCaps DatabaseFacts ParserFacts
  TextFacts FormatFacts FormatDigits FormatDollar PropsNumber PropsE164 PropsParse PropsFormat.

(** ** What is identified *)
Definition same_number (p q : phone) : Prop :=
  code_value (ph_code p) = code_value (ph_code q)
  /\ nn_value (ph_national p) = nn_value (ph_national q)
  /\ nn_zeros (ph_national p) = nn_zeros (ph_national q).
Definition known (p : phone) : Prop := by_code default_db (code_value (ph_code p)) <> None.

(** ** Reading the parts off a text *)
Lemma nn_show_inj : forall a b, nn_show a = nn_show b -> nn_value a = nn_value b /\ nn_zeros a = nn_zeros b.
Proof.
  intros a b H. unfold nn_show in H.
  assert (V : nn_value a = nn_value b).
  { apply (f_equal digits_val) in H. now rewrite !digits_val_zeros, !digits_val_dec in H. }
  split; [exact V|]. rewrite V in H. apply (f_equal (@length char)) in H. rewrite !app_length, !repeat_length in H. lia.
Qed.
Lemma nn_show_same : forall a b, nn_value a = nn_value b -> nn_zeros a = nn_zeros b -> nn_show a = nn_show b.
Proof. intros a b H K. unfold nn_show. now rewrite H, K. Qed.
Lemma app_prefix : forall (a b x y : str), a ++ x = b ++ y -> exists z, a = b ++ z \/ b = a ++ z.
Proof.
  induction a as [|c a IH]; intros b x y E; [exists b; now right|].
  destruct b as [|d b]; [exists (c :: a); now left|]. cbn [app] in E. injection E as -> E.
  destruct (IH b x y E) as (z & [-> | ->]); exists z; [now left|now right].
Qed.
Lemma code_split : forall c c' x y, by_code default_db c <> None -> by_code default_db c' <> None ->
  dec c ++ x = dec c' ++ y -> c = c' /\ x = y.
Proof.
  intros c c' x y H H' E. destruct (app_prefix _ _ _ _ E) as (z & [G|G]).
  - pose proof (codes_unique _ _ _ H' H G). subst z. rewrite app_nil_r in G. split; [now apply dec_inj|].
    rewrite G in E. now apply app_inv_head in E.
  - pose proof (codes_unique _ _ _ H H' G). subst z. rewrite app_nil_r in G. split; [symmetry; now apply dec_inj|].
    rewrite G in E. now apply app_inv_head in E.
Qed.
(** the first character outside a set ends what precedes it *)
Lemma mark_split : forall (f : char -> bool) a b x u v, forallb f a = true -> forallb f b = true -> f x = false ->
  a ++ x :: u = b ++ x :: v -> a = b /\ u = v.
Proof.
  intros f. induction a as [|c a IH]; intros b x u v Ha Hb Hx E.
  - destruct b as [|d b]; cbn [app] in E; [injection E as ->; auto|]. injection E as <- _.
    cbn [forallb] in Hb. rewrite Hx in Hb. discriminate.
  - destruct b as [|d b]; cbn [app] in E.
    + injection E as -> _. cbn [forallb] in Ha. rewrite Hx in Ha. discriminate.
    + injection E as -> E. cbn [forallb] in Ha, Hb. apply andb_prop in Ha as [_ Ha]. apply andb_prop in Hb as [_ Hb].
      destruct (IH b x u v Ha Hb Hx E) as [-> ->]. auto.
Qed.
Definition in_body (c : char) : bool := is_digit c || is_template_sep c.
Definition mark (a b : str) (x : char) (o : option str) : str :=
  match o with Some e => (a ++ x :: b) ++ e | None => [] end.
Lemma ext_split : forall a x b t t' o o', forallb in_body a = true -> in_body x = false ->
  forallb in_body t = true -> forallb in_body t' = true -> t ++ mark a b x o = t' ++ mark a b x o' -> t = t' /\ o = o'.
Proof.
  intros a x b t t' o o' Ha Hx Ht Ht' E.
  assert (N : forall s u v, forallb in_body s = true -> s = u ++ x :: v -> False).
  { intros s u v Hs ->. rewrite forallb_app in Hs. cbn [forallb] in Hs. rewrite Hx in Hs.
    apply andb_prop in Hs as [_ Hs]. discriminate. }
  destruct o as [e|], o' as [e'|]; cbn [mark] in E.
  - rewrite <- !app_assoc in E. cbn [app] in E. rewrite !app_assoc in E.
    apply (mark_split in_body) in E as [E F]; [|rewrite forallb_app; now rewrite Ht, Ha|rewrite forallb_app; now rewrite Ht', Ha|exact Hx].
    apply app_inv_tail in E. apply app_inv_head in F. subst. auto.
  - exfalso. rewrite app_nil_r in E. rewrite <- app_assoc in E. cbn [app] in E. rewrite app_assoc in E. exact (N _ _ _ Ht' (eq_sym E)).
  - exfalso. rewrite app_nil_r in E. rewrite <- app_assoc in E. cbn [app] in E. rewrite app_assoc in E. exact (N _ _ _ Ht E).
  - rewrite !app_nil_r in E. auto.
Qed.

(** every text that introduces an extension has a character that is never part
    of the digits and separators before it *)
Fixpoint first_mark (s : str) : option (str * char * str) :=
  match s with
  | [] => None
  | c :: s' => if in_body c then match first_mark s' with Some (a, x, b) => Some (c :: a, x, b) | None => None end
               else Some ([], c, s')
  end.
Lemma first_mark_spec : forall s a x b, first_mark s = Some (a, x, b) ->
  s = a ++ x :: b /\ forallb in_body a = true /\ in_body x = false.
Proof.
  induction s as [|c s IH]; intros a x b H; [discriminate|]. cbn [first_mark] in H. destruct (in_body c) eqn:E.
  - destruct (first_mark s) as [[[a' x'] b']|]; [|discriminate]. injection H as <- <- <-.
    destruct (IH _ _ _ eq_refl) as (-> & I & J). split; [reflexivity|]. split; [|exact J]. cbn [forallb]. now rewrite E, I.
  - injection H as <- <- <-. auto.
Qed.
Definition entry_marked (m : metadata) : bool := match first_mark (ext_text_of m) with Some _ => true | None => false end.
Lemma default_marked : heads_forall entry_marked default_db = true.
Proof. vm_cast_no_check (eq_refl true). Qed.

Lemma body_in : forall t, digits_and (lit " -.()") t -> forallb in_body t = true.
Proof.
  intros t H. apply forallb_forall. intros c I. unfold in_body. apply orb_true_iff. destruct (H c I) as [D|S].
  - left. apply is_digit_spec. exact D.
  - right. apply existsb_exists. exists c. split; [exact S|apply N.eqb_refl].
Qed.
Lemma body_in_hyphen : forall t, digits_and (lit "-") t -> forallb in_body t = true.
Proof.
  intros t H. apply body_in. intros c I. destruct (H c I) as [D|S]; [now left|right].
  destruct S as [<-|[]]. right. now left.
Qed.

Lemma known_render : forall p, known p -> phone_to_string p = Ok (lit "+" ++ dec (code_value (ph_code p)) ++ nn_show (ph_national p)).
Proof.
  intros p K. destruct (known_head _ K) as (m & l & Hc). unfold phone_to_string, fmt_display.
  cbn [fmt_format fm_number fm_database fm_mode fm_format]. rewrite Hc. reflexivity.
Qed.

Lemma render_same : forall db md p q, code_value (ph_code p) = code_value (ph_code q) ->
  nn_show (ph_national p) = nn_show (ph_national q) -> ph_extension p = ph_extension q ->
  md = International \/ md = Rfc3966 -> render db md p = render db md q.
Proof.
  intros db md p q E S H M. unfold render, fmt_display, ext_suffix.
  cbn [fmt_format_with fm_set_mode fm_number fm_database fm_mode fm_format]. rewrite E, S, H.
  destruct M as [-> | ->]; reflexivity.
Qed.

(** ** The theorems *)
(** Two numbers have the same E.164 text exactly if they have the same calling
    code and the same national digits, zeros included. *)
Theorem C54_e164 : forall p q, known p -> known q ->
  (phone_to_string p = phone_to_string q <-> same_number p q).
Proof.
  intros p q Kp Kq. rewrite !known_render by assumption. split.
  - intros E. injection E as E. apply code_split in E as [E F]; [|exact Kp|exact Kq].
    apply nn_show_inj in F as [F G]. split; [exact E|auto].
  - intros (E & F & G). now rewrite E, (nn_show_same _ _ F G).
Qed.
Print Assumptions C54_e164.

(** International and RFC 3966 texts also tell the extension. *)
Theorem C54_international : forall p q, known p -> known q ->
  (render default_db International p = render default_db International q
   <-> same_number p q /\ ph_extension p = ph_extension q).
Proof.
  intros p q Kp Kq. destruct (known_head _ Kp) as (m & l & Hp). destruct (known_head _ Kq) as (m' & l' & Hq).
  pose proof (heads_forall_head _ _ _ _ _ default_marked Hp) as Hm.
  split.
  - intros E. unfold entry_marked in Hm.
    destruct (first_mark (ext_text_of m)) as [[[a x] b]|] eqn:Ex; [|discriminate]. apply first_mark_spec in Ex as (Ex & Ha & Hx).
    assert (K : forall o, match o with
               | Some e => match md_preferred_extension_prefix m with Some x => x | None => lit " ext. " end ++ e
               | None => []
               end = mark a b x o).
    { intros [e|]; [cbn [mark]; rewrite <- Ex|]; reflexivity. }
    destruct (C21_international_shape p m l Hp) as (t & Et & Dt & Bt).
    destruct (C21_international_shape q m' l' Hq) as (t' & Et' & Dt' & Bt').
    assert (C : code_value (ph_code p) = code_value (ph_code q) /\ lit " " ++ t ++ mark a b x (ph_extension p)
      = lit " " ++ t' ++ match ph_extension q with
               | Some e => match md_preferred_extension_prefix m' with Some x => x | None => lit " ext. " end ++ e
               | None => []
               end).
    { rewrite Et, Et', K in E. injection E as E. now apply code_split in E. }
    destruct C as [C F]. rewrite <- C, Hp in Hq. injection Hq as <- <-. rewrite K in F. apply app_inv_head in F.
    apply ext_split in F as [F G]; [|exact Ha|exact Hx|now apply body_in|now apply body_in].
    split; [|exact G]. subst t'. rewrite Dt in Dt'. apply nn_show_inj in Dt' as [V Z]. split; [exact C|auto].
  - intros ((E & F & G) & H). pose proof (nn_show_same _ _ F G) as S.
    apply render_same; auto.
Qed.
Print Assumptions C54_international.

Theorem C54_rfc3966 : forall p q, known p -> known q ->
  (render default_db Rfc3966 p = render default_db Rfc3966 q
   <-> same_number p q /\ ph_extension p = ph_extension q).
Proof.
  intros p q Kp Kq. split.
  - intros E. assert (K : forall o, match o with Some e => lit ";ext=" ++ e | None => [] end = mark [] (lit "ext=") 59%N o).
    { intros [e|]; reflexivity. }
    destruct (C22_shape p Kp) as (t & Et & Bt & Dt). destruct (C22_shape q Kq) as (t' & Et' & Bt' & Dt').
    assert (C : code_value (ph_code p) = code_value (ph_code q) /\ lit "-" ++ t ++ mark [] (lit "ext=") 59%N (ph_extension p)
      = lit "-" ++ t' ++ mark [] (lit "ext=") 59%N (ph_extension q)).
    { rewrite Et, Et', !K in E. injection E as E. now apply code_split in E. }
    destruct C as [C F]. apply app_inv_head in F.
    apply ext_split in F as [F G]; [|reflexivity|reflexivity|now apply body_in_hyphen|now apply body_in_hyphen].
    split; [|exact G]. subst t'. rewrite Dt in Dt'. apply nn_show_inj in Dt' as [V Z]. split; [exact C|auto].
  - intros ((E & F & G) & H). pose proof (nn_show_same _ _ F G) as S. apply render_same; auto.
Qed.
Print Assumptions C54_rfc3966.

(** So two numbers with the same carrier are equal exactly if their RFC 3966
    texts are, and exactly if their international texts are. *)
Theorem C54_equality : forall p q, phone_u64 p -> phone_u64 q -> known p -> known q -> ph_carrier p = ph_carrier q ->
  (phone_eqb p q = true <-> render default_db Rfc3966 p = render default_db Rfc3966 q)
  /\ (phone_eqb p q = true <-> render default_db International p = render default_db International q).
Proof.
  intros p q Up Uq Kp Kq C. rewrite (C54_rfc3966 p q Kp Kq), (C54_international p q Kp Kq), (C24_equality p q Up Uq).
  unfold same_number. tauto.
Qed.
Print Assumptions C54_equality.

(** The three kinds of text never coincide, not even those of different numbers. *)
Theorem C54_modes : forall p q r, known p -> known q -> known r ->
  exists a b c, render default_db E164 p = Ok a /\ render default_db International q = Ok b /\ render default_db Rfc3966 r = Ok c
    /\ a <> b /\ a <> c /\ b <> c.
Proof.
  intros p q r Kp Kq Kr. destruct (known_head _ Kq) as (m & l & Hq).
  destruct (C21_international_shape q m l Hq) as (t & Et & _). destruct (C22_shape r Kr) as (u & Eu & _).
  pose proof (known_render p Kp) as Ea. unfold phone_to_string in Ea.
  eexists _, _, _. split; [|split; [exact Et|split; [exact Eu|]]].
  { destruct (known_head _ Kp) as (m' & l' & Hp). unfold render, fmt_display.
    cbn [fmt_format_with fm_set_mode fm_number fm_database fm_mode fm_format]. rewrite Hp. reflexivity. }
  split; [|split; intros H; discriminate H].
  intros H. assert (I : In 32%N (dec (code_value (ph_code p)) ++ nn_show (ph_national p))).
  { injection H as H. rewrite H. apply in_app_iff. right. now left. }
  assert (D : digits (dec (code_value (ph_code p)) ++ nn_show (ph_national p)) = true).
  { rewrite digits_app, digits_dec, nn_show_digits. reflexivity. }
  unfold digits in D. rewrite forallb_forall in D. apply D in I. discriminate I.
Qed.
Print Assumptions C54_modes.

(** National texts do not identify a number, not even within a country: Finland
    writes 20299 as 020299, which is also the text of the number 0 20299. *)
Theorem C54_national_refuted : exists p q t, known p /\ known q /\ code_value (ph_code p) = code_value (ph_code q)
  /\ nn_zeros (ph_national p) <> nn_zeros (ph_national q)
  /\ ph_extension p = None /\ ph_carrier p = None /\ ph_extension q = None /\ ph_carrier q = None
  /\ render default_db National p = Ok t /\ render default_db National q = Ok t.
Proof.
  exists (mk_phone (mk_code 358 SrcPlus) (mk_national 20299) None None),
    (mk_phone (mk_code 358 SrcPlus) (mk_national (72057594037927936 + 20299)) None None), (lit "020299").
  split; [vm_compute; discriminate|]. split; [vm_compute; discriminate|]. split; [reflexivity|].
  split; [vm_compute; discriminate|]. repeat (split; [reflexivity|]). split; vm_compute; reflexivity.
Qed.
Print Assumptions C54_national_refuted.

(** Two numbers that differ in a leading zero only; one with and without extension. *)
Definition key_a : phone := mk_phone (mk_code 39 SrcPlus) (mk_national (72057594037927936 + 236618300)) (Some (lit "7")) None.
Definition key_b : phone := mk_phone (mk_code 39 SrcPlus) (mk_national 236618300) None None.
Example C54_ex : known key_a /\ known key_b /\ phone_u64 key_a
  /\ phone_to_string key_a = Ok (lit "+390236618300") /\ phone_to_string key_b = Ok (lit "+39236618300")
  /\ render default_db International key_a = Ok (lit "+39 02 3661 8300 ext. 7")
  /\ render default_db International key_b = Ok (lit "+39 236618300")
  /\ render default_db Rfc3966 key_a = Ok (lit "tel:+39-02-3661-8300;ext=7").
Proof.
  split; [vm_compute; discriminate|]. split; [vm_compute; discriminate|]. split; [vm_compute; try split; reflexivity|].
  repeat split; vm_compute; reflexivity.
Qed.
