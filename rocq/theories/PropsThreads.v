(** * PropsThreads (C47): any number of threads may use the library at once

    Read with Lazy.v (threads sharing lazily filled statics) and Shared.v (the
    library's statics and entry points).  [run start ls p] says that the program
    can go from its beginning to [p] with the events [ls]: threads appear at any
    time, make any calls, and take turns in any order. *)
From Verif Require Import Base Unicode Regex RegexSyntax Consts CountryId Types NationalNumber
  Metadata Database Validator Valid Number Rfc3966 Helper Natural PhoneNumber Parser Formatter
  Loader DefaultDb Postcard Api Lazy LazyFacts Shared PropsPostcard.
From Coq Require Import Lia.

Notation pool := (Lazy.pool cell val call result).
Notation run := (Lazy.run cell cell_dec val init call result body crash).
Notation pstep := (Lazy.pstep cell cell_dec val init call result body crash).
Notation start := (Lazy.start cell val call result).
Notation label := (Lazy.label cell call result).

(** ** The specification *)

(** What each call returns in a program with a single thread (the functions of
    Api.v, which all the other claims are about). *)
Definition answer (c : call) : result c :=
  match c return result c with
  | C_parse country s => Api.parse country s
  | C_parse_with db country s => parse_with db country s
  | C_display f => fmt_display default_db f
  | C_is_valid p => Api.is_valid p
  | C_number_type p => Api.ph_number_type p
  | C_country_id p => Api.country_id p
  | C_database => Ok default_db
  end.

(** A step of the library, as opposed to a new thread or a new call. *)
Definition library_step (l : label) : Prop :=
  match l with Stepped _ _ | Returned _ _ _ => True | _ => False end.

(** The closure of the static [k] starts to run. *)
Definition fills_static (k : cell) (l : label) : Prop := exists i, l = Stepped i (Some k).

(** How many threads are inside a call. *)
Fixpoint pending (ws : list (worker cell val call result)) : nat :=
  match ws with
  | [] => 0
  | Away :: ws => pending ws
  | Inside _ _ :: ws => S (pending ws)
  end.

(** ** What the statics hold *)

Definition held (k : cell) : val k :=
  match k return val k with
  | S_DEFAULT_IDD => DEFAULT_IDD
  | S_ASCII_MAPPINGS => ASCII_MAPPINGS
  | S_ALPHA_MAPPINGS => ALPHA_MAPPINGS
  | S_ALPHA_PHONE_MAPPINGS => ALPHA_PHONE_MAPPINGS
  | S_VALID_START_CHAR => VALID_START_CHAR
  | S_SECOND_NUMBER_START => SECOND_NUMBER_START
  | S_UNWANTED_END_CHARS => UNWANTED_END_CHARS
  | S_VALID_ALPHA_PHONE => VALID_ALPHA_PHONE
  | S_CAPTURING_EXTN_DIGITS => CAPTURING_EXTN_DIGITS
  | S_EXTN_PATTERNS_FOR_PARSING => EXTN_PATTERNS_FOR_PARSING
  | S_EXTN_PATTERN => EXTN_PATTERN
  | S_SEPARATOR_PATTERN => SEPARATOR_PATTERN
  | S_FIRST_GROUP => FIRST_GROUP
  | S_DATABASE => default_db
  end.

Definition rank (k : cell) : nat :=
  match k with
  | S_ALPHA_PHONE_MAPPINGS | S_EXTN_PATTERNS_FOR_PARSING => 1
  | S_EXTN_PATTERN => 2
  | _ => 0
  end.

Definition weight (k : cell) : nat :=
  match k with
  | S_ALPHA_PHONE_MAPPINGS | S_EXTN_PATTERN => 6
  | S_EXTN_PATTERNS_FOR_PARSING => 4
  | _ => 2
  end.

Notation alone := (eval held).

Lemma database_init : alone (init S_DATABASE) = Some default_db.
Proof.
  change (match embedded_db DATABASE_BIN with Ok db => Some db | _ => None end = Some default_db).
  unfold DATABASE_BIN. rewrite <- (app_nil_r (to_bytes default_entries)), C30_default. reflexivity.
Qed.

Lemma init_held : forall k, alone (init k) = Some (held k).
Proof.
  intros k. destruct k; try exact database_init; vm_compute; reflexivity.
Qed.

Lemma init_rank : forall k, below held rank (rank k) (init k).
Proof. intros k. destruct k; cbn [below init held rank]; auto. Qed.

Lemma init_weight : forall k, 2 + cost held weight (init k) <= weight k.
Proof. intros k. destruct k; cbn [cost init held weight]; lia. Qed.

Lemma rank_top : forall k, rank k < 3.
Proof. intros k. destruct k; cbn; lia. Qed.

(** ** Each entry point, run alone, is the function of the other claims *)

Lemma alone_bind {E A B} (m : code (outcome E A)) (f : A -> code (outcome E B)) :
  alone (mbind m f) = obind (alone m) (fun a => alone (f a)).
Proof. unfold mbind. rewrite eval_bind. destruct (alone m); reflexivity. Qed.

Lemma alone_ret {A} (a : A) : alone (Ret a) = a. Proof. reflexivity. Qed.
Lemma alone_ok {E A} (a : A) : alone (@ok E A a) = Ok a. Proof. reflexivity. Qed.
Lemma alone_force {A} k (f : val k -> code A) : alone (Force k f) = alone (f (held k)).
Proof. reflexivity. Qed.

Lemma obind_ext {E A B} (o : outcome E A) (f g : A -> outcome E B) :
  (forall a, f a = g a) -> obind o f = obind o g.
Proof. intros H. destruct o; cbn; auto. Qed.

Lemma alone_extract s : alone (m_extract s) = extract s.
Proof.
  unfold m_extract, extract. rewrite alone_force. cbn [held].
  destruct (re_find VALID_START_CHAR s) as [m|]; [|reflexivity].
  rewrite alone_bind, alone_ret. apply obind_ext. intros r1. rewrite alone_force. cbn [held].
  rewrite alone_bind, alone_ret. apply obind_ext. intros r2. rewrite alone_force. cbn [held].
  rewrite alone_bind, alone_ret. apply obind_ext. intros [|x r3]; [reflexivity|].
  rewrite alone_bind, alone_ret. apply obind_ext. reflexivity.
Qed.

Lemma alone_natural s : alone (m_natural s) = natural s.
Proof.
  unfold m_natural, natural. rewrite alone_bind, alone_extract. apply obind_ext. intros i.
  rewrite alone_force. cbn [held]. destruct (re_find EXTN_PATTERN i) as [c|]; [|reflexivity].
  destruct (cap_get c 2); [|reflexivity]. rewrite alone_bind, alone_ret. apply obind_ext. reflexivity.
Qed.

Lemma alone_p_phone_number s : alone (m_p_phone_number s) = p_phone_number s.
Proof.
  unfold m_p_phone_number, p_phone_number. destruct (rfc3966 s); [reflexivity|].
  rewrite eval_bind, alone_natural. destruct (natural s); reflexivity.
Qed.

Lemma alone_international_prefix idd n :
  alone (m_international_prefix idd n) = international_prefix idd n.
Proof.
  unfold m_international_prefix, international_prefix. rewrite alone_force. cbn [held].
  destruct (re_is_match VALID_ALPHA_PHONE (pn_national n)); rewrite alone_force; reflexivity.
Qed.

Lemma alone_country_code db country n :
  alone (m_country_code db country n) = country_code db country n.
Proof.
  unfold m_country_code, country_code. destruct country as [c|].
  - rewrite alone_bind, alone_international_prefix. apply obind_ext. reflexivity.
  - rewrite alone_force. cbn [held]. rewrite alone_bind, alone_international_prefix.
    apply obind_ext. reflexivity.
Qed.

Lemma alone_parse_with db country s : alone (m_parse_with db country s) = parse_with db country s.
Proof.
  unfold m_parse_with, parse_with. rewrite alone_bind, alone_p_phone_number.
  apply obind_ext. intros n. destruct (is_viable (pn_national n)); cbn [negb]; [|reflexivity].
  rewrite alone_bind, alone_country_code. apply obind_ext. intros n1.
  rewrite alone_bind, alone_ret. apply obind_ext. intros m.
  rewrite alone_bind, alone_ret. apply obind_ext. reflexivity.
Qed.

Lemma alone_fmt_replace s m f t c : alone (m_fmt_replace s m f t c) = fmt_replace s m f t c.
Proof.
  unfold m_fmt_replace, fmt_replace. rewrite alone_bind. f_equal.
  destruct t as [t|]; [|reflexivity]. rewrite alone_force. cbn [held].
  rewrite alone_bind, alone_ret. apply obind_ext. intros m1.
  rewrite alone_bind, alone_ret. apply obind_ext. reflexivity.
Qed.

Lemma alone_fmt_display f : alone (m_fmt_display f) = fmt_display (held S_DATABASE) f.
Proof.
  unfold m_fmt_display, fmt_display. rewrite alone_force. generalize (held S_DATABASE). intros d.
  rewrite alone_bind, alone_ret. apply obind_ext. intros m.
  cbv zeta.
  set (ch := match fm_format f with Some x => Some x | None => _ end). clearbody ch.
  destruct (fm_mode f).
  - reflexivity.
  - rewrite alone_bind. destruct ch as [x|]; [rewrite alone_fmt_replace|]; reflexivity.
  - rewrite alone_bind. destruct ch as [x|]; [|reflexivity].
    destruct (ph_carrier (fm_number f)), (f_domestic_carrier x), (f_national_prefix x);
      rewrite alone_fmt_replace; reflexivity.
  - rewrite alone_bind. destruct ch as [x|]; [|reflexivity].
    rewrite alone_force, alone_bind, alone_fmt_replace. reflexivity.
Qed.

Lemma held_database : held S_DATABASE = default_db.
Proof. reflexivity. Qed.

Lemma alone_body c : alone (body c) = answer c.
Proof.
  destruct c as [o s|db o s|f|p|p|p|]; cbn [body answer].
  - unfold Api.parse. rewrite alone_force, <- held_database. apply alone_parse_with.
  - apply alone_parse_with.
  - rewrite <- held_database. apply alone_fmt_display.
  - unfold Api.is_valid. rewrite alone_force, <- held_database. apply alone_ret.
  - unfold Api.ph_number_type. rewrite alone_force, <- held_database. apply alone_ret.
  - unfold Api.country_id. rewrite alone_force, <- held_database. apply alone_ret.
  - rewrite alone_force, <- held_database. apply alone_ret.
Qed.

(** ** How many statics a call may read *)

Notation price := (cost held weight).
Lemma price_bind {A B} (p : code A) (g : A -> code B) : price (pbind p g) = price p + price (g (alone p)).
Proof. induction p as [a|k f IH]; cbn; [reflexivity|rewrite IH; lia]. Qed.
Lemma price_mbind {E A B} (m : code (outcome E A)) (f : A -> code (outcome E B)) n n' k :
  n + n' <= k -> price m <= n -> (forall a, price (f a) <= n') -> price (mbind m f) <= k.
Proof.
  intros Hk H1 H2. unfold mbind. rewrite price_bind. destruct (alone m) as [a| |]; cbn; [specialize (H2 a)| |]; lia.
Qed.
Lemma price_force {A} k (f : val k -> code A) n m :
  weight k + n <= m -> (forall v, price (f v) <= n) -> price (Force k f) <= m.
Proof. intros Hm H. cbn. specialize (H (held k)). lia. Qed.

Lemma price_extract s : price (m_extract s) <= 6.
Proof.
  unfold m_extract. apply (price_force _ _ 4); [cbn; lia|]. intros v. destruct (re_find v s); [|cbn; lia].
  apply (price_mbind _ _ 0 4); [lia|cbn; lia|]. intros r1. apply (price_force _ _ 2); [cbn; lia|]. intros v2.
  apply (price_mbind _ _ 0 2); [lia|cbn; lia|]. intros r2. apply (price_force _ _ 0); [cbn; lia|]. intros v3.
  apply (price_mbind _ _ 0 0); [lia|cbn; lia|]. intros [|x r3]; [cbn; lia|].
  apply (price_mbind _ _ 0 0); [lia| |]; cbn; lia.
Qed.

Lemma price_p_phone_number s : price (m_p_phone_number s) <= 12.
Proof.
  unfold m_p_phone_number. destruct (rfc3966 s); [cbn; lia|].
  rewrite price_bind. enough (price (m_natural s) <= 6 + 6) by (cbn [cost]; lia).
  apply (price_mbind _ _ 6 6); [lia|apply price_extract|]. intros i.
  apply (price_force _ _ 0); [cbn; lia|]. intros v. destruct (re_find v i) as [c|]; [|cbn; lia].
  destruct (cap_get c 2); [|cbn; lia]. apply (price_mbind _ _ 0 0); [lia| |]; cbn; lia.
Qed.

Lemma price_international_prefix idd n : price (m_international_prefix idd n) <= 8.
Proof.
  unfold m_international_prefix. apply (price_force _ _ 6); [cbn; lia|]. intros v.
  destruct (re_is_match v (pn_national n)).
  - apply (price_force _ _ 0); [cbn; lia|]. intros; cbn; lia.
  - cbn; lia.
Qed.

Lemma price_parse_with db country s : price (m_parse_with db country s) <= 22.
Proof.
  unfold m_parse_with. apply (price_mbind _ _ 12 10); [lia|apply price_p_phone_number|]. intros n.
  destruct (negb (is_viable (pn_national n))); [cbn; lia|].
  apply (price_mbind _ _ 10 0); [lia| |].
  - unfold m_country_code. destruct country as [c|].
    + apply (price_mbind _ _ 8 0); [lia|apply price_international_prefix|intros; cbn; lia].
    + apply (price_force _ _ 8); [cbn; lia|]. intros v.
      apply (price_mbind _ _ 8 0); [lia|apply price_international_prefix|intros; cbn; lia].
  - intros n1. apply (price_mbind _ _ 0 0); [lia|cbn; lia|]. intros m.
    apply (price_mbind _ _ 0 0); [lia| |]; intros; cbn; lia.
Qed.

Lemma price_fmt_replace s m f t c : price (m_fmt_replace s m f t c) <= 4.
Proof.
  unfold m_fmt_replace. apply (price_mbind _ _ 4 0); [lia| |intros; cbn; lia].
  destruct t; [|cbn; lia]. apply (price_force _ _ 2); [cbn; lia|]. intros v.
  apply (price_mbind _ _ 0 2); [lia|cbn; lia|]. intros m1.
  apply (price_mbind _ _ 0 2); [lia|cbn; lia|]. intros g. cbn. lia.
Qed.

Lemma price_fmt_display f : price (m_fmt_display f) <= 8.
Proof.
  unfold m_fmt_display. apply (price_force _ _ 6); [cbn; lia|]. intros d.
  apply (price_mbind _ _ 0 6); [lia|cbn; lia|]. intros m.
  cbv zeta.
  set (ch := match fm_format f with Some x => Some x | None => _ end). clearbody ch.
  destruct (fm_mode f); [cbn; lia| | |].
  - apply (price_mbind _ _ 6 0); [lia| |intros; cbn; lia].
    destruct ch; [etransitivity; [apply price_fmt_replace|lia]|cbn; lia].
  - apply (price_mbind _ _ 6 0); [lia| |intros; cbn; lia]. destruct ch as [x|]; [|cbn; lia].
    destruct (ph_carrier (fm_number f)), (f_domestic_carrier x), (f_national_prefix x);
      (etransitivity; [apply price_fmt_replace|lia]).
  - apply (price_mbind _ _ 6 0); [lia| |intros; cbn; lia]. destruct ch as [x|]; [|cbn; lia].
    apply (price_force _ _ 4); [cbn; lia|]. intros v.
    apply (price_mbind _ _ 4 0); [lia|apply price_fmt_replace|intros; cbn; lia].
Qed.

Lemma price_body c : price (body c) <= 24.
Proof.
  destruct c as [o s|db o s|f|p|p|p|]; cbn [body].
  - apply (price_force _ _ 22); [cbn; lia|]. intros d. apply price_parse_with.
  - etransitivity; [apply price_parse_with|lia].
  - etransitivity; [apply price_fmt_display|lia].
  - apply (price_force _ _ 0); [cbn; lia|]. intros d. apply le_n.
  - apply (price_force _ _ 0); [cbn; lia|]. intros d. apply le_n.
  - apply (price_force _ _ 0); [cbn; lia|]. intros d. apply le_n.
  - apply (price_force _ _ 0); [cbn; lia|]. intros d. apply le_n.
Qed.

(** ** The claims *)

Lemma reach_good ls p :
  run start ls p -> pgood body held rank 3 p.
Proof.
  intros R. eapply run_good; [exact init_held|exact init_rank|exact init_weight|exact rank_top|apply start_good|exact R].
Qed.

(** Whatever the other threads do and however the turns fall, a call returns
    what it returns in a program with a single thread. *)
Theorem C47_same_answers : forall ls p i c r,
  run start ls p -> In (Returned i c r) ls -> r = answer c.
Proof.
  intros ls p i c r R H. rewrite <- alone_body.
  eapply run_results; [exact init_held|exact init_rank|exact init_weight|exact rank_top|apply start_good|exact R|exact H].
Qed.

(** No static is filled twice; in particular the built-in metadata is decoded
    at most once in a program. *)
Theorem C47_filled_once : forall l1 a l2 b l3 p k,
  run start (l1 ++ a :: l2 ++ b :: l3) p -> fills_static k a -> ~ fills_static k b.
Proof.
  intros l1 a l2 b l3 p k R Ha.
  exact (run_once cell_dec init body crash held rank weight init_held init_rank init_weight 3 rank_top
           _ _ _ l1 a l2 b l3 k (start_good body held rank 3) R eq_refl Ha).
Qed.

(** No static is ever left unusable, and one that is filled holds its value
    for the rest of the program. *)
Theorem C47_statics : forall ls p k,
  run start ls p ->
  fst p k = Empty \/ fst p k = Busy \/ fst p k = Ready (held k).
Proof.
  intros ls p k R. destruct (reach_good _ _ R) as (Hs & _). specialize (Hs k).
  destruct (fst p k) as [| |v|]; auto; [|destruct Hs]. subst v. auto.
Qed.

(** No deadlock: while some thread is inside a call, the library can make a step. *)
Theorem C47_no_deadlock : forall ls p c t,
  run start ls p -> In (Inside c t) (snd p) -> exists l p', pstep p l p' /\ library_step l.
Proof.
  intros ls p c t R Hin.
  exact (progress cell_dec init body crash held rank weight init_held init_rank init_weight 3 rank_top _ c t (reach_good _ _ R) Hin).
Qed.

Lemma pending_eq ws : pending ws = LazyFacts.pending ws.
Proof. unfold LazyFacts.pending. induction ws as [|[|c t] ws IH]; cbn; auto. Qed.

(** No endless waiting: if no new calls are made, the library makes at most 25
    more steps for each call under way, in whatever order the turns fall. *)
Theorem C47_bounded : forall ls p ls' p',
  run start ls p -> run p ls' p' -> (forall l, In l ls' -> library_step l) ->
  length ls' <= 25 * pending (snd p).
Proof.
  intros ls p ls' p' R R' Ho. pose proof (reach_good _ _ R) as G.
  assert (B : length ls' + total held weight (snd p') <= total held weight (snd p)).
  { eapply own_bounded; [exact init_held|exact init_rank|exact init_weight|exact rank_top|exact G|exact R'|exact Ho]. }
  assert (D : total held weight (snd p) <= (1 + 24) * LazyFacts.pending (snd p)).
  { apply (total_pending body crash held weight 24 price_body). intros w Hw.
    eapply (pending_cost cell_dec init body crash held rank weight init_held init_rank init_weight 3 rank_top 24 price_body);
      [apply start_good|exact R| |exact Hw]. intros x []. }
  rewrite pending_eq. lia.
Qed.

(** Hence every call under way returns: a run of library steps that cannot be
    continued has left no thread inside a call. *)
Theorem C47_all_return : forall ls p,
  run start ls p ->
  (forall l p', pstep p l p' -> ~ library_step l) -> forall w, In w (snd p) -> w = Away.
Proof.
  intros ls p R H [|c t] Hin; [reflexivity|].
  destruct (C47_no_deadlock _ _ _ _ R Hin) as (l & p' & St & Hl). destruct (H _ _ St Hl).
Qed.

(** ** Examples *)

(** Two threads parse "xyz" at once: both need the same static, the second one
    has to wait while the first one fills it, and both get the same answer. *)
Definition xyz : call := C_parse_with db_empty None (lit "xyz").
Example C47_race : exists p,
  run start [Spawned; Spawned; Began 0 xyz; Began 1 xyz;
             Stepped 0 (Some S_VALID_START_CHAR); Stepped 0 None; Stepped 1 None;
             Returned 1 xyz (Err NoNumber); Returned 0 xyz (Err NoNumber)] p.
Proof.
  eexists.
  eapply run_cons; [apply ps_spawn|]. eapply run_cons; [apply ps_spawn|].
  eapply run_cons; [apply ps_begin; reflexivity|]. eapply run_cons; [apply ps_begin; reflexivity|].
  eapply run_cons; [eapply ps_step; [reflexivity|reflexivity]|].
  eapply run_cons; [eapply ps_step; [reflexivity|reflexivity]|].
  eapply run_cons; [eapply ps_step; [reflexivity|reflexivity]|].
  eapply run_cons; [eapply ps_return; [reflexivity|reflexivity]|].
  eapply run_cons; [eapply ps_return; [reflexivity|reflexivity]|].
  apply run_nil.
Qed.

Example C47_waits :
  Lazy.step cell cell_dec val init (set cell_dec (fun _ => Empty) S_VALID_START_CHAR Busy) (Run (body xyz)) = None.
Proof. reflexivity. Qed.

(** The machine can deadlock: two statics whose closures read each other, and
    two threads that each start from another one, end up waiting forever.  So
    [C47_no_deadlock] does say something about the statics of Shared.v. *)
Definition cross (b : bool) : prog bool (fun _ => nat) (option nat) :=
  Force (negb b) (fun v => Ret (Some v)).
Definition cross_body (b : bool) : prog bool (fun _ => nat) nat := Force b (fun v => Ret v).
Definition cross_run :=
  Lazy.run bool Bool.bool_dec (fun _ => nat) cross bool (fun _ => nat) cross_body (fun _ => 0).
Example C47_deadlock_possible : exists p,
  cross_run (Lazy.start bool (fun _ => nat) bool (fun _ => nat))
    [Spawned; Spawned; Began 0 true; Began 1 false; Stepped 0 (Some true); Stepped 1 (Some false)] p
  /\ forall i c t, nth_error (snd p) i = Some (Inside c t) ->
       Lazy.step bool Bool.bool_dec (fun _ => nat) cross (fst p) t = None
       /\ @finished bool (fun _ => nat) bool (fun _ => nat) (fun _ => 0) c t = None.
Proof.
  eexists. split.
  - eapply run_cons; [apply ps_spawn|]. eapply run_cons; [apply ps_spawn|].
    eapply run_cons; [apply ps_begin; reflexivity|]. eapply run_cons; [apply ps_begin; reflexivity|].
    eapply run_cons; [eapply ps_step; [reflexivity|reflexivity]|].
    eapply run_cons; [eapply ps_step; [reflexivity|reflexivity]|].
    apply run_nil.
  - intros [|[|[|i]]] c t H; cbn in H; try discriminate; inversion H; split; reflexivity.
Qed.
