(** * RegexLang: what a regular expression means

    A specification of matching that does not mention the matcher:
    [lang r b t a] says that [r] matches the text [t] standing between the text
    [b] before it and the text [a] after it ([^] needs [b] empty, [$] needs [a]
    empty). *)
From Verif Require Import Base Unicode Regex.

Inductive lang : re -> str -> str -> str -> Prop :=
| L_eps : forall b a, lang REps b [] a
| L_cls : forall c x b a, in_cls c x = true -> lang (RCls c) b [x] a
| L_cat : forall r1 r2 b t1 t2 a,
    lang r1 b t1 (t2 ++ a) -> lang r2 (b ++ t1) t2 a -> lang (RCat r1 r2) b (t1 ++ t2) a
| L_alt1 : forall r1 r2 b t a, lang r1 b t a -> lang (RAlt r1 r2) b t a
| L_alt2 : forall r1 r2 b t a, lang r2 b t a -> lang (RAlt r1 r2) b t a
| L_rep : forall g mn mx r n b t a,
    mn <= n -> match mx with Some k => n <= Nat.max mn k | None => True end ->
    langs r n b t a -> lang (RRep g mn mx r) b t a
| L_grp : forall i r b t a, lang r b t a -> lang (RGrp i r) b t a
| L_start : forall a, lang RStart [] [] a
| L_end : forall b, lang REnd b [] []
(** [n] matches of [r] one after the other *)
with langs : re -> nat -> str -> str -> str -> Prop :=
| LS_0 : forall r b a, langs r 0 b [] a
| LS_S : forall r n b t1 t2 a,
    lang r b t1 (t2 ++ a) -> langs r n (b ++ t1) t2 a -> langs r (S n) b (t1 ++ t2) a.

Scheme lang_ind2 := Induction for lang Sort Prop
  with langs_ind2 := Induction for langs Sort Prop.
Combined Scheme lang_langs_ind from lang_ind2, langs_ind2.

(** The whole of [s] is matched / a prefix of [s] is matched / some part is. *)
Definition matches_whole (r : re) (s : str) : Prop := lang r [] s [].
Definition matches_prefix (r : re) (s : str) : Prop :=
  exists t a, s = t ++ a /\ lang r [] t a.
Definition matches_somewhere (r : re) (s : str) : Prop :=
  exists b t a, s = b ++ t ++ a /\ lang r b t a.
