(** * Abbreviations used by the generated event lists *)
From Verif Require Import Base CountryId Types Metadata Loader.

Definition mk_attrs (l : list (bstr * bstr)) : list attr :=
  map (fun kv => Some (lit (fst kv), lit (snd kv))) l.
Definition st (n : bstr) (a : list (bstr * bstr)) : list event := [EvStart (lit n) (mk_attrs a)].
Definition en (n : bstr) : list event := [EvEnd (lit n)].
Definition em (n : bstr) (a : list (bstr * bstr)) : list event := [EvEmpty (lit n) (mk_attrs a)].
Definition tx (n t : bstr) : list event := [EvStart (lit n) []; EvText (lit t); EvEnd (lit n)].
Arguments st n%bstr a%bstr.
Arguments en n%bstr.
Arguments em n%bstr a%bstr.
Arguments tx n%bstr t%bstr.
