#!/usr/bin/env python3
"""Writes rocq/theories/CountryId.v from the enum Id of /repo/src/country.rs."""
import re,os
src=open('/repo/src/country.rs').read().split('\n')
a=next(i for i,l in enumerate(src) if l.startswith('pub enum Id {'))
ids=[];i=a+1
while src[i]!='}':
    m=re.match(r'\s+([A-Z]{2}),$',src[i])
    assert m,src[i]
    ids.append(m.group(1)); i+=1
assert len(ids)==len(set(ids))
def wrap(items,sep,n=12):
    return "\n".join("  "+sep.join(items[k:k+n])+(sep.rstrip() if k+n<len(items) else "") for k in range(0,len(items),n))
p=os.path.join(os.path.dirname(os.path.abspath(__file__)),"../rocq/theories/CountryId.v")
with open(p,'w') as f:
    f.write("(** Generated by tools/gen_country.py: the enum [country::Id]\n    (/repo/src/country.rs:%d-%d), [AsRef<str>] and [FromStr] as derived by strum\n    (the variant name, compared exactly). *)\nFrom Verif Require Import Base.\n\n"%(a+1,i+1))
    f.write("Inductive id :=\n"+"\n".join("".join(" | ID_"+x for x in ids[k:k+12]) for k in range(0,len(ids),12))+".\n\n")
    f.write("(** [Id::as_ref] *)\nDefinition id_name (i : id) : str :=\n  match i with\n"+"\n".join('  | ID_%s => lit "%s"'%(x,x) for x in ids)+"\n  end.\n\n")
    f.write("Definition all_ids : list id := [\n"+wrap(["ID_"+x for x in ids],"; ")+"].\n\n")
    f.write("(** Position in the enum. *)\nDefinition id_index (i : id) : nat :=\n  match i with\n"+"\n".join('  | ID_%s => %d'%(x,k) for k,x in enumerate(ids))+"\n  end.\n\n")
    f.write("""Lemma all_ids_nth : forall i, nth_error all_ids (id_index i) = Some i.
Proof. destruct i; reflexivity. Qed.

Lemma all_ids_complete : forall i, In i all_ids.
Proof. intros i. apply (nth_error_In all_ids (id_index i)), all_ids_nth. Qed.

Fixpoint id_find (s : str) (l : list id) : option id :=
  match l with
  | [] => None
  | i :: l' => if str_eqb (id_name i) s then Some i else id_find s l'
  end.

(** [str::parse::<Id>()] *)
Definition id_of_name (s : str) : option id := id_find s all_ids.
""")
print(len(ids),a+1,i+1)
