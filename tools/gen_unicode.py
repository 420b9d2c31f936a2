#!/usr/bin/env python3
"""Writes rocq/theories/Unicode.v: general-category range tables from Python's unicodedata."""
import unicodedata
def ranges(pred):
    out=[]
    for c in range(0x110000):
        if 0xD800<=c<=0xDFFF: continue
        if pred(unicodedata.category(chr(c))):
            if out and out[-1][1]==c-1: out[-1][1]=c
            else: out.append([c,c])
    return out
def emit(name,doc,rs):
    s="(** %s *)\nDefinition %s : list (N * N) := [\n"%(doc,name)
    items=["(%d,%d)"%tuple(r) for r in rs]
    lines=[]
    for i in range(0,len(items),8): lines.append("  "+"; ".join(items[i:i+8]))
    return s+";\n".join(lines)+"]%N.\n\n"
import os
p=os.path.join(os.path.dirname(os.path.abspath(__file__)),"../rocq/theories/Unicode.v")
with open(p,"w") as f:
    f.write("(** Generated by tools/gen_unicode.py from Unicode %s: general-category tables\n    used by the classes \\d, \\p{Nd}, \\p{N}, \\p{L} of /repo/src/consts.rs:245,297\n    (the tables the [regex] crate ships; its Unicode version may be newer). *)\nFrom Verif Require Import Base.\n\n"%unicodedata.unidata_version)
    f.write(emit("tbl_Nd","decimal digits",ranges(lambda c:c=="Nd")))
    f.write(emit("tbl_N","numbers",ranges(lambda c:c[0]=="N")))
    f.write(emit("tbl_L","letters",ranges(lambda c:c[0]=="L")))
