#!/usr/bin/env python3
"""Generate theories/UniTab.v: Unicode tables used by `re` ([\\w], [\\d]) and int()."""
import sys, unicodedata
def ranges(p):
    out=[];lo=None
    for c in range(0x110000):
        if p(c):
            if lo is None: lo=c
        elif lo is not None:
            out.append((lo,c-1)); lo=None
    if lo is not None: out.append((lo,0x10ffff))
    return out
def show(name, rs, doc):
    print("(** %s *)" % doc)
    print("Definition %s : list (N * N) :=" % name)
    print("  [" + ";\n   ".join("; ".join("(%d,%d)"%r for r in rs[i:i+8]) for i in range(0,len(rs),8)) + "].\n")
print("(** Generated by tools/gen_unitab.py from Python's unicodedata %s. Do not edit. *)" % unicodedata.unidata_version)
print("From Coq Require Import List NArith.\nImport ListNotations.\nOpen Scope N_scope.\n")
show("word_ranges", ranges(lambda c: chr(c).isalnum() or c==95), "[\\w] in a str pattern: isalnum() or underscore")
# decimal digits: runs of ten consecutive code points starting at a zero
dec=[c for c in range(0x110000) if unicodedata.decimal(chr(c),None) is not None]
zeros=[c for c in dec if unicodedata.decimal(chr(c))==0]
for z in zeros:
    for i in range(10): assert unicodedata.decimal(chr(z+i))==i
assert len(dec)==10*len(zeros)
print("(** code points of the digit zero of every decimal digit run ([\\d], int()) *)")
print("Definition digit_zeros : list N :=\n  [" + "; ".join(map(str,zeros)) + "].")
for c in range(0x110000):
    s=chr(c).isspace()
    t= 9<=c<=13 or 28<=c<=32 or c in (133,160,5760,8232,8233,8239,8287,12288) or 8192<=c<=8202
    assert s==t
