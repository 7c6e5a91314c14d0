#!/usr/bin/env python3
"""Generate theories/Conf_tok.v: random texts and the handler calls that the standard
library's HTMLParser makes for them (convert_charrefs=False, feed without close), and
results of html.unescape.  Only the standard library is executed."""
import random, html
from html.parser import HTMLParser
random.seed(20)
class P(HTMLParser):
    def __init__(s): super().__init__(convert_charrefs=False); s.t=[]
    def handle_starttag(s,t,a): s.t.append(("TStart",t,a))
    def handle_startendtag(s,t,a): s.t.append(("TStartEnd",t,a))
    def handle_endtag(s,t): s.t.append(("TEnd",t))
    def handle_data(s,d): s.t.append(("TData",d))
    def handle_charref(s,d): s.t.append(("TCharref",d))
    def handle_entityref(s,d): s.t.append(("TEntity",d))
def q(s):
    parts=[];cur=""
    for ch in s:
        if 32<=ord(ch)<127: cur+=ch
        else:
            if cur: parts.append('L "%s"'%cur.replace('"','""')); cur=""
            parts.append("[%d]"%ord(ch))
    if cur: parts.append('L "%s"'%cur.replace('"','""'))
    return "("+(" ++ ".join(parts) or "[]")+")"
def tok(t):
    if len(t)==3:
        return "%s %s [%s]"%(t[0],q(t[1]),"; ".join("(%s, %s)"%(q(k),"VNone" if v is None else "VStr "+q(v)) for k,v in t[2]))
    return "%s %s"%(t[0],q(t[1]))
A=["<","</",">","/>","/"," ","\n","=","'",'"',"a","B","p","h1","x=","y='","z=\"","&","&#","&#x",";","&lt;","&amp","65","41","<p>","</p>","<br/>","<img src=\"u\" />","<!--","-->","--","<!","<?","<![","]]>","]>","cdata[","if","<!DOCTYPE","<script>","</script>","<STYLE >","</ style>","-",".","!","?","[","]","<a href='","'>","é"," ","_",":","foo","<3","&nbsp;","&#65;","&#x41;","&#X41;","&#9","</>","</ p","\x00","\t"]
print("""(** Generated by tools/gen_tokconf.py.  Do not edit.
    The model of html.parser evaluated on random texts, compared with the standard library. *)
From Coq Require Import String List NArith ZArith Bool.
From Verif Require Import PyStr Utils HtmlTok.
Import ListNotations.
Open Scope N_scope.
""")
print("Definition cases : list (str * (list tok * bool)) := [")
out=[];seen=set()
while len(out)<600:
    s="".join(random.choice(A) for _ in range(random.randint(1,14)))
    if s in seen: continue
    seen.add(s)
    p=P(); r="false"
    try: p.feed(s)
    except AssertionError: r="true"
    out.append("  (%s, ([%s], %s))"%(q(s),"; ".join(tok(t) for t in p.t),r))
print(";\n".join(out)); print("].")
print("Definition uncases : list (str * str) := [")
B=["&","#","x","X","amp",";","lt","gt","not","notin","&amp;","&AMP","&notit;","&#0;","&#128;","&#xD800;","&#x1F600;","&#1;","&#65","a","3"," ","<","&nbsp","&frac12;","&acE;","&NotEqualTilde;","zz"]
o=[]
for _ in range(150):
    s="".join(random.choice(B) for _ in range(random.randint(1,7)))
    o.append("  (%s, %s)"%(q(s),q(html.unescape(s))))
print(";\n".join(o)); print("].")
print("""
Definition str_dec : forall a b : str, {a = b} + {a <> b} := list_eq_dec N.eq_dec.
Definition pyval_dec : forall a b : pyval, {a = b} + {a <> b}.
Proof. decide equality; auto using str_dec, Z.eq_dec, bool_dec. Defined.
Definition tok_dec : forall a b : tok, {a = b} + {a <> b}.
Proof. decide equality; auto using str_dec; apply list_eq_dec; decide equality; auto using str_dec, pyval_dec. Defined.
Definition res_dec : forall a b : list tok * bool, {a = b} + {a <> b}.
Proof. decide equality; auto using bool_dec; apply list_eq_dec, tok_dec. Defined.

Example conf_tokens : forallb (fun c => if res_dec (tokens (fst c)) (snd c) then true else false) cases = true.
Proof. vm_compute. reflexivity. Qed.
Example conf_unescape : forallb (fun c => if str_dec (unescape (fst c)) (snd c) then true else false) uncases = true.
Proof. vm_compute. reflexivity. Qed.""")
