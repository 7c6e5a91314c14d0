#!/usr/bin/env python3
"""Generate theories/Conf_url.v: results of urllib.parse (standard library only) for random
URLs: urlunparse of urlparse with the path replaced by its quote."""
import random
from urllib.parse import urlparse, urlunparse, quote, ParseResult
from gen_tokconf_q import q
random.seed(7)
A=["http","https","ftp","mailto","x-y","news",":","//","/","a","b c","?","#",";","é","€","\U0001F600","%","%20","~","_","-",".","foo.tld","@","&","="," ","\t","\n","A","1","+","javascript","[","]","!","'"]
print("""(** Generated by tools/gen_urlconf.py.  Do not edit. *)
From Coq Require Import String List NArith ZArith Bool.
From Verif Require Import PyStr Utils Res UrlQuote.
Import ListNotations.
Open Scope N_scope.
Definition cases : list (str * option str) := [""")
o=[];n=0
while n<300:
    s="".join(random.choice(A) for _ in range(random.randint(1,9)))
    try:
        u=urlparse(s)
        if "[" in u.netloc or not u.netloc.isascii(): continue
        r="Some "+q(urlunparse(ParseResult(u[0],u[1],quote(u[2]),u[3],u[4],u[5])))
    except ValueError as e:
        if "Invalid IPv6 URL" not in str(e): continue
        r="None"
    n+=1; o.append("  (%s, %s)"%(q(s),r))
print(";\n".join(o)+"].")
print("""
Definition ok (c : str * option str) : bool :=
  match quote_link (VStr (fst c)), snd c with
  | Ok r, Some e => str_eqb r e
  | Exc EValueError, None => true
  | _, _ => false
  end.
Example conf_quote_link : forallb ok cases = true.
Proof. vm_compute. reflexivity. Qed.""")
