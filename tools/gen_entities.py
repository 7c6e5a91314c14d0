#!/usr/bin/env python3
"""Generate theories/Entities.v: the tables html.entities.name2codepoint and
html.entities.html5 and the charref replacements of html.unescape (Python 3.11.10)."""
import html, html.entities as e
print("""(** Generated by tools/gen_entities.py from the standard library (html/entities.py,
    html/__init__.py).  Do not edit. *)
From Coq Require Import String List NArith.
Import ListNotations.
Local Open Scope N_scope.
Local Open Scope string_scope.
""")
print("(** html.entities.name2codepoint *)\nDefinition name2codepoint_tab : list (string * N) := [")
print(";\n".join('  ("%s", %d)'%(k,v) for k,v in sorted(e.name2codepoint.items())))
print("].\n\n(** html.entities.html5 *)\nDefinition html5_tab : list (string * list N) := [")
print(";\n".join('  ("%s", [%s])'%(k,"; ".join(str(ord(c)) for c in v)) for k,v in sorted(e.html5.items())))
print("].\n\n(** html._invalid_charrefs *)\nDefinition invalid_charrefs_tab : list (N * N) := [")
print(";\n".join('  (%d, %d)'%(k,ord(v)) for k,v in sorted(html._invalid_charrefs.items())))
print("].\n\n(** html._invalid_codepoints *)\nDefinition invalid_codepoints_tab : list N := [")
print("  "+"; ".join(str(k) for k in sorted(html._invalid_codepoints)))
print("].")
