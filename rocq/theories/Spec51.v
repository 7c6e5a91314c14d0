(** * Specification vocabulary for C63: the addresses a document tree mentions *)
From Coq Require Import String List NArith.
From Verif Require Import PyStr Utils HtmlParser.
Import ListNotations.

(** the values of the attribute [key] in all elements named [tag]; [None] for an attribute
    without value *)
Definition text_of (v : pyval) : option str := match v with VStr s => Some s | _ => None end.
Fixpoint addresses (tag key : str) (n : hnode) : list (option str) :=
  let 'HN k _ a _ ch := n in
  (if str_eqb k tag then match dict_get key a with Some v => [text_of v] | None => [] end else []) ++
  flat_map (addresses tag key) ch.
