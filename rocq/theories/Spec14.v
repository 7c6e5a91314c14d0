(** * Specification vocabulary for C62: the text of an html document

    Only document trees are used, not the converters. *)
From Coq Require Import String List Arith NArith ZArith Bool.
From Verif Require Import PyStr Res HtmlTools HtmlParser.
Import ListNotations.
Open Scope N_scope.

(** the characters that count: neither white space nor backslashes (a converter writes line
    breaks as two backslashes and removes those at the ends of a cell) *)
Definition ink (c : N) : bool := negb (is_space c || (c =? 92)).
Definition inked (s : str) : str := filter ink s.

(** what a decoding yields, nothing if it fails *)
Definition ok_or_nil (r : res str) : str := match r with Ok t => t | Exc _ => [] end.
(** the text a node has of its own.  C25 and C26 say what the references mean. *)
Definition own_text (kind content : str) : str :=
  if in_list [$ "data"; $ "blockdata_pass"] kind then content
  else if str_eqb kind ($ "entityref") then
    match replace_named content with Ok t => t | Exc _ => 38 :: content end
  else if str_eqb kind ($ "charref") then
    ok_or_nil (match content with 120 :: hex => replace_hex hex | _ => replace_number content end)
  else ok_or_nil (replace_all content).
Definition text_kinds : list str :=
  [ $ "data"; $ "entityref"; $ "charref"; $ "blockdata_pass"; $ "blockdata_pre"; $ "inlinedata_pre" ].
(** the text of a document tree, in document order *)
Fixpoint htext (n : hnode) : str :=
  let 'HN k c _ _ ch := n in
  if in_list text_kinds k then match c with Some t => own_text k t | None => [] end
  else flat_map htext ch.

(** ** Documents whose text is kept *)
Definition void_kinds : list str := [ $ "br"; $ "hr"; $ "img" ].
Definition table_kinds : list str := [ $ "table"; $ "tr"; $ "th"; $ "td" ].
Section Kept.
  Variable ok_pre : str -> bool.       (* a condition on the preformatted areas inside of lines *)
  Definition ok_text (k : str) (c : option str) : bool :=
    if str_eqb k ($ "inlinedata_pre") then match c with Some t => ok_pre t | None => true end else true.
  (** no tables; rules, images and line breaks have no content *)
  Fixpoint kept_flat (n : hnode) : bool :=
    let 'HN k c _ _ ch := n in
    if in_list text_kinds k then ok_text k c
    else if in_list void_kinds k then match ch with [] => true | _ => false end
    else negb (in_list table_kinds k) && forallb kept_flat ch.
  (** a table consists of rows with the same number of cells; no tables in cells *)
  Definition kept_cell (n : hnode) : bool :=
    let 'HN k _ _ _ ch := n in in_list [$ "th"; $ "td"] k && forallb kept_flat ch.
  Definition kept_row (width : nat) (n : hnode) : bool :=
    let 'HN k _ _ _ ch := n in str_eqb k ($ "tr") && Nat.eqb (List.length ch) width && forallb kept_cell ch.
  Definition kept_rows (rows : list hnode) : bool :=
    match rows with
    | [] => true
    | HN _ _ _ _ first :: _ => forallb (kept_row (List.length first)) rows
    end.
  Fixpoint kept (n : hnode) : bool :=
    let 'HN k c _ _ ch := n in
    if in_list text_kinds k then ok_text k c
    else if in_list void_kinds k then match ch with [] => true | _ => false end
    else if str_eqb k ($ "table") then kept_rows ch
    else negb (in_list table_kinds k) && forallb kept ch.
End Kept.
Definition any_pre (_ : str) : bool := true.
(** not the form [<pre><code>...</code></pre>] *)
Definition no_code_tag (t : str) : bool := negb (endswith ($ "</code>") t).
