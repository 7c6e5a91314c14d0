(** * Specification vocabulary for C63: html documents every converter can deal with

    Only document trees are used, not the converters. *)
From Coq Require Import String List Arith NArith ZArith Bool.
From Verif Require Import PyStr Utils Res HtmlTools HtmlParser Spec14.
Import ListNotations.
Open Scope N_scope.

Inductive format := Creole | Textile | Markdown | Rest.
Definition is_format (a b : format) : bool :=
  match a, b with Creole, Creole | Textile, Textile | Markdown, Markdown | Rest, Rest => true | _, _ => false end.

(** ** Text *)
Definition decodes (r : res str) : bool := match r with Ok _ => true | Exc _ => false end.
Definition sound_text (f : format) (kind : str) (content : option str) : bool :=
  match content with
  | None => false
  | Some t =>
    if str_eqb kind ($ "charref") then
      decodes (match t with 120 :: hex => replace_hex hex | _ => replace_number t end)
    else if in_list [$ "blockdata_pre"; $ "inlinedata_pre"] kind then
      decodes (replace_all t) && (no_code_tag t || negb (is_format f Markdown))
    else true
  end.

(** ** Attributes *)
Definition value_of (k : str) (a : pydict) : option pyval := dict_get k a.
Definition present (k : str) (a : pydict) : bool := match value_of k a with Some _ => true | None => false end.
(** an attribute without a value, as in [<img alt>] *)
Definition valueless (k : str) (a : pydict) : bool :=
  match value_of k a with Some (VStr _) | None => false | Some _ => true end.
(** an address without brackets and surrogates *)
Definition plain_address (k : str) (a : pydict) : bool :=
  match value_of k a with
  | Some (VStr s) => forallb (fun c => negb ((c =? 91) || (c =? 93) || ((55296 <=? c) && (c <=? 57343)))) s
  | _ => true
  end.
Definition sound_img (f : format) (a : pydict) : bool :=
  present ($ "src") a &&
  if is_format f Markdown then plain_address ($ "src") a
  else negb (valueless ($ "src") a) && negb (valueless ($ "alt") a) && negb (valueless ($ "title") a).
Definition sound_link (f : format) (a : pydict) : bool :=
  is_format f Creole || (present ($ "href") a && (plain_address ($ "href") a || negb (is_format f Markdown))).

(** ** Nodes *)
Definition sound_level (f : format) (l : option Z) : bool :=
  match l with None => false | Some z => negb (is_format f Rest) || (0 <? z)%Z end.
Definition sound_item (f : format) (parent : str) (l : option Z) : bool :=
  match f with
  | Creole | Textile => true
  | Markdown => in_list [$ "ul"; $ "ol"] parent && match l with Some _ => true | None => false end
  | Rest => match l with Some _ => true | None => false end
  end.
(** one element: [inside] a table, with this parent *)
Definition sound_element (f : format) (inside : bool) (parent k : str) (a : pydict) (l : option Z) : bool :=
  if str_eqb k ($ "img") then sound_img f a
  else if str_eqb k ($ "a") then sound_link f a
  else if str_eqb k ($ "headline") then sound_level f l
  else if str_eqb k ($ "li") then sound_item f parent l
  else if in_list [$ "tr"; $ "th"; $ "td"] k then inside
  else true.
Fixpoint sound (f : format) (inside : bool) (parent : str) (n : hnode) : bool :=
  let 'HN k c a l ch := n in
  if in_list text_kinds k then sound_text f k c
  else sound_element f inside parent k a l &&
       (in_list void_kinds k || forallb (sound f (inside || str_eqb k ($ "table")) k) ch).
