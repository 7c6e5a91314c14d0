(** * Vocabulary: html documents with unknown tags that survive the way to creole and back

    Documents of Spec5.v and Spec12.v in whose paragraphs there may also be elements with tags
    creole has no mark for.  Nothing here refers to the parsers or to the emitters. *)
From Coq Require Import String List Arith NArith ZArith Bool.
From Verif Require Import PyStr Utils HtmlTok Spec2 Spec4 Spec5 Spec7 Spec10 Spec11 Spec12 Spec20 Spec22 Spec24.
Import ListNotations.
Open Scope N_scope.

(** a part of a line: what creole knows, or an element around such parts *)
Inductive rich := RPlain (i : inl) | RElem (t : str) (a : attrs) (body : list inl).
Inductive rpart := RBlock (b : block) | RPara (lines : list (list rich)).

(** ** The html document it is *)
Definition rich_x (x : rich) : list xinl := match x with RPlain i => to_x i | RElem t a body => [XFace t a (to_xs body)] end.
Fixpoint rich_xlines (l : list (list rich)) : list xinl :=
  match l with [] => [] | [x] => flat_map rich_x x | x :: r => flat_map rich_x x ++ XBreak :: rich_xlines r end.
Definition rpart_x (p : rpart) : xblock := match p with RBlock b => to_xblock b | RPara lines => XPara (rich_xlines lines) end.

(** ** The creole it is: the tags are texts of the macro html *)
Definition start_tag (t : str) (a : attrs) : str := $ "<" ++ t ++ attrs_text a ++ $ ">".
Definition empty_tag (t : str) (a : attrs) : str := $ "<" ++ t ++ attrs_text a ++ $ " />".
Definition end_tag (t : str) : str := $ "</" ++ t ++ $ ">".
Definition raw (s : str) : bit := Around (mkmc ($ "html") [] s).
Definition rich_bits (x : rich) : list bit :=
  match x with
  | RPlain i => [Plain i]
  | RElem t a [] => [raw (empty_tag t a)]
  | RElem t a body => raw (start_tag t a) :: map Plain body ++ [raw (end_tag t)]
  end.
Definition rpart_creole (p : rpart) : part2 := match p with RBlock b => QBlock b | RPara lines => QPara (map (flat_map rich_bits) lines) end.

(** ** The html it is shown as *)
Definition rich_html (strict : bool) (x : rich) : str :=
  match x with
  | RPlain i => html_inl strict br i
  | RElem t a [] => empty_tag t a
  | RElem t a body => start_tag t a ++ html_inls strict br body ++ end_tag t
  end.
Fixpoint rich_lines (strict : bool) (l : list (list rich)) : str :=
  match l with [] => [] | [x] => flat_map (rich_html strict) x | x :: r => flat_map (rich_html strict) x ++ br ++ rich_lines strict r end.
Definition rpart_html (blog strict : bool) (p : rpart) : str :=
  match p with RBlock b => html_block blog strict b | RPara lines => elem ($ "p") (rich_lines strict lines) end.
Definition rgap (p : rpart) : str := match p with RBlock b => gap b | RPara _ => [10; 10] end.
Fixpoint rdoc_html (blog strict : bool) (d : list rpart) : str :=
  match d with
  | [] => []
  | [p] => rpart_html blog strict p
  | p :: r => rpart_html blog strict p ++ rgap p ++ rdoc_html blog strict r
  end.

(** ** Which documents: neat as in Spec12.v, unambiguous as in Spec22.v *)
Definition rich_beside (x : rich) : side := match x with RPlain i => beside i | RElem _ _ _ => Elem end.
Definition rich_next (r : list rich) : side := match r with [] => Edge | y :: _ => rich_beside y end.
Definition rich_text (r : list rich) : bool := match r with RPlain (IText _) :: _ => true | _ => false end.
Definition rich_neat (before : side) (x : rich) (r : list rich) : bool :=
  match x with
  | RPlain (IText w) => side_ok before (lead w) && side_ok (rich_next r) (trail w) && negb (rich_text r)
  | RPlain i => neat_inl false before i []
  | RElem t a body => inline_tag t && negb (marked t) && negb (str_eqb t ($ "span")) && forallb plain_attr a && attrs_fine a &&
                      inls_ok [] body && neat_inls false Inner body
  end.
Fixpoint rich_neats (s : side) (l : list rich) : bool :=
  match l with [] => true | x :: r => rich_neat s x r && rich_neats (rich_beside x) r end.
Definition rline_neat (l : list rich) : bool :=
  rich_neats Edge l && trimmed (wr_bits (flat_map rich_bits l)) && negb (bits_backslash (flat_map rich_bits l)).
Definition rpart_neat (blog : bool) (p : rpart) : bool :=
  match p with
  | RBlock b => neat_block blog b
  | RPara lines => forallb rline_neat lines && (blog || Nat.eqb (List.length lines) 1)
  end.
Definition rich_follow (p q : rpart) : bool := match p, q with RBlock b, RBlock c => may_follow b c | _, _ => true end.
Fixpoint rdoc_neat (blog : bool) (d : list rpart) : bool :=
  match d with
  | [] => true
  | p :: r => rpart_neat blog p && match r with q :: _ => rich_follow p q | [] => true end && rdoc_neat blog r
  end.
Definition rdoc_ok (blog : bool) (d : list rpart) : bool := rdoc_neat blog d && parts_ok blog (map rpart_creole d).

(** ** Documents whose html is shown as it was: no empty elements, the attributes in the order of
    their names and nothing to escape in their values *)
Fixpoint in_order (l : list str) : bool :=
  match l with a :: ((b :: _) as r) => name_before a b && in_order r | _ => true end.
Definition steady_attr (kv : str * pyval) : bool := match snd kv with VStr v => no_char [38; 60; 62] v | _ => false end.
Definition rich_steady (x : rich) : bool :=
  match x with RPlain _ => true | RElem _ a body => negb (is_nil body) && in_order (map fst a) && forallb steady_attr a end.
Definition rpart_steady (p : rpart) : bool := match p with RBlock _ => true | RPara lines => forallb (forallb rich_steady) lines end.
Definition rdoc_steady (d : list rpart) : bool := forallb rpart_steady d.
