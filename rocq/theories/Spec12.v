(** * Vocabulary: creole documents that survive the way to html and back

    Documents of Spec4.v and Spec5.v that are written in the way html2creole writes.  Nothing here
    refers to the parsers or to the emitters. *)
From Coq Require Import String List Arith NArith ZArith Bool.
From Verif Require Import PyStr Utils Spec4 Spec5 Spec11.
Import ListNotations.
Open Scope N_scope.

(** what an inline element is for the text beside it *)
Definition beside (i : inl) : side := match i with IText _ => More | IBreak => Edge | _ => Elem end.
Definition next_is (r : list inl) : side := match r with [] => Edge | y :: _ => beside y end.
Definition is_text (r : list inl) : bool := match r with IText _ :: _ => true | _ => false end.
(** text in one piece, with no white space at the ends and at most one space beside an element;
    no free-standing URL, no inline code and no escaped character; links with a text of their
    own, if any, or around images; images with a title and without a size; a line break only where it is written
    with backslashes ([brk]) *)
Fixpoint neat_inl (brk : bool) (before : side) (i : inl) (r : list inl) {struct i} : bool :=
  match i with
  | IText w => side_ok before (lead w) && side_ok (next_is r) (trail w) && negb (is_text r)
  | IFace f body =>
    (fix go (s : side) (l : list inl) : bool :=
       match l with [] => true | x :: r => neat_inl brk s x r && go (beside x) r end) Inner body
  | ILink target text => no_char [34] target && trimmed target && opt_ok (fun x => negb (str_eqb x target)) text
  | IImage target (Some title) None => no_char [34] (target ++ title) && negb (startswith ($ "data:") target || str_eqb target ($ "data"))
  | IBreak => brk
  | IRich target body =>
    no_char [34] target && trimmed target && negb (str_eqb (flat_map wr_inl body) target) &&
    (fix go (s : side) (l : list inl) : bool :=
       match l with [] => true | x :: r => neat_inl brk s x r && go (beside x) r end) Inner body
  | _ => false
  end.
Fixpoint neat_inls (brk : bool) (s : side) (l : list inl) : bool :=
  match l with [] => true | x :: r => neat_inl brk s x r && neat_inls brk (beside x) r end.
Definition ends_in_text (l : list inl) : bool := match rev l with IText _ :: _ => true | _ => false end.
(** an item with a nested list ends in a text *)
Fixpoint neat_item (i : litem) : bool :=
  match i with LI t o sub => neat_inls true Edge t && (is_nil sub || ends_in_text t) && forallb neat_item sub end.
Definition neat_line (l : list inl) : bool := neat_inls false Edge l && trimmed (wr_inls l) && negb (ends_in_backslash l).
Definition neat_block (blog : bool) (b : block) : bool :=
  match b with
  | BPara lines => forallb neat_line lines && (blog || Nat.eqb (List.length lines) 1)
  | BHead n sp t closing => Nat.leb n 6 && str_eqb sp [32] && is_nil closing
  | BRule => true
  | BList o items => forallb neat_item items
  | BCode _ | BTable _ => false
  end.
(** no list directly after a heading *)
Definition may_follow (b c : block) : bool := match b, c with BHead _ _ _ _, BList _ _ => false | _, _ => true end.
Fixpoint neat_doc (blog : bool) (d : list block) : bool :=
  match d with
  | [] => true
  | b :: r => neat_block blog b && match r with c :: _ => may_follow b c | [] => true end && neat_doc blog r
  end.
Definition canonical (blog : bool) (d : list block) : bool := doc_ok blog d && neat_doc blog d.

(** ** The html document a canonical creole document means (other elements are left out) *)
(** the text with its character references *)
Fixpoint refs (w : str) : list xinl :=
  match w with
  | [] => []
  | c :: t =>
    if c =? 38 then XRef (Spec2.Named ($ "amp")) :: refs t
    else if c =? 60 then XRef (Spec2.Named ($ "lt")) :: refs t
    else if c =? 62 then XRef (Spec2.Named ($ "gt")) :: refs t
    else match refs t with XText u :: r => XText (c :: u) :: r | r => XText [c] :: r end
  end.
Fixpoint to_x (i : inl) : list xinl :=
  match i with
  | IText w => refs w
  | IFace f body => [XFace (face_tag f) [] (flat_map to_x body)]
  | ILink target text => [XLink target (refs (or_else text target))]
  | IImage target title _ => [XImage target (or_else title target) (or_else title target)]
  | IBreak => [XBreak]
  | IRich target body => [XLink target (flat_map to_x body)]
  | _ => []
  end.
Definition to_xs (l : list inl) : list xinl := flat_map to_x l.
Fixpoint to_xlines (l : list (list inl)) : list xinl :=
  match l with [] => [] | [x] => to_xs x | x :: r => to_xs x ++ XBreak :: to_xlines r end.
Fixpoint to_xitem (i : litem) : xitem := match i with LI t o sub => XI (to_xs t) o (map to_xitem sub) end.
Definition to_xblock (b : block) : xblock :=
  match b with
  | BPara lines => XPara (to_xlines lines)
  | BHead n _ t _ => XHead n (refs t)
  | BRule | BCode _ | BTable _ => XRule
  | BList o items => XList o (map to_xitem items)
  end.
