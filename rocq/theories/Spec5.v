(** * Vocabulary of the properties of creole documents: blocks

    As in Spec4.v: what is written ([wr_...]), what it means ([html_...]), and which documents
    are unambiguous ([..._ok]). *)
From Coq Require Import String List NArith ZArith Bool.
From Verif Require Import PyStr Utils Spec4.
Import ListNotations.
Open Scope N_scope.

(** an item of a list: its text and the list nested in it (none if [sub] is empty) *)
Inductive litem := LI (text : list inl) (ordered : bool) (sub : list litem).
(** a table cell *)
Record cell := mkcell { is_head : bool; cell_text : list inl }.

Inductive block :=
| BPara (lines : list (list inl))                      (* lines of text *)
| BHead (n : nat) (sp t closing : str)                 (* n times =, white space, title, closing *)
| BRule                                                (* ---- *)
| BCode (lines : list str)                             (* three braces, lines, three braces *)
| BList (ordered : bool) (items : list litem)
| BTable (rows : list (list cell)).

(** ** Writing *)
Fixpoint lines_text (l : list str) : str :=
  match l with
  | [] => []
  | [x] => x
  | x :: r => x ++ [10] ++ lines_text r
  end.
Definition list_mark (ordered : bool) : N := if ordered then 35 else 42.
Fixpoint wr_item (bullets : str) (i : litem) : list str :=
  match i with LI t o sub => (bullets ++ $ " " ++ wr_inls t) :: flat_map (wr_item (bullets ++ [list_mark o])) sub end.
Definition wr_cell (c : cell) : str := $ "|" ++ (if is_head c then $ "=" else []) ++ wr_inls (cell_text c).
Definition wr_row (r : list cell) : str := flat_map wr_cell r ++ $ "|".
Definition wr_block (b : block) : str :=
  match b with
  | BPara lines => lines_text (map wr_inls lines)
  | BHead n sp t closing => repeat 61 n ++ sp ++ t ++ closing
  | BRule => $ "----"
  | BCode lines => lines_text ($ "{{{" :: lines ++ [$ "}}}"])
  | BList o items => lines_text (flat_map (wr_item [list_mark o]) items)
  | BTable rows => lines_text (map wr_row rows)
  end.
(** blocks are separated by an empty line *)
Fixpoint wr_doc (d : list block) : str :=
  match d with
  | [] => []
  | [b] => wr_block b
  | b :: r => wr_block b ++ [10; 10] ++ wr_doc r
  end.

(** ** What is shown *)
Definition tabs (n : nat) : str := repeat 9 n.
Definition list_tag (ordered : bool) : str := if ordered then $ "ol" else $ "ul".
Definition html_list_with (f : litem -> str) (level : nat) (o : bool) (items : list litem) : str :=
  tabs level ++ $ "<" ++ list_tag o ++ $ ">" ++ flat_map f items ++ [10] ++ tabs level ++ $ "</" ++ list_tag o ++ $ ">".
Fixpoint html_item (strict : bool) (level : nat) (i : litem) : str :=
  match i with
  | LI t o sub =>
    [10] ++ tabs (S level) ++ $ "<li>" ++ html_inls strict (br ++ tabs (S level)) t ++
    match sub with
    | [] => []
    | _ => [10] ++ html_list_with (html_item strict (S level)) (S level) o sub
    end ++ $ "</li>"
  end.
Definition html_list (strict : bool) (level : nat) (o : bool) (items : list litem) : str :=
  html_list_with (html_item strict level) level o items.
Definition html_cell (strict : bool) (c : cell) : str :=
  [9] ++ elem (if is_head c then $ "th" else $ "td") (html_inls strict (br ++ [9; 9]) (cell_text c)) ++ [10].
Definition html_row (strict : bool) (r : list cell) : str :=
  $ "<tr>" ++ [10] ++ flat_map (html_cell strict) r ++ $ "</tr>" ++ [10].
Definition ends_in_backslash (l : list inl) : bool := last_is (N.eqb 92) (wr_inls l).
(** lines are joined by a line break or by a space, except after a backslash *)
Fixpoint html_lines (blog strict : bool) (l : list (list inl)) : str :=
  match l with
  | [] => []
  | [x] => html_inls strict br x
  | x :: r => html_inls strict br x ++
              (if ends_in_backslash x then [] else if blog then br else [32]) ++ html_lines blog strict r
  end.
Definition html_block (blog strict : bool) (b : block) : str :=
  match b with
  | BPara lines => elem ($ "p") (html_lines blog strict lines)
  | BHead n sp t closing => elem ($ "h" ++ show_nat n) (escape t)
  | BRule => $ "<hr />"
  | BCode lines => elem ($ "pre") (escape (lines_text ([] :: lines ++ [[]])))
  | BList o items => html_list strict 0 o items
  | BTable rows => $ "<table>" ++ [10] ++ flat_map (html_row strict) rows ++ $ "</table>"
  end.
(** what stands between a block and the next one *)
Definition gap (b : block) : str := match b with BList _ _ => [10] | _ => [10; 10] end.
Fixpoint html_doc (blog strict : bool) (d : list block) : str :=
  match d with
  | [] => []
  | [b] => html_block blog strict b
  | b :: r => html_block blog strict b ++ gap b ++ html_doc blog strict r
  end.

(** ** Which blocks are unambiguous *)
Definition bullet (c : N) : bool := (c =? 42) || (c =? 35).
(** [w] is the start of a block other than a paragraph (or starts with white space) *)
Definition block_start (w : str) : bool :=
  head_is is_space w || head_is (N.eqb 61) w || head_is (N.eqb 124) w || startswith ($ "<<") w ||
  startswith ($ "----") w || (startswith ($ "{{{") w && forallb is_space (skipn 3 w)) ||
  (head_is bullet w && negb (head_is bullet (skipn 1 w))).
Definition line_ok (l : list inl) : bool :=
  truthy (wr_inls l) && no_char [10; 13] (wr_inls l) && negb (block_start (wr_inls l)) && inls_ok [] l.
Definition nonempty {A} (l : list A) : bool := match l with [] => false | _ => true end.
Definition last_ok {A} (p : A -> bool) (l : list A) : bool := match rev l with x :: _ => p x | [] => false end.
(** text of list items and table cells *)
Definition item_text_ok (l : list inl) : bool :=
  trimmed (wr_inls l) && no_char [10; 13] (wr_inls l) && inls_ok [] l && negb (ends_in_break l).
Fixpoint item_ok (i : litem) : bool :=
  match i with LI t o sub => item_text_ok t && forallb item_ok sub end.
(** [w], followed by [t], contains no bar and nothing that looks like a link, an image or a macro *)
Fixpoint plain_cell (w t : str) : bool :=
  match w with
  | [] => true
  | c :: w' => negb (c =? 124) && negb (existsb (fun p => startswith p (w ++ t)) [$ "[["; $ "{{"; $ "<<"]) && plain_cell w' t
  end.
(** bars inside of links and images do not end the cell *)
Fixpoint cell_inl (i : inl) (t : str) : bool :=
  match i with
  | IFace f body =>
    (fix go (l : list inl) : bool :=
       match l with
       | [] => true
       | x :: r => cell_inl x (flat_map wr_inl r ++ [face_mark f; face_mark f] ++ t) && go r
       end) body
  | ILink _ _ | IImage _ _ _ | IRich _ _ => true
  | ICode c => no_char [124; 125] c && negb (last_is is_space c)
  | _ => plain_cell (wr_inl i) t
  end.
Fixpoint cell_inls (l : list inl) (t : str) : bool :=
  match l with [] => true | x :: r => cell_inl x (wr_inls r ++ t) && cell_inls r t end.
Definition cell_ok (c : cell) : bool :=
  let w := wr_inls (cell_text c) in
  item_text_ok (cell_text c) && negb (head_is (N.eqb 61) w) &&
  if is_head c then no_char [124] w && negb (last_is (N.eqb 61) w) else cell_inls (cell_text c) ($ "|").
Definition block_ok (blog : bool) (b : block) : bool :=
  match b with
  | BPara lines => forallb line_ok lines && last_ok (fun l => negb (ends_in_break l)) lines
  | BHead n sp t closing =>
    negb (Nat.eqb n 0) && forallb (fun c => (c =? 32) || (c =? 9)) sp && trimmed t && no_char [10; 13] t &&
    negb (head_is (N.eqb 61) t) && negb (last_is (N.eqb 61) t) && forallb (fun c => (c =? 61) || (c =? 32)) closing
  | BRule => true
  | BCode lines =>
    forallb (fun l => no_char [10; 13] l && negb (startswith ($ "}}}") l) && negb (contains ($ "~}}}") l)) lines &&
    match lines with l :: _ => negb (forallb is_space l) | [] => false end
  | BList o items => nonempty items && forallb item_ok items
  | BTable rows => nonempty rows && forallb (fun r => nonempty r && forallb cell_ok r) rows && (blog || Nat.eqb (List.length rows) 1)
  end.
(** without blog line breaks only these blocks are recognised after an empty line *)
Definition after_blank (blog : bool) (b : block) : bool :=
  blog || match b with BPara _ | BRule | BList _ _ | BTable _ => true | BHead _ _ _ _ | BCode _ => false end.
Definition doc_ok (blog : bool) (d : list block) : bool :=
  forallb (block_ok blog) d && forallb (after_blank blog) (tl d).
