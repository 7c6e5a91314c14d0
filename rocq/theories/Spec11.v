(** * Vocabulary: clean html documents, how they are written and the creole they mean

    A small syntax of html documents ([x...]), how they may be written as html ([tm_...]: white
    space around block elements is free), and the creole markup expected from html2creole
    ([cre_...]).  Nothing here refers to the parsers or to the emitters. *)
From Coq Require Import String List Arith NArith ZArith Bool.
From Verif Require Import PyStr Utils Res HtmlTok Spec2 Spec10.
Import ListNotations.
Open Scope N_scope.

(** ** Documents *)
Inductive xinl :=
| XText (w : str)
| XRef (e : ent)                            (* &amp; &#65; &#x41; *)
| XFace (tag : str) (a : attrs) (body : list xinl)   (* <b class="x">body</b> and so on *)
| XLink (href : str) (body : list xinl)     (* <a href="href">body</a> *)
| XImage (src title alt : str)              (* <img src="src" title="title" alt="alt" /> *)
| XBreak.                                   (* <br /> *)
(** a list item: its text and the list nested in it (none if [sub] is empty) *)
Inductive xitem := XI (text : list xinl) (ordered : bool) (sub : list xitem).
Inductive xblock :=
| XPara (l : list xinl)
| XHead (n : nat) (l : list xinl)
| XRule
| XList (ordered : bool) (items : list xitem)
| XTable (rows : list (list (bool * list xinl))).   (* [true]: a <th> cell *)

(** ** How they are written *)
Inductive part :=
| Open (t : str) (a : attrs)    (* <t a> *)
| Close (t : str)               (* </t> *)
| Single (t : str) (a : attrs)  (* <t a /> *)
| Txt (s : str)
| Ws.                           (* any white space *)
Definition part_src (p : part) : str :=
  match p with
  | Open t a => $ "<" ++ t ++ show_attrs a ++ $ ">"
  | Close t => $ "</" ++ t ++ $ ">"
  | Single t a => $ "<" ++ t ++ show_attrs a ++ $ " />"
  | Txt s => s
  | Ws => []
  end.
(** [s] is the text of the parts, with any white space for each [Ws] *)
Fixpoint fits (l : list part) (s : str) : Prop :=
  match l with
  | [] => s = []
  | Ws :: r => exists w u, forallb is_space w = true /\ s = w ++ u /\ fits r u
  | p :: r => exists u, s = part_src p ++ u /\ fits r u
  end.
Definition img_attrs (src title alt : str) : attrs := [($ "src", VStr src); ($ "title", VStr title); ($ "alt", VStr alt)].
(** what stands beside a text: the edge of its block or a line break, the tag of the inline
    element around it, another inline element, or more text *)
Inductive side := Edge | Inner | Elem | More.
Definition side_of (i : xinl) : side :=
  match i with XText _ | XRef _ => More | XFace _ _ _ | XLink _ _ | XImage _ _ _ => Elem | XBreak => Edge end.
(** white space in front of a block tag or a line break is free, but not directly after an
    inline tag: html2creole keeps a space there *)
Definition ws_after (s : side) : list part := match s with Elem | Inner => [] | _ => [Ws] end.
Fixpoint tm_inl (before : side) (i : xinl) : list part :=
  let inside (body : list xinl) : list part :=
    (fix go (s : side) (l : list xinl) : list part :=
       match l with [] => [] | x :: r => tm_inl s x ++ go (side_of x) r end) Inner body in
  match i with
  | XText w => [Txt w]
  | XRef e => [Txt (write e)]
  | XFace t a body => Open t a :: inside body ++ [Close t]
  | XLink h body => Open ($ "a") [($ "href", VStr h)] :: inside body ++ [Close ($ "a")]
  | XImage src title alt => [Single ($ "img") (img_attrs src title alt)]
  | XBreak => ws_after before ++ [Single ($ "br") []; Ws]
  end.
Fixpoint tm_inls (s : side) (l : list xinl) : list part :=
  match l with [] => [] | x :: r => tm_inl s x ++ tm_inls (side_of x) r end.
Fixpoint last_side (s : side) (l : list xinl) : side := match l with [] => s | x :: r => last_side (side_of x) r end.
(** the content of a block element *)
Definition tm_text (l : list xinl) : list part := tm_inls Edge l ++ ws_after (last_side Edge l).
Definition tm_elem (t : str) (c : list part) : list part := Open t [] :: Ws :: c ++ [Close t].
Definition xlist_tag (ordered : bool) : str := if ordered then $ "ol" else $ "ul".
Fixpoint tm_item (i : xitem) : list part :=
  match i with
  | XI text o sub =>
    tm_elem ($ "li") (tm_text text ++ match sub with [] => [] | _ => tm_elem (xlist_tag o) (flat_map tm_item sub) ++ [Ws] end) ++ [Ws]
  end.
Definition tm_cell (c : bool * list xinl) : list part := tm_elem (if fst c then $ "th" else $ "td") (tm_text (snd c)) ++ [Ws].
Definition tm_row (r : list (bool * list xinl)) : list part := tm_elem ($ "tr") (flat_map tm_cell r) ++ [Ws].
Definition tm_block (b : xblock) : list part :=
  match b with
  | XPara l => tm_elem ($ "p") (tm_text l)
  | XHead n l => tm_elem ($ "h" ++ show_nat n) (tm_text l)
  | XRule => [Single ($ "hr") []]
  | XList o items => tm_elem (xlist_tag o) (flat_map tm_item items)
  | XTable rows => tm_elem ($ "table") (flat_map tm_row rows)
  end.
Definition tm_doc (d : list xblock) : list part := Ws :: flat_map (fun b => tm_block b ++ [Ws]) d.
(** [html] is a way to write the document [d] *)
Definition written (d : list xblock) (html : str) : Prop := fits (tm_doc d) html.

(** ** The creole they mean *)
Definition xfaces : list (str * str) :=
  [ ($ "strong", $ "**"); ($ "b", $ "**"); ($ "big", $ "**"); ($ "i", $ "//"); ($ "em", $ "//"); ($ "tt", $ "##");
    ($ "sup", $ "^^"); ($ "sub", $ ",,"); ($ "u", $ "__"); ($ "small", $ "--"); ($ "del", $ "~~"); ($ "strike", $ "~~") ].
Definition xmark (t : str) : str := match List.find (fun kv : str * str => str_eqb (fst kv) t) xfaces with Some (_, v) => v | None => [] end.
(** the longer of title and alternative text; without both the file name *)
Definition image_title (src title alt : str) : str :=
  let t := if (List.length title <? List.length alt)%nat then alt else title in
  match t with [] => rev (take_while (fun c => negb (c =? 47)) (rev src)) | _ => t end.
(** [b]: how a line break is written *)
Fixpoint cre_inl (b : str) (i : xinl) : str :=
  match i with
  | XText w => w
  | XRef e => match meant e with Ok s => s | Exc _ => [] end
  | XFace t _ body => xmark t ++ flat_map (cre_inl b) body ++ xmark t
  | XLink h body => let text := flat_map (cre_inl b) body in
                    if str_eqb text h then $ "[[" ++ h ++ $ "]]" else $ "[[" ++ h ++ $ "|" ++ text ++ $ "]]"
  | XImage src title alt => $ "{{" ++ src ++ $ "|" ++ image_title src title alt ++ $ "}}"
  | XBreak => b
  end.
Definition cre_inls (b : str) (l : list xinl) : str := flat_map (cre_inl b) l.
Fixpoint cre_item (bullets : str) (i : xitem) : list str :=
  match i with XI t o sub => (bullets ++ $ " " ++ cre_inls [92; 92] t) :: flat_map (cre_item (bullets ++ [if o then 35 else 42])) sub end.
Fixpoint x_lines (l : list str) : str :=
  match l with
  | [] => []
  | [x] => x
  | x :: r => x ++ [10] ++ x_lines r
  end.
(** in a table line breaks are written with backslashes *)
Definition one_row (t : str) : str := flat_map (fun c => if c =? 10 then [92; 92] else [c]) t.
Definition cre_cell (c : bool * list xinl) : str :=
  match one_row (cre_inls [10] (snd c)) with
  | [] => []
  | t => (if fst c then $ "= " else $ " ") ++ t ++ $ " "
  end.
Definition col_width (rows : list (list str)) (j : nat) : nat := fold_right Nat.max 0%nat (map (fun r => List.length (nth j r [])) rows).
(** cells are padded to the width of their column *)
Fixpoint pad_row (rows : list (list str)) (j : nat) (r : list str) : str :=
  match r with
  | [] => $ "|"
  | c :: r' => $ "|" ++ c ++ repeat 32 (col_width rows j - List.length c) ++ pad_row rows (S j) r'
  end.
Definition cre_block (b : xblock) : str :=
  match b with
  | XPara l => cre_inls [10] l
  | XHead n l => repeat 61 n ++ $ " " ++ cre_inls [10] l
  | XRule => $ "----"
  | XList o items => x_lines (flat_map (cre_item [if o then 35 else 42]) items)
  | XTable rows => let cells := map (map cre_cell) rows in x_lines (map (pad_row cells 0) cells)
  end.
(** what stands between a block and the next one: nothing but the line break after a table,
    two more line breaks between a heading and a list *)
Definition x_gap (b c : xblock) : str :=
  match b, c with
  | XTable _, _ => [10]
  | XHead _ _, XList _ _ => [10; 10; 10; 10]
  | _, _ => [10; 10]
  end.
Fixpoint cre_doc (d : list xblock) : str :=
  match d with
  | [] => []
  | b :: r => cre_block b ++ match r with [] => [] | c :: _ => x_gap b c end ++ cre_doc r
  end.

(** ** Which documents are clean *)
(** white space of a text on that side: none at an edge, at most one space beside an element *)
Definition side_ok (s : side) (run : str) : bool :=
  match s with Edge | Inner => is_nil run | Elem => is_nil run || str_eqb run [32] | More => true end.
Definition lead (w : str) : str := take_while is_space w.
Definition trail (w : str) : str := rev (take_while is_space (rev w)).
Definition one_line (t : str) : bool := forallb (fun c => negb (c =? 10)) t.
Definition ref_ok (e : ent) : bool :=
  match e with
  | Text _ => false
  | Dec d => all_digits dec d && (N.of_nat (List.length d) <=? 4300)
  | Hex d => all_digits hexadecimal d
  | Named n => match n with c :: t => letter c && forallb (fun c => letter c || dec c) t | [] => false end
  end && match meant e with Ok _ => true | Exc _ => false end.
(** the inline tags: lower case names, but not those of block elements, of elements with a
    meaning of their own, or of the kinds of nodes the parser itself uses *)
Definition inline_tag (t : str) : bool :=
  name_ok t && negb (is_heading t) &&
  negb (in_names (block_elements ++ [$ "script"; $ "style"; $ "tbody"; $ "img"; $ "a"; $ "data"; $ "entityref"; $ "charref"; $ "document"; $ "headline"]) t).
Definition plain_attr (nv : str * pyval) : bool := attr_ok nv && match snd nv with VStr v => one_line v | _ => false end.
Definition next_side (r : list xinl) : side := match r with [] => Edge | y :: _ => side_of y end.
Definition next_text (r : list xinl) : bool := match r with XText _ :: _ => true | _ => false end.
Fixpoint clean_inl (before : side) (i : xinl) (r : list xinl) {struct i} : bool :=
  let inside (body : list xinl) : bool :=
    (fix go (s : side) (l : list xinl) : bool :=
       match l with [] => true | x :: r => clean_inl s x r && go (side_of x) r end) Inner body in
  match i with
  | XText w => negb (is_nil w) && forallb (fun c => negb ((c =? 60) || (c =? 38) || (c =? 10))) w &&
               side_ok before (lead w) && side_ok (next_side r) (trail w) && negb (next_text r)
  | XRef e => ref_ok e
  | XFace t a body => inline_tag t && forallb plain_attr a && inside body
  | XLink h body => one_line h && inside body
  | XImage src title alt => one_line src && one_line title && one_line alt &&
                            negb (str_eqb (take_while (fun c => negb (c =? 58)) src) ($ "data"))
  | XBreak => true
  end.
Fixpoint clean_inls (s : side) (l : list xinl) : bool :=
  match l with [] => true | x :: r => clean_inl s x r && clean_inls (side_of x) r end.
(** documents that are written cleanly, whatever they are converted to *)
Fixpoint shape_item (i : xitem) : bool := match i with XI t o sub => clean_inls Edge t && forallb shape_item sub end.
Definition shape_cell (c : bool * list xinl) : bool := clean_inls Edge (snd c).
Definition shape_block (b : xblock) : bool :=
  match b with
  | XPara l => clean_inls Edge l
  | XHead n l => Nat.leb 1 n && Nat.leb n 6 && clean_inls Edge l
  | XRule => true
  | XList o items => forallb shape_item items
  | XTable rows => forallb (forallb shape_cell) rows
  end.
Definition shape_doc (d : list xblock) : bool := forallb shape_block d.

(** only these tags are used *)
Fixpoint only_tags (ts : list str) (i : xinl) : bool :=
  match i with
  | XFace t _ body => existsb (str_eqb t) ts && forallb (only_tags ts) body
  | XLink _ body => forallb (only_tags ts) body
  | _ => true
  end.
(** visible at both ends *)
Definition solid (t : str) : bool :=
  match t with [] => false | c :: _ => negb (is_space c) end && match rev t with [] => false | c :: _ => negb (is_space c) end.
Definition text_ok (b : str) (l : list xinl) : bool := clean_inls Edge l && forallb (only_tags (map fst xfaces)) l && solid (cre_inls b l).
Fixpoint xitem_ok (i : xitem) : bool := match i with XI t o sub => text_ok [92; 92] t && forallb xitem_ok sub end.
(** a data cell may be empty; otherwise no empty line, no backslash at the ends, and no heading
    mark at the start of a data cell *)
Definition xcell_ok (c : bool * list xinl) : bool :=
  let t := cre_inls [10] (snd c) in
  clean_inls Edge (snd c) && forallb (only_tags (map fst xfaces)) (snd c) &&
  (negb (fst c) && is_nil t ||
   forallb solid (split_on 10 t) && negb (startswith [92] t) && negb (endswith [92] t) && (fst c || negb (startswith ($ "= ") t))).
Definition xblock_ok (b : xblock) : bool :=
  match b with
  | XPara l => text_ok [10] l
  | XHead n l => Nat.leb 1 n && Nat.leb n 6 && text_ok [10] l
  | XRule => true
  | XList o items => negb (is_nil items) && forallb xitem_ok items
  | XTable rows => match rows with
                   | [] => false
                   | r :: _ => negb (is_nil r) && forallb (fun r' => Nat.eqb (List.length r') (List.length r) && forallb xcell_ok r') rows
                   end
  end.
Definition xdoc_ok (d : list xblock) : bool := forallb xblock_ok d.
