(** * Vocabulary: textile, markdown and reStructuredText of documents with other tags

    As Spec16.v, Spec18.v and Spec19.v, for documents that also use tags the target has no mark
    for.  [w t a s] is how an element with tag [t], attributes [a] and text [s] is written if
    there is no mark for [t], and [fine t a s] says for which ones that is claimed; the four
    ways of Spec24.v are meant.  Nothing here refers to the parser or to the emitter, but to the
    callables that come with the package. *)
From Coq Require Import String List Arith NArith ZArith Bool.
From Verif Require Import PyStr Utils Res HtmlTok HtmlBase Spec2 Spec10 Spec11 Spec16 Spec17 Spec18 Spec19 Spec24.
Import ListNotations.
Open Scope N_scope.

(** ** tags with a mark *)
Definition tex_known (t : str) : bool := existsb (str_eqb t) (map fst tex_faces).
Definition md_known (t : str) : bool := existsb (str_eqb t) (map fst md_faces).
Definition rst_known (t : str) : bool := existsb (str_eqb t) (map fst rst_faces).

Section Unknown.
Variable w : str -> attrs -> str -> str.
Variable fine : str -> attrs -> str -> bool.
(** ** textile *)
(** [b]: how a line break is written *)
Fixpoint tx_inl (b : str) (i : xinl) : str :=
  match i with
  | XText s => s
  | XRef e => match meant e with Ok s => s | Exc _ => [] end
  | XFace t a body => let text := flat_map (tx_inl b) body in if tex_known t then tex_mark t ++ text ++ tex_mark t else w t a text
  | XLink h body => $ """" ++ flat_map (tx_inl b) body ++ $ """:" ++ h
  | XImage src title alt => $ "!" ++ src ++ $ "(" ++ image_title src title alt ++ $ ")!"
  | XBreak => b
  end.
Definition tx_inls (b : str) (l : list xinl) : str := flat_map (tx_inl b) l.
Fixpoint tx_item (bullets : str) (i : xitem) : list str :=
  match i with XI t o sub => (bullets ++ $ " " ++ tx_inls [92; 92] t) :: flat_map (tx_item (bullets ++ [if o then 35 else 42])) sub end.
Definition tx_cell (c : bool * list xinl) : str := (if fst c then $ "_. " else []) ++ one_row (tx_inls [10] (snd c)).
Fixpoint tx_row (r : list (bool * list xinl)) : str :=
  match r with
  | [] => []
  | [c] => tx_cell c
  | c :: r' => tx_cell c ++ $ "|" ++ tx_row r'
  end.
Definition tx_block (b : xblock) : str :=
  match b with
  | XPara l => tx_inls [10] l
  | XHead n l => $ "h" ++ show_nat n ++ $ ". " ++ tx_inls [10] l
  | XRule => $ "----"
  | XList o items => x_lines (flat_map (tx_item [if o then 35 else 42]) items)
  | XTable rows => x_lines (map (fun r => $ "|" ++ tx_row r ++ $ "|") rows)
  end.
Fixpoint tx_doc (d : list xblock) : str :=
  match d with
  | [] => []
  | b :: r => tx_block b ++ match r with [] => [] | c :: _ => x_gap b c end ++ tx_doc r
  end.

(** ** Which documents *)
Fixpoint tx_fine (b : str) (i : xinl) : bool :=
  match i with
  | XFace t a body => forallb (tx_fine b) body && (tex_known t || fine t a (flat_map (tx_inl b) body))
  | XLink _ body => forallb (tx_fine b) body
  | _ => true
  end.
Definition tx_text_ok (b : str) (l : list xinl) : bool := clean_inls Edge l && forallb (tx_fine b) l && solid (tx_inls b l).
Fixpoint tx_item_ok (i : xitem) : bool := match i with XI t o sub => tx_text_ok [92; 92] t && forallb tx_item_ok sub end.
(** a cell may be empty; otherwise no empty line and no backslash at the ends *)
Definition tx_cell_ok (c : bool * list xinl) : bool :=
  let t := tx_inls [10] (snd c) in
  clean_inls Edge (snd c) && forallb (tx_fine [10]) (snd c) &&
  (is_nil t || forallb solid (split_on 10 t) && negb (startswith [92] t) && negb (endswith [92] t)).
(** the rows of a table may have different lengths *)
Definition tx_block_ok (b : xblock) : bool :=
  match b with
  | XPara l => tx_text_ok [10] l
  | XHead n l => Nat.leb 1 n && Nat.leb n 6 && tx_text_ok [10] l
  | XRule => true
  | XList o items => negb (is_nil items) && forallb tx_item_ok items
  | XTable rows => negb (is_nil rows) && forallb (forallb tx_cell_ok) rows
  end.
Definition tx_doc_ok (d : list xblock) : bool := forallb tx_block_ok d.

(** ** markdown; [url]: how addresses are written *)
Section Urls.
Variable url : str -> str.
Fixpoint mx_inl (i : xinl) : str :=
  match i with
  | XText s => s
  | XRef e => match meant e with Ok s => s | Exc _ => [] end
  | XFace t a body => let text := flat_map mx_inl body in
                    if str_eqb t ($ "code") then md_code text else if md_known t then fst (md_mark t) ++ text ++ snd (md_mark t) else
                    if str_eqb t ($ "span") then text else w t a text
  | XLink h body => $ "[" ++ flat_map mx_inl body ++ $ "](" ++ url h ++ $ ")"
  | XImage src title alt => $ "![" ++ alt ++ $ "](" ++ url src ++ (if is_nil title || is_nil alt then [] else $ " """ ++ title ++ $ """") ++ $ ")"
  | XBreak => [10]
  end.
Definition mx_inls (l : list xinl) : str := flat_map mx_inl l.
(** [ordered]: of the list the item is in *)
Fixpoint mx_item (depth : nat) (ordered : bool) (i : xitem) : list str :=
  match i with
  | XI t o sub => (flat_map (fun _ => $ "  ") (repeat tt depth) ++ (if ordered then $ "1. " else $ "* ") ++ mx_inls t) :: flat_map (mx_item (S depth) o) sub
  end.
Definition mx_cell (c : bool * list xinl) : str := match mx_inls (snd c) with [] => [] | t => $ " " ++ t ++ $ " " end.
Definition mx_table (rows : list (list (bool * list xinl))) : list str :=
  let cells := map (map mx_cell) rows in
  let lines := map (pad_row cells 0) cells in
  match rows, lines with
  | r :: _, first :: second :: rest => if existsb (existsb fst) rows then first :: md_rule cells 0 (List.length r) :: second :: rest else lines
  | _, _ => lines
  end.
Definition mx_block (b : xblock) : str :=
  match b with
  | XPara l => mx_inls l
  | XHead n l => repeat 35 n ++ $ " " ++ mx_inls l
  | XRule => $ "----"
  | XList o items => x_lines (flat_map (mx_item 0 o) items)
  | XTable rows => x_lines (mx_table rows)
  end.
Fixpoint mx_doc (d : list xblock) : str :=
  match d with
  | [] => []
  | b :: r => mx_block b ++ match r with [] => [] | c :: _ => md_gap c end ++ mx_doc r
  end.

(** ** Which documents *)
(** no text that is one space, no tag named list; code is one line, without white space or backslashes at its ends *)
Fixpoint mx_fine (i : xinl) : bool :=
  match i with
  | XText s => negb (str_eqb s [32])
  | XFace t a body => let text := flat_map mx_inl body in
                    forallb mx_fine body &&
                    (if str_eqb t ($ "code") then solid text && one_line text && negb (startswith [92] text) && negb (endswith [92] text)
                     else md_known t || (if str_eqb t ($ "span") then span_text text else negb (str_eqb t ($ "list")) && fine t a text))
  | XLink _ body => forallb mx_fine body
  | _ => true
  end.
Definition mx_clean (l : list xinl) : bool := clean_inls Edge l && forallb mx_fine l.
Definition mx_text_ok (l : list xinl) : bool := mx_clean l && solid (mx_inls l).
Fixpoint mx_item_ok (i : xitem) : bool := match i with XI t o sub => mx_text_ok t && forallb mx_item_ok sub end.
(** a cell is empty or one line *)
Definition mx_cell_ok (c : bool * list xinl) : bool :=
  let t := mx_inls (snd c) in mx_clean (snd c) && (is_nil t || solid t && one_line t).
Definition mx_block_ok (b : xblock) : bool :=
  match b with
  | XPara l => mx_text_ok l
  | XHead n l => Nat.leb 1 n && Nat.leb n 6 && mx_text_ok l
  | XRule => true
  | XList o items => negb (is_nil items) && forallb mx_item_ok items
  | XTable rows => match rows with
                   | [] => false
                   | r :: _ => negb (is_nil r) && forallb (fun r' => Nat.eqb (List.length r') (List.length r) && forallb mx_cell_ok r') rows
                   end
  end.
Definition mx_doc_ok (d : list xblock) : bool := forallb mx_block_ok d.
End Urls.

(** ** reStructuredText *)
Definition rx_face (t : str) (a : attrs) (text : str) : str :=
  if rst_known t then rst_mark t ++ text ++ rst_mark t else if str_eqb t ($ "span") then text else w t a text.
Fixpoint rx_inl (cell : bool) (i : xinl) (n : notes) {struct i} : option (str * notes) :=
  match i with
  | XText s => Some (s, n)
  | XRef e => Some (match meant e with Ok s => s | Exc _ => [] end, n)
  | XFace t a body => in_seq (rst_all (rx_inl cell) body n) (fun text n1 => Some (rx_face t a text, n1))
  | XLink h body => in_seq (rst_all (rx_inl cell) body n) (fun text n1 => rst_link cell text h n1)
  | XImage src title alt => rst_image (image_title src title alt) src n
  | XBreak => Some ([10], n)
  end.
Definition rx_inls (cell : bool) (l : list xinl) : notes -> option (str * notes) := rst_all (rx_inl cell) l.
(** the lines of a list item *)
Fixpoint rx_item (depth : nat) (ordered : bool) (i : xitem) (n : notes) : option (list str * notes) :=
  match i with
  | XI t o sub =>
    in_seq (rx_inls false t n) (fun text n1 =>
    in_seq (rst_all (rx_item (S depth) o) sub n1) (fun rest n2 =>
    Some ((flat_map (fun _ => $ "    ") (repeat tt depth) ++ (if ordered then $ "#. " else $ "* ") ++ text) :: rest, n2)))
  end.
Definition rx_cell (c : bool * list xinl) (n : notes) : option (list str * notes) :=
  in_seq (rx_inls true (snd c) n) (fun t n1 => Some ([match t with [] => [] | _ => $ " " ++ t ++ $ " " end], n1)).
Definition rx_row (r : list (bool * list xinl)) (n : notes) : option (list (list str) * notes) := in_seq (rst_all rx_cell r n) (fun cells n1 => Some ([cells], n1)).
Definition rx_block (b : xblock) (n : notes) : option (str * notes) :=
  match b with
  | XPara l => rx_inls false l n
  | XHead k l => in_seq (rx_inls false l n) (fun t n1 =>
      let '(c, over) := title_line k in
      let line := repeat c (List.length t) in
      Some ((if over then line ++ [10] else []) ++ t ++ [10] ++ line, n1))
  | XRule => Some ($ "----", n)
  | XList o items => in_seq (rst_all (rx_item 0 o) items n) (fun lines n1 => Some (spaced lines, n1))
  | XTable rows => in_seq (rst_all rx_row rows n) (fun cells n1 =>
      Some (x_lines (rst_grid (existsb (existsb fst) rows) (match rows with r :: _ => List.length r | [] => 0%nat end) cells), n1))
  end.
Fixpoint rx_chunks (d : list xblock) (n : notes) : option (list str) :=
  match d with
  | [] => Some []
  | b :: r => match rx_block b n with
              | None => None
              | Some (t, n1) => let '(ds, n2) := rst_notes n1 in
                                match rx_chunks r n2 with None => None | Some ts => Some (t :: ds ++ ts) end
              end
  end.
Definition rx_doc (d : list xblock) : option str := option_map spaced (rx_chunks d no_notes).

(** ** Which documents *)
(** as if there were no links and images before *)
Fixpoint rx_look (i : xinl) : str :=
  match i with
  | XText s => s
  | XRef e => match meant e with Ok s => s | Exc _ => [] end
  | XFace t a body => rx_face t a (flat_map rx_look body)
  | XLink h body => $ "`" ++ flat_map rx_look body ++ $ " <" ++ h ++ $ ">`_"
  | XImage src title alt => $ "|" ++ image_title src title alt ++ $ "|"
  | XBreak => [10]
  end.
(** addresses have no white space at their ends *)
Fixpoint rx_fine (i : xinl) : bool :=
  match i with
  | XFace t a body => let text := flat_map rx_look body in
                      forallb rx_fine body &&
                      (if str_eqb t ($ "code") then rst_word text else rst_known t || (if str_eqb t ($ "span") then span_text text else fine t a text))
  | XLink h body => solid h && forallb rx_fine body
  | XImage src _ _ => solid src
  | _ => true
  end.
Definition rx_clean (l : list xinl) : bool := clean_inls Edge l && forallb rx_fine l.
Definition rx_text_ok (l : list xinl) : bool := rx_clean l && solid (flat_map rx_look l).
Definition rx_line_ok (l : list xinl) : bool := rx_text_ok l && one_line (flat_map rx_look l).
(** the lists in a list are of its kind *)
Fixpoint rx_item_ok (ordered : bool) (i : xitem) : bool :=
  match i with XI t o sub => rx_line_ok t && (is_nil sub || Bool.eqb o ordered && forallb (rx_item_ok ordered) sub) end.
Definition rx_cell_ok (c : bool * list xinl) : bool := let t := flat_map rx_look (snd c) in rx_clean (snd c) && (is_nil t || rst_word t).
Definition rx_block_ok (b : xblock) : bool :=
  match b with
  | XPara l => rx_text_ok l
  | XHead n l => Nat.leb 1 n && Nat.leb n 6 && rx_line_ok l
  | XRule => true
  | XList o items => negb (is_nil items) && forallb (rx_item_ok o) items
  | XTable rows => match rows with
                   | [] => false
                   | r :: _ => negb (is_nil r) && forallb (fun r' => Nat.eqb (List.length r') (List.length r) && forallb rx_cell_ok r') rows
                   end
  end.
Definition rx_doc_ok (d : list xblock) : bool := forallb rx_block_ok d.
End Unknown.

(** ** the callables that come with the package: how they write, and for which elements *)
Inductive way : unknown -> (str -> attrs -> str -> str) -> (str -> attrs -> str -> bool) -> Prop :=
  | way_html : way use_html_macro (masked ($ "html")) any_text
  | way_pre : way preformat_unknown_nodes (masked ($ "pre")) any_text
  | way_escape : way escape_unknown_nodes spelled any_text
  | way_bare : way transparent_unknown_nodes bare bare_text.

(** ** a document that uses a tag the target has no mark for *)
Section Other.
(** [own]: the inline tags of the target *)
Variable own : list str.
Fixpoint inl_other (i : xinl) : bool :=
  match i with
  | XFace t _ body => negb (in_names own t) || existsb inl_other body
  | XLink _ body => existsb inl_other body
  | _ => false
  end.
Fixpoint item_other (i : xitem) : bool := match i with XI t _ sub => existsb inl_other t || existsb item_other sub end.
Definition block_other (b : xblock) : bool :=
  match b with
  | XPara l => existsb inl_other l
  | XHead _ l => existsb inl_other l
  | XRule => false
  | XList _ items => existsb item_other items
  | XTable rows => existsb (existsb (fun c => existsb inl_other (snd c))) rows
  end.
Definition doc_other (d : list xblock) : bool := existsb block_other d.
End Other.
(** span is there for its text; markdown takes a tag list for one of its own *)
Definition tex_own : list str := map fst tex_faces.
Definition md_own : list str := $ "span" :: $ "list" :: md_tags.
Definition rst_own : list str := $ "span" :: map fst rst_faces.
