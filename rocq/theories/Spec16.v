(** * Vocabulary: the textile that clean html documents mean

    The documents are those of Spec11.v; here is the textile markup expected from html2textile
    ([tex_...]).  Nothing here refers to the parser or to the emitter. *)
From Coq Require Import String List Arith NArith ZArith Bool.
From Verif Require Import PyStr Utils Res HtmlTok Spec2 Spec10 Spec11.
Import ListNotations.
Open Scope N_scope.

Definition tex_faces : list (str * str) :=
  [ ($ "strong", $ "*"); ($ "b", $ "**"); ($ "big", $ "*"); ($ "i", $ "__"); ($ "em", $ "_"); ($ "sup", $ "^"); ($ "sub", $ "~");
    ($ "del", $ "-"); ($ "cite", $ "??"); ($ "span", $ "%"); ($ "code", $ "@") ].
Definition tex_mark (t : str) : str := match List.find (fun kv : str * str => str_eqb (fst kv) t) tex_faces with Some (_, v) => v | None => [] end.
(** [b]: how a line break is written *)
Fixpoint tex_inl (b : str) (i : xinl) : str :=
  match i with
  | XText w => w
  | XRef e => match meant e with Ok s => s | Exc _ => [] end
  | XFace t _ body => tex_mark t ++ flat_map (tex_inl b) body ++ tex_mark t
  | XLink h body => $ """" ++ flat_map (tex_inl b) body ++ $ """:" ++ h
  | XImage src title alt => $ "!" ++ src ++ $ "(" ++ image_title src title alt ++ $ ")!"
  | XBreak => b
  end.
Definition tex_inls (b : str) (l : list xinl) : str := flat_map (tex_inl b) l.
Fixpoint tex_item (bullets : str) (i : xitem) : list str :=
  match i with XI t o sub => (bullets ++ $ " " ++ tex_inls [92; 92] t) :: flat_map (tex_item (bullets ++ [if o then 35 else 42])) sub end.
Definition tex_cell (c : bool * list xinl) : str := (if fst c then $ "_. " else []) ++ one_row (tex_inls [10] (snd c)).
Fixpoint tex_row (r : list (bool * list xinl)) : str :=
  match r with
  | [] => []
  | [c] => tex_cell c
  | c :: r' => tex_cell c ++ $ "|" ++ tex_row r'
  end.
Definition tex_block (b : xblock) : str :=
  match b with
  | XPara l => tex_inls [10] l
  | XHead n l => $ "h" ++ show_nat n ++ $ ". " ++ tex_inls [10] l
  | XRule => $ "----"
  | XList o items => x_lines (flat_map (tex_item [if o then 35 else 42]) items)
  | XTable rows => x_lines (map (fun r => $ "|" ++ tex_row r ++ $ "|") rows)
  end.
Fixpoint tex_doc (d : list xblock) : str :=
  match d with
  | [] => []
  | b :: r => tex_block b ++ match r with [] => [] | c :: _ => x_gap b c end ++ tex_doc r
  end.

(** ** Which documents: written cleanly, only tags that textile has a mark for, no block without text *)
Definition tex_text_ok (b : str) (l : list xinl) : bool := clean_inls Edge l && forallb (only_tags (map fst tex_faces)) l && solid (tex_inls b l).
Fixpoint tex_item_ok (i : xitem) : bool := match i with XI t o sub => tex_text_ok [92; 92] t && forallb tex_item_ok sub end.
(** a cell may be empty; otherwise no empty line and no backslash at the ends *)
Definition tex_cell_ok (c : bool * list xinl) : bool :=
  let t := tex_inls [10] (snd c) in
  clean_inls Edge (snd c) && forallb (only_tags (map fst tex_faces)) (snd c) &&
  (is_nil t || forallb solid (split_on 10 t) && negb (startswith [92] t) && negb (endswith [92] t)).
(** the rows of a table may have different lengths *)
Definition tex_block_ok (b : xblock) : bool :=
  match b with
  | XPara l => tex_text_ok [10] l
  | XHead n l => Nat.leb 1 n && Nat.leb n 6 && tex_text_ok [10] l
  | XRule => true
  | XList o items => negb (is_nil items) && forallb tex_item_ok items
  | XTable rows => negb (is_nil rows) && forallb (forallb tex_cell_ok) rows
  end.
Definition tex_doc_ok (d : list xblock) : bool := forallb tex_block_ok d.
