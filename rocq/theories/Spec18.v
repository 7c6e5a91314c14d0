(** * Vocabulary: the markdown that clean html documents mean

    The documents are those of Spec11.v; here is the markdown markup expected from
    html2markdown ([md_...]).  [url] says how the address of a link or an image is written
    (see Spec17.v).  Nothing here refers to the parser or to the emitter. *)
From Coq Require Import String List Arith NArith ZArith Bool.
From Verif Require Import PyStr Utils Res HtmlTok Spec2 Spec10 Spec11 Spec17.
Import ListNotations.
Open Scope N_scope.

(** marks before and after *)
Definition md_faces : list (str * (str * str)) :=
  [ ($ "strong", ($ "**", $ "**")); ($ "b", ($ "**", $ "**")); ($ "big", ($ "**", $ "**")); ($ "i", ($ "_", $ "_")); ($ "em", ($ "_", $ "_"));
    ($ "tt", ($ "##", $ "##")); ($ "sup", ($ "<sup>", $ "</sup>")); ($ "sub", ($ "<sub>", $ "</sub>")); ($ "u", ($ "__", $ "__"));
    ($ "small", ($ "--", $ "--")); ($ "del", ($ "~~", $ "~~")); ($ "strike", ($ "~~", $ "~~")) ].
Definition md_mark (t : str) : str * str := match List.find (fun kv : str * (str * str) => str_eqb (fst kv) t) md_faces with Some (_, v) => v | None => ([], []) end.
Definition md_tags : list str := $ "code" :: map fst md_faces.
(** code in backticks, two of them if there is one inside *)
Definition md_code (t : str) : str := let q := if existsb (N.eqb 96) t then $ "``" else $ "`" in q ++ t ++ q.

Section Urls.
Variable url : str -> str.
Fixpoint md_inl (i : xinl) : str :=
  match i with
  | XText w => w
  | XRef e => match meant e with Ok s => s | Exc _ => [] end
  | XFace t _ body => let text := flat_map md_inl body in
                    if str_eqb t ($ "code") then md_code text else fst (md_mark t) ++ text ++ snd (md_mark t)
  | XLink h body => $ "[" ++ flat_map md_inl body ++ $ "](" ++ url h ++ $ ")"
  | XImage src title alt => $ "![" ++ alt ++ $ "](" ++ url src ++ (if is_nil title || is_nil alt then [] else $ " """ ++ title ++ $ """") ++ $ ")"
  | XBreak => [10]
  end.
Definition md_inls (l : list xinl) : str := flat_map md_inl l.
(** [ordered]: of the list the item is in *)
Fixpoint md_item (depth : nat) (ordered : bool) (i : xitem) : list str :=
  match i with
  | XI t o sub => (flat_map (fun _ => $ "  ") (repeat tt depth) ++ (if ordered then $ "1. " else $ "* ") ++ md_inls t) :: flat_map (md_item (S depth) o) sub
  end.
Definition md_cell (c : bool * list xinl) : str := match md_inls (snd c) with [] => [] | t => $ " " ++ t ++ $ " " end.
(** the line below the first row, of [n] columns *)
Fixpoint md_rule (cells : list (list str)) (j n : nat) : str :=
  match n with
  | O => $ "|"
  | S n' => $ "| " ++ repeat 45 (col_width cells j - 2) ++ $ " " ++ md_rule cells (S j) n'
  end.
Definition md_table (rows : list (list (bool * list xinl))) : list str :=
  let cells := map (map md_cell) rows in
  let lines := map (pad_row cells 0) cells in
  match rows, lines with
  | r :: _, first :: second :: rest => if existsb (existsb fst) rows then first :: md_rule cells 0 (List.length r) :: second :: rest else lines
  | _, _ => lines
  end.
Definition md_block (b : xblock) : str :=
  match b with
  | XPara l => md_inls l
  | XHead n l => repeat 35 n ++ $ " " ++ md_inls l
  | XRule => $ "----"
  | XList o items => x_lines (flat_map (md_item 0 o) items)
  | XTable rows => x_lines (md_table rows)
  end.
Definition md_gap (next : xblock) : str := match next with XList _ _ => [10; 10; 10] | _ => [10; 10] end.
Fixpoint md_doc (d : list xblock) : str :=
  match d with
  | [] => []
  | b :: r => md_block b ++ match r with [] => [] | c :: _ => md_gap c end ++ md_doc r
  end.

(** ** Which documents: written cleanly, only tags with a mark, no block without text *)
(** no text that is one space; code is one line, without white space or backslashes at its ends *)
Fixpoint md_fine (i : xinl) : bool :=
  match i with
  | XText w => negb (str_eqb w [32])
  | XFace t _ body => let text := flat_map md_inl body in
                    forallb md_fine body && (negb (str_eqb t ($ "code")) || solid text && one_line text && negb (startswith [92] text) && negb (endswith [92] text))
  | XLink _ body => forallb md_fine body
  | _ => true
  end.
Definition md_clean (l : list xinl) : bool := clean_inls Edge l && forallb (only_tags md_tags) l && forallb md_fine l.
Definition md_text_ok (l : list xinl) : bool := md_clean l && solid (md_inls l).
Fixpoint md_item_ok (i : xitem) : bool := match i with XI t o sub => md_text_ok t && forallb md_item_ok sub end.
(** a cell is empty or one line *)
Definition md_cell_ok (c : bool * list xinl) : bool :=
  let t := md_inls (snd c) in md_clean (snd c) && (is_nil t || solid t && one_line t).
Definition md_block_ok (b : xblock) : bool :=
  match b with
  | XPara l => md_text_ok l
  | XHead n l => Nat.leb 1 n && Nat.leb n 6 && md_text_ok l
  | XRule => true
  | XList o items => negb (is_nil items) && forallb md_item_ok items
  | XTable rows => match rows with
                   | [] => false
                   | r :: _ => negb (is_nil r) && forallb (fun r' => Nat.eqb (List.length r') (List.length r) && forallb md_cell_ok r') rows
                   end
  end.
Definition md_doc_ok (d : list xblock) : bool := forallb md_block_ok d.
End Urls.

(** the addresses in a document *)
Fixpoint tg_inl (i : xinl) : list str :=
  match i with
  | XFace _ _ body => flat_map tg_inl body
  | XLink h body => h :: flat_map tg_inl body
  | XImage src _ _ => [src]
  | _ => []
  end.
Fixpoint tg_item (i : xitem) : list str := match i with XI t _ sub => flat_map tg_inl t ++ flat_map tg_item sub end.
Definition tg_block (b : xblock) : list str :=
  match b with
  | XPara l | XHead _ l => flat_map tg_inl l
  | XRule => []
  | XList _ items => flat_map tg_item items
  | XTable rows => flat_map (fun r : list (bool * list xinl) => flat_map (fun c => flat_map tg_inl (snd c)) r) rows
  end.
Definition targets (d : list xblock) : list str := flat_map tg_block d.
(** they are unambiguous, and [url] percent encodes their paths *)
Definition addresses (url : str -> str) (d : list xblock) : Prop :=
  forall h, In h (targets d) -> exists a, addr_ok a = true /\ h = show_addr a /\ url h = show_addr (quoted a).
