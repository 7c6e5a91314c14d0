(** * Vocabulary: the reStructuredText that clean html documents mean

    The documents are those of Spec11.v; here is the reStructuredText expected from html2rest
    ([rst_...]).  A link text must not stand for two addresses, and an address is given once;
    so what is written depends on the links and images before ([notes]), and some documents
    cannot be written ([None]).  Nothing here refers to the parser or to the emitter. *)
From Coq Require Import String List Arith NArith ZArith Bool.
From Verif Require Import PyStr Utils Res HtmlTok Spec2 Spec10 Spec11.
Import ListNotations.
Open Scope N_scope.

Definition rst_faces : list (str * str) :=
  [ ($ "strong", $ "**"); ($ "b", $ "**"); ($ "big", $ "**"); ($ "i", $ "*"); ($ "em", $ "*"); ($ "tt", $ "``"); ($ "code", $ "``"); ($ "small", []) ].
Definition rst_mark (t : str) : str := match List.find (fun kv : str * str => str_eqb (fst kv) t) rst_faces with Some (_, v) => v | None => [] end.

(** the link texts and image names so far with their addresses, and the definitions that are
    still to be written *)
Record notes := mkno { no_links : list (str * str); no_images : list (str * str); no_defs : list str }.
Definition no_notes : notes := mkno [] [] [].
Definition seen (t : str) (l : list (str * str)) : option str := option_map snd (List.find (fun p : str * str => str_eqb t (fst p)) l).
Definition in_seq {A B : Type} (x : option (A * notes)) (f : A -> notes -> option (B * notes)) : option (B * notes) :=
  match x with Some (a, n) => f a n | None => None end.
(** in a table cell the address of a link is written below the block *)
Definition rst_link (cell : bool) (text h : str) (n : notes) : option (str * notes) :=
  match seen text (no_links n) with
  | Some h' => if str_eqb h' h then Some ($ "`" ++ text ++ $ "`_", n) else None
  | None => let known := no_links n ++ [(text, h)] in
            if cell then Some ($ "`" ++ text ++ $ "`_", mkno known (no_images n) (no_defs n ++ [$ ".. _" ++ text ++ $ ": " ++ h]))
            else Some ($ "`" ++ text ++ $ " <" ++ h ++ $ ">`_", mkno known (no_images n) (no_defs n))
  end.
Definition rst_image (text src : str) (n : notes) : option (str * notes) :=
  match seen text (no_images n) with
  | Some s' => if str_eqb s' src then Some ($ "|" ++ text ++ $ "|", n) else None
  | None => Some ($ "|" ++ text ++ $ "|", mkno (no_links n) (no_images n ++ [(text, src)]) (no_defs n ++ [$ ".. |" ++ text ++ $ "| image:: " ++ src]))
  end.
(** one after the other *)
Definition rst_all {A B : Type} (f : A -> notes -> option (list B * notes)) : list A -> notes -> option (list B * notes) :=
  fix go (l : list A) (n : notes) : option (list B * notes) :=
    match l with [] => Some ([], n) | x :: r => in_seq (f x n) (fun a n1 => in_seq (go r n1) (fun b n2 => Some (a ++ b, n2))) end.
Fixpoint rst_inl (cell : bool) (i : xinl) (n : notes) {struct i} : option (str * notes) :=
  match i with
  | XText w => Some (w, n)
  | XRef e => Some (match meant e with Ok s => s | Exc _ => [] end, n)
  | XFace t _ body => in_seq (rst_all (rst_inl cell) body n) (fun text n1 => Some (rst_mark t ++ text ++ rst_mark t, n1))
  | XLink h body => in_seq (rst_all (rst_inl cell) body n) (fun text n1 => rst_link cell text h n1)
  | XImage src title alt => rst_image (image_title src title alt) src n
  | XBreak => Some ([10], n)
  end.
Definition rst_inls (cell : bool) (l : list xinl) : notes -> option (str * notes) := rst_all (rst_inl cell) l.
(** the lines of a list item *)
Fixpoint rst_item (depth : nat) (ordered : bool) (i : xitem) (n : notes) : option (list str * notes) :=
  match i with
  | XI t o sub =>
    in_seq (rst_inls false t n) (fun text n1 =>
    in_seq (rst_all (rst_item (S depth) o) sub n1) (fun rest n2 =>
    Some ((flat_map (fun _ => $ "    ") (repeat tt depth) ++ (if ordered then $ "#. " else $ "* ") ++ text) :: rest, n2)))
  end.
Definition rst_cell (c : bool * list xinl) (n : notes) : option (list str * notes) :=
  in_seq (rst_inls true (snd c) n) (fun t n1 => Some ([match t with [] => [] | _ => $ " " ++ t ++ $ " " end], n1)).
Definition rst_row (r : list (bool * list xinl)) (n : notes) : option (list (list str) * notes) := in_seq (rst_all rst_cell r n) (fun cells n1 => Some ([cells], n1)).
(** a border made of the character [c], of the columns from [j] *)
Fixpoint rst_border (c : N) (cells : list (list str)) (j : nat) (columns : nat) : str :=
  match columns with O => $ "+" | S m => $ "+" ++ repeat c (col_width cells j) ++ rst_border c cells (S j) m end.
Definition rst_grid (header : bool) (columns : nat) (cells : list (list str)) : list str :=
  let line (c : N) := rst_border c cells 0 columns in
  match cells with
  | [] => [line 45]
  | first :: rest =>
    [line 45; pad_row cells 0 first] ++
    match rest with
    | [] => []
    | second :: more => [line (if header then 61 else 45); pad_row cells 0 second] ++ flat_map (fun r => [line 45; pad_row cells 0 r]) more
    end ++ [line 45]
  end.
Definition title_line (n : nat) : N * bool :=
  match n with 1%nat => (61, true) | 2%nat => (45, true) | 3%nat => (61, false) | 4%nat => (45, false) | 5%nat => (96, false) | _ => (39, false) end.
(** with an empty line between *)
Fixpoint spaced (l : list str) : str := match l with [] => [] | [x] => x | x :: r => x ++ [10; 10] ++ spaced r end.
Definition rst_block (b : xblock) (n : notes) : option (str * notes) :=
  match b with
  | XPara l => rst_inls false l n
  | XHead k l => in_seq (rst_inls false l n) (fun t n1 =>
      let '(c, over) := title_line k in
      let line := repeat c (List.length t) in
      Some ((if over then line ++ [10] else []) ++ t ++ [10] ++ line, n1))
  | XRule => Some ($ "----", n)
  | XList o items => in_seq (rst_all (rst_item 0 o) items n) (fun lines n1 => Some (spaced lines, n1))
  | XTable rows => in_seq (rst_all rst_row rows n) (fun cells n1 =>
      Some (x_lines (rst_grid (existsb (existsb fst) rows) (match rows with r :: _ => List.length r | [] => 0%nat end) cells), n1))
  end.
(** the definitions come after the block *)
Definition rst_notes (n : notes) : list str * notes :=
  (match no_defs n with [] => [] | ds => [x_lines ds] end, mkno (no_links n) (no_images n) []).
Fixpoint rst_chunks (d : list xblock) (n : notes) : option (list str) :=
  match d with
  | [] => Some []
  | b :: r => match rst_block b n with
              | None => None
              | Some (t, n1) => let '(ds, n2) := rst_notes n1 in
                                match rst_chunks r n2 with None => None | Some ts => Some (t :: ds ++ ts) end
              end
  end.
Definition rst_doc (d : list xblock) : option str := option_map spaced (rst_chunks d no_notes).

(** ** Which documents: written cleanly, only tags with a mark, no block without text *)
(** as if there were no links and images before *)
Fixpoint rst_look (i : xinl) : str :=
  match i with
  | XText w => w
  | XRef e => match meant e with Ok s => s | Exc _ => [] end
  | XFace t _ body => rst_mark t ++ flat_map rst_look body ++ rst_mark t
  | XLink h body => $ "`" ++ flat_map rst_look body ++ $ " <" ++ h ++ $ ">`_"
  | XImage src title alt => $ "|" ++ image_title src title alt ++ $ "|"
  | XBreak => [10]
  end.
(** one line, visible at both ends, without backslashes there *)
Definition rst_word (t : str) : bool := solid t && one_line t && negb (startswith [92] t) && negb (endswith [92] t).
(** addresses have no white space at their ends *)
Fixpoint rst_fine (i : xinl) : bool :=
  match i with
  | XFace t _ body => forallb rst_fine body && (negb (str_eqb t ($ "code")) || rst_word (flat_map rst_look body))
  | XLink h body => solid h && forallb rst_fine body
  | XImage src _ _ => solid src
  | _ => true
  end.
Definition rst_clean (l : list xinl) : bool := clean_inls Edge l && forallb (only_tags (map fst rst_faces)) l && forallb rst_fine l.
Definition rst_text_ok (l : list xinl) : bool := rst_clean l && solid (flat_map rst_look l).
Definition rst_line_ok (l : list xinl) : bool := rst_text_ok l && one_line (flat_map rst_look l).
(** the lists in a list are of its kind *)
Fixpoint rst_item_ok (ordered : bool) (i : xitem) : bool :=
  match i with XI t o sub => rst_line_ok t && (is_nil sub || Bool.eqb o ordered && forallb (rst_item_ok ordered) sub) end.
Definition rst_cell_ok (c : bool * list xinl) : bool := let t := flat_map rst_look (snd c) in rst_clean (snd c) && (is_nil t || rst_word t).
Definition rst_block_ok (b : xblock) : bool :=
  match b with
  | XPara l => rst_text_ok l
  | XHead n l => Nat.leb 1 n && Nat.leb n 6 && rst_line_ok l
  | XRule => true
  | XList o items => negb (is_nil items) && forallb (rst_item_ok o) items
  | XTable rows => match rows with
                   | [] => false
                   | r :: _ => negb (is_nil r) && forallb (fun r' => Nat.eqb (List.length r') (List.length r) && forallb rst_cell_ok r') rows
                   end
  end.
Definition rst_doc_ok (d : list xblock) : bool := forallb rst_block_ok d.

(** ** Which of them can be written: those whose links agree, and whose images agree *)
Fixpoint linkless (i : xinl) : bool := match i with XFace _ _ body => forallb linkless body | XLink _ _ => false | _ => true end.
(** no link in a link *)
Fixpoint plain_link (i : xinl) : bool := match i with XFace _ _ body => forallb plain_link body | XLink _ body => forallb linkless body | _ => true end.
Fixpoint link_pairs (i : xinl) : list (str * str) :=
  match i with XFace _ _ body => flat_map link_pairs body | XLink h body => [(flat_map rst_look body, h)] | _ => [] end.
Fixpoint image_pairs (i : xinl) : list (str * str) :=
  match i with XFace _ _ body | XLink _ body => flat_map image_pairs body | XImage src title alt => [(image_title src title alt, src)] | _ => [] end.
Fixpoint item_inls (i : xitem) : list xinl := match i with XI t _ sub => t ++ flat_map item_inls sub end.
Definition block_inls (b : xblock) : list xinl :=
  match b with
  | XPara l | XHead _ l => l
  | XRule => []
  | XList _ items => flat_map item_inls items
  | XTable rows => flat_map (flat_map snd) rows
  end.
Definition doc_inls (d : list xblock) : list xinl := flat_map block_inls d.
Definition agree (l : list (str * str)) : Prop := forall t h h', In (t, h) l -> In (t, h') l -> h = h'.
