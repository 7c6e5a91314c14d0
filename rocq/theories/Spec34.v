(** * Vocabulary: canonical creole documents with tables

    As in Spec27.v, with tables too: cells are padded to the width of their column. *)
From Coq Require Import String List Arith NArith ZArith Bool.
From Verif Require Import PyStr Utils Spec4 Spec5 Spec11 Spec12 Spec26 Spec27 Spec33.
Import ListNotations.
Open Scope N_scope.

(** ** The layout of a table *)
(** the text of a cell between blanks; an empty cell has nothing *)
Definition cell_src (c : cell) : str :=
  match cell_text c with [] => [] | l => (if is_head c then $ "= " else $ " ") ++ wr_inls l ++ $ " " end.
(** the width of column [j] *)
Definition width (rows : list (list cell)) (j : nat) : nat := col_width (map (map cell_src) rows) j.
Definition align_cell (rows : list (list cell)) (j : nat) (c : cell) : pcell :=
  let fill := (width rows j - List.length (cell_src c))%nat in
  match cell_text c with
  | [] => mkpc c 0 0 fill
  | _ => if is_head c then mkpc c 0 1 (1 + fill) else mkpc c 1 0 (1 + fill)
  end.
Fixpoint align_row (rows : list (list cell)) (j : nat) (r : list cell) : list pcell :=
  match r with [] => [] | c :: r' => align_cell rows j c :: align_row rows (S j) r' end.
Definition align (rows : list (list cell)) : list (list pcell) := map (align_row rows 0) rows.

(** ** Which tables: all rows have the same number of cells and no column is empty.  A cell is
    empty and not a heading, or its text is as in Spec12.v, the lines of its text are visible at
    both ends, and there is no backslash at its ends *)
(** the text with its line breaks as newlines *)
Fixpoint wr_nl (i : inl) : str :=
  match i with
  | IFace f body => [face_mark f; face_mark f] ++ flat_map wr_nl body ++ [face_mark f; face_mark f]
  | IBreak => [10]
  | IRich target body => $ "[[" ++ target ++ $ "|" ++ flat_map wr_nl body ++ $ "]]"
  | _ => wr_inl i
  end.
Definition neat_cell (c : cell) : bool :=
  match cell_text c with
  | [] => negb (is_head c)
  | l => let t := flat_map wr_nl l in
         cell_ok c && neat_inls true Edge l && forallb solid (split_on 10 t) && negb (startswith [92] t) && negb (endswith [92] t)
  end.
Definition neat_table (rows : list (list cell)) : bool :=
  match rows with
  | [] => false
  | r :: _ => nonempty r && forallb (fun r' => Nat.eqb (List.length r') (List.length r) && forallb neat_cell r') rows &&
              forallb (fun j => negb (Nat.eqb (width rows j) 0)) (seq 0 (List.length r))
  end.

(** ** Documents *)
Definition tidy_block (b : block) : bool :=
  match b with BTable rows => neat_table rows | BCode _ => block_ok true b | _ => block_ok true b && neat_block true b end.
(** no list directly after a heading, no table directly after a table *)
Definition may_come (b c : block) : bool := match b, c with BTable _, BTable _ => false | _, _ => may_follow b c end.
Fixpoint tidy (d : list block) : bool :=
  match d with
  | [] => true
  | b :: r => tidy_block b && match r with c :: _ => may_come b c | [] => true end && tidy r
  end.
(** how they are laid out: an empty line between blocks, but not after a table or a code block *)
Definition laid_part (b : block) : tpart := match b with BTable rows => TTable (align rows) | _ => TBlock b end.
Definition laid_gap (b : block) : bool := match b with BTable _ | BCode _ => false | _ => true end.
Definition laid (d : list block) : tdoc := map (fun b => (laid_part b, laid_gap b)) d.

(** ** The html document: what it means *)
Definition to_xcell (c : cell) : bool * list xinl := (is_head c, to_xs (cell_text c)).
Definition to_hpart (b : block) : hpart := match b with BTable rows => HBlock (XTable (map (map to_xcell) rows)) | _ => to_part b end.
