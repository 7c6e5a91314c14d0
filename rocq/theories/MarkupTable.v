(** * creole/shared/markup_table.py — MarkupTable *)
From Coq Require Import String List NArith ZArith Bool.
From Verif Require Import PyStr.
Import ListNotations.
Open Scope N_scope.

(** __init__, markup_table.py:7-18.  [row_index] is always the index of the last row (or
    [None] when there is none), so it is not stored.  Simplification: rows and cells are
    kept in order and appended at the end. *)
Record mtable := mkt { head_prefix : str; auto_width : bool; rows : list (list str); has_header : bool }.
Definition new_table (hp : str) (aw : bool) : mtable := mkt hp aw [] false.

(** add_tr, markup_table.py:23-26 *)
Definition add_tr (t : mtable) : mtable := mkt (head_prefix t) (auto_width t) (rows t ++ [[]]) (has_header t).

Fixpoint append_last (l : list (list str)) (x : str) : list (list str) :=
  match l with
  | [] => [[x]]                       (* add_tr first *)
  | [r] => [r ++ [x]]
  | r :: t => r :: append_last t x
  end.
(** add_td, markup_table.py:32-37 *)
Definition add_td (text : str) (t : mtable) : mtable :=
  mkt (head_prefix t) (auto_width t) (append_last (rows t) text) (has_header t).
(** add_th, markup_table.py:28-30 *)
Definition add_th (text : str) (t : mtable) : mtable :=
  add_td (head_prefix t ++ text) (mkt (head_prefix t) (auto_width t) (rows t) true).

(** the cell text, markup_table.py:44-49 *)
Definition fmt_cell (hp cell : str) : str :=
  let cell := strip cell in
  match cell with
  | [] => []
  | _ => if truthy hp && startswith hp cell then cell ++ [32] else [32] ++ cell ++ [32]
  end.

(** [zip]: as long as the shorter list *)
Fixpoint zip {A B} (a : list A) (b : list B) : list (A * B) :=
  match a, b with
  | x :: a', y :: b' => (x, y) :: zip a' b'
  | _, _ => []
  end.
(** [[max(map(len, col)) for col in zip( *cells)]], markup_table.py:54: as many columns as
    the shortest row has *)
Fixpoint zip_max (a b : list nat) : list nat :=
  match a, b with
  | x :: a', y :: b' => Nat.max x y :: zip_max a' b'
  | _, _ => []
  end.
Definition row_widths (r : list str) : list nat := map (@List.length N) r.
Definition widths (cells : list (list str)) : list nat :=
  match cells with
  | [] => []
  | r :: t => fold_left (fun w r => zip_max w (row_widths r)) t (row_widths r)
  end.

(** _get_preformat_info, markup_table.py:39-56 *)
Definition preformat (t : mtable) : list (list str) * list nat :=
  let cells := map (map (fmt_cell (head_prefix t))) (rows t) in (cells, widths cells).

(** one line with padded cells, markup_table.py:71-72, 95-96, 111-112 *)
Definition table_line (ws : list nat) (row : list str) : str :=
  $ "|" ++ join ($ "|") (map (fun cw : str * nat => ljust (fst cw) (snd cw)) (zip row ws)) ++ $ "|".

(** get_table_markup, markup_table.py:58-77 *)
Definition get_table_markup (t : mtable) : str :=
  let lines :=
    if auto_width t
    then let '(cells, ws) := preformat t in map (table_line ws) cells
    else map (fun row => $ "|" ++ join ($ "|") row ++ $ "|") (rows t) in
  join [10] lines.

(** get_rest_table, markup_table.py:79-100 *)
Definition rest_sep (c : char) (ws : list nat) : str :=
  $ "+" ++ join ($ "+") (map (fun w => repeat c w) ws) ++ $ "+".
Fixpoint rest_lines (hdr : bool) (no : nat) (ws : list nat) (cells : list (list str)) : list str :=
  match cells with
  | [] => []
  | row :: t =>
    (if Nat.eqb no 1 && hdr then rest_sep 61 ws else rest_sep 45 ws) ::
    table_line ws row :: rest_lines hdr (S no) ws t
  end.
Definition get_rest_table (t : mtable) : str :=
  let '(cells, ws) := preformat t in
  join [10] (rest_lines (has_header t) 0 ws cells ++ [rest_sep 45 ws]).

(** get_markdown_table, markup_table.py:102-117 *)
Definition md_sep (ws : list nat) : str :=
  $ "| " ++ join ($ " | ") (map (fun w => repeat 45 (w - 2)) ws) ++ $ " |".
Fixpoint md_lines (hdr : bool) (no : nat) (ws : list nat) (cells : list (list str)) : list str :=
  match cells with
  | [] => []
  | row :: t =>
    (if Nat.eqb no 1 && hdr then [md_sep ws] else []) ++
    table_line ws row :: md_lines hdr (S no) ws t
  end.
Definition get_markdown_table (t : mtable) : str :=
  let '(cells, ws) := preformat t in
  join [10] (md_lines (has_header t) 0 ws cells).
