(** * Vocabulary: creole tables with blanks around the text of their cells

    As in Spec5.v, for the default [blog_line_breaks=True]. *)
From Coq Require Import String List Arith NArith ZArith Bool.
From Verif Require Import PyStr Utils Spec4 Spec5.
Import ListNotations.
Open Scope N_scope.

(** a cell with blanks: behind the bar, behind the heading mark and behind the text *)
Record pcell := mkpc { pc_cell : cell; pc_pre : nat; pc_in : nat; pc_out : nat }.
Definition blanks (n : nat) : str := repeat 32 n.
Definition wr_pcell (c : pcell) : str :=
  $ "|" ++ blanks (pc_pre c) ++ (if is_head (pc_cell c) then $ "=" else []) ++ blanks (pc_in c) ++ wr_inls (cell_text (pc_cell c)) ++ blanks (pc_out c).
Definition wr_prow (r : list pcell) : str := flat_map wr_pcell r ++ $ "|".
(** a data cell may also be empty, if there is a blank in it *)
Definition pcell_ok (c : pcell) : bool :=
  match cell_text (pc_cell c) with
  | [] => negb (is_head (pc_cell c)) && negb (Nat.eqb (pc_pre c + pc_in c + pc_out c) 0)
  | _ => cell_ok (pc_cell c)
  end.
Definition ptable_ok (rows : list (list pcell)) : bool := nonempty rows && forallb (fun r => nonempty r && forallb pcell_ok r) rows.

(** ** Documents: every part with the mark if an empty line follows *)
Inductive tpart := TBlock (b : block) | TTable (rows : list (list pcell)).
Definition wr_tpart (p : tpart) : str := match p with TBlock b => wr_block b | TTable rows => lines_text (map wr_prow rows) end.
Definition tdoc := list (tpart * bool).
Fixpoint wr_tdoc (d : tdoc) : str :=
  match d with
  | [] => []
  | [(p, _)] => wr_tpart p
  | (p, e) :: r => wr_tpart p ++ (if e then [10; 10] else [10]) ++ wr_tdoc r
  end.
(** ** What is shown: the blanks are not *)
Definition bare_block (p : tpart) : block := match p with TBlock b => b | TTable rows => BTable (map (map pc_cell) rows) end.
Fixpoint html_tdoc (strict : bool) (d : tdoc) : str :=
  match d with
  | [] => []
  | [(p, _)] => html_block true strict (bare_block p)
  | (p, e) :: r => html_block true strict (bare_block p) ++ (if e then gap (bare_block p) else [10]) ++ html_tdoc strict r
  end.
(** ** Which documents *)
Definition is_table (p : tpart) : bool := match p with TTable _ => true | TBlock _ => false end.
Definition tpart_ok (p : tpart) : bool :=
  match p with TBlock (BTable _) => false | TBlock b => block_ok true b | TTable rows => ptable_ok rows end.
(** only below a table or a code block the next block may follow without an empty line, but
    not a table below a table *)
Definition may_touch (p q : tpart) : bool :=
  match p with TBlock (BCode _) => true | TTable _ => negb (is_table q) | TBlock _ => false end.
Fixpoint tdoc_ok (d : tdoc) : bool :=
  match d with
  | [] => true
  | (p, e) :: r => tpart_ok p && match r with (q, _) :: _ => e || may_touch p q | [] => true end && tdoc_ok r
  end.
