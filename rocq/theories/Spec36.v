(** * Vocabulary: creole documents with any blank lines between their blocks

    As in Spec33.v, for the default [blog_line_breaks=True]. *)
From Coq Require Import String List Arith NArith ZArith Bool.
From Verif Require Import PyStr Utils Spec4 Spec5 Spec33.
Import ListNotations.
Open Scope N_scope.

(** a blank line: white space or nothing *)
Definition blank_line (l : str) : bool := forallb is_space l && no_char [10; 13] l.
(** every block with the blank lines below it *)
Definition fdoc := list (tpart * list str).
Definition wr_lines (ls : list str) : str := flat_map (fun l => l ++ [10]) ls.
Definition wr_ends (ls : list str) : str := flat_map (fun l => [10] ++ l) ls.
Fixpoint wr_fdoc (d : fdoc) : str :=
  match d with
  | [] => []
  | [(p, ls)] => wr_tpart p ++ wr_ends ls
  | (p, ls) :: r => wr_tpart p ++ [10] ++ wr_lines ls ++ wr_fdoc r
  end.

(** ** How many empty lines the html has for them *)
Definition ends_empty (ls : list str) : bool := match rev ls with [] :: _ => true | _ => false end.
Definition shown_lines (table : bool) (ls : list str) : nat :=
  (match ls with [] | [[]] => 0 | _ => if table then 0 else 1 end + (if ends_empty ls then 1 else 0))%nat.
(** the line end of a block; a list has none *)
Definition block_end (p : tpart) : str := match p with TBlock (BList _ _) => [] | _ => [10] end.
Definition html_tpart (strict : bool) (p : tpart) : str := html_block true strict (bare_block p).
Fixpoint html_fdoc (strict : bool) (d : fdoc) : str :=
  match d with
  | [] => []
  | [(p, _)] => html_tpart strict p
  | (p, ls) :: r => html_tpart strict p ++ block_end p ++ repeat 10 (shown_lines (is_table p) ls) ++ html_fdoc strict r
  end.

(** ** Which documents: two paragraphs, two lists, two tables, and a paragraph below a list are
    kept apart by a blank line; between two tables the last one of them is empty *)
Definition may_adjoin (p q : tpart) : bool :=
  match p, q with
  | TBlock (BPara _), TBlock (BPara _) => false
  | TBlock (BList _ _), TBlock (BPara _ | BList _ _) => false
  | TTable _, TTable _ => false
  | _, _ => true
  end.
Fixpoint fdoc_ok (d : fdoc) : bool :=
  match d with
  | [] => true
  | (p, ls) :: r =>
    tpart_ok p && forallb blank_line ls &&
    match r with (q, _) :: _ => may_adjoin p q || negb (Nat.eqb (shown_lines (is_table p) ls) 0) | [] => true end && fdoc_ok r
  end.

(** ** Back to creole: a code block directly below a list is not a block of its own in the html *)
Definition is_list_part (p : tpart) : bool := match p with TBlock (BList _ _) => true | _ => false end.
Definition is_code_part (p : tpart) : bool := match p with TBlock (BCode _) => true | _ => false end.
Fixpoint code_apart (d : fdoc) : bool :=
  match d with
  | [] => true
  | (p, ls) :: r =>
    match r with (q, _) :: _ => negb (is_list_part p && is_code_part q && Nat.eqb (List.length ls) 0) | [] => true end && code_apart r
  end.
Definition blocks_in (d : fdoc) : list block := map (fun x => bare_block (fst x)) d.
