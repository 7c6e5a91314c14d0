(** * Vocabulary: lists whose items start with any sequence of bullets

    A line of a list is one or more [*] or [#], a space and the item's text.  The number of
    bullets is the depth, the last bullet says whether the item is numbered.  A line may jump
    to any depth and change the kind at any depth.  The html is written line by line: the only
    memory is the stack of the lists that are still open, innermost first. *)
From Coq Require Import String List Arith NArith ZArith Bool.
From Verif Require Import PyStr Utils Spec4 Spec5.
Import ListNotations.
Open Scope N_scope.

Record lline := mkline { l_bullets : str; l_text : list inl }.
Definition l_depth (x : lline) : nat := (List.length (l_bullets x) - 1)%nat.
Definition l_numbered (x : lline) : bool := last_is (N.eqb 35) (l_bullets x).
Definition wr_line (x : lline) : str := l_bullets x ++ $ " " ++ wr_inls (l_text x).
Definition wr_free (ls : list lline) : str := lines_text (map wr_line ls).

Definition line_fine (x : lline) : bool := nonempty (l_bullets x) && forallb bullet (l_bullets x) && item_text_ok (l_text x).
(** the first line of a list has one bullet; nothing is asked of the bullets of the other lines *)
Definition free_ok (ls : list lline) : bool :=
  match ls with [] => false | x :: _ => Nat.eqb (List.length (l_bullets x)) 1 && forallb line_fine ls end.

(** the lists that are open, innermost first: numbered?, depth *)
Definition opens : Type := list (bool * nat).
(** how many open lists an item of that kind and depth ends: those inside of the innermost list of
    the same depth, if that one is of the same kind; [None]: it begins a list of its own *)
Fixpoint joins (numbered : bool) (depth : nat) (open : opens) : option nat :=
  match open with
  | [] => None
  | (o, d) :: r =>
    if Nat.eqb d depth then (if Bool.eqb o numbered then Some O else None)
    else match joins numbered depth r with Some n => Some (S n) | None => None end
  end.

Definition end_list (x : bool * nat) : str := $ "</li>" ++ [10] ++ tabs (snd x) ++ $ "</" ++ list_tag (fst x) ++ $ ">".
Definition start_list (x : bool * nat) : str := tabs (snd x) ++ $ "<" ++ list_tag (fst x) ++ $ ">".
Definition start_item (strict : bool) (depth : nat) (t : list inl) : str :=
  [10] ++ tabs (S depth) ++ $ "<li>" ++ html_inls strict (br ++ tabs (S depth)) t.
Fixpoint html_rest (strict : bool) (open : opens) (ls : list lline) : str :=
  match ls with
  | [] => flat_map end_list open
  | x :: r =>
    let o := l_numbered x in
    let d := l_depth x in
    match joins o d open with
    | Some n =>                     (* the next item of an open list *)
      flat_map end_list (firstn n open) ++ $ "</li>" ++ start_item strict d (l_text x) ++ html_rest strict (skipn n open) r
    | None =>                       (* a new list inside of the last item *)
      [10] ++ start_list (o, d) ++ start_item strict d (l_text x) ++ html_rest strict ((o, d) :: open) r
    end
  end.
Definition html_free (strict : bool) (ls : list lline) : str :=
  match ls with
  | [] => []
  | x :: r => start_list (l_numbered x, l_depth x) ++ start_item strict (l_depth x) (l_text x) ++
              html_rest strict [(l_numbered x, l_depth x)] r
  end.

(** documents of such lists and of the blocks of Spec5.v *)
Inductive fblock := FBlock (b : block) | FList (lines : list lline).
Definition wr_fblock (b : fblock) : str := match b with FBlock b => wr_block b | FList ls => wr_free ls end.
Fixpoint wr_fdoc (d : list fblock) : str :=
  match d with
  | [] => []
  | [b] => wr_fblock b
  | b :: r => wr_fblock b ++ [10; 10] ++ wr_fdoc r
  end.
Definition html_fblock (blog strict : bool) (b : fblock) : str :=
  match b with FBlock b => html_block blog strict b | FList ls => html_free strict ls end.
Definition fgap (b : fblock) : str := match b with FBlock b => gap b | FList _ => [10] end.
Fixpoint html_fdoc (blog strict : bool) (d : list fblock) : str :=
  match d with
  | [] => []
  | [b] => html_fblock blog strict b
  | b :: r => html_fblock blog strict b ++ fgap b ++ html_fdoc blog strict r
  end.
Definition fblock_ok (blog : bool) (b : fblock) : bool := match b with FBlock b => block_ok blog b | FList ls => free_ok ls end.
Definition f_after_blank (blog : bool) (b : fblock) : bool := match b with FBlock b => after_blank blog b | FList _ => true end.
Definition fdoc_ok (blog : bool) (d : list fblock) : bool :=
  forallb (fblock_ok blog) d && forallb (f_after_blank blog) (tl d).
