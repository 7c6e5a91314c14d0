(** * Vocabulary: creole documents with a table of contents

    The blocks are those of Spec5.v; between them stands the tag [<<toc>>], on a line of its
    own.  Nothing here refers to the parser or to the emitter. *)
From Coq Require Import String List NArith ZArith Bool.
From Verif Require Import PyStr Regex Utils Spec4 Spec5 Spec20 Spec22.
Import ListNotations.
Open Scope N_scope.

Inductive titem := TBlock (b : block) | TToc (depth : option N).

(** ** Writing *)
Definition wr_toc (depth : option N) : str :=
  match depth with None => $ "<<toc>>" | Some n => $ "<<toc depth=" ++ show_N n ++ $ ">>" end.
Definition wr_titem (i : titem) : str := match i with TBlock b => wr_block b | TToc d => wr_toc d end.
(** an empty line between them *)
Fixpoint wr_titems (d : list titem) : str :=
  match d with
  | [] => []
  | [i] => wr_titem i
  | i :: r => wr_titem i ++ [10; 10] ++ wr_titems r
  end.

(** ** Which headings are listed *)
(** all before the first tag; after it only those up to its depth (later tags do not matter) *)
Definition within (depth : option N) (level : nat) : bool :=
  match depth with None => true | Some n => N.of_nat level <=? n end.
Fixpoint listed_below (depth : option N) (d : list titem) : list (nat * str) :=
  match d with
  | [] => []
  | TBlock (BHead n _ t _) :: r => if within depth n then (n, t) :: listed_below depth r else listed_below depth r
  | _ :: r => listed_below depth r
  end.
Fixpoint contents (d : list titem) : list (nat * str) :=
  match d with
  | [] => []
  | TBlock (BHead n _ t _) :: r => (n, t) :: contents r
  | TBlock _ :: r => contents r
  | TToc depth :: r => listed_below depth r
  end.

(** ** What is shown *)
(** the lines of nested lists, from depth [d] on; the titles are not escaped *)
Definition line_with (n : nat) (t : str) : str := tabs n ++ t ++ [10].
Definition opened (d n : nat) : str := flat_map (fun k => line_with k ($ "<ul>")) (seq d (n - d)).
Definition closed (d n : nat) : str := flat_map (fun k => line_with k ($ "</ul>")) (rev (seq n (d - n))).
Fixpoint toc_lines (d : nat) (l : list (nat * str)) : str :=
  match l with
  | [] => closed d 1
  | (n, t) :: r => opened d n ++ closed d n ++ line_with n ($ "<li><a href=""#" ++ t ++ $ """>" ++ t ++ $ "</a></li>") ++ toc_lines n r
  end.
Definition html_toc (l : list (nat * str)) : str := $ "<ul>" ++ [10] ++ toc_lines 1 l ++ $ "</ul>".
(** a heading is a target for links to its title *)
Definition html_tblock (blog strict : bool) (b : block) : str :=
  match b with
  | BHead n _ t _ => $ "<a name=""" ++ escape t ++ $ """>" ++ html_block blog strict b ++ $ "</a>"
  | _ => html_block blog strict b
  end.
(** [toc] stands in the place of the first tag; the other tags are shown as they are *)
Fixpoint html_titems (blog strict : bool) (toc : option str) (d : list titem) : str :=
  match d with
  | [] => []
  | TBlock b :: r => html_tblock blog strict b ++ line_end b ++ match r with [] => [] | _ => [10] end ++ html_titems blog strict toc r
  | TToc _ :: r =>
    match toc with Some t => t | None => $ "<p>&lt;&lt;toc&gt;&gt;</p>" end ++ [10] ++
    match r with [] => [] | _ => [10] end ++ html_titems blog strict None r
  end.

(** ** Which documents are unambiguous *)
Definition titem_ok (blog : bool) (i : titem) (t : str) : bool :=
  match i with
  | TBlock b => block_ok blog b
  | TToc d => match d with None => true | Some n => N.of_nat (List.length (show_N n)) <=? 4300 end && negb (closed_in ($ "toc") t)
  end.
Definition titem_after_blank (blog : bool) (i : titem) : bool := match i with TBlock b => after_blank blog b | TToc _ => true end.
Fixpoint titems_ok_from (blog first : bool) (d : list titem) : bool :=
  match d with
  | [] => true
  | i :: r => titem_ok blog i (match r with [] => [] | _ => [10; 10] ++ wr_titems r end) && (first || titem_after_blank blog i) && titems_ok_from blog false r
  end.
Definition titems_ok (blog : bool) (d : list titem) : bool := titems_ok_from blog true d.
Definition has_toc (d : list titem) : bool := existsb (fun i => match i with TToc _ => true | _ => false end) d.
