(** * Vocabulary for C91: html of any shape, laid out in another way

    [relaid html html']: the two pages differ only in white space that does not count. *)
From Coq Require Import String List Arith NArith ZArith Bool.
From Verif Require Import PyStr Utils Res HtmlTok Spec2 Spec10 Spec11 Spec29 Spec31.
Import ListNotations.
Open Scope N_scope.

Definition white (w : str) : Prop := forallb is_space w = true.
(** any sequence of tags and texts *)
Definition page (s : str) : Prop := exists ps, soup ps s.
(** [v] is one tag; [p] says which *)
Definition block_level (t : str) : bool := in_names block_elements t.
Definition written_tag (p : part) (v : str) : Prop := part_plain p /\ part_written p v.
Definition block_tag (v : str) : Prop :=
  exists t a, block_level t = true /\ (written_tag (Open t a) v \/ written_tag (Close t) v \/ written_tag (Single t a) v).
Definition paired_tag (v : str) : Prop :=
  exists t a, block_level t = false /\ (written_tag (Open t a) v \/ written_tag (Close t) v).
Definition inline_tag (v : str) : Prop :=
  paired_tag v \/ exists t a, block_level t = false /\ written_tag (Single t a) v.

(** the page ends in a sign of a text; begins with a tag or a sign of a text *)
Definition in_text (X : str) : Prop := exists X' c, X = X' ++ [c] /\ is_space c = false /\ c <> 62.
Definition visible (Y : str) : Prop := exists c Y', Y = c :: Y' /\ is_space c = false.
Definition visible_end (X : str) : Prop := exists X' c, X = X' ++ [c] /\ is_space c = false.

(** white space in front of an inline tag counts if it begins with a space or goes over lines;
    white space behind it, if it ends in a space or goes over lines.  (A tab does not count.) *)
Definition newlines (w : str) : nat := count_occ N.eq_dec w 10.
Definition over_lines (w : str) : bool := existsb (N.eqb 10) w.
Definition counts_before (w : str) : bool := over_lines w || match w with c :: _ => c =? 32 | [] => false end.
Definition counts_after (w : str) : bool := over_lines w || match rev w with c :: _ => c =? 32 | [] => false end.
Definition sp (b : bool) : str := if b then [32] else [].

Inductive relaid : str -> str -> Prop :=
| re_same X : relaid X X
| re_back X Y : relaid X Y -> relaid Y X
| re_then X Y Z : relaid X Y -> relaid Y Z -> relaid X Z
(** at the ends of the page *)
| re_ends X w w' : page X -> white w -> white w' -> relaid (w ++ X ++ w') X
(** lines: each newline is a space, what else stands there does not count *)
| re_lines X w Y : page X -> visible_end X -> page Y -> visible Y -> white w -> over_lines w = true ->
    relaid (X ++ w ++ Y) (X ++ repeat 32 (newlines w) ++ Y)
(** beside block tags *)
| re_after_block X v w Y : page X -> page Y -> block_tag v -> white w -> relaid (X ++ v ++ w ++ Y) (X ++ v ++ Y)
| re_before_block X v w Y : page X -> in_text X -> page Y -> block_tag v -> white w -> relaid (X ++ w ++ v ++ Y) (X ++ v ++ Y)
(** beside inline tags *)
| re_before_inline X v w Y : page X -> in_text X -> page Y -> inline_tag v -> white w ->
    relaid (X ++ w ++ v ++ Y) (X ++ sp (counts_before w) ++ v ++ Y)
| re_after_inline X v w Y : page X -> page Y -> visible Y -> inline_tag v -> white w ->
    relaid (X ++ v ++ w ++ Y) (X ++ v ++ sp (counts_after w) ++ Y)
(** a space before, after or on both sides of an opening or a closing tag is the same *)
| re_before_after X v Y : page X -> in_text X -> page Y -> visible Y -> paired_tag v ->
    relaid (X ++ $ " " ++ v ++ Y) (X ++ v ++ $ " " ++ Y)
| re_both X v Y : page X -> in_text X -> page Y -> visible Y -> paired_tag v ->
    relaid (X ++ $ " " ++ v ++ $ " " ++ Y) (X ++ v ++ $ " " ++ Y).
