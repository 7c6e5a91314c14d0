(** * Vocabulary of the properties of paragraphs: plain text, escaped text, typefaces

    Nothing here refers to the parser. *)
From Coq Require Import String List NArith ZArith Bool.
From Verif Require Import PyStr Utils Spec4 Spec5.
Import ListNotations.
Open Scope N_scope.

(** ** Plain text: no doubled mark, no tilde, no :// and no line end *)
Fixpoint doubled (t : str) : bool :=
  match t with
  | [] => false
  | c :: t' => (existsb (N.eqb c) doubles && head_is (N.eqb c) t') || doubled t'
  end.
Definition plain_text (t : str) : bool :=
  no_char [10; 13; 126] t && negb (doubled t) && negb (contains ($ "://") t).
(** a line of plain text that is not the start of a heading, list or table and does not end in a
    backslash *)
Definition plain_line (t : str) : bool :=
  truthy t && plain_text t && negb (head_is is_space t) &&
  negb (head_is (fun c => existsb (N.eqb c) ($ "=|*#")) t) && negb (last_is (N.eqb 92) t).
(** the lines as they are shown in a paragraph *)
Fixpoint shown_lines (blog : bool) (lines : list str) : str :=
  match lines with
  | [] => []
  | [x] => escape x
  | x :: r => escape x ++ (if blog then $ "<br />" ++ [10] else $ " ") ++ shown_lines blog r
  end.

(** ** Text with a tilde before every visible character *)
Definition tilded (t : str) : str := flat_map (fun c => if is_space c then [c] else [126; c]) t.

(** ** Typefaces: text without marks and colons, no typeface inside of itself *)
Definition marks : list N := [91; 123; 60; 42; 47; 35; 95; 94; 44; 45; 92; 126; 58; 10; 13].
Definition face_eqb (f g : face) : bool := face_mark f =? face_mark g.
Fixpoint typeface_ok (around : list face) (i : inl) : bool :=
  match i with
  | IText w => truthy w && no_char marks w
  | IFace f body => negb (existsb (face_eqb f) around) && nonempty body && forallb (typeface_ok (f :: around)) body
  | _ => false
  end.

(** ** A paragraph of plain text, one inline element, and plain text

    [c] is the character the element starts with: it must not stand directly before it. *)
Definition around_ok (c : N) (before after : str) : bool :=
  plain_text before && plain_text after && negb (last_is (N.eqb c) before).
