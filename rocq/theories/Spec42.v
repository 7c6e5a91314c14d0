(** * Vocabulary for C93: a page that breaks off

    [cut_off t]: [t] is the beginning of a tag, a declaration or a reference whose end is missing. *)
From Coq Require Import String List Arith NArith ZArith Bool.
From Verif Require Import PyStr.
Import ListNotations.
Open Scope N_scope.

Definition within (a b c : N) : bool := (a <=? c) && (c <=? b).
Definition ascii_letter (c : N) : bool := within 97 122 c || within 65 90 c.
Definition ascii_digit (c : N) : bool := within 48 57 c.
Definition hex_digit (c : N) : bool := ascii_digit c || within 97 102 c || within 65 70 c.

Inductive cut_off : str -> Prop :=
(** nothing but the sign with which a tag begins *)
| cut_lone : cut_off ($ "<")
(** an opening tag: anything may stand in it, quotes need not be closed *)
| cut_opening c x : ascii_letter c = true -> ~ In 62 x -> ~ In 0 x -> cut_off ($ "<" ++ c :: x)
| cut_closing x : ~ In 62 x -> cut_off ($ "</" ++ x)
(** comments, declarations, processing instructions *)
| cut_declaration x : ~ In 62 x -> (forall y, x <> 91 :: y) -> cut_off ($ "<!" ++ x)
| cut_instruction x : ~ In 62 x -> cut_off ($ "<?" ++ x)
(** references *)
| cut_sign : cut_off ($ "&")
| cut_name c n : ascii_letter c = true -> forallb (fun c => ascii_letter c || ascii_digit c) n = true -> cut_off ($ "&" ++ c :: n)
| cut_number n : forallb ascii_digit n = true -> cut_off ($ "&#" ++ n)
| cut_hexadecimal x n : x = 120 \/ x = 88 -> forallb hex_digit n = true -> cut_off ($ "&#" ++ x :: n).
