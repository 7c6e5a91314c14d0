(** * Specification vocabulary for C102: tables inside of tables *)
From Coq Require Import String List NArith.
From Verif Require Import PyStr.
Import ListNotations.

(** a page with one letter in [n] tables *)
Fixpoint nested (n : nat) : str :=
  match n with
  | O => $ "x"
  | S m => $ "<table><tr><td>" ++ nested m ++ $ "</td></tr></table>"
  end.
