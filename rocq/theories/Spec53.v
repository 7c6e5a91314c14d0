(** * Specification vocabulary for C12: the white space before the text of a heading *)
From Coq Require Import List NArith.
From Verif Require Import PyStr Spec Spec4 Spec5.
Import ListNotations.
Open Scope N_scope.

(** the same block, but for the white space between the equal signs of a heading and its text,
    which may be any, line ends and empty lines included *)
Inductive respaced : block -> block -> Prop :=
| same_block : forall b, respaced b b
| head_block : forall n sp sp' t closing, forallb is_space sp' = true -> ~ In 13 sp' ->
    respaced (BHead n sp t closing) (BHead n sp' t closing).
