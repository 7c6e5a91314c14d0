(** * Vocabulary: the usual decimal notation of a whole number *)
From Coq Require Import List NArith ZArith Bool.
From Verif Require Import PyStr Spec50.
Import ListNotations.
Open Scope N_scope.

(** a minus sign before the negative ones, ASCII digits, no needless zero in front *)
Definition decimal_of (t : str) (z : Z) : Prop := exists l, l <> [] /\ (forall d, In d l -> d <= 9) /\ (hd 1 l = 0 -> l = [0]) /\
  Z.of_N (value l) = Z.abs z /\ t = (if (z <? 0)%Z then [45] else []) ++ map (fun d => 48 + d) l.
