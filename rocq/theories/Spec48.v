(** * Lines *)
From Coq Require Import List NArith Bool.
From Verif Require Import PyStr Spec4.
Import ListNotations.
Open Scope N_scope.

(** the lines of a text, as [str.splitlines] gives them: without their ends, of which \r\n is one *)
Definition line_ends : list N := [10; 11; 12; 13; 28; 29; 30; 133; 8232; 8233].
Inductive lines_of : str -> list str -> Prop :=
| lo_end : lines_of [] []
| lo_last : forall l, l <> [] -> no_char line_ends l = true -> lines_of l [l]
| lo_crlf : forall l s r, no_char line_ends l = true -> lines_of s r -> lines_of (l ++ 13 :: 10 :: s) (l :: r)
| lo_line : forall l c s r, no_char line_ends l = true -> In c line_ends -> ~ (c = 13 /\ exists s', s = 10 :: s') ->
    lines_of s r -> lines_of (l ++ c :: s) (l :: r).
(** the lines of a file, as they are read: with their ends, which are newlines *)
Inductive read_lines_of : str -> list str -> Prop :=
| rl_end : read_lines_of [] []
| rl_last : forall l, l <> [] -> no_char [10] l = true -> read_lines_of l [l]
| rl_line : forall l s r, no_char [10] l = true -> read_lines_of s r -> read_lines_of (l ++ 10 :: s) ((l ++ [10]) :: r).
(** the lines both have are the same but for blanks at their end *)
Definition lines_agree (new old : str) : Prop :=
  exists ls ls', lines_of new ls /\ read_lines_of old ls' /\
    forall i x y, nth_error ls i = Some x -> nth_error ls' i = Some y -> rstrip x = rstrip y.
