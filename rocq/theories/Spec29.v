(** * Vocabulary: other ways to write the same html

    The parts of Spec11.v, with names in any case, values in either kind of quotes or in none,
    with any character references (Spec41.v), and free spaces inside tags. *)
From Coq Require Import String List Arith NArith ZArith Bool.
From Verif Require Import PyStr Utils Res HtmlTok Spec2 Spec10 Spec11 Spec41.
Import ListNotations.
Open Scope N_scope.

Definition gap (n : nat) : str := repeat 32 n.
(** the same letters, some of them upper case *)
Definition cased (n n' : str) : Prop := Forall2 (fun c d => d = c \/ (lower_letter c = true /\ c = d + 32)) n n'.
(** values that need no quotes *)
Definition bare_char (c : N) : bool := negb (is_space c || existsb (N.eqb c) [34; 38; 39; 60; 62]).
Definition bare (v : str) : bool := match v with [] => false | c :: _ => negb (c =? 61) end && forallb bare_char v && negb (last v 0 =? 47).
Inductive value_written (v : str) : str -> Prop :=
| in_double : value_written v ($ """" ++ flat_map attr_entity v ++ $ """")
| in_single : ~ In 39 v -> value_written v ($ "'" ++ flat_map attr_entity v ++ $ "'")
| in_none : bare v = true -> value_written v v
| coded_double w : coded v w -> ~ In 34 w -> value_written v ($ """" ++ w ++ $ """")
| coded_single w : coded v w -> ~ In 39 w -> value_written v ($ "'" ++ w ++ $ "'").
Definition attr_written (nv : str * pyval) (s : str) : Prop :=
  exists i n j k w, s = gap (S i) ++ n ++ gap j ++ $ "=" ++ gap k ++ w /\ cased (fst nv) n /\ value_written (value_of (snd nv)) w.
Inductive attrs_written : attrs -> str -> Prop :=
| no_attrs : attrs_written [] []
| more_attrs nv a s t : attr_written nv s -> attrs_written a t -> attrs_written (nv :: a) (s ++ t).
(** block elements are written in lower case *)
Definition name_written (t n : str) : Prop := cased t n /\ (in_names block_elements t = true -> n = t).
Definition ends_quoted (s : str) : Prop := exists u, s = u ++ [34] \/ s = u ++ [39].
Inductive part_written : part -> str -> Prop :=
| open_written t a n s j : name_written t n -> attrs_written a s -> part_written (Open t a) ($ "<" ++ n ++ s ++ gap j ++ $ ">")
| close_written t n j : name_written t n -> part_written (Close t) ($ "</" ++ n ++ gap j ++ $ ">")
| single_written t a n s j : name_written t n -> attrs_written a s -> (j = 0%nat -> ends_quoted s) ->
    part_written (Single t a) ($ "<" ++ n ++ s ++ gap j ++ $ "/>")
| break_written a s j : attrs_written a s -> part_written (Single ($ "br") a) ($ "<br" ++ s ++ gap j ++ $ ">")
| text_written w : part_written (Txt w) w.
(** [s] is the text of the parts in any writing, with any white space for each [Ws] *)
Fixpoint fits_any (l : list part) (s : str) : Prop :=
  match l with
  | [] => s = []
  | Ws :: r => exists w u, forallb is_space w = true /\ s = w ++ u /\ fits_any r u
  | p :: r => exists v u, part_written p v /\ s = v ++ u /\ fits_any r u
  end.
(** [html] is a way to write the document [d], in any spelling *)
Definition spelled (d : list xblock) (html : str) : Prop := fits_any (tm_doc d) html.
