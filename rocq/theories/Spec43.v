(** * Vocabulary for C94: pages with preformatted areas, and tags that refer to them

    The parser replaces each preformatted area by a tag of its own, [inlinedata] or [blockdata],
    with a number.  A page may contain such tags already. *)
From Coq Require Import String List Arith NArith ZArith Bool.
From Verif Require Import PyStr Utils Res HtmlTok Spec2 Spec7 Spec10 Spec11 Spec26 Spec29 Spec31 Spec32 Spec40.
Import ListNotations.
Open Scope N_scope.

(** a part of a page: a tag or a text, or a preformatted area *)
Inductive item := Piece (p : part) | Area (x : str).
(** no tag in the area, and something on its first line *)
Definition area_ok (x : str) : Prop := ~ In 60 x /\ forallb is_space (first_line x) = false.
Definition item_written (i : item) (v : str) : Prop :=
  match i with
  | Piece p => part_plain p /\ part_written p v
  | Area x => area_ok x /\ v = $ "<pre>" ++ x ++ $ "</pre>"
  end.
Fixpoint items_written (l : list item) (s : str) : Prop :=
  match l with
  | [] => s = []
  | i :: r => exists v u, item_written i v /\ s = v ++ u /\ items_written r u
  end.
(** white space around the page does not matter *)
Definition sheet (l : list item) (html : str) : Prop :=
  exists w s w', html = w ++ s ++ w' /\ white w /\ white w' /\ items_written l s /\ visible s /\ visible_end s.
Definition areas (l : list item) : list str := flat_map (fun i => match i with Piece _ => [] | Area x => [x] end) l.

(** ** the tags of the parser *)
Definition reserved (t : str) : Prop := t = $ "blockdata" \/ t = $ "inlinedata".
Definition not_reserved (p : part) : Prop := forall t a, p = Single t a -> ~ reserved t.
(** numbers Python reads back *)
Definition readable_number (i : Z) : Prop := N.of_nat (List.length (show_N (Z.abs_N i))) <= 4300.
(** the area with the number [i]: they are numbered from 0, or backwards from -1 *)
Definition nth_area (xs : list str) (i : Z) (x : str) : Prop :=
  exists k, nth_error xs k = Some x /\ (i = Z.of_nat k \/ i = Z.of_nat k - Z.of_nat (List.length xs))%Z.
(** a page and the page with the areas written out *)
Inductive written_out (xs : list str) : item -> item -> Prop :=
| out_area x : written_out xs (Area x) (Area x)
| out_piece p : not_reserved p -> written_out xs (Piece p) (Piece p)
| out_tag a i x : source ($ "type") a ($ "pre") -> source ($ "id") a (show_Z i) -> readable_number i -> nth_area xs i x ->
    written_out xs (Piece (Single ($ "inlinedata") a)) (Area x).
(** the tag refers to nothing: it has no number, no kind, the number is not one, or there is no
    such area among the [n] areas of the page *)
Inductive refers_to_nothing (n : nat) (a : attrs) : Prop :=
| no_id : absent ($ "id") a -> refers_to_nothing n a
| no_type : absent ($ "type") a -> refers_to_nothing n a
| no_number s : source ($ "id") a s -> has_letter s = true -> refers_to_nothing n a
| no_area i : source ($ "id") a (show_Z i) -> readable_number i -> (i < - Z.of_nat n \/ Z.of_nat n <= i)%Z -> refers_to_nothing n a.
(** at most 10^4300 - 1 areas *)
Definition few (l : list item) : Prop := forall i, (i < List.length l)%nat -> readable_number (Z.of_nat i).
