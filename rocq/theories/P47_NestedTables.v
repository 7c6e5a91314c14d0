(** * C102: tables inside of tables *)
From Coq Require Import String List Arith NArith.
From Verif Require Import PyStr Res HtmlBase Html2X Spec52 TableNest.
Import ListNotations.
Open Scope nat_scope.

(** ** C102: a table inside of a cell of another table is written again and again

    [BaseEmitter] keeps one table at a time: the inner table takes the place of the outer one, the
    cells of the outer table are added to it, and both of them are written.  Every further level
    doubles the result, although the page grows by 33 characters only. *)
Theorem C102_doubling : forall (u : unknown) (strict : bool) (n : nat),
  List.length (nested n) = (33 * n + 1)%nat /\
  exists c t m r,
    html2creole u strict (nested (S n)) = Ok c /\ html2textile u (nested (S n)) = Ok t /\
    html2markdown u (nested (S n)) = Ok m /\ html2rest u (nested (S n)) = Ok r /\
    (2 ^ n < List.length c /\ 2 ^ n < List.length t /\ 2 ^ n < List.length m /\ 2 ^ n < List.length r)%nat.
Proof. intros u strict n. split; [exact (nested_length n) | exact (nested_all u strict n)]. Qed.
Print Assumptions C102_doubling.

(** The size of the results is not bounded by any polynomial in the size of the page: for all
    [c] and [k] there is a page that is longer than [c * size ^ k] in each of the four formats. *)
Theorem C102_size_refuted : forall (u : unknown) (strict : bool) (c k : nat), exists html a t m r,
  html2creole u strict html = Ok a /\ html2textile u html = Ok t /\
  html2markdown u html = Ok m /\ html2rest u html = Ok r /\
  Forall (fun res => (c * List.length html ^ k < List.length res)%nat) [a; t; m; r].
Proof. exact nested_size. Qed.
Print Assumptions C102_size_refuted.

(** one cell with a table gives two cells, and the text of the inner table twice *)
Example C102_two : nested 2 = $ "<table><tr><td><table><tr><td>x</td></tr></table></td></tr></table>" /\
  html2creole raise_unknown_node true (nested 2) = Ok ($ "| x | | x | |") /\ html2textile raise_unknown_node (nested 2) = Ok ($ "|x||x||").
Proof. vm_compute. auto. Qed.
