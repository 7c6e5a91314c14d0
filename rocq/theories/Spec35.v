(** * Vocabulary: documents converted one after the other with one dictionary of macros *)
From Coq Require Import String List NArith ZArith Bool.
From Verif Require Import PyStr Utils Res HtmlEmitter Spec4 Spec5 Spec20 Spec22 Spec23.
Import ListNotations.
Open Scope N_scope.

(** the results of the calls, the dictionary being handed on from call to call *)
Fixpoint in_turn (md : mdict) (calls : list (opts * str)) : list (res str) :=
  match calls with
  | [] => []
  | (o, s) :: r => fst (creole2html o md s) :: in_turn (snd (creole2html o md s)) r
  end.

(** a document without the tag: the headings are not targets *)
Fixpoint blocks_of (d : list titem) : list block :=
  match d with
  | [] => []
  | TBlock b :: r => b :: blocks_of r
  | TToc _ :: r => blocks_of r
  end.

(** [spent]: a document before this one had the tag.  From then on the tag is shown as it is. *)
Definition shown_now (spent blog strict : bool) (d : list titem) : str :=
  if has_toc d
  then strip (html_titems blog strict (if spent then None else Some (html_toc (contents d))) d)
  else html_doc blog strict (blocks_of d).
Fixpoint shown_in_turn (spent : bool) (calls : list (opts * list titem)) : list str :=
  match calls with
  | [] => []
  | (o, d) :: r => shown_now spent (o_blog o) (o_strict o) d :: shown_in_turn (spent || has_toc d) r
  end.
(** the calls, with the documents as text *)
Definition written_calls (calls : list (opts * list titem)) : list (opts * str) := map (fun x => (fst x, wr_titems (snd x))) calls.
