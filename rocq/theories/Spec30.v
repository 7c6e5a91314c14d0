(** * Vocabulary: parts of html that are not shown

    Comments, document type declarations, processing instructions, conditions (<![if ...]>) and
    marked sections (<![CDATA[...]]>) between the tags of a document (Spec11.v, Spec29.v). *)
From Coq Require Import String List Arith NArith ZArith Bool.
From Verif Require Import PyStr Utils Res HtmlTok Spec2 Spec10 Spec11 Spec29.
Import ListNotations.
Open Scope N_scope.

(** without angle brackets *)
Definition quiet (x : str) : bool := forallb (fun c => negb (existsb (N.eqb c) [60; 62])) x.
(** no letter, digit, hyphen, point or underscore at the beginning *)
Definition name_ends (x : str) : Prop := match x with [] => True | c :: _ => letter c || dec c || existsb (N.eqb c) [45; 46; 95] = false end.
Inductive unseen : str -> Prop :=
| comment_unseen x w : quiet x = true -> forallb is_space w = true -> unseen ($ "<!--" ++ x ++ $ "--" ++ w ++ $ ">")
| doctype_unseen k x : cased ($ "doctype") k -> quiet x = true -> unseen ($ "<!" ++ k ++ x ++ $ ">")
| instruction_unseen x : quiet x = true -> unseen ($ "<?" ++ x ++ $ ">")
| declaration_unseen x : quiet x = true -> match x with [] => True | c :: _ => c <> 45 /\ c <> 91 end -> unseen ($ "<!" ++ x ++ $ ">")
| condition_unseen n k x w : In n [$ "if"; $ "else"; $ "endif"] -> cased n k -> quiet x = true -> name_ends x -> forallb is_space w = true ->
    unseen ($ "<![" ++ k ++ x ++ $ "]" ++ w ++ $ ">")
| section_unseen n k x v w : In n [$ "cdata"; $ "temp"; $ "ignore"; $ "include"; $ "rcdata"] -> cased n k -> quiet x = true -> name_ends x ->
    forallb is_space v = true -> forallb is_space w = true -> unseen ($ "<![" ++ k ++ x ++ $ "]" ++ v ++ $ "]" ++ w ++ $ ">").
Inductive unseens : str -> Prop :=
| unseens_nil : unseens []
| unseens_more h t : unseen h -> unseens t -> unseens (h ++ t).
Definition block_part (p : part) : bool :=
  match p with Open t _ | Close t | Single t _ => in_names block_elements t | _ => false end.
(** [s] is the text of the parts in any writing, with any white space for each [Ws], and with
    unseen parts directly before tags and at the end; [b]: they may stand here, which is at
    the beginning and directly after the tag of a block element or a line break *)
Fixpoint fits_more (b : bool) (l : list part) (s : str) : Prop :=
  match l with
  | [] => unseens s /\ (b = false -> s = [])
  | Ws :: r => exists w u, forallb is_space w = true /\ s = w ++ u /\ fits_more (b && is_nil w) r u
  | Txt w :: r => exists u, s = w ++ u /\ fits_more false r u
  | p :: r => exists h v u, unseens h /\ (b = false -> h = []) /\ part_written p v /\ s = h ++ v ++ u /\ fits_more (block_part p) r u
  end.
(** [html] is a way to write the document [d] *)
Definition annotated (d : list xblock) (html : str) : Prop := fits_more true (tm_doc d) html.
