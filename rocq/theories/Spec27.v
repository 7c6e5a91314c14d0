(** * Vocabulary: canonical creole documents with code blocks

    As in Spec12.v, with code blocks, for the default [blog_line_breaks=True]. *)
From Coq Require Import String List Arith NArith ZArith Bool.
From Verif Require Import PyStr Utils Spec2 Spec4 Spec5 Spec11 Spec12 Spec26.
Import ListNotations.
Open Scope N_scope.

(** ** blocks are separated by an empty line, but a code block and the next block only by a newline *)
Fixpoint wr_tight (d : list block) : str :=
  match d with
  | [] => []
  | [b] => wr_block b
  | b :: r => wr_block b ++ match b with BCode _ => [10] | _ => [10; 10] end ++ wr_tight r
  end.
(** ** what is shown *)
Fixpoint html_tight (strict : bool) (d : list block) : str :=
  match d with
  | [] => []
  | [b] => html_block true strict b
  | b :: r => html_block true strict b ++ match b with BCode _ | BList _ _ => [10] | _ => [10; 10] end ++ html_tight strict r
  end.
(** ** Which documents *)
Fixpoint neat_coded (d : list block) : bool :=
  match d with
  | [] => true
  | b :: r => match b with BCode _ => true | _ => neat_block true b end && match r with c :: _ => may_follow b c | [] => true end && neat_coded r
  end.
Definition coded (d : list block) : bool := forallb (block_ok true) d && neat_coded d.
(** ** The html document: what it means *)
Definition code_ents (t : str) : list ent :=
  map (fun c => if c =? 38 then Named ($ "amp") else if c =? 60 then Named ($ "lt") else if c =? 62 then Named ($ "gt") else Text [c]) t.
Definition to_part (b : block) : hpart := match b with BCode lines => HPre (code_ents (lines_text lines)) | _ => HBlock (to_xblock b) end.
