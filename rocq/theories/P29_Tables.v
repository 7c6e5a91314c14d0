(** * Creole tables with blanks in their cells, and blocks right below them (C81)

    Only statements, examples and assumptions; the vocabulary is in Spec4.v, Spec5.v and Spec33.v. *)
From Coq Require Import String List Arith NArith ZArith Bool Lia.
From Verif Require Import PyStr Utils Res HtmlEmitter Spec4 Spec5 Spec33 TableDoc.
Import ListNotations.
Open Scope N_scope.

(** ** C81 *)
Theorem C81_tables : forall v s md d, tdoc_ok d = true -> creole2html (mkopts true v s) md (wr_tdoc d) = (Ok (html_tdoc s d), md).
Proof. exact tdoc_spec. Qed.
Print Assumptions C81_tables.
(** so the blanks make no difference *)
Theorem C81_blanks : forall v s md d d', tdoc_ok d = true -> tdoc_ok d' = true ->
  map (fun x => (bare_block (fst x), snd x)) d = map (fun x => (bare_block (fst x), snd x)) d' ->
  creole2html (mkopts true v s) md (wr_tdoc d) = creole2html (mkopts true v s) md (wr_tdoc d').
Proof. exact tdoc_blanks. Qed.
Print Assumptions C81_blanks.

(** an example: an aligned table between other blocks, with an empty cell *)
Definition plain_cell (h : bool) (t : string) (a b n : nat) : pcell := mkpc (mkcell h [IText ($ t)]) a b n.
Definition C81_doc : tdoc :=
  [ (TBlock (BPara [[IText ($ "text")]]), true);
    (TTable [[plain_cell true "Name" 0 1 1; plain_cell true "n" 2 1 3]; [plain_cell false "x" 1 0 5; mkpc (mkcell false [IFace Bold [IText ($ "1")]]) 1 0 0]; [plain_cell false "yes" 0 0 0; mkpc (mkcell false []) 3 0 0]], false);
    (TBlock (BHead 2 ($ " ") ($ "head") []), true);
    (TTable [[plain_cell false "a" 1 0 1]], false);
    (TBlock (BList false [LI [IText ($ "item")] false []]), true);
    (TTable [[plain_cell false "b" 1 0 1]], true);
    (TTable [[plain_cell false "c" 1 0 1]], false);
    (TBlock (BCode [$ "| code |"]), false);
    (TBlock BRule, true);
    (TTable [[plain_cell false "d" 1 0 1]], false);
    (TBlock (BPara [[IText ($ "end")]; [IText ($ "!")]]), false) ].
Example C81_case : tdoc_ok C81_doc = true /\
  wr_tdoc C81_doc = lines_text [$ "text"; []; $ "|= Name |  = n   |"; $ "| x     | **1**|"; $ "|yes|   |"; $ "== head"; []; $ "| a |"; $ "* item"; []; $ "| b |"; []; $ "| c |"; $ "{{{"; $ "| code |"; $ "}}}"; $ "----"; []; $ "| d |"; $ "end"; $ "!"] /\
  html_tdoc true [(TTable [[plain_cell true "a" 3 4 5; mkpc (mkcell false []) 3 0 0]], false)] =
    lines_text [$ "<table>"; $ "<tr>"; [9] ++ $ "<th>a</th>"; [9] ++ $ "<td></td>"; $ "</tr>"; $ "</table>"] /\
  creole2html (mkopts true None true) no_md (wr_tdoc C81_doc) = (Ok (html_tdoc true C81_doc), no_md).
Proof. vm_compute. auto. Qed.

(** the conditions are needed: a table right below a table continues it *)
Theorem C81_table_below_table_refuted : let d := [(TTable [[plain_cell false "a" 1 0 1]], false); (TTable [[plain_cell false "b" 1 0 1]], false)] in
  (forall p, In p d -> tpart_ok (fst p) = true) /\ fst (creole2html (mkopts true None true) no_md (wr_tdoc d)) <> Ok (html_tdoc true d) /\
  fst (creole2html (mkopts true None true) no_md (wr_tdoc d)) = Ok (html_block true true (BTable [[mkcell false [IText ($ "a")]]; [mkcell false [IText ($ "b")]]])).
Proof. split; [intros p [<-|[<-|[]]]; reflexivity|]. split; [vm_compute; discriminate|vm_compute; reflexivity]. Qed.
Print Assumptions C81_table_below_table_refuted.
(** a cell with nothing between its bars is lost, and one after it is where it should not be *)
Theorem C81_empty_cell_refuted : let d := [(TTable [[mkpc (mkcell false []) 0 0 0; plain_cell false "b" 1 0 1]], false)] in
  wr_tdoc d = $ "|| b |" /\ fst (creole2html (mkopts true None true) no_md (wr_tdoc d)) <> Ok (html_tdoc true d) /\
  fst (creole2html (mkopts true None true) no_md (wr_tdoc d)) = Ok (html_block true true (BTable [[mkcell false [IText ($ "b")]]])).
Proof. split; [reflexivity|]. split; [vm_compute; discriminate|vm_compute; reflexivity]. Qed.
Print Assumptions C81_empty_cell_refuted.
