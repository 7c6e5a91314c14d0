(** * Creole documents with tables: to html and back (C82)

    Only statements, examples and assumptions; the vocabulary is in Spec26.v, Spec33.v and Spec34.v. *)
From Coq Require Import String List Arith NArith ZArith Bool Lia.
From Verif Require Import PyStr Utils Res HtmlTok HtmlBase Html2X HtmlEmitter Spec2 Spec4 Spec5 Spec10 Spec11 Spec12 Spec26 Spec27 Spec33 Spec34 TableTrip.
Import ListNotations.
Open Scope N_scope.

(** ** C82 *)
Theorem C82_table_trip : forall v s md u strict d, tidy d = true -> countable (map to_hpart d) ->
  exists html, creole2html (mkopts true v s) md (wr_tdoc (laid d)) = (Ok html, md) /\ html2creole u strict html = Ok (wr_tdoc (laid d)).
Proof. exact table_trip. Qed.
Print Assumptions C82_table_trip.
(** any other layout, with other blanks in the cells and other empty lines, comes back in this one *)
Theorem C82_any_layout : forall v s md u strict d d', tidy d = true -> countable (map to_hpart d) -> tdoc_ok d' = true -> map (fun x => bare_block (fst x)) d' = d ->
  exists html, creole2html (mkopts true v s) md (wr_tdoc d') = (Ok html, md) /\ html2creole u strict html = Ok (wr_tdoc (laid d)).
Proof. exact table_back. Qed.
Print Assumptions C82_any_layout.
(** from html, written in any way *)
Theorem C82_html_trip : forall v s md u strict d html, tidy d = true -> countable (map to_hpart d) -> pwritten (map to_hpart d) html ->
  exists t, html2creole u strict html = Ok t /\ creole2html (mkopts true v s) md t = (Ok (html_tdoc s (laid d)), md).
Proof. exact table_html_trip. Qed.
Print Assumptions C82_html_trip.

Definition txt (h : bool) (t : string) : cell := mkcell h [IText ($ t)].
Definition case_doc : list block :=
  [ BHead 1 ($ " ") ($ "Prices") [];
    BTable [[txt true "Item"; txt true "Price"]; [txt false "green tea"; mkcell false [IText ($ "1"); IBreak; IFace Bold [IText ($ "2")]]]; [mkcell false []; mkcell false [ILink ($ "x.html") (Some ($ "more"))]]];
    BPara [[IText ($ "text")]]; BTable [[txt false "a"]]; BList false [LI [IText ($ "b")] false []]; BTable [[txt false "c"]]; BCode [$ "| d |"]; BTable [[txt false "e"]] ].
Example C82_case : tidy case_doc = true /\ wr_tdoc (laid case_doc) =
  lines_text [$ "= Prices"; [];
    $ "|= Item     |= Price          |";
    $ "| green tea | 1\\**2**        |";
    $ "|           | [[x.html|more]] |"; 
    $ "text"; []; $ "| a |"; $ "* b"; []; $ "| c |"; $ "{{{"; $ "| d |"; $ "}}}"; $ "| e |"].
Proof. split; vm_compute; reflexivity. Qed.
Example C82_case_countable : countable (map to_hpart case_doc).
Proof. intros i H. change (List.length (map to_hpart case_doc)) with 8%nat in H. do 8 (destruct i as [|i]; [vm_compute; discriminate|]). lia. Qed.
(** the same table in another layout *)
Definition case_other : tdoc :=
  [ (TTable [[mkpc (txt true "Item") 0 0 0; mkpc (txt true "Price") 3 3 3]; [mkpc (txt false "tea") 0 0 0; mkpc (mkcell false []) 1 0 0]], true); (TBlock (BPara [[IText ($ "text")]]), false) ].
Example C82_other : tdoc_ok case_other = true /\ tidy (map (fun x => bare_block (fst x)) case_other) = true /\
  wr_tdoc case_other = lines_text [$ "|=Item|   =   Price   |"; $ "|tea| |"; []; $ "text"] /\
  wr_tdoc (laid (map (fun x => bare_block (fst x)) case_other)) = lines_text [$ "|= Item |= Price |"; $ "| tea   |        |"; $ "text"].
Proof. repeat split; vm_compute; reflexivity. Qed.

(** the conditions are needed *)
Definition back (t : str) : res str := match fst (creole2html default_opts no_md t) with Ok html => html2creole transparent_unknown_nodes false html | Exc e => Exc e end.
(** two tables with an empty line between them become one *)
Theorem C82_two_tables_refuted : back (lines_text [$ "| a |"; []; $ "| b |"]) = Ok (lines_text [$ "| a |"; $ "| b |"]).
Proof. vm_compute. reflexivity. Qed.
Print Assumptions C82_two_tables_refuted.
(** an empty column gets lost in two trips *)
Theorem C82_empty_column_refuted : back (lines_text [$ "| | a |"]) = Ok (lines_text [$ "|| a |"]) /\ back (lines_text [$ "|| a |"]) = Ok (lines_text [$ "| a |"]).
Proof. split; vm_compute; reflexivity. Qed.
Print Assumptions C82_empty_column_refuted.
(** white space beside a line break is dropped *)
Theorem C82_break_space_refuted : back (lines_text [$ "| a\\ b |"]) <> Ok (lines_text [$ "| a\\ b |"]).
Proof. vm_compute. discriminate. Qed.
Print Assumptions C82_break_space_refuted.
