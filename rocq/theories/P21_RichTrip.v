(** * html with unknown tags: to creole with the macro html, and back (C73)

    Only statements, examples and assumptions; the vocabulary is in Spec25.v. *)
From Coq Require Import String List Arith NArith ZArith Bool Lia.
From Verif Require Import PyStr Utils Res HtmlTok HtmlBase Html2X HtmlEmitter ExampleMacros Spec2 Spec4 Spec5 Spec7 Spec10 Spec11 Spec12 Spec20 Spec22 Spec24 CleanEmit Spec25 RichTrip.
Import ListNotations.
Open Scope N_scope.

(** ** C73 *)
Theorem C73_there_and_back : forall blog v s strict d html, rdoc_ok blog d = true -> written (map rpart_x d) html ->
  html2creole use_html_macro strict html = Ok (wr_parts (map rpart_creole d)) /\ fst (creole2html (mkopts blog v s) example_md (wr_parts (map rpart_creole d))) = Ok (rdoc_html blog s d).
Proof. exact rich_trip. Qed.
Print Assumptions C73_there_and_back.

Definition case_doc : list rpart :=
  [ RPara [[RPlain (IText ($ "see ")); RElem ($ "kbd") [($ "id", VStr ($ "k")); ($ "class", VStr ($ "x y"))] [IText ($ "the "); IFace Bold [IText ($ "key")]]; RPlain (IText ($ " & ")); RElem ($ "wbr") [] []];
           [RPlain (IText ($ "two"))]];
    RBlock (BHead 2 ($ " ") ($ "Title") []);
    RPara [[RPlain (IFace Italic [IText ($ "x")]); RElem ($ "q") [] [IText ($ "y")]]] ].
Definition nl : str := [10].
Definition case_html : str := $ "<p>see <kbd id=""k"" class=""x y"">the <strong>key</strong></kbd> &amp; <wbr></wbr><br /> two</p> <h2>Title</h2> <p><i>x</i><q>y</q></p>".
Example C73_case : rdoc_ok true case_doc = true /\ html2creole use_html_macro true case_html = Ok (
    $ "see <<html>><kbd class=""x y"" id=""k""><</html>>the **key**<<html>></kbd><</html>> & <<html>><wbr /><</html>>" ++ nl ++ $ "two" ++ nl ++ nl ++
    $ "== Title" ++ nl ++ nl ++ $ "//x//<<html>><q><</html>>y<<html>></q><</html>>") /\
  rdoc_html true false case_doc = $ "<p>see <kbd class=""x y"" id=""k"">the <strong>key</strong></kbd> &amp; <wbr /><br />" ++ nl ++ $ "two</p>" ++ nl ++ nl ++ $ "<h2>Title</h2>" ++ nl ++ nl ++ $ "<p><i>x</i><q>y</q></p>".
Proof. split; [vm_compute; reflexivity|]. split; [vm_compute; reflexivity|]. vm_compute. reflexivity. Qed.
Example C73_case_written : written (map rpart_x case_doc) case_html.
Proof. apply fitsb_sound. vm_compute. reflexivity. Qed.
Theorem C73_and_again : forall blog v s strict d, rdoc_ok blog d = true -> rdoc_steady d = true ->
  exists html, fst (creole2html (mkopts blog v s) example_md (wr_parts (map rpart_creole d))) = Ok html /\ html2creole use_html_macro strict html = Ok (wr_parts (map rpart_creole d)).
Proof. exact rich_again. Qed.
Print Assumptions C73_and_again.
Definition case_steady : list rpart :=
  [ RPara [[RPlain (IText ($ "see ")); RElem ($ "kbd") [($ "class", VStr ($ "x y")); ($ "id", VStr ($ "k"))] [IText ($ "the "); IFace Bold [IText ($ "key")]]; RPlain (IText ($ " & more"))]; [RPlain (IText ($ "two"))]];
    RBlock (BHead 2 ($ " ") ($ "Title") []) ].
Example C73_case_again : rdoc_ok true case_steady = true /\ rdoc_steady case_steady = true.
Proof. split; vm_compute; reflexivity. Qed.
(** an element at the start of a line is a block for creole: the paragraph around it is broken up *)
Theorem C73_line_start_refuted : ~ (forall t w u html, inline_tag t = true -> html = $ "<p><" ++ t ++ $ ">" ++ w ++ $ "</" ++ t ++ $ ">" ++ u ++ $ "</p>" -> forallb decimal w = true -> forallb decimal u = true ->
  match html2creole use_html_macro true html with Ok c => fst (creole2html default_opts example_md c) = Ok html | Exc _ => False end).
Proof. intro H. specialize (H ($ "q") ($ "1") ($ "2") _ eq_refl eq_refl eq_refl eq_refl). vm_compute in H. discriminate H. Qed.
Print Assumptions C73_line_start_refuted.
