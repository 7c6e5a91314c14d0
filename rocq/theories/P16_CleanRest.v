(** * html2rest on clean html documents (C67)

    Only statements, examples and assumptions; the vocabulary is in Spec11.v and Spec19.v. *)
From Coq Require Import String List Arith NArith ZArith Bool Lia.
From Verif Require Import PyStr Utils Res HtmlBase Html2X HtmlTok Cmdline Spec2 Spec10 Spec11 CleanEmit Spec19 RestEmit RestNames.
Import ListNotations.
Open Scope N_scope.

(** ** C67: a clean html document becomes its reStructuredText, and one in which a text stands for
    two addresses is refused *)
Theorem C67_clean_rest : forall u d html, rst_doc_ok d = true -> written d html ->
  html2rest u html = match rst_doc d with Some t => Ok t | None => Exc ESubstitution end.
Proof. exact clean_rest. Qed.
Print Assumptions C67_clean_rest.

(** Which those are, when no link is in a link: *)
Theorem C67_refused : forall d, forallb plain_link (doc_inls d) = true ->
  ((exists t, rst_doc d = Some t) <-> agree (flat_map link_pairs (doc_inls d)) /\ agree (flat_map image_pairs (doc_inls d))).
Proof. exact rest_refused. Qed.
Print Assumptions C67_refused.

Definition nl : str := [10].
Definition case_doc : list xblock :=
  [ XHead 1 [XText ($ "Title")];
    XPara [XText ($ "see "); XLink ($ "http://x.org/a") [XText ($ "this page")]; XText ($ " "); XRef (Named ($ "amp")); XText ($ " "); XFace ($ "strong") [] [XText ($ "bold")]; XBreak; XImage ($ "a.png") ($ "") ($ "logo"); XText ($ " end")];
    XList false [XI [XText ($ "one")] false [XI [XText ($ "sub")] false []; XI [XLink ($ "http://x.org/a") [XText ($ "this page")]] false []]; XI [XText ($ "two")] false []];
    XTable [[(true, [XText ($ "Name")]); (true, [XText ($ "Link")])]; [(false, [XFace ($ "i") [] [XText ($ "x")]]); (false, [XLink ($ "http://y.org") [XText ($ "why")]])]];
    XRule; XHead 3 [XText ($ "Sub")]; XPara [XImage ($ "a.png") ($ "") ($ "logo"); XText ($ " again "); XLink ($ "http://y.org") [XText ($ "why")]] ].
Definition case_html : str :=
  $ "<h1>Title</h1><p>see <a href=""http://x.org/a"">this page</a> &amp; <strong>bold</strong><br /><img src=""a.png"" title="""" alt=""logo"" /> end</p>" ++ nl ++
  $ "<ul><li>one<ul><li>sub</li><li><a href=""http://x.org/a"">this page</a></li></ul></li><li>two</li></ul>" ++
  $ "<table><tr><th>Name</th><th>Link</th></tr><tr><td><i>x</i></td><td><a href=""http://y.org"">why</a></td></tr></table>" ++
  $ "<hr /><h3>Sub</h3><p><img src=""a.png"" title="""" alt=""logo"" /> again <a href=""http://y.org"">why</a></p>".
Definition case_rest : str :=
  $ "=====" ++ nl ++ $ "Title" ++ nl ++ $ "=====" ++ nl ++ nl ++
  $ "see `this page <http://x.org/a>`_ & **bold**" ++ nl ++ $ "|logo| end" ++ nl ++ nl ++
  $ ".. |logo| image:: a.png" ++ nl ++ nl ++
  $ "* one" ++ nl ++ nl ++ $ "    * sub" ++ nl ++ nl ++ $ "    * `this page`_" ++ nl ++ nl ++ $ "* two" ++ nl ++ nl ++
  $ "+------+--------+" ++ nl ++ $ "| Name | Link   |" ++ nl ++ $ "+======+========+" ++ nl ++ $ "| *x*  | `why`_ |" ++ nl ++ $ "+------+--------+" ++ nl ++ nl ++
  $ ".. _why: http://y.org" ++ nl ++ nl ++
  $ "----" ++ nl ++ nl ++
  $ "Sub" ++ nl ++ $ "===" ++ nl ++ nl ++
  $ "|logo| again `why`_".
Example C67_case : rst_doc_ok case_doc = true /\ rst_doc case_doc = Some case_rest /\ forallb plain_link (doc_inls case_doc) = true.
Proof. vm_compute. auto. Qed.
Example C67_case_written : written case_doc case_html.
Proof. apply fitsb_sound. vm_compute. reflexivity. Qed.
Example C67_case_run : html2rest raise_unknown_node case_html = Ok case_rest.
Proof. rewrite (C67_clean_rest _ case_doc); [vm_compute; reflexivity|vm_compute; reflexivity|exact C67_case_written]. Qed.
(** the same text for two addresses *)
Definition two_doc : list xblock := [XPara [XLink ($ "http://x.org") [XText ($ "here")]; XText ($ " and "); XLink ($ "http://y.org") [XText ($ "here")]]].
Definition two_html : str := $ "<p><a href=""http://x.org"">here</a> and <a href=""http://y.org"">here</a></p>".
Example C67_two : rst_doc_ok two_doc = true /\ rst_doc two_doc = None.
Proof. vm_compute. auto. Qed.
Example C67_two_run : html2rest raise_unknown_node two_html = Exc ESubstitution.
Proof. rewrite (C67_clean_rest _ two_doc); [vm_compute; reflexivity|vm_compute; reflexivity|apply fitsb_sound; vm_compute; reflexivity]. Qed.
Example C67_two_links : flat_map link_pairs (doc_inls two_doc) = [($ "here", $ "http://x.org"); ($ "here", $ "http://y.org")] /\
  ~ agree (flat_map link_pairs (doc_inls two_doc)).
Proof. split; [vm_compute; reflexivity|]. intro A. discriminate (A ($ "here") ($ "http://x.org") ($ "http://y.org") (or_introl eq_refl) (or_intror (or_introl eq_refl))). Qed.

(** What is left out is left out for a reason.  A list of the other kind in a list item gives the
    item its own mark: *)
Theorem C67_mixed_refuted : exists html, html2rest raise_unknown_node html = Ok ($ "#. one" ++ nl ++ nl ++ $ "    #. x" ++ nl ++ nl ++ $ "#. two") /\
  written [XList false [XI [XText ($ "one")] true [XI [XText ($ "x")] true []]; XI [XText ($ "two")] true []]] html.
Proof. exists ($ "<ul><li>one<ol><li>x</li></ol></li><li>two</li></ul>"). split; [vm_compute; reflexivity|apply fitsb_sound; vm_compute; reflexivity]. Qed.
Print Assumptions C67_mixed_refuted.
(** A line break takes the rest of a list item out of the list: *)
Theorem C67_item_refuted : exists html, html2rest raise_unknown_node html = Ok ($ "* one" ++ nl ++ nl ++ $ "more" ++ nl ++ nl ++ $ "* two") /\
  written [XList false [XI [XText ($ "one"); XBreak; XText ($ "more")] false []; XI [XText ($ "two")] false []]] html.
Proof. exists ($ "<ul><li>one<br />more</li><li>two</li></ul>"). split; [vm_compute; reflexivity|apply fitsb_sound; vm_compute; reflexivity]. Qed.
Print Assumptions C67_item_refuted.
(** and leaves a title of two lines, which is none: *)
Theorem C67_title_refuted : exists html, html2rest raise_unknown_node html = Ok ($ "one" ++ nl ++ $ "two" ++ nl ++ $ "=======") /\
  written [XHead 3 [XText ($ "one"); XBreak; XText ($ "two")]] html.
Proof. exists ($ "<h3>one<br />two</h3>"). split; [vm_compute; reflexivity|apply fitsb_sound; vm_compute; reflexivity]. Qed.
Print Assumptions C67_title_refuted.
(** and in a table cell it is written as two backslashes: *)
Theorem C67_cell_refuted : exists html, html2rest raise_unknown_node html = Ok ($ "+------+" ++ nl ++ $ "| a\\b |" ++ nl ++ $ "+------+") /\
  written [XTable [[(false, [XText ($ "a"); XBreak; XText ($ "b")])]]] html.
Proof. exists ($ "<table><tr><td>a<br />b</td></tr></table>"). split; [vm_compute; reflexivity|apply fitsb_sound; vm_compute; reflexivity]. Qed.
Print Assumptions C67_cell_refuted.
