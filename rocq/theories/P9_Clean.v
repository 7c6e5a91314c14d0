(** * html2creole on clean html documents (C39)

    Only statements, examples and assumptions; the vocabulary is in Spec11.v. *)
From Coq Require Import String List Arith NArith ZArith Bool Lia.
From Verif Require Import PyStr Utils Res HtmlBase Html2X HtmlTok Spec2 Spec10 Spec11 CleanEmit.
Import ListNotations.
Open Scope N_scope.

(** ** C39 *)
Theorem C39_clean_document : forall u strict d html, xdoc_ok d = true -> written d html -> html2creole u strict html = Ok (cre_doc d).
Proof. exact clean_creole. Qed.
Print Assumptions C39_clean_document.
(** every document can be written *)
Theorem C39_written : forall d, exists html, written d html.
Proof. exact written_some. Qed.
Print Assumptions C39_written.

Definition case_doc : list xblock :=
  [ XHead 2 [XText ($ "A "); XFace ($ "b") [] [XText ($ "bold")]; XText ($ " title")];
    XList false [XI [XText ($ "one")] true [XI [XText ($ "in"); XBreak; XText ($ "two lines")] false []];
                 XI [XLink ($ "http://x.org/?a=""b""&c") [XText ($ "text "); XFace ($ "i") [] [XRef (Named ($ "amp"))]]] false []];
    XPara [XText ($ "x "); XRef (Named ($ "lt")); XText ($ " y"); XBreak; XImage ($ "i.png") ($ "t") ($ "a")];
    XRule;
    XTable [[(true, [XText ($ "h")]); (true, [XText ($ "long head")])]; [(false, []); (false, [XText ($ "a"); XBreak; XText ($ "b")])]];
    XPara [XLink ($ "u") [XText ($ "u")]] ].
Definition nl : str := [10].
Definition case_html : str := nl ++
  $ "<h2> A <b>bold</b> title</h2>" ++ nl ++
  $ "<ul>" ++ nl ++ $ "  <li>one" ++ nl ++ $ "    <ol><li>in <br />  two lines</li></ol></li>" ++ nl ++
  $ "  <li><a href=""http://x.org/?a=&quot;b&quot;&amp;c"">text <i>&amp;</i></a></li></ul>" ++ nl ++
  $ "<p>x &lt; y<br />" ++ nl ++ $ "<img src=""i.png"" title=""t"" alt=""a"" /></p>" ++ nl ++
  $ "<hr />" ++ nl ++
  $ "<table>" ++ nl ++ $ "<tr> <th>h</th><th>long head</th> </tr>" ++ nl ++ $ "<tr><td></td><td>a<br />b</td></tr></table>" ++ nl ++
  $ "<p><a href=""u"">u</a></p>".
Definition case_creole : str :=
  $ "== A **bold** title" ++ nl ++ nl ++ nl ++ nl ++
  $ "* one" ++ nl ++ $ "*# in\\two lines" ++ nl ++ $ "* [[http://x.org/?a=""b""&c|text //&//]]" ++ nl ++ nl ++
  $ "x < y" ++ nl ++ $ "{{i.png|t}}" ++ nl ++ nl ++
  $ "----" ++ nl ++ nl ++
  $ "|= h |= long head |" ++ nl ++ $ "|    | a\\b       |" ++ nl ++
  $ "[[u]]".
Example C39_case : xdoc_ok case_doc = true /\ cre_doc case_doc = case_creole.
Proof. vm_compute. auto. Qed.
Example C39_case_written : written case_doc case_html.
Proof. apply fitsb_sound. vm_compute. reflexivity. Qed.
Example C39_case_run : html2creole raise_unknown_node true case_html = Ok case_creole.
Proof. apply (C39_clean_document _ _ case_doc); [vm_compute; reflexivity|exact C39_case_written]. Qed.
