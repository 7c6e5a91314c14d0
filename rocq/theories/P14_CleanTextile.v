(** * html2textile on clean html documents (C64)

    Only statements, examples and assumptions; the vocabulary is in Spec11.v and Spec16.v. *)
From Coq Require Import String List Arith NArith ZArith Bool Lia.
From Verif Require Import PyStr Utils Res HtmlBase Html2X HtmlTok Spec2 Spec10 Spec11 CleanEmit Spec16 TextileEmit.
Import ListNotations.
Open Scope N_scope.

(** ** C64 *)
Theorem C64_clean_textile : forall u d html, tex_doc_ok d = true -> written d html -> html2textile u html = Ok (tex_doc d).
Proof. exact clean_textile. Qed.
Print Assumptions C64_clean_textile.

Definition nl : str := [10].
Definition case_doc : list xblock :=
  [ XHead 2 [XText ($ "A "); XFace ($ "b") [] [XText ($ "bold")]; XText ($ " title")];
    XList false [XI [XText ($ "one")] true [XI [XText ($ "in"); XBreak; XText ($ "two lines")] false []];
                 XI [XLink ($ "http://x.org/?a=""b""&c") [XText ($ "text "); XFace ($ "i") [] [XRef (Named ($ "amp"))]]] false []];
    XPara [XText ($ "x "); XRef (Named ($ "lt")); XText ($ " y"); XBreak; XImage ($ "i.png") ($ "t") ($ "a"); XFace ($ "cite") [] [XText ($ "c")]; XFace ($ "span") [] [XText ($ "s")]];
    XRule;
    XTable [[(true, [XText ($ "h")]); (true, [XFace ($ "code") [] [XText ($ "long head")]])]; [(false, []); (false, [XText ($ "a"); XBreak; XText ($ "b")])]; [(false, [XText ($ "short")])]] ].
Definition case_html : str := nl ++
  $ "<h2> A <b>bold</b> title</h2>" ++ nl ++
  $ "<ul>" ++ nl ++ $ "  <li>one" ++ nl ++ $ "    <ol><li>in <br />  two lines</li></ol></li>" ++ nl ++
  $ "  <li><a href=""http://x.org/?a=&quot;b&quot;&amp;c"">text <i>&amp;</i></a></li></ul>" ++ nl ++
  $ "<p>x &lt; y<br />" ++ nl ++ $ "<img src=""i.png"" title=""t"" alt=""a"" /><cite>c</cite><span>s</span></p>" ++ nl ++
  $ "<hr />" ++ nl ++
  $ "<table>" ++ nl ++ $ "<tr> <th>h</th><th><code>long head</code></th> </tr>" ++ nl ++ $ "<tr><td></td><td>a<br />b</td></tr><tr><td>short</td></tr></table>" ++ nl.
Definition case_textile : str :=
  $ "h2. A **bold** title" ++ nl ++ nl ++ nl ++ nl ++
  $ "* one" ++ nl ++ $ "*# in\\two lines" ++ nl ++ $ "* ""text __&__"":http://x.org/?a=""b""&c" ++ nl ++ nl ++
  $ "x < y" ++ nl ++ $ "!i.png(t)!??c??%s%" ++ nl ++ nl ++
  $ "----" ++ nl ++ nl ++
  $ "|_. h|_. @long head@|" ++ nl ++ $ "||a\\b|" ++ nl ++ $ "|short|".
Example C64_case : tex_doc_ok case_doc = true /\ tex_doc case_doc = case_textile.
Proof. vm_compute. auto. Qed.
Example C64_case_written : written case_doc case_html.
Proof. apply fitsb_sound. vm_compute. reflexivity. Qed.
Example C64_case_run : html2textile raise_unknown_node case_html = Ok case_textile.
Proof. apply (C64_clean_textile _ case_doc); [vm_compute; reflexivity|exact C64_case_written]. Qed.

(** Blocks are not always separated by an empty line, which is what ends a block in textile: a
    paragraph after a table becomes a part of the table. *)
Theorem C64_apart_refuted : exists t p html, tex_doc_ok [XTable t; XPara p] = true /\ written [XTable t; XPara p] html /\
  html2textile raise_unknown_node html = Ok (tex_block (XTable t) ++ [10] ++ tex_block (XPara p)).
Proof.
  exists [[(false, [XText ($ "a")])]], [XText ($ "text")], ($ "<table><tr><td>a</td></tr></table><p>text</p>").
  split; [reflexivity|]. split; [apply fitsb_sound; reflexivity|]. apply (C64_clean_textile _ [XTable [[(false, [XText ($ "a")])]]; XPara [XText ($ "text")]]); [reflexivity|apply fitsb_sound; reflexivity].
Qed.
Print Assumptions C64_apart_refuted.
