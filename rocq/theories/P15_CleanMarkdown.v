(** * Addresses in markdown (C65) and html2markdown on clean html documents (C66)

    Only statements, examples and assumptions; the vocabulary is in Spec11.v, Spec17.v and
    Spec18.v. *)
From Coq Require Import String List Arith NArith ZArith Bool Lia.
From Verif Require Import PyStr Utils Res HtmlBase Html2X HtmlTok Cmdline Spec2 Spec10 Spec11 CleanEmit Spec17 AddressFacts Spec18 MarkdownEmit.
Import ListNotations.
Open Scope N_scope.

(** ** C65: a link with the address [a] becomes a markdown link whose address has the same
    scheme, host, parameters, query and fragment, and a path of unreserved characters and percent
    signs *)
Theorem C65_address : forall u a w html, addr_ok a = true -> clean_inls Inner [XText w] = true -> w <> $ " " ->
  written [XPara [XLink (show_addr a) [XText w]]] html -> html2markdown u html = Ok ($ "[" ++ w ++ $ "](" ++ show_addr (quoted a) ++ $ ")").
Proof. exact address_link. Qed.
Print Assumptions C65_address.
(** from which the path can be read back *)
Theorem C65_path_back : forall p, forallb character p = true -> utf8_decode (unpercent (percent p)) = Some p.
Proof. exact percent_back. Qed.
Print Assumptions C65_path_back.

Definition nl : str := [10].
Definition case_addr : addr := mkaddr (Some ($ "https")) (Some ($ "user@x.org:80")) ($ "/a b/(c)" ++ [228; 8364; 128512]) (Some ($ "q=1&r=/x")) (Some ($ "top")).
Example C65_case : addr_ok case_addr = true /\
  show_addr case_addr = $ "https://user@x.org:80/a b/(c)" ++ [228; 8364; 128512] ++ $ "?q=1&r=/x#top" /\
  show_addr (quoted case_addr) = $ "https://user@x.org:80/a%20b/%28c%29%C3%A4%E2%82%AC%F0%9F%98%80?q=1&r=/x#top".
Proof. vm_compute. auto. Qed.
Example C65_others : forallb addr_ok
  [ mkaddr None None ($ "page one") None None; mkaddr None None ($ "../x/y.png") None (Some ($ "f")); mkaddr (Some ($ "mailto")) None ($ "a@b.c") (Some ($ "subject=x")) None;
    mkaddr None (Some ($ "x.org")) ($ "/a:b") None None; mkaddr None None [] None (Some ($ "top")) ] = true.
Proof. vm_compute. reflexivity. Qed.
Definition case_link : str := $ "<p><a href=""https://user@x.org:80/a b/(c)" ++ [228; 8364; 128512] ++ $ "?q=1&amp;r=/x#top"">text</a></p>".
Example C65_case_run : html2markdown raise_unknown_node case_link =
  Ok ($ "[text](https://user@x.org:80/a%20b/%28c%29%C3%A4%E2%82%AC%F0%9F%98%80?q=1&r=/x#top)").
Proof.
  rewrite (C65_address _ case_addr ($ "text")); [vm_compute; reflexivity|vm_compute; reflexivity|reflexivity|discriminate|].
  apply fitsb_sound. vm_compute. reflexivity.
Qed.

(** with parameters: they begin at the first semicolon of the last part of the path, if the scheme
    has parameters *)
Definition case_params : addr := mkaddr (Some ($ "https")) (Some ($ "x.org")) ($ "/a;b c/d e;v=1 2;w") (Some ($ "q")) None.
Example C65_params : addr_ok case_params = true /\ show_addr case_params = $ "https://x.org/a;b c/d e;v=1 2;w?q" /\
  show_addr (quoted case_params) = $ "https://x.org/a%3Bb%20c/d%20e;v=1 2;w?q" /\
  (let a := mkaddr (Some ($ "git")) (Some ($ "x.org")) ($ "/d;v") None None in addr_ok a = true /\ show_addr (quoted a) = $ "git://x.org/d%3Bv").
Proof. vm_compute. auto 6. Qed.
Example C65_params_run : html2markdown raise_unknown_node ($ "<p><a href=""https://x.org/a;b c/d e;v=1 2;w?q"">text</a></p>") = Ok ($ "[text](https://x.org/a%3Bb%20c/d%20e;v=1 2;w?q)").
Proof.
  rewrite (C65_address _ case_params ($ "text")); [vm_compute; reflexivity|vm_compute; reflexivity|reflexivity|discriminate|].
  apply fitsb_sound. vm_compute. reflexivity.
Qed.

(** An address in html is usually percent encoded already, and then its path is encoded once
    more: the address in the markdown is another one. *)
Theorem C65_same_address_refuted : exists html, html2markdown raise_unknown_node html = Ok ($ "[text](http://x.org/a%2520b)") /\
  written [XPara [XLink ($ "http://x.org/a%20b") [XText ($ "text")]]] html.
Proof.
  exists ($ "<p><a href=""http://x.org/a%20b"">text</a></p>").
  assert (W : written [XPara [XLink ($ "http://x.org/a%20b") [XText ($ "text")]]] ($ "<p><a href=""http://x.org/a%20b"">text</a></p>")) by (apply fitsb_sound; vm_compute; reflexivity).
  split; [|exact W].
  rewrite (C65_address _ (mkaddr (Some ($ "http")) (Some ($ "x.org")) ($ "/a%20b") None None) ($ "text")); [vm_compute; reflexivity|vm_compute; reflexivity|reflexivity|discriminate|exact W].
Qed.
Print Assumptions C65_same_address_refuted.
(** Only the path is encoded: a space or a closing parenthesis in the query or in the fragment is
    left, and ends the address in markdown. *)
Theorem C65_query_refuted : exists html, html2markdown raise_unknown_node html = Ok ($ "[text](http://x.org/?q=a b)") /\
  written [XPara [XLink ($ "http://x.org/?q=a b") [XText ($ "text")]]] html.
Proof.
  exists ($ "<p><a href=""http://x.org/?q=a b"">text</a></p>").
  assert (W : written [XPara [XLink ($ "http://x.org/?q=a b") [XText ($ "text")]]] ($ "<p><a href=""http://x.org/?q=a b"">text</a></p>")) by (apply fitsb_sound; vm_compute; reflexivity).
  split; [|exact W].
  rewrite (C65_address _ (mkaddr (Some ($ "http")) (Some ($ "x.org")) ($ "/") (Some ($ "q=a b")) None) ($ "text")); [vm_compute; reflexivity|vm_compute; reflexivity|reflexivity|discriminate|exact W].
Qed.
Print Assumptions C65_query_refuted.
(** A semicolon at the end of the path gets lost. *)
Theorem C65_semicolon_refuted : exists html, html2markdown raise_unknown_node html = Ok ($ "[text](http://x.org/a)") /\
  written [XPara [XLink ($ "http://x.org/a;") [XText ($ "text")]]] html.
Proof.
  exists ($ "<p><a href=""http://x.org/a;"">text</a></p>").
  assert (W : written [XPara [XLink ($ "http://x.org/a;") [XText ($ "text")]]] ($ "<p><a href=""http://x.org/a;"">text</a></p>")) by (apply fitsb_sound; vm_compute; reflexivity).
  split; [|exact W].
  rewrite (C65_address _ (mkaddr (Some ($ "http")) (Some ($ "x.org")) ($ "/a;") None None) ($ "text")); [vm_compute; reflexivity|vm_compute; reflexivity|reflexivity|discriminate|exact W].
Qed.
Print Assumptions C65_semicolon_refuted.

(** ** C66 *)
Theorem C66_clean_markdown : forall url u d html, md_doc_ok url d = true -> addresses url d -> written d html -> html2markdown u html = Ok (md_doc url d).
Proof. exact clean_markdown. Qed.
Print Assumptions C66_clean_markdown.

Definition case_url (h : str) : str := if str_eqb h ($ "http://x.org/my page?a=b") then $ "http://x.org/my%20page?a=b" else h.
Definition case_doc : list xblock :=
  [ XHead 2 [XText ($ "A "); XFace ($ "b") [] [XText ($ "bold")]; XText ($ " title")];
    XList false [XI [XText ($ "one")] true [XI [XText ($ "in"); XBreak; XText ($ "two lines")] false []];
                 XI [XLink ($ "http://x.org/my page?a=b") [XText ($ "text "); XFace ($ "i") [] [XRef (Named ($ "amp"))]]] false []];
    XPara [XText ($ "x "); XRef (Named ($ "lt")); XText ($ " y"); XBreak; XImage ($ "i.png") ($ "t") ($ "a"); XFace ($ "sup") [] [XText ($ "c")]; XFace ($ "code") [] [XText ($ "s`t")]];
    XRule;
    XTable [[(true, [XText ($ "h")]); (true, [XFace ($ "code") [] [XText ($ "long head")]])]; [(false, []); (false, [XText ($ "a")])]] ].
Definition case_html : str := nl ++
  $ "<h2> A <b>bold</b> title</h2>" ++ nl ++
  $ "<ul>" ++ nl ++ $ "  <li>one" ++ nl ++ $ "    <ol><li>in <br />  two lines</li></ol></li>" ++ nl ++
  $ "  <li><a href=""http://x.org/my page?a=b"">text <i>&amp;</i></a></li></ul>" ++ nl ++
  $ "<p>x &lt; y<br />" ++ nl ++ $ "<img src=""i.png"" title=""t"" alt=""a"" /><sup>c</sup><code>s`t</code></p>" ++ nl ++
  $ "<hr />" ++ nl ++
  $ "<table>" ++ nl ++ $ "<tr> <th>h</th><th><code>long head</code></th> </tr>" ++ nl ++ $ "<tr><td></td><td>a</td></tr></table>" ++ nl.
Definition case_markdown : str :=
  $ "## A **bold** title" ++ nl ++ nl ++ nl ++
  $ "* one" ++ nl ++ $ "  1. in" ++ nl ++ $ "two lines" ++ nl ++ $ "* [text _&_](http://x.org/my%20page?a=b)" ++ nl ++ nl ++
  $ "x < y" ++ nl ++ $ "![a](i.png ""t"")<sup>c</sup>``s`t``" ++ nl ++ nl ++
  $ "----" ++ nl ++ nl ++
  $ "| h | `long head` |" ++ nl ++ $ "| - | ----------- |" ++ nl ++ $ "|   | a           |".
Example C66_case : md_doc_ok case_url case_doc = true /\ md_doc case_url case_doc = case_markdown.
Proof. vm_compute. auto. Qed.
Example C66_case_addresses : addresses case_url case_doc.
Proof.
  intros h I. vm_compute in I. destruct I as [I|[I|[]]]; subst h.
  - exists (mkaddr (Some ($ "http")) (Some ($ "x.org")) ($ "/my page") (Some ($ "a=b")) None). vm_compute. auto.
  - exists (mkaddr None None ($ "i.png") None None). vm_compute. auto.
Qed.
Example C66_case_written : written case_doc case_html.
Proof. apply fitsb_sound. vm_compute. reflexivity. Qed.
Example C66_case_run : html2markdown raise_unknown_node case_html = Ok case_markdown.
Proof. rewrite (C66_clean_markdown case_url _ case_doc); [vm_compute; reflexivity|vm_compute; reflexivity|exact C66_case_addresses|exact C66_case_written]. Qed.

(** What is left out is left out for a reason.  The space between two marked words is lost: *)
Theorem C66_space_refuted : exists html, html2markdown raise_unknown_node html = Ok ($ "**x**_y_") /\
  written [XPara [XFace ($ "b") [] [XText ($ "x")]; XText ($ " "); XFace ($ "i") [] [XText ($ "y")]]] html.
Proof. exists ($ "<p><b>x</b> <i>y</i></p>"). split; [vm_compute; reflexivity|apply fitsb_sound; vm_compute; reflexivity]. Qed.
Print Assumptions C66_space_refuted.
(** A cell with a line break ends its row early: *)
Theorem C66_cell_refuted : exists html, html2markdown raise_unknown_node html = Ok ($ "| a" ++ [10] ++ $ "b | c |") /\
  written [XTable [[(false, [XText ($ "a"); XBreak; XText ($ "b")]); (false, [XText ($ "c")])]]] html.
Proof. exists ($ "<table><tr><td>a<br />b</td><td>c</td></tr></table>"). split; [vm_compute; reflexivity|apply fitsb_sound; vm_compute; reflexivity]. Qed.
Print Assumptions C66_cell_refuted.
(** And a table without header cells, or with one row, has no line under its first row, without
    which it is not a table in markdown: *)
Theorem C66_table_refuted : exists html, html2markdown raise_unknown_node html = Ok ($ "| a |" ++ [10] ++ $ "| b |") /\
  written [XTable [[(false, [XText ($ "a")])]; [(false, [XText ($ "b")])]]] html.
Proof. exists ($ "<table><tr><td>a</td></tr><tr><td>b</td></tr></table>"). split; [vm_compute; reflexivity|apply fitsb_sound; vm_compute; reflexivity]. Qed.
Print Assumptions C66_table_refuted.
