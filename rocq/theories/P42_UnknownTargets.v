(** * Tags without a mark in textile, markdown and reStructuredText (C96)

    Only statements, examples and assumptions; the vocabulary is in Spec11.v, Spec24.v and
    Spec45.v, that of the programs in Spec44.v. *)
From Coq Require Import String List Arith NArith ZArith Bool Lia.
From Verif Require Import PyStr Utils Res HtmlTok HtmlBase Html2X Cmdline CliArgs Spec2 Spec8 Spec10 Spec11 Spec16 Spec17 Spec18 Spec19 Spec24 Spec44 Spec45 CleanEmit TextileMask MarkdownMask MaskModes OtherTags.
From Verif Require P20_Unknown P41_Programs.
Import ListNotations.
Open Scope N_scope.

(** ** C96: the callables that come with the package *)
Theorem C96_textile : forall u w fine d html, way u w fine -> tx_doc_ok w fine d = true -> written d html -> html2textile u html = Ok (tx_doc w d).
Proof. exact way_textile. Qed.
Print Assumptions C96_textile.
Theorem C96_markdown : forall u w fine url d html, way u w fine -> mx_doc_ok w fine url d = true -> addresses url d -> written d html ->
  html2markdown u html = Ok (mx_doc w url d).
Proof. exact way_markdown. Qed.
Print Assumptions C96_markdown.
(** a link text or an image name for two addresses cannot be written *)
Theorem C96_rest : forall u w fine d html, way u w fine -> rx_doc_ok w fine d = true -> written d html ->
  html2rest u html = match rx_doc w d with Some t => Ok t | None => Exc ESubstitution end.
Proof. exact way_rest. Qed.
Print Assumptions C96_rest.
(** any callable: its answer stands in the place of the element *)
Theorem C96_textile_any : forall (w : str -> attrs -> str -> str) (fine : str -> attrs -> str -> bool) (u : unknown),
  (forall t a s, inline_tag t = true -> fine t a s = true -> u t (attr_dict a) s = Ok (w t a s)) ->
  forall d html, tx_doc_ok w fine d = true -> written d html -> html2textile u html = Ok (tx_doc w d).
Proof. exact mask_textile. Qed.
Print Assumptions C96_textile_any.
Theorem C96_markdown_any : forall (w : str -> attrs -> str -> str) (fine : str -> attrs -> str -> bool) (url : str -> str) (u : unknown),
  (forall t a s, inline_tag t = true -> fine t a s = true -> u t (attr_dict a) s = Ok (w t a s)) ->
  forall d html, mx_doc_ok w fine url d = true -> addresses url d -> written d html -> html2markdown u html = Ok (mx_doc w url d).
Proof. exact mask_markdown. Qed.
Print Assumptions C96_markdown_any.
(** with raise_unknown_node: any document of known shape, against any callable *)
Theorem C38_textile_documents : forall u d html, shape_doc d = true -> written d html ->
  (doc_other tex_own d = false -> html2textile raise_unknown_node html = html2textile u html) /\
  (doc_other tex_own d = true -> forall r, html2textile u html = Ok r -> html2textile raise_unknown_node html = Exc ENotImplemented).
Proof. exact textile_raises. Qed.
Print Assumptions C38_textile_documents.
Theorem C38_markdown_documents : forall u d html, shape_doc d = true -> written d html ->
  (doc_other md_own d = false -> html2markdown raise_unknown_node html = html2markdown u html) /\
  (doc_other md_own d = true -> forall r, html2markdown u html = Ok r -> html2markdown raise_unknown_node html = Exc ENotImplemented).
Proof. exact markdown_raises. Qed.
Print Assumptions C38_markdown_documents.
Theorem C38_rest_documents : forall u d html, shape_doc d = true -> written d html ->
  (doc_other rst_own d = false -> html2rest raise_unknown_node html = html2rest u html) /\
  (doc_other rst_own d = true -> forall r, html2rest u html = Ok r -> html2rest raise_unknown_node html = Exc ENotImplemented).
Proof. exact rest_raises. Qed.
Print Assumptions C38_rest_documents.
(** and what comes out *)
Theorem C96_textile_raise : forall d html, tx_doc_ok bare always d = true -> written d html ->
  html2textile raise_unknown_node html = if doc_other tex_own d then Exc ENotImplemented else Ok (tx_doc bare d).
Proof. exact textile_exactly. Qed.
Print Assumptions C96_textile_raise.
Theorem C96_markdown_raise : forall url d html, mx_doc_ok bare always url d = true -> addresses url d -> written d html ->
  html2markdown raise_unknown_node html = if doc_other md_own d then Exc ENotImplemented else Ok (mx_doc bare url d).
Proof. exact markdown_exactly. Qed.
Print Assumptions C96_markdown_raise.
Theorem C96_rest_raise : forall d html, rx_doc_ok bare always d = true -> written d html ->
  match rx_doc bare d with
  | Some t => html2rest raise_unknown_node html = if doc_other rst_own d then Exc ENotImplemented else Ok t
  | None => html2rest raise_unknown_node html = Exc ESubstitution \/ doc_other rst_own d = true /\ html2rest raise_unknown_node html = Exc ENotImplemented
  end.
Proof. exact rest_exactly. Qed.
Print Assumptions C96_rest_raise.
(** the programs html2textile and html2rest leave the tags out *)
Theorem C96_textile_program : forall w src dst e args f d html, command src dst e args -> ready w src dst e f ->
  tx_doc_ok bare bare_text d = true -> written d html -> holds f src html -> forallb scalar (tx_doc bare d) = true ->
  exists l, run_program w ($ "html2textile") args f = Some (CDone, l) /\ holds (final l f) dst (tx_doc bare d).
Proof. exact textile_program. Qed.
Print Assumptions C96_textile_program.
Theorem C96_rest_program : forall w src dst e args f d html, command src dst e args -> ready w src dst e f ->
  rx_doc_ok bare bare_text d = true -> written d html -> holds f src html ->
  match rx_doc bare d with
  | Some t => forallb scalar t = true -> exists l, run_program w ($ "html2rest") args f = Some (CDone, l) /\ holds (final l f) dst t
  | None => exists x l, run_program w ($ "html2rest") args f = Some (CFail x, l) /\ contents (final l f) dst = Some []
  end.
Proof. exact rest_program. Qed.
Print Assumptions C96_rest_program.

(** ** Examples *)
Definition nl : str := [10].
Definition case_doc : list xblock :=
  [ XHead 2 [XText ($ "A "); XFace ($ "kbd") [($ "id", VStr ($ "k1")); ($ "class", VStr ($ "x y"))] [XText ($ "key")]];
    XPara [XText ($ "x "); XFace ($ "b") [] [XFace ($ "q") [] [XText ($ "in "); XFace ($ "abbr") [] [XText ($ "deep")]]]; XText ($ " y"); XFace ($ "wbr") [($ "id", VStr ($ "w<"))] []; XText ($ "z")];
    XPara [XLink ($ "/u") [XText ($ "to "); XFace ($ "q") [] [XText ($ "it")]]];
    XList false [XI [XFace ($ "span") [($ "class", VStr ($ "c"))] [XText ($ "one")]] false []; XI [XText ($ "two "); XFace ($ "q") [] [XText ($ "2")]] false []];
    XTable [[(true, [XText ($ "h")]); (false, [XFace ($ "q") [] [XText ($ "c")]])]] ].
Definition case_html : str :=
  $ "<h2>A <kbd id=""k1"" class=""x y"">key</kbd></h2>" ++ nl ++
  $ "<p>x <b><q>in <abbr>deep</abbr></q></b> y<wbr id=""w&lt;""></wbr>z</p>" ++ nl ++ $ "<p><a href=""/u"">to <q>it</q></a></p>" ++ nl ++
  $ "<ul><li><span class=""c"">one</span></li> <li>two <q>2</q></li></ul>" ++ nl ++
  $ "<table><tr><th>h</th><td><q>c</q></td></tr></table>".
Example C96_written : written case_doc case_html.
Proof. apply fitsb_sound. vm_compute. reflexivity. Qed.
Example C96_case_textile : tx_doc_ok bare bare_text case_doc = true /\ html2textile transparent_unknown_nodes case_html = Ok (
  $ "h2. A key" ++ nl ++ nl ++ $ "x **in deep** yz" ++ nl ++ nl ++ $ """to it"":/u" ++ nl ++ nl ++ $ "* %one%" ++ nl ++ $ "* two 2" ++ nl ++ nl ++ $ "|_. h|c|").
Proof. split; [vm_compute; reflexivity|]. rewrite (C96_textile _ _ _ case_doc _ way_bare); [vm_compute; reflexivity|vm_compute; reflexivity|exact C96_written]. Qed.
Example C96_case_textile_html : tx_doc_ok (masked ($ "html")) any_text case_doc = true /\ html2textile use_html_macro case_html = Ok (
  $ "h2. A <<html>><kbd class=""x y"" id=""k1""><</html>>key<<html>></kbd><</html>>" ++ nl ++ nl ++
  $ "x **<<html>><q><</html>>in <<html>><abbr><</html>>deep<<html>></abbr><</html>><<html>></q><</html>>** y<<html>><wbr id=""w<"" /><</html>>z" ++ nl ++ nl ++
  $ """to <<html>><q><</html>>it<<html>></q><</html>>"":/u" ++ nl ++ nl ++ $ "* %one%" ++ nl ++ $ "* two <<html>><q><</html>>2<<html>></q><</html>>" ++ nl ++ nl ++
  $ "|_. h|<<html>><q><</html>>c<<html>></q><</html>>|").
Proof. split; [vm_compute; reflexivity|]. rewrite (C96_textile _ _ _ case_doc _ way_html); [vm_compute; reflexivity|vm_compute; reflexivity|exact C96_written]. Qed.
Definition same (h : str) : str := h.
Example C96_case_addresses : addresses same case_doc.
Proof. intros h I. vm_compute in I. destruct I as [I|[]]; subst h. exists (mkaddr None None ($ "/u") None None). vm_compute. auto. Qed.
Example C96_case_markdown : mx_doc_ok (masked ($ "pre")) any_text same case_doc = true /\ html2markdown preformat_unknown_nodes case_html = Ok (
  $ "## A <<pre>><kbd class=""x y"" id=""k1""><</pre>>key<<pre>></kbd><</pre>>" ++ nl ++ nl ++
  $ "x **<<pre>><q><</pre>>in <<pre>><abbr><</pre>>deep<<pre>></abbr><</pre>><<pre>></q><</pre>>** y<<pre>><wbr id=""w<"" /><</pre>>z" ++ nl ++ nl ++
  $ "[to <<pre>><q><</pre>>it<<pre>></q><</pre>>](/u)" ++ nl ++ nl ++ nl ++ $ "* one" ++ nl ++ $ "* two <<pre>><q><</pre>>2<<pre>></q><</pre>>" ++ nl ++ nl ++
  $ "| h | <<pre>><q><</pre>>c<<pre>></q><</pre>> |").
Proof. split; [vm_compute; reflexivity|]. rewrite (C96_markdown _ _ _ same case_doc _ way_pre); [vm_compute; reflexivity|vm_compute; reflexivity|exact C96_case_addresses|exact C96_written]. Qed.
Example C96_case_rest : rx_doc_ok spelled any_text case_doc = true /\ html2rest escape_unknown_nodes case_html = Ok (
  $ "------------------------------------------------" ++ nl ++ $ "A &lt;kbd class=""x y"" id=""k1""&gt;key&lt;/kbd&gt;" ++ nl ++
  $ "------------------------------------------------" ++ nl ++ nl ++
  $ "x **&lt;q&gt;in &lt;abbr&gt;deep&lt;/abbr&gt;&lt;/q&gt;** y&lt;wbr id=""w&lt;"" /&gt;z" ++ nl ++ nl ++
  $ "`to &lt;q&gt;it&lt;/q&gt; </u>`_" ++ nl ++ nl ++ $ "* one" ++ nl ++ nl ++ $ "* two &lt;q&gt;2&lt;/q&gt;" ++ nl ++ nl ++
  $ "+---+----------------------+" ++ nl ++ $ "| h | &lt;q&gt;c&lt;/q&gt; |" ++ nl ++ $ "+---+----------------------+").
Proof. split; [vm_compute; reflexivity|]. rewrite (C96_rest _ _ _ case_doc _ way_escape); [vm_compute; reflexivity|vm_compute; reflexivity|exact C96_written]. Qed.
(** two links, one text: with the tags left out the texts become the same *)
Definition two_links : list xblock :=
  [ XPara [XLink ($ "/u") [XText ($ "it")]]; XPara [XLink ($ "/v") [XFace ($ "q") [] [XText ($ "it")]]]; XTable [[(false, [XLink ($ "/u") [XText ($ "it")]]); (false, [XLink ($ "/v") [XFace ($ "q") [] [XText ($ "it")]]])]] ].
Definition two_html : str :=
  $ "<p><a href=""/u"">it</a></p><p><a href=""/v""><q>it</q></a></p><table><tr><td><a href=""/u"">it</a></td><td><a href=""/v""><q>it</q></a></td></tr></table>".
Example C96_two_links : written two_links two_html /\ rx_doc_ok bare bare_text two_links = true /\ rx_doc bare two_links = None /\
  rx_doc_ok spelled any_text two_links = true /\ rx_doc spelled two_links <> None.
Proof. split; [apply fitsb_sound; vm_compute; reflexivity|]. vm_compute. repeat split; discriminate. Qed.
Example C96_two_links_run : html2rest transparent_unknown_nodes two_html = Exc ESubstitution.
Proof. destruct C96_two_links as (W & K & E & _). rewrite (C96_rest _ _ _ two_links _ way_bare K W), E. reflexivity. Qed.
(** a callable of one's own *)
Definition loud (t : str) (a : attrs) (s : str) : str := $ "[" ++ t ++ $ ":" ++ s ++ $ "]".
Definition loud_unknown : unknown := fun t _ s => Ok ($ "[" ++ t ++ $ ":" ++ s ++ $ "]").
Example C96_case_any : html2textile loud_unknown ($ "<p>a <q>b</q></p>") = Ok ($ "a [q:b]").
Proof.
  rewrite (C96_textile_any loud any_text loud_unknown ltac:(intros; reflexivity) [XPara [XText ($ "a "); XFace ($ "q") [] [XText ($ "b")]]]);
    [vm_compute; reflexivity|vm_compute; reflexivity|apply fitsb_sound; vm_compute; reflexivity].
Qed.
Example C96_case_markdown_any : html2markdown loud_unknown ($ "<p>a <q>b</q></p>") = Ok ($ "a [q:b]").
Proof.
  rewrite (C96_markdown_any loud any_text same loud_unknown ltac:(intros; reflexivity) [XPara [XText ($ "a "); XFace ($ "q") [] [XText ($ "b")]]]);
    [vm_compute; reflexivity|vm_compute; reflexivity|intros h []|apply fitsb_sound; vm_compute; reflexivity].
Qed.
(** raising *)
Definition span_doc : list xblock := [XPara [XText ($ "a "); XFace ($ "b") [] [XFace ($ "span") [] [XText ($ "b")]]]].
Example C96_case_raise : shape_doc case_doc = true /\ doc_other tex_own case_doc = true /\ doc_other md_own case_doc = true /\ doc_other rst_own case_doc = true /\
  tx_doc_ok bare always case_doc = true /\ mx_doc_ok bare always same case_doc = true /\ rx_doc_ok bare always case_doc = true /\
  html2textile raise_unknown_node case_html = Exc ENotImplemented.
Proof. split; [vm_compute; reflexivity|]. do 6 (split; [vm_compute; reflexivity|]). rewrite (C96_textile_raise case_doc); [vm_compute; reflexivity|vm_compute; reflexivity|exact C96_written]. Qed.
Example C96_case_no_raise : doc_other tex_own span_doc = false /\ doc_other md_own span_doc = false /\ doc_other rst_own span_doc = false /\
  tx_doc_ok bare always span_doc = true /\ mx_doc_ok bare always same span_doc = true /\ rx_doc_ok bare always span_doc = true /\
  html2textile raise_unknown_node ($ "<p>a <b><span>b</span></b></p>") = Ok ($ "a **%b%**").
Proof. do 6 (split; [vm_compute; reflexivity|]). rewrite (C96_textile_raise span_doc); [vm_compute; reflexivity|vm_compute; reflexivity|apply fitsb_sound; vm_compute; reflexivity]. Qed.
(** the tag has a mark in markdown, but none in reStructuredText *)
Example C96_case_between : let d := [XPara [XFace ($ "sup") [] [XText ($ "2")]]] in written d ($ "<p><sup>2</sup></p>") /\ doc_other md_own d = false /\ doc_other rst_own d = true /\
  html2markdown raise_unknown_node ($ "<p><sup>2</sup></p>") = Ok ($ "<sup>2</sup>") /\ html2rest raise_unknown_node ($ "<p><sup>2</sup></p>") = Exc ENotImplemented.
Proof. split; [apply fitsb_sound; vm_compute; reflexivity|]. vm_compute. auto. Qed.
(** the programs *)
Definition in_file (t : str) : fs := P41_Programs.one_file t.
Example C96_program_case : command ($ "in") ($ "out") ($ "utf-8") [$ "in"; $ "out"] /\ ready P41_Programs.a_world ($ "in") ($ "out") ($ "utf-8") (in_file case_html) /\
  holds (in_file case_html) ($ "in") case_html /\ forallb scalar (tx_doc bare case_doc) = true /\ option_map (forallb scalar) (rx_doc bare case_doc) = Some true /\
  rx_doc_ok bare bare_text case_doc = true /\ holds (in_file two_html) ($ "in") two_html.
Proof. split; [constructor|]. split; [apply P41_Programs.C95_ready; auto|]. vm_compute. repeat split; reflexivity. Qed.
