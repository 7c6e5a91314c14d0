(** * Tags the target has no mark for (C72, and C38 for documents)

    Only statements, examples and assumptions; the vocabulary is in Spec11.v and Spec24.v. *)
From Coq Require Import String List Arith NArith ZArith Bool Lia.
From Verif Require Import PyStr Utils Res HtmlBase Html2X HtmlTok Spec2 Spec10 Spec11 Spec24 CleanEmit MaskFacts UnknownFacts.
Import ListNotations.
Open Scope N_scope.

(** ** C72 *)
(** any callable: it is asked for each unknown tag with its name, its attributes and its text,
    and its answer stands in the place of the element *)
Theorem C72_unknown_tags : forall (w : str -> attrs -> str -> str) (fine : str -> attrs -> str -> bool) (u : unknown) strict d html,
  (forall t a s, inline_tag t = true -> fine t a s = true -> u t (attr_dict a) s = Ok (w t a s)) ->
  w_doc_ok w fine d = true -> written d html -> html2creole u strict html = Ok (w_doc w d).
Proof. exact mask_creole. Qed.
Print Assumptions C72_unknown_tags.
(** the four callables that come with the package *)
Theorem C72_html_macro : forall strict d html, w_doc_ok (masked ($ "html")) any_text d = true -> written d html ->
  html2creole use_html_macro strict html = Ok (w_doc (masked ($ "html")) d).
Proof. exact html_creole. Qed.
Print Assumptions C72_html_macro.
Theorem C72_pre_macro : forall strict d html, w_doc_ok (masked ($ "pre")) any_text d = true -> written d html ->
  html2creole preformat_unknown_nodes strict html = Ok (w_doc (masked ($ "pre")) d).
Proof. exact pre_creole. Qed.
Print Assumptions C72_pre_macro.
Theorem C72_escaped : forall strict d html, w_doc_ok spelled any_text d = true -> written d html ->
  html2creole escape_unknown_nodes strict html = Ok (w_doc spelled d).
Proof. exact escape_creole. Qed.
Print Assumptions C72_escaped.
Theorem C72_transparent : forall strict d html, w_doc_ok bare bare_text d = true -> written d html ->
  html2creole transparent_unknown_nodes strict html = Ok (w_doc bare d).
Proof. exact bare_creole. Qed.
Print Assumptions C72_transparent.

Definition case_doc : list xblock :=
  [ XHead 2 [XText ($ "A "); XFace ($ "kbd") [($ "id", VStr ($ "k1")); ($ "class", VStr ($ "x y"))] [XText ($ "key")]];
    XPara [XText ($ "x "); XFace ($ "b") [] [XFace ($ "cite") [] [XText ($ "in "); XFace ($ "q") [] [XText ($ "deep")]]]; XText ($ " y"); XFace ($ "wbr") [($ "id", VStr ($ "w<"))] []; XText ($ "z")];
    XList false [XI [XFace ($ "span") [($ "class", VStr ($ "c"))] [XText ($ "one")]] false []; XI [XText ($ "two "); XFace ($ "q") [] [XText ($ "2")]] false []];
    XTable [[(true, [XText ($ "h")]); (false, [XFace ($ "q") [] [XText ($ "c")]])]] ].
Definition nl : str := [10].
Definition case_html : str :=
  $ "<h2>A <kbd id=""k1"" class=""x y"">key</kbd></h2>" ++ nl ++
  $ "<p>x <b><cite>in <q>deep</q></cite></b> y<wbr id=""w&lt;""></wbr>z</p>" ++ nl ++
  $ "<ul><li><span class=""c"">one</span></li> <li>two <q>2</q></li></ul>" ++ nl ++
  $ "<table><tr><th>h</th><td><q>c</q></td></tr></table>".
Example C72_case_written : written case_doc case_html.
Proof. apply fitsb_sound. vm_compute. reflexivity. Qed.
Example C72_case_html : w_doc_ok (masked ($ "html")) any_text case_doc = true /\ html2creole use_html_macro true case_html = Ok (
  $ "== A <<html>><kbd class=""x y"" id=""k1""><</html>>key<<html>></kbd><</html>>" ++ nl ++ nl ++
  $ "x **<<html>><cite><</html>>in <<html>><q><</html>>deep<<html>></q><</html>><<html>></cite><</html>>** y<<html>><wbr id=""w<"" /><</html>>z" ++ nl ++ nl ++
  $ "* one" ++ nl ++ $ "* two <<html>><q><</html>>2<<html>></q><</html>>" ++ nl ++ nl ++
  $ "|= h | <<html>><q><</html>>c<<html>></q><</html>> |").
Proof. split; [vm_compute; reflexivity|]. rewrite (C72_html_macro _ case_doc); [vm_compute; reflexivity|vm_compute; reflexivity|exact C72_case_written]. Qed.
Example C72_case_escaped : w_doc_ok spelled any_text case_doc = true /\ html2creole escape_unknown_nodes true case_html = Ok (
  $ "== A &lt;kbd class=""x y"" id=""k1""&gt;key&lt;/kbd&gt;" ++ nl ++ nl ++
  $ "x **&lt;cite&gt;in &lt;q&gt;deep&lt;/q&gt;&lt;/cite&gt;** y&lt;wbr id=""w&lt;"" /&gt;z" ++ nl ++ nl ++
  $ "* one" ++ nl ++ $ "* two &lt;q&gt;2&lt;/q&gt;" ++ nl ++ nl ++
  $ "|= h | &lt;q&gt;c&lt;/q&gt; |").
Proof. split; [vm_compute; reflexivity|]. rewrite (C72_escaped _ case_doc); [vm_compute; reflexivity|vm_compute; reflexivity|exact C72_case_written]. Qed.
Example C72_case_transparent : w_doc_ok bare bare_text case_doc = true /\ html2creole transparent_unknown_nodes true case_html = Ok (
  $ "== A key" ++ nl ++ nl ++ $ "x **in deep** yz" ++ nl ++ nl ++ $ "* one" ++ nl ++ $ "* two 2" ++ nl ++ nl ++ $ "|= h | c |").
Proof. split; [vm_compute; reflexivity|]. rewrite (C72_transparent _ case_doc); [vm_compute; reflexivity|vm_compute; reflexivity|exact C72_case_written]. Qed.
Example C72_case_pre : w_doc_ok (masked ($ "pre")) any_text case_doc = true /\ exists t, html2creole preformat_unknown_nodes true case_html = Ok t /\ contains ($ "<<pre>><q><</pre>>2<<pre>></q><</pre>>") t = true.
Proof. split; [vm_compute; reflexivity|]. rewrite (C72_pre_macro _ case_doc); [|vm_compute; reflexivity|exact C72_case_written]. eexists. split; [reflexivity|vm_compute; reflexivity]. Qed.
(** an attribute value is not kept if it has characters that are not ASCII, or quotes, or
    backslashes: it is written as a json string *)
Theorem C72_values_refuted : ~ (forall strict t v html, html = $ "<p>a <" ++ t ++ $ " title=""" ++ v ++ $ """>b</" ++ t ++ $ "></p>" -> inline_tag t = true -> forallb (fun c => negb (existsb (N.eqb c) [34; 38; 60; 62])) v = true ->
  html2creole use_html_macro strict html = Ok ($ "a <<html>><" ++ t ++ $ " title=""" ++ v ++ $ """><</html>>b<<html>></" ++ t ++ $ "><</html>>")).
Proof. intro H. specialize (H true ($ "q") [228] _ eq_refl eq_refl eq_refl). vm_compute in H. discriminate H. Qed.
Print Assumptions C72_values_refuted.

(** ** C38, for documents as text *)
(** all html, all targets: raising on unknown tags is the only difference it makes *)
Theorem C38_raise_or_same : forall (u : unknown) strict html,
  (html2creole raise_unknown_node strict html = Exc ENotImplemented \/ html2creole raise_unknown_node strict html = html2creole u strict html) /\
  (html2textile raise_unknown_node html = Exc ENotImplemented \/ html2textile raise_unknown_node html = html2textile u html) /\
  (html2markdown raise_unknown_node html = Exc ENotImplemented \/ html2markdown raise_unknown_node html = html2markdown u html) /\
  (html2rest raise_unknown_node html = Exc ENotImplemented \/ html2rest raise_unknown_node html = html2rest u html).
Proof. exact raise_all. Qed.
Print Assumptions C38_raise_or_same.
(** documents: it raises exactly if there is an unknown tag *)
Theorem C38_documents : forall strict d html, w_doc_ok bare always d = true -> written d html ->
  html2creole raise_unknown_node strict html = if doc_unknown d then Exc ENotImplemented else Ok (cre_doc d).
Proof. exact raise_exactly. Qed.
Print Assumptions C38_documents.

Example C38_doc_case : w_doc_ok bare always case_doc = true /\ html2creole raise_unknown_node true case_html = Exc ENotImplemented.
Proof. split; [vm_compute; reflexivity|]. rewrite (C38_documents _ case_doc); [vm_compute; reflexivity|vm_compute; reflexivity|exact C72_case_written]. Qed.
Definition known_doc : list xblock := [XPara [XText ($ "x "); XFace ($ "b") [] [XText ($ "bold")]; XFace ($ "span") [] [XText ($ "s")]]].
Example C38_doc_case_known : w_doc_ok bare always known_doc = true /\ written known_doc ($ "<p>x <b>bold</b><span>s</span></p>") /\ html2creole raise_unknown_node true ($ "<p>x <b>bold</b><span>s</span></p>") = Ok ($ "x **bold**s").
Proof.
  assert (W : written known_doc ($ "<p>x <b>bold</b><span>s</span></p>")) by (apply fitsb_sound; vm_compute; reflexivity).
  split; [vm_compute; reflexivity|]. split; [exact W|]. rewrite (C38_documents _ known_doc); [vm_compute; reflexivity|vm_compute; reflexivity|exact W].
Qed.
Example C38_doc_case_other : html2textile raise_unknown_node ($ "<p><kbd>x</kbd></p>") = Exc ENotImplemented /\ html2markdown raise_unknown_node ($ "<p><b>x</b></p>") = html2markdown use_html_macro ($ "<p><b>x</b></p>").
Proof. vm_compute. auto. Qed.
