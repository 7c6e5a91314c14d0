(** * C63: which html documents can be converted *)
From Coq Require Import String List NArith ZArith Bool.
From Verif Require Import PyStr Utils Res HtmlTools HtmlParser HtmlBase Html2X RegexFacts Safety Spec2 Spec14 Spec15 Spec51 NoRaise ParseTotal ClashFacts.
Import ListNotations.
Open Scope N_scope.

(** a way to treat unknown tags that does not raise *)
Definition never_raises (u : unknown) : Prop := forall tag attrs content, exists r, u tag attrs content = Ok r.
Theorem C63_unknown_tags : forall u,
  In u [use_html_macro; preformat_unknown_nodes; escape_unknown_nodes; transparent_unknown_nodes] -> never_raises u.
Proof. intros u [<-|[<-|[<-|[<-|[]]]]] tag a c; eexists; reflexivity. Qed.
Print Assumptions C63_unknown_tags.

(** a text without preformatted areas, marked sections and the parser's own tags is parsed *)
Theorem C63_parse : forall html, ~ infix ($ "<pre>") html -> ~ infix ($ "<![") (visible html) ->
  ~ infix ($ "blockdata") (lower (visible html)) -> ~ infix ($ "inlinedata") (lower (visible html)) ->
  exists root, parse_html html = Ok root.
Proof. exact parse_ok. Qed.
Print Assumptions C63_parse.
Example C63_parse_case : let html := $ "<p a=b>x</q <b>& &#y; < <!-- <! " in
  ~ infix ($ "<pre>") html /\ ~ infix ($ "<![") (visible html) /\
  ~ infix ($ "blockdata") (lower (visible html)) /\ ~ infix ($ "inlinedata") (lower (visible html)).
Proof. repeat split; intro H; apply contains_spec in H; vm_compute in H; discriminate. Qed.

(** a sound document is converted *)
Theorem C63_creole : forall u strict html root, never_raises u -> parse_html html = Ok root -> sound Creole false [] root = true ->
  exists r, html2creole u strict html = Ok r.
Proof. intros u st html root Hu Hp Hs. unfold html2creole. rewrite Hp. exact (creole_total u st root Hu Hs). Qed.
Print Assumptions C63_creole.
Theorem C63_textile : forall u html root, never_raises u -> parse_html html = Ok root -> sound Textile false [] root = true ->
  exists r, html2textile u html = Ok r.
Proof. intros u html root Hu Hp Hs. unfold html2textile. rewrite Hp. exact (textile_total u root Hu Hs). Qed.
Print Assumptions C63_textile.
Theorem C63_markdown : forall u html root, never_raises u -> parse_html html = Ok root -> sound Markdown false [] root = true ->
  exists r, html2markdown u html = Ok r.
Proof. intros u html root Hu Hp Hs. unfold html2markdown. rewrite Hp. exact (markdown_total u root Hu Hs). Qed.
Print Assumptions C63_markdown.
(** in reStructuredText two links may have texts that clash: this, and nothing else, is reported *)
Theorem C63_rest : forall u html root, never_raises u -> parse_html html = Ok root -> sound Rest false [] root = true ->
  (exists r, html2rest u html = Ok r) \/ html2rest u html = Exc ESubstitution.
Proof. intros u html root Hu Hp Hs. unfold html2rest. rewrite Hp. exact (rest_total u root Hu Hs). Qed.
Print Assumptions C63_rest.

(** it needs two links with different addresses, or two images; any document, sound or not *)
Theorem C63_rest_clash : forall u html root, never_raises u -> parse_html html = Ok root -> html2rest u html = Exc ESubstitution ->
  (exists v w, In v (addresses ($ "a") ($ "href") root) /\ In w (addresses ($ "a") ($ "href") root) /\ v <> w) \/
  (exists v w, In v (addresses ($ "img") ($ "src") root) /\ In w (addresses ($ "img") ($ "src") root) /\ v <> w).
Proof. exact lemma_clash. Qed.
Print Assumptions C63_rest_clash.
(** so a sound document with one address for all links and one for all images is converted *)
Theorem C63_rest_alike : forall u html root v w, never_raises u -> parse_html html = Ok root -> sound Rest false [] root = true ->
  Forall (eq v) (addresses ($ "a") ($ "href") root) -> Forall (eq w) (addresses ($ "img") ($ "src") root) ->
  exists r, html2rest u html = Ok r.
Proof.
  intros u html root v w Hu Hp Hs Hv Hw. destruct (C63_rest u html root Hu Hp Hs) as [H|H]; [exact H|]. exfalso.
  rewrite Forall_forall in Hv, Hw. destruct (lemma_clash u html root Hu Hp H) as [(x & y & X & Y & N)|(x & y & X & Y & N)].
  - apply N. rewrite <- (Hv x X). exact (Hv y Y).
  - apply N. rewrite <- (Hw x X). exact (Hw y Y).
Qed.
Print Assumptions C63_rest_alike.
Example C63_rest_alike_case : exists root,
  parse_html ($ "<p><a href>t</a> <a href>t</a> <img src=i><img src=i alt=j></p>") = Ok root /\ sound Rest false [] root = true /\
  addresses ($ "a") ($ "href") root = [None; None] /\ addresses ($ "img") ($ "src") root = [Some ($ "i"); Some ($ "i")].
Proof. eexists. split; [vm_compute; reflexivity | vm_compute; repeat split]. Qed.
Example C63_rest_clash_case : exists root, parse_html ($ "<p><img src=i alt=j><img src=k alt=j></p>") = Ok root /\
  html2rest transparent_unknown_nodes ($ "<p><img src=i alt=j><img src=k alt=j></p>") = Exc ESubstitution.
Proof. eexists. split; vm_compute; reflexivity. Qed.

Definition wild : str := $ "<h9>A</h2><q>b <a href>c</a><table>x<td><ul>y<li>d<tr><img src=i alt=""e""></table>" ++
  $ "<p></div></p><pre>z &lt;</pre> &#9; &foo; <li>".
Example C63_case : exists root, parse_html wild = Ok root /\
  sound Creole false [] root = true /\ sound Textile false [] root = true /\ sound Rest false [] root = true /\
  sound Markdown false [] root = true.
Proof. eexists. split; [vm_compute; reflexivity | vm_compute; repeat split]. Qed.
Example C63_clash_case : html2rest transparent_unknown_nodes ($ "<p><a href=""u"">t</a> <a href=""v"">t</a></p>") = Exc ESubstitution.
Proof. vm_compute. reflexivity. Qed.

(** a user relies on every html text being converted.  Refuted in every condition: *)
Theorem C63_refuted :
  (* attributes *)
  html2creole transparent_unknown_nodes true ($ "<img>") = Exc EKeyError /\
  html2creole transparent_unknown_nodes true ($ "<img src=""a"" alt>") = Exc ETypeError /\
  html2textile transparent_unknown_nodes ($ "<a name=""x"">y</a>") = Exc EKeyError /\
  html2rest transparent_unknown_nodes ($ "<a name=""x"">y</a>") = Exc EKeyError /\
  html2markdown transparent_unknown_nodes ($ "<a name=""x"">y</a>") = Exc EKeyError /\
  html2markdown transparent_unknown_nodes ($ "<a href=""//[x"">y</a>") = Exc EValueError /\
  (* structure *)
  html2creole transparent_unknown_nodes true ($ "<td>x</td>") = Exc EAttributeError /\
  html2markdown transparent_unknown_nodes ($ "<li>x</li>") = Exc ENotImplemented /\
  html2rest transparent_unknown_nodes ($ "<h0>x</h0>") = Exc EKeyError /\
  html2creole transparent_unknown_nodes true ($ "<headline>x</headline>") = Exc ETypeError /\
  html2creole transparent_unknown_nodes true ($ "<data>x</data>") = Exc EAssertion /\
  (* text *)
  html2creole transparent_unknown_nodes true ($ "&#1114112;") = Exc EValueError /\
  html2creole transparent_unknown_nodes true ($ "<![foo[x") = Exc EAssertion /\
  html2creole transparent_unknown_nodes true ($ "<blockdata />") = Exc EKeyError /\
  html2markdown transparent_unknown_nodes ($ "<p><pre>x</code></pre></p>") = Exc EIndexError.
Proof. vm_compute. repeat split. Qed.
Print Assumptions C63_refuted.
