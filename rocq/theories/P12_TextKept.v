(** * C62: the converters from html keep the text of the document *)
From Coq Require Import String List NArith ZArith Bool.
From Verif Require Import PyStr Res HtmlTools HtmlParser HtmlBase Html2X Spec13 Spec14 TextKept.
Import ListNotations.
Open Scope N_scope.

(** a way to treat unknown tags that does not lose the text inside *)
Definition keeps_text (u : unknown) : Prop :=
  forall tag attrs content r, u tag attrs content = Ok r -> subseq (inked content) (inked r).
Theorem C62_unknown_tags : forall u,
  In u [raise_unknown_node; use_html_macro; preformat_unknown_nodes; escape_unknown_nodes; transparent_unknown_nodes] ->
  keeps_text u.
Proof. exact keeping_unknown. Qed.
Print Assumptions C62_unknown_tags.
Example C62_unknown_case : escape_unknown_nodes ($ "q") [] ($ "a b") = Ok ($ "&lt;q&gt;a b&lt;/q&gt;").
Proof. vm_compute. reflexivity. Qed.

(** all characters of the document appear in the markup, in the same order *)
Theorem C62_creole : forall u strict html root r, keeps_text u ->
  parse_html html = Ok root -> kept any_pre root = true ->
  html2creole u strict html = Ok r -> subseq (inked (htext root)) (inked r).
Proof. intros u st html root r Hu Hp Hk. unfold html2creole. rewrite Hp. exact (keep_creole u st root r Hu Hk). Qed.
Print Assumptions C62_creole.
Theorem C62_textile : forall u html root r, keeps_text u ->
  parse_html html = Ok root -> kept any_pre root = true ->
  html2textile u html = Ok r -> subseq (inked (htext root)) (inked r).
Proof. intros u html root r Hu Hp Hk. unfold html2textile. rewrite Hp. exact (keep_textile u root r Hu Hk). Qed.
Print Assumptions C62_textile.
Theorem C62_markdown : forall u html root r, keeps_text u ->
  parse_html html = Ok root -> kept no_code_tag root = true ->
  html2markdown u html = Ok r -> subseq (inked (htext root)) (inked r).
Proof. intros u html root r Hu Hp Hk. unfold html2markdown. rewrite Hp. exact (keep_markdown u root r Hu Hk). Qed.
Print Assumptions C62_markdown.
Theorem C62_rest : forall u html root r, keeps_text u ->
  parse_html html = Ok root -> kept any_pre root = true ->
  html2rest u html = Ok r -> subseq (inked (htext root)) (inked r).
Proof. intros u html root r Hu Hp Hk. unfold html2rest. rewrite Hp. exact (keep_rest u root r Hu Hk). Qed.
Print Assumptions C62_rest.

Definition sample : str := $ "<h1>A &lt; <b>b</b></h1><p>c <q>d</q> <a href=""u"">e</a></p>" ++
  $ "<ul><li>f</li><li>g <i>h</i></li></ul>" ++
  $ "<table><tr><th>i</th><td>j</td></tr><tr><td>k</td><td>l &#62;</td></tr></table><pre>x < y</pre>".
Example C62_case : exists root, parse_html sample = Ok root /\ kept any_pre root = true /\ kept no_code_tag root = true /\
  htext root = $ "A < bc d efg hijkl >x < y".
Proof. eexists. split; [vm_compute; reflexivity | vm_compute; repeat split]. Qed.
Example C62_case_result : html2creole transparent_unknown_nodes true sample =
  Ok ($ "= A < **b**" ++ [10; 10] ++ $ "c d [[u|e]]" ++ [10; 10] ++ $ "* f" ++ [10] ++ $ "* g //h//" ++ [10; 10] ++
      $ "|= i | j   |" ++ [10] ++ $ "| k  | l > |" ++ [10] ++ $ "{{{x < y}}}").
Proof. vm_compute. reflexivity. Qed.

(** the conditions are needed: rows of different lengths lose cells, ... *)
Theorem C62_ragged_table_refuted :
  html2creole transparent_unknown_nodes true ($ "<table><tr><td>a</td></tr><tr><td>b</td><td>c</td></tr></table>") =
    Ok ($ "| a |" ++ [10] ++ $ "| b |") /\
  html2markdown transparent_unknown_nodes ($ "<table><tr><td>a</td></tr><tr><td>b</td><td>c</td></tr></table>") =
    Ok ($ "| a |" ++ [10] ++ $ "| b |").
Proof. vm_compute. split; reflexivity. Qed.
Print Assumptions C62_ragged_table_refuted.
(** ... text of a table outside of its cells disappears, ... *)
Theorem C62_text_in_row_refuted :
  html2creole transparent_unknown_nodes true ($ "<table>x<tr>y<td>a</td></tr></table>") = Ok ($ "| a |").
Proof. vm_compute. reflexivity. Qed.
Print Assumptions C62_text_in_row_refuted.
(** ... and html2markdown takes only the beginning of a code area inside of a paragraph *)
Theorem C62_markdown_code_refuted :
  html2markdown transparent_unknown_nodes ($ "<p><pre><code>a &amp; b</code></pre></p>") = Ok ($ "```a ```").
Proof. vm_compute. reflexivity. Qed.
Print Assumptions C62_markdown_code_refuted.
