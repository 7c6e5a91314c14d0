(** * Helpers for the conformance examples of the html converters, and examples from
    doctests and tests/test_utils.py (tests of the model, not proofs) *)
From Coq Require Export String List NArith ZArith Bool.
From Verif Require Export PyStr Utils Res HtmlTools MarkupTable UrlQuote HtmlBase Html2X.
Import ListNotations.
Open Scope N_scope.

Definition ue_default := transparent_unknown_nodes.
Definition ue_transparent := transparent_unknown_nodes.
Definition ue_raise := raise_unknown_node.
Definition ue_html_macro := use_html_macro.
Definition ue_escape := escape_unknown_nodes.
Definition ue_preformat := preformat_unknown_nodes.

Definition chk (r : res str) (expected : str) : bool :=
  match r with Ok s => str_eqb s expected | Exc _ => false end.

(** tests/test_utils.py:84-160 *)
Definition t0 (hp : str) (aw : bool) : mtable :=
  add_td (L "2.2.") (add_td (L "2.1.") (add_tr (add_td (L "1.2.") (add_td (L "1.1.") (add_tr
    (add_th (L "head2") (add_th (L "head1") (add_tr (new_table hp aw))))))))).
Example table_creole : get_table_markup (t0 (L "* ") true) = L "|* head1 |* head2 |
| 1.1.   | 1.2.   |
| 2.1.   | 2.2.   |".
Proof. vm_compute. reflexivity. Qed.
Example table_textile : get_table_markup (t0 (L "_. ") false) = L "|_. head1|_. head2|
|1.1.|1.2.|
|2.1.|2.2.|".
Proof. vm_compute. reflexivity. Qed.
Example table_rest : get_rest_table (t0 [] true) = L "+-------+-------+
| head1 | head2 |
+=======+=======+
| 1.1.  | 1.2.  |
+-------+-------+
| 2.1.  | 2.2.  |
+-------+-------+".
Proof. vm_compute. reflexivity. Qed.

(** doctests of strip_html.py:35-56, text_tools.py:21-31, deentity.py:30-42,
    html2markdown_emitter.py:21-25 *)
Example d_strip1 : strip_html (L " <p>  one  
 two  </p>") = L "<p>one two</p>". Proof. vm_compute. reflexivity. Qed.
Example d_strip2 : strip_html (L "<li>  Force  <br /> 
 linebreak </li>") = L "<li>Force<br />linebreak</li>". Proof. vm_compute. reflexivity. Qed.
Example d_strip3 : strip_html (L "one  <i>two 
 <strong>   
  three  
  </strong></i>") = L "one <i>two <strong>three</strong> </i>". Proof. vm_compute. reflexivity. Qed.
Example d_strip4 : strip_html (L "<p>a <unknown tag /> foobar  </p>") = L "<p>a <unknown tag /> foobar</p>".
Proof. vm_compute. reflexivity. Qed.
Example d_strip5 : strip_html (L "<p>a <pre> preformated area </pre> foo </p>") = L "<p>a<pre>preformated area</pre>foo</p>".
Proof. vm_compute. reflexivity. Qed.
Example d_ws1 : clean_whitespace ([10; 10] ++ L "foo bar" ++ [10; 10]) = L "foo bar" ++ [10]. Proof. vm_compute. reflexivity. Qed.
Example d_ws2 : clean_whitespace (L "   foo bar  " ++ [10] ++ L "  " ++ [10]) = L " foo bar" ++ [10]. Proof. vm_compute. reflexivity. Qed.
Example d_ws3 : clean_whitespace (L " " ++ [10] ++ L " " ++ [10] ++ L "  foo bar   ") = L " foo bar ". Proof. vm_compute. reflexivity. Qed.
Example d_ws4 : clean_whitespace (L "foo   bar") = L "foo   bar". Proof. vm_compute. reflexivity. Qed.
Example d_ent1 : chk (replace_all (L "-=[&nbsp;&gt;&#62;&#x3E;nice&lt;&#60;&#x3C;&nbsp;]=-")) (L "-=[ >>>nice<<< ]=-") = true.
Proof. vm_compute. reflexivity. Qed.
Example d_ent2 : chk (replace_all (L "-=[M&uuml;hlheim]=-")) (L "-=[M" ++ [252] ++ L "hlheim]=-") = true.
Proof. vm_compute. reflexivity. Qed.
Example d_url1 : chk (quote_link (VStr (L "http://foo.tld/a image with spaces.png"))) (L "http://foo.tld/a%20image%20with%20spaces.png") = true.
Proof. vm_compute. reflexivity. Qed.
Example d_url2 : chk (quote_link (VStr (L "https://foo.tld/a image.png?bar=1#anchor"))) (L "https://foo.tld/a%20image.png?bar=1#anchor") = true.
Proof. vm_compute. reflexivity. Qed.

(** tests/test_creole2html.py:913-957 *)
Example s2d_mixed1 : string2dict (L "A=""B"" C=1 D=1.1 E=True F=False G=None") =
  Some [(L "A", VStr (L "B")); (L "C", VInt 1); (L "D", VStr (L "1.1")); (L "E", VBool true); (L "F", VBool false); (L "G", VNone)].
Proof. vm_compute. reflexivity. Qed.
Example s2d_mixed2 : string2dict (L "key1=""'1'"" key2='""2""' key3=""""""'3'"""""" ") =
  Some [(L "key1", VInt 1); (L "key2", VInt 2); (L "key3", VInt 3)].
Proof. vm_compute. reflexivity. Qed.
Example d2s_basic2 : dict2string [(L "foo", VStr (L "bar")); (L "no", VInt 123)] = L "foo=""bar"" no=123".
Proof. vm_compute. reflexivity. Qed.
