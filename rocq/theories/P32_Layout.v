(** * Properties of the blank lines between the blocks of creole documents (C84)

    Only statements, examples and assumptions; the vocabulary is in Spec33.v, Spec34.v and Spec36.v. *)
From Coq Require Import String List Arith NArith ZArith Bool Lia.
From Verif Require Import PyStr Utils Res HtmlTok HtmlBase Html2X HtmlEmitter Spec2 Spec4 Spec5 Spec10 Spec11 Spec12 Spec26 Spec27 Spec33 Spec34 Spec36 LayoutDoc LayoutTrip.
Import ListNotations.
Open Scope N_scope.

(** ** C84 *)
Theorem C84_any_blank_lines : forall v s md lead d, forallb blank_line lead = true -> fdoc_ok d = true ->
  creole2html (mkopts true v s) md (wr_lines lead ++ wr_fdoc d) = (Ok (html_fdoc s d), md).
Proof. exact fdoc_spec. Qed.
Print Assumptions C84_any_blank_lines.
(** back to creole, every layout of the same blocks becomes the same text *)
Theorem C84_back_to_one_layout : forall v s md u strict lead d, forallb blank_line lead = true -> fdoc_ok d = true ->
  tidy (blocks_in d) = true -> countable (map to_hpart (blocks_in d)) -> code_apart d = true ->
  exists html, creole2html (mkopts true v s) md (wr_lines lead ++ wr_fdoc d) = (Ok html, md) /\ html2creole u strict html = Ok (wr_tdoc (laid (blocks_in d))).
Proof. exact layout_back. Qed.
Print Assumptions C84_back_to_one_layout.

Definition word (t : string) : list inl := [IText ($ t)].
Definition par (t : string) : tpart := TBlock (BPara [word t]).
Definition head (t : string) : tpart := TBlock (BHead 1 ($ " ") ($ t) []).
Definition item (t : string) : tpart := TBlock (BList false [LI (word t) false []]).
Definition row (t : string) : tpart := TTable [[mkpc (mkcell false (word t)) 1 0 1]].
Definition case_doc : fdoc :=
  [ (head "H", []); (par "one", []); (head "I", [[]; $ "  "]); (par "two", [$ " "; []]); (par "three", []);
    (TBlock BRule, []); (item "a", [[]; []; []]); (item "b", []); (TBlock BRule, [$ "  "]); (row "c", [$ "  "; []]); (row "d", [$ "  "]); (par "e", [[]; $ " "]) ].
Example C84_case : fdoc_ok case_doc = true /\ code_apart case_doc = true /\ tidy (blocks_in case_doc) = false /\ forallb blank_line [$ "  "; []] = true /\
  wr_lines [$ "  "; []] ++ wr_fdoc case_doc =
    lines_text [$ "  "; []; $ "= H"; $ "one"; $ "= I"; []; $ "  "; $ "two"; $ " "; []; $ "three"; $ "----"; $ "* a"; []; []; []; $ "* b"; $ "----"; $ "  "; $ "| c |"; $ "  "; []; $ "| d |"; $ "  "; $ "e"; []; $ " "] /\
  html_fdoc true case_doc =
    lines_text [$ "<h1>H</h1>"; $ "<p>one</p>"; $ "<h1>I</h1>"; []; $ "<p>two</p>"; []; []; $ "<p>three</p>"; $ "<hr />"; $ "<ul>"; 9 :: $ "<li>a</li>"; $ "</ul>"; []; $ "<ul>"; 9 :: $ "<li>b</li>"; $ "</ul><hr />"; [];
      $ "<table>"; $ "<tr>"; 9 :: $ "<td>c</td>"; $ "</tr>"; $ "</table>"; []; $ "<table>"; $ "<tr>"; 9 :: $ "<td>d</td>"; $ "</tr>"; $ "</table>"; $ "<p>e</p>"].
Proof. repeat split; vm_compute; reflexivity. Qed.
Definition case_back : fdoc := [ (par "one", []); (head "I", [[]; $ "  "]); (row "c", [$ "  "]); (par "two", [$ " "; []]); (par "three", [$ " "]); (item "a", []); (TBlock BRule, [[]; []; []]); (TBlock (BCode [$ "x"]), [[]]); (par "e", [[]]) ].
Example C84_back_case : fdoc_ok case_back = true /\ tidy (blocks_in case_back) = true /\ code_apart case_back = true /\
  wr_fdoc case_back = lines_text [$ "one"; $ "= I"; []; $ "  "; $ "| c |"; $ "  "; $ "two"; $ " "; []; $ "three"; $ " "; $ "* a"; $ "----"; []; []; []; $ "{{{"; $ "x"; $ "}}}"; []; $ "e"; []] /\
  wr_tdoc (laid (blocks_in case_back)) = lines_text [$ "one"; []; $ "= I"; []; $ "| c |"; $ "two"; []; $ "three"; []; $ "* a"; []; $ "----"; []; $ "{{{"; $ "x"; $ "}}}"; $ "e"].
Proof. repeat split; vm_compute; reflexivity. Qed.
Example C84_back_countable : countable (map to_hpart (blocks_in case_back)).
Proof. intros i H. change (List.length (map to_hpart (blocks_in case_back))) with 9%nat in H. do 9 (destruct i as [|i]; [vm_compute; discriminate|]). lia. Qed.

(** the conditions are needed *)
Definition shown (t : str) : res str := fst (creole2html default_opts no_md t).
Definition back (t : str) : res str := match shown t with Ok html => html2creole transparent_unknown_nodes false html | Exc e => Exc e end.
(** without a blank line two paragraphs are one, and a paragraph below a list is part of its last item *)
Theorem C84_touching_refuted :
  shown (lines_text [$ "a"; $ "b"]) = Ok (lines_text [$ "<p>a<br />"; $ "b</p>"]) /\
  shown (lines_text [$ "* a"; $ "b"]) = Ok (lines_text [$ "<ul>"; 9 :: $ "<li>ab</li>"; $ "</ul>"]) /\
  shown (lines_text [$ "| a |"; $ "| b |"]) = shown (lines_text [$ "| a |"; $ "  "; $ "| b |"]).
Proof. repeat split; vm_compute; reflexivity. Qed.
Print Assumptions C84_touching_refuted.
(** a code block directly below a list comes back in one line with the paragraph below it *)
Theorem C84_code_below_list_refuted :
  back (lines_text [$ "* a"; $ "{{{"; $ "x"; $ "}}}"; $ "e"]) = Ok (lines_text [$ "* a"; []; $ "{{{"; $ "x"; $ "}}} e"]) /\
  back (lines_text [$ "* a"; []; $ "{{{"; $ "x"; $ "}}}"; $ "e"]) = Ok (lines_text [$ "* a"; []; $ "{{{"; $ "x"; $ "}}}"; $ "e"]).
Proof. split; vm_compute; reflexivity. Qed.
Print Assumptions C84_code_below_list_refuted.
