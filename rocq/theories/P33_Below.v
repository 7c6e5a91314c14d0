(** * Properties of a text below a creole document (C85)

    Only statements, examples and assumptions; the vocabulary is in Spec.v, Spec33.v and Spec36.v. *)
From Coq Require Import String List Arith NArith ZArith Bool Lia.
From Verif Require Import PyStr Utils Res CreoleParser HtmlEmitter Spec Spec4 Spec5 Spec33 Spec36 Spec53 FreeTail HeadFar.
Import ListNotations.
Open Scope N_scope.

(** ** C85 *)
Theorem C85_any_text_below : forall v s md lead d X, forallb blank_line lead = true -> d <> [] -> fdoc_ok d = true ->
  truthy X = true -> head_is is_space X = false -> ~ uses_toc true X ->
  let o := mkopts true v s in let t := wr_lines lead ++ wr_fdoc d ++ [10; 10] ++ X in
  snd (creole2html o md t) = snd (creole2html o md X) /\
  match fst (creole2html o md X) with
  | Ok h => exists w, forallb is_space w = true /\ fst (creole2html o md t) = Ok (html_fdoc s d ++ match h with [] => [] | _ => w ++ h end)
  | Exc e => fst (creole2html o md t) = Exc e
  end.
Proof. exact free_spec. Qed.
Print Assumptions C85_any_text_below.

Definition word (t : string) : list inl := [IText ($ t)].
Definition case_doc : fdoc := [ (TBlock (BHead 1 ($ " ") ($ "H") []), []); (TBlock (BPara [word "one"; word "two"]), [[]]); (TBlock (BList false [LI (word "a") true [LI (word "b") false []]]), [[]; $ "  "]);
  (TTable [[mkpc (mkcell true (word "c")) 1 0 1]], [$ " "]) ].
(** a text that is no document in the sense of C84: markup that is not closed, a stray item level,
    a macro with wrong arguments, indented lines, a heading without a word *)
Definition case_text : str := lines_text [$ "**bold //both"; $ " * x"; $ "{{{"; $ "~ [[a"; []; $ " | b | [[c | d ]] |"; $ "<<foo bar>>"; $ "=> "].
Example C85_case : forallb blank_line [$ " "] = true /\ fdoc_ok case_doc = true /\ truthy case_text = true /\ head_is is_space case_text = false /\
  fst (creole2html default_opts no_md case_text) = Ok (lines_text [$ "<p>**bold //both</p>"; $ "<ul>"; 9 :: $ "<li>x{{{~ [[a</li>"; $ "</ul>"; $ "<table>"; $ "<tr>"; 9 :: $ "<td>b</td>"; 9 :: $ "<td><a href=""c"">d</a></td>"; $ "</tr>"; $ "</table>";
    $ "<p>[Error: Wrong macro arguments: ""bar"" for macro 'foo' (maybe wrong macro tag syntax?)]"; $ "</p>"; $ "<h1>&gt;</h1>"]).
Proof. repeat split; vm_compute; reflexivity. Qed.
Example C85_no_toc : ~ uses_toc true case_text.
Proof.
  intros (n & u & E & I). assert (E' : parse true case_text = Some (n, u)) by exact E.
  assert (U : match parse true case_text with Some (_, u) => existsb (str_eqb ($ "toc")) u | None => true end = false) by (vm_compute; reflexivity).
  rewrite E' in U. apply not_true_iff_false in U. apply U. apply existsb_exists. exists ($ "toc"). split; [exact I|reflexivity].
Qed.
Definition shown (t : str) : res str := fst (creole2html default_opts no_md t).
Example C85_run : shown (wr_fdoc case_doc ++ [10; 10] ++ case_text) = match shown case_text with Ok h => Ok (html_fdoc true case_doc ++ [10; 10] ++ h) | Exc e => Exc e end.
Proof. vm_compute. reflexivity. Qed.

(** the conditions are needed: the empty line ... *)
Theorem C85_touching_refuted :
  shown (lines_text [$ "* a"; $ "b"]) = Ok (lines_text [$ "<ul>"; 9 :: $ "<li>ab</li>"; $ "</ul>"]) /\
  shown (lines_text [$ "* a"; []; $ "b"]) = Ok (lines_text [$ "<ul>"; 9 :: $ "<li>a</li>"; $ "</ul>"; $ "<p>b</p>"]).
Proof. split; vm_compute; reflexivity. Qed.
Print Assumptions C85_touching_refuted.
(** ... and no table of contents: it lists the headings above it *)
Theorem C85_toc_refuted :
  shown ($ "<<toc>>") = Ok (lines_text [$ "<ul>"; $ "</ul>"]) /\
  shown (lines_text [$ "= H"; []; $ "<<toc>>"]) = Ok (lines_text [$ "<a name=""H""><h1>H</h1></a>"; []; $ "<ul>"; 9 :: $ "<li><a href=""#H"">H</a></li>"; $ "</ul>"]).
Proof. split; vm_compute; reflexivity. Qed.
Print Assumptions C85_toc_refuted.

(** ... and the document above: below a line of equal signs and any number of empty lines the next
    line is no paragraph but the text of a heading *)
Theorem C85_above_refuted : forall v s md n k t, (1 <= n)%nat -> trimmed t = true -> no_char [10; 13] t = true ->
  head_is (N.eqb 61) t = false -> last_is (N.eqb 61) t = false ->
  creole2html (mkopts true v s) md (repeat 61 n ++ [10; 10] ++ repeat 10 k ++ t) =
  (Ok ($ "<h" ++ show_nat n ++ $ ">" ++ escape t ++ $ "</h" ++ show_nat n ++ $ ">"), md).
Proof. exact far_below. Qed.
Print Assumptions C85_above_refuted.
Example C85_above : shown ($ "=") = Ok ($ "<h1></h1>") /\ shown ($ "foo") = Ok ($ "<p>foo</p>") /\
  shown (lines_text [$ "="; []; $ "foo"]) = Ok ($ "<h1>foo</h1>").
Proof. repeat split; vm_compute; reflexivity. Qed.
