(** * Properties of creole documents with macros (C68, C69)

    Only statements, examples and assumptions; the vocabulary is in Spec20.v and Spec21.v. *)
From Coq Require Import String List Arith NArith ZArith Bool Lia.
From Verif Require Import PyStr Utils Res HtmlEmitter Spec4 Spec5 Spec7 Spec20 Spec21 ExampleMacros MacroDoc ExampleFacts.
Import ListNotations.
Open Scope N_scope.

(** ** C68 *)
Theorem C68_macros_in_documents : forall blog d, pieces_ok blog d = true -> exists kws, Forall2 call_means (macros_of d) kws /\
  forall verbose strict md html calls,
    html_pieces blog strict (match verbose with None => 1%Z | Some v => v end) (md_env md) d kws (md_log md) = Some (html, calls) ->
    creole2html (mkopts blog verbose strict) md (wr_pieces d) = (Ok (strip html), mkmd (md_env md) (md_toc md) calls).
Proof. exact pieces_spec. Qed.
Print Assumptions C68_macros_in_documents.
Definition C68_doc : list piece :=
  [ PMacro (mkmc ($ "m") [mkarg ($ "n") Bare ($ "7"); mkarg ($ "t") Double ($ "a > b")] ($ " = no ""headline"" =" ++ [10; 10] ++ $ "* x < y "));
    PBlock (BPara [[IText ($ "text ")]]);
    PMacro (mkmc ($ "nope") [] []);
    PBlock (BHead 2 ($ " ") ($ "Title") []);
    PMacro (mkmc ($ "m") [] ($ "<<x>>")) ].
(** [m] answers with the number of the call and its text *)
Definition C68_env : uenv := mkenv (str_eqb ($ "m")) (fun before _ kw =>
  match dict_get ($ "text") kw with
  | Some (VStr t) => if str_eqb t ($ "<<x>>") then MException ($ "oops") else MRet ($ "<" ++ show_nat (List.length before) ++ $ ">" ++ t)
  | _ => MBase
  end).
Example C68_case : pieces_ok true C68_doc = true /\
  wr_pieces C68_doc = $ "<<m n=7 t=""a > b"">> = no ""headline"" =" ++ [10; 10] ++ $ "* x < y <</m>>" ++ [10; 10] ++ $ "text " ++ [10; 10] ++
    $ "<<nope>><</nope>>" ++ [10; 10] ++ $ "== Title" ++ [10; 10] ++ $ "<<m>><<x>><</m>>" /\
  let kws := [[($ "n", VInt 7); ($ "t", VStr ($ "a > b")); ($ "text", VStr ($ "= no ""headline"" =" ++ [10; 10] ++ $ "* x < y"))]; [($ "text", VStr [])]; [($ "text", VStr ($ "<<x>>"))]] in
  (exists html, html_pieces true false 1 C68_env C68_doc kws [] = Some (html, [($ "m", nth 0 kws []); ($ "m", nth 2 kws [])]) /\
   strip html = $ "<0>= no ""headline"" =" ++ [10; 10] ++ $ "* x < y" ++ [10; 10] ++ $ "<p>text </p>" ++ [10; 10] ++
     $ "[Error: Macro 'nope' doesn't exist]" ++ [10; 10] ++ $ "<h2>Title</h2>" ++ [10; 10] ++ $ "[Error: Macro 'm' error: oops]" /\
   creole2html default_opts (mkmd C68_env TNone []) (wr_pieces C68_doc) = (Ok (strip html), mkmd C68_env TNone [($ "m", nth 0 kws []); ($ "m", nth 2 kws [])])).
Proof. vm_compute. split; [reflexivity|]. split; [reflexivity|]. eexists. split; [reflexivity|]. split; reflexivity. Qed.
(** without blog line breaks a macro after an empty line is not recognised as a block ... *)
Theorem C68_wiki_refuted : exists d, pieces_ok true d = true /\ Forall (fun p => piece_ok false p = true) d /\
  fst (creole2html (mkopts false None false) example_md (wr_pieces d)) <> fst (creole2html (mkopts true None false) example_md (wr_pieces d)).
Proof.
  exists [PBlock (BPara [[IText ($ "a")]]); PMacro (mkmc ($ "html") [] ($ "<hr>"))]. split; [reflexivity|]. split; [repeat constructor|]. vm_compute. discriminate.
Qed.
Print Assumptions C68_wiki_refuted.
(** ... and a macro of the same name inside of the text ends it: the result is cut *)
Theorem C68_nested_refuted : fst (creole2html default_opts example_md ($ "<<html>>a<<html>>b<</html>>c<</html>>")) = Ok ($ "a<<html>>b" ++ [10] ++ $ "<p>c&lt;&lt;/html&gt;&gt;</p>").
Proof. vm_compute. reflexivity. Qed.
Print Assumptions C68_nested_refuted.

(** ** C69 *)
Theorem C69_example_macros : forall blog verbose strict d html, pieces_ok blog d = true -> example_doc blog strict (match verbose with None => 1%Z | Some v => v end) d html ->
  fst (creole2html (mkopts blog verbose strict) example_md (wr_pieces d)) = Ok (strip html).
Proof. exact lemma_C69. Qed.
Print Assumptions C69_example_macros.
Example C69_case : let d := [PMacro (mkmc ($ "html") [] ($ " <b>**x**</b> ")); PBlock BRule; PMacro (mkmc ($ "code") [mkarg ($ "ext") Double ($ ".py")] ($ "if a < b:" ++ [10] ++ $ "  c"));
    PMacro (mkmc ($ "pre") [mkarg ($ "wrap") Bare ($ "no")] ($ "z"))] in
  pieces_ok true d = true /\ exists html, example_doc true false 1 d html /\
  strip html = $ "<b>**x**</b>" ++ [10; 10] ++ $ "<hr />" ++ [10; 10] ++ $ "<pre>if a &lt; b:" ++ [10] ++ $ "  c</pre>" ++ [10; 10] ++
    $ "[Error: Macro 'pre' error: pre() got an unexpected keyword argument 'wrap']".
Proof.
  split; [reflexivity|]. eexists. split.
  - apply ex_macro; [apply ex_html|]. apply ex_block. apply ex_macro; [apply ex_code|].
    apply ex_macro; [apply ex_wrong; [right; left; reflexivity | discriminate | discriminate | left; reflexivity]|]. apply ex_end.
  - reflexivity.
Qed.
(** without its argument, [code] shows only a complaint *)
Theorem C69_code_without_ext : fst (creole2html default_opts example_md ($ "<<code>>x<</code>>")) = Ok ($ "[Error: Macro 'code' error: code() missing 1 required positional argument: 'ext']").
Proof. vm_compute. reflexivity. Qed.
Print Assumptions C69_code_without_ext.
