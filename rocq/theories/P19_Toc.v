(** * Properties of documents with a table of contents (C71)

    Only statements, examples and assumptions; the vocabulary is in Spec23.v. *)
From Coq Require Import String List Arith NArith ZArith Bool Lia.
From Verif Require Import PyStr Utils Res HtmlEmitter Spec4 Spec5 Spec7 Spec20 Spec22 Spec23 TocDoc.
Import ListNotations.
Open Scope N_scope.

(** ** C71 *)
Theorem C71_documents_with_toc : forall blog verbose strict md d, titems_ok blog d = true -> has_toc d = true -> md_toc md = TNone -> exists t',
  creole2html (mkopts blog verbose strict) md (wr_titems d) = (Ok (strip (html_titems blog strict (Some (html_toc (contents d))) d)), mkmd (md_env md) t' (md_log md)).
Proof. exact titems_spec. Qed.
Print Assumptions C71_documents_with_toc.
Definition C71_doc : list titem :=
  [ TBlock (BHead 3 ($ " ") ($ "a<b") []); TToc (Some 2); TBlock (BHead 1 ($ " ") ($ "B") []); TBlock (BPara [[IText ($ "x y")]]);
    TBlock (BHead 3 ($ " ") ($ "no") []); TToc None; TBlock (BHead 2 ($ " ") ($ "C") []); TBlock BRule ].
Example C71_case : titems_ok true C71_doc = true /\ has_toc C71_doc = true /\ contents C71_doc = [(3%nat, $ "a<b"); (1%nat, $ "B"); (2%nat, $ "C")] /\
  wr_titems C71_doc = $ "=== a<b" ++ [10; 10] ++ $ "<<toc depth=2>>" ++ [10; 10] ++ $ "= B" ++ [10; 10] ++ $ "x y" ++ [10; 10] ++ $ "=== no" ++ [10; 10] ++ $ "<<toc>>" ++ [10; 10] ++ $ "== C" ++ [10; 10] ++ $ "----" /\
  fst (creole2html default_opts (mkmd no_macros TNone []) (wr_titems C71_doc)) = Ok ($ "<a name=""a&lt;b""><h3>a&lt;b</h3></a>" ++ [10; 10] ++
    $ "<ul>" ++ [10; 9] ++ $ "<ul>" ++ [10; 9; 9] ++ $ "<ul>" ++ [10; 9; 9; 9] ++ $ "<li><a href=""#a<b"">a<b</a></li>" ++ [10; 9; 9] ++ $ "</ul>" ++ [10; 9] ++ $ "</ul>" ++ [10; 9] ++
    $ "<li><a href=""#B"">B</a></li>" ++ [10; 9] ++ $ "<ul>" ++ [10; 9; 9] ++ $ "<li><a href=""#C"">C</a></li>" ++ [10; 9] ++ $ "</ul>" ++ [10] ++ $ "</ul>" ++ [10; 10] ++
    $ "<a name=""B""><h1>B</h1></a>" ++ [10; 10] ++ $ "<p>x y</p>" ++ [10; 10] ++ $ "<a name=""no""><h3>no</h3></a>" ++ [10; 10] ++ $ "<p>&lt;&lt;toc&gt;&gt;</p>" ++ [10; 10] ++
    $ "<a name=""C""><h2>C</h2></a>" ++ [10; 10] ++ $ "<hr />") /\
  titems_ok false [TToc None; TBlock (BPara [[IText ($ "x")]]); TToc None] = true.
Proof. vm_compute. repeat split. Qed.
(** the depth holds for the headings after the tag only: the same headings before it are all listed *)
Theorem C71_depth_before_refuted : contents [TBlock (BHead 3 ($ " ") ($ "deep") []); TToc (Some 1)] = [(3%nat, $ "deep")] /\
  contents [TToc (Some 1); TBlock (BHead 3 ($ " ") ($ "deep") [])] = [] /\
  fst (creole2html default_opts (mkmd no_macros TNone []) ($ "=== deep" ++ [10; 10] ++ $ "<<toc depth=1>>")) <>
  Ok ($ "<a name=""deep""><h3>deep</h3></a>" ++ [10; 10] ++ html_toc []).
Proof. vm_compute. repeat split. discriminate. Qed.
Print Assumptions C71_depth_before_refuted.
