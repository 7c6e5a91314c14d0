(** * Properties of creole2html (C01-C05, C17-C22, C44, C47)

    Only statements, examples and assumptions; see Spec.v and HtmlSpec.v for the vocabulary. *)
From Coq Require Import String List Arith NArith ZArith Bool.
From Verif Require Import PyStr GNames Regex Rules DocTree Utils CreoleParser HtmlEmitter HtmlSpec Spec.
From Verif Require Import ParserFacts Safety C2H TocFacts P1_Lemmas.
Import ListNotations.
Open Scope N_scope.

(** ** C01 *)
Theorem C01_total : forall (o : opts) (s : str), contains ($ "toc") s = false ->
  exists html md', creole2html o no_md s = (Ok html, md').
Proof. exact lemma_C01. Qed.
Print Assumptions C01_total.
(** the same for every document whose list of used macros does not have toc *)
Theorem C01_total_unless_toc : forall (o : opts) (s : str), ~ uses_toc (o_blog o) s ->
  exists html md', creole2html o no_md s = (Ok html, md').
Proof. exact lemma_C01b. Qed.
Print Assumptions C01_total_unless_toc.
Example C01_case : contains ($ "toc") ($ "a **b** [[c|d]] <<foo x>> {{{") = false /\
  fst (creole2html (mkopts false (Some 3%Z) true) no_md ($ "a **b** [[c|d]]")) =
  Ok ($ "<p>a <strong>b</strong> <a href=""c"">d</a></p>").
Proof. vm_compute. auto. Qed.

(** ** C02 *)
Theorem C02_wellformed : forall (blog : bool) (s : str), ~ uses_toc blog s ->
  exists f, fst (creole2html (mkopts blog (Some 0%Z) true) no_md s) = Ok (strip (show_all f)) /\
    document (fun _ => False) img_attrs f.
Proof. exact lemma_C02. Qed.
Print Assumptions C02_wellformed.
Example C02_case : ~ uses_toc true ($ "<b> {{a""b|c}} <<m>> & [[x""|y]]") /\
  fst (creole2html (mkopts true (Some 0%Z) true) no_md ($ "<b> {{a""b|c}} <<m>> & [[x""|y]]")) =
  Ok ($ "<p>&lt;b&gt; <img src=""a&quotb"" title=""c"" alt=""c"" />  &amp; <a href=""x&quot"">y</a></p>").
Proof. split; [apply text_uses_toc; vm_compute; reflexivity | vm_compute; reflexivity]. Qed.

(** ** C03 *)
Theorem C03_refuted : exists s html md',
  creole2html default_opts no_md s = (Ok html, md') /\ contains ($ "<script>alert(1)</script>") html = true.
Proof. exact lemma_C03_refuted. Qed.
Print Assumptions C03_refuted.
(** with default verbosity the error texts are the only unescaped pieces *)
Theorem C03_only_error_texts : forall (blog : bool) (v : option Z) (s : str), ~ uses_toc blog s ->
  exists f, fst (creole2html (mkopts blog v true) no_md s) = Ok (strip (show_all f)) /\
    document error_text img_attrs f.
Proof. exact lemma_C03. Qed.
Print Assumptions C03_only_error_texts.

(** ** C04 *)
Theorem C04_content_model : forall (o : opts) (md : mdict) (s : str),
  tame (eff_verbose o) (md_env md) -> ~ uses_toc (o_blog o) s ->
  exists f, fst (creole2html o md s) = Ok (strip (show_all f)) /\
    document (raw_piece (eff_verbose o) (md_env md)) img_shape f.
Proof. exact lemma_C04. Qed.
Print Assumptions C04_content_model.
Example C04_case : fst (creole2html default_opts no_md ($ "* a" ++ [10] ++ $ "** b" ++ [10; 10] ++ $ "|=x|y|")) =
  Ok ($ "<ul>" ++ [10; 9] ++ $ "<li>a" ++ [10; 9] ++ $ "<ul>" ++ [10; 9; 9] ++ $ "<li>b</li>" ++ [10; 9] ++
      $ "</ul></li>" ++ [10] ++ $ "</ul>" ++ [10] ++ $ "<table>" ++ [10] ++ $ "<tr>" ++ [10; 9] ++ $ "<th>x</th>" ++
      [10; 9] ++ $ "<td>y</td>" ++ [10] ++ $ "</tr>" ++ [10] ++ $ "</table>").
Proof. vm_compute. reflexivity. Qed.

(** ** C05 *)
Theorem C05_line_endings : forall (o : opts) (md : mdict) (lines : list (str * term)) (last : str),
  Forall (fun x => no_newline (fst x)) lines -> no_newline last -> unambiguous lines ->
  creole2html o md (text_of lines last) =
  creole2html o md (text_of (map (fun x => (fst x, LF)) lines) last).
Proof. exact creole2html_lines. Qed.
Print Assumptions C05_line_endings.
Example C05_case : let l := [($ "= a =", CRLF); ($ "* b", CR); ([], CRLF); ($ "c", LF)] in
  Forall (fun x => no_newline (fst x)) l /\ no_newline ($ "d") /\ unambiguous l.
Proof. exact lemma_C05_case. Qed.

(** ** C17 *)
Theorem C17_macro_calls : forall (o : opts) (md : mdict) (s : str) n u html md',
  parse (o_blog o) s = Some (n, u) -> ~ In ($ "toc") u ->
  creole2html o md s = (Ok html, md') ->
  md_log md' = md_log md ++ flat_map (tag_call (md_env md)) (macro_tags n).
Proof. exact creole2html_log. Qed.
Print Assumptions C17_macro_calls.
Theorem C17_no_exception_escapes : forall (o : opts) (md : mdict) (s : str),
  (eff_verbose o <= 2)%Z -> no_base (md_env md) -> ~ uses_toc (o_blog o) s ->
  exists html md', creole2html o md s = (Ok html, md').
Proof. exact lemma_C17. Qed.
Print Assumptions C17_no_exception_escapes.
(** verbose = 0: no error text, only results of macros *)
Theorem C17_quiet : forall (blog strict_ : bool) (md : mdict) (s : str),
  no_base (md_env md) -> ~ uses_toc blog s ->
  exists f, fst (creole2html (mkopts blog (Some 0%Z) strict_) md s) = Ok (strip (show_all f)) /\
    document (macro_result (md_env md)) img_shape f.
Proof. exact lemma_C17_quiet. Qed.
Print Assumptions C17_quiet.
Example C17_case : let e := mkenv (str_eqb ($ "m")) (fun _ _ kw => match dict_get ($ "a") kw with
                                    | Some (VInt 1) => MRet ($ "<hr>") | _ => MTypeError ($ "no") end) in
  creole2html default_opts (mkmd e TNone []) ($ "<<m a=1>>t<</m>> <<m>> <<x>>") =
  (Ok ($ "<hr>" ++ [10] ++ $ "<p> [Error: Macro 'm' error: no]" ++ [10] ++ $ " [Error: Macro 'x' doesn't exist]" ++ [10] ++ $ "</p>"),
   mkmd e TNone [($ "m", [($ "a", VInt 1); ($ "text", VStr ($ "t"))]); ($ "m", [($ "text", VNone)])]).
Proof. vm_compute. reflexivity. Qed.

(** ** C18 *)
Theorem C18_toc_nesting : forall l : list (nat * str), Forall (fun x => (1 <= fst x)%nat) l ->
  flat_map (outline 1) (flat_list2nest_list l) = l.
Proof. exact nest_outline. Qed.
Print Assumptions C18_toc_nesting.
Example C18_case : flat_list2nest_list [(1%nat, $ "a"); (3%nat, $ "b"); (2%nat, $ "c"); (1%nat, $ "d")] =
  [NLeaf ($ "a"); NList [NList [NLeaf ($ "b")]; NLeaf ($ "c")]; NLeaf ($ "d")].
Proof. vm_compute. reflexivity. Qed.

(** ** C19 *)
Theorem C19_toc_html : forall l : list nest, exists f t,
  nested_headlines2html 0 (NList l) = show_all [f; HText t] /\ t = [] /\ toc_list f /\
  toc_links 0 f = map (fun x => (fst x, 35 :: snd x)) (flat_map (outline 1) l).
Proof. exact toc_html_balanced. Qed.
Print Assumptions C19_toc_html.

(** ** C20 *)
Theorem C20_refuted : exists title html md',
  creole2html default_opts no_md ($ "= " ++ title ++ $ " =" ++ [10] ++ $ "<<toc>>") = (Ok html, md') /\
  contains title html = true /\ escape title <> title.
Proof. exact lemma_C20_refuted. Qed.
Print Assumptions C20_refuted.

(** ** C21 *)
Theorem C21_history_independent : forall (docs : list (opts * str)) (md : mdict) (o : opts) (s : str),
  stateless (md_env md) -> Forall (fun x => ~ uses_toc (o_blog (fst x)) (snd x)) docs ->
  fst (creole2html o (after md docs) s) = fst (creole2html o md s).
Proof. exact history_free. Qed.
Print Assumptions C21_history_independent.
Example C21_case : stateless no_macros /\
  Forall (fun x : opts * str => ~ uses_toc (o_blog (fst x)) (snd x)) [(default_opts, $ "a <<b>>"); (default_opts, $ "= c")].
Proof. exact lemma_C21_case. Qed.
Theorem C21_refuted : exists docs o s, fst (creole2html o (after no_md docs) s) <> fst (creole2html o no_md s).
Proof. exact lemma_C21_refuted. Qed.
Print Assumptions C21_refuted.

(** ** C22 *)
Theorem C22_refuted : exists s, fst (creole2html default_opts no_md s) = Exc ETypeError.
Proof. exact lemma_C22_refuted. Qed.
Print Assumptions C22_refuted.
Theorem C22_total_with_toc : forall (o : opts) (md : mdict) (s : str) n u,
  (eff_verbose o <= 2)%Z -> no_base (md_env md) -> md_toc md = TNone ->
  parse (o_blog o) s = Some (n, u) -> everywhere toc_args_ok n ->
  exists html md', creole2html o md s = (Ok html, md').
Proof. exact lemma_C22_total. Qed.
Print Assumptions C22_total_with_toc.
Theorem C22_listed_headlines : forall (o : opts) (md : mdict) (s : str) n u html md',
  parse (o_blog o) s = Some (n, u) -> In ($ "toc") u -> md_toc md = TNone ->
  creole2html o md s = (Ok html, md') ->
  exists page, html = toc_emit (mktoc None (listed (events n)) true) page.
Proof. exact toc_result. Qed.
Print Assumptions C22_listed_headlines.
Example C22_case : exists n u,
  parse true ($ "== a" ++ [10] ++ $ "<<toc depth=1>>" ++ [10] ++ $ "= b" ++ [10] ++ $ "== c") = Some (n, u) /\
  In ($ "toc") u /\ everywhere toc_args_ok n /\ listed (events n) = [(2%nat, $ "a"); (1%nat, $ "b")].
Proof. exact lemma_C22_case. Qed.

(** ** C44, creole2html part *)
Theorem C44_creole2html_stripped : forall (o : opts) (md : mdict) (s : str) html md',
  ~ uses_toc (o_blog o) s -> creole2html o md s = (Ok html, md') ->
  (forall c t, html = c :: t -> is_space c = false) /\ (forall c t, html = t ++ [c] -> is_space c = false).
Proof. exact lemma_C44. Qed.
Print Assumptions C44_creole2html_stripped.

(** ** C47 *)
Theorem C47_refuted : exists s html md',
  creole2html default_opts no_md s = (Ok html, md') /\ contains ($ """ onerror=""alert(1)""") html = true.
Proof. exact lemma_C47_refuted. Qed.
Print Assumptions C47_refuted.
Theorem C47_guarded : forall (blog strict_ : bool) (s : str) n u,
  parse blog s = Some (n, u) -> ~ In ($ "toc") u -> everywhere titled n ->
  exists f, fst (creole2html (mkopts blog (Some 0%Z) strict_) no_md s) = Ok (strip (show_all f)) /\
    document (fun _ => False) img_attrs f.
Proof. exact lemma_C47. Qed.
Print Assumptions C47_guarded.
Example C47_case : exists n u, parse true ($ "{{a|b|1x2}}") = Some (n, u) /\ ~ In ($ "toc") u /\ everywhere titled n.
Proof. exact lemma_C47_case. Qed.
