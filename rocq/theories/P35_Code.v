(** * Properties of the example macros on a system with pygments (C89)

    Only statements, examples and assumptions; the vocabulary is in Spec20.v and Spec38.v. *)
From Coq Require Import String List Arith NArith ZArith Bool Lia.
From Verif Require Import PyStr Utils Res HtmlEmitter ExampleMacros Spec4 Spec5 Spec7 Spec20 Spec38 PygFacts.
Import ListNotations.
Open Scope N_scope.

(** ** C89 *)
Theorem C89_code_with_pygments : forall p blog verbose strict d html, pieces_ok blog d = true -> shown_doc p blog strict verbose d html ->
  fst (creole2html (mkopts blog (Some verbose) strict) (example_md_with p) (wr_pieces d)) = Ok (strip html).
Proof. exact lemma_C89. Qed.
Print Assumptions C89_code_with_pygments.
(** a pygments that knows the language py, marks texts without a tab, and cannot guess *)
Definition small_pygments : pygments :=
  mkpyg unit (fun n => if str_eqb n ($ "py") then Some tt else None) (Datatypes.inr (MException ($ "'function' object has no attribute 'decode'")))
    (fun _ t => match t with Some t => if existsb (N.eqb 9) t then None else Some ($ "<div>" ++ escape t ++ $ "</div>") | None => None end).
Definition code_doc : list piece :=
  [ PMacro (mkmc ($ "code") [mkarg ($ "ext") Double ($ "a.py")] ($ "if a < b:" ++ [10] ++ $ "  c"));
    PBlock BRule;
    PMacro (mkmc ($ "code") [mkarg ($ "ext") Bare ($ "py")] ($ "x" ++ [9] ++ $ "<"));
    PMacro (mkmc ($ "code") [mkarg ($ "ext") Single ($ ".zz")] ($ "lost")) ].
Example C89_case : pieces_ok true code_doc = true /\ exists html, shown_doc small_pygments true false 1 code_doc html /\
  strip html = $ "<div>if a &lt; b:<br />" ++ [10] ++ $ "  c</div>" ++ [10; 10] ++ $ "<hr />" ++ [10; 10] ++ $ "<pre>x" ++ [9] ++ $ "&lt;</pre>" ++ [10; 10] ++
    $ "[Error: Macro 'code' error: 'function' object has no attribute 'decode']".
Proof.
  split; [reflexivity|]. eexists. split.
  - apply sd_macro; [eapply (sm_code small_pygments _ Double _ _ ($ "py") tt)|]; [apply reads_text; [reflexivity|refine (proj2 (NumeralFacts.no_number _) _); reflexivity]|apply (lang_dot _ ($ "a")); reflexivity|apply lexed_name; reflexivity|reflexivity|].
    apply sd_block. apply sd_macro; [eapply (sm_plain small_pygments _ Bare _ _ ($ "py") tt)|]; [apply reads_text; [reflexivity|refine (proj2 (NumeralFacts.no_number _) _); reflexivity]|apply (lang_plain ($ "py")); reflexivity|apply lexed_name; reflexivity|reflexivity|].
    apply sd_macro; [eapply (sm_unknown small_pygments _ Single _ _ ($ "zz"))|apply sd_end]; [apply reads_text; [reflexivity|refine (proj2 (NumeralFacts.no_number _) _); reflexivity]|apply (lang_dot _ []); reflexivity|reflexivity|reflexivity].
  - reflexivity.
Qed.
(** the language is not guessed from the text: for an extension without a lexer the answer of
    guess_lexer, which is asked about the macro function itself, is all that counts; if that
    raises, no text is shown *)
Theorem C89_text_lost_refuted : forall p strict q e lang msg text, pieces_ok true [PMacro (mkmc ($ "code") [mkarg ($ "ext") q e] text)] = true ->
  reads_as e (VStr e) -> language e lang -> by_name p lang = None -> guess p = Datatypes.inr (MException msg) ->
  fst (creole2html (mkopts true (Some 0%Z) strict) (example_md_with p) (wr_pieces [PMacro (mkmc ($ "code") [mkarg ($ "ext") q e] text)])) = Ok [].
Proof.
  intros p strict q e lang msg text K R La N G. rewrite (C89_code_with_pygments p true 0%Z strict _ ([] ++ []) K); [reflexivity|].
  apply (sd_macro p true strict 0%Z _ [] [] []); [|apply sd_end]. exact (sm_unknown p 0%Z q e text lang msg R La N G).
Qed.
Print Assumptions C89_text_lost_refuted.
Example C89_text_lost_case : by_name small_pygments ($ "zz") = None /\
  fst (creole2html (mkopts true (Some 0%Z) false) (example_md_with small_pygments) ($ "<<code ext="".zz"">>print(1)<</code>>")) = Ok [].
Proof. split; vm_compute; reflexivity. Qed.
(** of several extensions the first one counts *)
Theorem C89_last_extension_refuted : language ($ "x.tar.py") ($ "tar") /\
  fst (creole2html default_opts (example_md_with small_pygments) ($ "<<code ext=""x.tar.py"">>y<</code>>")) <>
  fst (creole2html default_opts (example_md_with small_pygments) ($ "<<code ext=""x.py"">>y<</code>>")).
Proof. split; [exact (lang_dots ($ "x.tar.py") ($ "x") ($ "tar") ($ "py") eq_refl eq_refl eq_refl)|vm_compute; discriminate]. Qed.
Print Assumptions C89_last_extension_refuted.
(** a text that pygments cannot mark is shown with its newlines doubled, in a pre element *)
Theorem C89_doubled_lines_refuted : exists p t, fst (creole2html default_opts (example_md_with p) ($ "<<code ext="".py"">>" ++ t ++ $ "<</code>>")) <>
  fst (creole2html default_opts (example_md_with p) ($ "<<pre>>" ++ t ++ $ "<</pre>>")) /\ highlight p = fun _ _ => None.
Proof. exists (mkpyg unit (fun _ => Some tt) (Datatypes.inl tt) (fun _ _ => None)), ($ "a" ++ [10] ++ $ "b"). split; [vm_compute; discriminate|reflexivity]. Qed.
Print Assumptions C89_doubled_lines_refuted.
