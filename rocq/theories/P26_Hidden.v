(** * Comments, document types and processing instructions (C78)

    Only statements, examples and assumptions; the vocabulary is in Spec11.v, Spec29.v and
    Spec30.v. *)
From Coq Require Import String List Arith NArith ZArith Bool Lia.
From Verif Require Import PyStr Utils Res HtmlTok HtmlBase Html2X Spec2 Spec10 Spec11 Spec16 Spec18 Spec19 Spec29 Spec30 Hidden HiddenOut.
Import ListNotations.
Open Scope N_scope.

(** ** C78 *)
Theorem C78_not_shown : forall d html html' (u : unknown) (strict : bool), d <> [] -> shape_doc d = true -> annotated d html -> spelled d html' ->
  html2creole u strict html = html2creole u strict html' /\ html2textile u html = html2textile u html' /\
  html2markdown u html = html2markdown u html' /\ html2rest u html = html2rest u html'.
Proof. exact annotated_results. Qed.
Print Assumptions C78_not_shown.
(** documents without comments are among them *)
Theorem C78_none : forall d html, spelled d html -> annotated d html.
Proof. exact spelled_annotated. Qed.
Print Assumptions C78_none.
Theorem C78_creole : forall u strict d html, d <> [] -> xdoc_ok d = true -> annotated d html -> html2creole u strict html = Ok (cre_doc d).
Proof. exact annotated_creole. Qed.
Print Assumptions C78_creole.
Theorem C78_textile : forall u d html, d <> [] -> tex_doc_ok d = true -> annotated d html -> html2textile u html = Ok (tex_doc d).
Proof. exact annotated_textile. Qed.
Print Assumptions C78_textile.
Theorem C78_markdown : forall url u d html, d <> [] -> md_doc_ok url d = true -> addresses url d -> annotated d html -> html2markdown u html = Ok (md_doc url d).
Proof. exact annotated_markdown. Qed.
Print Assumptions C78_markdown.
Theorem C78_rest : forall u d html, d <> [] -> rst_doc_ok d = true -> annotated d html ->
  html2rest u html = match rst_doc d with Some t => Ok t | None => Exc ESubstitution end.
Proof. exact annotated_rest. Qed.
Print Assumptions C78_rest.

(** an example *)
Definition note_doc : list xblock := [XPara [XText ($ "a"); XBreak; XFace ($ "b") [] [XText ($ "b")]]; XRule].
Definition note_html : str :=
  $ "<!DocType html>" ++ $ "<?xml x=""1""?>" ++ $ "<p>" ++ $ "a" ++ $ "<br />" ++ ($ "<!-- one" ++ [10; 32] ++ $ "two -->") ++ $ "<b>" ++ $ "b" ++ $ "</b>" ++ $ "</p>" ++ $ "<!---->" ++ $ "<!-- x -->" ++ $ "<hr />" ++ $ "<![if !IE]>" ++ $ "<![CDATA[ x ] ]>".
Example C78_note_annotated : annotated note_doc note_html.
Proof.
  assert (NO : unseens []) by constructor.
  assert (CM : forall x y, quiet x = true -> unseens y -> unseens (($ "<!--" ++ x ++ $ "-->") ++ y)) by (intros x y Q U; constructor; [exact (comment_unseen x [] Q eq_refl)|exact U]).
  unfold annotated, note_doc, note_html. vm_compute tm_doc. cbn [fits_more block_part].
  exists []. eexists. split; [reflexivity|]. split; [reflexivity|].
  exists ($ "<!DocType html><?xml x=""1""?>"), ($ "<p>"). eexists. split.
  { apply (unseens_more ($ "<!DocType html>") ($ "<?xml x=""1""?>")).
    - apply (doctype_unseen ($ "DocType") ($ " html")); [|reflexivity]. repeat (apply Forall2_cons; [first [left; reflexivity|right; split; reflexivity]|]). apply Forall2_nil.
    - apply (unseens_more ($ "<?xml x=""1""?>") []); [apply (instruction_unseen ($ "xml x=""1""?")); reflexivity|exact NO]. }
  split; [discriminate|]. split; [apply (open_written _ _ ($ "p") [] 0); [split; [repeat constructor|reflexivity]|constructor]|]. split; [reflexivity|].
  exists []. eexists. split; [reflexivity|]. split; [reflexivity|].
  eexists. split; [reflexivity|].
  exists []. eexists. split; [reflexivity|]. split; [reflexivity|].
  exists [], ($ "<br />"). eexists. split; [exact NO|]. split; [reflexivity|]. split; [apply (single_written _ _ ($ "br") [] 1); [split; [repeat constructor|reflexivity]|constructor|discriminate]|]. split; [reflexivity|].
  exists []. eexists. split; [reflexivity|]. split; [reflexivity|].
  exists ($ "<!-- one" ++ [10; 32] ++ $ "two -->"), ($ "<b>"). eexists. split; [apply (CM ($ " one" ++ [10; 32] ++ $ "two ") []); [reflexivity|exact NO]|]. split; [discriminate|]. split; [apply (open_written _ _ ($ "b") [] 0); [split; [repeat constructor|reflexivity]|constructor]|]. split; [reflexivity|].
  eexists. split; [reflexivity|].
  exists [], ($ "</b>"). eexists. split; [exact NO|]. split; [reflexivity|]. split; [apply (close_written _ ($ "b") 0); split; [repeat constructor|reflexivity]|]. split; [reflexivity|].
  exists [], ($ "</p>"). eexists. split; [exact NO|]. split; [reflexivity|]. split; [apply (close_written _ ($ "p") 0); split; [repeat constructor|reflexivity]|]. split; [reflexivity|].
  exists []. eexists. split; [reflexivity|]. split; [reflexivity|].
  exists ($ "<!----><!-- x -->"), ($ "<hr />"). eexists. split; [apply (CM [] ($ "<!-- x -->")); [reflexivity|apply (CM ($ " x ") []); [reflexivity|exact NO]]|]. split; [discriminate|].
  split; [apply (single_written _ _ ($ "hr") [] 1); [split; [repeat constructor|reflexivity]|constructor|discriminate]|]. split; [reflexivity|].
  exists []. eexists. split; [reflexivity|]. split; [reflexivity|].
  split; [|discriminate]. apply (unseens_more ($ "<![if !IE]>") ($ "<![CDATA[ x ] ]>")).
  - apply (condition_unseen ($ "if") ($ "if") ($ " !IE") []); [left; reflexivity|repeat constructor|reflexivity|reflexivity|reflexivity].
  - apply (unseens_more ($ "<![CDATA[ x ] ]>") []); [|exact NO].
    apply (section_unseen ($ "cdata") ($ "CDATA") ($ "[ x ") [32] []); [left; reflexivity| |reflexivity|reflexivity|reflexivity|reflexivity].
    repeat (apply Forall2_cons; [first [left; reflexivity|right; split; reflexivity]|]). apply Forall2_nil.
Qed.
Example C78_note_ok : xdoc_ok note_doc = true /\ shape_doc note_doc = true.
Proof. vm_compute. auto. Qed.
Example C78_note_creole : html2creole raise_unknown_node false note_html = Ok ($ "a" ++ [10] ++ $ "**b**" ++ [10; 10] ++ $ "----").
Proof. rewrite (C78_creole _ _ note_doc); [vm_compute; reflexivity|discriminate|vm_compute; reflexivity|exact C78_note_annotated]. Qed.

(** white space around a comment is kept, other than white space between blocks *)
Theorem C78_spaces_refuted : ~ (forall w x w', forallb is_space w = true -> forallb is_space w' = true -> quiet x = true ->
  html2creole raise_unknown_node true ($ "<p>a</p>" ++ w ++ $ "<!--" ++ x ++ $ "-->" ++ w' ++ $ "<p>b</p>") = html2creole raise_unknown_node true ($ "<p>a</p>" ++ w ++ w' ++ $ "<p>b</p>")).
Proof. intro H. specialize (H [10] ($ "x") [10] eq_refl eq_refl eq_refl). vm_compute in H. discriminate H. Qed.
Print Assumptions C78_spaces_refuted.
(** sections with other names raise *)
Theorem C78_section_refuted : ~ (forall k x, forallb lower_letter k = true -> k <> [] -> quiet x = true ->
  html2creole raise_unknown_node true ($ "<p>a</p><![" ++ k ++ $ "[" ++ x ++ $ "]]>") = html2creole raise_unknown_node true ($ "<p>a</p>")).
Proof. intro H. specialize (H ($ "foo") ($ "x") eq_refl ltac:(discriminate) eq_refl). vm_compute in H. discriminate H. Qed.
Print Assumptions C78_section_refuted.
