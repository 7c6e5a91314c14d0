(** * html documents with preformatted blocks (C74)

    Only statements, examples and assumptions; the vocabulary is in Spec26.v. *)
From Coq Require Import String List Arith NArith ZArith Bool Lia.
From Verif Require Import PyStr Utils Res HtmlTok HtmlBase Html2X Spec2 Spec10 Spec11 Spec16 Spec18 Spec19 CleanEmit Spec26 PreDoc.
Import ListNotations.
Open Scope N_scope.

(** ** C74 *)
Theorem C74_creole : forall u strict d html, parts_ok xblock_ok d -> countable d -> pwritten d html -> html2creole u strict html = Ok (cre_parts d).
Proof. exact parts_creole. Qed.
Print Assumptions C74_creole.
Theorem C74_textile : forall u d html, parts_ok tex_block_ok d -> countable d -> pwritten d html -> html2textile u html = Ok (tex_parts d).
Proof. exact parts_textile. Qed.
Print Assumptions C74_textile.
Theorem C74_markdown : forall url u d html, parts_ok (md_block_ok url) d -> addresses url (blocks_of d) -> countable d -> pwritten d html -> html2markdown u html = Ok (md_parts url d).
Proof. exact parts_markdown. Qed.
Print Assumptions C74_markdown.
Theorem C74_rest : forall u d html, parts_ok rst_block_ok d -> texts_seen d -> countable d -> pwritten d html ->
  html2rest u html = match rst_parts d with Some t => Ok t | None => Exc ESubstitution end.
Proof. exact parts_rest. Qed.
Print Assumptions C74_rest.

Definition nl : str := [10].
Definition case_pre : list ent := [Text ($ "if a "); Named ($ "lt"); Text ($ " b:" ++ nl ++ nl ++ $ "    *go*  [["); Dec ($ "123")].
Definition case_doc : list hpart := [HBlock (XHead 2 [XText ($ "Code")]); HPre case_pre; HBlock (XPara [XText ($ "more")]); HPre [Text ($ "x")]; HPre [Text ($ " y")]].
Definition case_html : str :=
  $ "<h2>Code</h2>" ++ nl ++ $ "<pre> " ++ nl ++ $ "if a &lt; b:" ++ nl ++ nl ++ $ "    *go*  [[&#123;" ++ nl ++ $ "</pre>" ++ nl ++ $ "  <p>more</p>" ++ nl ++
  $ "<pre>" ++ nl ++ $ "x" ++ nl ++ $ "</pre>" ++ nl ++ $ "<pre>" ++ nl ++ $ " y" ++ nl ++ $ "</pre>" ++ nl.
Lemma case_blocks : forall ok, ok (XHead 2 [XText ($ "Code")]) = true -> ok (XPara [XText ($ "more")]) = true -> parts_ok ok case_doc.
Proof.
  assert (E : forall t, ~ In 38 t -> ~ In 60 t -> forallb is_space (first_line t) = false -> pre_ok [Text t]).
  { intros t A B C. unfold pre_ok, pre_src. cbn [flat_map write meant_all meant]. rewrite app_nil_r. split; [constructor; [exact A|constructor]|]. split; [eexists; reflexivity|]. split; assumption. }
  intros ok H1 H2. unfold parts_ok, case_doc. repeat constructor; try assumption; try (vm_compute; intuition congruence).
  all: try (vm_compute; eexists; reflexivity).
Qed.
Example C74_case : parts_ok xblock_ok case_doc /\ parts_ok tex_block_ok case_doc /\ parts_ok (md_block_ok (fun x => x)) case_doc /\ parts_ok rst_block_ok case_doc /\ texts_seen case_doc.
Proof.
  repeat (split; [apply case_blocks; reflexivity|]). unfold texts_seen, case_doc. repeat (constructor; [try exact I; vm_compute; reflexivity|]). constructor.
Qed.
Example C74_case_countable : countable case_doc.
Proof. intros i H. change (List.length case_doc) with 5%nat in H. do 5 (destruct i as [|i]; [vm_compute; discriminate|]). lia. Qed.
Example C74_case_written : pwritten case_doc case_html.
Proof.
  exists [], (firstn (List.length case_html - 1) case_html), nl. split; [reflexivity|]. split; [reflexivity|]. split; [reflexivity|].
  exists ($ "<h2>Code</h2>"), nl. eexists. split; [reflexivity|]. split; [apply fitsb_sound; reflexivity|]. split; [reflexivity|]. split; [discriminate|]. split; [intros _; exists []; reflexivity|]. split; [discriminate|].
  exists (pre_html [32] case_pre), (nl ++ [32; 32]). eexists. split; [reflexivity|]. split; [exists [32]; split; reflexivity|]. split; [reflexivity|]. split; [discriminate|]. split; [discriminate|]. split; [intros _ _; left; reflexivity|].
  exists ($ "<p>more</p>"), nl. eexists. split; [reflexivity|]. split; [apply fitsb_sound; reflexivity|]. split; [reflexivity|]. split; [discriminate|]. split; [intros _; exists []; reflexivity|]. split; [discriminate|].
  exists (pre_html [] [Text ($ "x")]), nl. eexists. split; [reflexivity|]. split; [exists []; split; reflexivity|]. split; [reflexivity|]. split; [discriminate|]. split; [intros _; exists []; reflexivity|]. split; [intros _ _; left; reflexivity|].
  exists (pre_html [] [Text ($ " y")]), [], []. split; [reflexivity|]. split; [exists []; split; reflexivity|]. split; [reflexivity|]. split; [reflexivity|]. split; [discriminate|]. split; [congruence|]. reflexivity.
Qed.
Example C74_case_creole : cre_parts case_doc =
  $ "== Code" ++ nl ++ nl ++ $ "{{{" ++ nl ++ $ "if a < b:" ++ nl ++ nl ++ $ "    *go*  [[{" ++ nl ++ $ "}}}" ++ nl ++ $ "more" ++ nl ++ nl ++ $ "{{{" ++ nl ++ $ "x" ++ nl ++ $ "}}}" ++ nl ++ $ "{{{" ++ nl ++ $ " y" ++ nl ++ $ "}}}".
Proof. vm_compute. reflexivity. Qed.
Example C74_case_textile : tex_parts case_doc =
  $ "h2. Code" ++ nl ++ nl ++ $ "<pre>" ++ nl ++ $ "if a < b:" ++ nl ++ nl ++ $ "    *go*  [[{" ++ nl ++ $ "</pre>" ++ nl ++ $ "more" ++ nl ++ nl ++ $ "<pre>" ++ nl ++ $ "x" ++ nl ++ $ "</pre>" ++ nl ++ $ "<pre>" ++ nl ++ $ " y" ++ nl ++ $ "</pre>".
Proof. vm_compute. reflexivity. Qed.
Example C74_case_markdown : md_parts (fun x => x) case_doc =
  $ "## Code" ++ nl ++ $ "```" ++ nl ++ $ "if a < b:" ++ nl ++ nl ++ $ "    *go*  [[{" ++ nl ++ $ "```" ++ nl ++ nl ++ $ "more" ++ nl ++ $ "```" ++ nl ++ $ "x" ++ nl ++ $ "```" ++ nl ++ $ "```" ++ nl ++ $ " y" ++ nl ++ $ "```".
Proof. vm_compute. reflexivity. Qed.
(** note the lost indentation of [y] *)
Example C74_case_rest : rst_parts case_doc = Some (
  $ "----" ++ nl ++ $ "Code" ++ nl ++ $ "----" ++ nl ++ nl ++ $ "::" ++ nl ++ nl ++ $ "    if a < b:" ++ nl ++ $ "    " ++ nl ++ $ "        *go*  [[{" ++ nl ++ nl ++ $ "more" ++ nl ++ nl ++
  $ "::" ++ nl ++ nl ++ $ "    x" ++ nl ++ nl ++ $ "::" ++ nl ++ nl ++ $ "    y").
Proof. vm_compute. reflexivity. Qed.
(** reStructuredText: the first line loses its indentation, so that two texts become the same *)
Theorem C74_rest_indent_refuted : ~ (forall u l l' html html', pre_ok l -> pre_ok l' -> pwritten [HPre l] html -> pwritten [HPre l'] html' -> html2rest u html = html2rest u html' -> pre_text l = pre_text l').
Proof.
  intro H. specialize (H (fun _ _ _ => Ok []) [Text ($ " a" ++ nl ++ $ "b")] [Text ($ "a" ++ nl ++ $ "b")] (pre_html [] [Text ($ " a" ++ nl ++ $ "b")]) (pre_html [] [Text ($ "a" ++ nl ++ $ "b")])).
  assert (P : forall l, pwritten [HPre l] (pre_html [] l)).
  { intro l. exists [], (pre_html [] l), []. split; [rewrite app_nil_r; reflexivity|]. split; [reflexivity|]. split; [reflexivity|]. exists (pre_html [] l), [], []. split; [rewrite app_nil_r; reflexivity|]. split; [exists []; split; reflexivity|].
    split; [reflexivity|]. split; [reflexivity|]. split; [discriminate|]. split; [congruence|reflexivity]. }
  assert (Q : forall t, ~ In 38 t -> ~ In 60 t -> forallb is_space (first_line t) = false -> pre_ok [Text t]).
  { intros t A B C. unfold pre_ok, pre_src. cbn [flat_map write meant_all meant]. rewrite app_nil_r. split; [constructor; [exact A|constructor]|]. split; [eexists; reflexivity|]. split; assumption. }
  specialize (H ltac:(apply Q; vm_compute; intuition congruence) ltac:(apply Q; vm_compute; intuition congruence) (P _) (P _) ltac:(vm_compute; reflexivity)). vm_compute in H. discriminate H.
Qed.
Print Assumptions C74_rest_indent_refuted.
(** a block on one line is glued to the next block *)
Theorem C74_one_line_refuted : html2creole raise_unknown_node true ($ "<p>x</p>" ++ nl ++ $ "<pre>a</pre>" ++ nl ++ $ "<p>y</p>") = Ok ($ "x" ++ nl ++ nl ++ $ "{{{a}}} y").
Proof. vm_compute. reflexivity. Qed.
Print Assumptions C74_one_line_refuted.
(** the end mark inside of the text is not escaped: creole ends the block there *)
Theorem C74_end_mark_refuted : html2creole raise_unknown_node true ($ "<pre>" ++ nl ++ $ "a" ++ nl ++ $ "}}}" ++ nl ++ $ "b" ++ nl ++ $ "</pre>") = Ok ($ "{{{" ++ nl ++ $ "a" ++ nl ++ $ "}}}" ++ nl ++ $ "b" ++ nl ++ $ "}}}").
Proof. vm_compute. reflexivity. Qed.
Print Assumptions C74_end_mark_refuted.
