(** * Html code blocks in markdown (C76)

    Only statements, examples and assumptions; the vocabulary is in Spec28.v. *)
From Coq Require Import String List Arith NArith ZArith Bool Lia.
From Verif Require Import PyStr Utils Res HtmlTok HtmlBase Html2X Spec2 Spec10 Spec11 Spec18 Spec26 Spec28 CodeFence.
Import ListNotations.
Open Scope N_scope.

(** ** C76 *)
Theorem C76_code_blocks : forall url u d html, Forall (kpart_ok (md_block_ok url)) d -> addresses url (kblocks d) -> kcountable d -> kwritten d html ->
  html2markdown u html = Ok (md_kdoc url d).
Proof. exact codes_markdown. Qed.
Print Assumptions C76_code_blocks.
(** code without references is written in full *)
Theorem C76_whole_text : forall url u d html, forallb plain_code d = true -> Forall (kpart_ok (md_block_ok url)) d -> addresses url (kblocks d) -> kcountable d -> kwritten d html ->
  html2markdown u html = Ok (md_full url d).
Proof. exact codes_full. Qed.
Print Assumptions C76_whole_text.
(** from the first reference on everything is lost *)
Theorem C76_rest_lost : forall (url : str -> str) u a t l html html', code_ok a (Text t :: l) -> kwritten [KCode a (Text t :: l)] html -> kwritten [KCode a [Text t]] html' ->
  html2markdown u html = html2markdown u html'.
Proof. exact codes_tail_lost. Qed.
Print Assumptions C76_rest_lost.

Definition nl : str := [10].
Definition py : attrs := [($ "class", VStr ($ "language-python"))].
Definition case_doc : list kpart :=
  [ KBlock (XHead 2 [XText ($ "Code")]); KCode py [Text (nl ++ $ "print(1)" ++ nl ++ $ "  # two" ++ nl)]; KBlock (XPara [XText ($ "and")]); KLine [Text ($ "a "); Named ($ "lt"); Text ($ " b")]; KCode [] [Text ($ "x")];
    KBlock (XList true [XI [XText ($ "z")] false []]) ].
Definition case_html : str :=
  $ "<h2>Code</h2> <pre><code class=""language-python"">" ++ nl ++ $ "print(1)" ++ nl ++ $ "  # two" ++ nl ++ $ "</code></pre>" ++ nl ++ nl ++ $ "<p>and</p><pre>a &lt; b</pre>   <pre><code>x</code></pre>" ++ nl ++ $ "<ol><li>z</li></ol>" ++ nl.
Example C76_case_ok : Forall (kpart_ok (md_block_ok id)) case_doc /\ forallb plain_code case_doc = true /\ addresses id (kblocks case_doc) /\ kcountable case_doc.
Proof.
  split; [|split; [reflexivity|split; [intros h []|]]].
  - repeat constructor; try reflexivity; try discriminate; try (apply absent; reflexivity).
    eexists. vm_compute. reflexivity.
  - intros i H. change (List.length case_doc) with 6%nat in H. do 6 (destruct i as [|i]; [vm_compute; discriminate|]). lia.
Qed.
Example C76_case_written : kwritten case_doc case_html.
Proof.
  exists [], (firstn (List.length case_html - 1) case_html), nl. split; [vm_compute; reflexivity|]. split; [reflexivity|]. split; [reflexivity|]. unfold case_doc. cbn [kfits].
  assert (FB : forall b, fits (tm_block b) (flat_map part_src (tm_block b))).
  { intro b. generalize (tm_block b). induction l as [|p l IH]; [reflexivity|]. cbn [flat_map]. destruct p; cbn [fits]; try (eexists; split; [reflexivity|exact IH]). exists [], (flat_map part_src l). auto. }
  eexists. exists [32]. eexists. split; [|split; [apply FB|split; [reflexivity|split; [discriminate|]]]]; [cbv; reflexivity|].
  eexists. exists (nl ++ nl). eexists. split; [|split; [reflexivity|split; [reflexivity|split; [discriminate|]]]]; [cbv; reflexivity|].
  eexists. exists []. eexists. split; [|split; [apply FB|split; [reflexivity|split; [discriminate|]]]]; [cbv; reflexivity|].
  eexists. exists ($ "   "). eexists. split; [|split; [reflexivity|split; [reflexivity|split; [discriminate|]]]]; [cbv; reflexivity|].
  eexists. exists nl. eexists. split; [|split; [reflexivity|split; [reflexivity|split; [discriminate|]]]]; [cbv; reflexivity|].
  eexists. exists []. eexists. split; [|split; [apply FB|split; [reflexivity|split; [reflexivity|reflexivity]]]]. cbv. reflexivity.
Qed.
Example C76_case_markdown : md_kdoc id case_doc =
  $ "## Code" ++ nl ++ nl ++ $ "```python" ++ nl ++ $ "print(1)" ++ nl ++ $ "  # two" ++ nl ++ $ "```" ++ nl ++ nl ++ $ "and" ++ nl ++ nl ++ $ "```a < b```" ++ nl ++ nl ++ $ "```x```" ++ nl ++ nl ++ nl ++ $ "1. z".
Proof. vm_compute. reflexivity. Qed.
(** code with a reference: cut off *)
Theorem C76_reference_refuted : ~ (forall d html, Forall (kpart_ok (md_block_ok id)) d -> kwritten d html -> html2markdown raise_unknown_node html = Ok (md_full id d)).
Proof.
  intro H. specialize (H [KCode [] [Text ($ "a "); Named ($ "lt"); Text ($ " b")]] ($ "<pre><code>a &lt; b</code></pre>")).
  assert (E : html2markdown raise_unknown_node ($ "<pre><code>a &lt; b</code></pre>") = Ok ($ "```a ```")) by (vm_compute; reflexivity).
  rewrite E in H. assert (X : Ok ($ "```a ```") = Ok (md_full id [KCode [] [Text ($ "a "); Named ($ "lt"); Text ($ " b")]])).
  { apply H.
    - constructor; [|constructor]. split; [reflexivity|]. split; [discriminate|]. split; [|split; [reflexivity|apply absent; reflexivity]].
      constructor; [apply absent; reflexivity|]. constructor; [split; [discriminate|reflexivity]|]. constructor; [apply absent; reflexivity|constructor].
    - exists [], ($ "<pre><code>a &lt; b</code></pre>"), []. repeat split. eexists. exists [], []. rewrite app_nil_r. repeat split. }
  vm_compute in X. discriminate X.
Qed.
Print Assumptions C76_reference_refuted.
(** without a line end after the start tag the language and the code run together *)
Theorem C76_fused_refuted : exists a l a' l', code_ok a l /\ code_ok a' l' /\ language a <> language a' /\ pre_text l <> pre_text l' /\
  html2markdown raise_unknown_node (in_pre (code_src a l)) = html2markdown raise_unknown_node (in_pre (code_src a' l')).
Proof.
  exists [($ "class", VStr ($ "language-c"))], [Text ($ "pp x")], [($ "class", VStr ($ "language-cpp"))], [Text ($ " x")].
  split; [|split; [|split; [vm_compute; discriminate|split; [vm_compute; discriminate|vm_compute; reflexivity]]]];
    (split; [reflexivity|split; [discriminate|split; [constructor; [apply absent; reflexivity|constructor]|split; [reflexivity|apply absent; reflexivity]]]]).
Qed.
Print Assumptions C76_fused_refuted.
(** elements in the code, or no code, are errors *)
Theorem C76_element_refuted : html2markdown raise_unknown_node ($ "<pre><code><b>x</b></code></pre>") = Exc ETypeError.
Proof. vm_compute. reflexivity. Qed.
Print Assumptions C76_element_refuted.
Theorem C76_empty_refuted : html2markdown raise_unknown_node ($ "<pre><code></code></pre>") = Exc EIndexError.
Proof. vm_compute. reflexivity. Qed.
Print Assumptions C76_empty_refuted.
