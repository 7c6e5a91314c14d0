(** * Properties of the four html converters (C35-C38, C41, C44, C49)

    Only statements, examples and assumptions; see Spec3.v for the vocabulary. *)
From Coq Require Import String List Arith NArith ZArith Bool.
From Verif Require Import PyStr Utils Res HtmlEmitter HtmlTools HtmlTok HtmlParser HtmlBase Html2X.
From Verif Require Import Spec Spec2 Spec3 EmitFacts P3_Lemmas.
Import ListNotations.
Open Scope N_scope.

(** ** C35 *)
(** a headline anywhere in a document, with any content *)
Theorem C35_adorned : forall u anc l ch s r s',
  emit_node rest_methods u rest_pre anc (heading_node l ch) s = Ok (r, s') ->
  exists p s1 text s2 mark above,
    emit_list rest_methods u rest_pre ($ "headline" :: anc) ch s1 = Ok (text, s2) /\
    adornment l = Some (mark, above) /\ r = p ++ adorned mark above text.
Proof. exact lemma_C35. Qed.
Print Assumptions C35_adorned.
(** a document of one headline: every level, every text *)
Theorem C35_heading : forall u l t,
  emit_rest u (document_of [heading_node l [data_node t]]) =
  match adornment l with Some (mark, above) => Ok (rstrip (adorned mark above t)) | None => Exc EKeyError end.
Proof. exact lemma_C35_text. Qed.
Print Assumptions C35_heading.
Example C35_case : html2rest transparent_unknown_nodes ($ "<h2>A <b>b</b></h2><h9>c</h9>") =
    Ok ($ "-------" ++ [10] ++ $ "A **b**" ++ [10] ++ $ "-------" ++ [10; 10] ++ $ "c" ++ [10] ++ $ "'") /\
  parse_html ($ "<h2>A</h2>") = Ok (document_of [heading_node 2 [data_node ($ "A")]]) /\
  html2rest transparent_unknown_nodes ($ "<h0>A</h0>") = Exc EKeyError.
Proof. vm_compute. auto. Qed.

(** ** C36 *)
Theorem C36_links : forall u html root r n1 n2 t u1 u2, parse_html html = Ok root -> html2rest u html = Ok r ->
  inside n1 root -> inside n2 root -> link_node t u1 n1 -> link_node t u2 n2 -> u1 = u2.
Proof. exact lemma_C36_links. Qed.
Print Assumptions C36_links.
Theorem C36_images : forall u html root r n1 n2 t u1 u2, parse_html html = Ok root -> html2rest u html = Ok r ->
  inside n1 root -> inside n2 root -> image_node t u1 n1 -> image_node t u2 n2 -> u1 = u2.
Proof. exact lemma_C36_images. Qed.
Print Assumptions C36_images.
Example C36_case :
  html2rest transparent_unknown_nodes ($ "<p><a href=""u"">t</a> <a href=""v"">t</a></p>") = Exc ESubstitution /\
  html2rest transparent_unknown_nodes ($ "<p><a href=""u"">t</a> <a href=""u"">t</a></p>") = Ok ($ "`t <u>`_ `t`_") /\
  exists a b, parse_html ($ "<p><a href=""u"">t</a> <a href=""u"">t</a></p>") = Ok (document_of [HN ($ "p") None [] None [a; data_node [32]; b]]) /\
    link_node ($ "t") ($ "u") a /\ link_node ($ "t") ($ "u") b /\
    inside a (document_of [HN ($ "p") None [] None [a; data_node [32]; b]]).
Proof.
  split; [vm_compute; reflexivity|]. split; [vm_compute; reflexivity|].
  eexists. eexists. split; [vm_compute; reflexivity|].
  split; [do 3 eexists; split; reflexivity|]. split; [do 3 eexists; split; reflexivity|].
  eapply in_below; [cbv; intuition discriminate|left; reflexivity|].
  eapply in_below; [cbv; intuition discriminate|left; reflexivity|constructor].
Qed.

(** ** C37 *)
Theorem C37_creole : forall strict ch ch', sk_list creole_tags ch ch' ->
  emit_creole transparent_unknown_nodes strict (document_of ch) = emit_creole transparent_unknown_nodes strict (document_of ch').
Proof. exact lemma_C37_creole. Qed.
Print Assumptions C37_creole.
Theorem C37_textile : forall ch ch', sk_list textile_tags ch ch' ->
  emit_textile transparent_unknown_nodes (document_of ch) = emit_textile transparent_unknown_nodes (document_of ch').
Proof. exact lemma_C37_textile. Qed.
Print Assumptions C37_textile.
Theorem C37_markdown : forall ch ch', sk_list markdown_tags ch ch' ->
  emit_markdown transparent_unknown_nodes (document_of ch) = emit_markdown transparent_unknown_nodes (document_of ch').
Proof. exact lemma_C37_markdown. Qed.
Print Assumptions C37_markdown.
Theorem C37_rest : forall ch ch', sk_list rest_tags ch ch' ->
  emit_rest transparent_unknown_nodes (document_of ch) = emit_rest transparent_unknown_nodes (document_of ch').
Proof. exact lemma_C37_rest. Qed.
Print Assumptions C37_rest.
Example C37_case : exists ch ch',
  parse_html ($ "<p><font size=""3"">a <b>b</b></font><q>c</q></p>") = Ok (document_of ch) /\
  parse_html ($ "<p><blink>a <b>b</b></blink>c</p>") = Ok (document_of ch') /\
  sk_list creole_tags ch ch' /\ emit_creole transparent_unknown_nodes true (document_of ch) = Ok ($ "a **b**c").
Proof.
  eexists. eexists. split; [vm_compute; reflexivity|]. split; [vm_compute; reflexivity|].
  split; [|vm_compute; reflexivity].
  assert (P : forall k, existsb (str_eqb k) (creole_tags ++ BLOCK_TAGS) = false -> plain creole_tags k).
  { intros k H. assert (N : ~ In k (creole_tags ++ BLOCK_TAGS)).
    { intro I. assert (X : existsb (str_eqb k) (creole_tags ++ BLOCK_TAGS) = true).
      { apply existsb_exists. exists k. split; [exact I|]. clear. induction k as [|c k IH]; [reflexivity|].
        cbn [str_eqb]. rewrite N.eqb_refl. exact IH. }
      rewrite H in X. discriminate. }
    split; intro I; apply N; apply in_or_app; auto. }
  apply sk_cons; [|apply sk_nil]. apply sk_node. apply sk_cons.
  - apply sk_rename; [apply P; vm_compute; reflexivity|apply P; vm_compute; reflexivity|].
    apply sk_cons; [apply sk_node; apply sk_nil|]. apply sk_cons; [|apply sk_nil].
    apply sk_node. apply sk_cons; [apply sk_node; apply sk_nil|apply sk_nil].
  - apply sk_cons; [|apply sk_nil]. apply sk_drop; [apply P; vm_compute; reflexivity|].
    split; [cbv; intuition discriminate|].
    split; intros c r E; [inversion E; subst; split; [reflexivity|discriminate]|].
    destruct r as [|? [|? ?]]; inversion E; subst. split; [reflexivity|discriminate].
Qed.

(** ** C38 *)
Theorem C38_creole : forall u strict html n, parse_html html = Ok n ->
  (~ unknown_inside creole_tags n -> html2creole raise_unknown_node strict html = html2creole u strict html) /\
  (unknown_inside creole_tags n -> forall r, html2creole u strict html = Ok r ->
   html2creole raise_unknown_node strict html = Exc ENotImplemented).
Proof. exact lemma_C38_creole. Qed.
Print Assumptions C38_creole.
Theorem C38_textile : forall u html n, parse_html html = Ok n ->
  (~ unknown_inside textile_tags n -> html2textile raise_unknown_node html = html2textile u html) /\
  (unknown_inside textile_tags n -> forall r, html2textile u html = Ok r ->
   html2textile raise_unknown_node html = Exc ENotImplemented).
Proof. exact lemma_C38_textile. Qed.
Print Assumptions C38_textile.
Theorem C38_markdown : forall u html n, parse_html html = Ok n ->
  (~ unknown_inside markdown_tags n -> html2markdown raise_unknown_node html = html2markdown u html) /\
  (unknown_inside markdown_tags n -> forall r, html2markdown u html = Ok r ->
   html2markdown raise_unknown_node html = Exc ENotImplemented).
Proof. exact lemma_C38_markdown. Qed.
Print Assumptions C38_markdown.
Theorem C38_rest : forall u html n, parse_html html = Ok n ->
  (~ unknown_inside rest_tags n -> html2rest raise_unknown_node html = html2rest u html) /\
  (unknown_inside rest_tags n -> forall r, html2rest u html = Ok r ->
   html2rest raise_unknown_node html = Exc ENotImplemented).
Proof. exact lemma_C38_rest. Qed.
Print Assumptions C38_rest.
Example C38_case : exists n, parse_html ($ "<p>a <q>b</q></p>") = Ok n /\ unknown_inside creole_tags n /\
  html2creole transparent_unknown_nodes true ($ "<p>a <q>b</q></p>") = Ok ($ "a b") /\
  html2creole raise_unknown_node true ($ "<p>a <q>b</q></p>") = Exc ENotImplemented /\
  html2creole raise_unknown_node true ($ "<p>a <b>b</b></p>") = Ok ($ "a **b**").
Proof.
  eexists. split; [vm_compute; reflexivity|]. split; [|vm_compute; auto].
  eapply ui_below; [cbv; intuition discriminate|left; reflexivity|].
  eapply ui_below; [cbv; intuition discriminate|right; left; reflexivity|].
  apply ui_here. cbv; intuition discriminate.
Qed.

(** ** C41 *)
Theorem C41_refuted : exists x html md',
  creole2html (mkopts true (Some 1%Z) false) no_md x = (Ok html, md') /\
  html2creole transparent_unknown_nodes false html = Ok ($ "{{a|b|2x1}}") /\ x = $ "{{a|b|1x2}}".
Proof. exists ($ "{{a|b|1x2}}"). do 2 eexists. split; [vm_compute; reflexivity|]. split; [vm_compute; reflexivity|reflexivity]. Qed.
Print Assumptions C41_refuted.
(** always: [width=w height=h] is written [hxw] *)
Theorem C41_swapped : forall u src text w h, text <> [] -> w <> [] -> h <> [] ->
  str_eqb (take_while (fun c => negb (c =? 58)) src) ($ "data") = false ->
  emit_creole u false (document_of [HN ($ "img") None [($ "src", VStr src); ($ "alt", VStr text); ($ "width", VStr w); ($ "height", VStr h)] None []]) =
  Ok ($ "{{" ++ src ++ $ "|" ++ text ++ $ "|" ++ h ++ $ "x" ++ w ++ $ "}}").
Proof. exact lemma_C41. Qed.
Print Assumptions C41_swapped.
Example C41_case : parse_html ($ "<img src=""a"" alt=""b"" width=""1"" height=""2"" />") = Ok (document_of
  [HN ($ "img") None [($ "src", VStr ($ "a")); ($ "alt", VStr ($ "b")); ($ "width", VStr ($ "1")); ($ "height", VStr ($ "2"))] None []]).
Proof. vm_compute. reflexivity. Qed.

(** ** C44 *)
Theorem C44_html_stripped : forall u strict html r,
  html2creole u strict html = Ok r \/ html2textile u html = Ok r \/ html2markdown u html = Ok r ->
  (forall (c : N) (t : str), r = c :: t -> is_space c = false) /\ (forall (c : N) (t : str), r = t ++ [c] -> is_space c = false).
Proof. exact lemma_C44. Qed.
Print Assumptions C44_html_stripped.
Theorem C44_html2rest_rstripped : forall u html r, html2rest u html = Ok r -> forall (c : N) (t : str), r = t ++ [c] -> is_space c = false.
Proof. exact lemma_C44_rest. Qed.
Print Assumptions C44_html2rest_rstripped.
Example C44_case : html2creole transparent_unknown_nodes true ($ " <p> a </p> ") = Ok ($ "a") /\
  html2rest transparent_unknown_nodes ($ " <p> a </p> ") = Ok ($ "a").
Proof. vm_compute. auto. Qed.

(** ** C49 *)
Theorem C49_refuted : exists html, html2creole transparent_unknown_nodes true html = Ok ($ "a" ++ [10; 10] ++ $ "----") /\
  html = $ "<p>a</p><hr><p>b</p>".
Proof. exists ($ "<p>a</p><hr><p>b</p>"). split; [|reflexivity]. vm_compute. reflexivity. Qed.
Print Assumptions C49_refuted.
(** whatever well-nested elements come after [<hr>], they are ignored *)
Theorem C49_rest_swallowed : forall u strict bd ds1 ds2 ds2' a h h', Forall (dom_ok bd true) ds1 ->
  Forall (dom_ok bd true) ds2 -> Forall (dom_ok bd true) ds2' ->
  handle_all (flat_map dom_toks ds1 ++ TStart ($ "hr") a :: flat_map dom_toks ds2) (h_init bd) = Ok h ->
  handle_all (flat_map dom_toks ds1 ++ TStart ($ "hr") a :: flat_map dom_toks ds2') (h_init bd) = Ok h' ->
  emit_creole u strict (root_of (cur h)) = emit_creole u strict (root_of (cur h')).
Proof. exact lemma_C49. Qed.
Print Assumptions C49_rest_swallowed.
Example C49_case : Forall (dom_ok [] true) [DElem ($ "p") [] [DText ($ "b")]] /\
  tokens ($ "<hr><p>b</p>") = (TStart ($ "hr") [] :: flat_map dom_toks [DElem ($ "p") [] [DText ($ "b")]], false).
Proof.
  split; [|vm_compute; reflexivity]. apply Forall_cons; [|constructor].
  apply ok_elem; [discriminate|discriminate|discriminate|reflexivity|]. apply Forall_cons; [constructor|constructor].
Qed.
