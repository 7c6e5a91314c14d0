(** * What documents in any spelling become *)
From Coq Require Import String List Arith NArith ZArith Bool Lia.
From Verif Require Import PyStr Utils Res HtmlTok HtmlBase Html2X Spec2 Spec10 Spec11 CleanEmit Spec16 Spec18 Spec19 Spec29 SpellDoc.
From Verif Require Spec24 TextileEmit MarkdownEmit RestEmit.
Import ListNotations.
Open Scope N_scope.

Lemma spelled_twin : forall d html, shape_doc d = true -> spelled d html -> exists html0, written d html0 /\ forall (u : unknown) (strict : bool),
  html2creole u strict html = html2creole u strict html0 /\ html2textile u html = html2textile u html0 /\
  html2markdown u html = html2markdown u html0 /\ html2rest u html = html2rest u html0.
Proof.
  intros d html C S0. destruct (written_some d) as (html0 & W). exists html0. split; [exact W|]. intros u strict.
  exact (spelled_results d html html0 u strict C S0 (written_spelled d html0 W)).
Qed.
Lemma xdoc_shape : forall d, xdoc_ok d = true -> shape_doc d = true.
Proof. intros d C. apply (doc_shape Spec24.bare nothing). eapply forallb_impl; [|exact C]. apply plain_block_ok. Qed.
Theorem spelled_creole : forall u strict d html, xdoc_ok d = true -> spelled d html -> html2creole u strict html = Ok (cre_doc d).
Proof.
  intros u strict d html C S0. destruct (spelled_twin d html (xdoc_shape d C) S0) as (h & W & E). destruct (E u strict) as (E1 & _). rewrite E1.
  apply clean_creole; assumption.
Qed.
Theorem spelled_textile : forall u d html, tex_doc_ok d = true -> spelled d html -> html2textile u html = Ok (tex_doc d).
Proof.
  intros u d html C S0. destruct (spelled_twin d html (TextileEmit.tex_doc_shape d C) S0) as (h & W & E). destruct (E u true) as (_ & E1 & _). rewrite E1.
  apply TextileEmit.clean_textile; assumption.
Qed.
Theorem spelled_markdown : forall url u d html, md_doc_ok url d = true -> addresses url d -> spelled d html -> html2markdown u html = Ok (md_doc url d).
Proof.
  intros url u d html C A S0. destruct (spelled_twin d html (MarkdownEmit.md_doc_shape url d C) S0) as (h & W & E). destruct (E u true) as (_ & _ & E1 & _). rewrite E1.
  apply MarkdownEmit.clean_markdown; assumption.
Qed.
Theorem spelled_rest : forall u d html, rst_doc_ok d = true -> spelled d html ->
  html2rest u html = match rst_doc d with Some t => Ok t | None => Exc ESubstitution end.
Proof.
  intros u d html C S0. assert (SH : shape_doc d = true) by (eapply forallb_impl; [|exact C]; apply RestEmit.rst_block_shape).
  destruct (spelled_twin d html SH S0) as (h & W & E). destruct (E u true) as (_ & _ & _ & E1). rewrite E1. apply RestEmit.clean_rest; assumption.
Qed.
