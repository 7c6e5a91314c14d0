(** * What documents with comments become *)
From Coq Require Import String List Arith NArith ZArith Bool Lia.
From Verif Require Import PyStr Utils Res HtmlTok HtmlBase Html2X Spec2 Spec10 Spec11 CleanEmit Spec16 Spec18 Spec19 Spec29 Spec30 SpellDoc SpellOut Hidden.
From Verif Require Spec24 TextileEmit MarkdownEmit RestEmit.
Import ListNotations.
Open Scope N_scope.

Lemma spelled_more : forall l b s, fits_any l s -> fits_more b l s.
Proof.
  induction l as [|p l IH]; intros b s H; cbn [fits_any] in H.
  - subst s. split; [constructor|reflexivity].
  - destruct p; cbn [fits_more].
    1-3: destruct H as (v & u & H1 & -> & H2); exists [], v, u; split; [constructor|]; split; [reflexivity|]; split; [exact H1|]; split; [reflexivity|]; apply IH; exact H2.
    + destruct H as (v & u & H1 & -> & H2). inversion H1; subst. exists u. split; [reflexivity|]. apply IH; exact H2.
    + destruct H as (v & u & H1 & -> & H2). exists v, u. split; [exact H1|]. split; [reflexivity|]. apply IH; exact H2.
Qed.
Lemma spelled_annotated : forall d html, spelled d html -> annotated d html.
Proof. intros d html H. apply spelled_more. exact H. Qed.
Lemma annotated_twin : forall d html, d <> [] -> shape_doc d = true -> annotated d html -> exists html0, written d html0 /\ forall (u : unknown) (strict : bool),
  html2creole u strict html = html2creole u strict html0 /\ html2textile u html = html2textile u html0 /\
  html2markdown u html = html2markdown u html0 /\ html2rest u html = html2rest u html0.
Proof.
  intros d html N C S0. destruct (written_some d) as (html0 & W). exists html0. split; [exact W|]. intros u strict.
  exact (annotated_results d html html0 u strict N C S0 (written_spelled d html0 W)).
Qed.
Theorem annotated_creole : forall u strict d html, d <> [] -> xdoc_ok d = true -> annotated d html -> html2creole u strict html = Ok (cre_doc d).
Proof.
  intros u strict d html N C S0. destruct (annotated_twin d html N (xdoc_shape d C) S0) as (h & W & E). destruct (E u strict) as (E1 & _). rewrite E1.
  apply clean_creole; assumption.
Qed.
Theorem annotated_textile : forall u d html, d <> [] -> tex_doc_ok d = true -> annotated d html -> html2textile u html = Ok (tex_doc d).
Proof.
  intros u d html N C S0. destruct (annotated_twin d html N (TextileEmit.tex_doc_shape d C) S0) as (h & W & E). destruct (E u true) as (_ & E1 & _). rewrite E1.
  apply TextileEmit.clean_textile; assumption.
Qed.
Theorem annotated_markdown : forall url u d html, d <> [] -> md_doc_ok url d = true -> addresses url d -> annotated d html -> html2markdown u html = Ok (md_doc url d).
Proof.
  intros url u d html N C A S0. destruct (annotated_twin d html N (MarkdownEmit.md_doc_shape url d C) S0) as (h & W & E). destruct (E u true) as (_ & _ & E1 & _). rewrite E1.
  apply MarkdownEmit.clean_markdown; assumption.
Qed.
Theorem annotated_rest : forall u d html, d <> [] -> rst_doc_ok d = true -> annotated d html ->
  html2rest u html = match rst_doc d with Some t => Ok t | None => Exc ESubstitution end.
Proof.
  intros u d html N C S0. assert (SH : shape_doc d = true) by (eapply forallb_impl; [|exact C]; apply RestEmit.rst_block_shape).
  destruct (annotated_twin d html N SH S0) as (h & W & E). destruct (E u true) as (_ & _ & _ & E1). rewrite E1. apply RestEmit.clean_rest; assumption.
Qed.
