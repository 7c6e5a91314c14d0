(** * The callables of unknown_tags.py with the other targets, and in the installed programs *)
From Coq Require Import String List Arith NArith ZArith Bool Lia.
From Verif Require Import PyStr PyStrFacts Utils Res HtmlTok HtmlBase Html2X Cmdline CliArgs Spec2 Spec8 Spec10 Spec11 Spec16 Spec18 Spec19 Spec24 Spec44 Spec45 MaskFacts MarkdownEmit RestEmit MaskGen TextileMask MarkdownMask RestMask Programs.
Import ListNotations.
Open Scope N_scope.

Lemma way_writes : forall u w fine, way u w fine -> forall t a s, inline_tag t = true -> fine t a s = true -> u t (attr_dict a) s = Ok (w t a s).
Proof. intros u w fine [] t a s I F; [apply (mask_mode ($ "html"))|apply (mask_mode ($ "pre"))|apply escape_mode|apply transparent_mode]; assumption. Qed.
Lemma alike_around : forall p q x y, alike x y -> alike (p ++ x ++ q) (p ++ y ++ q).
Proof. intros p q x y A. apply alike_app; [apply alike_refl|]. apply alike_app; [exact A|apply alike_refl]. Qed.
Lemma masked_alike : forall m t a x y, alike x y -> alike (masked m t a x) (masked m t a y).
Proof.
  intros m t a x y A. pose proof (alike_nil _ _ A) as N. destruct x as [|c x], y as [|d y]; [apply alike_refl|destruct N as [N _]; discriminate (N eq_refl)|destruct N as [_ N]; discriminate (N eq_refl)|].
  unfold masked. apply alike_around. exact A.
Qed.
Lemma spelled_alike : forall t a x y, alike x y -> alike (spelled t a x) (spelled t a y).
Proof.
  intros t a x y A. pose proof (alike_nil _ _ A) as N. destruct x as [|c x], y as [|d y]; [apply alike_refl|destruct N as [N _]; discriminate (N eq_refl)|destruct N as [_ N]; discriminate (N eq_refl)|].
  unfold spelled.
  replace ($ "&lt;" ++ t ++ no_markup (attrs_text a) ++ $ "&gt;" ++ (c :: x) ++ $ "&lt;/" ++ t ++ $ "&gt;") with (($ "&lt;" ++ t ++ no_markup (attrs_text a) ++ $ "&gt;") ++ (c :: x) ++ $ "&lt;/" ++ t ++ $ "&gt;") by (rewrite <- !app_assoc; reflexivity).
  replace ($ "&lt;" ++ t ++ no_markup (attrs_text a) ++ $ "&gt;" ++ (d :: y) ++ $ "&lt;/" ++ t ++ $ "&gt;") with (($ "&lt;" ++ t ++ no_markup (attrs_text a) ++ $ "&gt;") ++ (d :: y) ++ $ "&lt;/" ++ t ++ $ "&gt;") by (rewrite <- !app_assoc; reflexivity).
  apply alike_around. exact A.
Qed.
Lemma way_alike : forall u w fine, way u w fine -> (forall t a x y, alike x y -> alike (w t a x) (w t a y)) /\ (forall t a x y, alike x y -> fine t a y = true -> fine t a x = true).
Proof.
  intros u w fine []; (split; [intros t a x y A|intros t a x y A F]); try exact F; [apply masked_alike|apply masked_alike|apply spelled_alike| |]; try exact A. exact (span_alike x y A F).
Qed.
Theorem way_textile : forall u w fine d html, way u w fine -> tx_doc_ok w fine d = true -> written d html -> html2textile u html = Ok (tx_doc w d).
Proof. intros u w fine d html Y O W. apply (mask_textile w fine u (way_writes u w fine Y) d html O W). Qed.
Theorem way_markdown : forall u w fine url d html, way u w fine -> mx_doc_ok w fine url d = true -> addresses url d -> written d html -> html2markdown u html = Ok (mx_doc w url d).
Proof. intros u w fine url d html Y O A W. apply (mask_markdown w fine url u (way_writes u w fine Y) d html O A W). Qed.
Theorem way_rest : forall u w fine d html, way u w fine -> rx_doc_ok w fine d = true -> written d html ->
  html2rest u html = match rx_doc w d with Some t => Ok t | None => Exc ESubstitution end.
Proof. intros u w fine d html Y O W. destruct (way_alike u w fine Y) as [A F]. apply (mask_rest w fine A F u (way_writes u w fine Y) d html O W). Qed.
Theorem textile_program : forall w src dst e args f d html, command src dst e args -> ready w src dst e f ->
  tx_doc_ok bare bare_text d = true -> written d html -> holds f src html -> forallb scalar (tx_doc bare d) = true ->
  exists l, run_program w ($ "html2textile") args f = Some (CDone, l) /\ holds (final l f) dst (tx_doc bare d).
Proof.
  intros w src dst e args f d html C R K W H U. refine (program_converts w _ _ src dst e args f _ _ _ C R H (way_textile _ _ _ d html way_bare K W) U). reflexivity.
Qed.
Theorem rest_program : forall w src dst e args f d html, command src dst e args -> ready w src dst e f ->
  rx_doc_ok bare bare_text d = true -> written d html -> holds f src html ->
  match rx_doc bare d with
  | Some t => forallb scalar t = true -> exists l, run_program w ($ "html2rest") args f = Some (CDone, l) /\ holds (final l f) dst t
  | None => exists x l, run_program w ($ "html2rest") args f = Some (CFail x, l) /\ contents (final l f) dst = Some []
  end.
Proof.
  intros w src dst e args f d html C R K W H. pose proof (way_rest _ _ _ d html way_bare K W) as E. destruct (rx_doc bare d) as [t|].
  - intro U. refine (program_converts w _ _ src dst e args f _ _ _ C R H E U). reflexivity.
  - refine (program_fails w _ _ src dst e args f _ _ C R H (or_introl (ex_intro _ _ E))). reflexivity.
Qed.
