(** * Which documents raise_unknown_node refuses *)
From Coq Require Import String List Arith NArith ZArith Bool Lia.
From Verif Require Import PyStr PyStrFacts Utils Res HtmlTok HtmlParser HtmlBase Html2X.
From Verif Require Import Spec2 Spec8 Spec10 Spec11 Spec16 Spec17 Spec18 Spec19 Spec24 Spec45 CleanRun CleanDoc CleanEmit TextileMask MarkdownMask RestMask MaskModes.
From Verif Require Import TreeFacts EmitFacts RestEmit.
From Verif Require Spec3 P3_Html2X UnknownFacts.
Import ListNotations.
Open Scope N_scope.

Lemma in_names_In : forall l t, in_names l t = true <-> In t l.
Proof.
  intros l t. unfold in_names. rewrite existsb_exists. split; [intros (x & I & E); apply str_eqb_eq in E; subst; exact I|intro I; exists t; split; [exact I|apply str_eqb_refl]].
Qed.
Section Tags.
Variable known own : list str.
Hypothesis OWN : forall t, inline_tag t = true -> in_names known t = in_names own t.
Hypothesis LEAF : forall t, inline_tag t = true -> in_names Spec3.leaf_tags t = false.
Hypothesis COMMON : incl Spec3.common_tags known.
Fixpoint ui (n : hnode) : bool := match n with HN k _ _ _ ch => negb (in_names known k) || negb (in_names Spec3.leaf_tags k) && existsb ui ch end.
Lemma ui_sound : forall n, ui n = true <-> Spec3.unknown_inside known n.
Proof.
  induction n as [k c a l ch IH] using hnode_ind'. cbn [ui]. rewrite orb_true_iff, andb_true_iff, !negb_true_iff. split.
  - intros [H|[H1 H2]].
    + apply Spec3.ui_here. intro I. apply in_names_In in I. congruence.
    + apply existsb_exists in H2 as (x & I & U). rewrite Forall_forall in IH. eapply Spec3.ui_below; [|exact I|apply IH; assumption]. intro J. apply in_names_In in J. congruence.
  - intro H. inversion H as [k0 c0 a0 l0 ch0 NI|k0 c0 a0 l0 ch0 x NL I U]; subst.
    + left. destruct (in_names known k) eqn:E; [|reflexivity]. apply in_names_In in E. contradiction.
    + right. split; [destruct (in_names Spec3.leaf_tags k) eqn:E; [apply in_names_In in E; contradiction|reflexivity]|]. apply existsb_exists. exists x. split; [exact I|]. rewrite Forall_forall in IH. apply IH; assumption.
Qed.
Lemma common : forall k, in_names Spec3.common_tags k = true -> in_names known k = true.
Proof. intros k H. apply in_names_In in H. apply in_names_In, COMMON, H. Qed.
Lemma ui_common : forall k c a l ch, in_names Spec3.common_tags k = true -> in_names Spec3.leaf_tags k = false -> existsb ui [HN k c a l ch] = existsb ui ch.
Proof. intros k c a l ch H1 H2. cbn [existsb ui]. rewrite (common k H1), H2, orb_false_r. reflexivity. Qed.
Lemma ui_leaf : forall k c a l ch, in_names Spec3.common_tags k = true -> in_names Spec3.leaf_tags k = true -> existsb ui [HN k c a l ch] = false.
Proof. intros k c a l ch H1 H2. cbn [existsb ui]. rewrite (common k H1), H2. reflexivity. Qed.
Lemma existsb_flat : forall (A : Type) (f : A -> list hnode) (p : A -> bool) l, (forall x, In x l -> existsb ui (f x) = p x) -> existsb ui (flat_map f l) = existsb p l.
Proof. intros A f p l H. induction l as [|x l IH]; [reflexivity|]. cbn [flat_map existsb]. rewrite existsb_app, (H x (or_introl eq_refl)), IH; [reflexivity|]. intros y I. apply H. right. exact I. Qed.
Lemma inl_ui : forall i sd r ll, clean_inl sd i r = true -> existsb ui (dom_tree [] ll (x2d i)) = inl_other own i.
Proof.
  assert (F : forall l sd ll, Forall (fun i => forall sd r ll, clean_inl sd i r = true -> existsb ui (dom_tree [] ll (x2d i)) = inl_other own i) l -> clean_inls sd l = true ->
    existsb ui (flat_map (dom_tree [] ll) (map x2d l)) = existsb (inl_other own) l).
  { intros l sd ll H C. rewrite UnknownFacts.map_flat. apply existsb_flat. intros x I. destruct (UnknownFacts.clean_each l sd C x I) as (sd' & r' & C'). rewrite Forall_forall in H. exact (H x I sd' r' ll C'). }
  induction i as [t|e|t a body IH|h body IH|src title alt|] using xinl_ind'; intros sd r ll C; cbn [inl_other].
  - apply ui_leaf; reflexivity.
  - destruct e; apply ui_leaf; reflexivity.
  - rewrite clean_face in C. apply andb_true_iff in C as [C1 C2]. apply andb_true_iff in C1 as [C1 CA]. destruct (face_kind t C1) as (K1 & K2 & K3 & K4). cbn [x2d dom_tree]. rewrite K1, K2, K3, K4.
    cbn [existsb ui]. rewrite (OWN t C1), (LEAF t C1), orb_false_r. cbn [negb andb]. f_equal. eapply F; [exact IH|exact C2].
  - rewrite clean_link in C. apply andb_true_iff in C as [C1 C2]. change (dom_tree [] ll (x2d (XLink h body))) with [HN ($ "a") None (attr_dict [($ "href", VStr h)]) None (flat_map (dom_tree [] ll) (map x2d body))].
    rewrite ui_common by reflexivity. eapply F; [exact IH|exact C2].
  - apply ui_leaf; reflexivity.
  - apply ui_leaf; reflexivity.
Qed.
Lemma inls_ui : forall l sd ll, clean_inls sd l = true -> existsb ui (flat_map (dom_tree [] ll) (map x2d l)) = existsb (inl_other own) l.
Proof. intros l sd ll C. rewrite UnknownFacts.map_flat. apply existsb_flat. intros x I. destruct (UnknownFacts.clean_each l sd C x I) as (sd' & r' & C'). exact (inl_ui x sd' r' ll C'). Qed.
Lemma item_ui : forall i ll, shape_item i = true -> existsb ui (dom_tree [] ll (i2d i)) = item_other own i.
Proof.
  induction i as [t o sub IH] using xitem_ind'. intros ll C. cbn [shape_item] in C. apply andb_true_iff in C as [C1 C2]. cbn [item_other i2d]. rewrite li_tree, ui_common by reflexivity.
  rewrite flat_map_app, existsb_app, (inls_ui t Edge ll C1). f_equal. destruct sub as [|x sub]; [reflexivity|]. cbn [flat_map]. rewrite list_tree, app_nil_r, ui_common by (destruct o; reflexivity).
  rewrite UnknownFacts.map_flat. apply existsb_flat. intros y I. rewrite Forall_forall in IH. apply IH; [exact I|]. rewrite forallb_forall in C2. exact (C2 y I).
Qed.
Lemma block_ui : forall b, shape_block b = true -> existsb ui (dom_tree [] 0 (b2d b)) = block_other own b.
Proof.
  intros b C. destruct b as [l|n l| |o items|ws]; cbn [b2d shape_block block_other] in *.
  - change (dom_tree [] 0 (DElem ($ "p") [] (map x2d l))) with [HN ($ "p") None [] None (flat_map (dom_tree [] 0) (map x2d l))].
    rewrite ui_common by reflexivity. eapply inls_ui; exact C.
  - apply andb_true_iff in C as [L C]. apply andb_true_iff in L as [L1 L2]. apply Nat.leb_le in L1, L2. rewrite (head_tree n (map x2d l) (conj L1 L2)).
    rewrite ui_common by reflexivity. eapply inls_ui; exact C.
  - apply ui_leaf; reflexivity.
  - rewrite list_tree, ui_common by (destruct o; reflexivity). rewrite UnknownFacts.map_flat. apply existsb_flat. intros y I. rewrite forallb_forall in C. apply item_ui. exact (C y I).
  - change (dom_tree [] 0 (DElem ($ "table") [] ?x)) with [HN ($ "table") None [] None (flat_map (dom_tree [] 0) x)]. rewrite ui_common by reflexivity.
    rewrite UnknownFacts.map_flat. apply existsb_flat. intros r I. change (dom_tree [] 0 (DElem ($ "tr") [] ?x)) with [HN ($ "tr") None [] None (flat_map (dom_tree [] 0) x)]. rewrite ui_common by reflexivity.
    rewrite UnknownFacts.map_flat. apply existsb_flat. intros [h t] Ic. rewrite forallb_forall in C. specialize (C r I). rewrite forallb_forall in C. specialize (C (h, t) Ic). cbn [snd] in *. unfold c2d. cbn [fst snd].
    destruct h; [change (dom_tree [] 0 (DElem ($ "th") [] ?x)) with [HN ($ "th") None [] None (flat_map (dom_tree [] 0) x)]|change (dom_tree [] 0 (DElem ($ "td") [] ?x)) with [HN ($ "td") None [] None (flat_map (dom_tree [] 0) x)]];
      rewrite ui_common by reflexivity; eapply inls_ui; exact C.
Qed.
Lemma doc_ui : forall d, shape_doc d = true -> ui (HN ($ "document") None [] None (flat_map (dom_tree [] 0) (map b2d d))) = doc_other own d.
Proof.
  intros d C. cbn [ui]. rewrite (common ($ "document") eq_refl). cbn [negb orb]. rewrite UnknownFacts.map_flat. change (negb (in_names Spec3.leaf_tags ($ "document"))) with true. cbn [andb].
  apply existsb_flat. intros b I. apply block_ui. unfold shape_doc in C. rewrite forallb_forall in C. exact (C b I).
Qed.
End Tags.

Lemma inline_leaf : forall t, inline_tag t = true -> in_names Spec3.leaf_tags t = false.
Proof.
  intros t H. destruct (in_names Spec3.leaf_tags t) eqn:E; [|reflexivity]. apply in_names_In in E. cbn [Spec3.leaf_tags In] in E.
  repeat (destruct E as [E|E]; [subst t; vm_compute in H; discriminate H|]). destruct E.
Qed.
Ltac own_tags := intros t H; match goal with |- in_names ?k t = in_names ?o t =>
  destruct (in_names k t) eqn:E; destruct (in_names o t) eqn:F; try reflexivity; exfalso;
  [apply in_names_In in E; cbn in E; repeat (destruct E as [E|E]; [subst t; vm_compute in H; vm_compute in F; discriminate|]); destruct E
  |apply in_names_In in F; cbn in F; repeat (destruct F as [F|F]; [subst t; vm_compute in E; discriminate|]); destruct F] end.
Lemma tex_tags_own : forall t, inline_tag t = true -> in_names Spec3.textile_tags t = in_names tex_own t. Proof. own_tags. Qed.
Lemma md_tags_own : forall t, inline_tag t = true -> in_names Spec3.markdown_tags t = in_names md_own t. Proof. own_tags. Qed.
Lemma rst_tags_own : forall t, inline_tag t = true -> in_names Spec3.rest_tags t = in_names rst_own t. Proof. own_tags. Qed.
Lemma common_textile : incl Spec3.common_tags Spec3.textile_tags. Proof. intros x I. apply in_or_app. left. exact I. Qed.
Lemma common_markdown : incl Spec3.common_tags Spec3.markdown_tags. Proof. intros x I. apply in_or_app. left. exact I. Qed.
Lemma common_rest : incl Spec3.common_tags Spec3.rest_tags. Proof. intros x I. apply in_or_app. left. exact I. Qed.

Theorem textile_raises : forall u d html, shape_doc d = true -> written d html ->
  (doc_other tex_own d = false -> html2textile raise_unknown_node html = html2textile u html) /\
  (doc_other tex_own d = true -> forall r, html2textile u html = Ok r -> html2textile raise_unknown_node html = Exc ENotImplemented).
Proof.
  intros u d html C W. pose proof (P3_Html2X.C38_textile u html _ (clean_tree d html C W)) as [A B]. pose proof (doc_ui _ _ tex_tags_own inline_leaf common_textile d C) as U. split; intro H; rewrite H in U.
  - apply A. intro X. apply ui_sound in X. congruence.
  - apply B, ui_sound, U.
Qed.
Theorem markdown_raises : forall u d html, shape_doc d = true -> written d html ->
  (doc_other md_own d = false -> html2markdown raise_unknown_node html = html2markdown u html) /\
  (doc_other md_own d = true -> forall r, html2markdown u html = Ok r -> html2markdown raise_unknown_node html = Exc ENotImplemented).
Proof.
  intros u d html C W. pose proof (P3_Html2X.C38_markdown u html _ (clean_tree d html C W)) as [A B]. pose proof (doc_ui _ _ md_tags_own inline_leaf common_markdown d C) as U. split; intro H; rewrite H in U.
  - apply A. intro X. apply ui_sound in X. congruence.
  - apply B, ui_sound, U.
Qed.
Theorem rest_raises : forall u d html, shape_doc d = true -> written d html ->
  (doc_other rst_own d = false -> html2rest raise_unknown_node html = html2rest u html) /\
  (doc_other rst_own d = true -> forall r, html2rest u html = Ok r -> html2rest raise_unknown_node html = Exc ENotImplemented).
Proof.
  intros u d html C W. pose proof (P3_Html2X.C38_rest u html _ (clean_tree d html C W)) as [A B]. pose proof (doc_ui _ _ rst_tags_own inline_leaf common_rest d C) as U. split; intro H; rewrite H in U.
  - apply A. intro X. apply ui_sound in X. congruence.
  - apply B, ui_sound, U.
Qed.
(** put together *)
Lemma bare_answers : forall (t : str) (a : attrs) (s : str), inline_tag t = true -> always t a s = true -> (fun (_ : str) (_ : list (str * pyval)) (c : str) => Ok c) t (attr_dict a) s = Ok (bare t a s).
Proof. reflexivity. Qed.
Theorem textile_exactly : forall d html, tx_doc_ok bare always d = true -> written d html ->
  html2textile raise_unknown_node html = if doc_other tex_own d then Exc ENotImplemented else Ok (tx_doc bare d).
Proof.
  intros d html C W. pose proof (mask_textile bare always _ bare_answers d html C W) as M. destruct (textile_raises (fun _ _ c => Ok c) d html (tx_doc_shape _ _ d C) W) as [A B]. destruct (doc_other tex_own d) eqn:E.
  - eapply B; [reflexivity|exact M].
  - rewrite (A eq_refl). exact M.
Qed.
Theorem markdown_exactly : forall url d html, mx_doc_ok bare always url d = true -> addresses url d -> written d html ->
  html2markdown raise_unknown_node html = if doc_other md_own d then Exc ENotImplemented else Ok (mx_doc bare url d).
Proof.
  intros url d html C Q W. pose proof (mask_markdown bare always url _ bare_answers d html C Q W) as M. destruct (markdown_raises (fun _ _ c => Ok c) d html (mx_doc_shape _ _ _ d C) W) as [A B]. destruct (doc_other md_own d) eqn:E.
  - eapply B; [reflexivity|exact M].
  - rewrite (A eq_refl). exact M.
Qed.
Lemma bare_alike : forall t a x y, alike x y -> alike (bare t a x) (bare t a y). Proof. intros t a x y A. exact A. Qed.
Lemma always_alike : forall t a x y, alike x y -> always t a y = true -> always t a x = true. Proof. reflexivity. Qed.
Theorem rest_exactly : forall d html, rx_doc_ok bare always d = true -> written d html ->
  match rx_doc bare d with
  | Some t => html2rest raise_unknown_node html = if doc_other rst_own d then Exc ENotImplemented else Ok t
  | None => html2rest raise_unknown_node html = Exc ESubstitution \/ doc_other rst_own d = true /\ html2rest raise_unknown_node html = Exc ENotImplemented
  end.
Proof.
  intros d html C W. pose proof (mask_rest bare always bare_alike always_alike _ bare_answers d html C W) as M. destruct (rest_raises (fun _ _ c => Ok c) d html ltac:(eapply forallb_impl; [|exact C]; apply rx_block_shape) W) as [A B]. destruct (rx_doc bare d) as [t|] eqn:E.
  - destruct (doc_other rst_own d) eqn:O; [eapply B; [reflexivity|exact M]|]. rewrite (A eq_refl). exact M.
  - destruct (UnknownFacts.raise_rest (fun _ _ c => Ok c) html) as [N|N].
    + destruct (doc_other rst_own d) eqn:O; [right; split; [reflexivity|exact N]|]. left. rewrite (A eq_refl). exact M.
    + left. rewrite N. exact M.
Qed.
