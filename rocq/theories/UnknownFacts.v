(** * Where the callable for unknown tags matters *)
From Coq Require Import String List Arith NArith ZArith Bool Lia.
From Verif Require Import PyStr PyStrFacts Utils Res HtmlTools HtmlTok HtmlParser MarkupTable HtmlBase Html2X EmitFacts.
From Verif Require Import Spec2 TreeFacts Spec10 Spec11 CleanRun CleanDoc Spec24 CleanEmit.
Import ListNotations.
Open Scope N_scope.

Definition nie {A} (r1 r2 : res A) : Prop := r1 = Exc ENotImplemented \/ r1 = r2.
Lemma nie_refl : forall A (r : res A), nie r r. Proof. right. reflexivity. Qed.
Lemma nie_bind : forall A B (r1 r2 : res A) (f1 f2 : A -> res B), nie r1 r2 -> (forall x, nie (f1 x) (f2 x)) -> nie (bind r1 f1) (bind r2 f2).
Proof. intros A B r1 r2 f1 f2 [->| ->] H; [left; reflexivity|]. destruct r2 as [a|e]; [apply H|right; reflexivity]. Qed.

Definition passes (f : meth) : Prop := forall ni k1 k2, (forall s, nie (k1 s) (k2 s)) -> forall s, nie (f ni k1 s) (f ni k2 s).
Ltac pass :=
  let ni := fresh in let H := fresh "H" in
  intros ni ? ? H ?;
  repeat first [ apply nie_refl | apply H | apply nie_bind; [|intro] | match goal with |- nie (match ?x with _ => _ end) _ => destruct x end ].
Lemma base_pass : forall hp aw, Forall (fun e => passes (snd e)) (base_methods hp aw).
Proof.
  intros hp aw. unfold base_methods. repeat (apply Forall_cons; [cbn [snd];
    unfold blockdata_pass_emit, data_emit, entityref_emit, charref_emit, p_emit, br_emit, li_emit, table_emit, tr_emit, cell_emit, content_emit, document_emit, ret; pass|]). apply Forall_nil.
Qed.
Lemma creole_pass : forall strict, Forall (fun e => passes (snd e)) (creole_methods strict).
Proof.
  intro strict. unfold creole_methods. apply Forall_app. split; [|apply base_pass]. repeat (apply Forall_cons; [cbn [snd];
    unfold c_blockdata_pre, c_inlinedata_pre, blockdata_pass_emit, c_p, br_emit, c_headline, typeface, const_emit, c_a, c_img, list_emit, content_emit, ret; pass|]). apply Forall_nil.
Qed.
Lemma textile_pass : Forall (fun e => passes (snd e)) textile_methods.
Proof.
  unfold textile_methods. apply Forall_app. split; [|apply base_pass]. repeat (apply Forall_cons; [cbn [snd];
    unfold t_blockdata_pre, t_inlinedata_pre, blockdata_pass_emit, p_emit, t_headline, typeface, const_emit, t_a, t_img, list_emit, content_emit, ret; pass|]). apply Forall_nil.
Qed.
Lemma markdown_pass : Forall (fun e => passes (snd e)) markdown_methods.
Proof.
  unfold markdown_methods. apply Forall_app. split; [|apply base_pass]. repeat (apply Forall_cons; [cbn [snd];
    unfold m_table, tr_emit, m_cell, m_blockdata_pre, m_inlinedata_pre, m_pass, m_p, m_headline, typeface, m_html, const_emit, m_a, m_img, m_list, m_li, m_data, m_code, content_emit, ret; pass|]). apply Forall_nil.
Qed.
Lemma rest_pass : Forall (fun e => passes (snd e)) rest_methods.
Proof.
  unfold rest_methods. apply Forall_app. split; [|apply base_pass]. repeat (apply Forall_cons; [cbn [snd];
    unfold r_blockdata_pre, t_inlinedata_pre, blockdata_pass_emit, r_document, p_emit, r_headline, typeface, r_small, const_emit, r_a, r_img, r_code, r_li, r_list, r_table, content_emit, ret; pass|]). apply Forall_nil.
Qed.
Lemma find_pass : forall ms k f, Forall (fun e => passes (snd e)) ms -> find_meth ms k = Some f -> passes f.
Proof.
  induction ms as [|[k' g] ms IH]; intros k f F H; [discriminate H|]. inversion F as [|x y F1 F2]; subst. cbn [find_meth] in H. destruct (str_eqb k' k); [injection H as <-; exact F1|]. apply (IH k); assumption.
Qed.
Section Same.
Variable ms : methods.
Variable u1 u2 : unknown.
Variable pre : list str -> est -> str * est.
Hypothesis Hms : Forall (fun e => passes (snd e)) ms.
Hypothesis Hu : forall t a c, nie (u1 t a c) (u2 t a c).
Lemma emit_nie : forall n anc s, nie (emit_node ms u1 pre anc n s) (emit_node ms u2 pre anc n s).
Proof.
  induction n as [k c a l ch IH] using hnode_ind'. intros anc s. cbn [emit_node]. destruct (pre anc s) as [p s1].
  apply nie_bind; [|intros []; apply nie_refl].
  assert (K : forall s0, nie
    ((fix go (ch : list hnode) (s : est) : res (str * est) := match ch with [] => Ok ([], s) | x :: t => do (r, s1) <- emit_node ms u1 pre (k :: anc) x s; do (r', s2) <- go t s1; Ok (r ++ r', s2) end) ch (set_last (k, c) s0))
    ((fix go (ch : list hnode) (s : est) : res (str * est) := match ch with [] => Ok ([], s) | x :: t => do (r, s1) <- emit_node ms u2 pre (k :: anc) x s; do (r', s2) <- go t s1; Ok (r ++ r', s2) end) ch (set_last (k, c) s0))).
  { intro s0. generalize (set_last (k, c) s0). clear s0. induction ch as [|x t IHt]; intro s0; [apply nie_refl|]. inversion IH as [|x' t' I1 I2]; subst.
    apply nie_bind; [apply I1|]. intros [r s2]. apply nie_bind; [apply (IHt I2)|]. intros []. apply nie_refl. }
  unfold run_meth. cbn [n_kind]. destruct (find_meth ms k) as [f|] eqn:E; [apply (find_pass ms k f Hms E); exact K|].
  apply nie_bind; [apply K|]. intros [r s2]. apply nie_bind; [apply Hu|]. intro. apply nie_refl.
Qed.
End Same.
(** a converter that raises on unknown tags does that or what any other does *)
Lemma raise_creole : forall u strict html, nie (html2creole raise_unknown_node strict html) (html2creole u strict html).
Proof. intros. unfold html2creole. apply nie_bind; [apply nie_refl|]. intro. unfold emit_creole. apply nie_bind; [apply emit_nie; [apply creole_pass|left; reflexivity]|]. intros []. apply nie_refl. Qed.
Lemma raise_textile : forall u html, nie (html2textile raise_unknown_node html) (html2textile u html).
Proof. intros. unfold html2textile. apply nie_bind; [apply nie_refl|]. intro. unfold emit_textile. apply nie_bind; [apply emit_nie; [apply textile_pass|left; reflexivity]|]. intros []. apply nie_refl. Qed.
Lemma raise_markdown : forall u html, nie (html2markdown raise_unknown_node html) (html2markdown u html).
Proof. intros. unfold html2markdown. apply nie_bind; [apply nie_refl|]. intro. unfold emit_markdown. apply nie_bind; [apply emit_nie; [apply markdown_pass|left; reflexivity]|]. intros []. apply nie_refl. Qed.
Lemma raise_rest : forall u html, nie (html2rest raise_unknown_node html) (html2rest u html).
Proof. intros. unfold html2rest. apply nie_bind; [apply nie_refl|]. intro. unfold emit_rest. apply nie_bind; [apply emit_nie; [apply rest_pass|left; reflexivity]|]. intros []. apply nie_refl. Qed.

(** ** raise_unknown_node *)
Section Raise.
Variable strict : bool.
Notation EL := (emit_list (creole_methods strict) raise_unknown_node no_pre).
Definition raises (n : list hnode) : Prop := forall anc s, exists e, EL anc n s = Exc e.
Lemma raises_l : forall a b, raises a -> raises (a ++ b).
Proof. intros a b H anc s. rewrite el_app. destruct (H anc s) as (e & ->). exists e. reflexivity. Qed.
Lemma raises_r : forall a b, raises b -> raises (a ++ b).
Proof.
  intros a b H anc s. rewrite el_app. destruct (EL anc a s) as [[r s1]|e]; [|exists e; reflexivity]. cbn [bind]. destruct (H anc s1) as (e & ->). exists e. reflexivity.
Qed.
Definition looks (f : meth) : Prop := forall ni kids s, (forall s0, exists e, kids s0 = Exc e) -> exists e, f ni kids s = Exc e.
Lemma raises_in : forall k f c a l ch, find_meth (creole_methods strict) k = Some f -> looks f -> raises ch -> raises [HN k c a l ch].
Proof.
  intros k f c a l ch F K H anc s. rewrite el_one, (en_run _ _ k f) by exact F. unfold node_run.
  destruct (K (mkn k c a l anc) (kids_of (creole_methods strict) raise_unknown_node no_pre anc k c ch) s) as (e & E); [|rewrite E; exists e; reflexivity].
  intro s0. unfold kids_of. apply H.
Qed.
Lemma raises_unknown : forall k c a l ch, find_meth (creole_methods strict) k = None -> raises [HN k c a l ch].
Proof.
  intros k c a l ch F anc s. rewrite el_one, emit_node_eq. unfold no_pre at 1. unfold run_meth. cbn [n_kind]. rewrite F.
  match goal with |- context [kids_of ?x ?y ?z ?p ?q ?r ?w ?t] => destruct (kids_of x y z p q r w t) as [[r1 s1]|e] end; [|exists e; reflexivity].
  exists ENotImplemented. reflexivity.
Qed.
Ltac look := let K := fresh "K" in intros ? kids ? K; cbv zeta; match goal with |- context [kids ?s0] => let E := fresh "E" in destruct (K s0) as (e & E); rewrite E; exists e; reflexivity end.
Lemma look_face : forall m, looks (typeface m). Proof. intro m. unfold typeface. look. Qed.
Lemma look_content : looks content_emit. Proof. unfold content_emit. look. Qed.
Lemma look_a : looks c_a. Proof. unfold c_a. look. Qed.
Lemma look_p : looks c_p. Proof. unfold c_p. look. Qed.
Lemma look_li : looks li_emit. Proof. unfold li_emit. look. Qed.
Lemma look_list : forall m, looks (list_emit m). Proof. intro m. unfold list_emit. look. Qed.
Lemma look_table : looks (table_emit ($ "= ") true). Proof. unfold table_emit. look. Qed.
Lemma look_cell : forall f, looks (cell_emit f). Proof. intro f. unfold cell_emit. look. Qed.
Lemma look_tr : looks tr_emit. Proof. intros ni kids s H. unfold tr_emit. destruct (tbl s) as [t|]; [|eexists; reflexivity]. destruct (H (set_tbl (add_tr t) s)) as (e & ->). exists e. reflexivity. Qed.
Lemma look_head : looks c_headline. Proof. intros ni kids s H. unfold c_headline. destruct (level_of ni) as [z|e]; [|exists e; reflexivity]. cbn [bind]. destruct (H s) as (e & ->). exists e. reflexivity. Qed.
Lemma raises_among : forall (A : Type) (f : A -> list hnode) (p : A -> bool) l, (forall x, In x l -> p x = true -> raises (f x)) -> existsb p l = true -> raises (flat_map f l).
Proof.
  intros A f p l H E. induction l as [|x l IH]; [discriminate E|]. cbn [existsb] in E. cbn [flat_map]. destruct (p x) eqn:P.
  - apply raises_l, H; [left; reflexivity|exact P].
  - apply raises_r, IH; [|exact E]. intros y I. apply H. right. exact I.
Qed.
Lemma map_flat : forall (A : Type) (f : A -> dom) ll l, flat_map (dom_tree [] ll) (map f l) = flat_map (fun x => dom_tree [] ll (f x)) l.
Proof. intros A f ll l. induction l as [|x l IH]; [reflexivity|]. cbn [map flat_map]. rewrite IH. reflexivity. Qed.
Lemma clean_each : forall l sd, clean_inls sd l = true -> forall x, In x l -> exists sd r, clean_inl sd x r = true.
Proof.
  induction l as [|y l IH]; intros sd C x I; [destruct I|]. cbn [clean_inls] in C. apply andb_true_iff in C as [C1 C2]. destruct I as [->|I]; [eauto|]. eapply IH; [exact C2|exact I].
Qed.
Lemma marked_meth : forall t, marked t = true -> find_meth (creole_methods strict) t = Some (typeface (xmark t)).
Proof. intros t Ht. unfold marked in Ht. apply existsb_exists in Ht as (k & I & E). apply str_eqb_eq in E. subst k. cbn [xfaces map fst In] in I. repeat (destruct I as [I|I]; [subst t; reflexivity|]). destruct I. Qed.
Lemma inl_raises : forall i sd r ll, clean_inl sd i r = true -> inl_unknown i = true -> raises (dom_tree [] ll (x2d i)).
Proof.
  assert (F : forall l sd ll, Forall (fun i => forall sd r ll, clean_inl sd i r = true -> inl_unknown i = true -> raises (dom_tree [] ll (x2d i))) l -> clean_inls sd l = true -> existsb inl_unknown l = true ->
    raises (flat_map (dom_tree [] ll) (map x2d l))).
  { intros l sd ll H C U. rewrite map_flat. apply (raises_among _ _ inl_unknown); [|exact U]. intros x I P. destruct (clean_each l sd C x I) as (sd' & r' & C'). rewrite Forall_forall in H. exact (H x I sd' r' ll C' P). }
  induction i as [t|e|t a body IH|h body IH|src title alt|] using xinl_ind'; intros sd r ll C O; try discriminate O.
  - rewrite clean_face in C. apply andb_true_iff in C as [C1 C2]. apply andb_true_iff in C1 as [C1 CA]. destruct (face_kind t C1) as (K1 & K2 & K3 & K4). cbn [x2d dom_tree]. rewrite K1, K2, K3, K4.
    cbn [inl_unknown] in O. destruct (marked t) eqn:EM; cbn [orb negb] in O.
    + apply (raises_in _ _ _ _ _ _ (marked_meth t EM) (look_face _)). eapply F; [exact IH|exact C2|exact O].
    + destruct (str_eqb t ($ "span")) eqn:ES; [|apply raises_unknown, no_meth; assumption]. cbn [negb orb] in O. apply str_eqb_eq in ES. subst t.
      apply (raises_in _ content_emit); [reflexivity|exact look_content|]. eapply F; [exact IH|exact C2|exact O].
  - rewrite clean_link in C. apply andb_true_iff in C as [C1 C2]. cbn [x2d dom_tree].
    apply (raises_in ($ "a") c_a); [reflexivity|exact look_a|]. eapply F; [exact IH|exact C2|exact O].
Qed.
Lemma inls_raise : forall l sd ll, clean_inls sd l = true -> existsb inl_unknown l = true -> raises (flat_map (dom_tree [] ll) (map x2d l)).
Proof.
  intros l sd ll C U. rewrite map_flat. apply (raises_among _ _ inl_unknown); [|exact U]. intros x I P. destruct (clean_each l sd C x I) as (sd' & r' & C'). exact (inl_raises x sd' r' ll C' P).
Qed.
Lemma item_raises : forall i ll, shape_item i = true -> item_unknown i = true -> raises (dom_tree [] ll (i2d i)).
Proof.
  induction i as [t o sub IH] using xitem_ind'. intros ll C U. cbn [shape_item] in C. apply andb_true_iff in C as [C1 C2]. cbn [item_unknown] in U. cbn [i2d]. rewrite li_tree.
  apply (raises_in ($ "li") li_emit); [reflexivity|exact look_li|]. rewrite flat_map_app. destruct (existsb inl_unknown t) eqn:ET; [apply raises_l, (inls_raise t Edge ll C1 ET)|]. cbn [orb] in U. apply raises_r.
  destruct sub as [|x sub]; [discriminate U|]. cbn [flat_map]. rewrite list_tree, app_nil_r. apply (raises_in (xlist_tag o) (list_emit (bullet o))); [apply list_meth|apply look_list|].
  rewrite map_flat. apply (raises_among _ _ item_unknown); [|exact U]. intros y I P. rewrite Forall_forall in IH. apply IH; [exact I| |exact P]. rewrite forallb_forall in C2. exact (C2 y I).
Qed.
Lemma block_raises : forall b, shape_block b = true -> block_unknown b = true -> raises (dom_tree [] 0 (b2d b)).
Proof.
  intros b C U. destruct b as [l|n l| |o items|ws]; cbn [b2d shape_block block_unknown] in *.
  - change (dom_tree [] 0 (DElem ($ "p") [] (map x2d l))) with [HN ($ "p") None [] None (flat_map (dom_tree [] 0) (map x2d l))].
    apply (raises_in ($ "p") c_p); [reflexivity|exact look_p|]. eapply inls_raise; [exact C|exact U].
  - apply andb_true_iff in C as [L C]. apply andb_true_iff in L as [L1 L2]. apply Nat.leb_le in L1, L2. rewrite (head_tree n (map x2d l) (conj L1 L2)).
    apply (raises_in ($ "headline") c_headline); [reflexivity|exact look_head|]. eapply inls_raise; [exact C|exact U].
  - discriminate U.
  - rewrite list_tree. apply (raises_in (xlist_tag o) (list_emit (bullet o))); [apply list_meth|apply look_list|]. rewrite map_flat. apply (raises_among _ _ item_unknown); [|exact U].
    intros y I P. rewrite forallb_forall in C. apply item_raises; [exact (C y I)|exact P].
  - change (dom_tree [] 0 (DElem ($ "table") [] ?x)) with [HN ($ "table") None [] None (flat_map (dom_tree [] 0) x)].
    apply (raises_in ($ "table") (table_emit ($ "= ") true)); [reflexivity|exact look_table|]. rewrite map_flat. apply (raises_among _ _ (existsb (fun c => existsb inl_unknown (snd c)))); [|exact U].
    intros r I P. change (dom_tree [] 0 (DElem ($ "tr") [] ?x)) with [HN ($ "tr") None [] None (flat_map (dom_tree [] 0) x)].
    apply (raises_in ($ "tr") tr_emit); [reflexivity|exact look_tr|]. rewrite map_flat. apply (raises_among _ _ (fun c => existsb inl_unknown (snd c))); [|exact P].
    intros [h t] Ic Pc. rewrite forallb_forall in C. specialize (C r I). rewrite forallb_forall in C. specialize (C (h, t) Ic). cbn [snd] in *. unfold c2d. cbn [fst snd].
    destruct h; [change (dom_tree [] 0 (DElem ($ "th") [] ?x)) with [HN ($ "th") None [] None (flat_map (dom_tree [] 0) x)]; apply (raises_in ($ "th") (cell_emit add_th))|
                 change (dom_tree [] 0 (DElem ($ "td") [] ?x)) with [HN ($ "td") None [] None (flat_map (dom_tree [] 0) x)]; apply (raises_in ($ "td") (cell_emit add_td))];
      first [reflexivity|apply look_cell|eapply inls_raise; [exact C|exact Pc]].
Qed.
End Raise.

Lemma calm_inl : forall w f b i, inl_unknown i = false -> w_fine w f b i = true -> w_fine w nothing b i = true.
Proof.
  intros w f b. induction i as [t|e|t a body IH|h body IH|src title alt|] using xinl_ind'; intros U O; try reflexivity.
  - cbn [w_fine inl_unknown] in *. apply orb_false_iff in U as [U1 U2]. apply negb_false_iff in U1. apply andb_true_iff in O as [O1 O2]. apply andb_true_iff. split.
    + clear - IH U2 O1. induction IH as [|x l Hx Hl IHl]; [reflexivity|]. cbn [existsb forallb] in *. apply orb_false_iff in U2 as [U2 U3]. apply andb_true_iff in O1 as [O1 O2]. rewrite (Hx U2 O1). apply IHl; assumption.
    + destruct (marked t); [reflexivity|]. cbn [orb] in *. rewrite U1 in *. exact O2.
  - cbn [w_fine inl_unknown] in *. clear - IH U O. induction IH as [|x l Hx Hl IHl]; [reflexivity|]. cbn [existsb forallb] in *. apply orb_false_iff in U as [U2 U3]. apply andb_true_iff in O as [O1 O2]. rewrite (Hx U2 O1). apply IHl; assumption.
Qed.
Lemma calm_inls : forall w f b l, existsb inl_unknown l = false -> forallb (w_fine w f b) l = true -> forallb (w_fine w nothing b) l = true.
Proof. intros w f b l U. induction l as [|x l IH]; intro O; [reflexivity|]. cbn [existsb forallb] in *. apply orb_false_iff in U as [U1 U2]. apply andb_true_iff in O as [O1 O2]. rewrite (calm_inl w f b x U1 O1). apply IH; assumption. Qed.
Lemma calm_text : forall w f b l, existsb inl_unknown l = false -> w_text_ok w f b l = true -> w_text_ok w nothing b l = true.
Proof. intros w f b l U C. unfold w_text_ok in *. rewrite !andb_true_iff in *. destruct C as [[C1 C2] C3]. repeat split; try assumption. apply (calm_inls w f); assumption. Qed.
Lemma calm_item : forall w f i, item_unknown i = false -> w_item_ok w f i = true -> w_item_ok w nothing i = true.
Proof.
  intros w f. induction i as [t o sub IH] using xitem_ind'. cbn [item_unknown w_item_ok]. intros U C. apply orb_false_iff in U as [U1 U2]. apply andb_true_iff in C as [C1 C2].
  rewrite (calm_text w f _ t U1 C1). cbn [andb]. induction IH as [|x l Hx Hl IHl]; [reflexivity|]. cbn [existsb forallb] in *. apply orb_false_iff in U2 as [U2 U3]. apply andb_true_iff in C2 as [C2 C3]. rewrite (Hx U2 C2). apply IHl; assumption.
Qed.
Lemma calm_each : forall (A : Type) (p q r : A -> bool) l, (forall x, p x = false -> q x = true -> r x = true) -> existsb p l = false -> forallb q l = true -> forallb r l = true.
Proof. intros A p q r l H U. induction l as [|x l IH]; intro O; [reflexivity|]. cbn [existsb forallb] in *. apply orb_false_iff in U as [U1 U2]. apply andb_true_iff in O as [O1 O2]. rewrite (H x U1 O1). apply IH; assumption. Qed.
Lemma calm_block : forall w f b, block_unknown b = false -> w_block_ok w f b = true -> w_block_ok w nothing b = true.
Proof.
  intros w f b U C. destruct b as [l|n l| |o items|ws]; cbn [block_unknown w_block_ok] in *.
  - apply (calm_text w f); assumption.
  - apply andb_true_iff in C as [C0 C]. rewrite C0. apply (calm_text w f); assumption.
  - reflexivity.
  - apply andb_true_iff in C as [C0 C]. rewrite C0. cbn [andb]. apply (calm_each _ item_unknown (w_item_ok w f)); [|exact U|exact C]. apply calm_item.
  - destruct ws as [|r0 ws]; [discriminate C|]. apply andb_true_iff in C as [C0 C]. rewrite C0. cbn [andb]. revert C. apply calm_each with (p := existsb (fun c => existsb inl_unknown (snd c))); [|exact U].
    intros r U1 C1. apply andb_true_iff in C1 as [C1 C2]. rewrite C1. cbn [andb]. revert C2. apply calm_each with (p := fun c : bool * list xinl => existsb inl_unknown (snd c)); [|exact U1].
    intros c U2 C2. unfold w_cell_ok in *. cbv zeta in *. apply andb_true_iff in C2 as [C2 C3]. apply andb_true_iff in C2 as [C2 C4]. rewrite C2, C3, (calm_inls w f _ _ U2 C4). reflexivity.
Qed.
Lemma calm_doc : forall w f d, doc_unknown d = false -> w_doc_ok w f d = true -> w_doc_ok w nothing d = true.
Proof. intros w f d. apply calm_each. apply calm_block. Qed.
Theorem raise_exactly : forall strict d html, w_doc_ok bare always d = true -> written d html ->
  html2creole raise_unknown_node strict html = if doc_unknown d then Exc ENotImplemented else Ok (cre_doc d).
Proof.
  intros strict d html O W. destruct (doc_unknown d) eqn:U.
  - assert (E : exists e, html2creole raise_unknown_node strict html = Exc e).
    { unfold html2creole. rewrite (clean_tree d html (doc_shape _ _ d O) W). cbn [bind]. unfold emit_creole.
      rewrite (en_run _ strict ($ "document") document_emit) by reflexivity. unfold node_run, document_emit, kids_of.
      assert (R : raises strict (flat_map (dom_tree [] 0) (map b2d d))).
      { rewrite map_flat. apply (raises_among strict _ _ block_unknown); [|exact U]. intros b I P. apply block_raises; [|exact P]. apply doc_shape in O. unfold shape_doc in O. rewrite forallb_forall in O. exact (O b I). }
      destruct (R [$ "document"] (set_last ($ "document", None) e_init)) as (e & E).
      match goal with |- context [emit_list ?x ?y ?z ?k ?ch ?t] => replace (emit_list x y z k ch t) with (@Exc (str * est) e) by (symmetry; exact E) end. exists e. reflexivity. }
    destruct E as (e & E). destruct (raise_creole (fun t a c => Ok c) strict html) as [N|N]; [exact N|]. rewrite E in N.
    rewrite (mask_creole bare always _ strict d html) in N; [discriminate N|reflexivity|exact O|exact W].
  - rewrite <- plain_doc. apply (mask_creole bare nothing); [|apply (calm_doc bare always); assumption|exact W]. intros t a c _ F. discriminate F.
Qed.
Lemma raise_all : forall u strict html,
  (html2creole raise_unknown_node strict html = Exc ENotImplemented \/ html2creole raise_unknown_node strict html = html2creole u strict html) /\
  (html2textile raise_unknown_node html = Exc ENotImplemented \/ html2textile raise_unknown_node html = html2textile u html) /\
  (html2markdown raise_unknown_node html = Exc ENotImplemented \/ html2markdown raise_unknown_node html = html2markdown u html) /\
  (html2rest raise_unknown_node html = Exc ENotImplemented \/ html2rest raise_unknown_node html = html2rest u html).
Proof. intros. repeat split; [apply raise_creole|apply raise_textile|apply raise_markdown|apply raise_rest]. Qed.
