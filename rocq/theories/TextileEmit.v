(** * What html2textile makes of the clean documents *)
From Coq Require Import String List Arith NArith ZArith Bool Lia.
From Verif Require Import PyStr PyStrFacts Utils Res Entities HtmlTools HtmlToolsFacts HtmlTok HtmlParser MarkupTable TableFacts HtmlBase Html2X EmitFacts.
From Verif Require Import Spec2 TreeFacts Spec10 StripRun Spec11 CleanRun CleanDoc CleanEmit CleanGen Spec16.
Import ListNotations.
Open Scope N_scope.

(** ** the conditions *)
Lemma tex_face_tag : forall t, existsb (str_eqb t) (map fst tex_faces) = true -> inline_tag t = true /\ find_meth textile_methods t = Some (typeface (tex_mark t)).
Proof.
  intros t H. apply existsb_exists in H as (k & I & E). apply str_eqb_eq in E. subst k. cbn [tex_faces map fst In] in I.
  repeat (destruct I as [I|I]; [subst t; split; reflexivity|]). destruct I.
Qed.
Lemma tex_item_shape : forall i, tex_item_ok i = true -> shape_item i = true.
Proof.
  induction i as [t o sub IH] using xitem_ind'. cbn [tex_item_ok shape_item]. intro C. apply andb_true_iff in C as [C1 C2]. unfold tex_text_ok in C1. rewrite !andb_true_iff in C1. destruct C1 as [[-> _] _].
  cbn [andb]. induction IH as [|x l Hx Hl IHl]; [reflexivity|]. cbn [forallb] in *. apply andb_true_iff in C2 as [C2 C3]. rewrite (Hx C2). apply IHl. exact C3.
Qed.
Lemma tex_rows_ok : forall rows, tex_block_ok (XTable rows) = true -> forallb (forallb tex_cell_ok) rows = true.
Proof. intros rows C. cbn [tex_block_ok] in C. apply andb_true_iff in C as [_ C]. exact C. Qed.
Lemma tex_cell_clean : forall c, tex_cell_ok c = true -> clean_inls Edge (snd c) = true /\ forallb (only_tags (map fst tex_faces)) (snd c) = true.
Proof. intros c C. unfold tex_cell_ok in C. apply andb_true_iff in C as [C _]. apply andb_true_iff. exact C. Qed.
Lemma tex_text_clean : forall b l, tex_text_ok b l = true -> clean_inls Edge l = true /\ forallb (only_tags (map fst tex_faces)) l = true /\ solid (tex_inls b l) = true.
Proof. intros b l C. unfold tex_text_ok in C. rewrite !andb_true_iff in C. tauto. Qed.
Lemma tex_block_shape : forall b, tex_block_ok b = true -> shape_block b = true.
Proof.
  intros b C. destruct b as [l|n l| |o items|ws]; cbn [shape_block].
  - apply tex_text_clean in C. apply C.
  - cbn [tex_block_ok] in C. apply andb_true_iff in C as [C0 C]. apply tex_text_clean in C as (-> & _). rewrite C0. reflexivity.
  - reflexivity.
  - cbn [tex_block_ok] in C. apply andb_true_iff in C as [_ C]. eapply forallb_impl; [|exact C]. apply tex_item_shape.
  - apply tex_rows_ok in C. eapply forallb_impl; [|exact C]. intros r Hr. eapply forallb_impl; [|exact Hr]. intros c Hc. apply (tex_cell_clean c Hc).
Qed.
Lemma tex_doc_shape : forall d, tex_doc_ok d = true -> shape_doc d = true.
Proof. intros d C. eapply forallb_impl; [|exact C]. apply tex_block_shape. Qed.

Section Emission.
Variable u : unknown.
Notation EL := (emit_list textile_methods u no_pre).
Notation EN := (emit_node textile_methods u no_pre).
Notation says := (CleanGen.says u textile_methods).

Lemma says_link : forall h ch b, says ch b -> (forall x y, core x = core y -> b x = b y) ->
  says [HN ($ "a") None [($ "href", VStr h)] None ch] (fun s => $ """" ++ b s ++ $ """:" ++ h).
Proof.
  intros h ch b H C anc s. rewrite el_one. rewrite (en_run _ _ ($ "a") t_a) by reflexivity.
  unfold node_run, t_a, kids_of. destruct (H ($ "a" :: anc) (set_last ($ "a", None) s)) as (s1 & E & C1).
  match goal with |- context [emit_list ?x ?y ?z ?k ch ?t] => replace (emit_list x y z k ch t) with (Ok (b (set_last ($ "a", None) s), s1)) by (symmetry; exact E) end. cbn [bind].
  exists (set_last ($ "a", None) s1). split; [|rewrite core_last, C1; apply core_last]. rewrite (C (set_last ($ "a", None) s) s) by apply core_last. reflexivity.
Qed.
Notation OT := (only_tags (map fst tex_faces)).
Lemma inl_says : forall i sd r ll, clean_inl sd i r = true -> OT i = true -> says (dom_tree [] ll (x2d i)) (fun s => tex_inl (brk s) i).
Proof.
  assert (F : forall l, Forall (fun i => forall sd r ll, clean_inl sd i r = true -> OT i = true -> says (dom_tree [] ll (x2d i)) (fun s => tex_inl (brk s) i)) l ->
     forall sd ll, clean_inls sd l = true -> forallb OT l = true -> says (flat_map (dom_tree [] ll) (map x2d l)) (fun s => flat_map (tex_inl (brk s)) l)).
  { induction 1 as [|x l Hx Hl IH]; intros sd ll C O.
    - intros anc s. exists s. split; reflexivity.
    - cbn [forallb] in O. apply andb_true_iff in O as [O1 O2]. cbn [clean_inls] in C. apply andb_true_iff in C as [C1 C2]. cbn [map flat_map]. apply (says_app _ _ _ _ (fun s => tex_inl (brk s) x) (fun s => flat_map (tex_inl (brk s)) l)).
      + eapply Hx; [exact C1|exact O1].
      + eapply IH; [exact C2|exact O2].
      + intros a b E. rewrite (brk_core _ _ E). reflexivity. }
  induction i as [w|e|t a body IH|h body IH|src title alt|] using xinl_ind'; intros sd r ll C O.
  - cbn [x2d dom_tree tex_inl]. apply (says_leaf _ _ _ data_emit); reflexivity.
  - cbn [tex_inl]. apply ref_says; [reflexivity|reflexivity|exact C].
  - rewrite clean_face in C. apply andb_true_iff in C as [C1 C2]. apply andb_true_iff in C1 as [C1 CA]. destruct (face_kind t C1) as (K1 & K2 & K3 & K4). cbn [x2d dom_tree]. rewrite K1, K2, K3, K4. cbn [tex_inl].
    cbn [only_tags] in O. apply andb_true_iff in O as [O1 O2]. destruct (tex_face_tag t O1) as [_ M]. apply (says_around _ _ t (typeface (tex_mark t)) _ _ _ (fun s => flat_map (tex_inl (brk s)) body)); [exact M|reflexivity|eapply F; [exact IH|exact C2|exact O2]|]. intros x y E. rewrite (brk_core _ _ E). reflexivity.
  - rewrite clean_link in C. apply andb_true_iff in C as [C1 C2]. cbn [x2d dom_tree]. cbn [tex_inl].
    apply (says_link h _ (fun s => flat_map (tex_inl (brk s)) body)); [eapply F; [exact IH|exact C2|exact O]|]. intros a b E. rewrite (brk_core _ _ E). reflexivity.
  - cbn [x2d dom_tree tex_inl]. apply (says_leaf _ _ _ t_img); [reflexivity|]. intros anc kids s. unfold t_img, img_parts, img_attrs.
    cbn [clean_inl] in C. apply andb_true_iff in C as [_ C]. apply negb_true_iff in C.
    match goal with |- context [attr_dict ?x] => change (attr_dict x) with x end. unfold attr. cbn [n_attrs].
    match goal with |- context [dict_get ($ "src") ?x] => change (dict_get ($ "src") x) with (Some (VStr src)) end. cbn [bind].
    match goal with |- context [if ?b then Ok None else _] => assert (CC : b = false) by exact C; rewrite CC end.
    unfold attr_len. cbn [n_attrs].
    match goal with |- context [dict_get ($ "alt") ?x] => change (dict_get ($ "alt") x) with (Some (VStr alt)) end.
    match goal with |- context [dict_get ($ "title") ?x] => change (dict_get ($ "title") x) with (Some (VStr title)) end. cbn [bind].
    do 2 f_equal. unfold image_title. destruct (if (List.length title <? List.length alt)%nat then alt else title) eqn:E; reflexivity.
  - cbn [x2d dom_tree tex_inl]. apply (says_leaf _ _ _ br_emit); [reflexivity|]. intros anc kids s. unfold br_emit, brk. destruct (inner_list s); reflexivity.
Qed.
Lemma inls_says : forall l sd ll, clean_inls sd l = true -> forallb OT l = true -> says (flat_map (dom_tree [] ll) (map x2d l)) (fun s => tex_inls (brk s) l).
Proof.
  induction l as [|x l IH]; intros sd ll C O.
  - intros anc s. exists s. split; reflexivity.
  - cbn [forallb] in O. apply andb_true_iff in O as [O1 O2]. cbn [clean_inls] in C. apply andb_true_iff in C as [C1 C2]. unfold tex_inls. cbn [map flat_map].
    apply (says_app _ _ _ _ (fun s => tex_inl (brk s) x) (fun s => tex_inls (brk s) l)); [eapply inl_says; [exact C1|exact O1]|eapply IH; [exact C2|exact O2]|].
    intros a b E. rewrite (brk_core _ _ E). reflexivity.
Qed.

(** ** lists *)
Lemma list_meth : forall o, find_meth textile_methods (xlist_tag o) = Some (list_emit (bullet o)). Proof. intros []; reflexivity. Qed.
Lemma list_run : forall o ll ks cs anc s, (forall anc s0, inner_list s0 = inner_list s ++ bullet o ->
    exists s', EL anc (flat_map (dom_tree [] (ll + 1)) ks) s0 = Ok (cs, s') /\ core s' = core s0) ->
  exists s', EL anc (dom_tree [] ll (DElem (xlist_tag o) [] ks)) s =
    Ok (match inner_list s with
        | [] => if starts_newline s then [10] ++ cs ++ [10; 10] else strip cs ++ [10; 10]
        | _ => cs
        end, s') /\ core s' = core s /\ last s' = Some (xlist_tag o, None).
Proof.
  intros o ll ks cs anc s H. rewrite list_tree, el_one, (en_run _ _ _ _ _ _ _ _ _ _ (list_meth o)). unfold node_run, list_emit, kids_of.
  destruct (H (xlist_tag o :: anc) (set_last (xlist_tag o, None) (set_inner (inner_list s ++ bullet o) s))) as (s1 & E & C); [reflexivity|].
  rewrite E. cbn [bind].
  assert (I : inner_list s1 = inner_list s ++ bullet o) by exact (core_inner _ _ C).
  assert (R : removelast (inner_list s1) = inner_list s) by (rewrite I; destruct o; apply removelast_snoc).
  eexists. split; [|split].
  - rewrite R. cbn [inner_list set_inner]. reflexivity.
  - rewrite core_last. rewrite (core_set_inner _ s1 _ C). destruct s; reflexivity.
  - reflexivity.
Qed.
Lemma li_run : forall ll ks c anc s, (forall anc s0, core s0 = core s -> exists s', EL anc (flat_map (dom_tree [] ll) ks) s0 = Ok (c, s') /\ core s' = core s0) ->
  exists s', EL anc (dom_tree [] ll (DElem ($ "li") [] ks)) s = Ok (10 :: inner_list s ++ 32 :: c, s') /\ core s' = core s.
Proof.
  intros ll ks c anc s H. rewrite li_tree, el_one, (en_run _ _ ($ "li") li_emit) by reflexivity. unfold node_run, li_emit, kids_of.
  destruct (H ($ "li" :: anc) (set_last ($ "li", None) s)) as (s1 & E & C); [reflexivity|].
  match goal with |- context [emit_list ?x ?y ?z ?k ?ch ?t] => replace (emit_list x y z k ch t) with (Ok (c, s1)) by (symmetry; exact E) end. cbn [bind].
  eexists. split; [|rewrite core_last, C; reflexivity]. rewrite (core_inner _ _ C). reflexivity.
Qed.
Lemma brk_list : forall s (c : N) r, inner_list s = c :: r -> brk s = [92; 92]. Proof. intros s c r H. unfold brk. rewrite H. reflexivity. Qed.
Definition item_spec (i : xitem) : Prop := tex_item_ok i = true -> forall ll anc s, inner_list s <> [] ->
  exists s', EL anc (dom_tree [] ll (i2d i)) s = Ok (nl_lines (tex_item (inner_list s) i), s') /\ core s' = core s.
Lemma items_of : forall l, Forall item_spec l -> forallb tex_item_ok l = true -> forall ll anc s, inner_list s <> [] ->
  exists s', EL anc (flat_map (dom_tree [] ll) (map i2d l)) s = Ok (nl_lines (flat_map (tex_item (inner_list s)) l), s') /\ core s' = core s.
Proof.
  induction 1 as [|x l Hx Hl IH]; intros C ll anc s B; [exists s; split; reflexivity|]. cbn [forallb] in C. apply andb_true_iff in C as [C1 C2]. cbn [map flat_map].
  rewrite el_app. destruct (Hx C1 ll anc s B) as (s1 & E1 & K1). rewrite E1. cbn [bind].
  pose proof (core_inner _ _ K1) as I. destruct (IH C2 ll anc s1) as (s2 & E2 & K2); [rewrite I; exact B|]. rewrite E2. cbn [bind]. exists s2. rewrite nl_app, I. split; [reflexivity|congruence].
Qed.
Lemma item_says : forall i, item_spec i.
Proof.
  induction i as [t o sub IH] using xitem_ind'. intros C ll anc s B. cbn [tex_item_ok] in C. apply andb_true_iff in C as [C1 C2]. apply tex_text_clean in C1 as (C1 & O1 & _).
  cbn [i2d tex_item].
  destruct (inner_list s) as [|c0 r0] eqn:EI; [congruence|]. rewrite <- EI in *.
  edestruct (li_run ll (map x2d t ++ match sub with [] => [] | _ :: _ => [DElem (xlist_tag o) [] (map i2d sub)] end)
    (tex_inls [92; 92] t ++ nl_lines (flat_map (tex_item (inner_list s ++ [if o then 35 else 42])) sub)) anc s) as (s1 & E & K).
  { intros anc0 s0 K0. rewrite flat_map_app, el_app. destruct (inls_says t Edge ll C1 O1 anc0 s0) as (s2 & E2 & K2). rewrite E2. cbn [bind].
    pose proof (core_inner _ _ K0) as I0. pose proof (core_inner _ _ K2) as I2.
    rewrite (brk_list s0 c0 r0) by congruence.
    destruct sub as [|x sub].
    - cbn [flat_map emit_list bind]. exists s2. split; [cbn [nl_lines flat_map]; reflexivity|exact K2].
    - cbn [flat_map]. rewrite app_nil_r.
      destruct (list_run o ll (map i2d (x :: sub)) (nl_lines (flat_map (tex_item (inner_list s ++ [if o then 35 else 42])) (x :: sub))) anc0 s2) as (s3 & E3 & K3 & _).
      { intros anc1 s4 I4. destruct (items_of (x :: sub) IH C2 (ll + 1)%Z anc1 s4) as (s5 & E5 & K5); [rewrite I4; destruct o, (inner_list s2); discriminate|].
        rewrite E5. exists s5. split; [|exact K5]. rewrite I4, I2, I0. destruct o; reflexivity. }
      rewrite E3. cbn [bind]. exists s3. rewrite I2, I0, EI. rewrite <- EI. split; [reflexivity|congruence]. }
  rewrite E. exists s1. split; [|exact K]. f_equal. f_equal. unfold nl_lines. cbn [flat_map app]. rewrite <- !app_assoc. reflexivity.
Qed.
Lemma items_says : forall l, forallb tex_item_ok l = true -> forall ll anc s, inner_list s <> [] ->
  exists s', EL anc (flat_map (dom_tree [] ll) (map i2d l)) s = Ok (nl_lines (flat_map (tex_item (inner_list s)) l), s') /\ core s' = core s.
Proof. intros l. apply items_of. apply Forall_forall. intros i _. apply item_says. Qed.

(** ** tables *)
Definition tex_ctext (c : bool * list xinl) : str := escape_linebreaks (tex_inls [10] (snd c)).
Definition tex_craw (c : bool * list xinl) : str := (if fst c then $ "_. " else []) ++ tex_ctext c.
Lemma cell_run : forall c ll anc s t rs r, tex_cell_ok c = true -> inner_list s = [] -> tbl s = Some t -> rows t = rs ++ [r] -> head_prefix t = $ "_. " -> auto_width t = false ->
  exists s' t', EL anc (dom_tree [] ll (c2d c)) s = Ok ([], s') /\ inner_list s' = [] /\ tbl s' = Some t' /\ rows t' = rs ++ [r ++ [tex_craw c]] /\
    head_prefix t' = $ "_. " /\ auto_width t' = false.
Proof.
  intros [h l] ll anc s t rs r C I T R HP AW. apply tex_cell_clean in C as [C O]. cbn [snd] in C, O. unfold c2d. cbn [fst snd].
  set (k := if h then $ "th" else $ "td").
  assert (TR : dom_tree [] ll (DElem k [] (map x2d l)) = [HN k None [] None (flat_map (dom_tree [] ll) (map x2d l))]) by (destruct h; reflexivity).
  assert (M : find_meth textile_methods k = Some (cell_emit (if h then add_th else add_td))) by (destruct h; reflexivity).
  match goal with |- context [dom_tree [] ll ?x] => change (dom_tree [] ll x) with (dom_tree [] ll (DElem k [] (map x2d l))) end.
  rewrite TR, el_one, (en_run _ _ _ _ _ _ _ _ _ _ M). unfold node_run, cell_emit, kids_of.
  destruct (inls_says l Edge ll C O (k :: anc) (set_last (k, None) s)) as (s1 & E & K).
  match goal with |- context [emit_list ?x ?y ?z ?w ?ch ?t] => replace (emit_list x y z w ch t) with (Ok (tex_inls (brk (set_last (k, None) s)) l, s1)) by (symmetry; exact E) end. cbn [bind].
  assert (T1 : tbl s1 = Some t) by (rewrite (core_tbl _ _ K); exact T). rewrite T1. cbn [bind].
  assert (I1 : inner_list s1 = []) by (rewrite (core_inner _ _ K); exact I).
  assert (BR : brk (set_last (k, None) s) = [10]) by (unfold brk; cbn [set_last inner_list]; rewrite I; reflexivity). rewrite BR.
  eexists. exists ((if h then add_th else add_td) (tex_ctext (h, l)) t). split; [reflexivity|]. split; [exact I1|]. split; [reflexivity|].
  destruct h; unfold tex_craw; cbn [fst]; unfold add_th, add_td; cbn [rows head_prefix auto_width]; rewrite R, append_last_snoc, ?HP; auto.
Qed.
Lemma cells_run : forall w ll anc s t rs r, forallb tex_cell_ok w = true -> inner_list s = [] -> tbl s = Some t -> rows t = rs ++ [r] -> head_prefix t = $ "_. " -> auto_width t = false ->
  exists s' t', EL anc (flat_map (dom_tree [] ll) (map c2d w)) s = Ok ([], s') /\ inner_list s' = [] /\ tbl s' = Some t' /\ rows t' = rs ++ [r ++ map tex_craw w] /\
    head_prefix t' = $ "_. " /\ auto_width t' = false.
Proof.
  induction w as [|c w IH]; intros ll anc s t rs r C I T R HP AW.
  - exists s, t. cbn [map]. rewrite app_nil_r. repeat split; auto.
  - cbn [forallb] in C. apply andb_true_iff in C as [C1 C2]. cbn [map flat_map]. rewrite el_app.
    destruct (cell_run c ll anc s t rs r C1 I T R HP AW) as (s1 & t1 & E1 & I1 & T1 & R1 & P1 & W1). rewrite E1. cbn [bind].
    destruct (IH ll anc s1 t1 rs _ C2 I1 T1 R1 P1 W1) as (s2 & t2 & E2 & I2 & T2 & R2 & P2 & W2). rewrite E2. cbn [bind app].
    exists s2, t2. rewrite <- app_assoc in R2. repeat split; auto.
Qed.
Lemma rows_run : forall ws ll anc s t, forallb (forallb tex_cell_ok) ws = true -> inner_list s = [] -> tbl s = Some t -> head_prefix t = $ "_. " -> auto_width t = false ->
  exists s' t', EL anc (flat_map (dom_tree [] ll) (map (fun r => DElem ($ "tr") [] (map c2d r)) ws)) s = Ok ([], s') /\ inner_list s' = [] /\ tbl s' = Some t' /\
    rows t' = rows t ++ map (map tex_craw) ws /\ head_prefix t' = $ "_. " /\ auto_width t' = false.
Proof.
  induction ws as [|w ws IH]; intros ll anc s t C I T HP AW.
  - exists s, t. cbn [map]. rewrite app_nil_r. repeat split; auto.
  - cbn [forallb] in C. apply andb_true_iff in C as [C1 C2]. cbn [map flat_map].
    change (dom_tree [] ll (DElem ($ "tr") [] (map c2d w))) with [HN ($ "tr") None [] None (flat_map (dom_tree [] ll) (map c2d w))].
    rewrite el_app, el_one, (en_run _ _ ($ "tr") tr_emit) by reflexivity. unfold node_run, tr_emit at 1. rewrite T. unfold kids_of.
    destruct (cells_run w ll ($ "tr" :: anc) (set_last ($ "tr", None) (set_tbl (add_tr t) s)) (add_tr t) (rows t) [] C1 I eq_refl eq_refl HP AW) as (s1 & t1 & E1 & I1 & T1 & R1 & P1 & W1).
    match goal with |- context [emit_list ?x ?y ?z ?k ?ch ?t] => replace (emit_list x y z k ch t) with (Ok (@nil N, s1)) by (symmetry; exact E1) end. cbn [bind].
    destruct (IH ll anc (set_last ($ "tr", None) s1) t1 C2 I1 T1 P1 W1) as (s2 & t2 & E2 & I2 & T2 & R2 & P2 & W2). match goal with |- context [emit_list ?x ?y ?z ?k ?ch ?t] => replace (emit_list x y z k ch t) with (Ok (@nil N, s2)) by (symmetry; exact E2) end. cbn [bind app].
    exists s2, t2. rewrite R1, <- app_assoc in R2. repeat split; auto.
Qed.
End Emission.


(** the text of a cell *)
Lemma raw_ok : forall c, tex_cell_ok c = true -> tex_craw c = tex_cell c.
Proof.
  intros [h l] C. unfold tex_craw, tex_ctext, tex_cell. cbn [fst snd]. unfold tex_cell_ok in C. cbn [fst snd] in C. apply andb_true_iff in C as [_ C]. apply orb_true_iff in C as [C|C].
  - destruct (tex_inls [10] l); [reflexivity|discriminate C].
  - apply andb_true_iff in C as [C C3]. apply andb_true_iff in C as [C1 C2]. apply negb_true_iff in C2, C3. rewrite escaped by assumption. reflexivity.
Qed.
Lemma row_join : forall r, join ($ "|") (map tex_cell r) = tex_row r.
Proof. induction r as [|c r IH]; [reflexivity|]. destruct r as [|d r]; [reflexivity|]. cbn [map join tex_row] in *. rewrite IH. reflexivity. Qed.
Lemma table_text : forall ws t, tex_block_ok (XTable ws) = true -> rows t = map (map tex_craw) ws -> auto_width t = false -> get_table_markup t = tex_block (XTable ws).
Proof.
  intros ws t C R AW. apply tex_rows_ok in C. unfold get_table_markup. rewrite AW, R. cbn [tex_block]. rewrite x_lines_join. f_equal. rewrite map_map. apply map_ext_in. intros w I.
  rewrite forallb_forall in C. specialize (C w I). rewrite <- row_join. do 3 f_equal. apply map_ext_in. intros c Ic. apply raw_ok. rewrite forallb_forall in C. apply C. exact Ic.
Qed.

(** ** blocks *)
Fixpoint rawd (nl : bool) (d : list xblock) : str :=
  match d with [] => [] | b :: r => bpre nl b ++ tex_block b ++ bsuf b ++ rawd (bnl b) r end.

Lemma item_lines : forall i bl, tex_item_ok i = true -> solid bl = true -> forallb solid (tex_item bl i) = true /\ tex_item bl i <> [].
Proof.
  induction i as [t o sub IH] using xitem_ind'. intros bl C B. cbn [tex_item_ok] in C. apply andb_true_iff in C as [C1 C2]. apply tex_text_clean in C1 as (_ & _ & C1).
  cbn [tex_item]. split; [|discriminate]. cbn [forallb]. apply andb_true_iff. split.
  - apply solid_ends in C1 as (c & r & d & r' & E1 & S1 & E2 & S2). apply solid_ends in B as (c0 & r0 & d0 & r0' & F1 & T1 & F2 & T2).
    eapply (solid_intro _ c0 (r0 ++ $ " " ++ tex_inls [92; 92] t) d (bl ++ $ " " ++ r')); [rewrite F1; reflexivity|exact T1|rewrite E2, <- !app_assoc; reflexivity|exact S2].
  - assert (B2 : solid (bl ++ [if o then 35 else 42]) = true).
    { apply solid_ends in B as (c0 & r0 & d0 & r0' & F1 & T1 & F2 & T2). eapply (solid_intro _ c0 (r0 ++ [if o then 35 else 42]) (if o then 35 else 42) bl); [rewrite F1; reflexivity|exact T1|reflexivity|destruct o; reflexivity]. }
    induction IH as [|x sub Hx Hs IHs]; [reflexivity|]. cbn [forallb flat_map] in *. apply andb_true_iff in C2 as [C2 C3]. rewrite forallb_app. destruct (Hx _ C2 B2) as [-> _]. apply IHs. exact C3.
Qed.
Lemma items_lines : forall l bl, forallb tex_item_ok l = true -> solid bl = true -> forallb solid (flat_map (tex_item bl) l) = true.
Proof.
  induction l as [|x l IH]; intros bl C B; [reflexivity|]. cbn [forallb flat_map] in *. apply andb_true_iff in C as [C1 C2]. rewrite forallb_app.
  destruct (item_lines x bl C1 B) as [-> _]. apply IH; assumption.
Qed.
Lemma block_solid : forall b, tex_block_ok b = true -> solid (tex_block b) = true.
Proof.
  intros b C. destruct b as [l|n l| |o items|ws].
  - apply tex_text_clean in C. apply C.
  - cbn [tex_block_ok] in C. apply andb_true_iff in C as [C0 C]. apply tex_text_clean in C as (_ & _ & C).
    apply solid_ends in C as (c & r & d & r' & E1 & S1 & E2 & S2). cbn [tex_block app].
    eapply (solid_intro _ 104 (show_nat n ++ $ ". " ++ tex_inls [10] l) d ($ "h" ++ show_nat n ++ $ ". " ++ r')); [reflexivity|reflexivity|rewrite E2; rewrite <- !app_assoc; reflexivity|exact S2].
  - reflexivity.
  - cbn [tex_block_ok] in C. apply andb_true_iff in C as [NE C]. cbn [tex_block]. rewrite x_lines_join. apply join_solid.
    + apply items_lines; [exact C|destruct o; reflexivity].
    + destruct items as [|[t o' sub] items]; [discriminate NE|]. cbn [flat_map tex_item app]. discriminate.
  - cbn [tex_block_ok] in C. apply andb_true_iff in C as [NE C]. cbn [tex_block]. rewrite x_lines_join. apply join_solid.
    + rewrite forallb_forall. intros x I. apply in_map_iff in I as (w & <- & I). eapply (solid_intro _ 124 (tex_row w ++ $ "|") 124 ($ "|" ++ tex_row w)); try reflexivity. 
    + destruct ws; [discriminate NE|discriminate].
Qed.

Section Blocks.
Variable u : unknown.
Local Notation EL := (emit_list textile_methods u no_pre).
Lemma block_run : forall b nl anc s, tex_block_ok b = true -> inner_list s = [] -> starts_newline s = nl ->
  exists s', EL anc (dom_tree [] 0 (b2d b)) s = Ok (bpre nl b ++ tex_block b ++ bsuf b, s') /\ inner_list s' = [] /\ starts_newline s' = bnl b.
Proof.
  intros b nl anc s C I SN. destruct b as [l|n l| |o items|ws]; cbn [b2d bpre bsuf bnl app].
  - cbn [tex_block_ok] in C. apply tex_text_clean in C as (C & O & _).
    change (dom_tree [] 0 (DElem ($ "p") [] (map x2d l))) with [HN ($ "p") None [] None (flat_map (dom_tree [] 0) (map x2d l))].
    rewrite el_one, (en_run u textile_methods ($ "p") p_emit) by reflexivity. unfold node_run, p_emit, kids_of.
    destruct (inls_says u l Edge 0%Z C O ($ "p" :: anc) (set_last ($ "p", None) s)) as (s1 & E & K).
    match goal with |- context [emit_list ?x ?y ?z ?k ?ch ?t] => replace (emit_list x y z k ch t) with (Ok (tex_inls (brk (set_last ($ "p", None) s)) l, s1)) by (symmetry; exact E) end. cbn [bind].
    assert (I1 : inner_list s1 = []) by (rewrite (core_inner _ _ K); exact I).
    assert (BR : brk (set_last ($ "p", None) s) = [10]) by (unfold brk; cbn [set_last inner_list]; rewrite I; reflexivity). rewrite BR.
    eexists. split; [reflexivity|]. split; [exact I1|]. apply starts_block. reflexivity.
  - cbn [tex_block_ok] in C. apply andb_true_iff in C as [C0 C]. apply andb_true_iff in C0 as [L1 L2]. apply Nat.leb_le in L1, L2. apply tex_text_clean in C as (C & O & _).
    pose proof (head_tree n (map x2d l) (conj L1 L2)) as HT.
    match goal with |- context [dom_tree [] 0 ?x] => replace (dom_tree [] 0 x) with [HN ($ "headline") None [] (Some (Z.of_nat n)) (flat_map (dom_tree [] 0) (map x2d l))] by (symmetry; exact HT) end.
    rewrite el_one, (en_run u textile_methods ($ "headline") t_headline) by reflexivity. unfold node_run, t_headline, kids_of, level_of. cbn [n_level bind].
    destruct (inls_says u l Edge 0%Z C O ($ "headline" :: anc) (set_last ($ "headline", None) s)) as (s1 & E & K).
    match goal with |- context [emit_list ?x ?y ?z ?k ?ch ?t] => replace (emit_list x y z k ch t) with (Ok (tex_inls (brk (set_last ($ "headline", None) s)) l, s1)) by (symmetry; exact E) end. cbn [bind].
    assert (I1 : inner_list s1 = []) by (rewrite (core_inner _ _ K); exact I).
    assert (BR : brk (set_last ($ "headline", None) s) = [10]) by (unfold brk; cbn [set_last inner_list]; rewrite I; reflexivity). rewrite BR.
    assert (SZ : show_Z (Z.of_nat n) = show_nat n) by (clear -L1 L2; do 7 (destruct n as [|n]; [first [lia|reflexivity]|]); lia).
    eexists. split; [cbn [tex_block]; rewrite SZ, <- !app_assoc; reflexivity|]. split; [exact I1|reflexivity].
  - change (dom_tree [] 0 (DSelf ($ "hr") [])) with [HN ($ "hr") None [] None []].
    rewrite el_one, (en_run u textile_methods ($ "hr") (const_emit ($ "----" ++ [10; 10]))) by reflexivity. unfold node_run, const_emit, ret. cbn [bind].
    eexists. split; [reflexivity|]. split; [exact I|apply starts_block; reflexivity].
  - pose proof (block_solid _ C) as SO. cbn [tex_block_ok] in C. apply andb_true_iff in C as [NE C].
    destruct (list_run u o 0%Z (map i2d items) (nl_lines (flat_map (tex_item [if o then 35 else 42]) items)) anc s) as (s1 & E & K & L).
    { intros anc1 s4 I4. destruct (items_says u items C (0 + 1)%Z anc1 s4) as (s5 & E5 & K5); [rewrite I4, I; destruct o; discriminate|].
      rewrite E5. exists s5. split; [|exact K5]. rewrite I4, I. destruct o; reflexivity. }
    assert (NN : flat_map (tex_item [if o then 35 else 42]) items <> []) by (destruct items as [|[t o' sub] items]; [discriminate NE|]; cbn [flat_map tex_item app]; discriminate).
    rewrite E. exists s1. rewrite I, SN, nl_x_lines by exact NN. split; [|split; [rewrite (core_inner _ _ K); exact I|]].
    + cbn [tex_block] in *. destruct nl; [reflexivity|]. apply strip_solid in SO.
      match goal with |- context [strip ?y] => replace (strip y) with (x_lines (flat_map (tex_item [if o then 35 else 42]) items)) by (symmetry; exact SO) end. reflexivity.
    + unfold starts_newline. rewrite L. destruct o; reflexivity.
  - change (dom_tree [] 0 (DElem ($ "table") [] ?x)) with [HN ($ "table") None [] None (flat_map (dom_tree [] 0) x)].
    rewrite el_one, (en_run u textile_methods ($ "table") (table_emit ($ "_. ") false)) by reflexivity. unfold node_run, table_emit, kids_of.
    destruct (rows_run u ws 0%Z ($ "table" :: anc) (set_last ($ "table", None) (set_tbl (new_table ($ "_. ") false) s)) (new_table ($ "_. ") false) (tex_rows_ok ws C) I eq_refl eq_refl eq_refl)
      as (s1 & t1 & E & I1 & T1 & R1 & P1 & W1).
    match goal with |- context [emit_list ?x ?y ?z ?k ?ch ?t] => replace (emit_list x y z k ch t) with (Ok (@nil N, s1)) by (symmetry; exact E) end. cbn [bind].
    unfold the_table. rewrite T1, (table_text ws t1 C R1 W1). eexists. split; [reflexivity|]. split; [exact I1|apply starts_block; reflexivity].
Qed.
Lemma blocks_run : forall d nl anc s, tex_doc_ok d = true -> inner_list s = [] -> starts_newline s = nl ->
  exists s', EL anc (flat_map (dom_tree [] 0) (map b2d d)) s = Ok (rawd nl d, s').
Proof.
  induction d as [|b d IH]; intros nl anc s C I SN; [exists s; reflexivity|]. unfold tex_doc_ok in *. cbn [forallb] in C. apply andb_true_iff in C as [C1 C2]. cbn [map flat_map]. rewrite el_app.
  destruct (block_run b nl anc s C1 I SN) as (s1 & E1 & I1 & S1). rewrite E1. cbn [bind]. destruct (IH (bnl b) anc s1 C2 I1 S1) as (s2 & E2). rewrite E2. cbn [bind rawd].
  exists s2. rewrite <- !app_assoc. reflexivity.
Qed.
End Blocks.

Lemma raw_doc : forall r b nl, rawd nl (b :: r) = bpre nl b ++ tex_doc (b :: r) ++ bsuf (List.last r b).
Proof.
  induction r as [|c r IH]; intros b nl; [cbn [rawd tex_doc List.last app]; rewrite !app_nil_r; reflexivity|].
  change (rawd nl (b :: c :: r)) with (bpre nl b ++ tex_block b ++ bsuf b ++ rawd (bnl b) (c :: r)). rewrite IH.
  change (tex_doc (b :: c :: r)) with (tex_block b ++ x_gap b c ++ tex_doc (c :: r)).
  assert (G : x_gap b c = bsuf b ++ bpre (bnl b) c) by (destruct b, c; reflexivity). rewrite G.
  assert (L : forall (r : list xblock) c b, List.last (c :: r) b = List.last r c).
  { clear. induction r as [|e r IH]; intros c b; [reflexivity|]. change (List.last (c :: e :: r) b) with (List.last (e :: r) b). rewrite (IH e b), (IH e c). reflexivity. }
  rewrite L, <- !app_assoc. reflexivity.
Qed.
Lemma doc_solid : forall d, tex_doc_ok d = true -> d <> [] -> solid (tex_doc d) = true.
Proof.
  induction d as [|b d IH]; intros C NE; [congruence|]. unfold tex_doc_ok in *. cbn [forallb] in C. apply andb_true_iff in C as [C1 C2]. apply block_solid in C1.
  destruct d as [|c d]; [cbn [tex_doc app]; rewrite !app_nil_r; exact C1|].
  change (tex_doc (b :: c :: d)) with (tex_block b ++ x_gap b c ++ tex_doc (c :: d)). specialize (IH C2). pose proof (IH ltac:(discriminate)) as S2.
  apply solid_ends in C1 as (c1 & r1 & d1 & r1' & E1 & K1 & E2 & K2). apply solid_ends in S2 as (c2 & r2 & d2 & r2' & F1 & L1 & F2 & L2).
  eapply (solid_intro _ c1 (r1 ++ x_gap b c ++ tex_doc (c :: d)) d2 (tex_block b ++ x_gap b c ++ r2')); [rewrite E1; reflexivity|exact K1|rewrite F2, <- !app_assoc; reflexivity|exact L2].
Qed.
Theorem clean_textile : forall u d html, tex_doc_ok d = true -> written d html -> html2textile u html = Ok (tex_doc d).
Proof.
  intros u d html C W. unfold html2textile. rewrite (clean_tree d html (tex_doc_shape d C) W). cbn [bind]. unfold emit_textile.
  rewrite (en_run u textile_methods ($ "document") document_emit) by reflexivity. unfold node_run, document_emit, kids_of.
  destruct (blocks_run u d true [$ "document"] (set_last ($ "document", None) e_init) C eq_refl eq_refl) as (s1 & E).
  match goal with |- context [emit_list ?x ?y ?z ?k ?ch ?t] => replace (emit_list x y z k ch t) with (Ok (rawd true d, s1)) by (symmetry; exact E) end. cbn [bind].
  destruct d as [|b d]; [reflexivity|]. f_equal. rewrite raw_doc.
  assert (SO : solid (tex_doc (b :: d)) = true) by (apply doc_solid; [exact C|discriminate]).
  apply solid_ends in SO as (c1 & r1 & d1 & r1' & E1 & K1 & E2 & K2).
  apply strip_around; [destruct b; reflexivity|destruct (List.last d b); reflexivity|exists c1, r1; auto|exists d1, r1'; auto].
Qed.
