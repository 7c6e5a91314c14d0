(** * What html2markdown makes of the clean documents *)
From Coq Require Import String List Arith NArith ZArith Bool Lia.
From Verif Require Import PyStr PyStrFacts Utils Res Entities HtmlTools HtmlToolsFacts HtmlTok HtmlParser MarkupTable TableFacts UrlQuote HtmlBase Html2X EmitFacts.
From Verif Require Import Spec2 TreeFacts Spec10 StripRun Spec11 CleanRun CleanDoc CleanEmit CleanGen Spec17 AddressFacts Spec18.
Import ListNotations.
Open Scope N_scope.

Section Urls.
Variable url : str -> str.
Notation md_inl := (md_inl url). Notation md_inls := (md_inls url). Notation md_item := (md_item url). Notation md_cell := (md_cell url).
Notation md_block := (md_block url). Notation md_doc := (md_doc url). Notation md_fine := (md_fine url). Notation md_clean := (md_clean url).
Notation md_text_ok := (md_text_ok url). Notation md_item_ok := (md_item_ok url). Notation md_cell_ok := (md_cell_ok url). Notation md_block_ok := (md_block_ok url). Notation md_doc_ok := (md_doc_ok url).
Definition quotable (l : list str) : Prop := forall h, In h l -> quote_link (VStr h) = Ok (url h).
Lemma quotable_app : forall a b, quotable (a ++ b) -> quotable a /\ quotable b.
Proof. intros a b H. split; intros h I; apply H; apply in_or_app; auto. Qed.

(** ** the conditions *)
Lemma md_face_tag : forall t, existsb (str_eqb t) md_tags = true -> str_eqb t ($ "code") = false ->
  exists f, find_meth markdown_methods t = Some f /\ forall a kids anc s, f (mkn t None a None anc) kids s = do (r, s1) <- kids s; Ok (fst (md_mark t) ++ r ++ snd (md_mark t), s1).
Proof.
  intros t H NC. apply existsb_exists in H as (k & I & E). apply str_eqb_eq in E. subst k. cbn [md_tags md_faces map fst In] in I.
  destruct I as [I|I]; [subst t; discriminate NC|].
  repeat (destruct I as [I|I]; [subst t; eexists; split; [reflexivity|intros a kids anc s; first [reflexivity|unfold m_html; destruct (kids s) as [[r s1]|e]; reflexivity]]|]). destruct I.
Qed.
Lemma md_clean_parts : forall l, md_clean l = true -> clean_inls Edge l = true /\ forallb (only_tags md_tags) l = true /\ forallb md_fine l = true.
Proof. intros l H. unfold Spec18.md_clean in H. rewrite !andb_true_iff in H. tauto. Qed.
Lemma md_text_parts : forall l, md_text_ok l = true -> md_clean l = true /\ solid (md_inls l) = true.
Proof. intros l H. unfold Spec18.md_text_ok in H. rewrite andb_true_iff in H. exact H. Qed.
Lemma md_item_shape : forall i, md_item_ok i = true -> shape_item i = true.
Proof.
  induction i as [t o sub IH] using xitem_ind'. cbn [Spec18.md_item_ok shape_item]. intro C. apply andb_true_iff in C as [C1 C2]. apply md_text_parts in C1 as [C1 _]. apply md_clean_parts in C1 as [-> _].
  cbn [andb]. induction IH as [|x l Hx Hl IHl]; [reflexivity|]. cbn [forallb] in *. apply andb_true_iff in C2 as [C2 C3]. rewrite (Hx C2). apply IHl. exact C3.
Qed.
Lemma md_rows_ok : forall rows, md_block_ok (XTable rows) = true -> forallb (forallb md_cell_ok) rows = true.
Proof.
  intros rows C. cbn [Spec18.md_block_ok] in C. destruct rows as [|r0 rows]; [discriminate C|]. apply andb_true_iff in C as [_ C].
  eapply forallb_impl; [|exact C]. intros x Hx. apply andb_true_iff in Hx as [_ Hx]. exact Hx.
Qed.
Lemma md_cell_clean : forall c, md_cell_ok c = true -> md_clean (snd c) = true.
Proof. intros c C. unfold Spec18.md_cell_ok in C. apply andb_true_iff in C as [C _]. exact C. Qed.
Lemma md_block_shape : forall b, md_block_ok b = true -> shape_block b = true.
Proof.
  intros b C. destruct b as [l|n l| |o items|ws]; cbn [shape_block].
  - apply md_text_parts in C as [C _]. apply md_clean_parts in C. apply C.
  - cbn [Spec18.md_block_ok] in C. apply andb_true_iff in C as [C0 C]. apply md_text_parts in C as [C _]. apply md_clean_parts in C as [-> _]. rewrite C0. reflexivity.
  - reflexivity.
  - cbn [Spec18.md_block_ok] in C. apply andb_true_iff in C as [_ C]. eapply forallb_impl; [|exact C]. apply md_item_shape.
  - apply md_rows_ok in C. eapply forallb_impl; [|exact C]. intros r Hr. eapply forallb_impl; [|exact Hr]. intros c Hc. apply md_cell_clean, md_clean_parts in Hc. apply Hc.
Qed.
Lemma md_doc_shape : forall d, md_doc_ok d = true -> shape_doc d = true.
Proof. intros d C. eapply forallb_impl; [|exact C]. apply md_block_shape. Qed.

Section Emission.
Variable u : unknown.
Notation EL := (emit_list markdown_methods u no_pre).
Notation EN := (emit_node markdown_methods u no_pre).
Notation says := (CleanGen.says u markdown_methods).
Lemma says_link : forall h ch b, quote_link (VStr h) = Ok (url h) -> says ch (fun _ => b) ->
  says [HN ($ "a") None [($ "href", VStr h)] None ch] (fun _ => $ "[" ++ b ++ $ "](" ++ url h ++ $ ")").
Proof.
  intros h ch b Q H anc s. rewrite el_one. rewrite (en_run _ _ ($ "a") m_a) by reflexivity.
  unfold node_run, m_a, kids_of. destruct (H ($ "a" :: anc) (set_last ($ "a", None) s)) as (s1 & E & C1).
  match goal with |- context [emit_list ?x ?y ?z ?k ch ?t] => replace (emit_list x y z k ch t) with (Ok (b, s1)) by (symmetry; exact E) end. cbn [bind].
  unfold attr. cbn [n_attrs]. match goal with |- context [dict_get ($ "href") ?x] => change (dict_get ($ "href") x) with (Some (VStr h)) end. cbn [bind]. rewrite Q. cbn [bind].
  match goal with |- context [dict_get ($ "title") ?x] => change (dict_get ($ "title") x) with (@None pyval) end.
  exists (set_last ($ "a", None) s1). split; [reflexivity|]. rewrite core_last, C1. apply core_last.
Qed.
Lemma one_line_split : forall t : str, one_line t = true -> split_on 10 t = [t].
Proof.
  induction t as [|c t IH]; intro H; [reflexivity|]. unfold one_line in *. cbn [forallb] in H. apply andb_true_iff in H as [H1 H2]. apply negb_true_iff in H1. cbn [split_on]. rewrite H1, (IH H2). reflexivity.
Qed.
Lemma one_row_id : forall t : str, one_line t = true -> one_row t = t.
Proof.
  induction t as [|c t IH]; intro H; [reflexivity|]. unfold one_line in H. cbn [forallb] in H. apply andb_true_iff in H as [H1 H2]. apply negb_true_iff in H1. unfold one_row in *. cbn [flat_map]. rewrite H1, (IH H2). reflexivity.
Qed.
Lemma contains_one : forall c (t : str), contains [c] t = existsb (N.eqb c) t.
Proof.
  intros c t. induction t as [|d t IH]; [reflexivity|]. cbn [contains startswith existsb]. rewrite IH, andb_true_r. reflexivity.
Qed.
Lemma says_code : forall at0 ch t, solid t = true -> one_line t = true -> startswith [92] t = false -> endswith [92] t = false -> says ch (fun _ => t) ->
  says [HN ($ "code") None at0 None ch] (fun _ => md_code t).
Proof.
  intros at0 ch t C1 C2 C3 C4 H anc s. rewrite el_one. rewrite (en_run _ _ ($ "code") m_code) by reflexivity.
  unfold node_run, m_code, content_emit, kids_of. destruct (H ($ "code" :: anc) (set_last ($ "code", None) s)) as (s1 & E & K).
  match goal with |- context [emit_list ?x ?y ?z ?k ch ?w] => replace (emit_list x y z k ch w) with (Ok (t, s1)) by (symmetry; exact E) end. cbn [bind n_kind].
  assert (CT : content_text ($ "code") t = t).
  { unfold content_text. change (in_list BLOCK_TAGS ($ "code")) with false. cbv iota zeta. rewrite escaped; [apply one_row_id; exact C2| |exact C3|exact C4]. rewrite (one_line_split t C2). cbn [forallb]. rewrite C1. reflexivity. }
  rewrite CT. rewrite !contains_one.
  assert (N10 : existsb (N.eqb 10) t = false). { destruct (existsb (N.eqb 10) t) eqn:X; [|reflexivity]. apply existsb_exists in X as (x & I & Q). apply N.eqb_eq in Q. subst x. unfold one_line in C2. rewrite forallb_forall in C2. specialize (C2 10 I). discriminate C2. }
  rewrite N10. cbn [bind]. exists (set_last ($ "code", None) s1). split; [unfold md_code; destruct (existsb (N.eqb 96) t); reflexivity|]. rewrite core_last, K. apply core_last.
Qed.
Notation OT := (only_tags md_tags).
Lemma inl_says : forall i sd r ll, clean_inl sd i r = true -> OT i = true -> md_fine i = true -> quotable (tg_inl i) -> says (dom_tree [] ll (x2d i)) (fun _ => md_inl i).
Proof.
  assert (F : forall l, Forall (fun i => forall sd r ll, clean_inl sd i r = true -> OT i = true -> md_fine i = true -> quotable (tg_inl i) -> says (dom_tree [] ll (x2d i)) (fun _ => md_inl i)) l ->
     forall sd ll, clean_inls sd l = true -> forallb OT l = true -> forallb md_fine l = true -> quotable (flat_map tg_inl l) -> says (flat_map (dom_tree [] ll) (map x2d l)) (fun _ => flat_map md_inl l)).
  { induction 1 as [|x l Hx Hl IH]; intros sd ll C O M Q.
    - intros anc s. exists s. split; reflexivity.
    - cbn [forallb] in O, M. apply andb_true_iff in O as [O1 O2]. apply andb_true_iff in M as [M1 M2]. cbn [clean_inls] in C. apply andb_true_iff in C as [C1 C2]. cbn [flat_map] in Q. apply quotable_app in Q as [Q1 Q2].
      cbn [map flat_map]. apply (says_app _ _ _ _ (fun _ => md_inl x) (fun _ => flat_map md_inl l)); [eapply Hx; eassumption|eapply IH; eassumption|reflexivity]. }
  induction i as [w|e|t a body IH|h body IH|src title alt|] using xinl_ind'; intros sd r ll C O M Q.
  - cbn [x2d dom_tree Spec18.md_inl]. apply (says_leaf _ _ _ m_data); [reflexivity|]. intros anc kids s. unfold m_data. cbn [n_content]. cbn [Spec18.md_fine] in M. apply negb_true_iff in M. rewrite M. reflexivity.
  - cbn [Spec18.md_inl]. apply ref_says; [reflexivity|reflexivity|exact C].
  - rewrite clean_face in C. apply andb_true_iff in C as [C1 C2]. apply andb_true_iff in C1 as [C1 CA]. destruct (face_kind t C1) as (K1 & K2 & K3 & K4). cbn [x2d dom_tree]. rewrite K1, K2, K3, K4. cbn [Spec18.md_inl].
    cbn [only_tags] in O. apply andb_true_iff in O as [O1 O2]. cbn [Spec18.md_fine] in M. apply andb_true_iff in M as [M1 M2]. cbn [tg_inl] in Q. pose proof (F body IH Inner ll C2 O2 M1 Q) as B.
    destruct (str_eqb t ($ "code")) eqn:TC.
    + apply str_eqb_eq in TC. subst t. cbn [negb orb] in M2. rewrite !andb_true_iff, !negb_true_iff in M2. destruct M2 as [[[M2 M3] M4] M5]. apply says_code; assumption.
    + destruct (md_face_tag t O1 TC) as (f & E1 & E2). apply (says_around _ _ t f (fst (md_mark t)) (snd (md_mark t)) _ (fun _ => flat_map md_inl body)); [exact E1|exact (E2 (attr_dict a))|exact B|reflexivity].
  - rewrite clean_link in C. apply andb_true_iff in C as [C1 C2]. cbn [x2d dom_tree]. cbn [Spec18.md_inl]. cbn [tg_inl] in Q.
    apply says_link; [apply Q; left; reflexivity|]. eapply F; [exact IH|exact C2|exact O|exact M|]. intros x I. apply Q. right. exact I.
  - cbn [x2d dom_tree Spec18.md_inl]. apply (says_leaf _ _ _ m_img); [reflexivity|]. intros anc kids s. unfold m_img, img_attrs.
    match goal with |- context [attr_dict ?x] => change (attr_dict x) with x end. unfold attr. cbn [n_attrs].
    match goal with |- context [dict_get ($ "src") ?x] => change (dict_get ($ "src") x) with (Some (VStr src)) end. cbn [bind]. rewrite (Q src (or_introl eq_refl)). cbn [bind].
    match goal with |- context [dict_get ($ "alt") ?x] => change (dict_get ($ "alt") x) with (Some (VStr alt)) end.
    match goal with |- context [dict_get ($ "title") ?x] => change (dict_get ($ "title") x) with (Some (VStr title)) end.
    cbn [attr_true show_attr]. do 2 f_equal. destruct title, alt; reflexivity.
  - cbn [x2d dom_tree Spec18.md_inl]. apply (says_leaf _ _ _ (const_emit [10])); [reflexivity|]. reflexivity.
Qed.
Lemma inls_says : forall l ll, md_clean l = true -> quotable (flat_map tg_inl l) -> says (flat_map (dom_tree [] ll) (map x2d l)) (fun _ => md_inls l).
Proof.
  intros l ll C Q. apply md_clean_parts in C as (C & O & M). revert C O M Q. generalize Edge. induction l as [|x l IH]; intros sd C O M Q.
  - intros anc s. exists s. split; reflexivity.
  - cbn [forallb] in O, M. apply andb_true_iff in O as [O1 O2]. apply andb_true_iff in M as [M1 M2]. cbn [clean_inls] in C. apply andb_true_iff in C as [C1 C2]. cbn [flat_map] in Q. apply quotable_app in Q as [Q1 Q2].
    unfold Spec18.md_inls. cbn [map flat_map]. apply (says_app _ _ _ _ (fun _ => md_inl x) (fun _ => md_inls l)); [eapply inl_says; eassumption|eapply IH; eassumption|reflexivity].
Qed.

(** ** lists *)
Lemma list_meth : forall o, find_meth markdown_methods (xlist_tag o) = Some m_list. Proof. intros []; reflexivity. Qed.
Definition bullet (o : bool) : str := if o then $ "1. " else $ "* ".
Definition indent (k : nat) : str := flat_map (fun _ : unit => $ "  ") (repeat tt k).
Lemma times_indent : forall k, times ($ "  ") (Z.of_nat (S k) - 1) = indent k.
Proof.
  intro k. unfold times. replace (Z.to_nat (Z.of_nat (S k) - 1)) with k by lia. unfold indent. induction k as [|k IH]; [reflexivity|]. cbn [repeat_str repeat flat_map]. rewrite IH. reflexivity.
Qed.
Lemma list_run : forall o k ks cs anc s, (forall s0, exists s', EL (xlist_tag o :: anc) (flat_map (dom_tree [] (Z.of_nat (S k))) ks) s0 = Ok (cs, s') /\ core s' = core s0) ->
  exists s', EL anc (dom_tree [] (Z.of_nat k) (DElem (xlist_tag o) [] ks)) s = Ok (match k with O => [10] ++ cs ++ [10] | S _ => cs end, s') /\ core s' = core s.
Proof.
  intros o k ks cs anc s H. rewrite list_tree. replace (Z.of_nat k + 1)%Z with (Z.of_nat (S k)) by lia. rewrite el_one, (en_run _ _ _ _ _ _ _ _ _ _ (list_meth o)). unfold node_run, m_list, kids_of.
  destruct (H (set_last (xlist_tag o, None) s)) as (s1 & E & K).
  match goal with |- context [emit_list ?x ?y ?z ?w ?ch ?t] => replace (emit_list x y z w ch t) with (Ok (cs, s1)) by (symmetry; exact E) end. cbn [bind n_level].
  eexists. split; [|rewrite core_last, K; apply core_last]. destruct k as [|k]; [reflexivity|].
  assert (G : (2 <= Z.of_nat (S (S k)))%Z) by lia. destruct (Z.of_nat (S (S k))) as [|[p|p|]|p]; try reflexivity; lia.
Qed.
Lemma li_run : forall o k ks c anc s, (forall s0, exists s', EL ($ "li" :: xlist_tag o :: anc) (flat_map (dom_tree [] (Z.of_nat (S k))) ks) s0 = Ok (c, s') /\ core s' = core s0) ->
  exists s', EL (xlist_tag o :: anc) (dom_tree [] (Z.of_nat (S k)) (DElem ($ "li") [] ks)) s = Ok (10 :: indent k ++ bullet o ++ c, s') /\ core s' = core s.
Proof.
  intros o k ks c anc s H. rewrite li_tree, el_one, (en_run _ _ ($ "li") m_li) by reflexivity. unfold node_run, m_li, kids_of, level_of. cbn [n_anc n_level].
  assert (P : (if str_eqb (xlist_tag o) ($ "ul") then Ok ($ "*") else if str_eqb (xlist_tag o) ($ "ol") then Ok ($ "1.") else Exc ENotImplemented) = Ok (if o then $ "1." else $ "*")) by (destruct o; reflexivity).
  match goal with |- context [bind ?x _] => match x with if _ then _ else _ => replace x with (@Ok str (if o then $ "1." else $ "*")) by (symmetry; exact P) end end. cbn [bind].
  destruct (H (set_last ($ "li", None) s)) as (s1 & E & K).
  match goal with |- context [emit_list ?x ?y ?z ?w ?ch ?t] => replace (emit_list x y z w ch t) with (Ok (c, s1)) by (symmetry; exact E) end. cbn [bind].
  eexists. split; [|rewrite core_last, K; apply core_last]. rewrite times_indent. destruct o; reflexivity.
Qed.
Definition item_spec (i : xitem) : Prop := md_item_ok i = true -> quotable (tg_item i) -> forall o k anc s,
  exists s', EL (xlist_tag o :: anc) (dom_tree [] (Z.of_nat (S k)) (i2d i)) s = Ok (nl_lines (md_item k o i), s') /\ core s' = core s.
Lemma items_of : forall l, Forall item_spec l -> forallb md_item_ok l = true -> quotable (flat_map tg_item l) -> forall o k anc s,
  exists s', EL (xlist_tag o :: anc) (flat_map (dom_tree [] (Z.of_nat (S k))) (map i2d l)) s = Ok (nl_lines (flat_map (md_item k o) l), s') /\ core s' = core s.
Proof.
  induction 1 as [|x l Hx Hl IH]; intros C Q o k anc s; [exists s; split; reflexivity|]. cbn [forallb] in C. apply andb_true_iff in C as [C1 C2]. cbn [flat_map] in Q. apply quotable_app in Q as [Q1 Q2]. cbn [map flat_map].
  rewrite el_app. destruct (Hx C1 Q1 o k anc s) as (s1 & E1 & K1). rewrite E1. cbn [bind]. destruct (IH C2 Q2 o k anc s1) as (s2 & E2 & K2). rewrite E2. cbn [bind]. exists s2. rewrite nl_app. split; [reflexivity|congruence].
Qed.
Lemma item_says : forall i, item_spec i.
Proof.
  induction i as [t o' sub IH] using xitem_ind'. intros C Q o k anc s. cbn [Spec18.md_item_ok] in C. apply andb_true_iff in C as [C1 C2]. apply md_text_parts in C1 as [C1 _]. cbn [tg_item] in Q. apply quotable_app in Q as [Q1 Q2].
  cbn [i2d Spec18.md_item].
  edestruct (li_run o k (map x2d t ++ match sub with [] => [] | _ :: _ => [DElem (xlist_tag o') [] (map i2d sub)] end) (md_inls t ++ nl_lines (flat_map (md_item (S k) o') sub)) anc s) as (s1 & E & K).
  { intro s0. rewrite flat_map_app, el_app. destruct (inls_says t (Z.of_nat (S k)) C1 Q1 ($ "li" :: xlist_tag o :: anc) s0) as (s2 & E2 & K2). rewrite E2. cbn [bind].
    destruct sub as [|x sub].
    - cbn [flat_map emit_list bind]. exists s2. split; [cbn [nl_lines flat_map]; reflexivity|exact K2].
    - cbn [flat_map]. rewrite app_nil_r.
      destruct (list_run o' (S k) (map i2d (x :: sub)) (nl_lines (flat_map (md_item (S k) o') (x :: sub))) ($ "li" :: xlist_tag o :: anc) s2) as (s3 & E3 & K3).
      { intro s4. apply (items_of (x :: sub) IH C2 Q2 o' (S k) ($ "li" :: xlist_tag o :: anc) s4). }
      rewrite E3. cbn [bind]. exists s3. split; [reflexivity|congruence]. }
  rewrite E. exists s1. split; [|exact K]. f_equal. f_equal. unfold nl_lines. cbn [flat_map app]. unfold indent, bullet. f_equal. rewrite <- !app_assoc. reflexivity.
Qed.
Lemma items_says : forall l, forallb md_item_ok l = true -> quotable (flat_map tg_item l) -> forall o k anc s,
  exists s', EL (xlist_tag o :: anc) (flat_map (dom_tree [] (Z.of_nat (S k))) (map i2d l)) s = Ok (nl_lines (flat_map (md_item k o) l), s') /\ core s' = core s.
Proof. intros l. apply items_of. apply Forall_forall. intros i _. apply item_says. Qed.

(** ** tables *)
Definition tg_cell (c : bool * list xinl) : list str := flat_map tg_inl (snd c).
Definition craw (c : bool * list xinl) : str := md_inls (snd c).
Lemma cell_run : forall c ll anc s t rs r, md_clean (snd c) = true -> quotable (tg_cell c) -> tbl s = Some t -> rows t = rs ++ [r] -> head_prefix t = [] -> auto_width t = true ->
  exists s' t', EL anc (dom_tree [] ll (c2d c)) s = Ok ([], s') /\ tbl s' = Some t' /\ rows t' = rs ++ [r ++ [craw c]] /\ head_prefix t' = [] /\ auto_width t' = true /\ has_header t' = has_header t || fst c.
Proof.
  intros [h l] ll anc s t rs r C Q T R HP AW. cbn [snd] in C. unfold tg_cell in Q. cbn [snd] in Q. unfold c2d. cbn [fst snd].
  set (k := if h then $ "th" else $ "td").
  assert (TR : dom_tree [] ll (DElem k [] (map x2d l)) = [HN k None [] None (flat_map (dom_tree [] ll) (map x2d l))]) by (destruct h; reflexivity).
  assert (M : find_meth markdown_methods k = Some (m_cell (if h then add_th else add_td))) by (destruct h; reflexivity).
  match goal with |- context [dom_tree [] ll ?x] => change (dom_tree [] ll x) with (dom_tree [] ll (DElem k [] (map x2d l))) end.
  rewrite TR, el_one, (en_run _ _ _ _ _ _ _ _ _ _ M). unfold node_run, m_cell, kids_of.
  destruct (inls_says l ll C Q (k :: anc) (set_last (k, None) s)) as (s1 & E & K).
  match goal with |- context [emit_list ?x ?y ?z ?w ?ch ?t] => replace (emit_list x y z w ch t) with (Ok (md_inls l, s1)) by (symmetry; exact E) end. cbn [bind].
  assert (T1 : tbl s1 = Some t) by (rewrite (core_tbl _ _ K); exact T). rewrite T1. cbn [bind].
  eexists. exists ((if h then add_th else add_td) (md_inls l) t). split; [reflexivity|]. split; [reflexivity|].
  destruct h; unfold craw; cbn [snd]; unfold add_th, add_td; cbn [rows head_prefix auto_width has_header]; rewrite R, append_last_snoc, ?HP, ?orb_true_r, ?orb_false_r; auto 10.
Qed.
Lemma cells_run : forall w ll anc s t rs r, forallb md_cell_ok w = true -> quotable (flat_map tg_cell w) -> tbl s = Some t -> rows t = rs ++ [r] -> head_prefix t = [] -> auto_width t = true ->
  exists s' t', EL anc (flat_map (dom_tree [] ll) (map c2d w)) s = Ok ([], s') /\ tbl s' = Some t' /\ rows t' = rs ++ [r ++ map craw w] /\ head_prefix t' = [] /\ auto_width t' = true /\
    has_header t' = has_header t || existsb fst w.
Proof.
  induction w as [|c w IH]; intros ll anc s t rs r C Q T R HP AW.
  - exists s, t. cbn [map existsb]. rewrite app_nil_r, orb_false_r. repeat split; auto.
  - cbn [forallb] in C. apply andb_true_iff in C as [C1 C2]. cbn [flat_map] in Q. apply quotable_app in Q as [Q1 Q2]. cbn [map flat_map]. rewrite el_app.
    destruct (cell_run c ll anc s t rs r (md_cell_clean c C1) Q1 T R HP AW) as (s1 & t1 & E1 & T1 & R1 & P1 & W1 & H1). rewrite E1. cbn [bind].
    destruct (IH ll anc s1 t1 rs _ C2 Q2 T1 R1 P1 W1) as (s2 & t2 & E2 & T2 & R2 & P2 & W2 & H2). rewrite E2. cbn [bind app existsb].
    exists s2, t2. rewrite <- app_assoc in R2. rewrite orb_assoc, <- H1. repeat split; auto.
Qed.
Lemma rows_run : forall ws ll anc s t, forallb (forallb md_cell_ok) ws = true -> quotable (flat_map (flat_map tg_cell) ws) -> tbl s = Some t -> head_prefix t = [] -> auto_width t = true ->
  exists s' t', EL anc (flat_map (dom_tree [] ll) (map (fun r => DElem ($ "tr") [] (map c2d r)) ws)) s = Ok ([], s') /\ tbl s' = Some t' /\
    rows t' = rows t ++ map (map craw) ws /\ head_prefix t' = [] /\ auto_width t' = true /\ has_header t' = has_header t || existsb (existsb fst) ws.
Proof.
  induction ws as [|w ws IH]; intros ll anc s t C Q T HP AW.
  - exists s, t. cbn [map existsb]. rewrite app_nil_r, orb_false_r. repeat split; auto.
  - cbn [forallb] in C. apply andb_true_iff in C as [C1 C2]. cbn [flat_map] in Q. apply quotable_app in Q as [Q1 Q2]. cbn [map flat_map].
    change (dom_tree [] ll (DElem ($ "tr") [] (map c2d w))) with [HN ($ "tr") None [] None (flat_map (dom_tree [] ll) (map c2d w))].
    rewrite el_app, el_one, (en_run _ _ ($ "tr") tr_emit) by reflexivity. unfold node_run, tr_emit at 1. rewrite T. unfold kids_of.
    destruct (cells_run w ll ($ "tr" :: anc) (set_last ($ "tr", None) (set_tbl (add_tr t) s)) (add_tr t) (rows t) [] C1 Q1 eq_refl eq_refl HP AW) as (s1 & t1 & E1 & T1 & R1 & P1 & W1 & H1).
    match goal with |- context [emit_list ?x ?y ?z ?k ?ch ?t] => replace (emit_list x y z k ch t) with (Ok (@nil N, s1)) by (symmetry; exact E1) end. cbn [bind].
    destruct (IH ll anc (set_last ($ "tr", None) s1) t1 C2 Q2 T1 P1 W1) as (s2 & t2 & E2 & T2 & R2 & P2 & W2 & H2). match goal with |- context [emit_list ?x ?y ?z ?k ?ch ?t] => replace (emit_list x y z k ch t) with (Ok (@nil N, s2)) by (symmetry; exact E2) end. cbn [bind app existsb].
    exists s2, t2. rewrite R1, <- app_assoc in R2. rewrite H1 in H2. cbn [add_tr has_header] in H2. rewrite orb_assoc. repeat split; auto.
Qed.
End Emission.

(** the text of a cell *)
Lemma fmt_ok : forall c, md_cell_ok c = true -> fmt_cell [] (craw c) = md_cell c.
Proof.
  intros [h l] C. unfold craw, Spec18.md_cell. cbn [snd]. unfold Spec18.md_cell_ok in C. cbn [fst snd] in C. apply andb_true_iff in C as [_ C]. apply orb_true_iff in C as [C|C].
  - destruct (md_inls l); [reflexivity|discriminate C].
  - apply andb_true_iff in C as [C _]. unfold fmt_cell. rewrite (strip_solid _ C). destruct (md_inls l); [reflexivity|]. reflexivity.
Qed.
Lemma rect : forall ws, md_block_ok (XTable ws) = true -> exists r ws', ws = r :: ws' /\ r <> [] /\ forall w, In w ws -> List.length w = List.length r.
Proof.
  intros [|r ws] C; [discriminate C|]. cbn [Spec18.md_block_ok] in C. apply andb_true_iff in C as [C1 C2]. exists r, ws. split; [reflexivity|]. split; [destruct r; discriminate|].
  intros w I. rewrite forallb_forall in C2. specialize (C2 w I). apply andb_true_iff in C2 as [C2 _]. apply Nat.eqb_eq. exact C2.
Qed.
Lemma rule_line : forall cells n j, md_sep (map (col_width cells) (seq j (S n))) = md_rule cells j (S n).
Proof.
  intros cells n. unfold md_sep. induction n as [|n IH]; intro j.
  - cbn [seq map join md_rule]. rewrite <- ?app_assoc. reflexivity.
  - change (md_rule cells j (S (S n))) with ($ "| " ++ repeat 45 (col_width cells j - 2) ++ $ " " ++ md_rule cells (S j) (S n)). rewrite <- IH.
    change (seq j (S (S n))) with (j :: seq (S j) (S n)). cbn [map]. rewrite (join_cons ($ " | ")) by discriminate. rewrite <- !app_assoc. reflexivity.
Qed.
Lemma lines_plain : forall ws cells k, md_lines false k ws cells = map (table_line ws) cells.
Proof. intros ws cells. induction cells as [|r cells IH]; intro k; [reflexivity|]. cbn [md_lines map]. rewrite andb_false_r, IH. reflexivity. Qed.
Lemma lines_later : forall ws cells k, (2 <= k)%nat -> md_lines true k ws cells = map (table_line ws) cells.
Proof. intros ws cells. induction cells as [|r cells IH]; intros k H; [reflexivity|]. cbn [md_lines map]. destruct (Nat.eqb_spec k 1); [lia|]. cbn [andb app]. rewrite IH by lia. reflexivity. Qed.
Lemma lines_head : forall W cells, md_lines true 0 W cells = match map (table_line W) cells with a :: b :: c => a :: md_sep W :: b :: c | l => l end.
Proof. intros W [|x [|y cells]]; [reflexivity|reflexivity|]. cbn [md_lines map]. rewrite lines_later by apply Nat.le_refl. reflexivity. Qed.
Lemma table_text : forall ws t, md_block_ok (XTable ws) = true -> rows t = map (map craw) ws -> head_prefix t = [] -> has_header t = existsb (existsb fst) ws -> get_markdown_table t = md_block (XTable ws).
Proof.
  intros ws t C R HP HH. unfold get_markdown_table, preformat. rewrite R, HP, HH. cbn [Spec18.md_block]. rewrite x_lines_join. destruct (rect ws C) as (r & ws' & EW & NE & L). pose proof (md_rows_ok ws C) as RO.
  assert (MR : map (map (fmt_cell [])) (map (map craw) ws) = map (map md_cell) ws).
  { rewrite map_map. apply map_ext_in. intros w Iw. rewrite forallb_forall in RO. specialize (RO w Iw). rewrite map_map. apply map_ext_in. intros c Ic. rewrite forallb_forall in RO. apply fmt_ok. apply RO. exact Ic. }
  rewrite MR. set (cells := map (map md_cell) ws).
  assert (NC : cells <> []) by (unfold cells; rewrite EW; discriminate).
  assert (LC : forall x, In x cells -> List.length x = List.length r) by (intros x I; apply in_map_iff in I as (w & <- & I); rewrite map_length; apply L; exact I).
  rewrite (widths_eq cells (List.length r) NC LC).
  assert (LN : map (table_line (map (col_width cells) (seq 0 (List.length r)))) cells = map (pad_row cells 0) cells).
  { apply map_ext_in. intros x I. rewrite <- (LC x I). apply pad_line. intros ->. apply LC in I. destruct r; [congruence|discriminate I]. }
  f_equal. unfold md_table. fold cells. rewrite EW at 2. cbv zeta.
  destruct (existsb (existsb fst) ws) eqn:HD.
  - rewrite lines_head, LN. destruct (map (pad_row cells 0) cells) as [|a [|b c]]; try reflexivity. destruct r as [|c0 r0]; [congruence|]. cbn [List.length]. rewrite rule_line. reflexivity.
  - rewrite lines_plain, LN. destruct (map (pad_row cells 0) cells) as [|a [|b c]]; reflexivity.
Qed.

(** ** blocks *)
Definition ends (x : str) : bool := match rev x with c :: _ => negb (is_space c) | [] => false end.
Lemma item_lines : forall i k o, md_item_ok i = true -> forallb ends (md_item k o i) = true /\ md_item k o i <> [].
Proof.
  induction i as [t o sub IH] using xitem_ind'. intros k o' C. cbn [Spec18.md_item_ok] in C. apply andb_true_iff in C as [C1 C2]. apply md_text_parts in C1 as [_ C1].
  cbn [Spec18.md_item]. split; [|discriminate]. cbn [forallb]. apply andb_true_iff. split.
  - apply solid_ends in C1 as (c & r & d & r' & E1 & S1 & E2 & S2). rewrite E2. unfold ends. rewrite !rev_app_distr. cbn [rev app]. rewrite S2. reflexivity.
  - induction IH as [|x sub Hx Hs IHs]; [reflexivity|]. cbn [forallb flat_map] in *. apply andb_true_iff in C2 as [C2 C3]. rewrite forallb_app. destruct (Hx (S k) o C2) as [-> _]. apply IHs. exact C3.
Qed.
Lemma items_lines : forall l k o, forallb md_item_ok l = true -> forallb ends (flat_map (md_item k o) l) = true.
Proof.
  induction l as [|x l IH]; intros k o C; [reflexivity|]. cbn [forallb flat_map] in *. apply andb_true_iff in C as [C1 C2]. rewrite forallb_app. destruct (item_lines x k o C1) as [-> _]. apply IH. exact C2.
Qed.
Lemma join_end : forall l : list str, forallb ends l = true -> l <> [] -> exists d r', join [10] l = r' ++ [d] /\ is_space d = false.
Proof.
  induction l as [|x l IH]; intros H NE; [congruence|]. cbn [forallb] in H. apply andb_true_iff in H as [H1 H2]. destruct l as [|y l].
  - cbn [join]. unfold ends in H1. destruct (rev x) as [|d r'] eqn:E; [discriminate H1|]. apply negb_true_iff in H1. exists d, (rev r'). split; [rewrite <- (rev_involutive x), E; reflexivity|exact H1].
  - destruct (IH H2) as (d & r' & E & S1); [discriminate|]. rewrite join_cons by discriminate. exists d, (x ++ [10] ++ r'). rewrite E, <- !app_assoc. auto.
Qed.
Lemma rule_solid : forall cells n j, exists y, md_rule cells j n = 124 :: y /\ exists z, md_rule cells j n = z ++ [124].
Proof.
  intros cells n. induction n as [|n IH]; intro j; [exists []; split; [reflexivity|exists []; reflexivity]|]. destruct (IH (S j)) as (y & E1 & z & E2). cbn [md_rule].
  eexists. split; [reflexivity|]. rewrite E2. exists ($ "| " ++ repeat 45 (col_width cells j - 2) ++ $ " " ++ z). rewrite <- !app_assoc. reflexivity.
Qed.
Lemma block_solid : forall b, md_block_ok b = true -> solid (md_block b) = true.
Proof.
  intros b C. destruct b as [l|n l| |o items|ws].
  - apply md_text_parts in C. apply C.
  - cbn [Spec18.md_block_ok] in C. apply andb_true_iff in C as [C0 C]. apply andb_true_iff in C0 as [L1 L2]. apply Nat.leb_le in L1. apply md_text_parts in C as [_ C].
    destruct n as [|n]; [lia|]. apply solid_ends in C as (c & r & d & r' & E1 & S1 & E2 & S2). cbn [Spec18.md_block repeat app].
    eapply (solid_intro _ 35 (repeat 35 n ++ $ " " ++ md_inls l) d (35 :: repeat 35 n ++ $ " " ++ r')); [reflexivity|reflexivity|rewrite E2; cbn [app]; rewrite <- !app_assoc; reflexivity|exact S2].
  - reflexivity.
  - cbn [Spec18.md_block_ok] in C. apply andb_true_iff in C as [NE C]. cbn [Spec18.md_block]. rewrite x_lines_join.
    pose proof (items_lines items 0 o C) as IL. destruct items as [|[t o' sub] items]; [discriminate NE|].
    destruct (join_end (flat_map (md_item 0 o) (XI t o' sub :: items)) IL) as (d & r' & E & SP); [cbn [flat_map Spec18.md_item app]; discriminate|].
    assert (H : exists c r, join [10] (flat_map (md_item 0 o) (XI t o' sub :: items)) = c :: r /\ is_space c = false).
    { cbn [flat_map Spec18.md_item app repeat]. match goal with |- context [join [10] (?x :: ?y)] => destruct y as [|y1 y2]; [cbn [join]|rewrite join_cons by discriminate] end; destruct o; cbn [L app]; eexists; eexists; split; reflexivity. }
    destruct H as (c & r & E1 & S1). eapply solid_intro; eassumption.
  - destruct (rect ws C) as (r & ws' & EW & _). cbn [Spec18.md_block]. rewrite x_lines_join. apply join_solid.
    + assert (PS : forallb solid (map (pad_row (map (map md_cell) ws) 0) (map (map md_cell) ws)) = true) by (rewrite forallb_forall; intros x I; apply in_map_iff in I as (w & <- & I); apply pad_solid).
      unfold md_table. rewrite EW at 1. cbv zeta. destruct (map (pad_row (map (map md_cell) ws) 0) (map (map md_cell) ws)) as [|a [|b c]]; try exact PS. destruct (existsb (existsb fst) ws); [|exact PS].
      cbn [forallb] in *. apply andb_true_iff in PS as [-> PS]. apply andb_true_iff in PS as [-> PS]. rewrite PS. cbn [andb]. rewrite andb_true_r.
      destruct (rule_solid (map (map md_cell) ws) (List.length r) 0) as (y & E1 & z & E2). eapply solid_intro; [exact E1|reflexivity|exact E2|reflexivity].
    + unfold md_table. rewrite EW. cbn [map]. destruct (map (pad_row _ 0) (map (map md_cell) ws')) as [|a b]; [discriminate|]. destruct (existsb _ _); discriminate.
Qed.
Definition bpre (b : xblock) : str := match b with XList _ _ => [10; 10] | _ => [10] end.
Fixpoint rawd (d : list xblock) : str := match d with [] => [] | b :: r => bpre b ++ md_block b ++ [10] ++ rawd r end.

Section Blocks.
Variable u : unknown.
Local Notation EL := (emit_list markdown_methods u no_pre).
Lemma times_hash : forall n, times [35] (Z.of_nat n) = repeat 35 n.
Proof. intro n. unfold times. rewrite Nat2Z.id. induction n as [|n IH]; [reflexivity|]. cbn [repeat_str repeat app]. rewrite IH. reflexivity. Qed.
Lemma block_run : forall b anc s, md_block_ok b = true -> quotable (tg_block b) -> exists s', EL anc (dom_tree [] 0 (b2d b)) s = Ok (bpre b ++ md_block b ++ [10], s').
Proof.
  intros b anc s C Q. destruct b as [l|n l| |o items|ws]; cbn [b2d bpre app].
  - cbn [Spec18.md_block_ok tg_block] in *. apply md_text_parts in C as [C _].
    change (dom_tree [] 0 (DElem ($ "p") [] (map x2d l))) with [HN ($ "p") None [] None (flat_map (dom_tree [] 0) (map x2d l))].
    rewrite el_one, (en_run u markdown_methods ($ "p") m_p) by reflexivity. unfold node_run, m_p, kids_of.
    destruct (inls_says u l 0%Z C Q ($ "p" :: anc) (set_last ($ "p", None) s)) as (s1 & E & K).
    match goal with |- context [emit_list ?x ?y ?z ?k ?ch ?t] => replace (emit_list x y z k ch t) with (Ok (md_inls l, s1)) by (symmetry; exact E) end. cbn [bind].
    eexists. reflexivity.
  - cbn [Spec18.md_block_ok tg_block] in *. apply andb_true_iff in C as [C0 C]. apply andb_true_iff in C0 as [L1 L2]. apply Nat.leb_le in L1, L2. apply md_text_parts in C as [C _].
    pose proof (head_tree n (map x2d l) (conj L1 L2)) as HT.
    match goal with |- context [dom_tree [] 0 ?x] => replace (dom_tree [] 0 x) with [HN ($ "headline") None [] (Some (Z.of_nat n)) (flat_map (dom_tree [] 0) (map x2d l))] by (symmetry; exact HT) end.
    rewrite el_one, (en_run u markdown_methods ($ "headline") m_headline) by reflexivity. unfold node_run, m_headline, kids_of, level_of. cbn [n_level bind].
    destruct (inls_says u l 0%Z C Q ($ "headline" :: anc) (set_last ($ "headline", None) s)) as (s1 & E & K).
    match goal with |- context [emit_list ?x ?y ?z ?k ?ch ?t] => replace (emit_list x y z k ch t) with (Ok (md_inls l, s1)) by (symmetry; exact E) end. cbn [bind].
    rewrite times_hash. eexists. cbn [Spec18.md_block]. rewrite <- !app_assoc. reflexivity.
  - change (dom_tree [] 0 (DSelf ($ "hr") [])) with [HN ($ "hr") None [] None []].
    rewrite el_one, (en_run u markdown_methods ($ "hr") (const_emit ([10] ++ $ "----" ++ [10]))) by reflexivity. unfold node_run, const_emit, ret. cbn [bind].
    eexists. reflexivity.
  - cbn [Spec18.md_block_ok tg_block] in *. apply andb_true_iff in C as [NE C].
    destruct (list_run u o 0%nat (map i2d items) (nl_lines (flat_map (md_item 0 o) items)) anc s) as (s1 & E & K).
    { intro s4. apply (items_says u items C Q o 0%nat anc s4). }
    assert (NN : flat_map (md_item 0 o) items <> []) by (destruct items as [|[t o' sub] items]; [discriminate NE|]; cbn [flat_map Spec18.md_item app]; discriminate).
    change (Z.of_nat 0) with 0%Z in E. rewrite E. exists s1. rewrite nl_x_lines by exact NN. reflexivity.
  - change (dom_tree [] 0 (DElem ($ "table") [] ?x)) with [HN ($ "table") None [] None (flat_map (dom_tree [] 0) x)].
    rewrite el_one, (en_run u markdown_methods ($ "table") m_table) by reflexivity. unfold node_run, m_table, kids_of.
    destruct (rows_run u ws 0%Z ($ "table" :: anc) (set_last ($ "table", None) (set_tbl (new_table [] true) s)) (new_table [] true) (md_rows_ok ws C) Q eq_refl eq_refl eq_refl)
      as (s1 & t1 & E & T1 & R1 & P1 & W1 & H1).
    match goal with |- context [emit_list ?x ?y ?z ?k ?ch ?t] => replace (emit_list x y z k ch t) with (Ok (@nil N, s1)) by (symmetry; exact E) end. cbn [bind].
    unfold the_table. rewrite T1, (table_text ws t1 C R1 P1 H1). eexists. reflexivity.
Qed.
Lemma blocks_run : forall d anc s, md_doc_ok d = true -> quotable (targets d) -> exists s', EL anc (flat_map (dom_tree [] 0) (map b2d d)) s = Ok (rawd d, s').
Proof.
  induction d as [|b d IH]; intros anc s C Q; [exists s; reflexivity|]. unfold Spec18.md_doc_ok in *. cbn [forallb] in C. apply andb_true_iff in C as [C1 C2]. unfold targets in Q. cbn [flat_map] in Q. apply quotable_app in Q as [Q1 Q2].
  cbn [map flat_map]. rewrite el_app.
  destruct (block_run b anc s C1 Q1) as (s1 & E1). rewrite E1. cbn [bind]. destruct (IH anc s1 C2 Q2) as (s2 & E2). rewrite E2. cbn [bind rawd].
  exists s2. rewrite <- !app_assoc. reflexivity.
Qed.
End Blocks.

Lemma raw_doc : forall r b, rawd (b :: r) = bpre b ++ md_doc (b :: r) ++ [10].
Proof.
  induction r as [|c r IH]; intro b; [cbn [rawd Spec18.md_doc app]; rewrite !app_nil_r; reflexivity|].
  change (rawd (b :: c :: r)) with (bpre b ++ md_block b ++ [10] ++ rawd (c :: r)). rewrite IH.
  change (md_doc (b :: c :: r)) with (md_block b ++ md_gap c ++ md_doc (c :: r)).
  assert (G : md_gap c = [10] ++ bpre c) by (destruct c; reflexivity). rewrite G. rewrite <- !app_assoc. reflexivity.
Qed.
Lemma doc_solid : forall d, md_doc_ok d = true -> d <> [] -> solid (md_doc d) = true.
Proof.
  induction d as [|b d IH]; intros C NE; [congruence|]. unfold Spec18.md_doc_ok in *. cbn [forallb] in C. apply andb_true_iff in C as [C1 C2]. apply block_solid in C1.
  destruct d as [|c d]; [cbn [Spec18.md_doc app]; rewrite !app_nil_r; exact C1|].
  change (md_doc (b :: c :: d)) with (md_block b ++ md_gap c ++ md_doc (c :: d)). specialize (IH C2). pose proof (IH ltac:(discriminate)) as S2.
  apply solid_ends in C1 as (c1 & r1 & d1 & r1' & E1 & K1 & E2 & K2). apply solid_ends in S2 as (c2 & r2 & d2 & r2' & F1 & L1 & F2 & L2).
  eapply (solid_intro _ c1 (r1 ++ md_gap c ++ md_doc (c :: d)) d2 (md_block b ++ md_gap c ++ r2')); [rewrite E1; reflexivity|exact K1|rewrite F2, <- !app_assoc; reflexivity|exact L2].
Qed.
Lemma clean_markdown_q : forall u d html, md_doc_ok d = true -> quotable (targets d) -> written d html -> html2markdown u html = Ok (md_doc d).
Proof.
  intros u d html C Q W. unfold html2markdown. rewrite (clean_tree d html (md_doc_shape d C) W). cbn [bind]. unfold emit_markdown.
  rewrite (en_run u markdown_methods ($ "document") document_emit) by reflexivity. unfold node_run, document_emit, kids_of.
  destruct (blocks_run u d [$ "document"] (set_last ($ "document", None) e_init) C Q) as (s1 & E).
  match goal with |- context [emit_list ?x ?y ?z ?k ?ch ?t] => replace (emit_list x y z k ch t) with (Ok (rawd d, s1)) by (symmetry; exact E) end. cbn [bind].
  destruct d as [|b d]; [reflexivity|]. f_equal. rewrite raw_doc.
  assert (SO : solid (md_doc (b :: d)) = true) by (apply doc_solid; [exact C|discriminate]).
  apply solid_ends in SO as (c1 & r1 & d1 & r1' & E1 & K1 & E2 & K2).
  apply strip_around; [destruct b; reflexivity|reflexivity|exists c1, r1; auto|exists d1, r1'; auto].
Qed.
End Urls.

Lemma addresses_quotable : forall url d, addresses url d -> quotable url (targets d).
Proof. intros url d A h I. destruct (A h I) as (a & Oa & -> & ->). apply quote_addr. exact Oa. Qed.
Theorem clean_markdown : forall url u d html, md_doc_ok url d = true -> addresses url d -> written d html -> html2markdown u html = Ok (md_doc url d).
Proof. intros url u d html C A W. apply clean_markdown_q; [exact C|apply addresses_quotable; exact A|exact W]. Qed.

(** ** one address *)
Lemma no_nl : forall no s, all_but (no ++ breaks) s = true -> one_line s = true.
Proof.
  intros no s. unfold all_but, one_line. apply forallb_impl. intros c H. apply negb_true_iff in H. apply negb_true_iff. rewrite existsb_app in H. apply orb_false_iff in H as [_ H]. unfold breaks in H. cbn [existsb] in H.
  apply orb_false_iff in H as [_ H]. apply orb_false_iff in H as [H _]. exact H.
Qed.
Lemma one_line_app : forall a b, one_line (a ++ b) = one_line a && one_line b.
Proof. intros a b. apply forallb_app. Qed.
Lemma addr_line : forall a, addr_ok a = true -> one_line (show_addr a) = true.
Proof.
  intros [sc ho p q f] H. unfold addr_ok in H. cbn [a_scheme a_host a_path a_query a_fragment] in H.
  apply andb_true_iff in H as [H HH]. apply andb_true_iff in H as [H HS]. apply andb_true_iff in H as [H HF]. apply andb_true_iff in H as [H HQ]. apply andb_true_iff in H as [HC HP].
  unfold show_addr. cbn [a_scheme a_host a_path a_query a_fragment]. rewrite !one_line_app. repeat (apply andb_true_iff; split).
  - destruct sc as [s|]; [|reflexivity]. cbn [opt_part]. rewrite one_line_app, andb_true_r. unfold scheme_ok in HS. apply andb_true_iff in HS as [_ HS]. revert HS. apply forallb_impl. intros c Hc.
    apply negb_true_iff. destruct (N.eqb_spec c 10) as [E|]; [subst c; discriminate Hc|reflexivity].
  - destruct ho as [h|]; [|reflexivity]. cbn [opt_part]. rewrite one_line_app. cbn [andb]. apply andb_true_iff in HH as [HH _]. unfold host_ok in HH. apply andb_true_iff in HH as [HH _]. apply andb_true_iff in HH as [_ HH].
    rewrite andb_true_iff. split; [reflexivity|]. revert HH. apply forallb_impl. intros c Hc. apply negb_true_iff. destruct (N.eqb_spec c 10) as [E|]; [subst c; discriminate Hc|reflexivity].
  - exact (no_nl _ _ HP).
  - destruct q as [q|]; [|reflexivity]. cbn [opt_part part_ok] in *. apply andb_true_iff in HQ as [_ HQ]. rewrite one_line_app, (no_nl _ _ HQ). reflexivity.
  - destruct f as [f|]; [|reflexivity]. cbn [opt_part part_ok] in *. apply andb_true_iff in HF as [_ HF]. rewrite one_line_app, (no_nl _ _ HF). reflexivity.
Qed.
Lemma address_link : forall u a w html, addr_ok a = true -> clean_inls Inner [XText w] = true -> w <> $ " " ->
  written [XPara [XLink (show_addr a) [XText w]]] html -> html2markdown u html = Ok ($ "[" ++ w ++ $ "](" ++ show_addr (quoted a) ++ $ ")").
Proof.
  intros u a w html A C NW W. rewrite (clean_markdown (fun _ => show_addr (quoted a)) u [XPara [XLink (show_addr a) [XText w]]] html).
  - unfold md_doc, md_block, md_inls. cbn [flat_map md_inl app]. rewrite !app_nil_r. reflexivity.
  - unfold md_doc_ok. cbn [forallb md_block_ok]. rewrite andb_true_r. unfold md_text_ok, md_clean. cbn [forallb only_tags md_fine clean_inls]. rewrite clean_link, C, (addr_line a A). cbn [andb].
    destruct (str_eqb w [32]) eqn:E; [apply str_eqb_eq in E; congruence|]. cbn [negb andb].
    unfold md_inls. cbn [flat_map md_inl]. rewrite !app_nil_r.
    eapply (solid_intro _ 91 (w ++ $ "](" ++ show_addr (quoted a) ++ $ ")") 41 ($ "[" ++ w ++ $ "](" ++ show_addr (quoted a))); [reflexivity|reflexivity|rewrite <- !app_assoc; reflexivity|reflexivity].
  - intros h I. cbn in I. destruct I as [<-|[]]. exists a. auto.
  - exact W.
Qed.
