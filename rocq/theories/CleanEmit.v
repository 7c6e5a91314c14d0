(** * What html2creole makes of the clean documents of Spec11.v *)
From Coq Require Import String List Arith NArith ZArith Bool Lia.
From Verif Require Import PyStr PyStrFacts Utils Res Entities HtmlTools HtmlToolsFacts HtmlTok HtmlParser MarkupTable TableFacts HtmlBase Html2X EmitFacts.
From Verif Require Import Spec2 TreeFacts Spec10 StripRun Spec11 CleanRun CleanDoc Spec24.
Import ListNotations.
Open Scope N_scope.

(** ** the conditions *)
Lemma forallb_impl : forall (A : Type) (p q : A -> bool) l, (forall x, p x = true -> q x = true) -> forallb p l = true -> forallb q l = true.
Proof. intros A p q l H. rewrite !forallb_forall. intros F x I. apply H. apply F. exact I. Qed.
Lemma face_kind : forall t, inline_tag t = true ->
  str_eqb t ($ "tbody") = false /\ is_heading t = false /\ is_list t = false /\ str_eqb t ($ "li") = false.
Proof.
  intros t H. destruct (inline_parts t H) as (_ & H2 & H3 & H4). split; [apply H4; cbn; tauto|]. split; [exact H2|]. unfold is_list.
  rewrite (not_named _ t ($ "ul") H3 eq_refl), (not_named _ t ($ "ol") H3 eq_refl), (not_named _ t ($ "li") H3 eq_refl). split; reflexivity.
Qed.
(** the text of a cell *)
Lemma join_row : forall s : str, join [92; 92] (split_on 10 s) = one_row s.
Proof.
  induction s as [|c s IH]; [reflexivity|]. cbn [split_on]. pose proof (split_on_nonempty 10 s) as NE. destruct (c =? 10) eqn:E.
  - rewrite join_cons by exact NE. rewrite IH. cbn [app]. unfold one_row. cbn [flat_map]. rewrite E. reflexivity.
  - destruct (split_on 10 s) as [|x r]; [congruence|]. unfold one_row in *. cbn [flat_map]. rewrite E. cbn [app].
    destruct r as [|y r]; [cbn [join] in *; rewrite IH; reflexivity|]. rewrite (join_cons _ (c :: x)) by discriminate. rewrite (join_cons _ x) in IH by discriminate. cbn [app] in *. rewrite IH. reflexivity.
Qed.
Lemma solid_ends : forall t : str, solid t = true -> exists c r d r', t = c :: r /\ is_space c = false /\ t = r' ++ [d] /\ is_space d = false.
Proof.
  intros t H. unfold solid in H. apply andb_true_iff in H as [H1 H2]. destruct t as [|c r]; [discriminate H1|]. apply negb_true_iff in H1.
  destruct (rev (c :: r)) as [|d r'] eqn:E; [discriminate H2|]. apply negb_true_iff in H2. exists c, r, d, (rev r'). repeat split; auto.
  rewrite <- (rev_involutive (c :: r)), E. reflexivity.
Qed.
Lemma strip_solid : forall t : str, solid t = true -> strip t = t.
Proof.
  intros t H. apply solid_ends in H as (c & r & d & r' & E1 & H1 & E2 & H2). pose proof (strip_around [] t [] eq_refl eq_refl) as S. cbn [app] in S. rewrite app_nil_r in S.
  apply S; [exists c, r; auto|exists d, r'; auto].
Qed.
Lemma solid_intro : forall (t : str) (c : N) (r : str) (d : N) (r' : str), t = c :: r -> is_space c = false -> t = r' ++ [d] -> is_space d = false -> solid t = true.
Proof.
  intros t c r d r' E1 H1 E2 H2. unfold solid. assert (E3 : rev t = d :: rev r') by (rewrite E2, rev_app_distr; reflexivity). rewrite E3. rewrite E1. rewrite H1, H2. reflexivity.
Qed.
Lemma join_solid : forall l : list str, forallb solid l = true -> l <> [] -> solid (join [10] l) = true.
Proof.
  assert (K : forall l : list str, forallb solid l = true -> l <> [] -> exists c r d r', join [10] l = c :: r /\ is_space c = false /\ join [10] l = r' ++ [d] /\ is_space d = false).
  { induction l as [|x l IH]; intros H NE; [congruence|]. cbn [forallb] in H. apply andb_true_iff in H as [H1 H2]. apply solid_ends in H1 as (c & r & d & r' & E1 & S1 & E2 & S2).
    destruct l as [|y l]; [cbn [join]; exists c, r, d, r'; auto|]. destruct (IH H2) as (c2 & r2 & d2 & r2' & E3 & S3 & E4 & S4); [discriminate|].
    rewrite join_cons by discriminate. exists c, (r ++ [10] ++ join [10] (y :: l)), d2, (x ++ [10] ++ r2'). split; [rewrite E1; reflexivity|]. split; [exact S1|].
    split; [rewrite E4, <- !app_assoc; reflexivity|exact S4]. }
  intros l H NE. destruct (K l H NE) as (c & r & d & r' & E1 & S1 & E2 & S2). eapply solid_intro; eassumption.
Qed.
Lemma join_split : forall t : str, join [10] (split_on 10 t) = t.
Proof.
  induction t as [|c t IH]; [reflexivity|]. cbn [split_on]. pose proof (split_on_nonempty 10 t). destruct (c =? 10) eqn:E.
  - rewrite join_cons by assumption. rewrite IH. apply N.eqb_eq in E. subst c. reflexivity.
  - destruct (split_on 10 t) as [|x r]; [congruence|]. destruct r as [|y r]; [cbn [join] in *; rewrite IH; reflexivity|]. rewrite (join_cons _ (c :: x)) by discriminate.
    rewrite (join_cons _ x) in IH by discriminate. cbn [app] in *. rewrite IH. reflexivity.
Qed.
Lemma lines_solid : forall t : str, forallb solid (split_on 10 t) = true -> solid t = true.
Proof. intros t H. rewrite <- (join_split t). apply join_solid; [exact H|apply split_on_nonempty]. Qed.
Lemma escaped : forall t : str, forallb solid (split_on 10 t) = true -> startswith [92] t = false -> endswith [92] t = false -> escape_linebreaks t = one_row t.
Proof.
  intros t H S1 S2. unfold escape_linebreaks. rewrite (strip_solid t) by (apply lines_solid; exact H).
  assert (E : filter truthy (map strip (split_on 10 t)) = split_on 10 t).
  { revert H. generalize (split_on 10 t). induction l as [|x l IH]; intro H; [reflexivity|]. cbn [forallb] in H. apply andb_true_iff in H as [H1 H2]. cbn [map filter].
    rewrite (strip_solid x H1), (IH H2). destruct x as [|c x]; [discriminate H1|reflexivity]. }
  rewrite E, join_row. apply lines_solid, solid_ends in H as (c & r & d & r' & E1 & K1 & E2 & K2).
  assert (N1 : c <> 10) by (intros ->; discriminate). assert (N2 : d <> 10) by (intros ->; discriminate).
  assert (A1 : exists x, one_row t = c :: x). { rewrite E1. unfold one_row. cbn [flat_map]. apply N.eqb_neq in N1. rewrite N1. eexists. reflexivity. }
  assert (A2 : exists y, one_row t = y ++ [d]). { rewrite E2. unfold one_row. rewrite flat_map_app. cbn [flat_map]. apply N.eqb_neq in N2. rewrite N2. eexists. reflexivity. }
  assert (C1 : existsb (N.eqb c) [92] = false).
  { rewrite E1 in S1. cbn [startswith] in S1. rewrite andb_true_r in S1. cbn [existsb]. rewrite orb_false_r, N.eqb_sym. exact S1. }
  assert (C2 : existsb (N.eqb d) [92] = false).
  { unfold endswith in S2. rewrite E2, rev_app_distr in S2. cbn [rev app startswith] in S2. rewrite andb_true_r in S2. cbn [existsb]. rewrite orb_false_r, N.eqb_sym. exact S2. }
  destruct A1 as (x & A1). destruct A2 as (y & A2). unfold strip_chars, strip_by, lstrip_by.
  assert (D : drop_while (fun c0 : char => existsb (N.eqb c0) [92]) (one_row t) = one_row t) by (rewrite A1; cbn [drop_while]; rewrite C1; reflexivity).
  etransitivity; [exact (f_equal _ D)|]. rewrite A2. apply rstrip_keep. exact C2.
Qed.

Section Masks.
Variable wu : str -> attrs -> str -> str.
Variable fi : str -> attrs -> str -> bool.
Local Notation cre_inl := (w_inl wu).
Local Notation cre_inls := (w_inls wu).
Local Notation cre_item := (w_item wu).
Local Notation cre_cell := (w_cell wu).
Local Notation cre_block := (w_block wu).
Local Notation cre_doc := (w_doc wu).
Local Notation text_ok := (w_text_ok wu fi).
Local Notation xitem_ok := (w_item_ok wu fi).
Local Notation xcell_ok := (w_cell_ok wu fi).
Local Notation xblock_ok := (w_block_ok wu fi).
Local Notation xdoc_ok := (w_doc_ok wu fi).
Local Notation OT := (w_fine wu fi).
Lemma item_shape : forall i, xitem_ok i = true -> shape_item i = true.
Proof.
  induction i as [t o sub IH] using xitem_ind'. cbn [w_item_ok shape_item]. intro C. apply andb_true_iff in C as [C1 C2]. unfold w_text_ok in C1. rewrite !andb_true_iff in C1. destruct C1 as [[-> _] _].
  cbn [andb]. induction IH as [|x l Hx Hl IHl]; [reflexivity|]. cbn [forallb] in *. apply andb_true_iff in C2 as [C2 C3]. rewrite (Hx C2). apply IHl. exact C3.
Qed.
Lemma rows_ok : forall rows, xblock_ok (XTable rows) = true -> forallb (forallb xcell_ok) rows = true.
Proof.
  intros rows C. cbn [w_block_ok] in C. destruct rows as [|r0 rows]; [discriminate C|]. apply andb_true_iff in C as [_ C].
  eapply forallb_impl; [|exact C]. intros x Hx. apply andb_true_iff in Hx as [_ Hx]. exact Hx.
Qed.
Lemma cell_clean : forall c, xcell_ok c = true -> clean_inls Edge (snd c) = true /\ forallb (OT [10]) (snd c) = true.
Proof. intros c C. unfold w_cell_ok in C. apply andb_true_iff in C as [C _]. apply andb_true_iff. exact C. Qed.
Lemma text_clean : forall b l, text_ok b l = true -> clean_inls Edge l = true /\ forallb (OT b) l = true /\ solid (cre_inls b l) = true.
Proof. intros b l C. unfold w_text_ok in C. rewrite !andb_true_iff in C. tauto. Qed.
Lemma block_shape : forall b, xblock_ok b = true -> shape_block b = true.
Proof.
  intros b C. destruct b as [l|n l| |o items|ws]; cbn [shape_block].
  - apply text_clean in C. apply C.
  - cbn [w_block_ok] in C. apply andb_true_iff in C as [C0 C]. apply text_clean in C as (-> & _). rewrite C0. reflexivity.
  - reflexivity.
  - cbn [w_block_ok] in C. apply andb_true_iff in C as [_ C]. eapply forallb_impl; [|exact C]. apply item_shape.
  - apply rows_ok in C. eapply forallb_impl; [|exact C]. intros r Hr. eapply forallb_impl; [|exact Hr]. intros c Hc. apply (cell_clean c Hc).
Qed.
Lemma doc_shape : forall d, xdoc_ok d = true -> shape_doc d = true.
Proof. intros d C. eapply forallb_impl; [|exact C]. apply block_shape. Qed.

Section Emission.
Variable u : unknown.
Variable strict : bool.
Hypothesis UW : forall t a c, inline_tag t = true -> fi t a c = true -> u t (attr_dict a) c = Ok (wu t a c).
Notation EL := (emit_list (creole_methods strict) u no_pre).
Notation EN := (emit_node (creole_methods strict) u no_pre).

(** all of the state but [last] *)
Definition core (s : est) : est := mke None (inner_list s) (tbl s) (subst_data s) (used_links s) (used_images s) (list_markup s).
Lemma core_last : forall l s, core (set_last l s) = core s. Proof. reflexivity. Qed.
Lemma core_inner : forall a b, core a = core b -> inner_list a = inner_list b. Proof. intros [] [] H. injection H. auto. Qed.
Lemma core_tbl : forall a b, core a = core b -> tbl a = tbl b. Proof. intros [] [] H. injection H. auto. Qed.
Definition brk (s : est) : str := match inner_list s with [] => [10] | _ => [92; 92] end.
Lemma brk_core : forall a b, core a = core b -> brk a = brk b. Proof. intros a b H. unfold brk. rewrite (core_inner _ _ H). reflexivity. Qed.

Lemma el_app : forall anc a b s, EL anc (a ++ b) s = do (r, s1) <- EL anc a s; do (r', s2) <- EL anc b s1; Ok (r ++ r', s2).
Proof.
  intros anc a b. induction a as [|x a IH]; intro s.
  - cbn [app emit_list bind]. destruct (EL anc b s) as [[r s1]|e]; reflexivity.
  - cbn [app emit_list]. destruct (EN anc x s) as [[r s1]|e]; [|reflexivity]. cbn [bind]. rewrite IH.
    destruct (EL anc a s1) as [[r2 s2]|e]; [|reflexivity]. cbn [bind]. destruct (EL anc b s2) as [[r3 s3]|e]; [|reflexivity]. cbn [bind]. rewrite <- app_assoc. reflexivity.
Qed.
Lemma el_one : forall anc x s, EL anc [x] s = do (r, s1) <- EN anc x s; Ok (r, s1).
Proof. intros. cbn [emit_list]. destruct (EN anc x s) as [[r s1]|e]; [|reflexivity]. cbn [bind]. rewrite app_nil_r. reflexivity. Qed.
Definition node_run (k : str) (f : meth) (a : pydict) (l : option Z) (c : option str) (ch : list hnode) (anc : list str) (s : est) : res (str * est) :=
  do (r, s2) <- f (mkn k c a l anc) (kids_of (creole_methods strict) u no_pre anc k c ch) s; Ok (r, set_last (k, c) s2).
Lemma en_run : forall k f a l c ch anc s, find_meth (creole_methods strict) k = Some f -> EN anc (HN k c a l ch) s = node_run k f a l c ch anc s.
Proof. intros k f a l c ch anc s H. rewrite emit_node_eq. unfold no_pre at 1. unfold run_meth. cbn [n_kind]. rewrite H. reflexivity. Qed.

(** ** inline *)
Definition says (b : str) (n : list hnode) (x : str) : Prop := forall anc s, brk s = b -> exists s', EL anc n s = Ok (x, s') /\ core s' = core s.
Lemma says_app : forall b m n x y, says b m x -> says b n y -> says b (m ++ n) (x ++ y).
Proof.
  intros b m n x y Hm Hn anc s B. rewrite el_app. destruct (Hm anc s B) as (s1 & E1 & C1). rewrite E1. cbn [bind].
  destruct (Hn anc s1) as (s2 & E2 & C2); [rewrite (brk_core _ _ C1); exact B|]. rewrite E2. cbn [bind].
  exists s2. split; [reflexivity|]. congruence.
Qed.
Lemma says_face : forall b t a ch x, marked t = true -> says b ch x -> says b [HN t None a None ch] (xmark t ++ x ++ xmark t).
Proof.
  intros b t a ch x Ht H anc s B. rewrite el_one. rewrite (en_run t (typeface (xmark t))).
  - unfold node_run, typeface, kids_of. destruct (H (t :: anc) (set_last (t, None) s) B) as (s1 & E & C1). rewrite E. cbn [bind].
    exists (set_last (t, None) s1). split; [reflexivity|]. rewrite core_last, C1. apply core_last.
  - unfold marked in Ht. apply existsb_exists in Ht as (k & I & E). apply str_eqb_eq in E. subst k. cbn [xfaces map fst In] in I.
    repeat (destruct I as [I|I]; [subst t; reflexivity|]). destruct I.
Qed.
Lemma span_kept : forall x, span_text x = true -> escape_linebreaks x = x.
Proof.
  intros x H. unfold span_text in H. apply orb_true_iff in H as [H|H]; [destruct x; [reflexivity|discriminate H]|]. rewrite !andb_true_iff, !negb_true_iff in H. destruct H as [[[H1 H2] H3] H4].
  assert (N : one_row x = x). { clear - H2. induction x as [|c x IH]; [reflexivity|]. unfold one_line in H2. cbn [forallb] in H2. apply andb_true_iff in H2 as [H2 H3]. apply negb_true_iff in H2. unfold one_row in *. cbn [flat_map]. rewrite H2, (IH H3). reflexivity. }
  assert (S : split_on 10 x = [x]). { clear - H2. induction x as [|c x IH]; [reflexivity|]. unfold one_line in H2. cbn [forallb] in H2. apply andb_true_iff in H2 as [H2 H3]. apply negb_true_iff in H2. cbn [split_on]. rewrite H2, (IH H3). reflexivity. }
  rewrite escaped; [exact N|rewrite S; cbn [forallb]; rewrite H1; reflexivity|exact H3|exact H4].
Qed.
Lemma says_span : forall b a ch x, span_text x = true -> says b ch x -> says b [HN ($ "span") None a None ch] x.
Proof.
  intros b a ch x Hx H anc s B. rewrite el_one. rewrite (en_run ($ "span") content_emit) by reflexivity. unfold node_run, content_emit, kids_of.
  destruct (H ($ "span" :: anc) (set_last ($ "span", None) s) B) as (s1 & E & C1).
  match goal with |- context [emit_list ?q1 ?q2 ?q3 ?k ch ?t] => replace (emit_list q1 q2 q3 k ch t) with (Ok (x, s1)) by (symmetry; exact E) end. cbn [bind].
  exists (set_last ($ "span", None) s1). split; [|rewrite core_last, C1; apply core_last]. unfold content_text.
  match goal with |- context [in_list ?l ?k] => change (in_list l k) with false end. cbv zeta. rewrite (span_kept x Hx). reflexivity.
Qed.
Lemma find_none : forall ms t, (forall k, In k (map fst ms) -> str_eqb k t = false) -> find_meth ms t = None.
Proof.
  induction ms as [|[k f] ms IH]; intros t H; [reflexivity|]. cbn [find_meth]. rewrite (H k) by (left; reflexivity). apply IH. intros k' I. apply H. right. exact I.
Qed.
Lemma no_meth : forall t, inline_tag t = true -> marked t = false -> str_eqb t ($ "span") = false -> find_meth (creole_methods strict) t = None.
Proof.
  intros t HI HM HS. destruct (inline_parts t HI) as (N & _ & H3 & H4).
  assert (M : forall k, In k (map fst xfaces) -> str_eqb k t = false).
  { intros k I. destruct (str_eqb k t) eqn:E; [|reflexivity]. apply str_eqb_eq in E. subst k. rewrite <- HM. symmetry. unfold marked. apply existsb_exists. exists t. split; [exact I|apply str_eqb_refl]. }
  assert (SY : forall k, str_eqb t k = false -> str_eqb k t = false) by (intros k E; destruct (str_eqb k t) eqn:E2; [apply str_eqb_eq in E2; subst k; rewrite str_eqb_refl in E; discriminate E|reflexivity]).
  assert (U : forall x y, str_eqb (x ++ 95 :: y) t = false).
  { intros x y. destruct (str_eqb (x ++ 95 :: y) t) eqn:E; [|reflexivity]. apply str_eqb_eq in E. subst t. exfalso. unfold name_ok in N. destruct x as [|c x]; [discriminate N|].
    cbn [app] in N. apply andb_true_iff in N as [_ N]. rewrite forallb_app in N. apply andb_true_iff in N as [_ N]. discriminate N. }
  apply find_none. intros k I. cbv [creole_methods base_methods map fst app] in I. cbn [In] in I.
  repeat (destruct I as [I|I]; [subst k; first [apply SY; exact HS | apply M; cbn; tauto | apply SY, H4; cbn; tauto | apply SY, (not_named _ _ _ H3); reflexivity |
    exact (U ($ "blockdata") ($ "pre")) | exact (U ($ "inlinedata") ($ "pre")) | exact (U ($ "blockdata") ($ "pass"))]|]). destruct I.
Qed.
Lemma says_unknown : forall b t a ch x, inline_tag t = true -> marked t = false -> str_eqb t ($ "span") = false -> fi t a x = true ->
  says b ch x -> says b [HN t None (attr_dict a) None ch] (wu t a x).
Proof.
  intros b t a ch x HI HM HS HF H anc s B. rewrite el_one. rewrite emit_node_eq. unfold no_pre at 1. unfold run_meth. cbn [n_kind]. rewrite (no_meth t HI HM HS). unfold kids_of.
  destruct (H (t :: anc) (set_last (t, None) s) B) as (s1 & E & C1). rewrite E. cbn [bind n_attrs]. rewrite (UW t a x HI HF). cbn [bind].
  exists (set_last (t, None) s1). split; [reflexivity|]. rewrite core_last, C1. apply core_last.
Qed.
Lemma says_leaf : forall k f c a l b x, find_meth (creole_methods strict) k = Some f -> (forall anc kids s, brk s = b -> f (mkn k c a l anc) kids s = Ok (x, s)) -> says b [HN k c a l []] x.
Proof.
  intros k f c a l b x H F anc s B. rewrite el_one, (en_run k f) by exact H. unfold node_run. rewrite F by exact B. cbn [bind]. exists (set_last (k, c) s). split; [reflexivity|apply core_last].
Qed.
Lemma says_link : forall b h ch x, says b ch x ->
  says b [HN ($ "a") None [($ "href", VStr h)] None ch] (if str_eqb x h then $ "[[" ++ h ++ $ "]]" else $ "[[" ++ h ++ $ "|" ++ x ++ $ "]]").
Proof.
  intros b h ch x H anc s B. rewrite el_one. rewrite (en_run ($ "a") c_a) by reflexivity.
  unfold node_run, c_a, kids_of. destruct (H ($ "a" :: anc) (set_last ($ "a", None) s) B) as (s1 & E & C1).
  match goal with |- context [emit_list ?q1 ?q2 ?q3 ?k ch ?t] => replace (emit_list q1 q2 q3 k ch t) with (Ok (x, s1)) by (symmetry; exact E) end. cbn [bind].
  exists (set_last ($ "a", None) s1). split; [|rewrite core_last, C1; apply core_last]. reflexivity.
Qed.
Lemma ref_says : forall b e ll, ref_ok e = true -> says b (dom_tree [] ll (x2d (XRef e))) (match meant e with Ok s => s | Exc _ => [] end).
Proof.
  intros b e ll H. unfold ref_ok in H. apply andb_true_iff in H as [H M]. destruct e as [t|d|d|n]; cbn [x2d dom_tree] in *.
  - discriminate H.
  - apply andb_true_iff in H as [H L]. unfold all_digits in H. apply andb_true_iff in H as [Hne Hd]. apply N.leb_le in L. apply negb_true_iff in Hne.
    apply (says_leaf _ charref_emit); [reflexivity|]. intros anc kids s _. unfold charref_emit. cbn [n_content].
    assert (E : replace_number d = meant (Dec d)).
    { unfold replace_number. rewrite (py_int_dec d); [|intros ->; discriminate Hne|exact Hd|exact L]. cbn [meant]. rewrite py_chr_N. destruct (code_point (dec_value d)); reflexivity. }
    destruct d as [|c d]; [discriminate Hne|].
    assert (Hc : (c =? 120) = false). { cbn [forallb] in Hd. apply andb_true_iff in Hd as [Hc _]. destruct (N.eqb_spec c 120); [subst c; discriminate Hc|reflexivity]. }
    assert (E2 : (match c :: d with 120 :: hex_no => replace_hex hex_no | _ => replace_number (c :: d) end) = replace_number (c :: d)).
    { apply N.eqb_neq in Hc. destruct c as [|p]; [reflexivity|]. repeat (destruct p as [p|p|]; try reflexivity). congruence. }
    rewrite E2, E. destruct (meant (Dec (c :: d))); [reflexivity|discriminate M].
  - unfold all_digits in H. apply andb_true_iff in H as [_ Hd]. apply (says_leaf _ charref_emit); [reflexivity|]. intros anc kids s _. unfold charref_emit. cbn [n_content].
    assert (E : replace_hex d = meant (Hex d)). { unfold replace_hex. rewrite (int16_hex d Hd), py_chr_N. cbn [meant]. destruct (code_point (hex_value d)); reflexivity. }
    rewrite E. destruct (meant (Hex d)); [reflexivity|discriminate M].
  - apply (says_leaf _ entityref_emit); [reflexivity|]. intros anc kids s _. unfold entityref_emit. cbn [n_content].
    assert (E : replace_named n = meant (Named n)). { unfold replace_named. rewrite meant_named. cbn [meant]. destruct (str_eqb n ($ "nbsp")); [reflexivity|]. destruct (List.find _ name2codepoint_tab) as [[k v]|]; reflexivity. }
    rewrite E. destruct (meant (Named n)); [reflexivity|discriminate M].
Qed.
Lemma inl_says : forall i b sd r ll, clean_inl sd i r = true -> OT b i = true -> says b (dom_tree [] ll (x2d i)) (cre_inl b i).
Proof.
  assert (F : forall l, Forall (fun i => forall b sd r ll, clean_inl sd i r = true -> OT b i = true -> says b (dom_tree [] ll (x2d i)) (cre_inl b i)) l ->
     forall b sd ll, clean_inls sd l = true -> forallb (OT b) l = true -> says b (flat_map (dom_tree [] ll) (map x2d l)) (flat_map (cre_inl b) l)).
  { induction 1 as [|x l Hx Hl IH]; intros b sd ll C O.
    - intros anc s _. exists s. split; reflexivity.
    - cbn [forallb] in O. apply andb_true_iff in O as [O1 O2]. cbn [clean_inls] in C. apply andb_true_iff in C as [C1 C2]. cbn [map flat_map]. apply says_app.
      + eapply Hx; [exact C1|exact O1].
      + eapply IH; [exact C2|exact O2]. }
  induction i as [t|e|t a body IH|h body IH|src title alt|] using xinl_ind'; intros b sd r ll C O.
  - cbn [x2d dom_tree w_inl]. apply (says_leaf _ data_emit); reflexivity.
  - cbn [w_inl]. apply ref_says. exact C.
  - rewrite clean_face in C. apply andb_true_iff in C as [C1 C2]. apply andb_true_iff in C1 as [C1 CA]. destruct (face_kind t C1) as (K1 & K2 & K3 & K4). cbn [x2d dom_tree]. rewrite K1, K2, K3, K4. cbn [w_inl].
    cbn [w_fine] in O. apply andb_true_iff in O as [O1 O2]. pose proof (F body IH b _ ll C2 O1) as B. cbv zeta. destruct (marked t) eqn:EM.
    + apply says_face; [exact EM|exact B].
    + cbn [orb] in O2. destruct (str_eqb t ($ "span")) eqn:ES; [apply str_eqb_eq in ES; subst t; apply says_span; assumption|]. apply says_unknown; assumption.
  - rewrite clean_link in C. apply andb_true_iff in C as [C1 C2]. cbn [x2d dom_tree]. cbn [w_inl].
    apply (says_link b h _ (flat_map (cre_inl b) body)). eapply F; [exact IH|exact C2|exact O].
  - cbn [x2d dom_tree w_inl]. apply (says_leaf _ (c_img strict)); [reflexivity|]. intros anc kids s _. unfold c_img, img_parts, img_attrs.
    cbn [clean_inl] in C. apply andb_true_iff in C as [_ C]. apply negb_true_iff in C.
    match goal with |- context [attr_dict ?x] => change (attr_dict x) with x end. unfold attr. cbn [n_attrs].
    match goal with |- context [dict_get ($ "src") ?x] => change (dict_get ($ "src") x) with (Some (VStr src)) end. cbn [bind].
    match goal with |- context [if ?b then Ok None else _] => assert (CC : b = false) by exact C; rewrite CC end.
    unfold attr_len. cbn [n_attrs].
    match goal with |- context [dict_get ($ "alt") ?x] => change (dict_get ($ "alt") x) with (Some (VStr alt)) end.
    match goal with |- context [dict_get ($ "title") ?x] => change (dict_get ($ "title") x) with (Some (VStr title)) end. cbn [bind].
    match goal with |- context [dict_get ($ "height") ?x] => change (dict_get ($ "height") x) with (@None pyval) end. cbn [attr_true andb]. rewrite andb_false_r. cbn [app].
    do 2 f_equal. unfold image_title. destruct (if (List.length title <? List.length alt)%nat then alt else title) eqn:E; reflexivity.
  - cbn [x2d dom_tree w_inl]. apply (says_leaf _ br_emit); [reflexivity|]. intros anc kids s B. unfold br_emit. rewrite <- B. unfold brk. destruct (inner_list s); reflexivity.
Qed.
Lemma inls_says : forall l b sd ll, clean_inls sd l = true -> forallb (OT b) l = true -> says b (flat_map (dom_tree [] ll) (map x2d l)) (cre_inls b l).
Proof.
  induction l as [|x l IH]; intros b sd ll C O.
  - intros anc s _. exists s. split; reflexivity.
  - cbn [forallb] in O. apply andb_true_iff in O as [O1 O2]. cbn [clean_inls] in C. apply andb_true_iff in C as [C1 C2]. unfold w_inls. cbn [map flat_map].
    apply says_app; [eapply inl_says; [exact C1|exact O1]|eapply IH; [exact C2|exact O2]].
Qed.

(** ** lists *)
Definition nl_lines (ls : list str) : str := flat_map (fun l : str => 10 :: l) ls.
Lemma nl_app : forall a b, nl_lines (a ++ b) = nl_lines a ++ nl_lines b. Proof. intros. apply flat_map_app. Qed.
Definition bullet (o : bool) : str := if o then $ "#" else $ "*".
Lemma list_meth : forall o, find_meth (creole_methods strict) (xlist_tag o) = Some (list_emit (bullet o)). Proof. intros []; reflexivity. Qed.
Lemma list_tree : forall o ll ks, dom_tree [] ll (DElem (xlist_tag o) [] ks) = [HN (xlist_tag o) None [] (Some (ll + 1)%Z) (flat_map (dom_tree [] (ll + 1)) ks)].
Proof. intros [] ll ks; reflexivity. Qed.
Lemma core_set_inner : forall l a b, core a = core b -> core (set_inner l a) = core (set_inner l b).
Proof. intros l [] [] H. injection H as E1 E2 E3 E4 E5 E6. cbn in *. unfold set_inner, core. cbn. congruence. Qed.
Lemma list_run : forall o ll ks cs anc s, (forall anc s0, inner_list s0 = inner_list s ++ bullet o ->
    exists s', EL anc (flat_map (dom_tree [] (ll + 1)) ks) s0 = Ok (cs, s') /\ core s' = core s0) ->
  exists s', EL anc (dom_tree [] ll (DElem (xlist_tag o) [] ks)) s =
    Ok (match inner_list s with
        | [] => if starts_newline s then [10] ++ cs ++ [10; 10] else strip cs ++ [10; 10]
        | _ => cs
        end, s') /\ core s' = core s /\ last s' = Some (xlist_tag o, None).
Proof.
  intros o ll ks cs anc s H. rewrite list_tree, el_one, (en_run _ _ _ _ _ _ _ _ (list_meth o)). unfold node_run, list_emit, kids_of.
  destruct (H (xlist_tag o :: anc) (set_last (xlist_tag o, None) (set_inner (inner_list s ++ bullet o) s))) as (s1 & E & C); [reflexivity|].
  rewrite E. cbn [bind].
  assert (I : inner_list s1 = inner_list s ++ bullet o) by exact (core_inner _ _ C).
  assert (R : removelast (inner_list s1) = inner_list s) by (rewrite I; destruct o; apply removelast_snoc).
  eexists. split; [|split].
  - rewrite R. cbn [inner_list set_inner]. reflexivity.
  - rewrite core_last. rewrite (core_set_inner _ s1 _ C). destruct s; reflexivity.
  - reflexivity.
Qed.
Lemma li_tree : forall ll ks, dom_tree [] ll (DElem ($ "li") [] ks) = [HN ($ "li") None [] (Some ll) (flat_map (dom_tree [] ll) ks)].
Proof. reflexivity. Qed.
Lemma li_run : forall ll ks c anc s, (forall anc s0, core s0 = core s -> exists s', EL anc (flat_map (dom_tree [] ll) ks) s0 = Ok (c, s') /\ core s' = core s0) ->
  exists s', EL anc (dom_tree [] ll (DElem ($ "li") [] ks)) s = Ok (10 :: inner_list s ++ 32 :: c, s') /\ core s' = core s.
Proof.
  intros ll ks c anc s H. rewrite li_tree, el_one, (en_run ($ "li") li_emit) by reflexivity. unfold node_run, li_emit, kids_of.
  destruct (H ($ "li" :: anc) (set_last ($ "li", None) s)) as (s1 & E & C); [reflexivity|].
  match goal with |- context [emit_list ?x ?y ?z ?k ?ch ?t] => replace (emit_list x y z k ch t) with (Ok (c, s1)) by (symmetry; exact E) end. cbn [bind].
  eexists. split; [|rewrite core_last, C; reflexivity]. rewrite (core_inner _ _ C). reflexivity.
Qed.
Lemma brk_list : forall s (c : N) r, inner_list s = c :: r -> brk s = [92; 92]. Proof. intros s c r H. unfold brk. rewrite H. reflexivity. Qed.
Definition item_spec (i : xitem) : Prop := xitem_ok i = true -> forall ll anc s, inner_list s <> [] ->
  exists s', EL anc (dom_tree [] ll (i2d i)) s = Ok (nl_lines (cre_item (inner_list s) i), s') /\ core s' = core s.
Lemma items_of : forall l, Forall item_spec l -> forallb xitem_ok l = true -> forall ll anc s, inner_list s <> [] ->
  exists s', EL anc (flat_map (dom_tree [] ll) (map i2d l)) s = Ok (nl_lines (flat_map (cre_item (inner_list s)) l), s') /\ core s' = core s.
Proof.
  induction 1 as [|x l Hx Hl IH]; intros C ll anc s B; [exists s; split; reflexivity|]. cbn [forallb] in C. apply andb_true_iff in C as [C1 C2]. cbn [map flat_map].
  rewrite el_app. destruct (Hx C1 ll anc s B) as (s1 & E1 & K1). rewrite E1. cbn [bind].
  pose proof (core_inner _ _ K1) as I. destruct (IH C2 ll anc s1) as (s2 & E2 & K2); [rewrite I; exact B|]. rewrite E2. cbn [bind]. exists s2. rewrite nl_app, I. split; [reflexivity|congruence].
Qed.
Lemma item_says : forall i, item_spec i.
Proof.
  induction i as [t o sub IH] using xitem_ind'. intros C ll anc s B. cbn [w_item_ok] in C. apply andb_true_iff in C as [C1 C2]. apply text_clean in C1 as (C1 & O1 & _).
  cbn [i2d w_item].
  destruct (inner_list s) as [|c0 r0] eqn:EI; [congruence|]. rewrite <- EI in *.
  edestruct (li_run ll (map x2d t ++ match sub with [] => [] | _ :: _ => [DElem (xlist_tag o) [] (map i2d sub)] end)
    (cre_inls [92; 92] t ++ nl_lines (flat_map (cre_item (inner_list s ++ [if o then 35 else 42])) sub)) anc s) as (s1 & E & K).
  { intros anc0 s0 K0. rewrite flat_map_app, el_app. pose proof (core_inner _ _ K0) as I0. destruct (inls_says t [92; 92] Edge ll C1 O1 anc0 s0) as (s2 & E2 & K2); [apply (brk_list s0 c0 r0); congruence|]. rewrite E2. cbn [bind].
    pose proof (core_inner _ _ K2) as I2.
    destruct sub as [|x sub].
    - cbn [flat_map emit_list bind]. exists s2. split; [cbn [nl_lines flat_map]; reflexivity|exact K2].
    - cbn [flat_map]. rewrite app_nil_r.
      destruct (list_run o ll (map i2d (x :: sub)) (nl_lines (flat_map (cre_item (inner_list s ++ [if o then 35 else 42])) (x :: sub))) anc0 s2) as (s3 & E3 & K3 & _).
      { intros anc1 s4 I4. destruct (items_of (x :: sub) IH C2 (ll + 1)%Z anc1 s4) as (s5 & E5 & K5); [rewrite I4; destruct o, (inner_list s2); discriminate|].
        rewrite E5. exists s5. split; [|exact K5]. rewrite I4, I2, I0. destruct o; reflexivity. }
      rewrite E3. cbn [bind]. exists s3. rewrite I2, I0, EI. rewrite <- EI. split; [reflexivity|congruence]. }
  rewrite E. exists s1. split; [|exact K]. f_equal. f_equal. unfold nl_lines. cbn [flat_map app]. rewrite <- !app_assoc. reflexivity.
Qed.
Lemma items_says : forall l, forallb xitem_ok l = true -> forall ll anc s, inner_list s <> [] ->
  exists s', EL anc (flat_map (dom_tree [] ll) (map i2d l)) s = Ok (nl_lines (flat_map (cre_item (inner_list s)) l), s') /\ core s' = core s.
Proof. intros l. apply items_of. apply Forall_forall. intros i _. apply item_says. Qed.

(** ** tables *)
Definition cell_text (c : bool * list xinl) : str := escape_linebreaks (cre_inls [10] (snd c)).
Definition cell_raw (c : bool * list xinl) : str := (if fst c then $ "= " else []) ++ cell_text c.
Lemma cell_run : forall c ll anc s t rs r, xcell_ok c = true -> inner_list s = [] -> tbl s = Some t -> rows t = rs ++ [r] -> head_prefix t = $ "= " -> auto_width t = true ->
  exists s' t', EL anc (dom_tree [] ll (c2d c)) s = Ok ([], s') /\ inner_list s' = [] /\ tbl s' = Some t' /\ rows t' = rs ++ [r ++ [cell_raw c]] /\
    head_prefix t' = $ "= " /\ auto_width t' = true.
Proof.
  intros [h l] ll anc s t rs r C I T R HP AW. apply cell_clean in C as [C O]. cbn [snd] in C, O. unfold c2d. cbn [fst snd].
  set (k := if h then $ "th" else $ "td").
  assert (TR : dom_tree [] ll (DElem k [] (map x2d l)) = [HN k None [] None (flat_map (dom_tree [] ll) (map x2d l))]) by (destruct h; reflexivity).
  assert (M : find_meth (creole_methods strict) k = Some (cell_emit (if h then add_th else add_td))) by (destruct h; reflexivity).
  match goal with |- context [dom_tree [] ll ?x] => change (dom_tree [] ll x) with (dom_tree [] ll (DElem k [] (map x2d l))) end.
  rewrite TR, el_one, (en_run _ _ _ _ _ _ _ _ M). unfold node_run, cell_emit, kids_of.
  destruct (inls_says l [10] Edge ll C O (k :: anc) (set_last (k, None) s)) as (s1 & E & K); [unfold brk; cbn [set_last inner_list]; rewrite I; reflexivity|].
  match goal with |- context [emit_list ?x ?y ?z ?w ?ch ?t] => replace (emit_list x y z w ch t) with (Ok (cre_inls [10] l, s1)) by (symmetry; exact E) end. cbn [bind].
  assert (T1 : tbl s1 = Some t) by (rewrite (core_tbl _ _ K); exact T). rewrite T1. cbn [bind].
  assert (I1 : inner_list s1 = []) by (rewrite (core_inner _ _ K); exact I).
  eexists. exists ((if h then add_th else add_td) (cell_text (h, l)) t). split; [reflexivity|]. split; [exact I1|]. split; [reflexivity|].
  destruct h; unfold cell_raw; cbn [fst]; unfold add_th, add_td; cbn [rows head_prefix auto_width]; rewrite R, append_last_snoc, ?HP; auto.
Qed.
Lemma cells_run : forall w ll anc s t rs r, forallb xcell_ok w = true -> inner_list s = [] -> tbl s = Some t -> rows t = rs ++ [r] -> head_prefix t = $ "= " -> auto_width t = true ->
  exists s' t', EL anc (flat_map (dom_tree [] ll) (map c2d w)) s = Ok ([], s') /\ inner_list s' = [] /\ tbl s' = Some t' /\ rows t' = rs ++ [r ++ map cell_raw w] /\
    head_prefix t' = $ "= " /\ auto_width t' = true.
Proof.
  induction w as [|c w IH]; intros ll anc s t rs r C I T R HP AW.
  - exists s, t. cbn [map]. rewrite app_nil_r. repeat split; auto.
  - cbn [forallb] in C. apply andb_true_iff in C as [C1 C2]. cbn [map flat_map]. rewrite el_app.
    destruct (cell_run c ll anc s t rs r C1 I T R HP AW) as (s1 & t1 & E1 & I1 & T1 & R1 & P1 & W1). rewrite E1. cbn [bind].
    destruct (IH ll anc s1 t1 rs _ C2 I1 T1 R1 P1 W1) as (s2 & t2 & E2 & I2 & T2 & R2 & P2 & W2). rewrite E2. cbn [bind app].
    exists s2, t2. rewrite <- app_assoc in R2. repeat split; auto.
Qed.
Lemma rows_run : forall ws ll anc s t, forallb (forallb xcell_ok) ws = true -> inner_list s = [] -> tbl s = Some t -> head_prefix t = $ "= " -> auto_width t = true ->
  exists s' t', EL anc (flat_map (dom_tree [] ll) (map (fun r => DElem ($ "tr") [] (map c2d r)) ws)) s = Ok ([], s') /\ inner_list s' = [] /\ tbl s' = Some t' /\
    rows t' = rows t ++ map (map cell_raw) ws /\ head_prefix t' = $ "= " /\ auto_width t' = true.
Proof.
  induction ws as [|w ws IH]; intros ll anc s t C I T HP AW.
  - exists s, t. cbn [map]. rewrite app_nil_r. repeat split; auto.
  - cbn [forallb] in C. apply andb_true_iff in C as [C1 C2]. cbn [map flat_map].
    change (dom_tree [] ll (DElem ($ "tr") [] (map c2d w))) with [HN ($ "tr") None [] None (flat_map (dom_tree [] ll) (map c2d w))].
    rewrite el_app, el_one, (en_run ($ "tr") tr_emit) by reflexivity. unfold node_run, tr_emit at 1. rewrite T. unfold kids_of.
    destruct (cells_run w ll ($ "tr" :: anc) (set_last ($ "tr", None) (set_tbl (add_tr t) s)) (add_tr t) (rows t) [] C1 I eq_refl eq_refl HP AW) as (s1 & t1 & E1 & I1 & T1 & R1 & P1 & W1).
    match goal with |- context [emit_list ?x ?y ?z ?k ?ch ?t] => replace (emit_list x y z k ch t) with (Ok (@nil N, s1)) by (symmetry; exact E1) end. cbn [bind].
    destruct (IH ll anc (set_last ($ "tr", None) s1) t1 C2 I1 T1 P1 W1) as (s2 & t2 & E2 & I2 & T2 & R2 & P2 & W2). match goal with |- context [emit_list ?x ?y ?z ?k ?ch ?t] => replace (emit_list x y z k ch t) with (Ok (@nil N, s2)) by (symmetry; exact E2) end. cbn [bind app].
    exists s2, t2. rewrite R1, <- app_assoc in R2. repeat split; auto.
Qed.
End Emission.

Lemma fmt_ok : forall c, xcell_ok c = true -> fmt_cell ($ "= ") (cell_raw c) = cre_cell c.
Proof.
  intros [h l] C. unfold cell_raw, cell_text, w_cell. cbn [fst snd]. unfold w_cell_ok in C. cbn [fst snd] in C. apply andb_true_iff in C as [_ C]. apply orb_true_iff in C as [C|C].
  - apply andb_true_iff in C as [C1 C2]. destruct h; [discriminate C1|]. destruct (cre_inls [10] l); [reflexivity|discriminate C2].
  - apply andb_true_iff in C as [C C4]. apply andb_true_iff in C as [C C3]. apply andb_true_iff in C as [C1 C2]. apply negb_true_iff in C2, C3.
    rewrite escaped by assumption. pose proof (lines_solid _ C1) as SO. apply solid_ends in SO as (c & r & d & r' & E1 & K1 & E2 & K2).
    assert (N1 : c <> 10) by (intros ->; discriminate). assert (N2 : d <> 10) by (intros ->; discriminate).
    set (t := cre_inls [10] l) in *.
    assert (A1 : one_row t = c :: one_row r). { rewrite E1. unfold one_row. cbn [flat_map]. apply N.eqb_neq in N1. rewrite N1. reflexivity. }
    assert (A2 : exists y, one_row t = y ++ [d]). { rewrite E2. unfold one_row. rewrite flat_map_app. cbn [flat_map]. apply N.eqb_neq in N2. rewrite N2. eexists. reflexivity. }
    destruct A2 as (y & A2). assert (SR : solid (one_row t) = true) by (eapply solid_intro; [exact A1|exact K1|exact A2|exact K2]).
    unfold fmt_cell. destruct h.
    + assert (SE : solid ($ "= " ++ one_row t) = true).
      { eapply (solid_intro _ 61 (32 :: one_row t) d ($ "= " ++ y)); [reflexivity|reflexivity|rewrite A2, <- app_assoc; reflexivity|exact K2]. }
      rewrite (strip_solid _ SE). rewrite A1. reflexivity.
    + cbn [app orb] in *. rewrite (strip_solid _ SR). apply negb_true_iff in C4. rewrite A1.
      assert (SW : startswith ($ "= ") (c :: one_row r) = false).
      { rewrite <- A1. clear -C4 E1. rewrite E1 in *. unfold one_row. cbn [L startswith] in *. cbn [flat_map].
        destruct (N.eqb_spec c 10) as [->|N]; [reflexivity|]. cbn [app]. cbn [startswith] in C4 |- *. destruct (61 =? c); [|reflexivity]. cbn [andb] in *.
        destruct r as [|e r]; [reflexivity|]. cbn [flat_map]. destruct (N.eqb_spec e 10) as [->|]; [reflexivity|]. exact C4. }
      rewrite SW. reflexivity.
Qed.

(** ** the table as text *)
Lemma x_lines_join : forall l : list str, x_lines l = join [10] l.
Proof. induction l as [|x l IH]; [reflexivity|]. destruct l as [|y l]; [reflexivity|]. cbn [x_lines join] in *. rewrite IH. reflexivity. Qed.
Lemma zip_max_length : forall a b : list nat, List.length a = List.length b -> List.length (zip_max a b) = List.length a.
Proof. induction a as [|x a IH]; intros [|y b] H; try reflexivity; try discriminate H. cbn [zip_max List.length] in *. rewrite IH by congruence. reflexivity. Qed.
Lemma zip_max_nth : forall (a b : list nat) j, List.length a = List.length b -> nth j (zip_max a b) 0%nat = Nat.max (nth j a 0%nat) (nth j b 0%nat).
Proof. induction a as [|x a IH]; intros [|y b] j H; try discriminate H; [destruct j; reflexivity|]. cbn [zip_max]. destruct j as [|j]; [reflexivity|]. cbn [nth]. apply IH. cbn [List.length] in H. congruence. Qed.
Lemma row_widths_nth : forall (r : list str) j, nth j (row_widths r) 0%nat = List.length (nth j r []).
Proof. intros r j. unfold row_widths. change 0%nat with (List.length (@nil N)) at 1. apply map_nth. Qed.
Lemma widths_go : forall (t : list (list str)) (w : list nat), (forall r, In r t -> List.length r = List.length w) ->
  List.length (fold_left (fun w r => zip_max w (row_widths r)) t w) = List.length w /\
  forall j, nth j (fold_left (fun w r => zip_max w (row_widths r)) t w) 0%nat = Nat.max (nth j w 0%nat) (col_width t j).
Proof.
  induction t as [|r t IH]; intros w H.
  - cbn [fold_left]. split; [reflexivity|]. intro j. unfold col_width. cbn [map fold_right]. lia.
  - cbn [fold_left]. assert (L : List.length w = List.length (row_widths r)) by (unfold row_widths; rewrite map_length; symmetry; apply H; left; reflexivity).
    destruct (IH (zip_max w (row_widths r))) as [A B]. { intros r' I. rewrite zip_max_length by exact L. apply H. right. exact I. }
    split; [rewrite A; apply zip_max_length; exact L|]. intro j. rewrite B, zip_max_nth, row_widths_nth by exact L.
    rewrite <- Nat.max_assoc. reflexivity.
Qed.
Lemma widths_eq : forall (cells : list (list str)) n, cells <> [] -> (forall r, In r cells -> List.length r = n) -> widths cells = map (col_width cells) (seq 0 n).
Proof.
  intros [|r t] n NE H; [congruence|]. unfold widths.
  assert (Lr : List.length (row_widths r) = n) by (unfold row_widths; rewrite map_length; apply H; left; reflexivity).
  destruct (widths_go t (row_widths r)) as [A B]. { intros r' I. rewrite Lr. apply H. right. exact I. }
  apply (nth_ext _ _ 0%nat 0%nat); [rewrite A, Lr, map_length, seq_length; reflexivity|].
  intros j Hj. rewrite A, Lr in Hj. rewrite B, row_widths_nth. rewrite (nth_indep _ 0%nat (col_width (r :: t) 0)) by (rewrite map_length, seq_length; exact Hj).
  rewrite map_nth, seq_nth by exact Hj. cbn [Nat.add]. unfold col_width. cbn [map fold_right]. reflexivity.
Qed.
Lemma pad_line : forall cells r j, r <> [] -> table_line (map (col_width cells) (seq j (List.length r))) r = pad_row cells j r.
Proof.
  intros cells r. unfold table_line. induction r as [|c r IH]; intros j NE; [congruence|]. cbn [List.length seq map zip fst snd].
  destruct r as [|d r].
  - cbn [List.length seq map zip join pad_row]. unfold ljust. rewrite <- !app_assoc. reflexivity.
  - assert (NM : map (fun cw : str * nat => ljust (fst cw) (snd cw)) (zip (d :: r) (map (col_width cells) (seq (S j) (List.length (d :: r))))) <> []) by discriminate.
    rewrite (join_cons _ _ _ NM). change (pad_row cells j (c :: d :: r)) with ($ "|" ++ c ++ repeat 32 (col_width cells j - List.length c) ++ pad_row cells (S j) (d :: r)). rewrite <- (IH (S j)) by discriminate. unfold ljust at 1. rewrite <- !app_assoc. reflexivity.
Qed.
Lemma map_raw : forall ws, forallb (forallb xcell_ok) ws = true -> map (map (fmt_cell ($ "= "))) (map (map cell_raw) ws) = map (map cre_cell) ws.
Proof.
  intros ws C. rewrite map_map. apply map_ext_in. intros w Iw. rewrite forallb_forall in C. specialize (C w Iw). rewrite map_map. apply map_ext_in. intros c Ic.
  rewrite forallb_forall in C. apply fmt_ok. apply C. exact Ic.
Qed.
Lemma rect : forall ws, xblock_ok (XTable ws) = true -> exists n, ws <> [] /\ n <> 0%nat /\ forall w, In w ws -> List.length w = n.
Proof.
  intros [|r ws] C; [discriminate C|]. cbn [w_block_ok] in C. apply andb_true_iff in C as [C1 C2]. exists (List.length r). split; [discriminate|]. split; [destruct r; discriminate|].
  intros w I. rewrite forallb_forall in C2. specialize (C2 w I). apply andb_true_iff in C2 as [C2 _]. apply Nat.eqb_eq. exact C2.
Qed.
Lemma table_text : forall ws t, xblock_ok (XTable ws) = true -> rows t = map (map cell_raw) ws -> head_prefix t = $ "= " -> auto_width t = true ->
  get_table_markup t = cre_block (XTable ws).
Proof.
  intros ws t C R HP AW. unfold get_table_markup, preformat. rewrite AW, R, HP, (map_raw ws (rows_ok ws C)). cbn [w_block]. rewrite x_lines_join.
  destruct (rect ws C) as (n & NE & NZ & L). f_equal. rewrite (widths_eq _ n).
  - apply map_ext_in. intros r I. apply in_map_iff in I as (w & <- & I). rewrite <- (L w I), <- (map_length cre_cell w). apply pad_line. intro E.
    apply (f_equal (@List.length str)) in E. rewrite map_length, (L w I) in E. exact (NZ E).
  - destruct ws; [congruence|discriminate].
  - intros r I. apply in_map_iff in I as (w & <- & I). rewrite map_length. exact (L w I).
Qed.

(** ** blocks *)
Definition bpre (nl : bool) (b : xblock) : str := match b with XList _ _ => if nl then [10; 10] else [] | _ => [] end.
Definition bsuf (b : xblock) : str := match b with XTable _ => [10] | _ => [10; 10] end.
Definition bnl (b : xblock) : bool := match b with XHead _ _ => true | _ => false end.
Fixpoint rawd (nl : bool) (d : list xblock) : str :=
  match d with [] => [] | b :: r => bpre nl b ++ cre_block b ++ bsuf b ++ rawd (bnl b) r end.

Lemma item_lines : forall i bl, xitem_ok i = true -> solid bl = true -> forallb solid (cre_item bl i) = true /\ cre_item bl i <> [].
Proof.
  induction i as [t o sub IH] using xitem_ind'. intros bl C B. cbn [w_item_ok] in C. apply andb_true_iff in C as [C1 C2]. apply text_clean in C1 as (_ & _ & C1).
  cbn [w_item]. split; [|discriminate]. cbn [forallb]. apply andb_true_iff. split.
  - apply solid_ends in C1 as (c & r & d & r' & E1 & S1 & E2 & S2). apply solid_ends in B as (c0 & r0 & d0 & r0' & F1 & T1 & F2 & T2).
    eapply (solid_intro _ c0 (r0 ++ $ " " ++ cre_inls [92; 92] t) d (bl ++ $ " " ++ r')); [rewrite F1; reflexivity|exact T1|rewrite E2, <- !app_assoc; reflexivity|exact S2].
  - assert (B2 : solid (bl ++ [if o then 35 else 42]) = true).
    { apply solid_ends in B as (c0 & r0 & d0 & r0' & F1 & T1 & F2 & T2). eapply (solid_intro _ c0 (r0 ++ [if o then 35 else 42]) (if o then 35 else 42) bl); [rewrite F1; reflexivity|exact T1|reflexivity|destruct o; reflexivity]. }
    induction IH as [|x sub Hx Hs IHs]; [reflexivity|]. cbn [forallb flat_map] in *. apply andb_true_iff in C2 as [C2 C3]. rewrite forallb_app. destruct (Hx _ C2 B2) as [-> _]. apply IHs. exact C3.
Qed.
Lemma items_lines : forall l bl, forallb xitem_ok l = true -> solid bl = true -> forallb solid (flat_map (cre_item bl) l) = true.
Proof.
  induction l as [|x l IH]; intros bl C B; [reflexivity|]. cbn [forallb flat_map] in *. apply andb_true_iff in C as [C1 C2]. rewrite forallb_app.
  destruct (item_lines x bl C1 B) as [-> _]. apply IH; assumption.
Qed.
Lemma nl_x_lines : forall l : list str, l <> [] -> nl_lines l = 10 :: x_lines l.
Proof.
  induction l as [|x l IH]; intro NE; [congruence|]. unfold nl_lines in *. cbn [flat_map]. destruct l as [|y l]; [cbn [flat_map x_lines app]; rewrite app_nil_r; reflexivity|].
  rewrite IH by discriminate. cbn [x_lines app]. reflexivity.
Qed.
Lemma pad_solid : forall cells r j, solid (pad_row cells j r) = true.
Proof.
  intros cells r j. assert (A : exists x, pad_row cells j r = 124 :: x) by (destruct r; eexists; reflexivity).
  assert (B : exists y, pad_row cells j r = y ++ [124]).
  { revert j A. induction r as [|c r IH]; intros j A; [exists []; reflexivity|]. cbn [pad_row]. destruct (IH (S j)) as (y & E); [destruct r; eexists; reflexivity|]. rewrite E.
    exists ($ "|" ++ c ++ repeat 32 (col_width cells j - List.length c) ++ y). rewrite <- !app_assoc. reflexivity. }
  destruct A as (x & A). destruct B as (y & B). eapply solid_intro; [exact A|reflexivity|exact B|reflexivity].
Qed.
Lemma block_solid : forall b, xblock_ok b = true -> solid (cre_block b) = true.
Proof.
  intros b C. destruct b as [l|n l| |o items|ws].
  - apply text_clean in C. apply C.
  - cbn [w_block_ok] in C. apply andb_true_iff in C as [C0 C]. apply andb_true_iff in C0 as [L1 L2]. apply Nat.leb_le in L1. apply text_clean in C as (_ & _ & C).
    destruct n as [|n]; [lia|]. apply solid_ends in C as (c & r & d & r' & E1 & S1 & E2 & S2). cbn [w_block repeat app].
    eapply (solid_intro _ 61 (repeat 61 n ++ $ " " ++ cre_inls [10] l) d (61 :: repeat 61 n ++ $ " " ++ r')); [reflexivity|reflexivity|rewrite E2; cbn [app]; rewrite <- !app_assoc; reflexivity|exact S2].
  - reflexivity.
  - cbn [w_block_ok] in C. apply andb_true_iff in C as [NE C]. cbn [w_block]. rewrite x_lines_join. apply join_solid.
    + apply items_lines; [exact C|destruct o; reflexivity].
    + destruct items as [|[t o' sub] items]; [discriminate NE|]. cbn [flat_map w_item app]. discriminate.
  - destruct (rect ws C) as (n & NE & _). cbn [w_block]. rewrite x_lines_join. apply join_solid.
    + rewrite forallb_forall. intros x I. apply in_map_iff in I as (w & <- & I). apply pad_solid.
    + destruct ws; [congruence|discriminate].
Qed.

Section Blocks.
Variable (u : unknown) (strict : bool).
Hypothesis UW : forall t a c, inline_tag t = true -> fi t a c = true -> u t (attr_dict a) c = Ok (wu t a c).
Local Notation EL := (emit_list (creole_methods strict) u no_pre).
Lemma starts_block : forall k s, in_list BLOCK_TAGS k = true -> starts_newline (set_last (k, None) s) = false.
Proof. intros k s H. unfold starts_newline. cbn [set_last last]. rewrite H. reflexivity. Qed.
Lemma head_tree : forall n ks, (1 <= n <= 6)%nat -> dom_tree [] 0 (DElem ($ "h" ++ show_nat n) [] ks) = [HN ($ "headline") None [] (Some (Z.of_nat n)) (flat_map (dom_tree [] 0) ks)].
Proof. intros n ks H. do 7 (destruct n as [|n]; [first [lia|reflexivity]|]). lia. Qed.
Lemma times_repeat : forall n, times [61] (Z.of_nat n) = repeat 61 n.
Proof. intro n. unfold times. rewrite Nat2Z.id. induction n as [|n IH]; [reflexivity|]. cbn [repeat_str repeat app]. rewrite IH. reflexivity. Qed.
Lemma block_run : forall b nl anc s, xblock_ok b = true -> inner_list s = [] -> starts_newline s = nl ->
  exists s', EL anc (dom_tree [] 0 (b2d b)) s = Ok (bpre nl b ++ cre_block b ++ bsuf b, s') /\ inner_list s' = [] /\ starts_newline s' = bnl b.
Proof.
  intros b nl anc s C I SN. destruct b as [l|n l| |o items|ws]; cbn [b2d bpre bsuf bnl app].
  - cbn [w_block_ok] in C. apply text_clean in C as (C & O & _).
    change (dom_tree [] 0 (DElem ($ "p") [] (map x2d l))) with [HN ($ "p") None [] None (flat_map (dom_tree [] 0) (map x2d l))].
    rewrite el_one, (en_run u strict ($ "p") c_p) by reflexivity. unfold node_run, c_p, kids_of.
    destruct (inls_says u strict UW l [10] Edge 0%Z C O ($ "p" :: anc) (set_last ($ "p", None) s)) as (s1 & E & K); [unfold brk; cbn [set_last inner_list]; rewrite I; reflexivity|].
    match goal with |- context [emit_list ?x ?y ?z ?k ?ch ?t] => replace (emit_list x y z k ch t) with (Ok (cre_inls [10] l, s1)) by (symmetry; exact E) end. cbn [bind].
    assert (I1 : inner_list s1 = []) by (rewrite (core_inner _ _ K); exact I).
    rewrite I1.
    eexists. split; [reflexivity|]. split; [exact I1|]. apply starts_block. reflexivity.
  - cbn [w_block_ok] in C. apply andb_true_iff in C as [C0 C]. apply andb_true_iff in C0 as [L1 L2]. apply Nat.leb_le in L1, L2. apply text_clean in C as (C & O & _).
    pose proof (head_tree n (map x2d l) (conj L1 L2)) as HT.
    match goal with |- context [dom_tree [] 0 ?x] => replace (dom_tree [] 0 x) with [HN ($ "headline") None [] (Some (Z.of_nat n)) (flat_map (dom_tree [] 0) (map x2d l))] by (symmetry; exact HT) end.
    rewrite el_one, (en_run u strict ($ "headline") c_headline) by reflexivity. unfold node_run, c_headline, kids_of, level_of. cbn [n_level bind].
    destruct (inls_says u strict UW l [10] Edge 0%Z C O ($ "headline" :: anc) (set_last ($ "headline", None) s)) as (s1 & E & K); [unfold brk; cbn [set_last inner_list]; rewrite I; reflexivity|].
    match goal with |- context [emit_list ?x ?y ?z ?k ?ch ?t] => replace (emit_list x y z k ch t) with (Ok (cre_inls [10] l, s1)) by (symmetry; exact E) end. cbn [bind].
    assert (I1 : inner_list s1 = []) by (rewrite (core_inner _ _ K); exact I).
    rewrite times_repeat.
    eexists. split; [cbn [w_block]; rewrite <- !app_assoc; reflexivity|]. split; [exact I1|reflexivity].
  - change (dom_tree [] 0 (DSelf ($ "hr") [])) with [HN ($ "hr") None [] None []].
    rewrite el_one, (en_run u strict ($ "hr") (const_emit ($ "----" ++ [10; 10]))) by reflexivity. unfold node_run, const_emit, ret. cbn [bind].
    eexists. split; [reflexivity|]. split; [exact I|apply starts_block; reflexivity].
  - pose proof (block_solid _ C) as SO. cbn [w_block_ok] in C. apply andb_true_iff in C as [NE C].
    destruct (list_run u strict o 0%Z (map i2d items) (nl_lines (flat_map (cre_item [if o then 35 else 42]) items)) anc s) as (s1 & E & K & L).
    { intros anc1 s4 I4. destruct (items_says u strict UW items C (0 + 1)%Z anc1 s4) as (s5 & E5 & K5); [rewrite I4, I; destruct o; discriminate|].
      rewrite E5. exists s5. split; [|exact K5]. rewrite I4, I. destruct o; reflexivity. }
    assert (NN : flat_map (cre_item [if o then 35 else 42]) items <> []) by (destruct items as [|[t o' sub] items]; [discriminate NE|]; cbn [flat_map w_item app]; discriminate).
    rewrite E. exists s1. rewrite I, SN, nl_x_lines by exact NN. split; [|split; [rewrite (core_inner _ _ K); exact I|]].
    + cbn [w_block] in *. destruct nl; [reflexivity|]. apply strip_solid in SO.
      match goal with |- context [strip ?y] => replace (strip y) with (x_lines (flat_map (cre_item [if o then 35 else 42]) items)) by (symmetry; exact SO) end. reflexivity.
    + unfold starts_newline. rewrite L. destruct o; reflexivity.
  - change (dom_tree [] 0 (DElem ($ "table") [] ?x)) with [HN ($ "table") None [] None (flat_map (dom_tree [] 0) x)].
    rewrite el_one, (en_run u strict ($ "table") (table_emit ($ "= ") true)) by reflexivity. unfold node_run, table_emit, kids_of.
    destruct (rows_run u strict UW ws 0%Z ($ "table" :: anc) (set_last ($ "table", None) (set_tbl (new_table ($ "= ") true) s)) (new_table ($ "= ") true) (rows_ok ws C) I eq_refl eq_refl eq_refl)
      as (s1 & t1 & E & I1 & T1 & R1 & P1 & W1).
    match goal with |- context [emit_list ?x ?y ?z ?k ?ch ?t] => replace (emit_list x y z k ch t) with (Ok (@nil N, s1)) by (symmetry; exact E) end. cbn [bind].
    unfold the_table. rewrite T1, (table_text ws t1 C R1 P1 W1). eexists. split; [reflexivity|]. split; [exact I1|apply starts_block; reflexivity].
Qed.
Lemma blocks_run : forall d nl anc s, xdoc_ok d = true -> inner_list s = [] -> starts_newline s = nl ->
  exists s', EL anc (flat_map (dom_tree [] 0) (map b2d d)) s = Ok (rawd nl d, s').
Proof.
  induction d as [|b d IH]; intros nl anc s C I SN; [exists s; reflexivity|]. unfold w_doc_ok in *. cbn [forallb] in C. apply andb_true_iff in C as [C1 C2]. cbn [map flat_map]. rewrite el_app.
  destruct (block_run b nl anc s C1 I SN) as (s1 & E1 & I1 & S1). rewrite E1. cbn [bind]. destruct (IH (bnl b) anc s1 C2 I1 S1) as (s2 & E2). rewrite E2. cbn [bind rawd].
  exists s2. rewrite <- !app_assoc. reflexivity.
Qed.
End Blocks.

Lemma raw_doc : forall r b nl, rawd nl (b :: r) = bpre nl b ++ cre_doc (b :: r) ++ bsuf (List.last r b).
Proof.
  induction r as [|c r IH]; intros b nl; [cbn [rawd w_doc List.last app]; rewrite !app_nil_r; reflexivity|].
  change (rawd nl (b :: c :: r)) with (bpre nl b ++ cre_block b ++ bsuf b ++ rawd (bnl b) (c :: r)). rewrite IH.
  change (cre_doc (b :: c :: r)) with (cre_block b ++ x_gap b c ++ cre_doc (c :: r)).
  assert (G : x_gap b c = bsuf b ++ bpre (bnl b) c) by (destruct b, c; reflexivity). rewrite G.
  assert (L : forall (r : list xblock) c b, List.last (c :: r) b = List.last r c).
  { clear. induction r as [|e r IH]; intros c b; [reflexivity|]. change (List.last (c :: e :: r) b) with (List.last (e :: r) b). rewrite (IH e b), (IH e c). reflexivity. }
  rewrite L, <- !app_assoc. reflexivity.
Qed.
Lemma doc_solid : forall d, xdoc_ok d = true -> d <> [] -> solid (cre_doc d) = true.
Proof.
  induction d as [|b d IH]; intros C NE; [congruence|]. unfold w_doc_ok in *. cbn [forallb] in C. apply andb_true_iff in C as [C1 C2]. apply block_solid in C1.
  destruct d as [|c d]; [cbn [w_doc app]; rewrite !app_nil_r; exact C1|].
  change (cre_doc (b :: c :: d)) with (cre_block b ++ x_gap b c ++ cre_doc (c :: d)). specialize (IH C2). pose proof (IH ltac:(discriminate)) as S2.
  apply solid_ends in C1 as (c1 & r1 & d1 & r1' & E1 & K1 & E2 & K2). apply solid_ends in S2 as (c2 & r2 & d2 & r2' & F1 & L1 & F2 & L2).
  eapply (solid_intro _ c1 (r1 ++ x_gap b c ++ cre_doc (c :: d)) d2 (cre_block b ++ x_gap b c ++ r2')); [rewrite E1; reflexivity|exact K1|rewrite F2, <- !app_assoc; reflexivity|exact L2].
Qed.
Theorem mask_creole : forall u strict d html, (forall t a c, inline_tag t = true -> fi t a c = true -> u t (attr_dict a) c = Ok (wu t a c)) ->
  xdoc_ok d = true -> written d html -> html2creole u strict html = Ok (cre_doc d).
Proof.
  intros u strict d html UW C W. unfold html2creole. rewrite (clean_tree d html (doc_shape d C) W). cbn [bind]. unfold emit_creole.
  rewrite (en_run u strict ($ "document") document_emit) by reflexivity. unfold node_run, document_emit, kids_of.
  destruct (blocks_run u strict UW d true [$ "document"] (set_last ($ "document", None) e_init) C eq_refl eq_refl) as (s1 & E).
  match goal with |- context [emit_list ?x ?y ?z ?k ?ch ?t] => replace (emit_list x y z k ch t) with (Ok (rawd true d, s1)) by (symmetry; exact E) end. cbn [bind].
  destruct d as [|b d]; [reflexivity|]. f_equal. rewrite raw_doc.
  assert (SO : solid (cre_doc (b :: d)) = true) by (apply doc_solid; [exact C|discriminate]).
  apply solid_ends in SO as (c1 & r1 & d1 & r1' & E1 & K1 & E2 & K2).
  apply strip_around; [destruct b; reflexivity|destruct (List.last d b); reflexivity|exists c1, r1; auto|exists d1, r1'; auto].
Qed.
End Masks.

(** without unknown tags *)
Definition nothing (t : str) (a : attrs) (x : str) : bool := false.
Lemma plain_inl : forall i b, w_inl bare b i = cre_inl b i.
Proof.
  assert (F : forall l b, Forall (fun i => forall b, w_inl bare b i = cre_inl b i) l -> flat_map (w_inl bare b) l = flat_map (cre_inl b) l).
  { intros l b. induction 1 as [|x l Hx Hl IH]; [reflexivity|]. cbn [flat_map]. rewrite Hx, IH. reflexivity. }
  induction i as [t|e|t a body IH|h body IH|src title alt|] using xinl_ind'; intro b; try reflexivity.
  - cbn [w_inl cre_inl]. rewrite (F body b IH). cbv zeta. unfold marked. destruct (existsb (str_eqb t) (map fst xfaces)) eqn:E; [reflexivity|].
    assert (M : xmark t = []).
    { unfold xmark. destruct (List.find _ xfaces) as [[k v]|] eqn:EF; [|reflexivity]. apply find_some in EF as [I EF]. cbn [fst] in EF. apply str_eqb_eq in EF. subst k.
      assert (X : existsb (str_eqb t) (map fst xfaces) = true) by (apply existsb_exists; exists t; split; [apply in_map_iff; exists (t, v); auto|apply str_eqb_refl]). congruence. }
    rewrite M, app_nil_r. unfold bare. destruct (str_eqb t ($ "span")); reflexivity.
  - cbn [w_inl cre_inl]. rewrite (F body b IH). reflexivity.
Qed.
Lemma plain_inls : forall l b, w_inls bare b l = cre_inls b l.
Proof. intros l b. unfold w_inls, cre_inls. induction l as [|x l IH]; [reflexivity|]. cbn [flat_map]. rewrite plain_inl, IH. reflexivity. Qed.
Lemma plain_item : forall i bl, w_item bare bl i = cre_item bl i.
Proof.
  induction i as [t o sub IH] using xitem_ind'. intro bl. cbn [w_item cre_item]. rewrite plain_inls. f_equal. generalize (bl ++ [if o then 35 else 42]). intro k.
  induction IH as [|x l Hx Hl IHl]; [reflexivity|]. cbn [flat_map]. rewrite Hx, IHl. reflexivity.
Qed.
Lemma plain_block : forall b, w_block bare b = cre_block b.
Proof.
  intros [l|n l| |o items|rows]; cbn [w_block cre_block]; rewrite ?plain_inls; try reflexivity.
  - do 1 f_equal. induction items as [|x l IH]; [reflexivity|]. cbn [flat_map]. rewrite plain_item, IH. reflexivity.
  - assert (E : map (map (w_cell bare)) rows = map (map cre_cell) rows) by (apply map_ext; intro r; apply map_ext; intro c; unfold w_cell, cre_cell; rewrite plain_inls; reflexivity).
    cbv zeta. rewrite E. reflexivity.
Qed.
Lemma plain_doc : forall d, w_doc bare d = cre_doc d.
Proof. induction d as [|b d IH]; [reflexivity|]. cbn [w_doc cre_doc]. rewrite plain_block, IH. reflexivity. Qed.
Lemma plain_fine_inl : forall b i, only_tags (map fst xfaces) i = true -> w_fine bare nothing b i = true.
Proof.
  intros b. assert (F : forall l, Forall (fun i => only_tags (map fst xfaces) i = true -> w_fine bare nothing b i = true) l -> forallb (only_tags (map fst xfaces)) l = true -> forallb (w_fine bare nothing b) l = true).
  { induction 1 as [|x l Hx Hl IH]; intro O; [reflexivity|]. cbn [forallb] in *. apply andb_true_iff in O as [O1 O2]. rewrite (Hx O1), (IH O2). reflexivity. }
  induction i as [t|e|t a body IH|h body IH|src title alt|] using xinl_ind'; intro O; try reflexivity.
  - cbn [w_fine only_tags] in *. apply andb_true_iff in O as [O1 O2]. rewrite (F body IH O2). unfold marked. rewrite O1. reflexivity.
  - cbn [w_fine only_tags] in *. exact (F body IH O).
Qed.
Lemma plain_fines : forall b l, forallb (only_tags (map fst xfaces)) l = true -> forallb (w_fine bare nothing b) l = true.
Proof. intros b l. apply forallb_impl. apply plain_fine_inl. Qed.
Lemma plain_text_ok : forall b l, text_ok b l = true -> w_text_ok bare nothing b l = true.
Proof. intros b l C. unfold text_ok in C. unfold w_text_ok. rewrite !andb_true_iff in C. destruct C as [[C1 C2] C3]. rewrite C1, (plain_fines b l C2), plain_inls, C3. reflexivity. Qed.
Lemma plain_item_ok : forall i, xitem_ok i = true -> w_item_ok bare nothing i = true.
Proof.
  induction i as [t o sub IH] using xitem_ind'. cbn [xitem_ok w_item_ok]. intro C. apply andb_true_iff in C as [C1 C2]. rewrite (plain_text_ok _ _ C1). cbn [andb].
  induction IH as [|x l Hx Hl IHl]; [reflexivity|]. cbn [forallb] in *. apply andb_true_iff in C2 as [C2 C3]. rewrite (Hx C2). apply IHl. exact C3.
Qed.
Lemma plain_block_ok : forall b, xblock_ok b = true -> w_block_ok bare nothing b = true.
Proof.
  intros [l|n l| |o items|rows]; cbn [xblock_ok w_block_ok]; intro C.
  - apply plain_text_ok. exact C.
  - apply andb_true_iff in C as [C0 C]. rewrite C0, (plain_text_ok _ _ C). reflexivity.
  - reflexivity.
  - apply andb_true_iff in C as [C0 C]. rewrite C0. cbn [andb]. eapply forallb_impl; [|exact C]. apply plain_item_ok.
  - destruct rows as [|r0 rows]; [discriminate C|]. apply andb_true_iff in C as [C0 C]. rewrite C0. cbn [andb]. eapply forallb_impl; [|exact C].
    intros r Hr. cbv beta in *. apply andb_true_iff in Hr as [H1 H2]. rewrite H1. cbn [andb]. eapply forallb_impl; [|exact H2]. intros c Hc. unfold xcell_ok in Hc. unfold w_cell_ok.
    cbv zeta in *. rewrite plain_inls. rewrite !andb_true_iff in Hc. destruct Hc as [[A1 A2] A3]. rewrite A1, (plain_fines _ _ A2), A3. reflexivity.
Qed.
Theorem clean_creole : forall u strict d html, xdoc_ok d = true -> written d html -> html2creole u strict html = Ok (cre_doc d).
Proof.
  intros u strict d html C W. rewrite <- plain_doc. apply (mask_creole bare nothing); [discriminate| |exact W]. eapply forallb_impl; [|exact C]. apply plain_block_ok.
Qed.
Lemma fits_some : forall t, fits t (flat_map part_src t).
Proof.
  induction t as [|p t IH]; [reflexivity|]. destruct p; cbn [fits flat_map]; try (eexists; split; [reflexivity|exact IH]).
  exists [], (flat_map part_src t). repeat split. exact IH.
Qed.
Lemma written_some : forall d, exists html, written d html.
Proof. intro d. eexists. apply fits_some. Qed.
(** a sufficient test *)
Fixpoint fitsb (l : list part) (s : str) : bool :=
  match l with
  | [] => is_nil s
  | Ws :: r => fitsb r (drop_while is_space s)
  | p :: r => startswith (part_src p) s && fitsb r (skipn (List.length (part_src p)) s)
  end.
Lemma fitsb_sound : forall l s, fitsb l s = true -> fits l s.
Proof.
  assert (P : forall (p : part) r s, p <> Ws -> (forall s, fitsb r s = true -> fits r s) -> startswith (part_src p) s && fitsb r (skipn (List.length (part_src p)) s) = true ->
    exists u, s = part_src p ++ u /\ fits r u).
  { intros p r s NW IH H. apply andb_true_iff in H as [H1 H2]. apply Safety.startswith_spec in H1 as (u & ->). exists u. split; [reflexivity|]. apply IH. rewrite skipn_app, skipn_all, Nat.sub_diag in H2. exact H2. }
  induction l as [|p l IH]; intros s H; [destruct s; [reflexivity|discriminate H]|]. destruct p; cbn [fitsb fits] in *; try (eapply P; [discriminate|exact IH|exact H]).
  destruct (drop_while_split is_space s) as (a & E & A). exists a, (drop_while is_space s). auto.
Qed.
