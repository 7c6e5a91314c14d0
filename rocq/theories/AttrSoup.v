(** * Attributes that mean nothing *)
From Coq Require Import String List Arith NArith ZArith Bool Lia.
From Verif Require Import PyStr PyStrFacts Utils Res DictFacts HtmlTools HtmlTok HtmlTokFacts HtmlParser Safety Spec2 TreeFacts Spec10 TokRun TagTok StripRun Spec11 CleanRun CleanDoc Spec29 Spelling HtmlBase Html2X SpellDoc Spec31 Soup.
From Verif Require EmitFacts.
Import ListNotations.
Open Scope N_scope.

Definition keeps (u : option (list str)) (d d' : pydict) : Prop :=
  match u with None => d = d' | Some ks => forall k, In k ks -> dict_get k d = dict_get k d' end.
Lemma keeps_refl : forall u d, keeps u d d.
Proof. intros [ks|] d; [intros k _|]; reflexivity. Qed.

Section Trees.
  Variable use : str -> option (list str).
  Hypothesis use_data : use ($ "blockdata") = None /\ use ($ "inlinedata") = None.
  Inductive tkr : tok -> tok -> Prop :=
  | tkr_same t : tkr t t
  | tkr_start t a a' : keeps (uses_open use t) (dict_of a) (dict_of a') -> tkr (TStart t a) (TStart t a')
  | tkr_self t a a' : keeps (use t) (dict_of a) (dict_of a') -> tkr (TStartEnd t a) (TStartEnd t a')
  | tkr_br (b b' : bool) a a' : keeps (use ($ "br")) (dict_of a) (dict_of a') ->
      tkr (if b then TStart ($ "br") a else TStartEnd ($ "br") a) (if b' then TStart ($ "br") a' else TStartEnd ($ "br") a').
  Inductive nn : hnode -> hnode -> Prop :=
  | nn_mk k c a a' l ch ch' : keeps (use k) a a' -> Forall2 nn ch ch' -> nn (HN k c a l ch) (HN k c a' l ch').
  Definition fr (f f' : frame) : Prop := f_kind f = f_kind f' /\ f_level f = f_level f' /\ keeps (use (f_kind f)) (f_attrs f) (f_attrs f') /\ Forall2 nn (f_kids f) (f_kids f').
  Inductive cr : cursor -> cursor -> Prop :=
  | cr_live t t' u u' : fr t t' -> Forall2 fr u u' -> cr (Live t u) (Live t' u')
  | cr_lost n n' : nn n n' -> cr (Lost n) (Lost n').
  Definition hr (h h' : hstate) : Prop := cr (cur h) (cur h') /\ list_level h = list_level h' /\ blockdata h = blockdata h'.

  Lemma Forall2_rev' : forall (l l' : list hnode), Forall2 nn l l' -> Forall2 nn (rev l) (rev l').
  Proof. intros l l' H. induction H; cbn [rev]; [constructor|]. apply Forall2_app; [assumption|]. constructor; [assumption|constructor]. Qed.
  Lemma close_nn : forall f f', fr f f' -> nn (close f) (close f').
  Proof. intros [k a l ks] [k' a' l' ks'] (E1 & E2 & E3 & E4). cbn [f_kind f_level f_attrs f_kids] in *. subst. unfold close. cbn [f_kind f_level f_attrs f_kids]. constructor; [exact E3|apply Forall2_rev'; exact E4]. Qed.
  Lemma add_fr : forall f f' n n', fr f f' -> nn n n' -> fr (add_kid f n) (add_kid f' n').
  Proof. intros f f' n n' (E1 & E2 & E3 & E4) N. unfold add_kid. repeat split; cbn [f_kind f_level f_attrs f_kids]; try assumption. constructor; assumption. Qed.
  Lemma leaf_cr : forall n n' c c', nn n n' -> cr c c' -> cr (leaf n c) (leaf n' c').
  Proof. intros n n' c c' N [t t' u u' T U|r r' R]; cbn [leaf]; constructor; try assumption. apply add_fr; assumption. Qed.
  Lemma push_cr : forall k a a' l c c', keeps (use k) a a' -> cr c c' -> cr (push k a l c) (push k a' l c').
  Proof. intros k a a' l c c' K [t t' u u' T U|r r' R]; cbn [push]; constructor; try assumption; [|constructor; assumption]. repeat split; cbn [f_kind f_level f_attrs f_kids]; [exact K|constructor]. Qed.
  Lemma parent_cr : forall c c', cr c c' -> cr (go_parent c) (go_parent c').
  Proof.
    intros c c' [t t' u u' T U|r r' R]; [|constructor; exact R]. destruct U as [|p p' u u' P U]; cbn [go_parent]; constructor; [apply close_nn; exact T| |exact U]. apply add_fr; [exact P|apply close_nn; exact T].
  Qed.
  Lemma upto_cr : forall kinds u u' t t', fr t t' -> Forall2 fr u u' -> cr (upto_kinds kinds t u) (upto_kinds kinds t' u').
  Proof.
    intros kinds u u' t t' T U. revert t t' T. induction U as [|p p' u u' P U IH]; intros t t' T; cbn [upto_kinds]; [constructor; [exact T|constructor]|].
    assert (A : fr (add_kid p (close t)) (add_kid p' (close t'))) by (apply add_fr; [exact P|apply close_nn; exact T]). rewrite (proj1 P). destruct (in_list kinds (f_kind p')); [constructor; assumption|]. apply IH. exact A.
  Qed.
  Lemma go_up_cr : forall c c', cr c c' -> cr (go_up c) (go_up c').
  Proof. intros c c' [t t' u u' T U|r r' R]; cbn [go_up]; [apply upto_cr; assumption|constructor; exact R]. Qed.
  Definition rr {A} (R : A -> A -> Prop) (x y : res A) : Prop := match x, y with Ok a, Ok b => R a b | Exc e, Exc e' => e = e' | _, _ => False end.
  Lemma start_hr : forall t a a' h h', keeps (uses_open use t) (dict_of a) (dict_of a') -> hr h h' -> hr (handle_starttag t a h) (handle_starttag t a' h').
  Proof.
    intros t a a' h h' K (H1 & H2 & H3). unfold handle_starttag. unfold uses_open in K. destruct (in_names (heading_tags ++ [$ "tbody"]) t) eqn:E.
    - unfold in_names in E. apply existsb_exists in E as (x & I & E). apply str_eqb_eq in E. subst x.
      cbv [heading_tags app] in I. repeat (destruct I as [<-|I]; [repeat split; cbn; try assumption; try (apply push_cr; [apply keeps_refl|exact H1])|]). destruct I.
    - destruct (in_list IGNORE_TAGS t); [repeat split; assumption|]. destruct (headline_level t) as [l|].
      + repeat split; cbn [cur list_level blockdata]; try assumption. apply push_cr; [apply keeps_refl|exact H1].
      + rewrite H2. destruct (in_list [$ "li"; $ "ul"; $ "ol"] t); [repeat split; cbn [cur list_level blockdata]; try assumption; apply push_cr; assumption|].
        destruct (in_list [$ "img"; $ "br"] t); repeat split; cbn [cur list_level blockdata]; try assumption; [apply leaf_cr; [|exact H1]|apply push_cr; assumption].
        constructor; [exact K|constructor].
  Qed.
  Lemma self_hr : forall t a a' h h', keeps (use t) (dict_of a) (dict_of a') -> hr h h' -> rr hr (handle_startendtag t a h) (handle_startendtag t a' h').
  Proof.
    intros t a a' h h' K (H1 & H2 & H3). unfold handle_startendtag. cbv zeta. destruct (in_list [$ "blockdata"; $ "inlinedata"] t) eqn:E.
    - assert (D : dict_of a = dict_of a').
      { unfold in_list in E. apply existsb_exists in E as (x & I & E). apply str_eqb_eq in E. subst x. destruct use_data as [U1 U2]. destruct I as [<-|[<-|[]]]; [rewrite U1 in K|rewrite U2 in K]; exact K. }
      rewrite <- D, H3. destruct (dict_get ($ "id") (dict_of a)) as [[s|z|b|]|]; cbn [rr]; try reflexivity. destruct (py_int s) as [i|]; cbn [rr]; [|reflexivity].
      destruct (dict_get ($ "type") (dict_of a)) as [ty|]; cbn [rr]; [|reflexivity]. destruct (py_index (blockdata h') i) as [data|]; cbn [rr]; [|reflexivity].
      repeat split; cbn [cur list_level blockdata]; try assumption. apply leaf_cr; [|exact H1]. constructor; [apply keeps_refl|constructor].
    - cbn [rr]. repeat split; cbn [cur list_level blockdata]; try assumption. apply leaf_cr; [|exact H1]. constructor; [exact K|constructor].
  Qed.
  Lemma leaf_hr : forall k c h h', hr h h' -> hr (handle_leaf k c h) (handle_leaf k c h').
  Proof. intros k c h h' (H1 & H2 & H3). repeat split; cbn [handle_leaf cur list_level blockdata]; try assumption. apply leaf_cr; [|exact H1]. constructor; [apply keeps_refl|constructor]. Qed.
  Lemma br_self : forall a h, handle_startendtag ($ "br") a h = Ok (handle_starttag ($ "br") a h).
  Proof. reflexivity. Qed.
  Lemma br_open : uses_open use ($ "br") = use ($ "br").
  Proof. reflexivity. Qed.
  Lemma handle_hr : forall t t' h h', tkr t t' -> hr h h' -> rr hr (handle t h) (handle t' h').
  Proof.
    intros t t' h h' T H. destruct T as [t|t a a' K|t a a' K|b b' a a' K].
    - destruct t as [t a|t a|t|s|s|s]; cbn [handle].
      + apply start_hr; [apply keeps_refl|exact H].
      + apply self_hr; [apply keeps_refl|exact H].
      + destruct H as (H1 & H2 & H3). unfold handle_endtag. cbn [rr]. destruct (in_list IGNORE_TAGS t); [repeat split; assumption|]. destruct (str_eqb t ($ "br")); [repeat split; assumption|].
        repeat split; cbn [cur list_level blockdata]; try assumption; [|rewrite H2; reflexivity]. destruct (in_list BLOCK_TAGS t); [apply go_up_cr|apply parent_cr]; exact H1.
      + apply leaf_hr. exact H.
      + apply leaf_hr. exact H.
      + apply leaf_hr. exact H.
    - apply start_hr; assumption.
    - apply self_hr; assumption.
    - destruct b, b'; cbn [handle]; rewrite ?br_self; (apply start_hr; [rewrite br_open; exact K|exact H]).
  Qed.
  Lemma handle_all_hr : forall ts ts' h h', Forall2 tkr ts ts' -> hr h h' -> rr hr (handle_all ts h) (handle_all ts' h').
  Proof.
    intros ts ts' h h' T. revert h h'. induction T as [|t t' ts ts' T _ IH]; intros h h' H; cbn [handle_all]; [exact H|].
    pose proof (handle_hr t t' h h' T H) as K. destruct (handle t h) as [x|e], (handle t' h') as [x'|e']; cbn [rr bind] in *; try contradiction; [apply IH; exact K|exact K].
  Qed.
  Lemma root_nn : forall c c', cr c c' -> nn (root_of c) (root_of c').
  Proof.
    intros c c' [t t' u u' T U|r r' R]; [|exact R]. cbn [root_of].
    assert (G : forall n n', nn n n' -> nn (close_up n u) (close_up n' u')).
    { induction U as [|p p' u u' P U IH]; intros n n' N; cbn [close_up]; [exact N|]. apply IH. apply close_nn. apply add_fr; assumption. }
    apply G. apply close_nn. exact T.
  Qed.
  Theorem feed_nn : forall l l', near tkr l l' -> rr nn (parse_html (pcs_src l)) (parse_html (pcs_src l')).
  Proof.
    intros l l' H. pose proof (near_never_pre tkr l l' H) as [P P']. destruct (strip_near tkr l l' H) as (rs & rs' & R1 & R2 & R3).
    unfold parse_html, feed. rewrite !preprocess_plain by assumption. cbn [bind]. rewrite R1, R2. unfold feed_tokens, tokens.
    destruct (toks_near tkr (fun s => tkr_same _) (fun s => tkr_same _) (fun s => tkr_same _) (S (List.length rs)) rs rs' (Nat.lt_succ_diag_r _) R3) as (ts & ts' & T & T1 & T2).
    change (tokens (pcs_src rs) = (ts, false)) in T1. change (tokens (pcs_src rs') = (ts', false)) in T2. unfold tokens in T1, T2. rewrite T1, T2. clear T1 T2.
    assert (H0 : hr (h_init []) (h_init [])) by (repeat split; cbn; constructor; [|constructor]; repeat split; [apply keeps_refl|constructor]).
    pose proof (handle_all_hr ts ts' _ _ T H0) as K. destruct (handle_all ts (h_init [])) as [x|e], (handle_all ts' (h_init [])) as [x'|e']; cbn [rr bind] in *; try contradiction; [|exact K].
    apply root_nn. apply K.
  Qed.

  (** ** the emitters *)
  Definition heeds (u : option (list str)) (f : meth) : Prop := forall k c a a' l anc kids kids' s, keeps u a a' -> (forall s, kids s = kids' s) -> f (mkn k c a l anc) kids s = f (mkn k c a' l anc) kids' s.
  Variable ms : methods.
  Hypothesis known : Forall (fun kf => heeds (use (fst kf)) (snd kf)) ms.
  Hypothesis unknown_all : forall k, find_meth ms k = None -> use k = None.
  Lemma find_heeds : forall k f, find_meth ms k = Some f -> heeds (use k) f.
  Proof.
    clear unknown_all. intros k f. pose proof known as KN. clear known. induction KN as [|[k' f'] ms' H _ IH]; cbn [find_meth]; [discriminate|]. destruct (str_eqb k' k) eqn:E; [|exact IH].
    apply str_eqb_eq in E. subst k'. intro X. injection X as <-. exact H.
  Qed.
  Theorem emit_nn : forall (u : unknown) pre n n' anc s, nn n n' -> emit_node ms u pre anc n s = emit_node ms u pre anc n' s.
  Proof.
    intros u pre n. induction n as [k c a l ch IH] using EmitFacts.hnode_ind'. intros n' anc s N. inversion N as [? ? ? a' ? ? ch' K F]; subst.
    rewrite !EmitFacts.emit_node_eq. unfold EmitFacts.kids_of. destruct (pre anc s) as [p s1].
    assert (G : forall s, EmitFacts.emit_list ms u pre (k :: anc) ch s = EmitFacts.emit_list ms u pre (k :: anc) ch' s).
    { clear N. revert ch' F. induction IH as [|x ch X _ IHl]; intros ch' F s0; inversion F as [|? x' ? ? Y F']; subst; [reflexivity|].
      cbn [EmitFacts.emit_list]. rewrite (X x' (k :: anc) s0 Y). destruct (emit_node ms u pre (k :: anc) x' s0) as [[r s2]|e]; cbn [bind]; [|reflexivity]. rewrite (IHl _ F'). reflexivity. }
    assert (R : forall s0, run_meth ms u (mkn k c a l anc) (fun s => EmitFacts.emit_list ms u pre (k :: anc) ch (set_last (k, c) s)) s0 =
                           run_meth ms u (mkn k c a' l anc) (fun s => EmitFacts.emit_list ms u pre (k :: anc) ch' (set_last (k, c) s)) s0).
    { intro s0. unfold run_meth. cbn [n_kind n_attrs]. destruct (find_meth ms k) as [f|] eqn:E.
      - apply (find_heeds k f E); [exact K|]. intro s2. apply G.
      - rewrite G. rewrite (unknown_all k E) in K. cbn [keeps] in K. subst a'. reflexivity. }
    rewrite R. reflexivity.
  Qed.
End Trees.

(** ** the methods *)
Ltac heed := intros k c a a' l anc kids kids' s K Q; cbn [keeps fst snd] in K;
  try (cbn [keeps] in K; subst a');
  unfold document_emit, r_small, const_emit; cbn [snd fst];
  first [ reflexivity | exact (Q s) |
  unfold typeface, c_p, c_headline, c_a, c_img, list_emit, content_emit, li_emit, table_emit, tr_emit, cell_emit, p_emit, br_emit, t_headline, t_a, t_img, m_table, m_cell, m_p, m_headline, m_html, m_a, m_img, m_list, m_li, m_code, r_document, r_headline, r_a, r_img, r_code, r_li, r_list, r_table, content_emit, attr, attr_len, img_parts, attr, attr_len, level_of, should_substitute;
  cbn [n_kind n_content n_attrs n_level n_anc];
  try rewrite !(K ($ "href")) by (cbn; auto 10);
  try rewrite !(K ($ "src")) by (cbn; auto 10);
  try rewrite !(K ($ "alt")) by (cbn; auto 10);
  try rewrite !(K ($ "title")) by (cbn; auto 10);
  try rewrite !(K ($ "width")) by (cbn; auto 10);
  try rewrite !(K ($ "height")) by (cbn; auto 10);
  rewrite ?Q; try reflexivity;
  try (destruct (tbl s); rewrite ?Q; reflexivity) ].
Ltac heed_all := cbn [app]; repeat (apply Forall_cons; [cbn [fst snd];
  match goal with |- heeds ?x _ => let v := eval vm_compute in x in change x with v end; heed|]); apply Forall_nil.
Lemma textile_heeds : Forall (fun kf => heeds (textile_uses (fst kf)) (snd kf)) textile_methods.
Proof. unfold textile_methods, base_methods. heed_all. Qed.
Lemma markdown_heeds : Forall (fun kf => heeds (markdown_uses (fst kf)) (snd kf)) markdown_methods.
Proof. unfold markdown_methods, base_methods. heed_all. Qed.
Lemma rest_heeds : Forall (fun kf => heeds (rest_uses (fst kf)) (snd kf)) rest_methods.
Proof. unfold rest_methods, base_methods. heed_all. Qed.
Lemma creole_heeds : forall strict, Forall (fun kf => heeds (creole_uses strict (fst kf)) (snd kf)) (creole_methods strict).
Proof. intros []; unfold creole_methods, base_methods; heed_all. Qed.

Lemma uses_known : forall link image tags ms, forallb (fun k => match find_meth ms k with Some _ => true | None => false end) ([$ "a"; $ "img"] ++ tags) = true ->
  forall k, find_meth ms k = None -> uses link image tags k = None.
Proof.
  intros link image tags ms H k E. rewrite forallb_forall in H. assert (G : ~ In k ([$ "a"; $ "img"] ++ tags)) by (intro I; specialize (H k I); rewrite E in H; discriminate).
  unfold uses. destruct (str_eqb k ($ "a")) eqn:E1; [apply str_eqb_eq in E1; subst; exfalso; apply G; left; reflexivity|].
  destruct (str_eqb k ($ "img")) eqn:E2; [apply str_eqb_eq in E2; subst; exfalso; apply G; right; left; reflexivity|].
  destruct (in_names tags k) eqn:E3; [|reflexivity]. unfold in_names in E3. apply existsb_exists in E3 as (x & I & E3). apply str_eqb_eq in E3. subst x. exfalso. apply G. apply in_or_app. right. exact I.
Qed.

(** ** attributes *)
Lemma get_last : forall a d k, forallb attr_ok a = true -> match dict_get k d with Some (VStr _) | None => True | _ => False end ->
  dict_get k (fold_left (fun d (kv : str * pyval) => dict_set (fst kv) (snd kv) d) a d) =
  match fold_left (fun v (kv : str * pyval) => if str_eqb (fst kv) k then snd kv else v) a (match dict_get k d with Some v => v | None => VNone end) with VNone => None | v => Some v end.
Proof.
  induction a as [|[k0 v0] a IH]; intros d k A D; cbn [fold_left fst snd].
  - destruct (dict_get k d) as [[]|]; try contradiction; reflexivity.
  - cbn [forallb] in A. apply andb_true_iff in A as [A1 A2]. unfold attr_ok in A1. cbn [fst snd] in A1. apply andb_true_iff in A1 as [_ A1]. destruct v0 as [v0|z|b|]; try discriminate.
    rewrite IH; [|exact A2|]; rewrite dict_get_set.
    + destruct (str_eqb k0 k) eqn:E; [apply str_eqb_eq in E; subst k0; rewrite str_eqb_refl; reflexivity|]. destruct (str_eqb k k0) eqn:E'; [|reflexivity]. apply str_eqb_eq in E'. subst. rewrite str_eqb_refl in E. discriminate.
    + destruct (str_eqb k k0); [exact I|exact D].
Qed.
Lemma keeps_same : forall u a a', forallb attr_ok a = true -> forallb attr_ok a' = true -> same_attrs u a a' -> keeps u (dict_of a) (dict_of a').
Proof.
  intros [ks|] a a' A A' S; cbn [keeps same_attrs] in *; [|subst; reflexivity]. intros k I. specialize (S k I). unfold last_value in S.
  unfold dict_of. rewrite !get_last by (try assumption; exact Logic.I). cbn [dict_get]. rewrite S. reflexivity.
Qed.

(** ** parts *)
Definition tag_of (p : part) : str := match p with Open t _ | Single t _ | Close t => t | _ => [] end.
Definition shut (p : part) : bool := match p with Close _ => true | _ => false end.
Definition alone (p : part) : bool := match p with Single _ _ => true | _ => false end.
Definition is_tag (p : part) : bool := match p with Open _ _ | Single _ _ | Close _ => true | _ => false end.
Definition reading (p : part) (k : tok) : Prop :=
  match p with
  | Open t a => k = TStart t a
  | Close t => k = TEnd t
  | Single t a => k = TStartEnd t a \/ (t = $ "br" /\ k = TStart t a)
  | _ => False
  end.
Record tagged (p : part) (n a : str) : Prop := {
  tg_name : cname n = true; tg_good : good a; tg_blk : blk n = blk (tag_of p); tg_pre : n <> $ "pre";
  tg_end : blk (tag_of p) = false -> endswith [47] a = alone p;
  tg_tok : exists k, reading p k /\ forall y, one None (tag_src (shut p) n a ++ y) = Next [k] y None }.
Lemma plain_tag : forall t, tag_plain t = true -> tag_name t = true /\ in_list [$ "script"; $ "style"] t = false.
Proof.
  intros t H. unfold tag_plain, tag_ok in H. apply andb_true_iff in H as [H P]. apply andb_true_iff in H as [H S2]. apply andb_true_iff in H as [H S1]. split; [unfold tag_name; rewrite H, P; reflexivity|].
  unfold in_list. cbn [existsb]. destruct (str_eqb t ($ "script")); [discriminate|]. destruct (str_eqb t ($ "style")); [discriminate|reflexivity].
Qed.
Lemma part_tagged : forall p v, part_plain p -> part_written p v -> is_tag p = true -> exists n a, tagged p n a /\ tag_src (shut p) n a = v.
Proof.
  intros p v K W Tg. destruct W as [t a n s j N A|t n j N|t a n s j N A Q|a s j A|w]; cbn [part_plain is_tag] in *; [| | | |discriminate].
  - destruct K as [K1 K2]. apply plain_tag in K1 as [K1 K4]. change (forallb attr_fine a = true) in K2. pose proof (fine_ok a K2) as K3. destruct (good_written a s A K2) as [G E].
    destruct (written_name t n K1 N) as (N1 & N2 & N3 & N4). exists n, (s ++ gap j). split.
    + constructor; [exact N1|apply good_app; exact G|exact N3|exact N4|intros _; apply no_slash; exact E|]. exists (TStart t a). split; [reflexivity|]. intro y.
      pose proof (tok_open t n a s j false y K1 N K3 A ltac:(discriminate)) as X. rewrite app_nil_r in X. rewrite K4 in X. exact X.
    + unfold tag_src. cbn [shut app]. rewrite <- ?app_assoc. reflexivity.
  - apply plain_tag in K as [K1 K4]. destruct (written_name t n K1 N) as (N1 & N2 & N3 & N4). exists n, (gap j). split.
    + constructor; [exact N1|apply (good_app [] j); split; [left|]; reflexivity|exact N3|exact N4|intros _; apply (no_slash [] j); left; reflexivity|]. exists (TEnd t). split; [reflexivity|]. intro y. exact (tok_close t n j y K1 N).
    + unfold tag_src. cbn [shut app]. rewrite <- ?app_assoc. reflexivity.
  - destruct K as [K1 K2]. apply plain_tag in K1 as [K1 K4]. change (forallb attr_fine a = true) in K2. pose proof (fine_ok a K2) as K3. destruct (good_written a s A K2) as [G E].
    destruct (written_name t n K1 N) as (N1 & N2 & N3 & N4).
    assert (S1 : good (s ++ gap j ++ [47])).
    { destruct (good_app s j G) as [X1 X2]. rewrite app_assoc. split; [|rewrite forallb_app, X2; reflexivity].
      destruct X1 as [X1|(u & ->)]; [|right; eexists; reflexivity]. exfalso. apply app_eq_nil in X1 as [X1 X3]. destruct j; [|discriminate]. destruct (Q eq_refl) as (u & Qu). rewrite X1 in Qu. destruct u; destruct Qu; discriminate. }
    exists n, (s ++ gap j ++ [47]). split.
    + constructor; [exact N1|exact S1|exact N3|exact N4|intros _; rewrite app_assoc, end47; reflexivity|]. exists (TStartEnd t a). split; [left; reflexivity|]. intro y. exact (tok_open t n a s j true y K1 N K3 A (fun _ => Q)).
    + unfold tag_src. cbn [shut app]. rewrite <- ?app_assoc. reflexivity.
  - destruct K as [K1 K2]. apply plain_tag in K1 as [K1 K4]. change (forallb attr_fine a = true) in K2. pose proof (fine_ok a K2) as K3. destruct (good_written a s A K2) as [G E].
    exists ($ "br"), (s ++ gap j). split.
    + constructor; [reflexivity|apply good_app; exact G|reflexivity|discriminate|intro B; discriminate B|]. exists (TStart ($ "br") a). split; [right; split; reflexivity|]. intro y.
      pose proof (tok_open ($ "br") ($ "br") a s j false y K1 (name_self _) K3 A ltac:(discriminate)) as X. rewrite app_nil_r in X. exact X.
    + unfold tag_src. cbn [shut app]. rewrite <- ?app_assoc. reflexivity.
Qed.

Section Parts.
  Variable use : str -> option (list str).
  Lemma same_reading : forall p p' k k', part_plain p -> part_plain p' -> same_part use p p' -> reading p k -> reading p' k' -> tkr use k k'.
  Proof.
    intros p p' k k' P P' S R R'. destruct p as [t a|t|t a|w|], p' as [t' a'|t'|t' a'|w'|]; cbn [same_part reading] in *; try discriminate; try contradiction.
    - destruct S as [-> S]. subst k k'. destruct P as [_ P], P' as [_ P']. constructor. apply keeps_same; [apply fine_ok; exact P|apply fine_ok; exact P'|exact S].
    - injection S as ->. subst. constructor.
    - destruct S as [-> S]. destruct P as [_ P], P' as [_ P'].
      assert (K : keeps (use t') (dict_of a) (dict_of a')) by (apply keeps_same; [apply fine_ok; exact P|apply fine_ok; exact P'|exact S]).
      destruct R as [->|[Et ->]], R' as [->|[Et' ->]]; [constructor; exact K| | |]; try subst t'.
      + exact (tkr_br use false true a a' K).
      + exact (tkr_br use true false a a' K).
      + exact (tkr_br use true true a a' K).
  Qed.
  Lemma same_shape : forall p p', same_part use p p' -> is_tag p = is_tag p' /\ tag_of p = tag_of p' /\ shut p = shut p' /\ alone p = alone p'.
  Proof.
    intros p p' S. destruct p as [t a|t|t a|w|], p' as [t' a'|t'|t' a'|w'|]; cbn [same_part] in S; try discriminate; try (destruct S as [? S]); try (injection S as ?); subst; repeat split.
  Qed.
  Lemma readable_near : forall tk w, readable w -> near tk (map Ch w) (map Ch w).
  Proof.
    intros tk w H. induction H as [|c w C1 C2 _ IH|n w N _ IH|n w N _ IH].
    - constructor.
    - cbn [map]. constructor; assumption.
    - rewrite (app_assoc n), (app_assoc ($ "&#")), map_app. apply near_ref; [|exact IH]. exists (DChar n). repeat split. exact N.
    - rewrite (app_assoc n), (app_assoc ($ "&")), map_app. apply near_ref; [|exact IH]. exists (DEnt n). repeat split. exact N.
  Qed.
  Lemma parts_near : forall ps ps' s s', Forall2 (same_part use) ps ps' -> soup ps s -> soup ps' s' -> exists l l', near (tkr use) l l' /\ pcs_src l = s /\ pcs_src l' = s'.
  Proof.
    intros ps ps' s s' F. revert s s'. induction F as [|p p' ps ps' S _ IH]; intros s s' H H'; cbn [soup] in H, H'.
    - subst. exists [], []. split; [constructor|split; reflexivity].
    - destruct H as (v & u & P & W & -> & H). destruct H' as (v' & u' & P' & W' & -> & H'). destruct (IH u u' H H') as (l & l' & N & <- & <-).
      destruct (same_shape p p' S) as (E1 & E2 & E3 & E4). destruct (is_tag p) eqn:T.
      + destruct (part_tagged p v P W T) as (n & a & G & <-). destruct (part_tagged p' v' P' W' (eq_sym E1)) as (n' & a' & G' & <-).
        exists (Tg (shut p) n a :: l), (Tg (shut p') n' a' :: l'). rewrite <- E3. split; [|split; reflexivity].
        destruct G as [G1 G2 G3 G4 G5 (k & G6 & G7)], G' as [G1' G2' G3' G4' G5' (k' & G6' & G7')].
        destruct (good_fine (shut p) n a G1 G2) as (F1 & F2 & F3). destruct (good_fine (shut p) n' a' G1' G2') as (F1' & F2' & F3').
        apply near_tg; [|exact N]. constructor; try assumption.
        * rewrite G3, G3', E2. reflexivity.
        * intro B. rewrite G3 in B. rewrite (G5 B). rewrite E2 in B. rewrite (G5' B). symmetry. exact E4.
        * exists k, k'. split; [exact (same_reading p p' k k' P P' S G6 G6')|]. split; [exact G7|]. rewrite E3. exact G7'.
      + destruct p as [t a|t|t a|w|]; try discriminate T; [|destruct P]. destruct p' as [t' a'|t'|t' a'|w'|]; try discriminate E1; [|destruct P'].
        cbn [same_part] in S. injection S as <-. assert (v = w) by (inversion W; reflexivity). assert (v' = w) by (inversion W'; reflexivity). subst v v'. cbn [part_plain] in P.
        exists (map Ch w ++ l), (map Ch w ++ l'). split; [|split; rewrite pcs_app; f_equal; apply chars_src]. apply near_app; [apply readable_near; exact P|exact N].
  Qed.
End Parts.

Lemma same_result : forall use ms (u : unknown) pre (fin : str -> str) ps ps' html html',
  use ($ "blockdata") = None /\ use ($ "inlinedata") = None -> Forall (fun kf => heeds (use (fst kf)) (snd kf)) ms -> (forall k, find_meth ms k = None -> use k = None) ->
  Forall2 (same_part use) ps ps' -> soup ps html -> soup ps' html' ->
  (do root <- parse_html html; do (r, _) <- emit_node ms u pre [] root e_init; Ok (fin r)) = (do root <- parse_html html'; do (r, _) <- emit_node ms u pre [] root e_init; Ok (fin r)).
Proof.
  intros use ms u pre fin ps ps' html html' U H K F S S'. destruct (parts_near use ps ps' html html' F S S') as (l & l' & N & <- & <-).
  pose proof (feed_nn use U l l' N) as R. destruct (parse_html (pcs_src l)) as [x|e], (parse_html (pcs_src l')) as [x'|e']; cbn [rr bind] in *; try contradiction; [|subst; reflexivity].
  rewrite (emit_nn use ms H K u pre x x' [] e_init R). reflexivity.
Qed.
Theorem creole_attrs : forall (u : unknown) (strict : bool) ps ps' html html', Forall2 (same_part (creole_uses strict)) ps ps' -> soup ps html -> soup ps' html' -> html2creole u strict html = html2creole u strict html'.
Proof.
  intros u strict ps ps' html html' F S S'. unfold html2creole, emit_creole. refine (same_result _ _ u no_pre _ ps ps' html html' _ (creole_heeds strict) _ F S S'); [split; destruct strict; reflexivity|].
  apply uses_known. destruct strict; reflexivity.
Qed.
Theorem textile_attrs : forall (u : unknown) ps ps' html html', Forall2 (same_part textile_uses) ps ps' -> soup ps html -> soup ps' html' -> html2textile u html = html2textile u html'.
Proof. intros u ps ps' html html' F S S'. unfold html2textile, emit_textile. refine (same_result _ _ u no_pre _ ps ps' html html' _ textile_heeds _ F S S'); [split; reflexivity|]. apply uses_known. reflexivity. Qed.
Theorem markdown_attrs : forall (u : unknown) ps ps' html html', Forall2 (same_part markdown_uses) ps ps' -> soup ps html -> soup ps' html' -> html2markdown u html = html2markdown u html'.
Proof. intros u ps ps' html html' F S S'. unfold html2markdown, emit_markdown. refine (same_result _ _ u no_pre _ ps ps' html html' _ markdown_heeds _ F S S'); [split; reflexivity|]. apply uses_known. reflexivity. Qed.
Theorem rest_attrs : forall (u : unknown) ps ps' html html', Forall2 (same_part rest_uses) ps ps' -> soup ps html -> soup ps' html' -> html2rest u html = html2rest u html'.
Proof. intros u ps ps' html html' F S S'. unfold html2rest, emit_rest. refine (same_result _ _ u rest_pre _ ps ps' html html' _ rest_heeds _ F S S'); [split; reflexivity|]. apply uses_known. reflexivity. Qed.

Lemma same_part_refl : forall use p, same_part use p p.
Proof. intros use [t a|t|t a|w|]; cbn [same_part]; try reflexivity; (split; [reflexivity|]); [destruct (uses_open use t)|destruct (use t)]; cbn [same_attrs]; reflexivity. Qed.
Lemma same_parts_refl : forall use ps, Forall2 (same_part use) ps ps.
Proof. intros use. induction ps; constructor; [apply same_part_refl|assumption]. Qed.
Theorem soup_spelling : forall (u : unknown) (strict : bool) ps html html', soup ps html -> soup ps html' ->
  html2creole u strict html = html2creole u strict html' /\ html2textile u html = html2textile u html' /\ html2markdown u html = html2markdown u html' /\ html2rest u html = html2rest u html'.
Proof.
  intros u strict ps html html' S S'. repeat split; [apply (creole_attrs u strict ps ps)|apply (textile_attrs u ps ps)|apply (markdown_attrs u ps ps)|apply (rest_attrs u ps ps)]; try assumption; apply same_parts_refl.
Qed.
Lemma part_src_written : forall p, part_plain p -> part_written p (part_src p).
Proof.
  intros [t a|t|t a|w|] P; cbn [part_plain part_src] in *.
  - destruct P as [_ P]. change (forallb attr_fine a = true) in P. pose proof (open_written t a t _ 0 (name_self t) (show_written a (fine_ok a P))) as X. cbn [gap repeat app] in X. exact X.
  - exact (close_written t t 0 (name_self t)).
  - destruct P as [_ P]. change (forallb attr_fine a = true) in P. exact (single_written t a t _ 1 (name_self t) (show_written a (fine_ok a P)) ltac:(discriminate)).
  - constructor.
  - destruct P.
Qed.
Theorem soup_plain : forall ps, Forall part_plain ps -> soup ps (flat_map part_src ps).
Proof. induction ps as [|p ps IH]; intro H; cbn [soup flat_map]; [reflexivity|]. inversion H as [|? ? H1 H2]; subst. exists (part_src p), (flat_map part_src ps). repeat split; [exact H1|apply part_src_written; exact H1|apply IH; exact H2]. Qed.
Lemma readable_plain : forall w, forallb (fun c => negb ((c =? 60) || (c =? 38))) w = true -> readable w.
Proof.
  induction w as [|c w IH]; intro H; [constructor|]. cbn [forallb] in H. apply andb_true_iff in H as [H1 H2]. apply negb_true_iff, orb_false_iff in H1 as [H1 H3]. apply N.eqb_neq in H1, H3. constructor; auto.
Qed.
