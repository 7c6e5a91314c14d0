(** * Proofs behind P3_Html2X.v *)
From Coq Require Import String List Arith NArith ZArith Bool Lia.
From Verif Require Import PyStr PyStrFacts Utils Res HtmlTools HtmlTok HtmlParser MarkupTable HtmlBase Html2X.
From Verif Require Import Spec2 TreeFacts Spec3 EmitFacts RenameFacts RestFacts P2_Lemmas.
Import ListNotations.
Open Scope N_scope.

(** ** C35 *)
Lemma headline_adornment : forall l, headline_data (if (6 <? l)%Z then 6%Z else l) = adornment l.
Proof.
  intro l. unfold adornment. destruct (Z.ltb_spec 6 l) as [H|H].
  - cbn [headline_data]. repeat match goal with |- context [(?a =? ?b)%Z] => destruct (Z.eqb_spec a b); [lia|] end.
    destruct (Z.leb_spec 6 l); [reflexivity|lia].
  - destruct (Z.leb_spec 1 l) as [H1|H1].
    + assert (E : l = 1%Z \/ l = 2%Z \/ l = 3%Z \/ l = 4%Z \/ l = 5%Z \/ l = 6%Z) by lia.
      destruct E as [-> |[-> |[-> |[-> |[-> | ->]]]]]; reflexivity.
    + repeat match goal with |- context [(?a =? ?b)%Z] => destruct (Z.eqb_spec a b); [lia|] end.
      destruct (Z.leb_spec 6 l); [lia|]. destruct l as [|p|p]; [reflexivity|lia|reflexivity].
Qed.
Lemma lemma_C35 : forall u anc l ch s r s',
  emit_node rest_methods u rest_pre anc (heading_node l ch) s = Ok (r, s') ->
  exists p s1 text s2 mark above,
    emit_list rest_methods u rest_pre ($ "headline" :: anc) ch s1 = Ok (text, s2) /\
    adornment l = Some (mark, above) /\ r = p ++ adorned mark above text.
Proof.
  intros u anc l ch s r s' H. unfold heading_node in H. rewrite emit_node_eq in H.
  destruct (rest_pre anc s) as [p s1]. apply bind_ok in H as ([r1 s2] & H & H2). inversion H2; subst.
  change (r_headline (mkn ($ "headline") None [] (Some l) anc) (kids_of rest_methods u rest_pre anc ($ "headline") None ch) s1 = Ok (r1, s2)) in H.
  unfold r_headline in H. apply bind_ok in H as ([text s3] & H & H3). cbn [level_of n_level bind] in H3.
  rewrite headline_adornment in H3. destruct (adornment l) as [[mark above]|] eqn:E; [|discriminate].
  inversion H3; subst. exists p, (set_last ($ "headline", None) s1), text, s2, mark, above.
  split; [exact H|]. split; [reflexivity|]. reflexivity.
Qed.
Lemma rest_pre_none : forall anc s, subst_data s = [] -> rest_pre anc s = ([], s).
Proof. intros anc s H. unfold rest_pre. rewrite H. reflexivity. Qed.
Lemma lemma_C35_text : forall u l t,
  emit_rest u (document_of [heading_node l [data_node t]]) =
  match adornment l with Some (mark, above) => Ok (rstrip (adorned mark above t)) | None => Exc EKeyError end.
Proof.
  intros u l t. unfold emit_rest, document_of, heading_node, data_node.
  rewrite emit_node_eq. rewrite rest_pre_none by reflexivity.
  match goal with |- context [run_meth ?m ?v ?ni ?k ?s] => change (run_meth m v ni k s) with (r_document ni k s) end.
  unfold r_document, kids_of. cbn [emit_list]. rewrite emit_node_eq. rewrite rest_pre_none by reflexivity.
  match goal with |- context [run_meth ?m ?v ?ni ?k ?s] => change (run_meth m v ni k s) with (r_headline ni k s) end.
  unfold r_headline, kids_of. cbn [emit_list]. rewrite emit_node_eq. rewrite rest_pre_none by reflexivity.
  match goal with |- context [run_meth ?m ?v ?ni ?k ?s] => change (run_meth m v ni k s) with (@Ok (str * est) (t, s)) end.
  cbn [bind app level_of n_level]. rewrite headline_adornment. rewrite app_nil_r.
  destruct (adornment l) as [[mark above]|]; [|reflexivity]. cbn [bind app]. rewrite app_nil_r. reflexivity.
Qed.

(** ** C37 *)
Lemma data_line : forall a l anc kids t s, line_text t ->
  m_data (mkn ($ "data") (Some t) a l anc) kids s = Ok (t, s).
Proof.
  intros a l anc kids t s (_ & H & _). unfold m_data. cbn [n_content].
  destruct (str_eqb t [32]) eqn:E; [|reflexivity]. apply str_eqb_eq in E. apply H in E as [E _]. discriminate.
Qed.
Lemma rrel_result : forall x y (f : str -> str), rrel x y ->
  (do (r, _) <- x; Ok (f r)) = (do (r, _) <- y; Ok (f r)).
Proof. intros x y f H. destruct H; reflexivity. Qed.
Lemma lemma_C37_creole : forall strict ch ch', sk_list creole_tags ch ch' ->
  emit_creole transparent_unknown_nodes strict (document_of ch) = emit_creole transparent_unknown_nodes strict (document_of ch').
Proof.
  intros st ch ch' H. apply rrel_result. apply (rename_root _ _ creole_tags (creole_resp st) no_pre_resp).
  - destruct st; vm_compute; reflexivity.
  - vm_compute. reflexivity.
  - intros; reflexivity.
  - intros; reflexivity.
  - exact H.
Qed.
Lemma lemma_C37_textile : forall ch ch', sk_list textile_tags ch ch' ->
  emit_textile transparent_unknown_nodes (document_of ch) = emit_textile transparent_unknown_nodes (document_of ch').
Proof.
  intros ch ch' H. apply rrel_result. apply (rename_root _ _ textile_tags textile_resp no_pre_resp).
  - vm_compute; reflexivity.
  - vm_compute. reflexivity.
  - intros; reflexivity.
  - intros; reflexivity.
  - exact H.
Qed.
Lemma lemma_C37_markdown : forall ch ch', sk_list markdown_tags ch ch' ->
  emit_markdown transparent_unknown_nodes (document_of ch) = emit_markdown transparent_unknown_nodes (document_of ch').
Proof.
  intros ch ch' H. apply rrel_result. apply (rename_root _ _ markdown_tags markdown_resp no_pre_resp).
  - vm_compute; reflexivity.
  - vm_compute. reflexivity.
  - intros a l anc kids t s Ht. exact (data_line a l anc kids t s Ht).
  - intros; reflexivity.
  - exact H.
Qed.
Lemma lemma_C37_rest : forall ch ch', sk_list rest_tags ch ch' ->
  emit_rest transparent_unknown_nodes (document_of ch) = emit_rest transparent_unknown_nodes (document_of ch').
Proof.
  intros ch ch' H. apply rrel_result. apply (rename_root _ _ rest_tags rest_resp rest_pre_resp).
  - vm_compute; reflexivity.
  - vm_compute. reflexivity.
  - intros; reflexivity.
  - intros k k1 anc s. unfold rest_pre. destruct (subst_data s); reflexivity.
  - exact H.
Qed.

(** ** C38 *)
Lemma not_unknown : forall known n, ~ unknown_inside known n -> unknown_b known n = false.
Proof. intros known n H. rewrite <- unknown_b_iff in H. destruct (unknown_b known n); [congruence|reflexivity]. Qed.
Lemma lemma_C38_creole : forall u strict html n, parse_html html = Ok n ->
  (~ unknown_inside creole_tags n -> html2creole raise_unknown_node strict html = html2creole u strict html) /\
  (unknown_inside creole_tags n -> forall r, html2creole u strict html = Ok r ->
   html2creole raise_unknown_node strict html = Exc ENotImplemented).
Proof.
  intros u st html n Hp. unfold html2creole, emit_creole. rewrite Hp. cbn [bind].
  assert (Hc : covers creole_tags (creole_methods st) = true) by (destruct st; vm_compute; reflexivity).
  split.
  - intro H. rewrite (no_unknown_same _ no_pre creole_tags (creole_good st) Hc raise_unknown_node u n (not_unknown _ _ H)). reflexivity.
  - intros H r Hr. apply bind_ok in Hr as (x & Hr & _). apply unknown_b_iff in H.
    rewrite (unknown_raises _ no_pre creole_tags (creole_good st) Hc u n H _ _ _ Hr). reflexivity.
Qed.
Lemma lemma_C38_textile : forall u html n, parse_html html = Ok n ->
  (~ unknown_inside textile_tags n -> html2textile raise_unknown_node html = html2textile u html) /\
  (unknown_inside textile_tags n -> forall r, html2textile u html = Ok r ->
   html2textile raise_unknown_node html = Exc ENotImplemented).
Proof.
  intros u html n Hp. unfold html2textile, emit_textile. rewrite Hp. cbn [bind].
  assert (Hc : covers textile_tags textile_methods = true) by (vm_compute; reflexivity).
  split.
  - intro H. rewrite (no_unknown_same _ no_pre textile_tags textile_good Hc raise_unknown_node u n (not_unknown _ _ H)). reflexivity.
  - intros H r Hr. apply bind_ok in Hr as (x & Hr & _). apply unknown_b_iff in H.
    rewrite (unknown_raises _ no_pre textile_tags textile_good Hc u n H _ _ _ Hr). reflexivity.
Qed.
Lemma lemma_C38_markdown : forall u html n, parse_html html = Ok n ->
  (~ unknown_inside markdown_tags n -> html2markdown raise_unknown_node html = html2markdown u html) /\
  (unknown_inside markdown_tags n -> forall r, html2markdown u html = Ok r ->
   html2markdown raise_unknown_node html = Exc ENotImplemented).
Proof.
  intros u html n Hp. unfold html2markdown, emit_markdown. rewrite Hp. cbn [bind].
  assert (Hc : covers markdown_tags markdown_methods = true) by (vm_compute; reflexivity).
  split.
  - intro H. rewrite (no_unknown_same _ no_pre markdown_tags markdown_good Hc raise_unknown_node u n (not_unknown _ _ H)). reflexivity.
  - intros H r Hr. apply bind_ok in Hr as (x & Hr & _). apply unknown_b_iff in H.
    rewrite (unknown_raises _ no_pre markdown_tags markdown_good Hc u n H _ _ _ Hr). reflexivity.
Qed.
Lemma lemma_C38_rest : forall u html n, parse_html html = Ok n ->
  (~ unknown_inside rest_tags n -> html2rest raise_unknown_node html = html2rest u html) /\
  (unknown_inside rest_tags n -> forall r, html2rest u html = Ok r ->
   html2rest raise_unknown_node html = Exc ENotImplemented).
Proof.
  intros u html n Hp. unfold html2rest, emit_rest. rewrite Hp. cbn [bind].
  assert (Hc : covers rest_tags rest_methods = true) by (vm_compute; reflexivity).
  split.
  - intro H. rewrite (no_unknown_same _ rest_pre rest_tags rest_good Hc raise_unknown_node u n (not_unknown _ _ H)). reflexivity.
  - intros H r Hr. apply bind_ok in Hr as (x & Hr & _). apply unknown_b_iff in H.
    rewrite (unknown_raises _ rest_pre rest_tags rest_good Hc u n H _ _ _ Hr). reflexivity.
Qed.

(** ** C44 *)
Lemma stripped : forall (x : res (str * est)) r, (do (a, _) <- x; Ok (strip a)) = Ok r ->
  (forall (c : N) (t : str), r = c :: t -> is_space c = false) /\ (forall (c : N) (t : str), r = t ++ [c] -> is_space c = false).
Proof. intros x r H. apply bind_ok in H as ([a s] & _ & H). inversion H; subst. apply strip_ends. Qed.
Lemma lemma_C44 : forall u strict html r,
  html2creole u strict html = Ok r \/ html2textile u html = Ok r \/ html2markdown u html = Ok r ->
  (forall (c : N) (t : str), r = c :: t -> is_space c = false) /\ (forall (c : N) (t : str), r = t ++ [c] -> is_space c = false).
Proof.
  intros u st html r [H|[H|H]]; unfold html2creole, html2textile, html2markdown in H; apply bind_ok in H as (n & _ & H);
    eapply stripped; exact H.
Qed.
Lemma lemma_C44_rest : forall u html r, html2rest u html = Ok r -> forall (c : N) (t : str), r = t ++ [c] -> is_space c = false.
Proof.
  intros u html r H c t E. unfold html2rest, emit_rest in H. apply bind_ok in H as (n & _ & H).
  apply bind_ok in H as ([a s] & _ & H). inversion H; subst.
  eapply (rstrip_last is_space a c (rev t)). fold (rstrip a). rewrite H1, rev_app_distr. reflexivity.
Qed.

(** ** C49 *)
Lemma hr_tree : forall bd ds1 ds2 a, Forall (dom_ok bd true) ds1 -> Forall (dom_ok bd true) ds2 ->
  exists h, handle_all (flat_map dom_toks ds1 ++ TStart ($ "hr") a :: flat_map dom_toks ds2) (h_init bd) = Ok h /\
    root_of (cur h) = document_of (flat_map (dom_tree bd 0) ds1 ++ [HN ($ "hr") None (dict_of a) None (flat_map (dom_tree bd 0) ds2)]).
Proof.
  intros bd ds1 ds2 a H1 H2. rewrite handle_all_app, (build_all bd ds1 H1). cbn [bind].
  cbn [handle_all handle bind]. unfold handle_starttag.
  change (in_list IGNORE_TAGS ($ "hr")) with false. change (headline_level ($ "hr")) with (@None Z). cbn match.
  change (in_list [$ "li"; $ "ul"; $ "ol"] ($ "hr")) with false. change (in_list [$ "img"; $ "br"] ($ "hr")) with false. cbn match.
  cbn [cur list_level blockdata push].
  assert (G : forall top (up : list frame) ll, in_list kinds (f_kind top) = true ->
    handle_all (flat_map dom_toks ds2) (mkh (Live top up) ll bd) =
    Ok (mkh (Live (add_kids top (flat_map (dom_tree bd ll) ds2)) up) ll bd)).
  { induction H2 as [|d ds Hd Hds IH]; intros top up ll Ht.
    - destruct top; reflexivity.
    - cbn [flat_map]. rewrite handle_all_app. rewrite (build bd d true Hd) by auto. cbn [bind].
      rewrite IH by exact Ht. rewrite add_kids_app. reflexivity. }
  rewrite G by reflexivity. eexists. split; [reflexivity|].
  cbn [cur root_of close_up]. unfold close, add_kids, add_kid. cbn [f_kids f_kind f_attrs f_level].
  rewrite app_nil_r. cbn [rev]. rewrite !rev_involutive. reflexivity.
Qed.
Lemma emit_hr : forall ms u pre anc a ch ch' s f, find_meth ms ($ "hr") = Some f -> mute f ->
  emit_node ms u pre anc (HN ($ "hr") None a None ch) s = emit_node ms u pre anc (HN ($ "hr") None a None ch') s.
Proof.
  intros ms u pre anc a ch ch' s f Hf Hm. rewrite !emit_node_eq. destruct (pre anc s) as [p s1].
  unfold run_meth. cbn [n_kind]. rewrite Hf.
  rewrite (Hm _ (kids_of ms u pre anc ($ "hr") None ch) (kids_of ms u pre anc ($ "hr") None ch')). reflexivity.
Qed.
Lemma lemma_C49 : forall u strict bd ds1 ds2 ds2' a h h', Forall (dom_ok bd true) ds1 ->
  Forall (dom_ok bd true) ds2 -> Forall (dom_ok bd true) ds2' ->
  handle_all (flat_map dom_toks ds1 ++ TStart ($ "hr") a :: flat_map dom_toks ds2) (h_init bd) = Ok h ->
  handle_all (flat_map dom_toks ds1 ++ TStart ($ "hr") a :: flat_map dom_toks ds2') (h_init bd) = Ok h' ->
  emit_creole u strict (root_of (cur h)) = emit_creole u strict (root_of (cur h')).
Proof.
  intros u st bd ds1 ds2 ds2' a h h' H1 H2 H2' E E'.
  destruct (hr_tree bd ds1 ds2 a H1 H2) as (h1 & T & R). rewrite T in E. inversion E; subst h1. rewrite R.
  destruct (hr_tree bd ds1 ds2' a H1 H2') as (h2 & T' & R'). rewrite T' in E'. inversion E'; subst h2. rewrite R'.
  unfold emit_creole, document_of. rewrite !emit_node_eq. cbn [no_pre].
  match goal with |- context [run_meth ?m ?v ?ni ?k ?s] => change (run_meth m v ni k s) with (k s) end.
  match goal with |- context [run_meth ?m ?v ?ni ?k ?s] => change (run_meth m v ni k s) with (k s) end.
  unfold kids_of.
  assert (X : forall s, emit_list (creole_methods st) u no_pre [$ "document"]
      (flat_map (dom_tree bd 0) ds1 ++ [HN ($ "hr") None (dict_of a) None (flat_map (dom_tree bd 0) ds2)]) s =
    emit_list (creole_methods st) u no_pre [$ "document"]
      (flat_map (dom_tree bd 0) ds1 ++ [HN ($ "hr") None (dict_of a) None (flat_map (dom_tree bd 0) ds2')]) s).
  { generalize (flat_map (dom_tree bd 0) ds1). induction l as [|x l IH]; intro s.
    - cbn [app emit_list]. rewrite (emit_hr (creole_methods st) u no_pre _ _ _ (flat_map (dom_tree bd 0) ds2') _
        (const_emit ($ "----" ++ [10; 10]))); [reflexivity|destruct st; reflexivity|intros ? ? ? ?; reflexivity].
    - cbn [app emit_list]. destruct (emit_node _ _ _ _ x s) as [[r1 s1]|e]; [|reflexivity]. cbn [bind]. rewrite IH. reflexivity. }
  rewrite X. reflexivity.
Qed.

(** ** C41 *)
Lemma lemma_C41 : forall u src text w h, text <> [] -> w <> [] -> h <> [] ->
  str_eqb (take_while (fun c => negb (c =? 58)) src) ($ "data") = false ->
  emit_creole u false (document_of [HN ($ "img") None [($ "src", VStr src); ($ "alt", VStr text); ($ "width", VStr w); ($ "height", VStr h)] None []]) =
  Ok ($ "{{" ++ src ++ $ "|" ++ text ++ $ "|" ++ h ++ $ "x" ++ w ++ $ "}}").
Proof.
  intros u src text w h Ht Hw Hh Hd. unfold emit_creole, document_of. rewrite emit_node_eq. cbn [no_pre].
  match goal with |- context [run_meth ?m ?v ?ni ?k ?s] => change (run_meth m v ni k s) with (k s) end.
  unfold kids_of. cbn [emit_list]. rewrite emit_node_eq. cbn [no_pre].
  match goal with |- context [run_meth ?m ?v ?ni ?k ?s] => change (run_meth m v ni k s) with (c_img false ni k s) end.
  unfold c_img, img_parts, attr, attr_len. cbn [n_attrs].
  repeat match goal with |- context [dict_get ?k ?d] => let v := eval cbv [dict_get str_eqb N.eqb Pos.eqb andb] in (dict_get k d) in change (dict_get k d) with v end.
  cbn [bind]. rewrite Hd. cbn [bind].
  destruct text as [|t0 text]; [congruence|]. destruct w as [|w0 w]; [congruence|]. destruct h as [|h0 h]; [congruence|].
  cbn [List.length Nat.ltb Nat.leb truthy attr_true negb andb bind show_attr]. rewrite !app_nil_r. cbn [app].
  assert (T : forall (c : N) (x : list N), truthy (c :: x) = true) by reflexivity.
  unfold str, char in *. rewrite !T. cbn [andb app].
  f_equal. etransitivity; [|apply strip_by_same].
  { unfold strip. repeat rewrite <- app_assoc. cbn [app]. repeat rewrite <- app_assoc. reflexivity. }
  - intros c r E. inversion E; subst. reflexivity.
  - intros c r E. 
    assert (L : forall (A B : str), ($ "{{" ++ src ++ $ "|" ++ A ++ $ "|" ++ B ++ $ "}") ++ $ "}" = r ++ [c] -> is_space c = false).
    { intros A B E1. apply app_inj_tail in E1 as [_ <-]. reflexivity. }
    apply (L (t0 :: text) ((h0 :: h) ++ [120] ++ (w0 :: w))). rewrite <- E. cbn [app]. 
    repeat (rewrite <- app_assoc; cbn [app]). reflexivity.
Qed.

(** ** the root of a parsed document *)
Fixpoint bk (k : str) (up : list frame) : str := match up with [] => k | p :: up' => bk (f_kind p) up' end.
Lemma close_up_kind : forall up n, h_kind (close_up n up) = bk (h_kind n) up.
Proof.
  induction up as [|p up IH]; intro n; [reflexivity|]. cbn [close_up bk]. rewrite IH. destruct p; reflexivity.
Qed.
Definition ck (c : cursor) : str := match c with Live top up => bk (f_kind top) up | Lost r => h_kind r end.
Lemma root_ck : forall c, h_kind (root_of c) = ck c.
Proof. intros [top up|r]; [|reflexivity]. cbn [root_of ck]. rewrite close_up_kind. destruct top; reflexivity. Qed.
Lemma leaf_ck : forall n c, ck (leaf n c) = ck c.
Proof. intros n [top up|r]; [|reflexivity]. destruct top; reflexivity. Qed.
Lemma push_ck : forall k a l c, ck (push k a l c) = ck c.
Proof. intros k a l [top up|r]; reflexivity. Qed.
Lemma go_parent_ck : forall c, ck (go_parent c) = ck c.
Proof. intros [top [|p up]|r]; [destruct top; reflexivity|destruct p; reflexivity|reflexivity]. Qed.
Lemma go_up_ck : forall c, ck (go_up c) = ck c.
Proof.
  intros [top up|r]; [|reflexivity]. cbn [go_up]. revert top. induction up as [|p up IH]; intro top; [reflexivity|].
  cbn [upto_kinds]. destruct (in_list _ (f_kind p)); [destruct p; reflexivity|].
  rewrite IH. destruct p; reflexivity.
Qed.
Lemma handle_ck : forall t h h', handle t h = Ok h' -> ck (cur h') = ck (cur h).
Proof.
  intros t h h' H. destruct t as [tag a|tag a|tag|s|s|s]; cbn [handle] in H;
    try (inversion H; subst; unfold handle_leaf; cbn [cur]; apply leaf_ck).
  - inversion H; subst. unfold handle_starttag.
    destruct (in_list IGNORE_TAGS tag); [reflexivity|]. destruct (headline_level tag); [apply push_ck|].
    destruct (in_list [$ "li"; $ "ul"; $ "ol"] tag); [apply push_ck|].
    destruct (in_list [$ "img"; $ "br"] tag); [apply leaf_ck|apply push_ck].
  - unfold handle_startendtag in H.
    destruct (in_list [$ "blockdata"; $ "inlinedata"] tag); [|inversion H; subst; apply leaf_ck].
    destruct (dict_get ($ "id") (dict_of a)) as [[s|z|b|]|]; try discriminate.
    destruct (py_int s); try discriminate. destruct (dict_get ($ "type") (dict_of a)); try discriminate.
    destruct (py_index (blockdata h) z); try discriminate. inversion H; subst. apply leaf_ck.
  - inversion H; subst. unfold handle_endtag.
    destruct (in_list IGNORE_TAGS tag); [reflexivity|]. destruct (str_eqb tag ($ "br")); [reflexivity|].
    cbn [cur]. destruct (in_list BLOCK_TAGS tag); [apply go_up_ck|apply go_parent_ck].
Qed.
Lemma handle_all_ck : forall ts h h', handle_all ts h = Ok h' -> ck (cur h') = ck (cur h).
Proof.
  induction ts as [|t ts IH]; intros h h' H; [inversion H; reflexivity|].
  cbn [handle_all] in H. destruct (handle t h) as [h1|e] eqn:E; [|discriminate].
  rewrite (IH _ _ H). eapply handle_ck; eauto.
Qed.
Lemma parse_root : forall html n, parse_html html = Ok n -> h_kind n = $ "document".
Proof.
  intros html n H. unfold parse_html, feed in H. apply bind_ok in H as ([d bd] & _ & H). unfold feed_tokens in H.
  destruct (tokens d) as [ts raised]. apply bind_ok in H as (h & H1 & H2). destruct raised; [discriminate|].
  inversion H2; subst. rewrite root_ck. rewrite (handle_all_ck _ _ _ H1). reflexivity.
Qed.
Lemma lemma_C36_links : forall u html root r n1 n2 t u1 u2, parse_html html = Ok root -> html2rest u html = Ok r ->
  inside n1 root -> inside n2 root -> link_node t u1 n1 -> link_node t u2 n2 -> u1 = u2.
Proof.
  intros u html root r n1 n2 t u1 u2 Hp H. unfold html2rest in H. rewrite Hp in H. cbn [bind] in H.
  eapply rest_links; eauto. eapply parse_root; eauto.
Qed.
Lemma lemma_C36_images : forall u html root r n1 n2 t u1 u2, parse_html html = Ok root -> html2rest u html = Ok r ->
  inside n1 root -> inside n2 root -> image_node t u1 n1 -> image_node t u2 n2 -> u1 = u2.
Proof.
  intros u html root r n1 n2 t u1 u2 Hp H. unfold html2rest in H. rewrite Hp in H. cbn [bind] in H.
  eapply rest_images; eauto.
Qed.
