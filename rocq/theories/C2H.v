(** * creole2html as a whole: results for every markup string *)
From Coq Require Import String List Arith NArith ZArith Bool Lia.
From Verif Require Import PyStr PyStrFacts GNames Regex RegexFacts Rules DocTree Utils CreoleParser ParserFacts HtmlEmitter HtmlSpec EmitterFacts UsedFacts TotalFacts Safety Spec.
Import ListNotations.
Open Scope N_scope.

Lemma error_piece : forall c t, error c t = [] \/ raw_piece (verbose c) (env c) (error c t).
Proof.
  intros c t. unfold error. destruct (0 <? verbose c)%Z eqn:E; [|left; reflexivity].
  right. left. split; [apply Z.ltb_lt; exact E | exists t; reflexivity].
Qed.

(** what a macro tag that is not served by a TableOfContent object becomes *)
Lemma macro_emit_user : forall c h s, tame (verbose c) (env c) ->
  (hmname h <> $ "toc" \/ forall t, toc s <> TObj t) ->
  exists r s', macro_emit c h s = (Ok r, s') /\ toc s' = toc s /\
    (r = [] \/ raw_piece (verbose c) (env c) r).
Proof.
  intros c h s Ht Hn. unfold macro_emit.
  destruct (string2dict (hmargs h)) as [kw|]; [|eexists _, _; split; [reflexivity|]; split; [reflexivity | apply error_piece]].
  cbn zeta. set (kw2 := dict_set _ _ kw). clearbody kw2.
  assert (HU : exists r s',
    (if u_has (env c) (hmname h)
     then
      let s' := mkest (toc s) (log s ++ [(hmname h, kw2)]) in
      match u_call (env c) (log s) (hmname h) kw2 with
      | MRet r => (Ok (if kind_beq (hk h) KMacroBlock then r ++ [10] else r), s')
      | MNonStr d =>
          (Ok (error c ($ "Macro '" ++ hmname h ++ $ "' doesn't return a unicode string!"
                        ++ (if (1 <? verbose c)%Z then d else []))), s')
      | MTypeError msg =>
          if (2 <? verbose c)%Z then (Exc ETypeError, s')
          else (Ok (error c ($ "Macro '" ++ hmname h ++ $ "' error: " ++ msg)), s')
      | MException msg => (Ok (error c ($ "Macro '" ++ hmname h ++ $ "' error: " ++ msg)), s')
      | MBase => (Exc EMacroBase, s')
      end
     else (Ok (error c ($ "Macro '" ++ hmname h ++ $ "' doesn't exist")), s)) = (Ok r, s') /\
    toc s' = toc s /\ (r = [] \/ raw_piece (verbose c) (env c) r)).
  { destruct (u_has (env c) (hmname h)) eqn:EH;
      [|eexists _, _; split; [reflexivity|]; split; [reflexivity | apply error_piece]].
    destruct Ht as [Ht|[Hv Hb]]; [rewrite Ht in EH; discriminate|].
    assert (Hlt : (2 <? verbose c)%Z = false) by (apply Z.ltb_ge; exact Hv).
    cbn zeta. rewrite Hlt. specialize (Hb (log s) (hmname h) kw2).
    destruct (u_call (env c) (log s) (hmname h) kw2) eqn:EC;
      try (eexists _, _; split; [reflexivity|]; split; [reflexivity | apply error_piece]).
    - eexists _, _; split; [reflexivity|]; split; [reflexivity|]. right. right.
      exists (log s), (hmname h), kw2, s0. split; [exact EH|]. split; [exact EC|].
      destruct (kind_beq _ _); auto.
    - congruence. }
  destruct (str_eqb (hmname h) ($ "toc")) eqn:E; [|exact HU].
  destruct (toc s) as [|t|] eqn:ET; try exact HU.
  destruct Hn as [Hn|Hn]; [apply str_eqb_eq in E; contradiction|]. exfalso. exact (Hn t eq_refl).
Qed.

(** *** Images *)
Lemma img_attrs_shape : forall l, img_attrs l -> img_shape l.
Proof. intros l (s & t & a & Hs & _ & _ & H). exists s, t, a. auto. Qed.

Ltac cat := cbn; repeat rewrite <- app_assoc; cbn; repeat rewrite <- app_assoc; reflexivity.

Lemma image_plain : forall s t, exists l,
  $ "<img src=""" ++ attr_escape s ++ $ """ title=""" ++ attr_escape t ++ $ """ alt=""" ++ attr_escape t ++ $ """ />"
  = show (HVoid ($ "img") l) /\ img_attrs l.
Proof.
  intros s t. exists [($ "src", attr_escape s); ($ "title", attr_escape t); ($ "alt", attr_escape t)].
  split.
  - unfold show, show_attrs, show_attr, flat_map, fst, snd. rewrite ?app_nil_r, <- ?app_assoc. cbn [app].
    cat.
  - exists (attr_escape s), (attr_escape t), (attr_escape t). do 3 (split; [apply attr_escape_safe|]). left. reflexivity.
Qed.

Lemma sized_shape : forall s text r, image_sized s text = Some r ->
  exists title w h, r = show (HVoid ($ "img") [($ "src", attr_escape s); ($ "title", title); ($ "alt", title);
                                              ($ "width", show_Z w); ($ "height", show_Z h)]) /\
    exists size, split1 124 text = Some ((if truthy title then title else []), size) \/
                 (split1 124 text = Some ([], size) /\ title = s).
Proof.
  intros s text r H. unfold image_sized in H.
  destruct (split1 124 text) as [[title size]|]; [|discriminate].
  destruct (split1 120 size) as [[ws hs]|]; [|discriminate].
  destruct (py_int (strip ws)) as [w|]; [|discriminate].
  destruct (py_int (strip hs)) as [h|]; [|discriminate]. inversion H; subst; clear H.
  exists (if truthy title then title else s), w, h. split.
  - unfold show, show_attrs, show_attr, flat_map, fst, snd. rewrite ?app_nil_r, <- ?app_assoc. cbn [app].
    set (T := if truthy title then title else s). clearbody T. cat.
  - exists size. destruct title; [right; auto|left]. reflexivity.
Qed.

Lemma attr_escape_bar : forall t x, split1 124 (attr_escape t) = Some ([], x) -> startswith [124] t = true.
Proof.
  intros t x H. apply split1_parts in H. simpl in H. destruct t as [|c t]; [discriminate|].
  simpl. rewrite andb_true_r. unfold attr_escape in H. rewrite replace_single, escape_esc in H.
  unfold esc in H. cbn [flat_map] in H. unfold esc_char at 1 in H.
  destruct (c =? 38); [discriminate|]. destruct (c =? 60); [discriminate|]. destruct (c =? 62); [discriminate|].
  simpl in H. unfold sub1 at 1 in H. destruct (34 =? c); [discriminate|]. simpl in H. inversion H. reflexivity.
Qed.

Lemma image_any : forall c t h ch, exists l, image_emit c t h ch = show (HVoid ($ "img") l) /\ img_shape l.
Proof.
  intros c t h ch. unfold image_emit.
  destruct (if strict c then None else image_sized t (attr_escape (get_text h ch))) as [r|] eqn:E.
  - destruct (strict c); [discriminate|].
    apply sized_shape in E as (title & w & hh & -> & _). eexists; split; [reflexivity|].
    exists (attr_escape t), title, title. split; [apply attr_escape_safe|]. right.
    exists (show_Z w), (show_Z hh). split; [apply show_Z_safe|]. split; [apply show_Z_safe | reflexivity].
  - destruct (image_plain t (get_text h ch)) as (l & -> & Hl). exists l. split; [reflexivity | apply img_attrs_shape, Hl].
Qed.
Lemma image_strict : forall c t h ch, strict c = true ->
  exists l, image_emit c t h ch = show (HVoid ($ "img") l) /\ img_attrs l.
Proof. intros c t h ch Hs. unfold image_emit. rewrite Hs. apply image_plain. Qed.
Lemma image_titled : forall c t h ch, startswith [124] (get_text h ch) = false ->
  exists l, image_emit c t h ch = show (HVoid ($ "img") l) /\ img_attrs l.
Proof.
  intros c t h ch Ht. unfold image_emit.
  destruct (if strict c then None else image_sized t (attr_escape (get_text h ch))) as [r|] eqn:E.
  - destruct (strict c); [discriminate|].
    apply sized_shape in E as (title & w & hh & -> & size & [E|[E _]]).
    + eexists; split; [reflexivity|].
      assert (Hsafe : attr_safe title).
      { destruct title as [|c0 title]; [intros ? []|].
        cbn [truthy] in E. apply split1_parts in E. assert (HS := attr_escape_safe (get_text h ch)).
        rewrite E in HS. apply attr_safe_app_l in HS. exact HS. }
      exists (attr_escape t), title, title. split; [apply attr_escape_safe|]. do 2 (split; [exact Hsafe|]).
      right. exists (show_Z w), (show_Z hh). split; [apply show_Z_safe|]. split; [apply show_Z_safe | reflexivity].
    + apply attr_escape_bar in E. congruence.
  - apply image_plain.
Qed.

(** *** The document *)
Lemma no_toc_init : forall u t, ~ In ($ "toc") u -> init_toc u t = (false, t).
Proof.
  intros u t Hu. unfold init_toc. destruct (existsb (str_eqb ($ "toc")) u) eqn:E; [|reflexivity].
  apply existsb_exists in E as (x & Hx & E). apply str_eqb_eq in E. subst x. contradiction.
Qed.

Lemma everywhere_and : forall (P Q : node -> Prop) n, everywhere P n -> everywhere Q n ->
  everywhere (fun x => P x /\ Q x) n.
Proof.
  intros P Q. induction n as [h ch IH] using node_ind'. intros HP HQ.
  apply everywhere_intro; [split; eapply everywhere_here; eauto|].
  apply everywhere_kids in HP, HQ. rewrite Forall_forall in *. auto.
Qed.
Lemma everywhere_all : forall (P : node -> Prop) n, (forall x, P x) -> everywhere P n.
Proof.
  intros P n H. induction n as [h ch IH] using node_ind'. apply everywhere_intro; auto.
Qed.

(** the result for a document that does not use the toc *)
Lemma doc_general : forall (R : str -> Prop) (A : list (str * str) -> Prop) (G : node -> Prop) o md s n u,
  tame (eff_verbose o) (md_env md) ->
  parse (o_blog o) s = Some (n, u) -> ~ In ($ "toc") u -> everywhere G n ->
  (forall r, raw_piece (eff_verbose o) (md_env md) r -> R r) ->
  (forall c h ch t, hk h = KImage -> strict c = o_strict o -> G (Nd h ch) ->
     exists l, image_emit c t h ch = show (HVoid ($ "img") l) /\ A l) ->
  exists f md', creole2html o md s = (Ok (strip (show_all f)), md') /\
    md_env md' = md_env md /\ md_toc md' = md_toc md /\ document R A f.
Proof.
  intros R A G o md s n u Ht Hp Hu HG HR HA. unfold creole2html. rewrite Hp, (no_toc_init _ _ Hu).
  cbn zeta. fold (eff_verbose o). set (c := mkcfg _ _ _ _).
  destruct (parse_wf (o_blog o) s) as (n' & u' & Hp' & Hw). rewrite Hp in Hp'. inversion Hp'; subst n' u'.
  destruct (doc_emits c R A (fun e => toc e = md_toc md) (fun x => registered u x /\ G x)) with
    (n := n) (s := mkest (md_toc md) (md_log md)) as (f & s' & E & HI & HD).
  - reflexivity.
  - intros h ch s0 Hk [Hreg _] HI.
    destruct (macro_emit_user c h s0) as (r & s' & E & Et & HRr).
    + exact Ht.
    + left. intro En. apply Hu. rewrite <- En. apply Hreg. destruct Hk as [-> | ->]; reflexivity.
    + exists r, s'. split; [exact E|]. split; [congruence|]. destruct HRr as [->|HRr]; [left; reflexivity|].
      right. apply HR. exact HRr.
  - intros h ch t Hk _ [_ Hg]. apply HA; auto.
  - exact Hw.
  - apply everywhere_and; [eapply parse_registered; eauto | exact HG].
  - reflexivity.
  - rewrite E. exists f, (mkmd (md_env md) (toc s') (log s')). simpl. auto.
Qed.

(** totality without toc *)
Lemma total_no_toc : forall o md s, tame (eff_verbose o) (md_env md) -> contains ($ "toc") s = false ->
  exists html md', creole2html o md s = (Ok html, md').
Proof.
  intros o md s Ht Hs. destruct (parse_wf (o_blog o) s) as (n & u & Hp & _).
  destruct (doc_general (fun _ => True) (img_shape) (fun _ => True) o md s n u) as (f & md' & E & _); auto.
  - eapply parse_no_toc; eauto.
  - apply everywhere_all. auto.
  - intros. apply image_any.
  - eauto.
Qed.

(** *** Documents with a table of contents *)
Lemma dict_get_set_neq : forall k k' v d, k <> k' -> dict_get k (dict_set k' v d) = dict_get k d.
Proof.
  intros k k' v d Hk. induction d as [|[k0 v0] d IH]; simpl.
  - destruct (str_eqb k k') eqn:E; [apply str_eqb_eq in E; contradiction | reflexivity].
  - destruct (str_eqb k' k0) eqn:E; simpl.
    + apply str_eqb_eq in E. subst k0. destruct (str_eqb k k') eqn:E2; [apply str_eqb_eq in E2; contradiction|]. reflexivity.
    + rewrite IH. reflexivity.
Qed.
Lemma dict_get_set_eq : forall k v d, dict_get k (dict_set k v d) = Some v.
Proof.
  intros k v d. induction d as [|[k0 v0] d IH]; simpl.
  - rewrite str_eqb_refl. reflexivity.
  - destruct (str_eqb k k0) eqn:E; simpl; rewrite E; auto.
Qed.

Lemma toc_call_depth : forall kw t, depth_num (dict_get ($ "depth") kw) -> depth_num (max_depth t) ->
  depth_num (max_depth (snd (toc_call kw t))).
Proof.
  intros kw t Hk Ht. unfold toc_call. destruct (created t); [exact Ht|]. simpl.
  destruct (dict_get ($ "depth") kw) as [[]|]; try exact Ht; try (intros ? E; discriminate).
  exfalso. exact (Hk _ eq_refl).
Qed.

Lemma total_toc : forall o md s n u, (eff_verbose o <= 2)%Z -> no_base (md_env md) ->
  parse (o_blog o) s = Some (n, u) -> everywhere toc_args_ok n ->
  (match md_toc md with TNone => True | TObj t => depth_num (max_depth t) | TUser => ~ In ($ "toc") u end) ->
  exists html md', creole2html o md s = (Ok html, md').
Proof.
  intros o md s n u Hv Hb Hp Ha Hm.
  destruct (existsb (str_eqb ($ "toc")) u) eqn:EU.
  - assert (Hin : In ($ "toc") u) by (apply existsb_exists in EU as (x & Hx & E); apply str_eqb_eq in E; subst x; exact Hx).
    unfold creole2html. rewrite Hp. unfold init_toc. rewrite EU. cbn zeta. fold (eff_verbose o).
    set (c := mkcfg _ _ _ _).
    assert (Hm0 : exists t, match md_toc md with TNone => TObj new_toc | _ => md_toc md end = TObj t /\ depth_num (max_depth t)).
    { destruct (md_toc md) as [|t|]; [exists new_toc; split; [reflexivity | intros ? E; discriminate] | eauto | contradiction]. }
    destruct Hm0 as (t0 & -> & Hd0).
    destruct (parse_wf (o_blog o) s) as (n' & u' & Hp' & Hw). rewrite Hp in Hp'. inversion Hp'; subst n' u'.
    destruct (emit_total c (fun e => exists t, toc e = TObj t /\ depth_num (max_depth t))
               (fun x => toc_args_ok x /\ content_ok x)) with
        (n := n) (par := mkn KDocument None) (s := mkest (TObj t0) (md_log md)) as (r & s' & E1 & (t1 & Et1 & _)).
    + intros ? [_ H]; exact H.
    + intros h ch s0 Hk [Hargs _] (t & Et & Hd).
      destruct (str_eqb (hmname h) ($ "toc")) eqn:En.
      * assert (En' := En). apply str_eqb_eq in En'. unfold macro_emit. simpl in Hargs. specialize (Hargs Hk En').
        destruct (string2dict (hmargs h)) as [kw|]; [|eauto 6].
        cbn zeta. rewrite En, Et.
        assert (Hdep : depth_num (dict_get ($ "depth")
              (dict_set ($ "text") (match hcontent h with Some t => VStr t | None => VNone end) kw))).
        { rewrite dict_get_set_neq by discriminate. apply Hargs. reflexivity. }
        set (kw2 := dict_set _ _ kw) in *. clearbody kw2.
        assert (Hlt : (2 <? verbose c)%Z = false) by (apply Z.ltb_ge; exact Hv).
        destruct (dict_get ($ "self") kw2); [rewrite Hlt; eauto 6|].
        assert (HT := toc_call_depth kw2 t Hdep Hd). destruct (toc_call kw2 t) as [r t'].
        eexists _, _; split; [reflexivity|]. exists t'. split; [reflexivity | exact HT].
      * destruct (macro_emit_user c h s0) as (r & s' & E & Et' & _).
        { right. split; [exact Hv | exact Hb]. }
        { left. intro X. rewrite X in En. discriminate. }
        exists r, s'. split; [exact E|]. exists t. split; [congruence | exact Hd].
    + intros h ch t s0 Hk _ (t1 & Et & Hd). unfold header_emit. cbn [use_toc c]. rewrite Et.
      unfold add_headline, depth_ok. destruct (max_depth t1) as [[v|z|b|]|] eqn:Em.
      * exfalso. exact (Hd v eq_refl).
      * destruct (_ <=? _)%Z; eexists _, _; (split; [reflexivity|]); eexists; (split; [reflexivity|]); simpl; rewrite ?Em; exact Hd.
      * destruct (_ <=? _)%Z; eexists _, _; (split; [reflexivity|]); eexists; (split; [reflexivity|]); simpl; rewrite ?Em; exact Hd.
      * eexists _, _; (split; [reflexivity|]); eexists; (split; [reflexivity|]); simpl; rewrite ?Em; exact Hd.
      * eexists _, _; (split; [reflexivity|]); eexists; (split; [reflexivity|]); simpl; rewrite ?Em; exact Hd.
    + apply everywhere_and; [exact Ha | apply doc_content; exact Hw].
    + exists t0. split; [reflexivity | exact Hd0].
    + unfold emit. rewrite E1. cbn [use_toc c]. rewrite Et1. eauto.
  - assert (Hnin : ~ In ($ "toc") u).
    { intro Hin. assert (X : existsb (str_eqb ($ "toc")) u = true).
      { apply existsb_exists. exists ($ "toc"). split; [exact Hin | reflexivity]. }
      congruence. }
    destruct (doc_general (fun _ => True) (img_shape) (fun _ => True) o md s n u) as (f & md' & E & _); auto.
    + right; auto.
    + apply everywhere_all. auto.
    + intros. apply image_any.
    + eauto.
Qed.
