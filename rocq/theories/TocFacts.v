(** * Table of contents, macro calls and histories *)
From Coq Require Import String List Arith NArith ZArith Bool Lia.
From Verif Require Import PyStr PyStrFacts GNames Regex RegexFacts Rules DocTree Utils CreoleParser ParserFacts HtmlEmitter HtmlSpec EmitterFacts UsedFacts TotalFacts Safety C2H Spec.
Import ListNotations.
Open Scope N_scope.

(** ** The nested list (C18) *)
(** contents of a stack of lists (top first), bottom at depth 1 *)
Fixpoint stack_outline (st : list (list nest)) : list (nat * str) :=
  match st with
  | [] => []
  | top :: r => stack_outline r ++ flat_map (outline (List.length st)) (rev top)
  end.

Lemma push_len : forall n st, List.length (nest_push n st) = (n + List.length st)%nat.
Proof. induction n; intro st; simpl; [reflexivity|]. rewrite IHn. simpl. lia. Qed.
Lemma push_outline : forall n st, stack_outline (nest_push n st) = stack_outline st.
Proof.
  induction n; intro st; simpl; [reflexivity|]. rewrite IHn. simpl. apply app_nil_r.
Qed.
Lemma pop_len : forall n st, (n < List.length st)%nat -> List.length (nest_pop n st) = (List.length st - n)%nat.
Proof.
  induction n; intros st H; [simpl; lia|].
  destruct st as [|a [|b r]]; simpl in H; try lia. cbn [nest_pop]. rewrite IHn; simpl; lia.
Qed.
Lemma pop_outline : forall n st, (n < List.length st)%nat -> stack_outline (nest_pop n st) = stack_outline st.
Proof.
  induction n; intros st H; [reflexivity|].
  destruct st as [|a [|b r]]; simpl in H; try lia. cbn [nest_pop]. rewrite IHn by (simpl; lia).
  cbn [stack_outline]. cbn [rev]. rewrite flat_map_app. cbn [flat_map outline List.length].
  rewrite app_nil_r, <- app_assoc. reflexivity.
Qed.
Lemma step_outline : forall st i e, st <> [] -> (1 <= i)%nat ->
  List.length (nest_step st (i, e)) = i /\ stack_outline (nest_step st (i, e)) = stack_outline st ++ [(i, e)].
Proof.
  intros st i e Hst Hi. unfold nest_step. set (len := List.length st).
  assert (Hlen : (1 <= len)%nat) by (destruct st; [congruence | simpl in len; unfold len; lia]).
  set (st' := if Nat.ltb len i then _ else _).
  assert (H : List.length st' = i /\ stack_outline st' = stack_outline st).
  { unfold st'. destruct (Nat.ltb_spec len i).
    - rewrite push_len, push_outline. fold len. split; [lia | reflexivity].
    - destruct (Nat.ltb_spec i len).
      + rewrite pop_len, pop_outline by (fold len; lia). fold len. split; [lia | reflexivity].
      + fold len. split; [lia | reflexivity]. }
  clearbody st'. destruct H as [H1 H2]. destruct st' as [|top r]; [simpl in H1; lia|].
  cbn [nest_add]. split; [simpl in *; exact H1|]. rewrite <- H2. cbn [stack_outline rev].
  rewrite flat_map_app. cbn [flat_map outline]. simpl in H1. cbn [List.length]. rewrite H1, app_assoc. reflexivity.
Qed.
Lemma nest_outline : forall l, Forall (fun x => (1 <= fst x)%nat) l ->
  flat_map (outline 1) (flat_list2nest_list l) = l.
Proof.
  intros l Hl. unfold flat_list2nest_list.
  assert (H : forall l st, Forall (fun x => (1 <= fst x)%nat) l -> st <> [] ->
    fold_left nest_step l st <> [] /\ stack_outline (fold_left nest_step l st) = stack_outline st ++ l).
  { clear. induction l as [|[i e] l IH]; intros st Hl Hst.
    - split; [exact Hst | simpl; rewrite app_nil_r; reflexivity].
    - inversion Hl as [|? ? Hi Hl']; subst. destruct (step_outline st i e Hst Hi) as [H1 H2].
      destruct (IH (nest_step st (i, e)) Hl') as [H3 H4].
      + intro E. rewrite E in H1. simpl in *. lia.
      + split; [exact H3|]. cbn [fold_left]. rewrite H4, H2, <- app_assoc. reflexivity. }
  destruct (H l [[]] Hl) as [H1 H2]; [discriminate|].
  set (st := fold_left nest_step l [[]]) in *. clearbody st.
  assert (Hlen : (1 <= List.length st)%nat) by (destruct st; [congruence | simpl; lia]).
  assert (HP := pop_outline (List.length st - 1) st). assert (HL := pop_len (List.length st - 1) st).
  rewrite H2 in HP. set (st' := nest_pop _ st) in *. clearbody st'.
  destruct st' as [|top [|? ?]]; [simpl in HL; lia | | simpl in HL; lia].
  assert (HP' := HP ltac:(lia)). simpl in HP'. simpl. exact HP'.
Qed.

(** ** The HTML of the table of contents (C19) *)
Fixpoint toc_html (level : nat) (n : nest) : list html :=
  match n with
  | NLeaf s => [HText (repeat 9 level); HEl ($ "li") [] [HEl ($ "a") [($ "href", 35 :: s)] [HRaw s]]; HText [10]]
  | NList l =>
    [HText (repeat 9 level);
     HEl ($ "ul") [] (HText [10] ::
       (fix go (l : list nest) : list html :=
          match l with [] => [] | e :: r => toc_html (S level) e ++ go r end) l ++
       [HText (repeat 9 level)]);
     HText (if Nat.ltb 0 level then [10] else [])]
  end.

Lemma nest_ind' : forall (P : nest -> Prop), (forall s, P (NLeaf s)) ->
  (forall l, Forall P l -> P (NList l)) -> forall n, P n.
Proof.
  intros P H1 H2. fix IH 1. intros [s|l]; [apply H1|]. apply H2.
  induction l as [|x l IHl]; constructor; [apply IH | exact IHl].
Qed.

Lemma esc_tabs : forall n, flat_map entity (repeat 9 n) = repeat 9 n.
Proof. induction n; [reflexivity|]. cbn [repeat flat_map]. rewrite IHn. reflexivity. Qed.

Lemma toc_html_show : forall n level, nested_headlines2html level n = show_all (toc_html level n).
Proof.
  induction n as [s|l IH] using nest_ind'; intro level.
  - cbn [nested_headlines2html toc_html show_all flat_map show]. rewrite esc_tabs.
    unfold show_attrs, show_attr. cbn [flat_map fst snd]. cat.
  - cbn [nested_headlines2html toc_html].
    cbn [show_all flat_map show]. rewrite esc_tabs.
    set (A := (fix go (l : list nest) : str := match l with [] => [] | e :: r => nested_headlines2html (S level) e ++ go r end) l).
    set (B := (fix go (l : list nest) : list html := match l with [] => [] | e :: r => toc_html (S level) e ++ go r end) l).
    assert (E : A = show_all B).
    { unfold A, B. clear -IH. induction IH as [|x l Hx _ IHl]; [reflexivity|].
      rewrite show_all_app, <- IHl, <- Hx. reflexivity. }
    rewrite E. unfold show_all. rewrite flat_map_app. cbn [flat_map show]. rewrite esc_tabs.
    cbn [show_attrs flat_map].
    rewrite ?app_nil_r. destruct (Nat.ltb 0 level); cbn [flat_map]; rewrite ?app_nil_r; cat.
Qed.

Lemma blank_tabs : forall n, blank (HText (repeat 9 n)).
Proof. intro n. exists (repeat 9 n). split; [reflexivity|]. intros c Hc. apply repeat_spec in Hc. auto. Qed.
Lemma blank_nl : blank (HText [10]).
Proof. exists [10]. split; [reflexivity|]. intros c [<-|[]]. auto. Qed.

Lemma toc_html_ok : forall n level, Forall toc_item (toc_html level n).
Proof.
  induction n as [s|l IH] using nest_ind'; intro level; cbn [toc_html].
  - repeat constructor; try apply blank_tabs; apply blank_nl.
  - constructor; [apply ti_blank, blank_tabs|]. constructor.
    + apply ti_ul, tl_ul. constructor; [apply ti_blank, blank_nl|]. apply Forall_app. split.
      * induction IH as [|x l Hx _ IHl]; [constructor|]. apply Forall_app. split; [apply Hx | exact IHl].
      * constructor; [apply ti_blank, blank_tabs | constructor].
    + constructor; [|constructor]. apply ti_blank. destruct (Nat.ltb 0 level); [apply blank_nl|].
      exists []. split; [reflexivity | intros ? []].
Qed.
Lemma toc_html_links : forall n level d,
  flat_map (toc_links d) (toc_html level n) = map (fun x => (fst x, 35 :: snd x)) (outline d n).
Proof.
  induction n as [s|l IH] using nest_ind'; intros level d; cbn [toc_html].
  - reflexivity.
  - cbn [flat_map]. cbn [toc_links]. change (str_eqb ($ "ul") ($ "ul")) with true. cbn iota.
    cbn [flat_map toc_links app outline]. rewrite flat_map_app. cbn [flat_map toc_links app].
    rewrite ?app_nil_r. induction IH as [|x l Hx _ IHl]; [reflexivity|].
    rewrite flat_map_app, Hx, IHl. cbn [flat_map]. rewrite map_app. reflexivity.
Qed.

Lemma toc_html_balanced : forall l, exists f t,
  nested_headlines2html 0 (NList l) = show_all [f; HText t] /\ t = [] /\ toc_list f /\
  toc_links 0 f = map (fun x => (fst x, 35 :: snd x)) (flat_map (outline 1) l).
Proof.
  intro l. rewrite toc_html_show.
  assert (H := toc_html_ok (NList l) 0). assert (HL := toc_html_links (NList l) 0 0).
  cbn [toc_html repeat] in *. set (U := HEl ($ "ul") [] _) in *.
  exists U, []. split; [reflexivity|]. split; [reflexivity|]. split.
  - inversion H as [|? ? _ H2]; subst. inversion H2 as [|? ? H3 _]; subst.
    inversion H3 as [h (w & E & _)|h HT|]; subst; [discriminate | exact HT].
  - cbn [flat_map] in HL. change (toc_links 0 (HText [])) with (@nil (nat * str)) in HL.
    change (toc_links 0 (HText (if Nat.ltb 0 0 then [10] else []))) with (@nil (nat * str)) in HL.
    rewrite ?app_nil_r in HL. exact HL.
Qed.

(** ** Which headlines are listed (C22) *)
(** one event on a TableOfContent object *)
Definition ev_step (t : tocst) (e : ev) : tocst :=
  match e with
  | EHead n x => if level_ok (max_depth t) n then mktoc (max_depth t) (headlines t ++ [(n, x)]) (created t) else t
  | EToc d => if created t then t
              else mktoc (match d with Some VNone | None => max_depth t | Some d => Some d end) (headlines t) true
  end.
Definition evs_go (c : cfg) := fix go (l : list node) : list ev := match l with [] => [] | x :: r => events x ++ go r end.

Lemma macro_emit_toc : forall c h s t, toc s = TObj t -> is_macro (hk h) = true -> forall r s',
  macro_emit c h s = (Ok r, s') -> toc s' = TObj (fold_left ev_step (events (Nd h [])) t).
Proof.
  intros c h s t Et Hk r s' E. unfold macro_emit in E. cbn [events].
  assert (HE : (match hk h with
    | KHeader => match hcontent h with Some t => [EHead (hlevel h) t] | None => [] end
    | KMacroInline | KMacroBlock =>
      if str_eqb (hmname h) ($ "toc")
      then match string2dict (hmargs h) with
           | Some kw => match dict_get ($ "self") kw with None => [EToc (dict_get ($ "depth") kw)] | Some _ => [] end
           | None => []
           end
      else []
    | KText | KPreInline | KImage | KBreak | KLine | KPreBlock | KSeparator => []
    | _ => []
    end) = if str_eqb (hmname h) ($ "toc")
      then match string2dict (hmargs h) with
           | Some kw => match dict_get ($ "self") kw with None => [EToc (dict_get ($ "depth") kw)] | Some _ => [] end
           | None => []
           end
      else []) by (destruct (hk h); try discriminate; reflexivity).
  rewrite HE. clear HE.
  destruct (string2dict (hmargs h)) as [kw|].
  - cbn zeta in E.
    assert (Eself : dict_get ($ "self") (dict_set ($ "text") (match hcontent h with Some t => VStr t | None => VNone end) kw)
            = dict_get ($ "self") kw) by (apply dict_get_set_neq; discriminate).
    assert (Edep : dict_get ($ "depth") (dict_set ($ "text") (match hcontent h with Some t => VStr t | None => VNone end) kw)
            = dict_get ($ "depth") kw) by (apply dict_get_set_neq; discriminate).
    set (kw2 := dict_set _ _ kw) in *. clearbody kw2.
    destruct (str_eqb (hmname h) ($ "toc")).
    + rewrite Et, Eself in E. destruct (dict_get ($ "self") kw).
      * destruct (2 <? verbose c)%Z; inversion E; subst; exact Et.
      * unfold toc_call in E. rewrite Edep in E. cbn [fold_left ev_step].
        destruct (created t); inversion E; subst; reflexivity.
    + destruct (u_has (env c) (hmname h)).
      * destruct (u_call (env c) (log s) (hmname h) kw2);
          try destruct (2 <? verbose c)%Z; inversion E; subst; exact Et.
      * inversion E; subst; exact Et.
  - inversion E; subst. destruct (str_eqb (hmname h) ($ "toc")); exact Et.
Qed.

Lemma emit_toc : forall c, use_toc c = true -> forall n par s t r s',
  toc s = TObj t -> emit_node c par n s = (Ok r, s') -> toc s' = TObj (fold_left ev_step (events n) t).
Proof.
  intros c Hc. induction n as [h ch IH] using node_ind'. intros par s t r s' Et E.
  rewrite emit_node_eq in E. cbn zeta in E.
  assert (HK : forall s t r s', toc s = TObj t -> emit_children c h ch s = (Ok r, s') ->
     toc s' = TObj (fold_left ev_step (evs_go c ch) t)).
  { clear E s t r s' Et. induction IH as [|x l Hx _ IHl]; intros s t r s' Et E.
    - inversion E; subst. exact Et.
    - cbn [emit_children] in E. destruct (emit_node c h x s) as [[a|e] s1] eqn:E1; [|discriminate].
      destruct (emit_children c h l s1) as [[b|e] s2] eqn:E2; [|discriminate]. inversion E; subst.
      cbn [evs_go]. rewrite fold_left_app. eapply IHl; [|exact E2]. eapply Hx; eauto. }
  assert (HW : forall f X r s', wrap f X = (Ok r, s') -> exists a, X = (Ok a, s')).
  { intros f [[a|e] s0] r0 s0' H; inversion H; eauto. }
  destruct (hk h) eqn:Hk; cbn [events]; rewrite Hk;
    try (apply HW in E as [a E]; exact (HK _ _ _ _ Et E));
    try (inversion E; subst; exact Et);
    try (destruct (hcontent h) as [x|] eqn:Ex; [|discriminate]; try (inversion E; subst; exact Et)).
  - exact (HK _ _ _ _ Et E).
  - (* header *) unfold header_emit in E. rewrite Hc, Et in E. unfold add_headline in E.
    cbn [fold_left ev_step]. destruct (max_depth t) as [[v|z|b|]|]; cbn [depth_ok level_ok] in *.
    + discriminate.
    + destruct (_ <=? _)%Z; inversion E; reflexivity.
    + destruct (_ <=? _)%Z; inversion E; reflexivity.
    + inversion E; reflexivity.
    + inversion E; reflexivity.
  - (* link *) apply HW in E as [a E]. destruct ch as [|n0 ch]; [inversion E; subst; exact Et|].
    exact (HK _ _ _ _ Et E).
  - assert (HM := macro_emit_toc c h s t Et (f_equal is_macro Hk) r s' E). cbn [events] in HM. rewrite Hk in HM. exact HM.
  - assert (HM := macro_emit_toc c h s t Et (f_equal is_macro Hk) r s' E). cbn [events] in HM. rewrite Hk in HM. exact HM.
Qed.

Lemma listed_created : forall l t, created t = true ->
  headlines (fold_left ev_step l t) = headlines t ++ listed_after (max_depth t) l.
Proof.
  induction l as [|[n x|d] l IH]; intros t Ht; cbn [fold_left ev_step listed_after].
  - rewrite app_nil_r. reflexivity.
  - destruct (level_ok (max_depth t) n) eqn:E.
    + rewrite IH by exact Ht. simpl. rewrite <- app_assoc. reflexivity.
    + apply IH; exact Ht.
  - rewrite Ht. apply IH; exact Ht.
Qed.
Lemma listed_new : forall l hs, headlines (fold_left ev_step l (mktoc None hs false)) = hs ++ listed l.
Proof.
  induction l as [|[n x|d] l IH]; intro hs; cbn [fold_left ev_step listed].
  - rewrite app_nil_r. reflexivity.
  - cbn [max_depth level_ok headlines created]. rewrite IH, <- app_assoc. reflexivity.
  - cbn [created max_depth headlines]. rewrite listed_created by reflexivity. cbn [headlines max_depth].
    destruct d as [[]|]; try reflexivity. f_equal.
    clear IH. induction l as [|[]]; cbn [listed_after level_ok]; congruence.
Qed.

(** the document with the placeholder replaced by the list of headlines *)
Lemma toc_result : forall o md s n u html md',
  parse (o_blog o) s = Some (n, u) -> In ($ "toc") u -> md_toc md = TNone ->
  creole2html o md s = (Ok html, md') ->
  exists page, html = toc_emit (mktoc None (listed (events n)) true) page.
Proof.
  intros o md s n u html md' Hp Hin Hmd E. unfold creole2html in E. rewrite Hp in E. unfold init_toc in E.
  assert (EU : existsb (str_eqb ($ "toc")) u = true).
  { apply existsb_exists. exists ($ "toc"). split; [exact Hin | reflexivity]. }
  rewrite EU, Hmd in E. cbn zeta in E. set (c := mkcfg _ _ _ _) in E.
  unfold emit in E. destruct (emit_node c (mkn KDocument None) n (mkest (TObj new_toc) (md_log md))) as [[a|e] s'] eqn:E1; [|discriminate].
  apply (emit_toc c eq_refl) with (t := new_toc) in E1; [|reflexivity].
  cbn [use_toc c] in E. rewrite E1 in E. inversion E; subst. exists (strip a).
  unfold toc_emit. assert (HL := listed_new (events n) []). fold new_toc in HL. rewrite HL. reflexivity.
Qed.

(** ** Histories (C21) *)
Definition same (a b : res str * est) : Prop := fst a = fst b /\ toc (snd a) = toc (snd b).

Lemma macro_same : forall c h s s', stateless (env c) -> toc s = toc s' -> same (macro_emit c h s) (macro_emit c h s').
Proof.
  intros c h s s' Hst Ht. unfold macro_emit.
  destruct (string2dict (hmargs h)) as [kw|]; [|split; [reflexivity | exact Ht]].
  cbn zeta. set (kw2 := dict_set _ _ kw). clearbody kw2. rewrite (Hst (log s) (log s')), <- Ht.
  assert (HU : same
    (if u_has (env c) (hmname h)
     then match u_call (env c) (log s') (hmname h) kw2 with
      | MRet r => (Ok (if kind_beq (hk h) KMacroBlock then r ++ [10] else r), mkest (toc s) (log s ++ [(hmname h, kw2)]))
      | MNonStr d =>
          (Ok (error c ($ "Macro '" ++ hmname h ++ $ "' doesn't return a unicode string!"
                        ++ (if (1 <? verbose c)%Z then d else []))), mkest (toc s) (log s ++ [(hmname h, kw2)]))
      | MTypeError msg =>
          if (2 <? verbose c)%Z then (Exc ETypeError, mkest (toc s) (log s ++ [(hmname h, kw2)]))
          else (Ok (error c ($ "Macro '" ++ hmname h ++ $ "' error: " ++ msg)), mkest (toc s) (log s ++ [(hmname h, kw2)]))
      | MException msg => (Ok (error c ($ "Macro '" ++ hmname h ++ $ "' error: " ++ msg)), mkest (toc s) (log s ++ [(hmname h, kw2)]))
      | MBase => (Exc EMacroBase, mkest (toc s) (log s ++ [(hmname h, kw2)]))
      end
     else (Ok (error c ($ "Macro '" ++ hmname h ++ $ "' doesn't exist")), s))
    (if u_has (env c) (hmname h)
     then match u_call (env c) (log s') (hmname h) kw2 with
      | MRet r => (Ok (if kind_beq (hk h) KMacroBlock then r ++ [10] else r), mkest (toc s) (log s' ++ [(hmname h, kw2)]))
      | MNonStr d =>
          (Ok (error c ($ "Macro '" ++ hmname h ++ $ "' doesn't return a unicode string!"
                        ++ (if (1 <? verbose c)%Z then d else []))), mkest (toc s) (log s' ++ [(hmname h, kw2)]))
      | MTypeError msg =>
          if (2 <? verbose c)%Z then (Exc ETypeError, mkest (toc s) (log s' ++ [(hmname h, kw2)]))
          else (Ok (error c ($ "Macro '" ++ hmname h ++ $ "' error: " ++ msg)), mkest (toc s) (log s' ++ [(hmname h, kw2)]))
      | MException msg => (Ok (error c ($ "Macro '" ++ hmname h ++ $ "' error: " ++ msg)), mkest (toc s) (log s' ++ [(hmname h, kw2)]))
      | MBase => (Exc EMacroBase, mkest (toc s) (log s' ++ [(hmname h, kw2)]))
      end
     else (Ok (error c ($ "Macro '" ++ hmname h ++ $ "' doesn't exist")), s'))).
  { destruct (u_has (env c) (hmname h)); [|split; [reflexivity | exact Ht]].
    destruct (u_call _ _ _ _); try destruct (2 <? verbose c)%Z; split; reflexivity. }
  destruct (str_eqb (hmname h) ($ "toc")); [|exact HU].
  destruct (toc s) as [|t|] eqn:ET; try exact HU.
  destruct (dict_get ($ "self") kw2).
  - destruct (2 <? verbose c)%Z; split; simpl; congruence.
  - destruct (toc_call kw2 t); split; reflexivity.
Qed.

Lemma wrap_same : forall f a b, same a b -> same (wrap f a) (wrap f b).
Proof.
  intros f [[a|e] s] [[b|e'] s'] [H1 H2]; simpl in *; inversion H1; subst; split; auto.
Qed.
Lemma emit_same : forall c, stateless (env c) -> forall n par s s', toc s = toc s' ->
  same (emit_node c par n s) (emit_node c par n s').
Proof.
  intros c Hst. induction n as [h ch IH] using node_ind'. intros par s s' Ht.
  rewrite !emit_node_eq. cbn zeta.
  assert (HK : forall s s', toc s = toc s' -> same (emit_children c h ch s) (emit_children c h ch s')).
  { clear s s' Ht. induction IH as [|x l Hx _ IHl]; intros s s' Ht; [split; auto|].
    cbn [emit_children]. specialize (Hx h s s' Ht).
    destruct (emit_node c h x s) as [[a|e] s1], (emit_node c h x s') as [[a'|e'] s1'];
      destruct Hx as [H1 H2]; simpl in *; inversion H1; subst; [|split; auto].
    specialize (IHl s1 s1' H2). destruct (emit_children c h l s1) as [[b|e] s2], (emit_children c h l s1') as [[b'|e'] s2'];
      destruct IHl as [H3 H4]; simpl in *; inversion H3; subst; split; auto. }
  assert (HP : forall r, same (r, s) (r, s')) by (intro; split; [reflexivity | exact Ht]).
  destruct (hk h); try (apply wrap_same, HK, Ht); try apply HP; try (apply HK, Ht);
    try (destruct (hcontent h) as [x|]; [|apply HP]); try apply HP.
  - unfold header_emit. destruct (use_toc c); [|apply HP]. rewrite <- Ht.
    destruct (toc s) as [|t|] eqn:ET; try (split; simpl; congruence).
    destruct (add_headline (hlevel h) x t); split; simpl; congruence.
  - apply wrap_same. destruct ch; [apply HP | apply HK, Ht].
  - apply macro_same; assumption.
  - apply macro_same; assumption.
Qed.

(** a document without toc leaves the toc entry alone *)
Lemma macro_keeps : forall c h s, hmname h <> $ "toc" -> toc (snd (macro_emit c h s)) = toc s.
Proof.
  intros c h s Hn. unfold macro_emit. destruct (string2dict (hmargs h)) as [kw|]; [|reflexivity].
  cbn zeta. set (kw2 := dict_set _ _ kw). clearbody kw2. rewrite (proj2 (str_eqb_neq _ _) Hn).
  destruct (u_has _ _); [|reflexivity].
  destruct (u_call _ _ _ _); try destruct (2 <? verbose c)%Z; reflexivity.
Qed.
Lemma emit_keeps : forall c u, use_toc c = false -> ~ In ($ "toc") u -> forall n, everywhere (registered u) n ->
  forall par s, toc (snd (emit_node c par n s)) = toc s.
Proof.
  intros c u Hc Hu. induction n as [h ch IH] using node_ind'. intros Hn par s. rewrite emit_node_eq. cbn zeta.
  assert (HK : forall s, toc (snd (emit_children c h ch s)) = toc s).
  { clear s. apply everywhere_kids in Hn. induction IH as [|x l Hx _ IHl]; intro s; [reflexivity|].
    inversion Hn as [|? ? H1 H2]; subst. cbn [emit_children]. specialize (Hx H1 h s).
    destruct (emit_node c h x s) as [[a|e] s1]; [|exact Hx]. specialize (IHl H2 s1).
    destruct (emit_children c h l s1) as [[b|e] s2]; simpl in *; congruence. }
  assert (HW : forall f, toc (snd (wrap f (emit_children c h ch s))) = toc s).
  { intro f. specialize (HK s). destruct (emit_children c h ch s) as [[a|e] s1]; exact HK. }
  apply everywhere_here in Hn. simpl in Hn.
  assert (HM : is_macro (hk h) = true -> toc (snd (macro_emit c h s)) = toc s).
  { intro Hk. apply macro_keeps. intro E. apply Hu. rewrite <- E. auto. }
  destruct (hk h); try apply HW; try apply HK; try reflexivity; try (apply HM; reflexivity);
    try (destruct (hcontent h); [|reflexivity]); try reflexivity.
  - unfold header_emit. rewrite Hc. reflexivity.
  - destruct ch; [reflexivity | apply HW].
Qed.

Lemma text_uses_toc : forall blog s, contains ($ "toc") s = false -> ~ uses_toc blog s.
Proof. intros blog s H (n & u & Hp & Hin). exact (parse_no_toc _ _ _ _ H Hp Hin). Qed.

Lemma creole2html_keeps : forall o md s, ~ uses_toc (o_blog o) s ->
  md_env (snd (creole2html o md s)) = md_env md /\ md_toc (snd (creole2html o md s)) = md_toc md.
Proof.
  intros o md s Hs. unfold creole2html. destruct (parse (o_blog o) s) as [[n u]|] eqn:Hp; [|split; reflexivity].
  assert (Hu : ~ In ($ "toc") u) by (intro Hin; apply Hs; exists n, u; auto).
  rewrite (no_toc_init _ _ Hu). cbn zeta. set (c := mkcfg _ _ _ _).
  assert (HK := emit_keeps c u eq_refl Hu n (parse_registered _ _ _ _ Hp) (mkn KDocument None) (mkest (md_toc md) (md_log md))).
  unfold emit. destruct (emit_node c _ n _) as [[a|e] s']; simpl in *; auto.
Qed.

Lemma creole2html_same : forall o md md' s, stateless (md_env md) -> md_env md' = md_env md -> md_toc md' = md_toc md ->
  fst (creole2html o md s) = fst (creole2html o md' s) /\
  md_toc (snd (creole2html o md s)) = md_toc (snd (creole2html o md' s)).
Proof.
  intros o md md' s Hst He Ht. unfold creole2html. destruct (parse (o_blog o) s) as [[n u]|]; [|auto].
  rewrite He, Ht. destruct (init_toc u (md_toc md)) as [ut t]. set (c := mkcfg _ _ _ _).
  assert (HS := emit_same c Hst n (mkn KDocument None) (mkest t (md_log md)) (mkest t (md_log md')) eq_refl).
  unfold emit.
  destruct (emit_node c _ n (mkest t (md_log md))) as [[a|e] s1], (emit_node c _ n (mkest t (md_log md'))) as [[a'|e'] s1'];
    destruct HS as [H1 H2]; simpl in *; inversion H1; subst; [|split; auto].
  destruct ut; cbn [use_toc c]; [|split; [reflexivity | exact H2]].
  rewrite <- H2. destruct (toc s1) eqn:ET; simpl; split; congruence.
Qed.

Lemma after_keeps : forall docs md, Forall (fun x => ~ uses_toc (o_blog (fst x)) (snd x)) docs ->
  md_env (after md docs) = md_env md /\ md_toc (after md docs) = md_toc md.
Proof.
  induction docs as [|[o d] r IH]; intros md H; [auto|]. inversion H as [|? ? H1 H2]; subst.
  cbn [after]. destruct (IH (snd (creole2html o md d)) H2) as [H3 H4].
  destruct (creole2html_keeps o md d H1) as [H5 H6]. split; congruence.
Qed.

Lemma history_free : forall docs md o s, stateless (md_env md) ->
  Forall (fun x => ~ uses_toc (o_blog (fst x)) (snd x)) docs ->
  fst (creole2html o (after md docs) s) = fst (creole2html o md s).
Proof.
  intros docs md o s Hst H. destruct (after_keeps docs md H) as [H1 H2].
  symmetry. apply creole2html_same; auto.
Qed.

(** ** Macro calls (C17) *)
Definition tags_go := fix go (l : list node) : list hdr := match l with [] => [] | x :: r => macro_tags x ++ go r end.

Lemma macro_log : forall c h s r s', hmname h <> $ "toc" -> macro_emit c h s = (Ok r, s') ->
  log s' = log s ++ tag_call (env c) h.
Proof.
  intros c h s r s' Hn E. unfold macro_emit in E. unfold tag_call.
  destruct (string2dict (hmargs h)) as [kw|]; [|inversion E; rewrite app_nil_r; reflexivity].
  cbn zeta in E. set (kw2 := dict_set _ _ kw) in *. clearbody kw2. rewrite (proj2 (str_eqb_neq _ _) Hn) in E.
  destruct (u_has _ _); [|inversion E; rewrite app_nil_r; reflexivity].
  destruct (u_call _ _ _ _); try destruct (2 <? verbose c)%Z; inversion E; reflexivity.
Qed.
Lemma emit_log : forall c u, use_toc c = false -> ~ In ($ "toc") u -> forall n, everywhere (registered u) n ->
  forall par s r s', emit_node c par n s = (Ok r, s') ->
  log s' = log s ++ flat_map (tag_call (env c)) (macro_tags n).
Proof.
  intros c u Hc Hu. induction n as [h ch IH] using node_ind'. intros Hn par s r s' E.
  rewrite emit_node_eq in E. cbn zeta in E.
  assert (HK : forall s r s', emit_children c h ch s = (Ok r, s') ->
     log s' = log s ++ flat_map (tag_call (env c)) (tags_go ch)).
  { clear E s r s'. apply everywhere_kids in Hn. induction IH as [|x l Hx _ IHl]; intros s r s' E.
    - inversion E; subst. rewrite app_nil_r. reflexivity.
    - inversion Hn as [|? ? H1 H2]; subst.
      cbn [emit_children] in E. destruct (emit_node c h x s) as [[a|e] s1] eqn:E1; [|discriminate].
      destruct (emit_children c h l s1) as [[b|e] s2] eqn:E2; [|discriminate]. inversion E; subst.
      cbn [tags_go]. rewrite flat_map_app, (IHl H2 _ _ _ E2), (Hx H1 _ _ _ _ E1), app_assoc. reflexivity. }
  assert (HW : forall f X r s', wrap f X = (Ok r, s') -> exists a, X = (Ok a, s')).
  { intros f [[a|e] s0] r0 s0' H; inversion H; eauto. }
  assert (HN : forall s0 : est, log s0 = log s0 ++ []) by (intro; rewrite app_nil_r; reflexivity).
  apply everywhere_here in Hn. simpl in Hn.
  assert (HM : is_macro (hk h) = true -> hmname h <> $ "toc").
  { intros Hk E0. apply Hu. rewrite <- E0. auto. }
  destruct (hk h) eqn:Hk; cbn [macro_tags]; rewrite Hk;
    try (apply HW in E as [a E]; exact (HK _ _ _ E));
    try (inversion E; subst; apply HN);
    try (destruct (hcontent h) as [x|] eqn:Ex; [|discriminate]; try (inversion E; subst; apply HN)).
  - exact (HK _ _ _ E).
  - unfold header_emit in E. rewrite Hc in E. inversion E; subst; apply HN.
  - apply HW in E as [a E]. destruct ch as [|n0 ch]; [inversion E; subst; apply HN|]. exact (HK _ _ _ E).
  - cbn [flat_map]. rewrite app_nil_r. eapply macro_log; eauto.
  - cbn [flat_map]. rewrite app_nil_r. eapply macro_log; eauto.
Qed.

Lemma creole2html_log : forall o md s n u html md', parse (o_blog o) s = Some (n, u) -> ~ In ($ "toc") u ->
  creole2html o md s = (Ok html, md') ->
  md_log md' = md_log md ++ flat_map (tag_call (md_env md)) (macro_tags n).
Proof.
  intros o md s n u html md' Hp Hu E. unfold creole2html in E. rewrite Hp, (no_toc_init _ _ Hu) in E.
  cbn zeta in E. set (c := mkcfg _ _ _ _) in E. unfold emit in E.
  destruct (emit_node c (mkn KDocument None) n _) as [[a|e] s'] eqn:E1; [|discriminate].
  apply (emit_log c u eq_refl Hu n (parse_registered _ _ _ _ Hp)) in E1. inversion E; subst. exact E1.
Qed.
