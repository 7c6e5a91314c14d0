(** * Totality of the HTML emitter *)
From Coq Require Import String List Arith NArith ZArith Bool Lia.
From Verif Require Import PyStr PyStrFacts GNames Regex RegexFacts Rules DocTree Utils CreoleParser ParserFacts HtmlEmitter HtmlSpec EmitterFacts UsedFacts Spec.
Import ListNotations.
Open Scope N_scope.

(** nodes whose content is read have one *)
Definition content_ok (n : node) : Prop :=
  match n with
  | Nd h _ => match hk h with
              | KText | KPreInline | KLink | KImage | KHeader | KPreBlock => hcontent h <> None
              | _ => True
              end
  end.

Lemma has_content_ok : forall h, has_content h = true -> hcontent h <> None.
Proof. intros h H. unfold has_content in H. destruct (hcontent h); [discriminate | discriminate H]. Qed.

Lemma text_content : forall n, wf_text n = true -> everywhere content_ok n.
Proof.
  intros [h ch] H. simpl in H. apply andb_true_iff in H as [H Hn]. apply andb_true_iff in H as [Hk Hc].
  destruct ch; [|discriminate]. apply everywhere_intro; [|constructor].
  simpl. apply kind_beq_eq in Hk. rewrite Hk. apply has_content_ok; exact Hc.
Qed.
Lemma image_content : forall n, wf_image n = true -> everywhere content_ok n.
Proof.
  intros [h ch] H. destruct ch as [|t [|? ?]]; try discriminate. simpl in H.
  apply andb_true_iff in H as [H Ht]. apply andb_true_iff in H as [Hk Hc].
  apply everywhere_intro.
  - simpl. apply kind_beq_eq in Hk. rewrite Hk. apply has_content_ok; exact Hc.
  - constructor; [apply text_content; exact Ht | constructor].
Qed.
Lemma lnk_content : forall n, wf_lnk n = true -> everywhere content_ok n.
Proof.
  intros n H. unfold wf_lnk in H. apply orb_true_iff in H as [H|H]; [apply orb_true_iff in H as [H|H]|].
  - apply text_content; exact H.
  - destruct n as [h ch]. simpl in H. apply andb_true_iff in H as [Hk Hn]. apply kind_beq_eq in Hk.
    destruct ch; [|discriminate]. apply everywhere_intro; [|constructor]. simpl. rewrite Hk. exact I.
  - apply image_content; exact H.
Qed.
Lemma leaf_content : forall h ch, is_nil ch = true -> content_ok (Nd h ch) -> everywhere content_ok (Nd h ch).
Proof. intros h [|? ?] H Hc; [|discriminate]. apply everywhere_intro; [exact Hc | constructor]. Qed.

Lemma inl_content : forall n, wf_inl n = true -> everywhere content_ok n.
Proof.
  induction n as [h ch IH] using node_ind'. intro H. assert (H0 := H). cbn [wf_inl] in H.
  assert (HF : forallb wf_inl ch = true -> Forall (everywhere content_ok) ch).
  { intro Hf. rewrite forallb_forall in Hf. rewrite Forall_forall in *. auto. }
  destruct (hk h) eqn:Hk; try discriminate;
    try (apply everywhere_intro; [simpl; rewrite Hk; exact I | apply HF; exact H]).
  - apply andb_true_iff in H as [Hc Hn]. apply leaf_content; [exact Hn|]. simpl. rewrite Hk. apply has_content_ok; exact Hc.
  - apply leaf_content; [exact H|]. simpl. rewrite Hk. exact I.
  - apply andb_true_iff in H as [Hc Hn]. apply leaf_content; [exact Hn|]. simpl. rewrite Hk. apply has_content_ok; exact Hc.
  - apply andb_true_iff in H as [Hc Hl]. apply everywhere_intro.
    + simpl. rewrite Hk. apply has_content_ok; exact Hc.
    + rewrite forallb_forall in Hl. rewrite Forall_forall. intros. apply lnk_content; auto.
  - apply image_content. exact H.
  - apply leaf_content; [exact H|]. simpl. rewrite Hk. exact I.
Qed.
Lemma inls_content : forall l, forallb wf_inl l = true -> Forall (everywhere content_ok) l.
Proof. intros l H. rewrite forallb_forall in H. rewrite Forall_forall. intros. apply inl_content; auto. Qed.

Lemma list_content : forall n, (wf_item n = true -> everywhere content_ok n) /\
                               (wf_list n = true -> everywhere content_ok n).
Proof.
  induction n as [h ch IH] using node_ind'. split; intro H.
  - apply wf_item_inv in H as (Hk & a & b & -> & Ha & Hb).
    apply everywhere_intro; [simpl; rewrite Hk; exact I|]. apply Forall_app; split; [apply inls_content; exact Ha|].
    apply Forall_app in IH as [_ IH]. rewrite forallb_forall in Hb. rewrite Forall_forall in *.
    intros x Hx. apply (proj2 (IH x Hx)). auto.
  - cbn [wf_list] in H. apply andb_true_iff in H as [Hk Hf].
    apply everywhere_intro; [destruct h as [[] ? ? ? ?]; try discriminate; exact I|].
    rewrite forallb_forall in Hf. rewrite Forall_forall in *. intros x Hx. apply (proj1 (IH x Hx)). auto.
Qed.
Lemma row_content : forall n, wf_row n = true -> everywhere content_ok n.
Proof.
  intros [h ch] H. cbn [wf_row] in H. apply andb_true_iff in H as [Hk Hf]. apply kind_beq_eq in Hk.
  apply everywhere_intro; [simpl; rewrite Hk; exact I|].
  rewrite forallb_forall in Hf. rewrite Forall_forall. intros [hc cc] Hx. apply Hf in Hx.
  cbn [wf_cell] in Hx. apply andb_true_iff in Hx as [Hk2 Hf2].
  apply everywhere_intro; [|apply inls_content; exact Hf2].
  destruct hc as [[] ? ? ? ?]; try discriminate; exact I.
Qed.
Lemma block_content : forall n, wf_block n = true -> everywhere content_ok n.
Proof.
  intros [h ch] H. cbn [wf_block] in H.
  destruct (hk h) eqn:Hk; try discriminate.
  - apply everywhere_intro; [simpl; rewrite Hk; exact I | apply inls_content; exact H].
  - apply leaf_content; [exact H|]. simpl. rewrite Hk. exact I.
  - apply leaf_content; [exact H|]. simpl. rewrite Hk. exact I.
  - apply andb_true_iff in H as [H _]. apply andb_true_iff in H as [Hc Hn].
    apply leaf_content; [exact Hn|]. simpl. rewrite Hk. apply has_content_ok; exact Hc.
  - apply andb_true_iff in H as [Hc Hn].
    apply leaf_content; [exact Hn|]. simpl. rewrite Hk. apply has_content_ok; exact Hc.
  - apply leaf_content; [exact H|]. simpl. rewrite Hk. exact I.
  - apply (proj2 (list_content (Nd h ch))). cbn [wf_list]. rewrite Hk. exact H.
  - apply (proj2 (list_content (Nd h ch))). cbn [wf_list]. rewrite Hk. exact H.
  - apply everywhere_intro; [simpl; rewrite Hk; exact I|].
    rewrite forallb_forall in H. rewrite Forall_forall. intros. apply row_content; auto.
Qed.
Lemma doc_content : forall n, wf_doc n = true -> everywhere content_ok n.
Proof.
  intros [h ch] H. cbn [wf_doc] in H. apply andb_true_iff in H as [Hk Hf]. apply kind_beq_eq in Hk.
  apply everywhere_intro; [simpl; rewrite Hk; exact I|].
  rewrite forallb_forall in Hf. rewrite Forall_forall. intros. apply block_content; auto.
Qed.

Section Total.
  Variable c : cfg.
  Variable Inv : est -> Prop.
  Variable P : node -> Prop.
  Hypothesis Hcont : forall n, P n -> content_ok n.
  Hypothesis Hmacro : forall h ch s, is_macro (hk h) = true -> P (Nd h ch) -> Inv s ->
    exists r s', macro_emit c h s = (Ok r, s') /\ Inv s'.
  Hypothesis Hhead : forall h ch t s, hk h = KHeader -> P (Nd h ch) -> Inv s ->
    exists r s', header_emit c h t s = (Ok r, s') /\ Inv s'.

  Lemma total_children : forall h l,
    Forall (fun n => forall par s, Inv s -> exists r s', emit_node c par n s = (Ok r, s') /\ Inv s') l ->
    forall s, Inv s -> exists r s', emit_children c h l s = (Ok r, s') /\ Inv s'.
  Proof.
    intros h l H. induction H as [|x l Hx _ IH]; intros s Hs; [exists [], s; auto|].
    cbn [emit_children]. destruct (Hx h s Hs) as (r & s1 & -> & H1).
    destruct (IH s1 H1) as (r2 & s2 & -> & H2). eauto.
  Qed.

  Lemma emit_total : forall n, everywhere P n -> forall par s, Inv s ->
    exists r s', emit_node c par n s = (Ok r, s') /\ Inv s'.
  Proof.
    induction n as [h ch IH] using node_ind'. intros He par s Hs. rewrite emit_node_eq. cbn zeta.
    assert (HP := everywhere_here _ _ He). assert (HC := Hcont _ HP). simpl in HC.
    assert (HK : exists r s', emit_children c h ch s = (Ok r, s') /\ Inv s').
    { apply total_children; [|exact Hs]. apply everywhere_kids in He. rewrite Forall_forall in *. auto. }
    destruct HK as (r & s' & EK & HK).
    destruct (hk h) eqn:Hk; try rewrite EK; cbn [wrap]; eauto;
      try (destruct (hcontent h) as [t|]; [|congruence]); eauto.
    - destruct ch; [eexists _, _; split; [reflexivity | exact Hs]|]. eexists _, _; split; [reflexivity | exact HK].
    - apply (Hmacro h ch); auto. rewrite Hk. reflexivity.
    - apply (Hmacro h ch); auto. rewrite Hk. reflexivity.
  Qed.
End Total.

Lemma macro_emit_total : forall c h s, (verbose c <= 2)%Z -> no_base (env c) ->
  exists r s', macro_emit c h s = (Ok r, s').
Proof.
  intros c h s Hv Hb. unfold macro_emit.
  destruct (string2dict (hmargs h)) as [kw|]; [|eauto].
  cbn zeta. set (kw2 := dict_set _ _ kw). clearbody kw2.
  assert (Hlt : (2 <? verbose c)%Z = false) by (apply Z.ltb_ge; exact Hv).
  assert (HU : exists r s',
    (if u_has (env c) (hmname h)
     then
      let s' := mkest (toc s) (log s ++ [(hmname h, kw2)]) in
      match u_call (env c) (log s) (hmname h) kw2 with
      | MRet r => (Ok (if kind_beq (hk h) KMacroBlock then r ++ [10] else r), s')
      | MNonStr d =>
          (Ok (error c ($ "Macro '" ++ hmname h ++ $ "' doesn't return a unicode string!"
                        ++ (if (1 <? verbose c)%Z then d else []))), s')
      | MTypeError msg =>
          if (2 <? verbose c)%Z then (Exc ETypeError, s')
          else (Ok (error c ($ "Macro '" ++ hmname h ++ $ "' error: " ++ msg)), s')
      | MException msg => (Ok (error c ($ "Macro '" ++ hmname h ++ $ "' error: " ++ msg)), s')
      | MBase => (Exc EMacroBase, s')
      end
     else (Ok (error c ($ "Macro '" ++ hmname h ++ $ "' doesn't exist")), s)) = (Ok r, s')).
  { destruct (u_has (env c) (hmname h)); [|eauto]. cbn zeta. rewrite Hlt.
    specialize (Hb (log s) (hmname h) kw2).
    destruct (u_call (env c) (log s) (hmname h) kw2); eauto. congruence. }
  destruct (str_eqb (hmname h) ($ "toc")); [|exact HU].
  destruct (toc s) as [|t|]; try exact HU.
  destruct (dict_get ($ "self") kw2); [rewrite Hlt; eauto|].
  destruct (toc_call kw2 t) as [r t']. eauto.
Qed.

(** no exception leaves [creole2html] when the document does not use the toc *)
Theorem creole2html_total : forall o md s n u,
  (match o_verbose o with None => 1 | Some v => v end <= 2)%Z -> no_base (md_env md) ->
  parse (o_blog o) s = Some (n, u) -> ~ In ($ "toc") u ->
  exists r, fst (creole2html o md s) = Ok r.
Proof.
  intros o md s n u Hv Hb Hp Hu. unfold creole2html. rewrite Hp. unfold init_toc.
  assert (E : existsb (str_eqb ($ "toc")) u = false).
  { destruct (existsb _ u) eqn:E; [|reflexivity]. apply existsb_exists in E as (x & Hx & E).
    apply str_eqb_eq in E. subst x. contradiction. }
  rewrite E. cbn zeta.
  destruct (parse_wf (o_blog o) s) as (n' & u' & Hp' & Hw). rewrite Hp in Hp'. inversion Hp'; subst n' u'.
  set (c := mkcfg _ _ _ _).
  destruct (emit_total c (fun _ => True) content_ok (fun n H => H)) with
      (n := n) (par := mkn KDocument None) (s := mkest (md_toc md) (md_log md)) as (r & s' & E1 & _).
  - intros. destruct (macro_emit_total c h s0) as (r & s' & E1); eauto.
  - intros. unfold header_emit. simpl. eauto.
  - apply doc_content; exact Hw.
  - exact I.
  - unfold emit. rewrite E1. simpl. eauto.
Qed.
