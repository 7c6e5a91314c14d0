(** * Facts about the emitters of the html side *)
From Coq Require Import String List Arith NArith ZArith Bool Lia.
From Verif Require Import PyStr PyStrFacts Utils Res HtmlTools HtmlToolsFacts HtmlTok HtmlParser MarkupTable UrlQuote HtmlBase Html2X.
From Verif Require Import TreeFacts Spec3.
Import ListNotations.
Open Scope N_scope.

Lemma hnode_ind' : forall P : hnode -> Prop,
  (forall k c a l ch, Forall P ch -> P (HN k c a l ch)) -> forall n, P n.
Proof.
  intros P H. fix IH 1. intros [k c a l ch]. apply H. induction ch; constructor; [apply IH|assumption].
Qed.

Section Eq.
  Variable ms : methods.
  Variable u : unknown.
  Variable pre : list str -> est -> str * est.
  Definition emit_list (anc : list str) : list hnode -> est -> res (str * est) :=
    fix go (ch : list hnode) (s : est) : res (str * est) :=
    match ch with
    | [] => Ok ([], s)
    | x :: t => do (r, s1) <- emit_node ms u pre anc x s; do (r', s2) <- go t s1; Ok (r ++ r', s2)
    end.
  Definition kids_of (anc : list str) (k : str) (c : option str) (ch : list hnode) : action :=
    fun s => emit_list (k :: anc) ch (set_last (k, c) s).
  Lemma emit_node_eq : forall anc k c a l ch s, emit_node ms u pre anc (HN k c a l ch) s =
    let '(p, s1) := pre anc s in
    do (r, s2) <- run_meth ms u (mkn k c a l anc) (kids_of anc k c ch) s1;
    Ok (p ++ r, set_last (k, c) s2).
  Proof. reflexivity. Qed.
End Eq.

(** ** looking up methods *)
Lemma find_meth_In : forall ms k f, find_meth ms k = Some f -> In (k, f) ms.
Proof.
  induction ms as [|[k' f'] ms IH]; intros k f H; [discriminate|]. cbn [find_meth] in H.
  destruct (str_eqb k' k) eqn:E; [apply str_eqb_eq in E; inversion H; subst; left; reflexivity|right; auto].
Qed.
Lemma find_meth_None : forall ms k, find_meth ms k = None <-> ~ In k (map fst ms).
Proof.
  induction ms as [|[k' f'] ms IH]; intro k; cbn [find_meth map fst]; [split; [intros _ []|reflexivity]|].
  destruct (str_eqb k' k) eqn:E.
  - apply str_eqb_eq in E. subst. split; [discriminate|]. intro H. exfalso. apply H. left. reflexivity.
  - rewrite IH. apply str_eqb_neq in E. simpl. intuition congruence.
Qed.
Definition covers (known : list str) (ms : methods) : bool :=
  forallb (in_list (map fst ms)) known && forallb (in_list known) (map fst ms).
Lemma covers_iff : forall known ms, covers known ms = true -> forall k, In k known <-> In k (map fst ms).
Proof.
  intros known ms H k. apply andb_true_iff in H as [H1 H2]. rewrite forallb_forall in H1, H2.
  split; intro G; [apply H1 in G|apply H2 in G]; apply in_list_In; exact G.
Qed.

(** ** C38 *)
Definition ext (f : meth) : Prop := forall ni (kids kids' : action) s,
  (forall s, kids s = kids' s) -> f ni kids s = f ni kids' s.
Definition mute (f : meth) : Prop := forall ni (kids kids' : action) s, f ni kids s = f ni kids' s.
Definition NI : res (str * est) := Exc ENotImplemented.
Definition strict_in_kids (f : meth) : Prop := forall ni (kids kids' : action) s r, f ni kids s = Ok r ->
  (forall s r, kids s = Ok r -> kids' s = NI) -> f ni kids' s = NI.
Definition good_meth (km : str * meth) : Prop :=
  ext (snd km) /\ (if in_list leaf_tags (fst km) then mute (snd km) else strict_in_kids (snd km)).

Lemma unfold_last : forall r s, ret r s = Ok (r, s).
Proof. reflexivity. Qed.
Ltac meth_ext := let ni := fresh in let k := fresh "kids" in let k' := fresh "kids'" in let s := fresh in let H := fresh in
  intros ni k k' s H; cbv beta zeta delta [const_emit c_blockdata_pre c_inlinedata_pre blockdata_pass_emit c_p br_emit
   c_headline typeface c_a c_img list_emit content_emit data_emit entityref_emit charref_emit p_emit li_emit table_emit tr_emit
   cell_emit document_emit t_blockdata_pre t_inlinedata_pre t_headline t_a t_img m_table m_cell m_blockdata_pre m_inlinedata_pre
   m_pass m_p m_headline m_html m_a m_img m_list m_li m_data m_code r_blockdata_pre r_document r_headline r_small r_a r_img r_code
   r_li r_list r_table];
  repeat first [ rewrite H; reflexivity | reflexivity | rewrite H | apply H
    | match goal with |- context [match ?x with _ => _ end] => destruct x; try reflexivity end ].
Ltac meth_mute := let ni := fresh in let k := fresh in let k' := fresh in let s := fresh in
  intros ni k k' s; reflexivity.
Ltac meth_strict := let ni := fresh in let k := fresh "kids" in let k' := fresh "kids'" in let s := fresh in let r := fresh in let H0 := fresh in let H := fresh in
  intros ni k k' s r H0 H; revert H0;
  cbv beta zeta delta [const_emit c_blockdata_pre c_inlinedata_pre blockdata_pass_emit c_p br_emit
   c_headline typeface c_a c_img list_emit content_emit data_emit entityref_emit charref_emit p_emit li_emit table_emit tr_emit
   cell_emit document_emit t_blockdata_pre t_inlinedata_pre t_headline t_a t_img m_table m_cell m_blockdata_pre m_inlinedata_pre
   m_pass m_p m_headline m_html m_a m_img m_list m_li m_data m_code r_blockdata_pre r_document r_headline r_small r_a r_img r_code
   r_li r_list r_table];
  repeat first [ discriminate
    | lazymatch goal with
      | |- bind (k ?x) _ = _ -> _ =>
        let E := fresh in destruct (k x) as [[? ?]|?] eqn:E; [apply H in E; rewrite E; intros; reflexivity|discriminate]
      | |- k ?x = _ -> _ =>
        let E := fresh in intro E; apply H in E; exact E
      | |- bind (bind (k ?x) _) _ = _ -> _ =>
        let E := fresh in destruct (k x) as [[? ?]|?] eqn:E; [apply H in E; rewrite E; intros; reflexivity|discriminate]
      | |- bind ?x _ = _ -> _ => destruct x; cbn [bind]; try discriminate
      | |- match ?x with _ => _ end = _ -> _ => destruct x; try discriminate
      end ].
Lemma creole_good : forall st, Forall good_meth (creole_methods st).
Proof.
  intro st. unfold creole_methods, base_methods. cbn [app].
  repeat (apply Forall_cons; [split; [cbn [snd fst]; meth_ext|
    match goal with |- if ?b then _ else _ => let v := eval vm_compute in b in change b with v end; cbn [snd];
    first [meth_mute | meth_strict]]|]).
  apply Forall_nil.
Qed.
Lemma textile_good : Forall good_meth textile_methods.
Proof.
  unfold textile_methods, base_methods. cbn [app].
  repeat (apply Forall_cons; [split; [cbn [snd fst]; meth_ext|
    match goal with |- if ?b then _ else _ => let v := eval vm_compute in b in change b with v end; cbn [snd];
    first [meth_mute | meth_strict]]|]).
  apply Forall_nil.
Qed.
Lemma markdown_good : Forall good_meth markdown_methods.
Proof.
  unfold markdown_methods, base_methods. cbn [app].
  repeat (apply Forall_cons; [split; [cbn [snd fst]; meth_ext|
    match goal with |- if ?b then _ else _ => let v := eval vm_compute in b in change b with v end; cbn [snd];
    first [meth_mute | meth_strict]]|]).
  apply Forall_nil.
Qed.
Lemma rest_good : Forall good_meth rest_methods.
Proof.
  unfold rest_methods, base_methods. cbn [app].
  repeat (apply Forall_cons; [split; [cbn [snd fst]; meth_ext|
    match goal with |- if ?b then _ else _ => let v := eval vm_compute in b in change b with v end; cbn [snd];
    first [meth_mute | meth_strict]]|]).
  apply Forall_nil.
Qed.

Fixpoint unknown_b (known : list str) (n : hnode) : bool :=
  let 'HN k _ _ _ ch := n in
  negb (in_list known k) || (negb (in_list leaf_tags k) && existsb (unknown_b known) ch).
Lemma in_list_false : forall l s, in_list l s = false <-> ~ In s l.
Proof. intros l s. rewrite <- (in_list_In l s). destruct (in_list l s); intuition congruence. Qed.
Lemma unknown_b_iff : forall known n, unknown_b known n = true <-> unknown_inside known n.
Proof.
  intros known n. induction n as [k c a l ch IH] using hnode_ind'. cbn [unknown_b].
  rewrite orb_true_iff, andb_true_iff, !negb_true_iff, existsb_exists. rewrite Forall_forall in IH. split.
  - intros [H|[H1 (x & H2 & H3)]].
    + apply ui_here. apply in_list_false. exact H.
    + apply (ui_below known k c a l ch x); [apply in_list_false; exact H1|exact H2|]. apply IH; assumption.
  - intro H. inversion H; subst.
    + left. apply in_list_false. assumption.
    + right. split; [apply in_list_false; assumption|]. exists x. split; [assumption|]. apply IH; assumption.
Qed.

Section Unknown.
  Variable ms : methods.
  Variable pre : list str -> est -> str * est.
  Variable known : list str.
  Hypothesis Hgood : Forall good_meth ms.
  Hypothesis Hcov : covers known ms = true.
  Lemma known_find : forall k, in_list known k = true -> exists f, find_meth ms k = Some f /\ good_meth (k, f).
  Proof.
    intros k H. destruct (find_meth ms k) as [f|] eqn:E.
    - exists f. split; [reflexivity|]. rewrite Forall_forall in Hgood. apply Hgood. apply find_meth_In. exact E.
    - exfalso. apply find_meth_None in E. apply E. apply (covers_iff known ms Hcov). apply in_list_In. exact H.
  Qed.
  Lemma no_unknown_same : forall (u u' : unknown) n, unknown_b known n = false -> forall anc s,
    emit_node ms u pre anc n s = emit_node ms u' pre anc n s.
  Proof.
    intros u u' n. induction n as [k c a l ch IH] using hnode_ind'. cbn [unknown_b]. intros H anc s.
    apply orb_false_iff in H as [H1 H2]. apply negb_false_iff in H1.
    destruct (known_find k H1) as (f & Ef & Hf). rewrite !emit_node_eq. destruct (pre anc s) as [p s1].
    unfold run_meth. cbn [n_kind]. rewrite Ef. destruct Hf as [He Hl]. cbn [fst snd] in *.
    destruct (in_list leaf_tags k) eqn:El.
    - rewrite (Hl _ (kids_of ms u pre anc k c ch) (kids_of ms u' pre anc k c ch)). reflexivity.
    - cbn [negb andb] in H2.
      rewrite (He _ (kids_of ms u pre anc k c ch) (kids_of ms u' pre anc k c ch)); [reflexivity|].
      intro s'. unfold kids_of. generalize (set_last (k, c) s'). clear He Hl.
      revert H2. induction IH as [|x ch Hx _ IHch]; intros H2 s2; [reflexivity|].
      cbn [existsb] in H2. apply orb_false_iff in H2 as [H2 H3]. cbn [emit_list].
      rewrite (Hx H2). destruct (emit_node ms u' pre (k :: anc) x s2) as [[r s3]|e]; [|reflexivity].
      cbn [bind]. rewrite (IHch H3). reflexivity.
  Qed.
  Lemma unknown_raises : forall (u : unknown) n, unknown_b known n = true -> forall anc s r,
    emit_node ms u pre anc n s = Ok r -> emit_node ms raise_unknown_node pre anc n s = NI.
  Proof.
    intros u n. induction n as [k c a l ch IH] using hnode_ind'. intros H anc s r Hr.
    pose proof (fun ch => existsb (unknown_b known) ch) as _.
    (* the children *)
    assert (Hkids : forall s0 r0, emit_list ms u pre (k :: anc) ch s0 = Ok r0 ->
      if existsb (unknown_b known) ch then emit_list ms raise_unknown_node pre (k :: anc) ch s0 = NI
      else emit_list ms raise_unknown_node pre (k :: anc) ch s0 = Ok r0).
    { clear H Hr. induction IH as [|x ch Hx _ IHch]; intros s0 r0 H; [exact H|]. cbn [existsb emit_list] in *.
      destruct (emit_node ms u pre (k :: anc) x s0) as [[r1 s1]|e] eqn:E1; [|discriminate]. cbn [bind] in H.
      destruct (unknown_b known x) eqn:Ex; cbn [orb].
      - rewrite (Hx eq_refl _ _ _ E1). reflexivity.
      - rewrite (no_unknown_same raise_unknown_node u x Ex), E1. cbn [bind].
        destruct (emit_list ms u pre (k :: anc) ch s1) as [[r2 s2]|e] eqn:E2; [|discriminate].
        specialize (IHch _ _ E2). destruct (existsb (unknown_b known) ch); rewrite IHch; [reflexivity|exact H]. }
    rewrite emit_node_eq in *. destruct (pre anc s) as [p s1]. unfold run_meth in *. cbn [n_kind n_attrs unknown_b] in *.
    destruct (find_meth ms k) as [f|] eqn:Ef.
    - assert (Hk : in_list known k = true).
      { apply in_list_In. apply (covers_iff known ms Hcov). apply find_meth_In in Ef. apply (in_map fst) in Ef. exact Ef. }
      rewrite Hk in H. cbn [negb orb] in H. apply andb_true_iff in H as [H1 H2]. apply negb_true_iff in H1.
      rewrite Forall_forall in Hgood. destruct (Hgood _ (find_meth_In _ _ _ Ef)) as [_ Hl]. cbn [fst snd] in Hl.
      rewrite H1 in Hl.
      destruct (f (mkn k c a l anc) (kids_of ms u pre anc k c ch) s1) as [r1|e] eqn:E1; [|discriminate].
      rewrite (Hl _ _ (kids_of ms raise_unknown_node pre anc k c ch) _ _ E1); [reflexivity|].
      intros s2 r2 E2. unfold kids_of in *. specialize (Hkids _ _ E2). rewrite H2 in Hkids. exact Hkids.
    - unfold kids_of in *. destruct (emit_list ms u pre (k :: anc) ch (set_last (k, c) s1)) as [[r1 s2]|e] eqn:E1; [|discriminate].
      specialize (Hkids _ _ E1). destruct (existsb (unknown_b known) ch); rewrite Hkids; reflexivity.
  Qed.
End Unknown.
