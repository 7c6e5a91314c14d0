(** * Links, images and headlines of html2rest (C35, C36) *)
From Coq Require Import String List Arith NArith ZArith Bool Lia.
From Verif Require Import PyStr PyStrFacts Utils Res HtmlTools HtmlToolsFacts HtmlTok HtmlParser MarkupTable UrlQuote HtmlBase Html2X.
From Verif Require C2H.
From Verif Require Import Safety TableFacts TreeFacts Spec3 EmitFacts.
Import ListNotations.
Open Scope N_scope.

Lemma take_while_split : forall p s, exists r, s = take_while p s ++ r /\ match r with [] => True | c :: _ => p c = false end.
Proof.
  intros p s. induction s as [|c s (r & E & H)]; [exists []; auto|]. cbn [take_while]. destruct (p c) eqn:Ep.
  - exists r. cbn [app]. rewrite <- E. auto.
  - exists (c :: s). auto.
Qed.
Definition keeps (d d' : pydict) : Prop := forall t v, dict_get t d = Some v -> dict_get t d' = Some v.
Definition grows (s s' : est) : Prop := keeps (used_links s) (used_links s') /\ keeps (used_images s) (used_images s').
Lemma keeps_refl : forall d, keeps d d. Proof. intros d t v H. exact H. Qed.
Lemma keeps_trans : forall a b c, keeps a b -> keeps b c -> keeps a c. Proof. intros a b c H1 H2 t v H. auto. Qed.
Lemma grows_refl : forall s, grows s s. Proof. intro s. split; apply keeps_refl. Qed.
Lemma grows_trans : forall a b c, grows a b -> grows b c -> grows a c.
Proof. intros a b c [H1 H2] [H3 H4]. split; eapply keeps_trans; eauto. Qed.
Lemma get_old_keeps : forall d t v o d', get_old d t v = Ok (o, d') -> keeps d d'.
Proof.
  intros d t v o d' H. unfold get_old in H. destruct (dict_get t d) as [old|] eqn:E.
  - destruct (pyval_eqb old v); [|discriminate]. inversion H; subst. apply keeps_refl.
  - inversion H; subst. intros t' v' H'. 
    destruct (str_eqb t t') eqn:Et; [apply str_eqb_eq in Et; congruence|].
    rewrite C2H.dict_get_set_neq; [exact H'|]. apply str_eqb_neq in Et. congruence.
Qed.
Lemma get_old_maps : forall d t s o d', get_old d t (VStr s) = Ok (o, d') -> dict_get t d' = Some (VStr s).
Proof.
  intros d t s o d' H. unfold get_old in H. destruct (dict_get t d) as [old|] eqn:E.
  - destruct (pyval_eqb old (VStr s)) eqn:Ep; [|discriminate]. inversion H; subst. rewrite E. f_equal.
    destruct old; try discriminate. cbn [pyval_eqb] in Ep. apply str_eqb_eq in Ep. subst. reflexivity.
  - inversion H; subst. apply C2H.dict_get_set_eq.
Qed.

Definition grower (f : meth) : Prop := forall ni (kids : action) s r s',
  (forall s r s', kids s = Ok (r, s') -> grows s s') -> f ni kids s = Ok (r, s') -> grows s s'.
Definition caller (f : meth) : Prop := forall ni (kids : action) s r s',
  f ni kids s = Ok (r, s') -> exists s0 r0 s1, kids s0 = Ok (r0, s1) /\ grows s1 s'.
Definition rest_meth (km : str * meth) : Prop :=
  grower (snd km) /\ (if in_list leaf_tags (fst km) then True else caller (snd km)).

Ltac unfold_meths := cbv beta zeta delta [const_emit blockdata_pass_emit br_emit
   typeface content_emit data_emit entityref_emit charref_emit p_emit li_emit table_emit tr_emit
   cell_emit document_emit t_inlinedata_pre r_blockdata_pre r_document r_headline r_small r_a r_img r_code
   r_li r_list r_table ret get_block_data].
(* split a hypothesis [match .. = Ok (r, s')] *)
Ltac ok_split H := repeat
  match type of H with
  | Exc _ = Ok _ => discriminate H
  | Ok _ = Ok _ => inversion H; subst; clear H
  | bind ?x _ = Ok _ => let E := fresh "E" in destruct x as [[? ?]|?] eqn:E; [|discriminate H]; cbn [bind] in H
  | bind ?x _ = Ok _ => let E := fresh "E" in destruct x eqn:E; [|discriminate H]; cbn [bind] in H
  | match ?x with _ => _ end = Ok _ => let E := fresh "E" in destruct x eqn:E; try discriminate H
  | (match ?x with _ => _ end) _ = Ok _ => let E := fresh "E" in destruct x eqn:E; try discriminate H
  | (if ?x then _ else _) = Ok _ => let E := fresh "E" in destruct x eqn:E; try discriminate H
  end.
Ltac fin_grow := first [ apply grows_refl | assumption
  | match goal with H : grows ?a ?b |- grows ?a ?c => eapply grows_trans; [exact H|]; clear H; fin_grow end
  | match goal with H : grows ?a ?b |- grows ?s ?c =>
      refine (grows_trans s a c (conj (keeps_refl _) (keeps_refl _)) _); eapply grows_trans; [exact H|]; clear H; fin_grow end
  | split; first [apply keeps_refl | eapply get_old_keeps; eassumption]
  | match goal with |- grows _ (if ?b then _ else _) => destruct b; fin_grow end
  | match goal with |- context [if ?b then _ else _] => destruct b; fin_grow end ].
Lemma bind_ok : forall {A B} (x : res A) (f : A -> res B) r, bind x f = Ok r -> exists a, x = Ok a /\ f a = Ok r.
Proof. intros A B [a|e] f r H; [eauto|discriminate]. Qed.
Ltac grow := intros ni kids s r s' Hk H; revert H; unfold_meths; intro H; ok_split H;
  repeat match goal with E : bind _ _ = Ok _ |- _ => ok_split E end;
  repeat match goal with E : kids _ = Ok (_, _) |- _ => apply Hk in E end;
  try solve [fin_grow].
Ltac call := intros ni kids s r s' H; revert H; unfold_meths; intro H; ok_split H;
  repeat match goal with E : bind _ _ = Ok _ |- _ => ok_split E end;
  match goal with E : kids ?a = Ok (?b, ?c) |- _ => exists a, b, c; split; [exact E|fin_grow]
  | E : bind (kids ?a) _ = Ok _ |- _ => idtac end.
Lemma rest_meths : Forall rest_meth rest_methods.
Proof.
  unfold rest_methods, base_methods. cbn [app].
  repeat (apply Forall_cons; [split;
    [cbn [snd]; solve [grow] |
     match goal with |- if ?b then _ else _ => let v := eval vm_compute in b in change b with v end; cbn [snd];
     first [exact I | solve [call]]]|]).
  apply Forall_nil.
Qed.

Section Run.
  Variable u : unknown.
  Notation em := (emit_node rest_methods u rest_pre).
  Notation eml := (emit_list rest_methods u rest_pre).
  Lemma rest_pre_grows : forall anc s, grows s (snd (rest_pre anc s)).
  Proof.
    intros anc s. unfold rest_pre, get_block_data. destruct (subst_data s); [apply grows_refl|].
    destruct anc as [|k [|k' anc]]; try apply grows_refl. split; apply keeps_refl.
  Qed.
  Lemma em_grows : forall n anc s r s', em anc n s = Ok (r, s') -> grows s s'.
  Proof.
    induction n as [k c a l ch IH] using hnode_ind'. intros anc s r s' H. rewrite emit_node_eq in H.
    pose proof (rest_pre_grows anc s) as Hp. destruct (rest_pre anc s) as [p s1]. cbn [snd] in Hp.
    apply bind_ok in H as ([r1 s2] & H1 & H2). inversion H2; subst.
    eapply grows_trans; [exact Hp|].
    assert (Hkids : forall s0 r0 s0', kids_of rest_methods u rest_pre anc k c ch s0 = Ok (r0, s0') -> grows s0 s0').
    { clear - IH. unfold kids_of. intros s0 r0 s0' H. apply (grows_trans _ (set_last (k, c) s0)); [split; apply keeps_refl|].
      revert H. generalize (set_last (k, c) s0). clear s0. revert r0.
      induction IH as [|x ch Hx _ IHch]; intros r0 s0 H; [inversion H; apply grows_refl|].
      cbn [emit_list] in H. apply bind_ok in H as ([r1 s1] & H1 & H2). apply bind_ok in H2 as ([r2 s2] & H2 & H3).
      inversion H3; subst. eapply grows_trans; [eapply Hx; exact H1|eapply IHch; exact H2]. }
    assert (G : grows s1 s2); [|exact G].
    unfold run_meth in H1. cbn [n_kind n_attrs] in H1. destruct (find_meth rest_methods k) as [f|] eqn:Ef.
    - pose proof rest_meths as R. rewrite Forall_forall in R. destruct (R _ (find_meth_In _ _ _ Ef)) as [R1 _].
      eapply R1; [exact Hkids|exact H1].
    - apply bind_ok in H1 as ([r2 s3] & H1 & H3). apply bind_ok in H3 as (r3 & H3 & H4). inversion H4; subst.
      eapply Hkids. exact H1.
  Qed.
  Lemma eml_at : forall ch x k anc s r s', In x ch -> eml (k :: anc) ch s = Ok (r, s') ->
    exists s0 r0 s1, em (k :: anc) x s0 = Ok (r0, s1) /\ grows s1 s'.
  Proof.
    induction ch as [|y ch IH]; intros x k anc s r s' Hin H; [contradiction|]. cbn [emit_list] in H.
    apply bind_ok in H as ([r1 s1] & H1 & H2). apply bind_ok in H2 as ([r2 s2] & H2 & H3). inversion H3; subst.
    destruct Hin as [->|Hin].
    - exists s, r1, s1. split; [exact H1|].
      clear - H2. revert s1 r2 H2. induction ch as [|z ch IH]; intros s1 r2 H2; [inversion H2; apply grows_refl|].
      cbn [emit_list] in H2. apply bind_ok in H2 as ([r3 s3] & H3 & H4). apply bind_ok in H4 as ([r4 s4] & H4 & H5).
      inversion H5; subst. eapply grows_trans; [eapply em_grows; exact H3|eapply IH; exact H4].
    - eapply IH; eauto.
  Qed.
  Lemma inside_run : forall n x, inside n x -> forall anc s r s', em anc x s = Ok (r, s') ->
    exists anc0 s0 r0 s1, em anc0 n s0 = Ok (r0, s1) /\ grows s1 s' /\ (anc0 <> [] \/ anc = [] /\ n = x).
  Proof.
    intros n x H. induction H as [n|k c a l ch x n Hk Hin Hx IH]; intros anc s r s' H.
    - exists anc, s, r, s'. split; [exact H|]. split; [apply grows_refl|].
      destruct anc; [right; split; reflexivity|left; discriminate].
    - rewrite emit_node_eq in H. destruct (rest_pre anc s) as [p s1]. apply bind_ok in H as ([r1 s2] & H1 & H2).
      inversion H2; subst.
      assert (G : exists s0 r0 s3, kids_of rest_methods u rest_pre anc k c ch s0 = Ok (r0, s3) /\ grows s3 s2).
      { unfold run_meth in H1. cbn [n_kind n_attrs] in H1. destruct (find_meth rest_methods k) as [f|] eqn:Ef.
        - pose proof rest_meths as R. rewrite Forall_forall in R. destruct (R _ (find_meth_In _ _ _ Ef)) as [_ R2].
          cbn [fst snd] in R2. rewrite (proj2 (in_list_false _ _) Hk) in R2. eapply R2. exact H1.
        - apply bind_ok in H1 as ([r2 s3] & H1 & H3). apply bind_ok in H3 as (r3 & H3 & H4). inversion H4; subst.
          exists s1, r2, s2. split; [exact H1|apply grows_refl]. }
      destruct G as (s0 & r0 & s3 & G1 & G2). unfold kids_of in G1.
      destruct (eml_at ch x k anc _ _ _ Hin G1) as (s4 & r4 & s5 & G3 & G4).
      destruct (IH _ _ _ _ G3) as (anc0 & s6 & r6 & s7 & G5 & G6 & G7).
      exists anc0, s6, r6, s7. split; [exact G5|].
      split; [|left; destruct G7 as [G7|[G7 _]]; [exact G7|discriminate]].
      apply (grows_trans _ s5); [exact G6|]. apply (grows_trans _ s3); [exact G4|].
      apply (grows_trans _ s2); [exact G2|]. split; apply keeps_refl.
  Qed.
  Lemma link_run : forall t url n anc s r s', anc <> [] -> link_node t url n -> em anc n s = Ok (r, s') ->
    dict_get t (used_links s') = Some (VStr url).
  Proof.
    intros t url n anc s r s' Hanc (c & a & l & -> & Hh) H. rewrite emit_node_eq in H.
    destruct (rest_pre anc s) as [p s1]. apply bind_ok in H as ([r1 s2] & H1 & H2). inversion H2; subst.
    change (used_links (set_last ($ "a", c) s2)) with (used_links s2).
    change (run_meth rest_methods u (mkn ($ "a") c a l anc) (kids_of rest_methods u rest_pre anc ($ "a") c [data_node t]))
      with (r_a (mkn ($ "a") c a l anc) (kids_of rest_methods u rest_pre anc ($ "a") c [data_node t])) in H1.
    unfold r_a in H1. apply bind_ok in H1 as ([text s3] & H1 & H3).
    apply bind_ok in H3 as (url' & H3 & H4). unfold attr in H3. cbn [n_attrs] in H3. rewrite Hh in H3. inversion H3; subst.
    apply bind_ok in H4 as ([old links] & H4 & H5).
    assert (Et : text = t).
    { unfold kids_of, data_node in H1. cbn [emit_list] in H1. rewrite emit_node_eq in H1.
      assert (Ep : forall k s0, rest_pre (k :: anc) s0 = ([], s0)).
      { intros k s0. unfold rest_pre. destruct anc; [congruence|]. destruct (subst_data s0); reflexivity. }
      rewrite Ep in H1. set (s4 := set_last ($ "a", c) s1) in *.
      change (run_meth rest_methods u (mkn ($ "data") (Some t) [] None ($ "a" :: anc))
        (kids_of rest_methods u rest_pre ($ "a" :: anc) ($ "data") (Some t) []) s4) with (@Ok (str * est) (t, s4)) in H1.
      cbn [bind] in H1. inversion H1; subst. apply app_nil_r. }
    subst text.
    apply get_old_maps in H4.
    destruct (should_substitute _); [|destruct (attr_true old)]; inversion H5; subst; [destruct (attr_true old)| |]; exact H4.
  Qed.
  Lemma image_run : forall t url n anc s r s', image_node t url n -> em anc n s = Ok (r, s') ->
    dict_get t (used_images s') = Some (VStr url).
  Proof.
    intros t url n anc s r s' (c & a & l & ch & -> & Ht & Hd1 & Hd2 & Hs & Ha & Hti) H. rewrite emit_node_eq in H.
    destruct (rest_pre anc s) as [p s1]. apply bind_ok in H as ([r1 s2] & H1 & H2). inversion H2; subst.
    change (used_images (set_last ($ "img", c) s2)) with (used_images s2).
    change (run_meth rest_methods u (mkn ($ "img") c a l anc) (kids_of rest_methods u rest_pre anc ($ "img") c ch))
      with (r_img (mkn ($ "img") c a l anc) (kids_of rest_methods u rest_pre anc ($ "img") c ch)) in H1.
    unfold r_img in H1. apply bind_ok in H1 as (pp & H1 & H3).
    unfold img_parts, attr, attr_len in H1. cbn [n_attrs] in H1. rewrite Hs, Ha, Hti in H1. cbn [bind] in H1.
    assert (En : str_eqb (take_while (fun c => negb (c =? 58)) url) ($ "data") = false).
    { apply str_eqb_neq. intro E.
      destruct (take_while_split (fun c => negb (c =? 58)) url) as (rr & E1 & E2). rewrite E in E1.
      destruct rr as [|x rr]; [apply Hd2; rewrite E1; reflexivity|].
      assert (Ex : x = 58).
      { apply negb_false_iff in E2. apply N.eqb_eq in E2. exact E2. }
      subst x. assert (Hc : startswith ($ "data:") url = true); [|congruence].
      apply startswith_spec. exists rr. rewrite E1. reflexivity. }
    rewrite En in H1.
    assert (Et : truthy t = true) by (destruct t; [congruence|reflexivity]).
    destruct t as [|t0 tt]; [congruence|]. cbn [List.length Nat.ltb Nat.leb] in H1. cbn [truthy] in H1. inversion H1; subst.
    apply bind_ok in H3 as ([old im] & H3 & H4). apply get_old_maps in H3. inversion H4; subst.
    destruct (attr_true old); exact H3.
  Qed.
End Run.
Lemma rest_links : forall u root r t u1 u2 n1 n2, h_kind root = $ "document" -> emit_rest u root = Ok r ->
  inside n1 root -> inside n2 root -> link_node t u1 n1 -> link_node t u2 n2 -> u1 = u2.
Proof.
  intros u root r t u1 u2 n1 n2 Hroot H I1 I2 L1 L2. unfold emit_rest in H. apply bind_ok in H as ([r1 s1] & H & _).
  assert (G : forall n uu, inside n root -> link_node t uu n -> dict_get t (used_links s1) = Some (VStr uu)).
  { intros n uu I L. destruct (inside_run u n root I _ _ _ _ H) as (anc0 & s0 & r0 & s2 & G1 & G2 & G3).
    destruct G3 as [G3|[_ ->]].
    - destruct G2 as [G2 _]. apply G2. eapply link_run; eauto.
    - destruct L as (c & a & l & -> & _). discriminate. }
  pose proof (G _ _ I1 L1) as E1. pose proof (G _ _ I2 L2) as E2. congruence.
Qed.
Lemma rest_images : forall u root r t u1 u2 n1 n2, emit_rest u root = Ok r ->
  inside n1 root -> inside n2 root -> image_node t u1 n1 -> image_node t u2 n2 -> u1 = u2.
Proof.
  intros u root r t u1 u2 n1 n2 H I1 I2 L1 L2. unfold emit_rest in H. apply bind_ok in H as ([r1 s1] & H & _).
  assert (G : forall n uu, inside n root -> image_node t uu n -> dict_get t (used_images s1) = Some (VStr uu)).
  { intros n uu I L. destruct (inside_run u n root I _ _ _ _ H) as (anc0 & s0 & r0 & s2 & G1 & G2 & _).
    destruct G2 as [_ G2]. apply G2. eapply image_run; eauto. }
  pose proof (G _ _ I1 L1) as E1. pose proof (G _ _ I2 L2) as E2. congruence.
Qed.
