(** * The html shows the text of the document tree, in the same order *)
From Coq Require Import String List Arith NArith ZArith Bool Lia.
From Verif Require Import PyStr PyStrFacts GNames Regex RegexFacts Rules DocTree Utils CreoleParser ParserFacts HtmlEmitter HtmlSpec EmitterFacts UsedFacts Safety NumFacts Spec C2H Spec13 TextOrder.
Import ListNotations.
Open Scope N_scope.

(** ** Pieces of html and the text they show *)
(** [a], read outside of a tag, shows (escaped) exactly [t] and ends outside of a tag *)
Definition shows (a t : str) : Prop := forall z, untagged false (a ++ z) = esc t ++ untagged false z.

Lemma shows_nil : shows [] [].
Proof. intro z. reflexivity. Qed.
Lemma shows_app : forall a b t u, shows a t -> shows b u -> shows (a ++ b) (t ++ u).
Proof.
  intros a b t u Ha Hb z. rewrite <- app_assoc, Ha, Hb. unfold esc. rewrite flat_map_app, <- app_assoc. reflexivity.
Qed.
Lemma esc_no_lt : forall t c, In c (esc t) -> c <> 60.
Proof.
  intros t c H. unfold esc in H. apply in_flat_map in H as (x & _ & H). unfold esc_char in H.
  destruct (x =? 38) eqn:E1; [cbn in H; repeat destruct H as [<-|H]; try destruct H; discriminate|].
  destruct (x =? 60) eqn:E2; [cbn in H; repeat destruct H as [<-|H]; try destruct H; discriminate|].
  destruct (x =? 62) eqn:E3; [cbn in H; repeat destruct H as [<-|H]; try destruct H; discriminate|].
  destruct H as [<-|[]]. apply N.eqb_neq in E2. exact E2.
Qed.
Lemma untagged_plain : forall a z, (forall c, In c a -> c <> 60) -> untagged false (a ++ z) = a ++ untagged false z.
Proof.
  induction a as [|c a IH]; intros z H; [reflexivity|]. cbn [app untagged].
  assert (Hc : c <> 60) by (apply H; left; reflexivity). apply N.eqb_neq in Hc. rewrite Hc.
  rewrite IH by (intros; apply H; right; assumption). reflexivity.
Qed.
Lemma shows_escape : forall t, shows (escape t) t.
Proof. intros t z. rewrite escape_esc. apply untagged_plain. apply esc_no_lt. Qed.
Lemma untagged_in : forall a z, (forall c, In c a -> c <> 62) -> untagged true (a ++ 62 :: z) = untagged false z.
Proof.
  induction a as [|c a IH]; intros z H; [reflexivity|]. cbn [app untagged].
  assert (Hc : c <> 62) by (apply H; left; reflexivity). apply N.eqb_neq in Hc. rewrite Hc. cbn [negb].
  apply IH. intros; apply H; right; assumption.
Qed.
Lemma shows_tag : forall a, (forall c, In c a -> c <> 62) -> shows (60 :: a ++ [62]) [].
Proof. intros a H z. cbn [app]. rewrite <- app_assoc. cbn [app untagged]. change (60 =? 60) with true. cbn iota. rewrite untagged_in by exact H. reflexivity. Qed.
Lemma shows_blank : forall a, forallb (fun c => (c =? 9) || (c =? 10)) a = true -> shows a a.
Proof.
  intros a H z. assert (E : esc a = a).
  { unfold esc. induction a as [|c a IH]; [reflexivity|]. cbn [forallb] in H. apply andb_true_iff in H as [H1 H2].
    cbn [flat_map]. rewrite IH by exact H2. apply orb_true_iff in H1 as [H1|H1]; apply N.eqb_eq in H1; subst; reflexivity. }
  rewrite E. apply untagged_plain. intros c Hc. rewrite forallb_forall in H. specialize (H c Hc).
  apply orb_true_iff in H as [H|H]; apply N.eqb_eq in H; subst; discriminate.
Qed.

(** a tag with a fixed text *)
Ltac fixed_tag :=
  match goal with |- shows ?w [] =>
    let w' := eval cbv in w in
    change w with w'; let l := eval cbv in (removelast (tl w')) in
    change w' with (60 :: l ++ [62]);
    apply shows_tag; let c := fresh "c" in let H := fresh "H" in intros c H; cbn in H;
    repeat destruct H as [<-|H]; try destruct H; discriminate
  end.

(** ** Every node shows no more than its text *)
Definition shown (a : str) (u : str) : Prop := exists t, shows a t /\ subseq (visible t) (visible u).

Lemma shown_nil : forall u, shown [] u.
Proof. intro u. exists []. split; [apply shows_nil | constructor]. Qed.
Lemma shown_app : forall a b u v, shown a u -> shown b v -> shown (a ++ b) (u ++ v).
Proof.
  intros a b u v (t & Ht & St) (t' & Ht' & St'). exists (t ++ t'). split; [apply shows_app; assumption|].
  rewrite !vis_app. apply ss_app; assumption.
Qed.
Lemma shown_pre : forall a b t u, shows a t -> visible t = [] -> shown b u -> shown (a ++ b) u.
Proof. intros a b t u Ha Ht Hb. apply (shown_app a b [] u); [|exact Hb]. exists t. rewrite Ht. split; [exact Ha | constructor]. Qed.
Lemma shown_post : forall a b t u, shows b t -> visible t = [] -> shown a u -> shown (a ++ b) u.
Proof.
  intros a b t u Hb Ht Ha. rewrite <- (app_nil_r u). apply shown_app; [exact Ha|]. exists t. rewrite Ht. split; [exact Hb | constructor].
Qed.
Lemma shown_escape : forall t, shown (escape t) t.
Proof. intro t. exists t. split; [apply shows_escape | apply ss_refl]. Qed.
Lemma shown_quiet : forall a t u, shows a t -> visible t = [] -> shown a u.
Proof. intros a t u H E. exists t. rewrite E. split; [exact H | constructor]. Qed.

Lemma shown_name : forall t a u, (forall c, In c t -> c <> 62) -> shown a u -> shown (tag t a) u.
Proof.
  intros t a u Ht Ha. unfold tag.
  replace ($ "<" ++ t ++ $ ">" ++ a ++ $ "</" ++ t ++ $ ">") with ((60 :: t ++ [62]) ++ a ++ (60 :: (47 :: t) ++ [62]))
    by (cbn; rewrite <- !app_assoc; reflexivity).
  eapply shown_pre; [apply shows_tag; exact Ht | reflexivity |].
  eapply shown_post; [apply shows_tag | reflexivity | exact Ha].
  intros c [<-|Hc]; [discriminate | auto].
Qed.
Ltac nogt := let c := fresh in let H := fresh in intros c H; cbn in H; repeat destruct H as [<-|H]; try destruct H; discriminate.

Lemma blank_vis : forall a, forallb (fun c => (c =? 9) || (c =? 10)) a = true -> visible a = [].
Proof.
  intros a H. apply vis_space. rewrite forallb_forall in *. intros c Hc. specialize (H c Hc).
  apply orb_true_iff in H as [H|H]; apply N.eqb_eq in H; subst; reflexivity.
Qed.
Lemma tabs_blank : forall n, forallb (fun c => (c =? 9) || (c =? 10)) (repeat 9 n) = true.
Proof. induction n; [reflexivity|]. cbn [repeat forallb]. rewrite IHn. reflexivity. Qed.
Lemma shown_pre_blank : forall a b u, forallb (fun c => (c =? 9) || (c =? 10)) a = true -> shown b u -> shown (a ++ b) u.
Proof. intros a b u H Hb. eapply shown_pre; [apply shows_blank; exact H | apply blank_vis; exact H | exact Hb]. Qed.
Lemma shown_post_blank : forall a b u, forallb (fun c => (c =? 9) || (c =? 10)) b = true -> shown a u -> shown (a ++ b) u.
Proof. intros a b u H Ha. eapply shown_post; [apply shows_blank; exact H | apply blank_vis; exact H | exact Ha]. Qed.
Lemma shown_blank : forall a u, forallb (fun c => (c =? 9) || (c =? 10)) a = true -> shown a u.
Proof. intros a u H. eapply shown_quiet; [apply shows_blank; exact H | apply blank_vis; exact H]. Qed.

Lemma shown_list : forall par h t a u, (forall c, In c t -> c <> 62) -> shown a u -> shown (list_emit par h t a) u.
Proof.
  intros par h t a u Ht Ha. unfold list_emit. apply shown_pre_blank; [destruct (kind_beq _ _); reflexivity|].
  destruct (kind_beq _ _).
  - apply shown_pre_blank; [apply tabs_blank | apply shown_name; assumption].
  - apply shown_pre_blank; [apply tabs_blank|].
    replace ($ "<" ++ t ++ $ ">" ++ a ++ [10] ++ repeat 9 (hlevel h) ++ $ "</" ++ t ++ $ ">")
      with (tag t (a ++ [10] ++ repeat 9 (hlevel h))) by (unfold tag; cbn; rewrite <- !app_assoc; reflexivity).
    apply shown_name; [exact Ht|]. apply shown_post_blank; [|exact Ha]. cbn [app forallb]. rewrite tabs_blank. reflexivity.
Qed.

Lemma digits_no_gt : forall n c, In c (show_nat n) -> c <> 62.
Proof.
  intros n c H. unfold show_nat in H. assert (D := show_N_digits (N.of_nat n)). rewrite forallb_forall in D.
  apply D in H. apply andb_true_iff in H as [H1 H2]. apply N.leb_le in H1, H2. lia.
Qed.
Lemma safe_no_gt : forall v, attr_safe v -> forall c, In c v -> c <> 62.
Proof. intros v H c Hc. apply H in Hc. apply Hc. Qed.
Lemma attrs_no_gt : forall l, Forall (fun a : str * str => (forall c, In c (fst a) -> c <> 62) /\ attr_safe (snd a)) l ->
  forall c, In c (show_attrs l) -> c <> 62.
Proof.
  intros l H c Hc. unfold show_attrs in Hc. apply in_flat_map in Hc as (a & Ha & Hc). rewrite Forall_forall in H.
  destruct (H a Ha) as [H1 H2]. unfold show_attr in Hc. cbn in Hc. destruct Hc as [<-|Hc]; [discriminate|].
  apply in_app_iff in Hc as [Hc|Hc]; [auto|]. destruct Hc as [<-|[<-|Hc]]; [discriminate | discriminate|].
  apply in_app_iff in Hc as [Hc|[<-|[]]]; [|discriminate]. eapply safe_no_gt; eauto.
Qed.
Lemma shown_image : forall c t h ch u, strict c = true -> shown (image_emit c t h ch) u.
Proof.
  intros c t h ch u Hs. destruct (image_strict c t h ch Hs) as (l & -> & Hl).
  assert (HF : Forall (fun a : str * str => (forall c, In c (fst a) -> c <> 62) /\ attr_safe (snd a)) l).
  { destruct Hl as (a & b & d & H1 & H2 & H3 & [-> | (w & hh & H4 & H5 & ->)]);
      repeat (constructor; [cbn [fst snd]; split; [nogt | assumption]|]); constructor. }
  cbn [show]. apply shown_quiet with (t := []); [|reflexivity].
  replace ($ "<" ++ $ "img" ++ show_attrs l ++ $ " />") with (60 :: ($ "img" ++ show_attrs l ++ $ " /") ++ [62])
    by (cbn; rewrite <- !app_assoc; reflexivity).
  apply shows_tag. intros x Hx. apply in_app_iff in Hx as [Hx|Hx]; [cbn in Hx; repeat destruct Hx as [<-|Hx]; try destruct Hx; discriminate|].
  apply in_app_iff in Hx as [Hx|Hx]; [|cbn in Hx; repeat destruct Hx as [<-|Hx]; try destruct Hx; discriminate].
  eapply attrs_no_gt; eauto.
Qed.

Definition no_obj (s : est) : Prop := forall t, toc s <> TObj t.
(** macro tags leave nothing *)
Definition mute (c : cfg) : Prop := forall h s a s', no_obj s -> macro_emit c h s = (Ok a, s') -> a = [] /\ no_obj s'.

Lemma wrap_ok : forall f r a s, wrap f r = (Ok a, s) -> exists b, r = (Ok b, s) /\ a = f b.
Proof. intros f [[b|e] s0] a s H; inversion H; subst; eauto. Qed.

Lemma ok_inv : forall (a b : str) (s s' : est), (@Ok str a, s) = (Ok b, s') -> b = a.
Proof. intros a b s s' H. injection H. auto. Qed.

Lemma st_inv : forall (r : res str) (b : str) (s s' : est), (r, s) = (Ok b, s') -> s' = s.
Proof. intros r b s s' H. injection H. auto. Qed.

Lemma node_no_obj : forall c, use_toc c = false -> mute c -> forall n par s a s',
  no_obj s -> emit_node c par n s = (Ok a, s') -> no_obj s'.
Proof.
  intros c Hu Hm. induction n as [h ch IH] using node_ind'. intros par s a s' Hn H.
  assert (HC : forall h0 s a s', no_obj s -> emit_children c h0 ch s = (Ok a, s') -> no_obj s').
  { intro h0. clear H Hn. induction ch as [|x r IHr]; intros s0 a0 s0' Hn0 H0; cbn [emit_children] in *.
    - apply st_inv in H0. subst. exact Hn0.
    - inversion IH as [|? ? I1 I2]; subst.
      destruct (emit_node c h0 x s0) as [[b|e] s1] eqn:E1; [|discriminate].
      destruct (emit_children c h0 r s1) as [[b'|e] s2] eqn:E2; [|discriminate]. apply st_inv in H0. subst.
      eapply IHr; [exact I2 | eapply I1; eauto | exact E2]. }
  rewrite emit_node_eq in H. cbn zeta in H.
  destruct (hk h); try (destruct (hcontent h) as [t|]; [|discriminate]); try (apply st_inv in H; subst; exact Hn);
    try (apply wrap_ok in H as (b & E & _); exact (HC _ _ _ _ Hn E)).
  - eapply HC; eauto.
  - unfold header_emit in H. rewrite Hu in H. apply st_inv in H; subst; exact Hn.
  - apply wrap_ok in H as (b & E & _). destruct ch; [apply st_inv in E; subst; exact Hn | exact (HC _ _ _ _ Hn E)].
  - eapply Hm; eauto.
  - destruct (Hm h s a s' Hn H) as [_ X]; exact X.
Qed.

Lemma node_shown : forall c, strict c = true -> use_toc c = false -> mute c -> forall n par s a s',
  no_obj s -> emit_node c par n s = (Ok a, s') -> shown a (texts n).
Proof.
  intros c Hs Hu Hm. induction n as [h ch IH] using node_ind'. intros par s a s' Hn H.
  assert (HC0 : forall h0 s a s', no_obj s -> emit_children c h0 ch s = (Ok a, s') -> shown a (flat_map texts ch)).
  { intro h0. clear H Hn. induction ch as [|x r IHr]; intros s0 a0 s0' Hn0 H0; cbn [emit_children flat_map] in *.
    - apply ok_inv in H0. subst. apply shown_nil.
    - inversion IH as [|? ? I1 I2]; subst.
      destruct (emit_node c h0 x s0) as [[b|e] s1] eqn:E1; [|discriminate].
      destruct (emit_children c h0 r s1) as [[b'|e] s2] eqn:E2; [|discriminate]. apply ok_inv in H0. subst.
      apply shown_app; [eapply I1; eauto | eapply (IHr I2); [|exact E2]; eapply node_no_obj; eauto]. }
  assert (HC : forall h0 a s', emit_children c h0 ch s = (Ok a, s') -> shown a (flat_map texts ch)) by (intros; eapply HC0; eauto).
  rewrite emit_node_eq in H. rewrite texts_eq. cbn zeta in *.
  destruct (hk h) eqn:K.
  - eapply HC; eauto.
  - apply wrap_ok in H as (b & E & ->). apply HC in E.
    change ($ "<p>" ++ b ++ $ "</p>" ++ [10]) with ($ "<p>" ++ b ++ ($ "</p>" ++ [10])).
    rewrite app_assoc. replace ($ "<p>" ++ b) with (($ "<p>" ++ b)) by reflexivity.
    rewrite app_assoc. apply shown_post_blank; [reflexivity|]. rewrite <- app_assoc. apply (shown_name ($ "p")); [nogt | exact E].
  - destruct (hcontent h); [|discriminate]; apply ok_inv in H; subst a. apply shown_escape.
  - apply ok_inv in H; subst a. unfold break_emit. destruct (hk par);
      apply (shown_pre ($ "<br />") _ []); try reflexivity; try fixed_tag; apply shown_blank; try reflexivity.
    cbn [app forallb]. rewrite tabs_blank. reflexivity.
  - apply ok_inv in H; subst a. apply shown_blank. reflexivity.
  - apply ok_inv in H; subst a. apply (shown_pre ($ "<hr />") _ []); [fixed_tag | reflexivity | apply shown_blank; reflexivity].
  - destruct (hcontent h) as [t|]; [|discriminate]. unfold header_emit in H. rewrite Hu in H. apply ok_inv in H; subst a.
    apply shown_post_blank; [reflexivity|].
    replace ($ "<h" ++ show_nat (hlevel h) ++ $ ">" ++ escape t ++ $ "</h" ++ show_nat (hlevel h) ++ $ ">")
      with (tag (104 :: show_nat (hlevel h)) (escape t)) by (unfold tag; cbn; rewrite <- ?app_assoc; reflexivity).
    apply shown_name; [|apply shown_escape]. intros x [<-|Hx]; [discriminate | eapply digits_no_gt; eauto].
  - destruct (hcontent h) as [t|]; [|discriminate]; apply ok_inv in H; subst a. 
    rewrite !app_assoc. apply shown_post_blank; [reflexivity|]. rewrite <- !app_assoc. apply (shown_name ($ "pre")); [nogt | apply shown_escape].
  - destruct (hcontent h) as [t|]; [|discriminate]; apply ok_inv in H; subst a. apply (shown_name ($ "code")); [nogt | apply shown_escape].
  - destruct (hcontent h) as [t|]; [|discriminate]. apply wrap_ok in H as (b & E & ->).
    assert (HB : shown b (match ch with [] => t | _ :: _ => flat_map texts ch end)).
    { destruct ch as [|x r] eqn:Ech; [inversion E; subst; apply shown_escape | eapply HC; eauto]. }
    assert (HL : shown ($ "<a href=""" ++ attr_escape t ++ $ """>" ++ b ++ $ "</a>") (match ch with [] => t | _ :: _ => flat_map texts ch end)).
    { replace ($ "<a href=""" ++ attr_escape t ++ $ """>" ++ b ++ $ "</a>")
        with ((60 :: ($ "a href=""" ++ attr_escape t ++ $ """") ++ [62]) ++ b ++ $ "</a>")
        by (cbn; rewrite <- ?app_assoc; reflexivity).
      eapply shown_pre; [apply shows_tag | reflexivity |].
      - intros x Hx. apply in_app_iff in Hx as [Hx|Hx]; [cbn in Hx; repeat destruct Hx as [<-|Hx]; try destruct Hx; discriminate|].
        apply in_app_iff in Hx as [Hx|[<-|[]]]; [|discriminate]. eapply safe_no_gt; [apply attr_escape_safe | exact Hx].
      - apply (shown_post _ _ []); [fixed_tag | reflexivity | exact HB]. }
    destruct ch; exact HL.
  - destruct (hcontent h) as [t|]; [|discriminate]; apply ok_inv in H; subst a. apply shown_image. exact Hs.
  - destruct (Hm h s a s' Hn H) as [-> _]. apply shown_nil.
  - destruct (Hm h s a s' Hn H) as [-> _]. apply shown_nil.
  - apply wrap_ok in H as (b & E & ->). apply HC in E. apply shown_list; [nogt | exact E].
  - apply wrap_ok in H as (b & E & ->). apply HC in E. apply shown_list; [nogt | exact E].
  - apply wrap_ok in H as (b & E & ->). apply HC in E. apply shown_list; [nogt | exact E].
  - apply wrap_ok in H as (b & E & ->). apply HC in E.
    rewrite !app_assoc. apply shown_post_blank; [reflexivity|]. rewrite <- !app_assoc.
    replace ($ "<table>" ++ [10] ++ b ++ $ "</table>") with (tag ($ "table") ([10] ++ b)) by (unfold tag; cbn; rewrite <- ?app_assoc; reflexivity).
    apply shown_name; [nogt | apply shown_pre_blank; [reflexivity | exact E]].
  - apply wrap_ok in H as (b & E & ->). apply HC in E.
    rewrite !app_assoc. apply shown_post_blank; [reflexivity|]. rewrite <- !app_assoc.
    replace ($ "<tr>" ++ [10] ++ b ++ $ "</tr>") with (tag ($ "tr") ([10] ++ b)) by (unfold tag; cbn; rewrite <- ?app_assoc; reflexivity).
    apply shown_name; [nogt | apply shown_pre_blank; [reflexivity | exact E]].
  - apply wrap_ok in H as (b & E & ->). apply HC in E.
    apply shown_pre_blank; [reflexivity|]. rewrite !app_assoc. apply shown_post_blank; [reflexivity|]. rewrite <- !app_assoc.
    apply (shown_name ($ "td")); [nogt | exact E].
  - apply wrap_ok in H as (b & E & ->). apply HC in E.
    apply shown_pre_blank; [reflexivity|]. rewrite !app_assoc. apply shown_post_blank; [reflexivity|]. rewrite <- !app_assoc.
    apply (shown_name ($ "th")); [nogt | exact E].
  - apply wrap_ok in H as (b & E & ->). apply HC in E. apply shown_name; [nogt | exact E].
  - apply wrap_ok in H as (b & E & ->). apply HC in E. apply shown_name; [nogt | exact E].
  - apply wrap_ok in H as (b & E & ->). apply HC in E. apply shown_name; [nogt | exact E].
  - apply wrap_ok in H as (b & E & ->). apply HC in E. apply shown_name; [nogt | exact E].
  - apply wrap_ok in H as (b & E & ->). apply HC in E. apply shown_name; [nogt | exact E].
  - apply wrap_ok in H as (b & E & ->). apply HC in E. apply shown_name; [nogt | exact E].
  - apply wrap_ok in H as (b & E & ->). apply HC in E. apply shown_name; [nogt | exact E].
  - apply wrap_ok in H as (b & E & ->). apply HC in E. apply shown_name; [nogt | exact E].
Qed.

(** without macros and with verbose=0 a macro tag leaves nothing *)
Lemma mute_all : forall c, env c = no_macros -> (verbose c <= 0)%Z -> forall h s a s',
  no_obj s -> macro_emit c h s = (Ok a, s') -> a = [] /\ toc s' = toc s.
Proof.
  intros c He Hv h s a s' Ht H. unfold macro_emit in H.
  assert (HE : forall t, error c t = []).
  { intro t. unfold error. destruct (0 <? verbose c)%Z eqn:E; [|reflexivity]. apply Z.ltb_lt in E. lia. }
  destruct (string2dict (hmargs h)) as [kw|]; [|inversion H; subst; rewrite HE; auto].
  cbn zeta in H. rewrite He in H. cbn [u_has no_macros] in H.
  assert (HN : (Ok (error c ($ "Macro '" ++ hmname h ++ $ "' doesn't exist")), s) = (Ok a, s') -> a = [] /\ toc s' = toc s).
  { rewrite HE. intro H0. inversion H0; subst. auto. }
  destruct (str_eqb (hmname h) ($ "toc")); [|auto].
  destruct (toc s) as [|t|] eqn:Et; auto. exfalso. exact (Ht t Et).
Qed.
Lemma mute_quiet : forall c, env c = no_macros -> (verbose c <= 0)%Z -> mute c.
Proof.
  intros c He Hv h s a s' Hn H. destruct (mute_all c He Hv h s a s' Hn H) as [E1 E2]. split; [exact E1|].
  intros t. rewrite E2. apply Hn.
Qed.

(** ** Reading the html *)
Lemma decoded_skip : forall n w z, List.length w = n -> decoded n (w ++ z) = decoded 0 z.
Proof.
  induction n; intros w z H; destruct w as [|c w]; try discriminate; [reflexivity|].
  cbn [app decoded]. apply IHn. cbn [List.length] in H. congruence.
Qed.
Lemma decoded_esc : forall t, decoded 0 (esc t) = t.
Proof.
  induction t as [|c t IH]; [reflexivity|]. unfold esc in *. cbn [flat_map]. unfold esc_char at 1.
  destruct (c =? 38) eqn:E1; [|destruct (c =? 60) eqn:E2; [|destruct (c =? 62) eqn:E3]].
  - apply N.eqb_eq in E1. subst. cbn. f_equal. exact IH.
  - apply N.eqb_eq in E2. subst. cbn. f_equal. exact IH.
  - apply N.eqb_eq in E3. subst. cbn. f_equal. exact IH.
  - cbn [app decoded]. apply N.eqb_neq in E1.
    assert (HS : forall p, startswith (38 :: p) (c :: flat_map esc_char t) = false).
    { intro p. cbn [startswith]. destruct (38 =? c) eqn:E; [apply N.eqb_eq in E; congruence | reflexivity]. }
    change ($ "&amp;") with (38 :: $ "amp;"). change ($ "&lt;") with (38 :: $ "lt;"). change ($ "&gt;") with (38 :: $ "gt;").
    rewrite !HS. f_equal. exact IH.
Qed.
Lemma untagged_lead : forall p z, forallb is_space p = true -> untagged false (p ++ z) = p ++ untagged false z.
Proof.
  intros p z H. apply untagged_plain. intros c Hc E. subst. rewrite forallb_forall in H. apply H in Hc. discriminate.
Qed.
Lemma untagged_trail : forall q, forallb is_space q = true -> forall m b, exists q', untagged b (m ++ q) = untagged b m ++ q' /\ forallb is_space q' = true.
Proof.
  intros q Hq. induction m as [|c m IH]; intro b.
  - cbn [app]. destruct b.
    + exists []. split; [|reflexivity]. cbn [untagged app]. clear - Hq. induction q as [|c q IH]; [reflexivity|].
      cbn [forallb] in Hq. apply andb_true_iff in Hq as [H1 H2]. cbn [untagged].
      destruct (c =? 62) eqn:E; [apply N.eqb_eq in E; subst; discriminate|]. apply IH. exact H2.
    + exists q. split; [|exact Hq]. rewrite <- (app_nil_r q) at 1. rewrite untagged_lead by exact Hq. cbn. rewrite app_nil_r. reflexivity.
  - cbn [app untagged]. destruct b; [apply IH|]. destruct (c =? 60); [apply IH|].
    destruct (IH false) as (q' & E & H). exists q'. rewrite E. split; [reflexivity | exact H].
Qed.
Lemma esc_cons : forall c t, esc (c :: t) = esc_char c ++ esc t.
Proof. reflexivity. Qed.
Lemma esc_lead : forall p t z, forallb is_space p = true -> esc t = p ++ z -> exists t', t = p ++ t' /\ z = esc t'.
Proof.
  induction p as [|c p IH]; intros t z H E; [exists t; auto|]. cbn [forallb] in H. apply andb_true_iff in H as [H1 H2].
  destruct t as [|d t]; [discriminate|]. rewrite esc_cons in E. unfold esc_char in E.
  assert (Hc : c <> 38) by (intro; subst; discriminate).
  destruct (d =? 38); [cbn in E; inversion E; congruence|].
  destruct (d =? 60); [cbn in E; inversion E; congruence|].
  destruct (d =? 62); [cbn in E; inversion E; congruence|].
  cbn [app] in E. inversion E; subst. destruct (IH t z H2 H3) as (t' & -> & ->). exists t'. auto.
Qed.
Lemma esc_trail : forall q t z, forallb is_space q = true -> esc t = z ++ q -> exists t', t = t' ++ q /\ z = esc t'.
Proof.
  induction q as [|c q IH] using rev_ind; intros t z H E; [exists t; rewrite app_nil_r in *; auto|].
  rewrite forallb_app in H. apply andb_true_iff in H as [H1 H2]. cbn [forallb] in H2. rewrite andb_true_r in H2.
  rewrite app_assoc in E. destruct t as [|d t _] using rev_ind; [destruct (z ++ q); discriminate|].
  assert (EA : esc (t ++ [d]) = esc t ++ esc_char d) by (unfold esc; rewrite flat_map_app; cbn [flat_map]; rewrite app_nil_r; reflexivity).
  rewrite EA in E. unfold esc_char in E.
  assert (Hc : c <> 59) by (intro; subst; discriminate).
  assert (HX : forall w, esc t ++ w ++ [59] <> (z ++ q) ++ [c]).
  { intros w X. rewrite app_assoc in X. apply app_inj_tail in X as [_ X]. congruence. }
  destruct (d =? 38); [exfalso; exact (HX ($ "&amp") E)|].
  destruct (d =? 60); [exfalso; exact (HX ($ "&lt") E)|].
  destruct (d =? 62); [exfalso; exact (HX ($ "&gt") E)|].
  apply app_inj_tail in E as [E ->]. destruct (IH t z H1 E) as (t' & -> & ->). exists t'. rewrite app_assoc. auto.
Qed.

Lemma displayed_strip : forall a t, shows a t -> subseq (visible (displayed (strip a))) (visible t).
Proof.
  intros a t H. specialize (H []). rewrite app_nil_r in H. cbn [untagged] in H. rewrite app_nil_r in H.
  unfold strip. destruct (strip_split is_space a) as (p & q & E & Hp & Hq). set (m := strip_by is_space a) in *. clearbody m.
  rewrite E in H. rewrite untagged_lead in H by exact Hp.
  destruct (untagged_trail q Hq m false) as (q' & Em & Hq').
  assert (H0 : esc t = p ++ (untagged false m ++ q')) by (rewrite <- Em; symmetry; exact H). clear H. rename H0 into H.
  apply esc_lead in H as (t1 & -> & H); [|exact Hp].
  symmetry in H. apply esc_trail in H as (t2 & -> & H); [|exact Hq'].
  unfold displayed. rewrite H, decoded_esc. apply ss_vis. apply ss_infix_l.
Qed.

Theorem displayed_order : forall blog s, ~ uses_toc blog s ->
  exists html, fst (creole2html (mkopts blog (Some 0%Z) true) no_md s) = Ok html /\
    subseq (visible (displayed html)) (visible s).
Proof.
  intros blog s Hu. destruct (parse_wf blog s) as (n & u & Hp & _).
  assert (Hn : ~ In ($ "toc") u) by (intro X; apply Hu; exists n, u; auto).
  destruct (doc_general (fun _ => True) img_shape (fun _ => True) (mkopts blog (Some 0%Z) true) no_md s n u) as (f & md' & E & _); auto.
  { left. reflexivity. }
  { apply everywhere_all. auto. }
  { intros. apply image_any. }
  eexists. split; [rewrite E; reflexivity|].
  unfold creole2html in E. cbn [o_blog] in E. rewrite Hp, (no_toc_init _ _ Hn) in E. cbn zeta in E.
  set (c := mkcfg _ _ _ _) in E. unfold emit in E.
  destruct (emit_node c (mkn KDocument None) n (mkest (md_toc no_md) (md_log no_md))) as [[a|e] s'] eqn:Ee; [|discriminate].
  cbn [use_toc c] in E. cbn iota in E. injection E as E _. rewrite <- E.
  destruct (node_shown c eq_refl eq_refl) with (n := n) (par := mkn KDocument None) (s := mkest (md_toc no_md) (md_log no_md)) (a := a) (s' := s')
    as (t & Ht & St).
  { apply mute_quiet; [reflexivity | cbn; lia]. }
  { intros t. discriminate. }
  { exact Ee. }
  eapply ss_trans; [eapply text_order; exact Hp|]. eapply ss_trans; [exact St|]. apply displayed_strip. exact Ht.
Qed.
