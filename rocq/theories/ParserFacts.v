(** * Invariants of the creole parser *)
From Coq Require Import String List Arith NArith Bool Lia.
From Verif Require Import PyStr GNames Regex RegexFacts Rules DocTree CreoleParser.
Import ListNotations.
Open Scope N_scope.

(** ** Induction over document trees *)
Section NodeInd.
  Variable P : node -> Prop.
  Hypothesis HN : forall h ch, Forall P ch -> P (Nd h ch).
  Fixpoint node_ind' (n : node) : P n :=
    match n with
    | Nd h ch => HN h ch ((fix go (l : list node) : Forall P l :=
                             match l with
                             | [] => Forall_nil _
                             | x :: r => Forall_cons _ (node_ind' x) (go r)
                             end) ch)
    end.
End NodeInd.

(** ** Well-formed document trees *)
Definition has_content (h : hdr) : bool := match hcontent h with Some _ => true | None => false end.
Definition wf_text (n : node) : bool :=
  match n with Nd h ch => kind_beq (hk h) KText && has_content h && is_nil ch end.
Definition wf_break (n : node) : bool :=
  match n with Nd h ch => kind_beq (hk h) KBreak && is_nil ch end.
Definition wf_image (n : node) : bool :=
  match n with
  | Nd h [t] => kind_beq (hk h) KImage && has_content h && wf_text t
  | _ => false
  end.
(** what may stand in a link *)
Definition wf_lnk (n : node) : bool := wf_text n || wf_break n || wf_image n.

Definition is_mark (k : kind) : bool :=
  match k with
  | KStrong | KEmphasis | KMonospace | KUnderline | KSuperscript | KSubscript | KSmall | KDelete => true
  | _ => false
  end.

(** inline nodes *)
Fixpoint wf_inl (n : node) : bool :=
  match n with
  | Nd h ch =>
    match hk h with
    | KText => has_content h && is_nil ch
    | KBreak => is_nil ch
    | KPreInline => has_content h && is_nil ch
    | KMacroInline => is_nil ch
    | KImage => wf_image n
    | KLink => has_content h && forallb wf_lnk ch
    | KStrong | KEmphasis | KMonospace | KUnderline | KSuperscript | KSubscript | KSmall | KDelete =>
      forallb wf_inl ch
    | _ => false
    end
  end.

Definition is_list_kind (k : kind) : bool := match k with KBulletList | KNumberList => true | _ => false end.

(** a list item: inline nodes followed by lists; a list: items only *)
Fixpoint wf_item (n : node) : bool :=
  match n with
  | Nd h ch =>
    kind_beq (hk h) KListItem &&
    (fix go (l : list node) : bool :=
       match l with
       | [] => true
       | x :: r =>
         if wf_inl x then go r
         else (fix lists (l : list node) : bool :=
                 match l with
                 | [] => true
                 | Nd h' its :: r' => is_list_kind (hk h') && forallb wf_item its && lists r'
                 end) l
       end) ch
  end.
Definition wf_list (n : node) : bool :=
  match n with Nd h its => is_list_kind (hk h) && forallb wf_item its end.

Definition wf_cell (n : node) : bool :=
  match n with Nd h ch => (kind_beq (hk h) KTableCell || kind_beq (hk h) KTableHead) && forallb wf_inl ch end.
Definition wf_row (n : node) : bool :=
  match n with Nd h ch => kind_beq (hk h) KTableRow && forallb wf_cell ch end.

Definition wf_block (n : node) : bool :=
  match n with
  | Nd h ch =>
    match hk h with
    | KParagraph => forallb wf_inl ch
    | KHeader => has_content h && is_nil ch && Nat.leb 1 (hlevel h)
    | KPreBlock => has_content h && is_nil ch
    | KSeparator | KLine | KMacroBlock => is_nil ch
    | KBulletList | KNumberList => forallb wf_item ch
    | KTable => forallb wf_row ch
    | _ => false
    end
  end.
Definition wf_doc (n : node) : bool :=
  match n with Nd h ch => kind_beq (hk h) KDocument && forallb wf_block ch end.

(** ** Captures *)
Lemma caps_infix : forall r t x g v, In x (finditer r t) -> group g x = Some v -> infix v t.
Proof.
  intros r t x g v H Hg. apply finditer_In in H as (adv & b' & t' & H & ->).
  apply try_at_Mt in H as (s' & _ & E & _ & _ & _ & F).
  unfold group in Hg. rewrite E.
  apply infix_app_l, infix_app_r.
  induction (mcaps x) as [|[h w] cs IH]; simpl in Hg; [discriminate|].
  inversion F; subst. destruct (gname_beq g h); [inversion Hg; subst; assumption | auto].
Qed.

(** groups set by one of the alternatives *)
Lemma finditer_alts : forall l t x, In x (finditer (alts l) t) ->
  exists r, In r l /\
    (forall g, sets r g = true -> group g x <> None) /\
    (forall g, may r g = false -> group g x = None).
Proof.
  intros l t x H. apply finditer_In in H as (adv & b' & t' & H & _).
  apply try_at_Mt in H as (s' & HM & _ & _ & C & _ & _).
  apply Mt_alts in HM as (r & Hr & HM). exists r; split; [exact Hr|].
  unfold group. rewrite C. split; intros g Hg.
  - eapply Mt_sets; eauto.
  - rewrite (Mt_may _ _ _ _ HM Hg). reflexivity.
Qed.

Lemma group_some : forall g x, group g x <> None -> exists v, group g x = Some v.
Proof. intros g x H. destruct (group g x); [eauto | congruence]. Qed.

(** [need] with a group that is set *)
Lemma need_some : forall g x s f v, group g x = Some v -> need g x s f = f v.
Proof. intros. unfold need. rewrite H. reflexivity. Qed.

(** ** The dispatcher: first group and required groups of every alternative *)
Ltac first_group_tac :=
  repeat match goal with
         | H : forall g, may _ g = false -> group g ?x = None |- context [first_group (?g :: ?gs) ?x] =>
           first [ rewrite (eq_refl : first_group (g :: gs) x =
                              match group g x with Some _ => Some g | None => first_group gs x end);
                   rewrite (H g eq_refl) ]
         end.

Definition mark_text (g : gname) : option (kind * gname) :=
  match g with
  | G_strong => Some (KStrong, G_strong_text)
  | G_emphasis => Some (KEmphasis, G_emphasis_text)
  | G_monospace => Some (KMonospace, G_monospace_text)
  | G_underline => Some (KUnderline, G_underline_text)
  | G_superscript => Some (KSuperscript, G_superscript_text)
  | G_subscript => Some (KSubscript, G_subscript_text)
  | G_small => Some (KSmall, G_small_text)
  | G_delete => Some (KDelete, G_delete_text)
  | _ => None
  end.

Inductive inline_case (x : mtch) : gname -> Prop :=
| IC_link v : group G_link_target x = Some v -> inline_case x G_link
| IC_url v : group G_url_target x = Some v -> inline_case x G_url
| IC_minline n a t : group G_macro_inline_start x = Some n -> group G_macro_inline_args x = Some a ->
    group G_macro_inline_text x = Some t -> inline_case x G_macro_inline
| IC_mtag n a : group G_macro_tag_name x = Some n -> group G_macro_tag_args x = Some a ->
    inline_case x G_macro_tag
| IC_pre v : group G_pre_inline_text x = Some v -> inline_case x G_pre_inline
| IC_image v : group G_image_target x = Some v -> inline_case x G_image
| IC_mark g k gt v : mark_text g = Some (k, gt) -> group gt x = Some v -> inline_case x g
| IC_break : inline_case x G_linebreak
| IC_escape v : group G_escaped_char x = Some v -> inline_case x G_escape
| IC_char v : group G_char x = Some v -> inline_case x G_char.

Ltac have_group Hs g :=
  let E := fresh "E" in let v := fresh "v" in
  assert (E : group g _ <> None) by (apply Hs; reflexivity);
  apply group_some in E as [v E].

Lemma inline_dispatch : forall raw x, In x (finditer inline_re raw) ->
  exists g, first_group inline_groups x = Some g /\ inline_case x g.
Proof.
  intros raw x H. apply finditer_alts in H as (r & Hr & Hs & Hm).
  cbn [In] in Hr.
  Ltac fg Hs Hm g :=
    exists g; split;
    [ unfold inline_groups, link_groups, item_groups; cbn [first_group];
      repeat (rewrite Hm by reflexivity);
      let E := fresh "E" in
      assert (E : group g _ <> None) by (apply Hs; reflexivity);
      apply group_some in E as [? E]; rewrite E; reflexivity
    | ].
  repeat destruct Hr as [<-|Hr]; [.. | destruct Hr].
  - fg Hs Hm G_link. have_group Hs G_link_target. eapply IC_link; eauto.
  - fg Hs Hm G_url. have_group Hs G_url_target. eapply IC_url; eauto.
  - fg Hs Hm G_macro_inline. have_group Hs G_macro_inline_start. have_group Hs G_macro_inline_args.
    have_group Hs G_macro_inline_text. eapply IC_minline; eauto.
  - fg Hs Hm G_macro_tag. have_group Hs G_macro_tag_name. have_group Hs G_macro_tag_args.
    eapply IC_mtag; eauto.
  - fg Hs Hm G_pre_inline. have_group Hs G_pre_inline_text. eapply IC_pre; eauto.
  - fg Hs Hm G_image. have_group Hs G_image_target. eapply IC_image; eauto.
  - fg Hs Hm G_strong. have_group Hs G_strong_text. eapply IC_mark; [reflexivity | eauto].
  - fg Hs Hm G_emphasis. have_group Hs G_emphasis_text. eapply IC_mark; [reflexivity | eauto].
  - fg Hs Hm G_monospace. have_group Hs G_monospace_text. eapply IC_mark; [reflexivity | eauto].
  - fg Hs Hm G_underline. have_group Hs G_underline_text. eapply IC_mark; [reflexivity | eauto].
  - fg Hs Hm G_superscript. have_group Hs G_superscript_text. eapply IC_mark; [reflexivity | eauto].
  - fg Hs Hm G_subscript. have_group Hs G_subscript_text. eapply IC_mark; [reflexivity | eauto].
  - fg Hs Hm G_small. have_group Hs G_small_text. eapply IC_mark; [reflexivity | eauto].
  - fg Hs Hm G_delete. have_group Hs G_delete_text. eapply IC_mark; [reflexivity | eauto].
  - fg Hs Hm G_linebreak. apply IC_break.
  - fg Hs Hm G_escape. have_group Hs G_escaped_char. eapply IC_escape; eauto.
  - fg Hs Hm G_char. have_group Hs G_char. eapply IC_char; eauto.
Qed.

Lemma link_dispatch : forall raw x, In x (finditer link_re raw) ->
  (first_group link_groups x = Some G_image /\ exists v, group G_image_target x = Some v) \/
  first_group link_groups x = Some G_linebreak \/
  (first_group link_groups x = Some G_char /\ exists v, group G_char x = Some v).
Proof.
  intros raw x H. apply finditer_alts in H as (r & Hr & Hs & Hm).
  cbn [In] in Hr.
  Ltac fg' Hs Hm g :=
    unfold link_groups; cbn [first_group];
      repeat (rewrite Hm by reflexivity);
      let E := fresh "E" in
      assert (E : group g _ <> None) by (apply Hs; reflexivity);
      apply group_some in E as [? E]; rewrite E; reflexivity.
  repeat destruct Hr as [<-|Hr]; [.. | destruct Hr].
  - left. split; [fg' Hs Hm G_image|]. apply group_some, Hs; reflexivity.
  - right; left. fg' Hs Hm G_linebreak.
  - right; right. split; [fg' Hs Hm G_char|]. apply group_some, Hs; reflexivity.
Qed.

(** ** The inline part of the state: only the children of the current node change *)
Definition top_text (ch : list node) : Prop :=
  exists h c r, ch = Nd h [] :: r /\ hk h = KText /\ hcontent h = Some c.

Record inl_state (Q : node -> bool) (h : hdr) (up : list frame) (s : ps) : Prop := {
  is_err : perr s = false;
  is_stk : exists ch, stk s = (h, ch) :: up /\ forallb Q ch = true /\
                      (txt s = true -> top_text ch)
}.

(** predicates satisfied by text, breaks and images *)
Record base_ok (Q : node -> bool) : Prop := {
  bo_text : forall n, wf_text n = true -> Q n = true;
  bo_break : forall n, wf_break n = true -> Q n = true;
  bo_image : forall n, wf_image n = true -> Q n = true
}.

Lemma base_ok_lnk : base_ok wf_lnk.
Proof.
  constructor; intros n H; unfold wf_lnk; rewrite H; rewrite ?orb_true_r; reflexivity.
Qed.
Lemma kind_beq_eq : forall a b, kind_beq a b = true -> a = b.
Proof. exact internal_kind_dec_bl. Qed.
Lemma kind_beq_refl : forall a, kind_beq a a = true.
Proof. destruct a; reflexivity. Qed.
Lemma base_ok_inl : base_ok wf_inl.
Proof.
  constructor; intros [h ch] H; simpl in *.
  - apply andb_true_iff in H as [H H3]. apply andb_true_iff in H as [H1 H2].
    apply kind_beq_eq in H1. rewrite H1, H2, H3. reflexivity.
  - apply andb_true_iff in H as [H1 H2]. apply kind_beq_eq in H1. rewrite H1, H2. reflexivity.
  - destruct ch as [|t [|? ?]]; try discriminate.
    apply andb_true_iff in H as [H H3]. apply andb_true_iff in H as [H1 H2].
    apply kind_beq_eq in H1. rewrite H1. simpl. rewrite H2, H3. reflexivity.
Qed.

Lemma inl_append : forall Q h up s n, inl_state Q h up s -> Q n = true ->
  inl_state Q h up (set_txt false (append_child n s)).
Proof.
  intros Q h up s n [He (ch & Hs & HQ & _)] Hn. unfold append_child. rewrite Hs.
  constructor; [exact He|]. exists (n :: ch). simpl. rewrite Hn, HQ. repeat split; auto. discriminate.
Qed.

Lemma inl_settxt : forall Q h up s, inl_state Q h up s -> inl_state Q h up (set_txt false s).
Proof.
  intros Q h up s [He (ch & Hs & HQ & _)]. constructor; [exact He|].
  exists ch. repeat split; auto. discriminate.
Qed.

Lemma inl_text : forall Q h up s w, base_ok Q -> inl_state Q h up s ->
  inl_state Q h up (add_text w s).
Proof.
  intros Q h up s w HB [He (ch & Hs & HQ & Ht)]. unfold add_text.
  destruct (txt s) eqn:E.
  - destruct (Ht eq_refl) as (th & c & r & -> & Hk & Hc). rewrite Hs, Hc.
    constructor; [exact He|]. eexists; split; [reflexivity|]. simpl in HQ.
    apply andb_true_iff in HQ as [_ HQ].
    split.
    + simpl. rewrite HQ, andb_true_r. apply (bo_text _ HB). simpl. rewrite Hk. reflexivity.
    + intros _. exists (mkh (hk th) (Some (c ++ w)) (hlevel th) (hmname th) (hmargs th)), (c ++ w), r.
      repeat split. exact Hk.
  - unfold append_child. rewrite Hs. constructor; [exact He|].
    eexists; split; [reflexivity|]. split.
    + simpl. rewrite HQ, andb_true_r. apply (bo_text _ HB). reflexivity.
    + intros _. eexists _, _, _. split; [reflexivity|]. split; reflexivity.
Qed.

Lemma image_node_ok : forall t u, wf_image (Nd (mkn KImage (Some t)) [Nd (mkn KText (Some u)) []]) = true.
Proof. reflexivity. Qed.

Lemma inl_image : forall Q h up s x v, base_ok Q -> inl_state Q h up s ->
  group G_image_target x = Some v -> inl_state Q h up (image_repl x s).
Proof.
  intros. unfold image_repl. rewrite (need_some _ _ _ _ _ H1).
  apply inl_append; [assumption|]. apply (bo_image _ H). apply image_node_ok.
Qed.

Lemma inl_linebreak : forall Q h up s, base_ok Q -> inl_state Q h up s ->
  inl_state Q h up (linebreak_repl s).
Proof. intros. apply inl_append; [assumption|]. apply (bo_break _ H). reflexivity. Qed.

(** a fold of handlers over the matches of a regex *)
Lemma fold_inv : forall (I : ps -> Prop) (f : ps -> mtch -> ps) (l : list mtch),
  (forall s x, In x l -> I s -> I (f s x)) -> forall s, I s -> I (fold_left f l s).
Proof.
  induction l as [|x l IH]; intros H s Hs; simpl; [exact Hs|].
  apply IH; [intros; apply H; [right|]; auto | apply H; [left; reflexivity | exact Hs]].
Qed.

Lemma link_text_inv : forall h up text s, inl_state wf_lnk h up s ->
  inl_state wf_lnk h up
    (fold_left (replace_ link_groups link_text_handler) (finditer link_re text) s).
Proof.
  intros h up text. apply fold_inv. intros s x Hx Hs.
  unfold replace_. rewrite (is_err _ _ _ _ Hs).
  destruct (link_dispatch _ _ Hx) as [[E [v Ev]]|[E|[E [v Ev]]]]; rewrite E; simpl.
  - eapply inl_image; eauto using base_ok_lnk.
  - apply inl_linebreak; auto using base_ok_lnk.
  - unfold char_repl. rewrite (need_some _ _ _ _ _ Ev). apply inl_text; auto using base_ok_lnk.
Qed.

Lemma pop_to_top : forall h ch h' ch' (up : list frame) s, stk s = (h, ch) :: (h', ch') :: up ->
  pop_to (S (List.length up)) s = set_stk ((h', Nd h (rev ch) :: ch') :: up) s.
Proof.
  intros. unfold pop_to. rewrite H.
  match goal with |- context [pop_n ?n] =>
    assert (E : n = 1%nat) by (cbn [List.length]; lia); rewrite E end.
  reflexivity.
Qed.

Lemma forallb_rev : forall {A} (f : A -> bool) l, forallb f (rev l) = forallb f l.
Proof.
  intros. induction l; simpl; [reflexivity|]. rewrite forallb_app, IHl. simpl.
  rewrite andb_true_r, andb_comm. reflexivity.
Qed.

Lemma inl_link : forall h up s x v, inl_state wf_inl h up s ->
  group G_link_target x = Some v -> inl_state wf_inl h up (link_repl x s).
Proof.
  intros h up s x v [He (ch & Hs & HQ & _)] Hv. unfold link_repl.
  rewrite (need_some _ _ _ _ _ Hv).
  set (s0 := set_txt false (open_ (mkn KLink (Some v)) s)).
  assert (H0 : inl_state wf_lnk (mkn KLink (Some v)) ((h, ch) :: up) s0).
  { constructor; [exact He|]. exists []. unfold s0. simpl. rewrite Hs. repeat split; discriminate. }
  apply (link_text_inv _ _ (strip (group0 G_link_text x))) in H0.
  set (s1 := fold_left _ _ s0) in *.
  destruct H0 as [He1 (lch & Hs1 & HQ1 & _)].
  rewrite Hs. cbn [List.length]. rewrite (pop_to_top _ _ _ _ _ _ Hs1).
  constructor; [exact He1|]. eexists; split; [reflexivity|]. split; [|discriminate].
  simpl. rewrite HQ, andb_true_r. rewrite forallb_rev. exact HQ1.
Qed.

(** [upto] stops at once at a mark *)
Lemma upto_mark : forall k ch up s,
  stk s = (mkn k None, ch) :: up ->
  exists ch', upto [k] s = set_stk ((mkn k None, ch') :: up) s /\
              (ch' = ch \/ exists n, ch = n :: ch' /\ nkind n = KBreak).
Proof.
  intros k ch up s Hs. unfold upto, cleanup_break. rewrite Hs.
  assert (HL : forall c, upto_loop [k] (mkn k None) c up = (mkn k None, c) :: up).
  { intro c. destruct up as [|[h' c'] up']; [reflexivity|]. simpl. rewrite kind_beq_refl. reflexivity. }
  destruct ch as [|n ch].
  - rewrite Hs, HL. exists []; auto.
  - destruct (kind_beq (nkind n) KBreak) eqn:E.
    + simpl. rewrite HL. exists ch. split; [reflexivity|]. right. exists n.
      apply kind_beq_eq in E. auto.
    + rewrite Hs, HL. exists (n :: ch). auto.
Qed.

Lemma inl_mark : forall pi k gt h up s x v,
  is_mark k = true ->
  (forall h up s, inl_state wf_inl h up s -> inl_state wf_inl h up (pi v s)) ->
  inl_state wf_inl h up s -> group gt x = Some v ->
  inl_state wf_inl h up (inline_mark pi k gt x s).
Proof.
  intros pi k gt h up s x v Hk Hpi [He (ch & Hs & HQ & _)] Hv. unfold inline_mark.
  rewrite (need_some _ _ _ _ _ Hv).
  set (s0 := set_txt false (open_ (mkn k None) s)).
  assert (H0 : inl_state wf_inl (mkn k None) ((h, ch) :: up) s0).
  { constructor; [exact He|]. exists []. unfold s0. simpl. rewrite Hs. repeat split; discriminate. }
  apply Hpi in H0. set (s1 := pi v s0) in *.
  destruct H0 as [He1 (mch & Hs1 & HQ1 & _)].
  destruct (upto_mark k mch _ _ Hs1) as (mch' & E & Hch).
  rewrite E. constructor; [exact He1|]. simpl. eexists; split; [reflexivity|]. split; [|discriminate].
  assert (HQ2 : forallb wf_inl mch' = true).
  { destruct Hch as [->|(n & -> & _)]; [exact HQ1|]. simpl in HQ1. apply andb_true_iff in HQ1; tauto. }
  simpl. rewrite HQ, andb_true_r.
  destruct k; try discriminate; simpl; rewrite forallb_rev; exact HQ2.
Qed.

Lemma mark_text_mark : forall g k gt, mark_text g = Some (k, gt) -> is_mark k = true.
Proof. intros g k gt H. destruct g; inversion H; reflexivity. Qed.

Lemma mark_handler : forall g k gt pi x s, mark_text g = Some (k, gt) ->
  inline_handler pi g x s = inline_mark pi k gt x s.
Proof. intros g k gt pi x s H. destruct g; inversion H; reflexivity. Qed.

Lemma inl_macro : forall h up s n a t, inl_state wf_inl h up s ->
  inl_state wf_inl h up (add_macro KMacroInline n a t s).
Proof.
  intros h up s n a t [He (ch & Hs & HQ & _)]. unfold add_macro, append_child. rewrite Hs.
  constructor; [exact He|]. eexists; split; [reflexivity|]. split; [exact HQ | discriminate].
Qed.

Lemma parse_inline_f_inv : forall fuel raw h up s, inl_state wf_inl h up s ->
  inl_state wf_inl h up (parse_inline_f fuel raw s).
Proof.
  induction fuel; intros raw h up s Hs; [exact Hs|].
  change (parse_inline_f (S fuel) raw s) with
    (fold_left (replace_ inline_groups (inline_handler (parse_inline_f fuel))) (finditer inline_re raw) s).
  revert s Hs. apply fold_inv. intros s x Hx Hs.
  unfold replace_. rewrite (is_err _ _ _ _ Hs).
  destruct (inline_dispatch _ _ Hx) as (g & Eg & Hc). rewrite Eg.
  destruct Hc as [v Ev|v Ev|n a t En Ea Et|n a En Ea|v Ev|v Ev|g k gt v Em Ev| |v Ev|v Ev].
  - simpl. eapply inl_link; eauto.
  - simpl. unfold url_repl. rewrite (need_some _ _ _ _ _ Ev).
    destruct (truthy _).
    + apply inl_text; auto using base_ok_inl.
    + apply inl_append; auto.
  - simpl. unfold macro_inline_repl.
    rewrite (need_some _ _ _ _ _ En), (need_some _ _ _ _ _ Ea), (need_some _ _ _ _ _ Et).
    apply inl_macro; auto.
  - simpl. unfold macro_tag_repl.
    rewrite (need_some _ _ _ _ _ En), (need_some _ _ _ _ _ Ea). apply inl_macro; auto.
  - simpl. unfold pre_inline_repl. rewrite (need_some _ _ _ _ _ Ev). apply inl_append; auto.
  - simpl. eapply inl_image; eauto using base_ok_inl.
  - rewrite (mark_handler _ _ _ _ _ _ Em). eapply inl_mark; eauto using mark_text_mark.
  - simpl. apply inl_linebreak; auto using base_ok_inl.
  - simpl. unfold escape_repl. rewrite (need_some _ _ _ _ _ Ev). apply inl_text; auto using base_ok_inl.
  - simpl. unfold char_repl. rewrite (need_some _ _ _ _ _ Ev). apply inl_text; auto using base_ok_inl.
Qed.

Lemma parse_inline_inv : forall raw h up s, inl_state wf_inl h up s ->
  inl_state wf_inl h up (parse_inline raw s).
Proof. intros. apply parse_inline_f_inv; assumption. Qed.

(** ** Enough fuel: the text of a mark is shorter than the text it stands in *)
Lemma mark_shorter : forall raw x g k gt v, In x (finditer inline_re raw) ->
  mark_text g = Some (k, gt) -> group gt x = Some v -> (List.length v < List.length raw)%nat.
Proof.
  intros raw x g k gt v Hx Hm Hg. eapply finditer_strict; [exact Hx | | exact Hg].
  destruct g; inversion Hm; subst; reflexivity.
Qed.

Lemma fold_left_ext : forall {A B} (f g : A -> B -> A) l, (forall a x, In x l -> f a x = g a x) ->
  forall a, fold_left f l a = fold_left g l a.
Proof.
  induction l as [|x l IH]; intros H a; [reflexivity|]. simpl.
  rewrite H by (left; reflexivity). apply IH. intros; apply H; right; assumption.
Qed.

Lemma parse_inline_f_fuel : forall n n' raw s,
  (List.length raw < n)%nat -> (List.length raw < n')%nat ->
  parse_inline_f n raw s = parse_inline_f n' raw s.
Proof.
  induction n; intros n' raw s H H'; [lia|]. destruct n'; [lia|].
  change (parse_inline_f (S n) raw s) with
    (fold_left (replace_ inline_groups (inline_handler (parse_inline_f n))) (finditer inline_re raw) s).
  change (parse_inline_f (S n') raw s) with
    (fold_left (replace_ inline_groups (inline_handler (parse_inline_f n'))) (finditer inline_re raw) s).
  apply fold_left_ext. intros a x Hx. unfold replace_. destruct (perr a); [reflexivity|].
  destruct (inline_dispatch _ _ Hx) as (g & -> & Hc).
  destruct Hc as [v Ev|v Ev|? ? ? En Ea Et|? ? En Ea|v Ev|v Ev|g k gt v Em Ev| |v Ev|v Ev];
    try reflexivity.
  rewrite !(mark_handler _ _ _ _ _ _ Em). unfold inline_mark. rewrite !(need_some _ _ _ _ _ Ev).
  assert (Hl := mark_shorter _ _ _ _ _ _ Hx Em Ev). rewrite (IHn n'); [reflexivity | lia | lia].
Qed.

(** [parse_inline] satisfies the recursion equation of the code, without fuel *)
Lemma parse_inline_fuel : forall raw s, parse_inline raw s =
  fold_left (replace_ inline_groups (inline_handler parse_inline)) (finditer inline_re raw) s.
Proof.
  intros raw s. unfold parse_inline at 1.
  change (parse_inline_f (S (List.length raw)) raw s) with
    (fold_left (replace_ inline_groups (inline_handler (parse_inline_f (List.length raw)))) (finditer inline_re raw) s).
  apply fold_left_ext. intros a x Hx. unfold replace_. destruct (perr a); [reflexivity|].
  destruct (inline_dispatch _ _ Hx) as (g & -> & Hc).
  destruct Hc as [v Ev|v Ev|? ? ? En Ea Et|? ? En Ea|v Ev|v Ev|g k gt v Em Ev| |v Ev|v Ev];
    try reflexivity.
  rewrite !(mark_handler _ _ _ _ _ _ Em). unfold inline_mark. rewrite !(need_some _ _ _ _ _ Ev).
  assert (Hl := mark_shorter _ _ _ _ _ _ Hx Em Ev).
  unfold parse_inline at 1. erewrite parse_inline_f_fuel; [reflexivity | lia | lia].
Qed.

(** ** Block structure *)
Inductive block_case (x : mtch) : gname -> Prop :=
| BC_macro n a t : group G_macro_block_start x = Some n -> group G_macro_block_args x = Some a ->
    group G_macro_block_text x = Some t -> block_case x G_macro_block
| BC_line : block_case x G_line
| BC_head t h : group G_head_text x = Some t -> group G_head_head x = Some h -> h <> [] ->
    block_case x G_head
| BC_separator : block_case x G_separator
| BC_pre t : group G_pre_block_text x = Some t -> block_case x G_pre_block
| BC_list l : group G_list x = Some l -> block_case x G_list
| BC_table t : group G_table x = Some t -> block_case x G_table
| BC_text t g : group G_text x = Some t -> g = G_text \/ g = G_space -> block_case x g.

Lemma block_dispatch : forall blog raw x, In x (finditer (block_re blog) raw) ->
  exists g, first_group (block_groups blog) x = Some g /\ block_case x g.
Proof.
  intros blog raw x H0. assert (H := H0).
  apply finditer_alts in H as (r & Hr & Hs & Hm).
  cbn [In] in Hr.
  Ltac bg Hs Hm g :=
    exists g; split;
    [ unfold block_groups; cbn [app first_group];
      repeat (rewrite Hm by reflexivity);
      let E := fresh "E" in
      assert (E : group g _ <> None) by (apply Hs; reflexivity);
      apply group_some in E as [? E]; rewrite E; reflexivity
    | ].
  repeat destruct Hr as [<-|Hr]; [.. | destruct Hr].
  - bg Hs Hm G_macro_block. have_group Hs G_macro_block_start. have_group Hs G_macro_block_args.
    have_group Hs G_macro_block_text. eapply BC_macro; eauto.
  - bg Hs Hm G_line. apply BC_line.
  - bg Hs Hm G_head. have_group Hs G_head_text. have_group Hs G_head_head.
    eapply BC_head; eauto. intros ->. revert E0.
    apply (finditer_capne _ _ _ G_head_head H0). destruct blog; reflexivity.
  - bg Hs Hm G_separator. apply BC_separator.
  - bg Hs Hm G_pre_block. have_group Hs G_pre_block_text. eapply BC_pre; eauto.
  - bg Hs Hm G_list. have_group Hs G_list. eapply BC_list; eauto.
  - bg Hs Hm G_table. have_group Hs G_table. eapply BC_table; eauto.
  - destruct blog.
    + bg Hs Hm G_text. have_group Hs G_text. eapply BC_text; eauto.
    + have_group Hs G_text. destruct (group G_space x) eqn:Esp.
      * exists G_space. split; [|eapply BC_text; eauto].
        unfold block_groups; cbn [app first_group]. repeat (rewrite Hm by reflexivity).
        rewrite Esp. reflexivity.
      * exists G_text. split; [|eapply BC_text; eauto].
        unfold block_groups; cbn [app first_group]. repeat (rewrite Hm by reflexivity).
        rewrite Esp, E. reflexivity.
Qed.

Lemma item_dispatch : forall l x, In x (finditer item_re l) ->
  first_group item_groups x = Some G_item /\
  exists h t, group G_item_head x = Some h /\ group G_item_text x = Some t /\ h <> [].
Proof.
  intros l x H0. assert (H := H0). change item_re with (alts [item_re]) in H.
  apply finditer_alts in H as (r & [<-|[]] & Hs & Hm).
  have_group Hs G_item. have_group Hs G_item_head. have_group Hs G_item_text.
  split.
  - unfold item_groups. cbn [first_group]. rewrite E. reflexivity.
  - exists v0, v1. repeat split; auto. intros ->. revert E0.
    apply (finditer_capne _ _ _ G_item_head H0). reflexivity.
Qed.

Lemma cell_dispatch : forall l x, In x (finditer cell_re l) ->
  truthy (group0 G_cell x) = true \/ exists h, group G_head x = Some h.
Proof.
  intros l x H0. assert (H := H0).
  apply finditer_In in H as (adv & b' & t' & H & _).
  apply try_at_Mt in H as (s' & HM & _ & _ & C & _ & _).
  destruct (group G_head x) eqn:E; [right; eauto|]. left.
  assert (Hc : group G_cell x <> Some []).
  { apply (finditer_capne _ _ _ G_cell H0). reflexivity. }
  unfold group0. destruct (group G_cell x) as [[|c v]|] eqn:Ec; [destruct (Hc eq_refl) | reflexivity |].
  exfalso. unfold group in E, Ec. rewrite C in E, Ec. clear C.
  unfold cell_re in HM. cbn [seqs] in HM.
  inversion HM as [ | | ? ? ? s1 ? H1 H2 | | | | | | | | | | |]; subst.
  inversion H2 as [ | | ? ? ? s2 ? H3 H4 | | | | | | | | | | |]; subst.
  inversion H4 as [ | | ? ? ? s3 ? H5 H6 | | | | | | | | | | |]; subst.
  inversion H5 as [ | | | ? ? ? ? H7 | ? ? ? ? H7 | | | | | | | | | ]; subst.
  - apply (Mt_keeps _ _ _ G_head H6); [|exact E].
    eapply Mt_sets; [exact H7 | reflexivity].
  - apply (Mt_keeps _ _ _ G_cell H6); [|exact Ec].
    eapply Mt_sets; [exact H7 | reflexivity].
Qed.

Lemma wf_item_intro : forall h a b, hk h = KListItem -> forallb wf_inl a = true ->
  forallb wf_list b = true -> wf_item (Nd h (a ++ b)) = true.
Proof.
  intros h a b Hk Ha Hb. cbn [wf_item]. rewrite Hk. cbn [kind_beq andb].
  induction a as [|x a IH]; simpl in *.
  - destruct b as [|x b]; [reflexivity|].
    destruct (wf_inl x) eqn:E.
    { destruct x as [hx cx]. simpl in Hb, E. destruct (hk hx); simpl in *; discriminate. }
    clear E. revert x Hb. induction b as [|y b IHb]; intros [hx cx] Hb.
    + simpl in *. exact Hb.
    + cbn [forallb] in Hb. apply andb_true_iff in Hb as [H1 H2]. unfold wf_list in H1.
      rewrite H1. simpl andb. apply (IHb y). exact H2.
  - apply andb_true_iff in Ha as [H1 H2]. rewrite H1. apply IH; exact H2.
Qed.

Lemma wf_item_inv : forall h ch, wf_item (Nd h ch) = true ->
  hk h = KListItem /\ exists a b, ch = a ++ b /\ forallb wf_inl a = true /\ forallb wf_list b = true.
Proof.
  intros h ch H. cbn [wf_item] in H. apply andb_true_iff in H as [Hk H].
  apply kind_beq_eq in Hk. split; [exact Hk|].
  induction ch as [|x ch IH]; [exists [], []; auto|].
  destruct (wf_inl x) eqn:E.
  - apply IH in H as (a & b & -> & Ha & Hb). exists (x :: a), b. repeat split; auto.
    simpl. rewrite E, Ha. reflexivity.
  - exists [], (x :: ch). repeat split.
    assert (HL : forall l, (fix lists (l : list node) : bool :=
                 match l with
                 | [] => true
                 | Nd h' its :: r' => is_list_kind (hk h') && forallb wf_item its && lists r'
                 end) l = true -> forallb wf_list l = true).
    { clear. induction l as [|[hx cx] l IH]; [reflexivity|].
      intro H. apply andb_true_iff in H as [H1 H2]. cbn [forallb]. unfold wf_list at 1. rewrite H1.
      apply IH; exact H2. }
    apply (HL (x :: ch)). exact H.
Qed.

(** ** The stack of open nodes *)
Notation doc_h := (mkn KDocument None).
Inductive up_ok : bool -> list frame -> Prop :=
| UD ch : forallb wf_block ch = true -> up_ok false [(doc_h, ch)]
| UL k l its up : is_list_kind k = true -> forallb wf_item its = true -> up_ok false up ->
    up_ok true ((mkl k None l, its) :: up)
| UI l a b up : forallb wf_inl a = true -> forallb wf_list b = true -> up_ok true up ->
    up_ok false ((mkl KListItem None l, b ++ a) :: up).

Inductive stack_ok : list frame -> Prop :=
| SO_doc ch : forallb wf_block ch = true -> stack_ok [(doc_h, ch)]
| SO_para pch ch : forallb wf_inl pch = true -> forallb wf_block ch = true ->
    stack_ok [(mkn KParagraph None, pch); (doc_h, ch)]
| SO_table rows ch : forallb wf_row rows = true -> forallb wf_block ch = true ->
    stack_ok [(mkn KTable None, rows); (doc_h, ch)]
| SO_li l ch up : forallb wf_inl ch = true -> up_ok true up ->
    stack_ok ((mkl KListItem None l, ch) :: up).

Lemma wf_list_block : forall k l its, is_list_kind k = true -> forallb wf_item its = true ->
  wf_block (Nd (mkl k None l) its) = true.
Proof. intros k l its Hk Hi. destruct k; try discriminate; exact Hi. Qed.

Lemma up_list_close : forall k, up_ok true k -> up_ok false (pop1 k).
Proof.
  intros k H. inversion H as [| k0 l its up Hk Hi Hu | ]; subst.
  inversion Hu as [ch Hc| | l' a b up' Ha Hb Hu']; subst; simpl.
  - constructor. cbn [forallb]. rewrite Hc, andb_true_r. apply wf_list_block; [exact Hk|].
    rewrite forallb_rev. exact Hi.
  - apply (UI l' a (Nd (mkl k0 None l) (rev its) :: b)); auto.
    simpl. rewrite Hb, Hk, forallb_rev, Hi. reflexivity.
Qed.

Lemma up_item_close : forall l ch up, up_ok false ((mkl KListItem None l, ch) :: up) ->
  up_ok true (pop1 ((mkl KListItem None l, ch) :: up)).
Proof.
  intros l ch up H. inversion H as [| | l' a b up' Ha Hb Hu']; subst.
  inversion Hu' as [| k0 l0 its up0 Hk Hi Hu | ]; subst. simpl.
  apply UL; auto. cbn [forallb]. rewrite Hi, andb_true_r.
  rewrite rev_app_distr. apply wf_item_intro; [reflexivity | |]; rewrite forallb_rev; assumption.
Qed.

Lemma upto_loop_stay : forall kinds h ch up, kind_in (hk h) kinds = true ->
  upto_loop kinds h ch up = (h, ch) :: up.
Proof. intros kinds h ch up H. destruct up as [|[h' c'] up]; simpl; [reflexivity|]. rewrite H. reflexivity. Qed.

Lemma upto_loop_pop : forall kinds h ch h' ch' up, kind_in (hk h) kinds = false ->
  upto_loop kinds h ch ((h', ch') :: up) = upto_loop kinds h' (Nd h (rev ch) :: ch') up.
Proof. intros kinds h ch h' ch' up H. simpl. rewrite H. reflexivity. Qed.

(** leaving nested lists up to the document *)
Lemma up_close : forall kinds, kind_in KDocument kinds = true -> kind_in KListItem kinds = false ->
  kind_in KBulletList kinds = false -> kind_in KNumberList kinds = false ->
  forall n b h ch up, List.length up = n -> up_ok b ((h, ch) :: up) ->
  exists ch', upto_loop kinds h ch up = [(doc_h, ch')] /\ forallb wf_block ch' = true.
Proof.
  intros kinds K1 K2 K3 K4. induction n; intros b h ch up Hn H.
  - destruct up; [|discriminate]. inversion H as [c Hc| ? ? ? ? ? ? Hu | ? ? ? ? ? ? Hu]; subst;
      [|inversion Hu|inversion Hu].
    exists ch. auto.
  - destruct up as [|[h' ch'] up]; [discriminate|]. simpl in Hn. inversion Hn as [Hn'].
    inversion H as [| k l its up0 Hk Hi Hu | l a bb up0 Ha Hb Hu]; subst.
    + rewrite upto_loop_pop by (destruct k; try discriminate; assumption).
      apply up_list_close in H. simpl in H. eapply IHn; eauto.
    + rewrite upto_loop_pop by assumption. apply up_item_close in H. simpl in H. eapply IHn; eauto.
Qed.

Lemma stack_drop : forall h n ch up, stack_ok ((h, n :: ch) :: up) -> stack_ok ((h, ch) :: up).
Proof.
  intros h n ch up H. inversion H as [c Hc|p c Hp Hc|r c Hr Hc|l c u Hc Hu]; subst; simpl in *.
  - apply andb_true_iff in Hc as [_ Hc]. constructor; auto.
  - apply andb_true_iff in Hp as [_ Hp]. constructor; auto.
  - apply andb_true_iff in Hr as [_ Hr]. constructor; auto.
  - apply andb_true_iff in Hc as [_ Hc]. constructor; auto.
Qed.

Record blk_state (s : ps) : Prop := {
  bs_err : perr s = false;
  bs_txt : txt s = false;
  bs_stk : stack_ok (stk s)
}.

Lemma stack_ne : forall k, stack_ok k -> exists h ch up, k = (h, ch) :: up.
Proof. intros k H. inversion H; subst; eauto. Qed.

Lemma blk_cleanup : forall s, blk_state s -> blk_state (cleanup_break s).
Proof.
  intros s [He Ht Hs]. unfold cleanup_break. destruct (stack_ne _ Hs) as (h & ch & up & E).
  rewrite E in *. destruct ch as [|n ch]; [constructor; auto; rewrite E; auto|].
  destruct (kind_beq (nkind n) KBreak); [|constructor; auto; rewrite E; auto].
  constructor; auto. simpl. eapply stack_drop; eauto.
Qed.

Lemma close_doc : forall kinds h ch up, kind_in KDocument kinds = true ->
  kind_in KListItem kinds = false -> kind_in KBulletList kinds = false ->
  kind_in KNumberList kinds = false -> kind_in KParagraph kinds = false ->
  kind_in KTable kinds = false ->
  stack_ok ((h, ch) :: up) ->
  exists ch', upto_loop kinds h ch up = [(doc_h, ch')] /\ forallb wf_block ch' = true.
Proof.
  intros kinds h ch up K1 K2 K3 K4 K5 K6 H.
  inversion H as [c Hc|p c Hp Hc|r c Hr Hc|l c u Hc Hu]; subst.
  - exists ch. auto.
  - rewrite upto_loop_pop by assumption. eexists; split; [reflexivity|].
    simpl. rewrite forallb_rev, Hp, Hc. reflexivity.
  - rewrite upto_loop_pop by assumption. eexists; split; [reflexivity|].
    simpl. rewrite forallb_rev, Hr, Hc. reflexivity.
  - eapply up_close; eauto. apply (UI l ch []); auto.
Qed.

Definition at_doc (s : ps) : Prop :=
  perr s = false /\ txt s = false /\ exists ch, stk s = [(doc_h, ch)] /\ forallb wf_block ch = true.

Lemma upto_block_ok : forall s, blk_state s -> at_doc (upto_block s).
Proof.
  intros s H. unfold upto_block, upto. apply blk_cleanup in H. set (s' := cleanup_break s) in *.
  destruct H as [He Ht Hs]. destruct (stack_ne _ Hs) as (h & ch & up & E). rewrite E in *.
  destruct (close_doc [KDocument] h ch up) as (ch' & E1 & Hc); auto.
  rewrite E1. split; [exact He|]. split; [exact Ht|]. exists ch'. auto.
Qed.

Lemma at_doc_blk : forall s, at_doc s -> blk_state s.
Proof. intros s (He & Ht & ch & E & Hc). constructor; auto. rewrite E. constructor; auto. Qed.

Lemma at_doc_app : forall s n, at_doc s -> wf_block n = true -> at_doc (append_child n s).
Proof.
  intros s n (He & Ht & ch & E & Hc) Hn. unfold append_child. rewrite E.
  split; [exact He|]. split; [exact Ht|]. exists (n :: ch). simpl. rewrite Hn, Hc. auto.
Qed.

Lemma at_doc_settxt : forall s, at_doc s -> at_doc (set_txt false s).
Proof. intros s (He & Ht & ch & E & Hc). split; [exact He|]. split; [reflexivity|]. exists ch. auto. Qed.

Lemma stack_cases : forall k, stack_ok k ->
  (exists ch, k = [(doc_h, ch)] /\ forallb wf_block ch = true) \/
  (exists pch ch, k = [(mkn KParagraph None, pch); (doc_h, ch)] /\
     forallb wf_inl pch = true /\ forallb wf_block ch = true) \/
  (exists rows ch, k = [(mkn KTable None, rows); (doc_h, ch)] /\
     forallb wf_row rows = true /\ forallb wf_block ch = true) \/
  (exists l ch up, k = (mkl KListItem None l, ch) :: up /\ forallb wf_inl ch = true /\ up_ok true up).
Proof.
  intros k H. inversion H; subst.
  - left; eauto.
  - right; left; eauto.
  - right; right; left; eauto.
  - right; right; right; eauto 6.
Qed.

Lemma text_ok : forall s x t, blk_state s -> group G_text x = Some t -> blk_state (text_repl x s).
Proof.
  intros s x t H Et. unfold text_repl.
  set (s1 := if kind_in (cur_kind s) _ then upto_block s else s).
  assert (H1 : blk_state s1).
  { unfold s1. destruct (kind_in _ _); [apply at_doc_blk, upto_block_ok|]; exact H. }
  assert (Hk : cur_kind s1 <> KTable).
  { unfold s1. destruct (kind_in (cur_kind s) _) eqn:Ek.
    - destruct (upto_block_ok _ H) as (_ & _ & ch & E & _). unfold cur_kind. rewrite E. discriminate.
    - intro E. rewrite E in Ek. discriminate. }
  clearbody s1. clear s H.
  set (s2 := if kind_in (cur_kind s1) [KDocument] then open_ (mkn KParagraph None) s1 else s1).
  assert (H2 : perr s2 = false /\ txt s2 = false /\
               (exists pch ch, stk s2 = [(mkn KParagraph None, pch); (doc_h, ch)] /\
                   forallb wf_inl pch = true /\ forallb wf_block ch = true) \/
               perr s2 = false /\ txt s2 = false /\
               (exists l ch up, stk s2 = (mkl KListItem None l, ch) :: up /\
                   forallb wf_inl ch = true /\ up_ok true up)).
  { destruct H1 as [He Ht Hs]. unfold s2, cur_kind in *.
    destruct (stack_cases _ Hs) as [(c & Ek & Hc)|[(p & c & Ek & Hp & Hc)|[(r & c & Ek & _)|(l & c & u & Ek & Hc & Hu)]]];
      rewrite Ek in *; simpl.
    - left. rewrite Ek. repeat split; auto. exists [], c. auto.
    - left. rewrite Ek. repeat split; auto. exists p, c. auto.
    - exfalso. apply Hk. reflexivity.
    - right. rewrite Ek. repeat split; auto. exists l, c, u. auto. }
  clearbody s2. clear s1 H1 Hk.
  rewrite (need_some _ _ _ _ _ Et).
  set (text := if _ : bool then 32 :: t else t). clearbody text.
  destruct H2 as [(He & Ht & pch & ch & E & Hp & Hc)|(He & Ht & l & ch & up & E & Hp & Hu)].
  - assert (HI : inl_state wf_inl (mkn KParagraph None) [(doc_h, ch)] (parse_inline text s2)).
    { apply parse_inline_inv. constructor; auto. exists pch. repeat split; auto. congruence. }
    destruct HI as [He3 (pch' & E3 & Hp3 & _)].
    match goal with |- blk_state (set_txt false ?s4) => set (s5 := s4) end.
    assert (H5 : perr s5 = false /\ exists q, stk s5 = [(mkn KParagraph None, q); (doc_h, ch)] /\
                   forallb wf_inl q = true).
    { unfold s5. destruct (_ && _).
      - unfold append_child. rewrite E3. split; [exact He3|]. eexists; split; [reflexivity|].
        simpl. exact Hp3.
      - split; [exact He3|]. eauto. }
    destruct H5 as (He5 & q & E5 & Hq). constructor; auto. simpl. rewrite E5. constructor; auto.
  - assert (HI : inl_state wf_inl (mkl KListItem None l) up (parse_inline text s2)).
    { apply parse_inline_inv. constructor; auto. exists ch. repeat split; auto. congruence. }
    destruct HI as [He3 (ch' & E3 & Hp3 & _)].
    match goal with |- blk_state (set_txt false ?s4) => set (s5 := s4) end.
    assert (H5 : s5 = parse_inline text s2).
    { unfold s5, cur_kind. rewrite E3. simpl. rewrite andb_false_r. reflexivity. }
    rewrite H5. constructor; auto. simpl. rewrite E3. constructor; auto.
Qed.

Lemma find_list_ok : forall level n k m h, up_ok true k -> find_list level n k = Some (m, h) ->
  hk h = KDocument \/ exists j, m = (n + j)%nat /\ up_ok true (pop_n j k).
Proof.
  intros level n k. revert n. remember (List.length k) as len eqn:El. revert k El.
  induction len as [len IH] using (well_founded_induction lt_wf).
  intros k El n m h Hk Hf. inversion Hk as [| k0 l its up Hk0 Hi Hu | ]; subst k.
  cbn [find_list] in Hf. destruct (_ || _) eqn:E.
  - inversion Hf; subst. right. exists O. split; [lia | exact Hk].
  - assert (Hu0 := Hu). inversion Hu as [ch Hc| | l' a b up' Ha Hb Hu']; subst up.
    + simpl in Hf. inversion Hf; subst. left. reflexivity.
    + cbn [find_list] in Hf. simpl (hk _) in Hf. cbn in Hf.
      (* close the list, then the item: the stack stays well formed *)
      assert (H2 : up_ok true (pop_n 2 ((mkl k0 None l, its) :: (mkl KListItem None l', b ++ a) :: up'))).
      { apply up_list_close in Hk. simpl in Hk. apply up_item_close in Hk. exact Hk. }
      inversion Hu' as [| k1 l1 its1 up1 Hk1 Hi1 Hu1 | ]; subst up'.
      assert (Hf2 : find_list level (S (S n))
                (pop_n 2 ((mkl k0 None l, its) :: (mkl KListItem None l', b ++ a) :: (mkl k1 None l1, its1) :: up1))
              = Some (m, h)) by exact Hf.
      eapply IH in Hf2; [| |reflexivity |exact H2].
      * destruct Hf2 as [Hd|(j & -> & Hj)]; [left; exact Hd|right].
        exists (S (S j)). split; [lia|]. exact Hj.
      * subst len. simpl. lia.
Qed.

Lemma upto_item_ok : forall s, blk_state s ->
  let s' := upto [KListItem; KDocument] s in
  perr s' = false /\ txt s' = false /\ up_ok false (stk s').
Proof.
  intros s H. unfold upto. apply blk_cleanup in H. set (s1 := cleanup_break s) in *.
  destruct H as [He Ht Hs].
  destruct (stack_cases _ Hs) as [(c & Ek & Hc)|[(p & c & Ek & Hp & Hc)|[(r & c & Ek & Hr & Hc)|(l & c & u & Ek & Hc & Hu)]]];
    rewrite Ek in *; cbn zeta.
  - split; [exact He|]. split; [exact Ht|]. constructor; auto.
  - split; [exact He|]. split; [exact Ht|]. rewrite upto_loop_pop by reflexivity.
    rewrite upto_loop_stay by reflexivity. constructor. simpl. rewrite forallb_rev, Hp, Hc. reflexivity.
  - split; [exact He|]. split; [exact Ht|]. rewrite upto_loop_pop by reflexivity.
    rewrite upto_loop_stay by reflexivity. constructor. simpl. rewrite forallb_rev, Hr, Hc. reflexivity.
  - split; [exact He|]. split; [exact Ht|]. rewrite upto_loop_stay by reflexivity.
    apply (UI l c []); auto.
Qed.

Lemma item_ok : forall s x h t, blk_state s -> group G_item_head x = Some h ->
  group G_item_text x = Some t -> h <> [] -> blk_state (item_repl x s).
Proof.
  intros s x h t H Eh Et Hh. unfold item_repl.
  rewrite (need_some _ _ _ _ _ Eh), (need_some _ _ _ _ _ Et).
  destruct (rev h) as [|b hr] eqn:Er.
  { exfalso. apply Hh. rewrite <- (rev_involutive h), Er. reflexivity. }
  set (k := if b =? 35 then KNumberList else KBulletList).
  assert (Hk : is_list_kind k = true) by (unfold k; destruct (b =? 35); reflexivity).
  clearbody k. clear Er b hr.
  set (level := (List.length h - 1)%nat). clearbody level. cbn zeta.
  match goal with |- blk_state (set_txt false (parse_inline t (open_ _ ?s2))) => set (s1 := s2) end.
  assert (H1 : perr s1 = false /\ txt s1 = false /\ up_ok true (stk s1)).
  { assert (HF : let s' := open_ (mkl k None level) (upto [KListItem; KDocument] s) in
               perr s' = false /\ txt s' = false /\ up_ok true (stk s')).
    { destruct (upto_item_ok _ H) as (He & Ht & Hu). split; [exact He|]. split; [exact Ht|].
      simpl. apply UL; auto. }
    cbn zeta in HF. unfold s1.
    destruct (find_list level 0 (stk s)) as [[m h0]|] eqn:Ef; [|exact HF].
    destruct (kind_beq (hk h0) k) eqn:Ek; [|exact HF]. apply kind_beq_eq in Ek.
    clear HF s1. destruct H as [He Ht Hs]. split; [exact He|]. split; [exact Ht|].
    destruct (stack_cases _ Hs) as [(c & E & Hc)|[(p & c & E & Hp & Hc)|[(r & c & E & Hr & Hc)|(l & c & u & E & Hc & Hu)]]];
      rewrite E in *.
    - simpl in Ef. inversion Ef; subst. simpl in Hk. discriminate.
    - simpl in Ef. inversion Ef; subst. simpl in Hk. discriminate.
    - simpl in Ef. inversion Ef; subst. simpl in Hk. discriminate.
    - assert (Hp : up_ok true (pop1 ((mkl KListItem None l, c) :: u))).
      { apply up_item_close. apply (UI l c []); auto. }
      inversion Hu as [| k1 l1 its1 up1 Hk1 Hi1 Hu1 | ]; subst u.
      assert (Ef2 : find_list level 1 (pop1 ((mkl KListItem None l, c) :: (mkl k1 None l1, its1) :: up1))
                    = Some (m, h0)) by exact Ef.
      destruct (find_list_ok _ _ _ _ _ Hp Ef2) as [Hd|(j & -> & Hj)].
      + rewrite Hd in Ek. subst k. discriminate.
      + exact Hj. }
  clearbody s1. clear s H. destruct H1 as (He & Ht & Hu).
  set (s2 := open_ (mkl KListItem None (level + 1)) s1).
  assert (HI : inl_state wf_inl (mkl KListItem None (level + 1)) (stk s1) (parse_inline t s2)).
  { apply parse_inline_inv. constructor; auto. exists []. repeat split; auto. simpl. congruence. }
  destruct HI as [He3 (ch' & E3 & Hp3 & _)].
  constructor; auto. simpl. rewrite E3. apply SO_li; auto.
Qed.

Lemma list_ok : forall s x l, blk_state s -> group G_list x = Some l -> blk_state (list_repl x s).
Proof.
  intros s x l H El. unfold list_repl. rewrite (need_some _ _ _ _ _ El).
  revert s H. apply fold_inv. intros s y Hy Hs. unfold replace_. rewrite (bs_err _ Hs).
  destruct (item_dispatch _ _ Hy) as (-> & h & t & Eh & Et & Hh). simpl. eapply item_ok; eauto.
Qed.

(** the state between the cells of a row *)
Definition row_state (rows ch : list node) (s : ps) : Prop :=
  perr s = false /\ forallb wf_row rows = true /\ forallb wf_block ch = true /\
  exists cells, forallb wf_cell cells = true /\
    let up := [(mkn KTableRow None, cells); (mkn KTable None, rows); (doc_h, ch)] in
    stk s = up \/
    exists k cch, (k = KTableCell \/ k = KTableHead) /\ forallb wf_inl cch = true /\
      stk s = (mkn k None, cch) :: up.

Lemma row_pop3 : forall rows ch s, row_state rows ch s ->
  perr (pop_to 3 s) = false /\ exists cells, forallb wf_cell cells = true /\
  stk (pop_to 3 s) = [(mkn KTableRow None, cells); (mkn KTable None, rows); (doc_h, ch)].
Proof.
  intros rows ch s (He & _ & _ & cells & Hc & Hs). split; [exact He|].
  destruct Hs as [E|(k & cch & Hk & Hi & E)].
  - exists cells. split; [exact Hc|]. unfold pop_to. rewrite E. reflexivity.
  - exists (Nd (mkn k None) (rev cch) :: cells). split.
    + simpl. rewrite Hc, forallb_rev, Hi. destruct Hk as [->| ->]; reflexivity.
    + unfold pop_to. rewrite E. reflexivity.
Qed.

Lemma cell_ok : forall rows ch s x l, In x (finditer cell_re l) -> row_state rows ch s ->
  row_state rows ch (cell_step 3 s x).
Proof.
  intros rows ch s x l Hx Hs. unfold cell_step.
  destruct (row_pop3 _ _ _ Hs) as (He & cells & Hc & E).
  destruct Hs as (He0 & Hr & Hb & _). rewrite He0. set (s1 := pop_to 3 s) in *. clearbody s1.
  set (up := [(mkn KTableRow None, cells); (mkn KTable None, rows); (doc_h, ch)]) in *.
  cbn zeta. destruct (truthy (group0 G_cell x)) eqn:Et.
  - set (s2 := set_txt false (open_ (mkn KTableCell None) s1)).
    assert (HI : inl_state wf_inl (mkn KTableCell None) up
                   (parse_inline (strip (group0 G_cell x)) s2)).
    { apply parse_inline_inv. constructor; auto. exists []. repeat split; auto.
      - simpl. rewrite E. reflexivity.
      - discriminate. }
    destruct HI as [He3 (cch & E3 & Hi & _)].
    split; [exact He3|]. split; [exact Hr|]. split; [exact Hb|]. exists cells. split; [exact Hc|].
    right. exists KTableCell, cch. auto.
  - destruct (cell_dispatch _ _ Hx) as [Et'|[h Eh]]; [congruence|].
    rewrite (need_some _ _ _ _ _ Eh).
    set (s2 := set_txt true (append_child (Nd (mkn KText (Some [])) []) (open_ (mkn KTableHead None) s1))).
    assert (HI : inl_state wf_inl (mkn KTableHead None) up
                   (parse_inline (strip_chars ($ "= ") h) s2)).
    { apply parse_inline_inv. constructor; auto. exists [Nd (mkn KText (Some [])) []]. repeat split; auto.
      - simpl. rewrite E. reflexivity.
      - intros _. eexists _, _, _. split; [reflexivity|]. split; reflexivity. }
    destruct HI as [He3 (cch & E3 & Hi & _)].
    split; [exact He3|]. split; [exact Hr|]. split; [exact Hb|]. exists cells. split; [exact Hc|].
    right. exists KTableHead, cch. auto.
Qed.

Lemma table_ok : forall s x t, blk_state s -> group G_table x = Some t -> blk_state (table_repl x s).
Proof.
  intros s x t H Et. unfold table_repl. rewrite (need_some _ _ _ _ _ Et).
  assert (H1 : let s1 := upto [KTable; KDocument] s in
               let s2 := if kind_beq (cur_kind s1) KTable then s1 else open_ (mkn KTable None) s1 in
               perr s2 = false /\ txt s2 = false /\
               exists rows ch, stk s2 = [(mkn KTable None, rows); (doc_h, ch)] /\
                 forallb wf_row rows = true /\ forallb wf_block ch = true).
  { unfold upto. apply blk_cleanup in H. set (s1 := cleanup_break s) in *.
    destruct H as [He Ht Hs].
    destruct (stack_cases _ Hs) as [(c & Ek & Hc)|[(p & c & Ek & Hp & Hc)|[(r & c & Ek & Hr & Hc)|(l & c & u & Ek & Hc & Hu)]]];
      rewrite Ek in *; cbn zeta.
    - split; [exact He|]. split; [exact Ht|]. exists [], c. auto.
    - rewrite upto_loop_pop by reflexivity. rewrite upto_loop_stay by reflexivity.
      split; [exact He|]. split; [exact Ht|]. eexists [], _. split; [reflexivity|]. split; [reflexivity|].
      simpl. rewrite forallb_rev, Hp, Hc. reflexivity.
    - rewrite upto_loop_stay by reflexivity.
      split; [exact He|]. split; [exact Ht|]. exists r, c. auto.
    - destruct (up_close [KTable; KDocument] eq_refl eq_refl eq_refl eq_refl _ _ _ _ _ eq_refl
                  (UI l c [] u Hc eq_refl Hu)) as (ch' & E1 & Hc').
      simpl app in E1. rewrite E1.
      split; [exact He|]. split; [exact Ht|]. exists [], ch'. auto. }
  cbn zeta in *.
  match type of H1 with perr ?s2 = false /\ _ => set (s2' := s2) in * end.
  clearbody s2'. destruct H1 as (He & Ht & rows & ch & E & Hr & Hb).
  rewrite E. cbn [List.length].
  assert (HR : row_state rows ch (fold_left (cell_step 3) (finditer cell_re (strip t)) (open_ (mkn KTableRow None) s2'))).
  { apply fold_inv.
    - intros. eapply cell_ok; eauto.
    - split; [exact He|]. split; [exact Hr|]. split; [exact Hb|]. exists []. split; [reflexivity|].
      left. simpl. rewrite E. reflexivity. }
  destruct HR as (He3 & _ & _ & cells & Hc & Hs). set (s3 := fold_left _ _ _) in *.
  constructor; [exact He3 | reflexivity |].
  destruct Hs as [E3|(k & cch & Hk & Hi & E3)]; unfold pop_to; simpl; rewrite E3; simpl.
  - constructor; auto. simpl. rewrite forallb_rev, Hc, Hr. reflexivity.
  - constructor; auto. simpl. rewrite Hr, andb_true_r. rewrite forallb_app, forallb_rev, Hc. simpl.
    rewrite forallb_rev, Hi. destruct Hk as [->| ->]; reflexivity.
Qed.

Lemma block_case_ok : forall x g s, block_case x g -> blk_state s -> blk_state (block_handler g x s).
Proof.
  intros x g s Hc Hs.
  destruct Hc as [n a t En Ea Et| |t h Et Eh Hh| |t Et|l El|t Et|t g Et Hg]; simpl.
  - unfold macro_block_repl. rewrite (need_some _ _ _ _ _ En), (need_some _ _ _ _ _ Ea), (need_some _ _ _ _ _ Et).
    assert (Hd := upto_block_ok _ Hs). destruct Hd as (He & Ht & ch & E & Hc).
    unfold pop_to, add_macro, append_child. rewrite E. simpl.
    constructor; auto. simpl. constructor. simpl. exact Hc.
  - apply at_doc_blk, at_doc_app; [apply upto_block_ok; exact Hs | reflexivity].
  - unfold head_repl. rewrite (need_some _ _ _ _ _ Et), (need_some _ _ _ _ _ Eh).
    apply at_doc_blk, at_doc_settxt, at_doc_app; [apply upto_block_ok; exact Hs|].
    destruct h; [congruence | reflexivity].
  - apply at_doc_blk, at_doc_app; [apply upto_block_ok; exact Hs | reflexivity].
  - unfold pre_block_repl. rewrite (need_some _ _ _ _ _ Et).
    apply at_doc_blk, at_doc_settxt, at_doc_app; [apply upto_block_ok; exact Hs | reflexivity].
  - eapply list_ok; eauto.
  - eapply table_ok; eauto.
  - destruct Hg as [->| ->]; simpl; eapply text_ok; eauto.
Qed.
Lemma block_ok : forall blog raw x s, In x (finditer (block_re blog) raw) -> blk_state s ->
  blk_state (replace_ (block_groups blog) block_handler s x).
Proof.
  intros blog raw x s Hx Hs. unfold replace_. rewrite (bs_err _ Hs).
  destruct (block_dispatch _ _ _ Hx) as (g & -> & Hc). apply block_case_ok; assumption.
Qed.

Lemma pop_n_doc : forall k, stack_ok k -> exists ch, pop_n (List.length k - 1) k = [(doc_h, ch)] /\
  forallb wf_block ch = true.
Proof.
  intros k H.
  assert (HU : forall n b k, List.length k = n -> up_ok b k ->
             exists ch, pop_n (n - 1) k = [(doc_h, ch)] /\ forallb wf_block ch = true).
  { clear. induction n; intros b k Hn Hu.
    - destruct k; [inversion Hu | discriminate].
    - inversion Hu as [ch Hc| k0 l its up Hk Hi Hu' | l a bb up Ha Hb Hu']; subst k b.
      + exists ch. inversion Hn; subst n. auto.
      + apply up_list_close in Hu. destruct up as [|[h1 c1] up]; [inversion Hu'|].
        cbn [List.length] in Hn. inversion Hn as [Hn']. simpl in Hu.
        eapply IHn in Hu; [|simpl; exact Hn']. rewrite <- Hn' in Hu.
        replace (S (S (List.length up)) - 1)%nat with (S (List.length up)) by lia.
        replace (S (List.length up) - 1)%nat with (List.length up) in Hu by lia. exact Hu.
      + apply up_item_close in Hu. destruct up as [|[h1 c1] up]; [inversion Hu'|].
        cbn [List.length] in Hn. inversion Hn as [Hn']. simpl in Hu.
        eapply IHn in Hu; [|simpl; exact Hn']. rewrite <- Hn' in Hu.
        replace (S (S (List.length up)) - 1)%nat with (S (List.length up)) by lia.
        replace (S (List.length up) - 1)%nat with (List.length up) in Hu by lia. exact Hu. }
  inversion H as [c Hc|p c Hp Hc|r c Hr Hc|l c u Hc Hu]; subst; simpl.
  - eauto.
  - eexists; split; [reflexivity|]. simpl. rewrite forallb_rev, Hp, Hc. reflexivity.
  - eexists; split; [reflexivity|]. simpl. rewrite forallb_rev, Hr, Hc. reflexivity.
  - destruct (HU _ _ _ eq_refl (UI l c [] u Hc eq_refl Hu)) as (ch & E & Hb). exists ch. split; [exact E | exact Hb].
Qed.

(** Parsing never raises and always gives a well-formed document. *)
Theorem parse_wf : forall blog raw, exists n u, parse blog raw = Some (n, u) /\ wf_doc n = true.
Proof.
  intros blog raw. unfold parse, parse_block.
  assert (H : blk_state (fold_left (replace_ (block_groups blog) block_handler)
                           (finditer (block_re blog) (norm_newlines raw)) init_ps)).
  { apply fold_inv; [intros; eapply block_ok; eauto|]. constructor; auto. constructor. reflexivity. }
  set (s := fold_left _ _ _) in *. destruct H as [He Ht Hs]. unfold finish. rewrite He.
  destruct (pop_n_doc _ Hs) as (ch & E & Hc). unfold pop_to. simpl. rewrite E.
  eexists _, _. split; [reflexivity|]. simpl. rewrite forallb_rev. exact Hc.
Qed.
