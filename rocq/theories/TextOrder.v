(** * The parser keeps the order of the text *)
From Coq Require Import String List Arith NArith Bool Lia.
From Verif Require Import PyStr PyStrFacts GNames Regex RegexFacts Rules DocTree CreoleParser ParserFacts HtmlToolsFacts Safety Spec13.
Import ListNotations.
Open Scope N_scope.

(** ** Subsequences *)
Section Subseq.
  Context {A : Type}.
  Implicit Types a b c : list A.
  Lemma ss_refl : forall a, subseq a a.
  Proof. induction a; constructor; assumption. Qed.
  Lemma ss_trans : forall b c, subseq b c -> forall a, subseq a b -> subseq a c.
  Proof.
    intros b c H. induction H as [l|x b c H IH|x b c H IH]; intros a Ha.
    - inversion Ha. constructor.
    - inversion Ha; subst; [constructor | apply ss_keep; auto | apply ss_skip; auto].
    - apply ss_skip. auto.
  Qed.
  Lemma ss_pre : forall p a b, subseq a b -> subseq a (p ++ b).
  Proof. induction p; intros a0 b H; [exact H|]. simpl. apply ss_skip. auto. Qed.
  Lemma ss_app : forall a b, subseq a b -> forall c d, subseq c d -> subseq (a ++ c) (b ++ d).
  Proof.
    intros a b H. induction H as [l|x a b H IH|x a b H IH]; intros c d Hc.
    - simpl. apply ss_pre. exact Hc.
    - simpl. apply ss_keep. auto.
    - simpl. apply ss_skip. auto.
  Qed.
  Lemma ss_infix_l : forall p a q, subseq a (p ++ a ++ q).
  Proof.
    intros. apply ss_pre. rewrite <- (app_nil_r a) at 1. apply ss_app; [apply ss_refl | constructor].
  Qed.
  Lemma ss_app_l : forall a b c, subseq a b -> subseq a (b ++ c).
  Proof. intros a b c H. rewrite <- (app_nil_r a). apply ss_app; [exact H | constructor]. Qed.
End Subseq.

Lemma vis_app : forall a b, visible (a ++ b) = visible a ++ visible b.
Proof. intros a b. unfold visible. apply filter_app. Qed.
Lemma vis_space : forall a, forallb is_space a = true -> visible a = [].
Proof.
  induction a as [|c a IH]; intro H; [reflexivity|]. cbn [forallb] in H. apply andb_true_iff in H as [H1 H2].
  unfold visible. cbn [filter]. rewrite H1. apply IH. exact H2.
Qed.
Lemma ss_vis : forall a b, subseq a b -> subseq (visible a) (visible b).
Proof.
  intros a b H. induction H as [l|x a b H IH|x a b H IH].
  - constructor.
  - unfold visible in *. cbn [filter]. destruct (negb (is_space x)); [apply ss_keep|]; exact IH.
  - unfold visible in *. cbn [filter]. destruct (negb (is_space x)); [apply ss_skip|]; exact IH.
Qed.
Lemma infix_ss : forall v w : str, infix v w -> subseq v w.
Proof. intros v w (a & b & ->). apply ss_infix_l. Qed.
Lemma strip_by_ss : forall p s, subseq (strip_by p s) s.
Proof. intros. apply infix_ss, strip_by_infix. Qed.

(** ** Matches and their groups *)
Lemma finditer_ss : forall r t, subseq (flat_map mtxt (finditer r t)) t.
Proof.
  intros r t. rewrite <- (scan_partition (List.length t) r [] t) at 2 by lia.
  unfold finditer. induction (scan r 0 [] t) as [|[c|y] l IH]; [constructor| |].
  - cbn [flat_map piece_txt app]. apply ss_skip. exact IH.
  - cbn [flat_map piece_txt app]. apply ss_app; [apply ss_refl | exact IH].
Qed.
Lemma grp_infix : forall r t x g v, In x (finditer r t) -> group g x = Some v -> infix v (mtxt x).
Proof.
  intros r t x g v H Hg. apply finditer_In in H as (adv & b' & t' & H & _).
  apply try_at_Mt in H as (s' & _ & _ & _ & _ & _ & F).
  unfold group in Hg.
  induction (mcaps x) as [|[h w] cs IH]; simpl in Hg; [discriminate|].
  inversion F; subst. destruct (gname_beq g h); [inversion Hg; subst; assumption | auto].
Qed.
Lemma grp0_infix : forall r t x g, In x (finditer r t) -> infix (group0 g x) (mtxt x).
Proof.
  intros r t x g H. unfold group0. destruct (group g x) eqn:E; [eapply grp_infix; eauto|].
  exists [], (mtxt x). reflexivity.
Qed.
Lemma resub_ss : forall r f t, (forall x, In x (finditer r t) -> subseq (f x) (mtxt x)) -> subseq (resub r f t) t.
Proof.
  intros r f t H. rewrite <- (scan_partition (List.length t) r [] t) at 2 by lia.
  unfold resub. unfold finditer in H. revert H. induction (scan r 0 [] t) as [|[c|y] l IH]; intro H; [constructor| |].
  - cbn [flat_map piece_txt app]. apply ss_keep. apply IH. intros x Hx. apply H. cbn [flat_map app]. exact Hx.
  - cbn [flat_map piece_txt]. apply ss_app.
    + apply H. left. reflexivity.
    + apply IH. intros x Hx. apply H. right. exact Hx.
Qed.
Lemma seq_inv : forall a b s s', Mt (RSeq a b) s s' -> exists s1, Mt a s s1 /\ Mt b s1 s'.
Proof. intros a b s s' H. inversion H; subst. eauto. Qed.
Lemma grp_inv : forall g r s s', Mt (RGrp g r) s s' -> exists w cs,
  rest s = w ++ rest s' /\ caps s' = (g, w) :: cs ++ caps s /\ (forall h, may r h = false -> cap h (cs ++ caps s) = cap h (caps s)).
Proof.
  intros g r s s' H. inversion H as [| | | | | | |? ? ? s2 H1| | | | | |]; subst.
  destruct (Mt_ext _ _ _ H1) as (w & cs & A & B & C & D). exists w, cs. cbn [rest caps].
  split; [exact A|]. split; [rewrite A, firstn_app_exact, C; reflexivity|].
  intros h Hh. rewrite <- C. exact (Mt_may _ _ _ h H1 Hh).
Qed.
Lemma chr_inv : forall p s s', Mt (RChr p) s s' -> exists c, rest s = c :: rest s' /\ caps s' = caps s.
Proof. intros p s s' H. inversion H; subst. cbn. eauto. Qed.
Lemma tilde_ss : forall t x, In x (finditer pre_escape_re t) -> subseq (remove_tilde x) (mtxt x).
Proof.
  intros t x H. apply finditer_In in H as (adv & b' & t' & H & _).
  apply try_at_Mt in H as (s' & HM & E & _ & C & _ & _).
  unfold remove_tilde, group0, group. rewrite C. unfold pre_escape_re in HM. cbn [seqs] in HM.
  apply seq_inv in HM as (s1 & H1 & HM). assert (s1 = mk b' t' []) by (inversion H1; reflexivity). subst s1. clear H1.
  apply seq_inv in HM as (s2 & H2 & HM). apply grp_inv in H2 as (w1 & cs1 & A1 & C1 & D1).
  apply seq_inv in HM as (s3 & H3 & HM). apply chr_inv in H3 as (c & A2 & C2).
  apply seq_inv in HM as (s4 & H4 & HM). apply grp_inv in H4 as (w2 & cs2 & A3 & C3 & D3).
  assert (s4 = s') by (inversion HM; reflexivity). subst s4.
  rewrite C3. cbn [cap gname_beq].
  rewrite D3 by reflexivity. rewrite C2, C1. cbn [cap gname_beq].
  cbn [rest] in A1. rewrite A1, A2, A3 in E.
  replace (w1 ++ c :: w2 ++ rest s') with ((w1 ++ c :: w2) ++ rest s') in E by (rewrite <- app_assoc; reflexivity).
  apply app_inv_tail in E. rewrite <- E. apply ss_app; [apply ss_refl | apply ss_skip, ss_refl].
Qed.

(** ** The text of the open nodes *)
Lemma texts_eq : forall h ch, texts (Nd h ch) =
  let own := match hcontent h with Some t => t | None => [] end in
  match hk h with
  | KText | KPreBlock | KPreInline | KHeader | KMacroInline | KMacroBlock => own
  | KBreak | KLine | KSeparator => []
  | KLink => match ch with [] => own | _ => flat_map texts ch end
  | _ => flat_map texts ch
  end.
Proof.
  intros h ch. cbn [texts].
  assert (G : (fix go (l : list node) : str := match l with [] => [] | x :: r => texts x ++ go r end) ch = flat_map texts ch).
  { induction ch as [|x r IH]; [reflexivity|]. cbn [flat_map]. rewrite <- IH. reflexivity. }
  rewrite G. reflexivity.
Qed.

Definition holds (h : hdr) : bool :=
  match hk h with
  | KText | KPreBlock | KPreInline | KHeader | KMacroInline | KMacroBlock
  | KBreak | KLine | KSeparator | KLink | KImage => false
  | _ => true
  end.
Definition frame_text (ch : list node) : str := flat_map texts (rev ch).
Fixpoint stext (k : list frame) : str :=
  match k with [] => [] | f :: up => stext up ++ frame_text (snd f) end.
Definition fine (k : list frame) : Prop := k <> [] /\ Forall (fun f : frame => holds (fst f) = true) k.

(** what is added by a step from [s] to [s'] is part of [w] *)
Definition grows (s s' : ps) (w : str) : Prop := fine (stk s) ->
  fine (stk s') /\ exists t, stext (stk s') = stext (stk s) ++ t /\ subseq (visible t) (visible w).

Lemma holds_texts : forall h ch, holds h = true -> texts (Nd h ch) = flat_map texts ch.
Proof. intros h ch H. rewrite texts_eq. unfold holds in H. cbn zeta. destruct (hk h); try discriminate; reflexivity. Qed.

Lemma frame_text_cons : forall n ch, frame_text (n :: ch) = frame_text ch ++ texts n.
Proof. intros. unfold frame_text. cbn [rev]. rewrite flat_map_app. cbn [flat_map]. rewrite app_nil_r. reflexivity. Qed.

Lemma grows_trans : forall s s1 s2 w1 w2, grows s s1 w1 -> grows s1 s2 w2 -> grows s s2 (w1 ++ w2).
Proof.
  intros s s1 s2 w1 w2 H1 H2 F. destruct (H1 F) as (F1 & t1 & E1 & V1). destruct (H2 F1) as (F2 & t2 & E2 & V2).
  split; [exact F2|]. exists (t1 ++ t2). rewrite E2, E1, app_assoc. split; [reflexivity|].
  rewrite !vis_app. apply ss_app; assumption.
Qed.
Lemma grows_weak : forall s s' w w', grows s s' w -> subseq (visible w) (visible w') -> grows s s' w'.
Proof.
  intros s s' w w' H Hw F. destruct (H F) as (F1 & t & E & V1). split; [exact F1|]. exists t.
  split; [exact E|]. eapply ss_trans; eauto.
Qed.
Lemma grows_ss : forall s s' w w', grows s s' w -> subseq w w' -> grows s s' w'.
Proof. intros. eapply grows_weak; [eassumption|]. apply ss_vis. assumption. Qed.
Lemma grows_same : forall s s' w, stk s' = stk s -> grows s s' w.
Proof.
  intros s s' w E F. rewrite E. split; [exact F|]. exists []. rewrite app_nil_r. split; [reflexivity | constructor].
Qed.
Lemma grows_then : forall s s1 s2 w, grows s s1 [] -> grows s1 s2 w -> grows s s2 w.
Proof. intros s s1 s2 w H1 H2. exact (grows_trans _ _ _ [] w H1 H2). Qed.
Lemma grows_after : forall s s1 s2 w, grows s s1 w -> grows s1 s2 [] -> grows s s2 w.
Proof. intros s s1 s2 w H1 H2. rewrite <- (app_nil_r w). eapply grows_trans; eauto. Qed.
Lemma grows_quiet : forall s k, (fine (stk s) -> fine k /\ stext k = stext (stk s)) -> grows s (set_stk k s) [].
Proof.
  intros s k H F. destruct (H F) as [F1 E]. cbn [stk set_stk]. split; [exact F1|]. exists [].
  rewrite app_nil_r. split; [exact E | constructor].
Qed.

Lemma pop1_quiet : forall k, fine k -> fine (pop1 k) /\ stext (pop1 k) = stext k.
Proof.
  intros k [Hn F]. destruct k as [|[h ch] [|[h' ch'] up]]; try (split; [split; assumption | reflexivity]).
  cbn [pop1]. inversion F as [|? ? F1 F2]; subst. inversion F2 as [|? ? F3 F4]; subst. cbn [fst] in *.
  split; [split; [discriminate | constructor; assumption]|].
  cbn [stext snd]. rewrite frame_text_cons, holds_texts by exact F1. unfold frame_text.
  rewrite <- app_assoc. reflexivity.
Qed.
Lemma pop_n_quiet : forall n k, fine k -> fine (pop_n n k) /\ stext (pop_n n k) = stext k.
Proof.
  induction n; intros k F; [split; [exact F | reflexivity]|]. cbn [pop_n].
  destruct (pop1_quiet k F) as [F1 E1]. destruct (IHn _ F1) as [F2 E2]. split; [exact F2 | congruence].
Qed.
Lemma upto_loop_quiet : forall ks up h ch, fine ((h, ch) :: up) ->
  fine (upto_loop ks h ch up) /\ stext (upto_loop ks h ch up) = stext ((h, ch) :: up).
Proof.
  induction up as [|[h' ch'] up IH]; intros h ch F; [split; [exact F | reflexivity]|]. cbn [upto_loop].
  destruct (kind_in (hk h) ks); [split; [exact F | reflexivity]|].
  destruct (pop1_quiet _ F) as [F1 E1]. cbn [pop1] in F1, E1. destruct (IH _ _ F1) as [F2 E2].
  split; [exact F2|]. rewrite E2. exact E1.
Qed.
Lemma grows_pop_to : forall d s, grows s (pop_to d s) [].
Proof. intros d s. unfold pop_to. apply grows_quiet. apply pop_n_quiet. Qed.
Lemma grows_pop1 : forall s, grows s (set_stk (pop1 (stk s)) s) [].
Proof. intros s. apply grows_quiet. apply pop1_quiet. Qed.
Lemma grows_cleanup : forall s, grows s (cleanup_break s) [].
Proof.
  intro s. unfold cleanup_break. destruct (stk s) as [|[h [|[nh nc] ch]] up] eqn:E; try (apply grows_same; reflexivity).
  destruct (kind_beq (nkind (Nd nh nc)) KBreak) eqn:K; [|apply grows_same; reflexivity].
  apply grows_quiet. rewrite E. intros [_ F]. inversion F as [|? ? F1 F2]; subst.
  split; [split; [discriminate | constructor; assumption]|].
  cbn [stext snd]. rewrite frame_text_cons. apply internal_kind_dec_bl in K. cbn [nkind] in K.
  rewrite texts_eq, K. cbn zeta. rewrite app_nil_r. reflexivity.
Qed.
Lemma grows_upto : forall ks s, grows s (upto ks s) [].
Proof.
  intros ks s. unfold upto. eapply grows_then; [apply grows_cleanup|]. set (s1 := cleanup_break s). clearbody s1.
  destruct (stk s1) as [|[h ch] up] eqn:E; [apply grows_same; reflexivity|].
  apply grows_quiet. rewrite E. apply upto_loop_quiet.
Qed.
Lemma grows_open : forall h s, holds h = true -> grows s (open_ h s) [].
Proof.
  intros h s Hh. unfold open_. apply grows_quiet. intros [_ F].
  split; [split; [discriminate | constructor; assumption]|]. cbn [stext snd]. unfold frame_text.
  cbn [rev flat_map]. apply app_nil_r.
Qed.
Lemma grows_append : forall n s, grows s (append_child n s) (texts n).
Proof.
  intros n s. unfold append_child. destruct (stk s) as [|[h ch] up] eqn:E; [apply grows_same; reflexivity|].
  intros [_ F]. rewrite E in *. cbn [stk set_stk]. inversion F as [|? ? F1 F2]; subst.
  split; [split; [discriminate | constructor; assumption]|]. exists (texts n).
  cbn [stext snd]. rewrite frame_text_cons, app_assoc. split; [reflexivity | apply ss_refl].
Qed.
Lemma grows_settxt : forall b s s' w, grows s s' w -> grows s (set_txt b s') w.
Proof. intros b s s' w H F. exact (H F). Qed.
Lemma grows_add_text : forall w s, grows s (add_text w s) w.
Proof.
  intros w s. unfold add_text. destruct (txt s).
  - destruct (stk s) as [|[h [|[th tch] ch]] up] eqn:E; try (apply grows_same; reflexivity).
    destruct (hcontent th) as [c|] eqn:Ec; [|apply grows_same; reflexivity].
    intros [_ F]. rewrite E in *. cbn [stk set_stk]. inversion F as [|? ? F1 F2]; subst.
    split; [split; [discriminate | constructor; assumption]|].
    cbn [stext snd]. rewrite !frame_text_cons, !texts_eq. cbn [hk hcontent]. rewrite Ec. cbn zeta.
    assert (HA : exists t, stext up ++ frame_text ch ++ c ++ w = (stext up ++ frame_text ch ++ c) ++ t /\ subseq (visible t) (visible w)).
    { exists w. split; [rewrite <- !app_assoc; reflexivity | apply ss_refl]. }
    assert (HB : forall x, exists t, stext up ++ frame_text ch ++ x = (stext up ++ frame_text ch ++ x) ++ t /\ subseq (visible t) (visible w)).
    { intro x. exists []. split; [rewrite app_nil_r; reflexivity | constructor]. }
    destruct (hk th); try exact HA; try apply HB. destruct tch; [exact HA | apply HB].
  - apply grows_settxt. eapply grows_ss; [apply grows_append|]. rewrite texts_eq. apply ss_refl.
Qed.
Lemma grows_need : forall g x s f w, (forall v, group g x = Some v -> grows s (f v) w) -> grows s (need g x s f) w.
Proof. intros g x s f w H. unfold need. destruct (group g x); [auto | apply grows_same; reflexivity]. Qed.
Lemma grows_replace : forall gs hd s x w, (forall g, grows s (hd g x s) w) -> grows s (replace_ gs hd s x) w.
Proof.
  intros gs hd s x w H. unfold replace_. destruct (perr s); [apply grows_same; reflexivity|].
  destruct (first_group gs x); [apply H | apply grows_same; reflexivity].
Qed.
Lemma grows_fold : forall (step : ps -> mtch -> ps) l s, (forall s x, In x l -> grows s (step s x) (mtxt x)) ->
  grows s (fold_left step l s) (flat_map mtxt l).
Proof.
  induction l as [|x l IH]; intros s H; [apply grows_same; reflexivity|]. cbn [fold_left flat_map].
  eapply grows_trans; [apply H; left; reflexivity | apply IH; intros; apply H; right; assumption].
Qed.
Lemma grows_scan : forall (step : ps -> mtch -> ps) r t s, (forall s x, In x (finditer r t) -> grows s (step s x) (mtxt x)) ->
  grows s (fold_left step (finditer r t) s) t.
Proof. intros. eapply grows_ss; [apply grows_fold; assumption | apply finditer_ss]. Qed.

(** ** Inline handlers *)
Section Inline.
  Variables (r : regex) (t : str) (x : mtch).
  Hypothesis Hx : In x (finditer r t).
  Let cap_ss : forall g v, group g x = Some v -> subseq v (mtxt x).
  Proof. intros g v H. apply infix_ss. eapply grp_infix; eauto. Qed.
  Let cap0_ss : forall g, subseq (group0 g x) (mtxt x).
  Proof. intros g. apply infix_ss. eapply grp0_infix; eauto. Qed.

  Lemma grows_image : forall s, grows s (image_repl x s) (mtxt x).
  Proof.
    intro s. unfold image_repl. apply grows_need. intros v Hv. cbn zeta. apply grows_settxt.
    eapply grows_ss; [apply grows_append|]. rewrite texts_eq. cbn [hk mkn flat_map app]. rewrite texts_eq. cbn [hk hcontent mkn].
    rewrite app_nil_r. destruct (truthy _); (eapply ss_trans; [|apply strip_by_ss]); auto. eapply cap_ss; eauto.
  Qed.
  Lemma grows_linebreak : forall s w, grows s (linebreak_repl s) w.
  Proof. intros s w. apply grows_settxt. eapply grows_ss; [apply grows_append|]. constructor. Qed.
  Lemma grows_char : forall s, grows s (char_repl x s) (mtxt x).
  Proof. intro s. apply grows_need. intros v Hv. eapply grows_ss; [apply grows_add_text | eapply cap_ss; eauto]. Qed.
  Lemma grows_escape : forall s, grows s (escape_repl x s) (mtxt x).
  Proof. intro s. apply grows_need. intros v Hv. eapply grows_ss; [apply grows_add_text | eapply cap_ss; eauto]. Qed.
  Lemma grows_url : forall s, grows s (url_repl x s) (mtxt x).
  Proof.
    intro s. apply grows_need. intros v Hv. destruct (truthy _).
    - eapply grows_ss; [apply grows_add_text | eapply cap_ss; eauto].
    - apply grows_settxt. eapply grows_ss; [apply grows_append|]. rewrite texts_eq. cbn [hk mkn flat_map app].
      rewrite texts_eq. cbn [hk hcontent mkn]. rewrite app_nil_r. eapply cap_ss; eauto.
  Qed.
  Lemma grows_pre_inline : forall s, grows s (pre_inline_repl x s) (mtxt x).
  Proof.
    intro s. apply grows_need. intros v Hv. apply grows_settxt. eapply grows_ss; [apply grows_append|].
    rewrite texts_eq. eapply cap_ss; eauto.
  Qed.
  Lemma grows_macro : forall k n a o s, k = KMacroInline \/ k = KMacroBlock ->
    match o with Some v => subseq v (mtxt x) | None => True end -> grows s (add_macro k n a o s) (mtxt x).
  Proof.
    intros k n a o s Hk Ho. unfold add_macro. cbn zeta.
    apply (grows_after _ (append_child (Nd (mkh k (option_map strip o) 0 n (strip a)) []) s)); [|apply grows_same; reflexivity].
    eapply grows_ss; [apply grows_append|]. rewrite texts_eq. cbn [hk hcontent].
    assert (HO : subseq (match option_map strip o with Some v => v | None => [] end) (mtxt x)).
    { destruct o as [v|]; [|constructor]. cbn. eapply ss_trans; [exact Ho | apply strip_by_ss]. }
    destruct Hk as [-> | ->]; exact HO.
  Qed.
  Lemma grows_macro_tag : forall s, grows s (macro_tag_repl x s) (mtxt x).
  Proof. intro s. apply grows_need. intros n _. apply grows_need. intros a _. apply grows_macro; auto. Qed.
  Lemma grows_macro_inline : forall s, grows s (macro_inline_repl x s) (mtxt x).
  Proof.
    intro s. apply grows_need. intros n _. apply grows_need. intros a _. apply grows_need. intros v Hv.
    apply grows_macro; [auto | eapply cap_ss; eauto].
  Qed.
End Inline.

(** *** Links: the nodes inside a link are children of the link *)
Definition lgrows (h : hdr) (up : list frame) (s s' : ps) (w : str) : Prop :=
  forall ch, stk s = (h, ch) :: up ->
  exists ch' t, stk s' = (h, ch') :: up /\ frame_text ch' = frame_text ch ++ t /\ subseq (visible t) (visible w).
Lemma lgrows_of : forall s s' w h up, (forall ch, stk s = (h, ch) :: up -> exists ch', stk s' = (h, ch') :: up) ->
  grows (mkps [(mkn KDocument None, match stk s with (_, ch) :: _ => ch | [] => [] end)] (txt s) (used s) (perr s))
        (mkps [(mkn KDocument None, match stk s' with (_, ch) :: _ => ch | [] => [] end)] (txt s') (used s') (perr s')) w ->
  lgrows h up s s' w.
Proof.
  intros s s' w h up Hs G ch E. destruct (Hs ch E) as [ch' E']. exists ch'. rewrite E, E' in G.
  destruct G as (_ & t & Et & Vt); [split; [discriminate | repeat constructor]|].
  exists t. cbn [stk stext snd app] in Et. auto.
Qed.
Lemma lgrows_append : forall h up n s, lgrows h up s (append_child n s) (texts n).
Proof.
  intros h up n s ch E. unfold append_child. rewrite E. exists (n :: ch), (texts n).
  rewrite frame_text_cons. repeat split; apply ss_refl.
Qed.
Lemma lgrows_ss : forall h up s s' w w', lgrows h up s s' w -> subseq w w' -> lgrows h up s s' w'.
Proof.
  intros h up s s' w w' H Hw ch E. destruct (H ch E) as (ch' & t & A & B & C). exists ch', t. repeat split; auto.
  eapply ss_trans; [apply ss_vis; exact Hw | exact C].
Qed.
Lemma lgrows_same : forall h up s s' w, stk s' = stk s -> lgrows h up s s' w.
Proof. intros h up s s' w H ch E. exists ch, []. rewrite H, app_nil_r. repeat split; [exact E | constructor]. Qed.
Lemma lgrows_text : forall h up w s, lgrows h up s (add_text w s) w.
Proof.
  intros h up w s. unfold add_text. destruct (txt s).
  - destruct (stk s) as [|[h0 [|[th tch] ch0]] up0] eqn:E; try (apply lgrows_same; reflexivity).
    destruct (hcontent th) as [c|] eqn:Ec; [|apply lgrows_same; reflexivity].
    intros ch E0. rewrite E in E0. inversion E0; subst. cbn [stk set_stk].
    exists (Nd (mkh (hk th) (Some (c ++ w)) (hlevel th) (hmname th) (hmargs th)) tch :: ch0).
    rewrite !frame_text_cons, !texts_eq. cbn [hk hcontent]. rewrite Ec. cbn zeta.
    assert (HA : exists t, (h, Nd (mkh (hk th) (Some (c ++ w)) (hlevel th) (hmname th) (hmargs th)) tch :: ch0) :: up =
       (h, Nd (mkh (hk th) (Some (c ++ w)) (hlevel th) (hmname th) (hmargs th)) tch :: ch0) :: up /\
       frame_text ch0 ++ c ++ w = (frame_text ch0 ++ c) ++ t /\ subseq (visible t) (visible w)).
    { exists w. repeat split; [rewrite <- !app_assoc; reflexivity | apply ss_refl]. }
    assert (HB : forall x, exists t, (h, Nd (mkh (hk th) (Some (c ++ w)) (hlevel th) (hmname th) (hmargs th)) tch :: ch0) :: up =
       (h, Nd (mkh (hk th) (Some (c ++ w)) (hlevel th) (hmname th) (hmargs th)) tch :: ch0) :: up /\
       frame_text ch0 ++ x = (frame_text ch0 ++ x) ++ t /\ subseq (visible t) (visible w)).
    { intro x. exists []. repeat split; [rewrite app_nil_r; reflexivity | constructor]. }
    destruct (hk th); try exact HA; try apply HB. destruct tch; [exact HA | apply HB].
  - intros ch E. destruct (lgrows_append h up (Nd (mkn KText (Some w)) []) s ch E) as (ch' & t & A & B & C).
    exists ch', t. rewrite texts_eq in C. auto.
Qed.
Lemma lgrows_scan : forall h up (step : ps -> mtch -> ps) l s, (forall s x, In x l -> lgrows h up s (step s x) (mtxt x)) ->
  lgrows h up s (fold_left step l s) (flat_map mtxt l).
Proof.
  induction l as [|x l IH]; intros s H; [apply lgrows_same; reflexivity|]. cbn [fold_left flat_map].
  intros ch E. destruct (H s x (or_introl eq_refl) ch E) as (ch1 & t1 & A1 & B1 & C1).
  destruct (IH (step s x) (fun s y Hy => H s y (or_intror Hy)) ch1 A1) as (ch2 & t2 & A2 & B2 & C2).
  exists ch2, (t1 ++ t2). split; [exact A2|]. rewrite B2, B1, app_assoc. split; [reflexivity|].
  rewrite !vis_app. apply ss_app; assumption.
Qed.
Lemma lgrows_link_text : forall h up t x s, In x (finditer link_re t) ->
  lgrows h up s (replace_ link_groups link_text_handler s x) (mtxt x).
Proof.
  intros h up t x s Hx. unfold replace_. destruct (perr s); [apply lgrows_same; reflexivity|].
  destruct (first_group link_groups x) as [g|]; [|apply lgrows_same; reflexivity].
  assert (HI : lgrows h up s (image_repl x s) (mtxt x)).
  { unfold image_repl, need. destruct (group G_image_target x) as [v|] eqn:Ev; [|apply lgrows_same; reflexivity].
    cbn zeta. intros ch E. match goal with |- context [append_child ?n s] => destruct (lgrows_append h up n s ch E) as (ch' & u & A & B & C) end.
    exists ch', u. split; [exact A|]. split; [exact B|]. eapply ss_trans; [|exact C]. apply ss_vis.
    rewrite texts_eq. cbn [hk mkn flat_map app]. rewrite texts_eq. cbn [hk hcontent mkn].
    rewrite app_nil_r. destruct (truthy _); (eapply ss_trans; [|apply strip_by_ss]); apply infix_ss;
      [eapply grp0_infix; eauto | eapply grp_infix; eauto]. }
  assert (HL : lgrows h up s (linebreak_repl s) (mtxt x)).
  { intros ch E. destruct (lgrows_append h up (Nd (mkn KBreak None) []) s ch E) as (ch' & u & A & B & C).
    exists ch', u. split; [exact A|]. split; [exact B|]. eapply ss_trans; [|exact C]. constructor. }
  assert (HC : lgrows h up s (char_repl x s) (mtxt x)).
  { unfold char_repl, need. destruct (group G_char x) as [v|] eqn:Ev; [|apply lgrows_same; reflexivity].
    eapply lgrows_ss; [apply lgrows_text|]. apply infix_ss. eapply grp_infix; eauto. }
  unfold link_text_handler. destruct g; try (apply lgrows_same; reflexivity); assumption.
Qed.
Lemma grows_link : forall r t x s, In x (finditer r t) -> grows s (link_repl x s) (mtxt x).
Proof.
  intros r t x s Hx. unfold link_repl. apply grows_need. intros target Et. cbn zeta. apply grows_settxt.
  set (txt0 := strip (group0 G_link_text x)).
  set (s1 := set_txt false (open_ (mkn KLink (Some target)) s)).
  destruct (lgrows_scan (mkn KLink (Some target)) (stk s) (replace_ link_groups link_text_handler) (finditer link_re txt0) s1
              (fun s y Hy => lgrows_link_text _ _ txt0 y s Hy) [] eq_refl) as (ch & u & A & B & C).
  set (s2 := fold_left _ _ s1) in *. clearbody s2. intros [Hne F].
  destruct (stk s) as [|[h0 ch0] up] eqn:Es; [congruence|].
  unfold pop_to. rewrite A. cbn [stk set_stk List.length].
  replace (S (S (List.length up)) - S (List.length up))%nat with 1%nat by lia. cbn [pop_n pop1].
  inversion F as [|? ? F1 F2]; subst.
  split; [split; [discriminate | constructor; assumption]|].
  exists (texts (Nd (mkn KLink (Some target)) (rev ch))). cbn [stext snd]. rewrite frame_text_cons, app_assoc.
  split; [reflexivity|]. rewrite texts_eq. cbn [hk mkn hcontent].
  destruct (rev ch) as [|n l] eqn:Er.
  - apply ss_vis, infix_ss. eapply grp_infix; eauto.
  - rewrite <- Er. fold (frame_text ch). rewrite B. unfold frame_text at 1. cbn [rev flat_map app].
    eapply ss_trans; [|exact C]. apply ss_vis. eapply ss_trans; [|apply finditer_ss].
    unfold txt0. eapply ss_trans; [|apply strip_by_ss]. apply infix_ss. eapply grp0_infix; eauto.
Qed.

(** *** Typefaces and the inline parser *)
Lemma grows_mark : forall r t x pi k gt s, In x (finditer r t) -> (forall w s, grows s (pi w s) w) ->
  holds (mkn k None) = true -> grows s (inline_mark pi k gt x s) (mtxt x).
Proof.
  intros r t x pi k gt s Hx Hpi Hk. unfold inline_mark. cbn zeta.
  eapply grows_then; [apply (grows_settxt false); apply grows_open; exact Hk|].
  set (s1 := set_txt false (open_ (mkn k None) s)). clearbody s1.
  apply grows_need. intros v Hv. apply grows_settxt.
  eapply grows_after; [|apply grows_pop1]. eapply grows_after; [|apply grows_upto].
  eapply grows_ss; [apply Hpi|]. apply infix_ss. eapply grp_infix; eauto.
Qed.
Lemma grows_inline_f : forall fuel raw s, grows s (parse_inline_f fuel raw s) raw.
Proof.
  induction fuel; intros raw s; [apply grows_same; reflexivity|].
  change (parse_inline_f (S fuel) raw s) with
    (fold_left (replace_ inline_groups (inline_handler (parse_inline_f fuel))) (finditer inline_re raw) s).
  apply grows_scan. clear s. intros s x Hx. apply grows_replace. intro g.
  assert (HM : forall k gt, holds (mkn k None) = true -> grows s (inline_mark (parse_inline_f fuel) k gt x s) (mtxt x)).
  { intros k gt Hk. eapply grows_mark; eauto. }
  destruct g; cbn [inline_handler]; try (apply grows_same; reflexivity); try (apply HM; reflexivity);
    first [ eapply grows_link | eapply grows_url | eapply grows_macro_inline | eapply grows_macro_tag | eapply grows_pre_inline
          | eapply grows_image | eapply grows_escape | eapply grows_char | apply grows_linebreak ]; eauto.
Qed.
Lemma grows_inline : forall raw s, grows s (parse_inline raw s) raw.
Proof. intros. apply grows_inline_f. Qed.

(** ** Block handlers *)
Lemma grows_if : forall (b : bool) s s1 s2 w, grows s s1 w -> grows s s2 w -> grows s (if b then s1 else s2) w.
Proof. intros [] s s1 s2 w H1 H2; assumption. Qed.
Lemma grows_refl : forall s w, grows s s w.
Proof. intros. apply grows_same. reflexivity. Qed.

Lemma grows_item : forall r t x s, In x (finditer r t) -> grows s (item_repl x s) (mtxt x).
Proof.
  intros r t x s Hx. unfold item_repl. apply grows_need. intros bl _. apply grows_need. intros text Ht.
  destruct (rev bl) as [|b br]; [apply grows_same; reflexivity|]. cbn zeta. apply grows_settxt.
  match goal with |- grows s (parse_inline text ?s1) _ => assert (H1 : grows s s1 []) end.
  { eapply grows_then; [|apply grows_open; reflexivity].
    assert (HF : forall k n, holds (mkl k None n) = true -> grows s (open_ (mkl k None n) (upto [KListItem; KDocument] s)) []).
    { intros k n Hk. eapply grows_then; [apply grows_upto | apply grows_open; exact Hk]. }
    assert (HK : forall n, holds (mkl (if b =? 35 then KNumberList else KBulletList) None n) = true)
      by (intro; destruct (b =? 35); reflexivity).
    destruct (find_list _ 0 (stk s)) as [[n h]|]; [|apply HF, HK].
    apply grows_if; [apply grows_quiet; apply pop_n_quiet | apply HF, HK]. }
  eapply grows_then; [exact H1|]. eapply grows_ss; [apply grows_inline|].
  apply infix_ss. eapply grp_infix; eauto.
Qed.
Lemma grows_cell : forall r t x d s, In x (finditer r t) -> grows s (cell_step d s x) (mtxt x).
Proof.
  intros r t x d s Hx. unfold cell_step. destruct (perr s); [apply grows_refl|]. cbn zeta.
  eapply grows_then; [apply (grows_pop_to d)|]. set (s1 := pop_to d s). clearbody s1.
  destruct (truthy (group0 G_cell x)).
  - eapply grows_then; [apply (grows_settxt false), (grows_open (mkn KTableCell None)); reflexivity|].
    eapply grows_ss; [apply grows_inline|]. eapply ss_trans; [|apply strip_by_ss]. apply infix_ss. eapply grp0_infix; eauto.
  - apply grows_need. intros h Hh.
    eapply grows_then; [apply (grows_settxt true)|].
    { eapply grows_then; [apply (grows_open (mkn KTableHead None)); reflexivity|].
      eapply grows_ss; [apply (grows_append (Nd (mkn KText (Some [])) []))|]. constructor. }
    eapply grows_ss; [apply grows_inline|]. eapply ss_trans; [|apply strip_by_ss]. apply infix_ss. eapply grp_infix; eauto.
Qed.
Lemma grows_table : forall r t x s, In x (finditer r t) -> grows s (table_repl x s) (mtxt x).
Proof.
  intros r t x s Hx. unfold table_repl. apply grows_need. intros v Hv. cbn zeta. apply grows_settxt.
  eapply grows_after; [|apply grows_pop_to].
  match goal with |- grows s (fold_left _ _ (open_ _ ?s1)) _ => assert (H1 : grows s s1 []); [|set (s2 := s1) in *; clearbody s2] end.
  { set (s0 := upto [KTable; KDocument] s). assert (H0 : grows s s0 []) by apply grows_upto. clearbody s0.
    apply grows_if; [exact H0|]. eapply grows_then; [exact H0 | apply grows_open; reflexivity]. }
  eapply grows_then; [exact H1|]. eapply grows_then; [apply (grows_open (mkn KTableRow None)); reflexivity|].
  eapply grows_ss; [apply grows_scan|].
  - intros s3 y Hy. eapply grows_cell; eauto.
  - eapply ss_trans; [|apply strip_by_ss]. apply infix_ss. eapply grp_infix; eauto.
Qed.
Lemma vis_cons_space : forall w, visible (32 :: w) = visible w.
Proof. reflexivity. Qed.
Lemma grows_block : forall r t x s g, In x (finditer r t) -> grows s (block_handler g x s) (mtxt x).
Proof.
  intros r t x s g Hx.
  assert (HM : grows s (macro_block_repl x s) (mtxt x)).
  { unfold macro_block_repl. cbn zeta. eapply grows_then; [apply (grows_upto [KDocument])|].
    eapply grows_then; [apply (grows_pop_to 1)|]. apply grows_need. intros n _. apply grows_need. intros a _. apply grows_need. intros v Hv.
    apply grows_macro; [auto|]. apply infix_ss. eapply grp_infix; eauto. }
  assert (HL : grows s (line_repl s) (mtxt x)).
  { unfold line_repl. eapply grows_then; [apply (grows_upto [KDocument])|]. eapply grows_ss; [apply grows_append | constructor]. }
  assert (HS : grows s (separator_repl s) (mtxt x)).
  { unfold separator_repl. eapply grows_then; [apply (grows_upto [KDocument])|]. eapply grows_ss; [apply grows_append | constructor]. }
  assert (HH : grows s (head_repl x s) (mtxt x)).
  { unfold head_repl. cbn zeta. eapply grows_then; [apply (grows_upto [KDocument])|]. apply grows_need. intros v Hv.
    apply grows_need. intros h _. apply grows_settxt. eapply grows_ss; [apply grows_append|]. rewrite texts_eq.
    cbn [hk mkl hcontent]. eapply ss_trans; [|apply strip_by_ss]. apply infix_ss. eapply grp_infix; eauto. }
  assert (HP : grows s (pre_block_repl x s) (mtxt x)).
  { unfold pre_block_repl. cbn zeta. eapply grows_then; [apply (grows_upto [KDocument])|]. apply grows_need. intros v Hv.
    apply grows_settxt. eapply grows_ss; [apply grows_append|]. rewrite texts_eq. cbn [hk mkn hcontent].
    eapply ss_trans; [|apply resub_ss; apply tilde_ss]. apply infix_ss. eapply grp_infix; eauto. }
  assert (HI : grows s (list_repl x s) (mtxt x)).
  { unfold list_repl. apply grows_need. intros v Hv. eapply grows_ss; [apply grows_scan|].
    - intros s0 y Hy. apply grows_replace. intro g0.
      assert (HI : grows s0 (item_repl y s0) (mtxt y)) by (eapply grows_item; eauto).
      destruct g0; cbn [item_handler]; first [exact HI | apply grows_same; reflexivity].
    - apply infix_ss. eapply grp_infix; eauto. }
  assert (HT := grows_table r t x s Hx).
  assert (HX : grows s (text_repl x s) (mtxt x)).
  { unfold text_repl.
    assert (H1 : grows s (if kind_in (cur_kind s) [KTable; KTableRow; KBulletList; KNumberList] then upto_block s else s) [])
      by (apply grows_if; [apply grows_upto | apply grows_refl]).
    set (s1 := if kind_in (cur_kind s) _ then _ else _) in *. clearbody s1. cbn zeta.
    eapply grows_then; [exact H1|].
    assert (H2 : grows s1 (if kind_in (cur_kind s1) [KDocument] then open_ (mkn KParagraph None) s1 else s1) [])
      by (apply grows_if; [apply grows_open; reflexivity | apply grows_refl]).
    set (s2 := if kind_in (cur_kind s1) _ then _ else _) in *. clearbody s2.
    eapply grows_then; [exact H2|]. apply grows_need. intros v Hv. apply grows_settxt.
    set (b := (_ && negb _)%bool).
    assert (H3 : grows s2 (parse_inline (if b then 32 :: v else v) s2) (mtxt x)).
    { eapply grows_weak; [apply grows_inline|]. eapply ss_trans; [apply ss_vis, infix_ss; eapply grp_infix; eauto|].
      destruct b; [rewrite vis_cons_space|]; apply ss_refl. }
    set (s3 := parse_inline _ s2) in *. clearbody s3.
    apply grows_if; [|exact H3]. eapply grows_after; [exact H3|]. eapply grows_ss; [apply grows_append | constructor]. }
  destruct g; cbn [block_handler]; first [assumption | apply grows_same; reflexivity].
Qed.

(** ** The whole document *)
Lemma vis_unify : forall n s, (List.length s <= n)%nat -> visible (unify s) = visible s.
Proof.
  induction n; intros s Hn; [destruct s; [reflexivity | cbn [List.length] in Hn; lia]|].
  destruct s as [|c s]; [reflexivity|]. cbn [List.length] in Hn. cbn [unify]. destruct (c =? 13) eqn:Ec.
  - apply N.eqb_eq in Ec. subst c. change (visible (13 :: s)) with (visible s). rewrite <- (IHn s) by lia.
    destruct s as [|d s]; [reflexivity|]. destruct (d =? 10) eqn:Ed; reflexivity.
  - unfold visible in *. cbn [filter]. rewrite (IHn s) by lia. reflexivity.
Qed.
Theorem text_order : forall blog raw n u, parse blog raw = Some (n, u) ->
  subseq (visible (texts n)) (visible raw).
Proof.
  intros blog raw n u H. unfold parse, finish in H.
  rewrite <- (vis_unify (List.length raw) raw) by lia. rewrite <- norm_unify.
  assert (G : grows init_ps (parse_block blog (norm_newlines raw) init_ps) (norm_newlines raw)).
  { unfold parse_block. apply grows_scan. intros s x Hx. apply grows_replace. intro g. eapply grows_block; eauto. }
  set (s := parse_block _ _ _) in *. clearbody s. destruct (perr s); [discriminate|].
  assert (G2 := grows_after _ _ _ _ G (grows_pop_to 1 s)).
  destruct (stk (pop_to 1 s)) as [|[h ch] [|? ?]] eqn:E; try discriminate. inversion H; subst. clear H.
  destruct G2 as ([_ F] & t & Et & Vt); [split; [discriminate | repeat constructor]|]. rewrite E in *.
  inversion F as [|? ? F1 _]; subst. rewrite holds_texts by exact F1.
  cbn [stk init_ps stext snd app] in Et. fold (frame_text ch). rewrite Et. exact Vt.
Qed.
