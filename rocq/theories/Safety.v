(** * Line endings, totality and safety of creole2html *)
From Coq Require Import String List Arith NArith ZArith Bool Lia.
From Verif Require Import PyStr PyStrFacts GNames Regex RegexFacts Rules DocTree Utils CreoleParser ParserFacts HtmlEmitter HtmlSpec EmitterFacts UsedFacts TotalFacts Spec.
Import ListNotations.
Open Scope N_scope.

(** ** Line endings *)
(** every "\r\n" and every other "\r" becomes "\n" *)
Fixpoint unify (s : str) : str :=
  match s with
  | [] => []
  | c :: t =>
    if c =? 13
    then match t with
         | d :: _ => if d =? 10 then unify t else 10 :: unify t
         | [] => [10]
         end
    else c :: unify t
  end.

(** "\r\n" becomes "\n" *)
Fixpoint crlf (s : str) : str :=
  match s with
  | [] => []
  | c :: t =>
    if c =? 13
    then match t with
         | d :: _ => if d =? 10 then crlf t else c :: crlf t
         | [] => [c]
         end
    else c :: crlf t
  end.

Lemma replace_crlf : forall n s, (List.length s <= n)%nat -> replace [13; 10] [10] s = crlf s.
Proof.
  unfold replace. induction n; intros s Hn.
  - destruct s; [reflexivity | simpl in Hn; lia].
  - destruct s as [|c t]; [reflexivity|]. simpl in Hn.
    cbn [replace_go crlf startswith]. rewrite (N.eqb_sym c 13).
    destruct (13 =? c) eqn:Ec; cbn [andb].
    + destruct t as [|d t']; [apply N.eqb_eq in Ec; subst; reflexivity|].
      rewrite (N.eqb_sym d 10). cbn [startswith andb]. rewrite andb_true_r.
      destruct (10 =? d) eqn:Ed.
      * cbn [List.length pred replace_go app]. simpl in Hn. rewrite IHn by lia.
        apply N.eqb_eq in Ed. subst d. reflexivity.
      * rewrite IHn by (simpl in *; lia). reflexivity.
    + rewrite IHn by lia. reflexivity.
Qed.

Lemma unify_crlf : forall n s, (List.length s <= n)%nat -> flat_map (sub1 13 [10]) (crlf s) = unify s.
Proof.
  induction n; intros s Hn.
  - destruct s; [reflexivity | simpl in Hn; lia].
  - destruct s as [|c t]; [reflexivity|]. simpl in Hn. cbn [crlf unify].
    destruct (c =? 13) eqn:Ec.
    + apply N.eqb_eq in Ec. subst c. destruct t as [|d t']; [reflexivity|].
      destruct (d =? 10) eqn:Ed.
      * apply IHn. lia.
      * cbn [flat_map]. rewrite IHn by lia. reflexivity.
    + cbn [flat_map]. rewrite IHn by lia. unfold sub1. rewrite N.eqb_sym, Ec. reflexivity.
Qed.

Lemma norm_unify : forall s, norm_newlines s = unify s.
Proof.
  intro s. unfold norm_newlines. rewrite (replace_crlf _ s (le_n _)), replace_single.
  apply (unify_crlf _ s (le_n _)).
Qed.

Lemma unify_id : forall s, (forall c, In c s -> c <> 13) -> unify s = s.
Proof.
  induction s as [|c t IH]; intro H; [reflexivity|]. cbn [unify].
  assert (Hc : c <> 13) by (apply H; left; reflexivity).
  apply N.eqb_neq in Hc. rewrite Hc. rewrite IH; [reflexivity|]. intros; apply H; right; assumption.
Qed.

(** text without line ends passes through *)
Lemma unify_app : forall a b, (forall c, In c a -> c <> 13 /\ c <> 10) -> unify (a ++ b) = a ++ unify b.
Proof.
  induction a as [|c a IH]; intros b H; [reflexivity|]. cbn [app unify].
  assert (Hc : c <> 13) by (apply H; left; reflexivity). apply N.eqb_neq in Hc. rewrite Hc.
  rewrite IH; [reflexivity|]. intros; apply H; right; assumption.
Qed.

(** [startswith]/[contains] as propositions *)
Lemma startswith_spec : forall p s, startswith p s = true <-> exists t, s = p ++ t.
Proof.
  induction p as [|x p IH]; intro s.
  - split; [exists s; reflexivity | reflexivity].
  - destruct s as [|y s]; simpl; split; intro H; try discriminate.
    + destruct H as [t H]; discriminate.
    + apply andb_true_iff in H as [H1 H2]. apply N.eqb_eq in H1. apply IH in H2 as [t ->]. subst. exists t; reflexivity.
    + destruct H as [t H]. inversion H; subst. rewrite N.eqb_refl. apply IH. exists t; reflexivity.
Qed.
Lemma contains_spec : forall p s, contains p s = true <-> infix p s.
Proof.
  intros p s. split.
  - induction s as [|c s IH]; intro H; simpl in H; apply orb_true_iff in H as [H|H].
    + apply startswith_spec in H as [t ->]. exists [], t. reflexivity.
    + discriminate.
    + apply startswith_spec in H as [t ->]. exists [], t. reflexivity.
    + apply IH in H as (a & b & ->). exists (c :: a), b. reflexivity.
  - intros (a & b & ->). induction a as [|c a IH].
    + simpl. assert (E : startswith p (p ++ b) = true) by (apply startswith_spec; exists b; reflexivity).
      destruct (p ++ b); simpl; rewrite E; reflexivity.
    + simpl. rewrite IH. apply orb_true_r.
Qed.

(** a word without line ends found after normalising was there before *)
Lemma unify_prefix : forall v s t, (forall c, In c v -> c <> 13 /\ c <> 10) ->
  unify s = v ++ t -> exists t', s = v ++ t'.
Proof.
  induction v as [|x v IH]; intros s t Hv H; [exists s; reflexivity|].
  destruct (Hv x (or_introl eq_refl)) as [Hx1 Hx2].
  destruct s as [|c s]; [discriminate|]. cbn [unify] in H.
  destruct (c =? 13) eqn:Ec.
  - exfalso. destruct s as [|d s]; [inversion H; congruence|]. destruct (d =? 10) eqn:Ed; [|inversion H; congruence].
    apply N.eqb_eq in Ed. subst d. cbn [unify] in H. simpl in H. inversion H; congruence.
  - inversion H; subst. destruct (IH s t) as [t' ->]; [intros; apply Hv; right; assumption | assumption |].
    exists t'. reflexivity.
Qed.
Lemma unify_infix : forall v s, v <> [] -> (forall c, In c v -> c <> 13 /\ c <> 10) ->
  infix v (unify s) -> infix v s.
Proof.
  intros v s Hne Hv.
  assert (HC : forall y t, infix v t -> infix v (y :: t)) by (intros y t (a & b & ->); exists (y :: a), b; reflexivity).
  induction s as [|c s IH]; intros (a & b & H).
  - destruct a, v; simpl in H; try discriminate; congruence.
  - destruct a as [|x a].
    + simpl app in H. apply unify_prefix in H as [t' ->]; [|exact Hv]. exists [], t'. reflexivity.
    + cbn [unify] in H. destruct (c =? 13).
      * destruct s as [|d s].
        { inversion H as [[H1 H2]]. exfalso. destruct a, v; try discriminate; congruence. }
        destruct (d =? 10).
        { apply HC, IH. exists (x :: a), b. exact H. }
        { inversion H as [[H1 H2]]. apply HC, IH. exists a, b. exact H2. }
      * inversion H as [[H1 H2]]. apply HC, IH. exists a, b. exact H2.
Qed.

(** lines with any terminators are unified to the same text *)
Lemma unify_text : forall lines last, Forall (fun x : str * term => no_newline (fst x)) lines -> no_newline last ->
  unambiguous lines -> unify (text_of lines last) = text_of (map (fun x : str * term => (fst x, LF)) lines) last.
Proof.
  induction lines as [|[l t] r IH]; intros last Hl Hlast Hu.
  - unfold text_of. simpl. apply unify_id. intros c Hc. apply Hlast; exact Hc.
  - inversion Hl as [|? ? H1 H2]; subst. simpl in H1.
    assert (Hu' : unambiguous r) by (destruct r as [|[l2 t2] r']; [exact I | apply Hu]).
    specialize (IH last H2 Hlast Hu'). unfold text_of in *. cbn [flat_map map fst snd].
    rewrite <- !app_assoc. rewrite unify_app by (intros c Hc; destruct (H1 c Hc); auto). f_equal.
    rewrite <- IH. set (X := flat_map (fun x => fst x ++ term_str (snd x)) r ++ last) in *.
    destruct t; cbn [term_str app].
    + reflexivity.
    + cbn [unify]. change (13 =? 13) with true. cbn iota. destruct X as [|d X'] eqn:EX; [reflexivity|].
      destruct (d =? 10) eqn:Ed; [|reflexivity]. exfalso. apply N.eqb_eq in Ed. subst d.
      unfold X in EX. clear X IH. destruct r as [|[l2 t2] r'].
      * simpl in EX. subst last. destruct (Hlast 10 (or_introl eq_refl)). congruence.
      * cbn [flat_map fst snd] in EX. destruct l2 as [|d l2].
        -- destruct t2; simpl in EX; try discriminate. apply (proj1 Hu). auto.
        -- simpl in EX. inversion EX; subst. inversion H2 as [|? ? H3 _]; subst.
           destruct (H3 10 (or_introl eq_refl)). congruence.
    + reflexivity.
Qed.

Lemma parse_unify : forall blog s t, unify s = unify t -> parse blog s = parse blog t.
Proof. intros blog s t H. unfold parse. rewrite !norm_unify, H. reflexivity. Qed.
Lemma creole2html_unify : forall o md s t, unify s = unify t -> creole2html o md s = creole2html o md t.
Proof. intros o md s t H. unfold creole2html. rewrite (parse_unify _ _ _ H). reflexivity. Qed.
Lemma unify_lf : forall s, (forall c, In c s -> c <> 13) -> unify s = s.
Proof. exact unify_id. Qed.
Lemma text_lf : forall lines last, Forall (fun x : str * term => no_newline (fst x)) lines -> no_newline last ->
  unify (text_of (map (fun x : str * term => (fst x, LF)) lines) last) = text_of (map (fun x : str * term => (fst x, LF)) lines) last.
Proof.
  intros lines last Hl Hlast. apply unify_id. intros c Hc. unfold text_of in Hc.
  apply in_app_iff in Hc as [Hc|Hc]; [|apply Hlast; exact Hc].
  apply in_flat_map in Hc as ([l t] & Hin & Hc). apply in_map_iff in Hin as ([l' t'] & E & Hin).
  inversion E; subst. simpl in Hc. rewrite Forall_forall in Hl. apply Hl in Hin. simpl in Hin.
  apply in_app_iff in Hc as [Hc|[<-|[]]]; [apply Hin; exact Hc | discriminate].
Qed.
Lemma creole2html_lines : forall o md lines last, Forall (fun x : str * term => no_newline (fst x)) lines -> no_newline last ->
  unambiguous lines ->
  creole2html o md (text_of lines last) = creole2html o md (text_of (map (fun x : str * term => (fst x, LF)) lines) last).
Proof.
  intros. apply creole2html_unify. rewrite unify_text by assumption. rewrite text_lf by assumption. reflexivity.
Qed.

(** ** Names of used macros come from the text *)
Definition tocsafe (w : str) : Prop := ~ infix ($ "toc") w.
Definition V (s : ps) : Prop := ~ In ($ "toc") (used s).

Lemma used_append : forall n s, used (append_child n s) = used s.
Proof. intros n s. unfold append_child. destruct (stk s) as [|[h ch] up]; reflexivity. Qed.
Lemma used_cleanup : forall s, used (cleanup_break s) = used s.
Proof.
  intro s. unfold cleanup_break. destruct (stk s) as [|[h [|n ch]] up]; try reflexivity.
  destruct (kind_beq _ _); reflexivity.
Qed.
Lemma used_upto : forall k s, used (upto k s) = used s.
Proof.
  intros k s. unfold upto. rewrite <- (used_cleanup s). set (s' := cleanup_break s).
  destruct (stk s') as [|[h ch] up]; reflexivity.
Qed.
Lemma used_text : forall w s, used (add_text w s) = used s.
Proof.
  intros w s. unfold add_text. destruct (txt s).
  - destruct (stk s) as [|[h [|[th tch] ch]] up]; try reflexivity. destruct (hcontent th); reflexivity.
  - simpl. apply used_append.
Qed.
Lemma used_need : forall g x s f w, used s = w -> (forall v, used (f v) = w) -> used (need g x s f) = w.
Proof. intros g x s f w H Hf. unfold need. destruct (group g x); auto. Qed.
Lemma used_image : forall x s, used (image_repl x s) = used s.
Proof. intros. unfold image_repl. apply used_need; [reflexivity|]. intro. simpl. apply used_append. Qed.
Lemma used_linebreak : forall s, used (linebreak_repl s) = used s.
Proof. intros. apply used_append. Qed.
Lemma used_char : forall x s, used (char_repl x s) = used s.
Proof. intros. unfold char_repl. apply used_need; [reflexivity|]. intro. apply used_text. Qed.
Lemma used_link : forall x s, used (link_repl x s) = used s.
Proof.
  intros x s. unfold link_repl. apply used_need; [reflexivity|]. intro v. cbn zeta.
  match goal with |- used (set_txt false (pop_to ?d ?s1)) = _ => change (used s1 = used s) end.
  apply fold_inv; [|reflexivity].
  intros s0 y _ H0. unfold replace_. destruct (perr s0); [exact H0|].
  destruct (first_group link_groups y) as [g|]; [|exact H0]. rewrite <- H0. unfold link_text_handler.
  destruct g; try reflexivity; first [apply used_image | apply used_linebreak | apply used_char].
Qed.

Lemma V_inline_f : forall fuel raw s, tocsafe raw -> V s -> V (parse_inline_f fuel raw s).
Proof.
  induction fuel; intros raw s Hr H; [exact H|].
    change (parse_inline_f (S fuel) raw s) with
      (fold_left (replace_ inline_groups (inline_handler (parse_inline_f fuel))) (finditer inline_re raw) s).
    revert s H. apply fold_inv. intros s x Hx H. unfold replace_. destruct (perr s); [exact H|].
    destruct (inline_dispatch _ _ Hx) as (g & -> & Hc).
    assert (HE : forall s', used s' = used s -> V s') by (intros s' E; unfold V; rewrite E; apply H).
    destruct Hc as [v Ev|v Ev|n a t En Ea Et|n a En Ea|v Ev|v Ev|g k gt v Em Ev| |v Ev|v Ev].
    - apply HE. apply used_link.
    - apply HE. simpl. unfold url_repl. apply used_need; [reflexivity|]. intro. destruct (truthy _).
      + apply used_text.
      + simpl. apply used_append.
    - simpl. unfold macro_inline_repl.
      rewrite (need_some _ _ _ _ _ En), (need_some _ _ _ _ _ Ea), (need_some _ _ _ _ _ Et).
      intro Hn. simpl in Hn. rewrite used_append in Hn. apply in_app_iff in Hn as [Hn|[->|[]]]; [auto|].
      apply Hr. eapply caps_infix; eauto.
    - simpl. unfold macro_tag_repl.
      rewrite (need_some _ _ _ _ _ En), (need_some _ _ _ _ _ Ea).
      intro Hn. simpl in Hn. rewrite used_append in Hn. apply in_app_iff in Hn as [Hn|[->|[]]]; [auto|].
      apply Hr. eapply caps_infix; eauto.
    - apply HE. simpl. unfold pre_inline_repl. apply used_need; [reflexivity|]. intro. simpl. apply used_append.
    - apply HE. apply used_image.
    - rewrite (mark_handler _ _ _ _ _ _ Em). unfold inline_mark. rewrite (need_some _ _ _ _ _ Ev).
      match goal with |- V (set_txt false (set_stk _ ?s1)) => change (V s1) end.
      unfold V. rewrite used_upto. apply IHfuel; [|exact H].
      intro Ht. apply Hr. eapply infix_trans; [exact Ht|]. eapply caps_infix; eauto.
    - apply HE. apply used_linebreak.
    - apply HE. simpl. unfold escape_repl. apply used_need; [reflexivity|]. intro. apply used_text.
    - apply HE. apply used_char.
Qed.
Lemma V_inline : forall raw s, tocsafe raw -> V s -> V (parse_inline raw s).
Proof. intros. apply V_inline_f; assumption. Qed.

Lemma tocsafe_infix : forall v w, infix v w -> tocsafe w -> tocsafe v.
Proof. intros v w H Hw Ht. apply Hw. eapply infix_trans; eauto. Qed.
Lemma tocsafe_space : forall w, tocsafe w -> tocsafe (32 :: w).
Proof.
  intros w Hw (a & b & H). destruct a as [|x a]; simpl in H; [discriminate|].
  inversion H. apply Hw. exists a, b. assumption.
Qed.
Lemma strip_by_infix : forall p s, infix (strip_by p s) s.
Proof. intros p s. destruct (strip_split p s) as (a & b & E & _). exists a, b. exact E. Qed.

Lemma V_upto : forall k s, V s -> V (upto k s).
Proof. intros k s H. unfold V. rewrite used_upto. exact H. Qed.
Lemma V_append : forall n s, V s -> V (append_child n s).
Proof. intros n s H. unfold V. rewrite used_append. exact H. Qed.
Lemma V_if : forall (b : bool) s1 s2, V s1 -> V s2 -> V (if b then s1 else s2).
Proof. intros [] s1 s2 H1 H2; assumption. Qed.

Lemma V_item : forall l x s, In x (finditer item_re l) -> tocsafe l -> V s -> V (item_repl x s).
Proof.
  intros l x s Hx Hl H. destruct (item_dispatch _ _ Hx) as (_ & hd & t & Eh & Et & _).
  unfold item_repl. rewrite (need_some _ _ _ _ _ Eh), (need_some _ _ _ _ _ Et).
  destruct (rev hd) as [|b0 br]; [exact H|].
  match goal with |- V (set_txt false ?s1) => change (V s1) end.
  apply V_inline; [eapply tocsafe_infix; [eapply caps_infix; eauto | exact Hl]|].
  assert (HF : forall k n, V (open_ (mkl k None n) (upto [KListItem; KDocument] s))) by (intros; apply (V_upto _ s H)).
  destruct (find_list _ 0 (stk s)) as [[n h]|]; [|apply HF].
  destruct (kind_beq _ _); [exact H | apply HF].
Qed.

Lemma V_cell : forall row d x s, In x (finditer cell_re row) -> tocsafe row -> V s -> V (cell_step d s x).
Proof.
  intros row d x s Hx Hl H. unfold cell_step. destruct (perr s); [exact H|]. cbn zeta.
  destruct (truthy (group0 G_cell x)) eqn:E.
  - apply V_inline; [|exact H]. eapply tocsafe_infix; [apply strip_by_infix|].
    unfold group0 in *. destruct (group G_cell x) eqn:EG; [|discriminate].
    eapply tocsafe_infix; [eapply caps_infix; eauto | exact Hl].
  - unfold need. destruct (group G_head x) eqn:EG; [|exact H].
    apply V_inline; [|unfold V; cbn [used set_txt]; rewrite used_append; exact H]. eapply tocsafe_infix; [apply strip_by_infix|].
    eapply tocsafe_infix; [eapply caps_infix; eauto | exact Hl].
Qed.

Lemma V_block_case : forall x g s, block_case x g -> (forall g v, group g x = Some v -> tocsafe v) -> V s ->
  V (block_handler g x s).
Proof.
  intros x g s Hc Hcap H.
  assert (HU := V_upto [KDocument] s H).
  destruct Hc as [n a t En Ea Et| |t h Et Eh Hne| |t Et|l El|t Et|t g Et Hg]; cbn [block_handler].
  - unfold macro_block_repl. rewrite (need_some _ _ _ _ _ En), (need_some _ _ _ _ _ Ea), (need_some _ _ _ _ _ Et).
    intro Hn. simpl in Hn. rewrite used_append in Hn. apply in_app_iff in Hn as [Hn|[->|[]]].
    + exact (HU Hn).
    + apply (Hcap _ _ En). exists [], []. rewrite app_nil_r. reflexivity.
  - apply V_append; exact HU.
  - unfold head_repl. rewrite (need_some _ _ _ _ _ Et), (need_some _ _ _ _ _ Eh).
    exact (V_append _ _ HU).
  - apply V_append; exact HU.
  - unfold pre_block_repl. rewrite (need_some _ _ _ _ _ Et). exact (V_append _ _ HU).
  - unfold list_repl. rewrite (need_some _ _ _ _ _ El). revert s H HU. intros s H _. revert s H.
    apply fold_inv. intros s y Hy H. unfold replace_. destruct (perr s); [exact H|].
    destruct (item_dispatch _ _ Hy) as (-> & _). simpl. eapply V_item; eauto.
  - unfold table_repl. rewrite (need_some _ _ _ _ _ Et).
    match goal with |- V (set_txt false (pop_to ?d ?s1)) => change (V s1) end.
    apply fold_inv.
    + intros s0 y Hy H0. eapply V_cell; eauto. eapply tocsafe_infix; [apply strip_by_infix | eauto].
    + apply V_if; exact (V_upto _ s H).
  - assert (V (text_repl x s)) as HT; [|destruct Hg as [->| ->]; exact HT].
    unfold text_repl.
    assert (H1 : V (if kind_in (cur_kind s) [KTable; KTableRow; KBulletList; KNumberList] then upto_block s else s))
      by (apply V_if; assumption).
    set (s1 := if kind_in (cur_kind s) _ then _ else _) in *. clearbody s1.
    assert (H2 : V (if kind_in (cur_kind s1) [KDocument] then open_ (mkn KParagraph None) s1 else s1))
      by (apply V_if; exact H1).
    set (s2 := if kind_in (cur_kind s1) _ then _ else _) in *. clearbody s2.
    rewrite (need_some _ _ _ _ _ Et).
    match goal with |- V (set_txt false ?s1) => change (V s1) end.
    assert (H3 : forall w, tocsafe w -> V (parse_inline w s2)) by (intros; apply V_inline; assumption).
    apply V_if; [apply V_append|]; apply H3; destruct (_ && _); try apply tocsafe_space; eauto.
Qed.
Lemma V_block : forall blog raw x s, In x (finditer (block_re blog) raw) -> tocsafe raw -> V s ->
  V (replace_ (block_groups blog) block_handler s x).
Proof.
  intros blog raw x s Hx Hr H. unfold replace_. destruct (perr s); [exact H|].
  destruct (block_dispatch _ _ _ Hx) as (g & -> & Hc). apply V_block_case; [exact Hc| |exact H].
  intros g0 v E. eapply tocsafe_infix; [eapply caps_infix; eauto | exact Hr].
Qed.

Theorem parse_no_toc : forall blog raw n u, contains ($ "toc") raw = false ->
  parse blog raw = Some (n, u) -> ~ In ($ "toc") u.
Proof.
  intros blog raw n u Hc H. unfold parse, finish in H.
  assert (Hs : tocsafe (norm_newlines raw)).
  { rewrite norm_unify. intro Hi. apply unify_infix in Hi.
    - apply contains_spec in Hi. congruence.
    - discriminate.
    - intros c Hin. cbn in Hin. repeat destruct Hin as [<-|Hin]; try destruct Hin; split; discriminate. }
  assert (HV : V (parse_block blog (norm_newlines raw) init_ps)).
  { unfold parse_block. apply fold_inv; [|intros []].
    intros s x Hx H0. eapply V_block; eauto. }
  set (s := parse_block _ _ _) in *. clearbody s. destruct (perr s); [discriminate|].
  destruct (stk (pop_to 1 s)) as [|[h ch] [|? ?]]; try discriminate. inversion H; subst. exact HV.
Qed.
