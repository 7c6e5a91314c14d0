(** * The size of a page: line breaks in list items, and the whole page *)
From Coq Require Import String List Arith NArith ZArith Bool Lia.
From Verif Require Import PyStr PyStrFacts Utils GNames Regex RegexFacts Rules DocTree CreoleParser ParserFacts
  HtmlEmitter EmitterFacts Spec Spec13 Safety C2H Spec4 Spec5 Spec39 FreeList Spec49 MarksFacts TextOrder SizeFacts SizeEmit.
Import ListNotations.
Open Scope nat_scope.

(** ** Without line break marks no list item has a line break *)
Lemma inline_break_mark : forall raw x, In x (finditer inline_re raw) -> first_group inline_groups x = Some G_linebreak -> infix [92; 92]%N raw.
Proof.
  intros raw x Hx Hg.
  destruct (MarksFacts.first_some _ _ _ Hg) as [v HG]. eapply infix_trans; [|eapply caps_infix; eauto].
  eapply (MarksFacts.finditer_capsat G_linebreak (infix [92; 92]%N)); [exact Hx| |exact HG].
  cbn -[lit MarksFacts.must]; repeat split; try exact I; intros; eapply MarksFacts.must_cap; [|eassumption|eassumption]. apply MarksFacts.must_last.
Qed.
Lemma link_break_mark : forall raw x, In x (finditer link_re raw) -> first_group link_groups x = Some G_linebreak -> infix [92; 92]%N raw.
Proof.
  intros raw x Hx Hg.
  destruct (MarksFacts.first_some _ _ _ Hg) as [v HG]. eapply infix_trans; [|eapply caps_infix; eauto].
  eapply (MarksFacts.finditer_capsat G_linebreak (infix [92; 92]%N)); [exact Hx| |exact HG].
  cbn -[lit MarksFacts.must]; repeat split; try exact I; intros; eapply MarksFacts.must_cap; [|eassumption|eassumption]. apply MarksFacts.must_last.
Qed.

Definition li_ok (h : hdr) (ch : list node) : Prop := hk h = KListItem -> Forall (fun n => nkind n <> KBreak) ch.
Definition nok (n : node) : Prop := match n with Nd h ch => li_ok h ch end.
Definition fok (f : frame) : Prop := hk (fst f) <> KBreak /\ li_ok (fst f) (snd f) /\ Forall (everywhere nok) (snd f).
Definition Q (s : ps) : Prop := Forall fok (stk s).

Lemma Q_append : forall n s, everywhere nok n -> (nkind n = KBreak -> cur_kind s <> KListItem) -> Q s -> Q (append_child n s).
Proof.
  intros n s Hn Hb H. unfold append_child, cur_kind, Q in *.
  destruct (stk s) as [|[h ch] up] eqn:E; [cbn [raise_ stk]; rewrite E; exact H|].
  cbn [stk set_stk]. inversion H as [|? ? (H0 & H1 & H2) H3]; subst. constructor; [|exact H3]. split; [exact H0|]. cbn [fst snd] in *.
  split; [|constructor; assumption]. intro Hk. constructor; [|exact (H1 Hk)]. intro K. exact (Hb K Hk).
Qed.
Lemma Q_open : forall h s, hk h <> KBreak -> Q s -> Q (open_ h s).
Proof. intros h s Hh H. constructor; [|exact H]. split; [exact Hh|]. split; [intros _; constructor | constructor]. Qed.
Lemma R_pop1 : forall k, Forall fok k -> Forall fok (pop1 k).
Proof.
  intros k H. destruct k as [|[h ch] [|[h' ch'] up]]; try exact H. cbn [pop1].
  inversion H as [|? ? (H0 & H1 & H2) H3]; subst. inversion H3 as [|? ? (H4 & H5 & H6) H7]; subst. cbn [fst snd] in *.
  constructor; [|exact H7]. split; [exact H4|]. cbn [fst snd]. split.
  - intro Hk. constructor; [exact H0 | exact (H5 Hk)].
  - constructor; [|exact H6]. apply everywhere_intro; [|apply Forall_rev; exact H2]. intro Hk. apply Forall_rev. exact (H1 Hk).
Qed.
Lemma R_pop_n : forall n k, Forall fok k -> Forall fok (pop_n n k).
Proof. induction n; intros k H; [exact H|]. cbn [pop_n]. apply IHn, R_pop1, H. Qed.
Lemma Q_pop_to : forall d s, Q s -> Q (pop_to d s).
Proof. intros d s H. apply R_pop_n. exact H. Qed.
Lemma R_upto : forall kinds up h ch, Forall fok ((h, ch) :: up) -> Forall fok (upto_loop kinds h ch up).
Proof.
  induction up as [|[h' ch'] up IH]; intros h ch H; [exact H|]. cbn [upto_loop].
  destruct (kind_in (hk h) kinds); [exact H|]. apply IH. apply (R_pop1 _ H).
Qed.
Lemma Q_cleanup : forall s, Q s -> Q (cleanup_break s).
Proof.
  intros s H. unfold cleanup_break, Q in *.
  destruct (stk s) as [|[h [|n ch]] up] eqn:E; try (rewrite E; exact H).
  destruct (kind_beq (nkind n) KBreak); [|rewrite E; exact H]. cbn [stk set_stk].
  inversion H as [|? ? (H0 & H1 & H2) H3]; subst. constructor; [|exact H3]. cbn [fst snd] in *. split; [exact H0|].
  inversion H2; subst. split; [|assumption]. intro Hk. specialize (H1 Hk). inversion H1; assumption.
Qed.
Lemma Q_upto : forall kinds s, Q s -> Q (upto kinds s).
Proof.
  intros kinds s H. unfold upto. apply Q_cleanup in H. set (s' := cleanup_break s) in *. clearbody s'. unfold Q in *.
  destruct (stk s') as [|[h ch] up] eqn:E; [cbn [raise_ stk]; rewrite E; exact H|]. cbn [stk set_stk]. apply R_upto. exact H.
Qed.
Lemma Q_leaf : forall h, everywhere nok (Nd h []).
Proof. intro h. apply everywhere_intro; [intros _; constructor | constructor]. Qed.
Lemma Q_pair : forall k c d, everywhere nok (Nd (mkn k c) [Nd (mkn KText d) []]).
Proof. intros. apply everywhere_intro; [intros _; constructor; [discriminate | constructor] | constructor; [apply Q_leaf | constructor]]. Qed.
Lemma Q_add_text : forall w s, Q s -> Q (add_text w s).
Proof.
  intros w s H. unfold add_text. destruct (txt s); [|refine (Q_append _ s (Q_leaf _) _ H); discriminate].
  unfold Q in *.
  destruct (stk s) as [|[h [|[th tch] ch]] up] eqn:E; try (cbn [raise_ stk]; rewrite E; exact H).
  destruct (hcontent th) eqn:Et; [|cbn [raise_ stk]; rewrite E; exact H]. cbn [stk set_stk].
  inversion H as [|? ? (H0 & H1 & H2) H3]; subst. constructor; [|exact H3]. cbn [fst snd] in *. split; [exact H0|].
  inversion H2 as [|? ? H4 H5]; subst. cbn [fst snd]. split.
  - intro Hk. specialize (H1 Hk). inversion H1 as [|? ? H6 H7]; subst. constructor; [exact H6 | exact H7].
  - constructor; [|exact H5]. apply everywhere_intro; [exact (everywhere_here _ _ H4) | exact (everywhere_kids _ _ _ H4)].
Qed.
Lemma Q_need : forall g x s f, Q s -> (forall v, group g x = Some v -> Q (f v)) -> Q (need g x s f).
Proof. intros g x s f H Hf. unfold need. destruct (group g x); auto. Qed.
Lemma Q_image : forall x s, Q s -> Q (image_repl x s).
Proof. intros x s H. apply Q_need; [exact H|]. intros v _. refine (Q_append _ s (Q_pair _ _ _) _ H). discriminate. Qed.
Lemma Q_char : forall x s, Q s -> Q (char_repl x s).
Proof. intros x s H. apply Q_need; [exact H|]. intros v _. apply Q_add_text, H. Qed.
Lemma Q_macro : forall k n a tx s, k = KMacroInline \/ k = KMacroBlock -> Q s -> Q (add_macro k n a tx s).
Proof.
  intros k n a tx s Hk H. unfold add_macro, Q. cbn [stk].
  refine (Q_append _ s (Q_leaf _) _ H). cbn [nkind hk]. destruct Hk as [->| ->]; discriminate.
Qed.

Section NoBreak.
Variable t : str.
Hypothesis no_break : ~ infix [92; 92]%N t.
Definition part (w : str) : Prop := infix [92; 92]%N w -> infix [92; 92]%N t.
Lemma part_infix : forall v w, infix v w -> part w -> part v.
Proof. intros v w H Hw K. apply Hw. eapply infix_trans; eauto. Qed.
Lemma Q_link : forall raw x s, In x (finditer inline_re raw) -> part raw -> Q s -> Q (link_repl x s).
Proof.
  intros raw x s Hx Hr H. apply Q_need; [exact H|]. intros v _. apply (Q_pop_to _ (set_txt false _)). 
  apply fold_inv; [|apply (Q_open _ s); [discriminate | exact H]].
  intros s0 y Hy H0. unfold replace_. destruct (perr s0); [exact H0|].
  assert (Hf : part (strip (group0 G_link_text x))).
  { eapply part_infix; [apply strip_by_infix|]. unfold group0. destruct (group G_link_text x) eqn:E.
    - eapply part_infix; [exact (caps_infix _ _ _ _ _ Hx E) | exact Hr].
    - intros (a & b & E2). destruct a; discriminate. }
  destruct (link_dispatch _ _ Hy) as [[E _]|[E|[E _]]]; rewrite E; cbn [link_text_handler].
  - apply Q_image, H0.
  - exfalso. apply no_break, Hf. eapply link_break_mark; eauto.
  - apply Q_char, H0.
Qed.
Lemma Q_inline_f : forall fuel raw s, part raw -> Q s -> Q (parse_inline_f fuel raw s).
Proof.
  induction fuel; intros raw s Hr H; [exact H|].
  change (parse_inline_f (S fuel) raw s) with
    (fold_left (replace_ inline_groups (inline_handler (parse_inline_f fuel))) (finditer inline_re raw) s).
  revert s H. apply fold_inv. intros s x Hx H. unfold replace_. destruct (perr s); [exact H|].
  destruct (inline_dispatch _ _ Hx) as (g & Eg & Hc). rewrite Eg.
  destruct Hc as [v Ev|v Ev|n a w En Ea Et|n a En Ea|v Ev|v Ev|g k gt v Em Ev| |v Ev|v Ev].
  - cbn [inline_handler]. eapply Q_link; eauto.
  - cbn [inline_handler]. apply Q_need; [exact H|]. intros u _. destruct (truthy _); [apply Q_add_text, H|].
    refine (Q_append _ s (Q_pair _ _ _) _ H). discriminate.
  - cbn [inline_handler]. repeat (apply Q_need; [exact H|]; intros). apply Q_macro; auto.
  - cbn [inline_handler]. repeat (apply Q_need; [exact H|]; intros). apply Q_macro; auto.
  - cbn [inline_handler]. apply Q_need; [exact H|]. intros u _. refine (Q_append _ s (Q_leaf _) _ H). discriminate.
  - cbn [inline_handler]. apply Q_image, H.
  - rewrite (mark_handler _ _ _ _ _ _ Em). unfold inline_mark.
    assert (Hk : k <> KBreak) by (destruct g; try discriminate; injection Em as <- <-; discriminate).
    assert (H1 : Q (set_txt false (open_ (mkn k None) s))) by (apply (Q_open _ s); [exact Hk | exact H]).
    apply Q_need; [exact H1|]. intros u Eu. apply R_pop1. apply Q_upto. apply IHfuel; [|exact H1].
    eapply part_infix; [exact (caps_infix _ _ _ _ _ Hx Eu) | exact Hr].
  - exfalso. apply no_break, Hr. eapply inline_break_mark; eauto.
  - cbn [inline_handler]. apply Q_need; [exact H|]. intros u _. apply Q_add_text, H.
  - cbn [inline_handler]. apply Q_char, H.
Qed.
Lemma Q_inline : forall raw s, part raw -> Q s -> Q (parse_inline raw s).
Proof. intros. apply Q_inline_f; assumption. Qed.
Lemma Q_item : forall l x s, In x (finditer item_re l) -> part l -> Q s -> Q (item_repl x s).
Proof.
  intros l x s Hx Hl H. apply Q_need; [exact H|]. intros b Eb. apply Q_need; [exact H|]. intros w Ew.
  destruct (rev b) as [|b0 br] eqn:Er; [exact H|].
  refine (Q_inline _ _ _ _); [eapply part_infix; [exact (caps_infix _ _ _ _ _ Hx Ew) | exact Hl]|].
  apply Q_open; [discriminate|].
  assert (HF : Q (open_ (mkl (if N.eqb b0 35 then KNumberList else KBulletList) None (List.length b - 1))
                        (upto [KListItem; KDocument] s))).
  { apply Q_open; [destruct (N.eqb b0 35); discriminate | apply Q_upto; exact H]. }
  destruct (find_list _ 0 (stk s)) as [[n h]|]; [|exact HF].
  destruct (kind_beq _ _); [|exact HF]. apply R_pop_n, H.
Qed.
Lemma Q_cell : forall row d x s, In x (finditer cell_re row) -> part row -> Q s -> Q (cell_step d s x).
Proof.
  intros row d x s Hx Hl H. unfold cell_step. destruct (perr s); [exact H|]. cbn zeta.
  assert (HQ := Q_pop_to d s H).
  destruct (truthy (group0 G_cell x)) eqn:E.
  - refine (Q_inline _ _ _ _); [|apply (Q_open _ (pop_to d s)); [discriminate | exact HQ]]. eapply part_infix; [apply strip_by_infix|].
    unfold group0 in *. destruct (group G_cell x) eqn:EG; [|discriminate].
    eapply part_infix; [eapply caps_infix; eauto | exact Hl].
  - apply Q_need; [exact HQ|]. intros v Ev. refine (Q_inline _ _ _ _).
    + eapply part_infix; [apply strip_by_infix|]. eapply part_infix; [eapply caps_infix; eauto | exact Hl].
    + refine (Q_append _ (open_ _ _) (Q_leaf _) _ _); [discriminate|]. apply Q_open; [discriminate | exact HQ].
Qed.
Lemma Q_block : forall blog raw x s, In x (finditer (block_re blog) raw) -> part raw -> Q s ->
  Q (replace_ (block_groups blog) block_handler s x).
Proof.
  intros blog raw x s Hx Hr H. unfold replace_. destruct (perr s); [exact H|].
  destruct (block_dispatch _ _ _ Hx) as (g & Eg & Hc). rewrite Eg.
  assert (Hcap : forall g v, group g x = Some v -> part v) by (intros g0 v E; eapply part_infix; [eapply caps_infix; eauto | exact Hr]).
  assert (HU := Q_upto [KDocument] s H).
  destruct Hc as [n a w En Ea Et| |w h Et Eh Hne| |w Et|l El|w Et|w g Et Hg]; cbn [block_handler].
  - assert (HP := Q_pop_to 1 _ HU). unfold macro_block_repl. repeat (apply Q_need; [exact HP|]; intros). apply Q_macro; auto.
  - refine (Q_append _ _ (Q_leaf _) _ HU). discriminate.
  - unfold head_repl. apply Q_need; [exact HU|]. intros u _. apply Q_need; [exact HU|]. intros v Ev.
    refine (Q_append _ _ (Q_leaf _) _ HU). discriminate.
  - refine (Q_append _ _ (Q_leaf _) _ HU). discriminate.
  - unfold pre_block_repl. apply Q_need; [exact HU|]. intros u _. refine (Q_append _ _ (Q_leaf _) _ HU). discriminate.
  - unfold list_repl. apply Q_need; [exact H|]. intros u Eu. clear HU. revert s H.
    apply fold_inv. intros s y Hy H. unfold replace_. destruct (perr s); [exact H|].
    destruct (item_dispatch _ _ Hy) as (-> & _). cbn [item_handler]. eapply Q_item; eauto.
  - unfold table_repl. apply Q_need; [exact H|]. intros u Eu.
    match goal with |- Q (set_txt false (pop_to ?d ?s0)) => apply (Q_pop_to d s0) end.
    apply fold_inv.
    + intros s0 y Hy H0. eapply Q_cell; eauto. eapply part_infix; [apply strip_by_infix | eauto].
    + assert (HT := Q_upto [KTable; KDocument] s H). apply Q_open; [discriminate|].
      destruct (kind_beq _ _); [exact HT | apply Q_open; [discriminate | exact HT]].
  - assert (Q (text_repl x s)) as HT; [|destruct Hg as [->| ->]; exact HT].
    unfold text_repl.
    assert (H1 : Q (if kind_in (cur_kind s) [KTable; KTableRow; KBulletList; KNumberList] then upto_block s else s))
      by (destruct (kind_in _ _); assumption).
    set (s1 := if kind_in (cur_kind s) _ then _ else _) in *. clearbody s1.
    assert (H2 : Q (if kind_in (cur_kind s1) [KDocument] then open_ (mkn KParagraph None) s1 else s1))
      by (destruct (kind_in _ _); [apply Q_open; [discriminate | exact H1] | exact H1]).
    set (s2 := if kind_in (cur_kind s1) _ then _ else _) in *. clearbody s2.
    apply Q_need; [exact H2|]. intros v Ev.
    match goal with |- context[parse_inline ?tx s2] => set (tx0 := tx) end.
    assert (H3 : part tx0).
    { apply Hcap in Ev. unfold tx0. destruct (truthy _ && _); [|exact Ev]. intros ([|c a] & b & E); [discriminate|].
      injection E as _ E. apply Ev. exists a, b. exact E. }
    clearbody tx0. assert (H4 := Q_inline tx0 s2 H3 H2). set (s3 := parse_inline tx0 s2) in *. clearbody s3.
    destruct (truthy _); cbn [andb]; [|exact H4]. destruct (kind_in (cur_kind s3) _) eqn:Ek; [|exact H4].
    refine (Q_append _ s3 (Q_leaf _) _ H4). intros _ K. rewrite K in Ek. discriminate.
Qed.
Lemma Q_parse : forall blog n u, finish (parse_block blog t init_ps) = Some (n, u) -> everywhere nok n.
Proof.
  intros blog n u H.
  assert (HJ : Q (parse_block blog t init_ps)).
  { unfold parse_block. apply fold_inv.
    - intros s x Hx H0. eapply Q_block; eauto. intro K. exact K.
    - constructor; [|constructor]. split; [discriminate|]. split; [discriminate | constructor]. }
  unfold finish in H. destruct (perr _); [discriminate|].
  assert (HP := Q_pop_to 1 _ HJ). unfold Q in HP.
  destruct (stk (pop_to 1 (parse_block blog t init_ps))) as [|[h ch] [|? ?]]; try discriminate. inversion H; subst.
  inversion HP as [|? ? (H1 & H2 & H3) H4]; subst. cbn [fst snd] in *.
  apply everywhere_intro; [|apply Forall_rev; exact H3]. intro Hk. apply Forall_rev. exact (H2 Hk).
Qed.
End NoBreak.

Lemma tb_none : forall n, everywhere nok n -> tb n = 0.
Proof.
  induction n as [h ch IH] using node_ind'. intro He. assert (Hh := everywhere_here _ _ He). apply everywhere_kids in He.
  cbn [tb nok] in *. assert (H1 : list_sum (map tb ch) = 0).
  { clear Hh. induction ch as [|n ch IHc]; [reflexivity|]. inversion IH; subst. inversion He; subst. unfold list_sum in *. cbn [map fold_right].
    rewrite H1, IHc by assumption. reflexivity. }
  rewrite H1. unfold li_level. destruct (kind_beq (hk h) KListItem) eqn:E; [|reflexivity].
  assert (Hk : hk h = KListItem) by (destruct (hk h); try discriminate; reflexivity). specialize (Hh Hk).
  enough (brs ch = 0) by lia. clear - Hh. induction Hh as [|n l Hn H IH]; [reflexivity|]. unfold brs, list_sum in *. cbn [map fold_right].
  rewrite IH. unfold br. destruct (kind_beq (nkind n) KBreak) eqn:E; [|reflexivity]. exfalso. apply Hn. destruct (nkind n); try discriminate; reflexivity.
Qed.

(** ** The page *)
Lemma unify_len : forall s, List.length (norm_newlines s) <= List.length s.
Proof.
  intro s. rewrite norm_unify. induction s as [|c s IH]; [reflexivity|]. cbn [unify]. destruct (N.eqb c 13).
  - destruct s as [|d s]; [reflexivity|]. destruct (N.eqb d 10); cbn [List.length] in *; lia.
  - cbn [List.length]. lia.
Qed.

Lemma page_len : forall o md s html, ~ occurs ($ "<<") s -> fst (creole2html o md s) = Ok html ->
  exists n, wn n <= 30 * List.length s + 11 /\ List.length html <= 64 * wn n + tb n /\
    (~ occurs [92; 92]%N s -> tb n = 0).
Proof.
  intros o md s html Hm H. unfold creole2html in H.
  assert (HU : forall m, m <> [] -> (forall c, In c m -> c <> 13%N /\ c <> 10%N) -> infix m (norm_newlines s) -> infix m s)
    by (intros m H1 H2 H3; rewrite norm_unify in H3; exact (unify_infix _ _ H1 H2 H3)).
  assert (Hm2 : ~ infix ($ "<<") (norm_newlines s)).
  { intro K. apply Hm. apply HU in K; [exact K | discriminate|]. intros c [<-|[<-|[]]]; split; discriminate. }
  destruct (parse (o_blog o) s) as [[root u]|] eqn:E; [|discriminate].
  destruct (MarksFacts.J_parse _ Hm2 _ _ _ E) as [HE ->]. unfold init_toc in H. cbn [existsb] in H.
  set (c := mkcfg _ _ _ _) in *. unfold emit in H.
  destruct (emit_node c (mkn KDocument None) root (mkest (md_toc md) (md_log md))) as [[a|e] s'] eqn:Ee; [|discriminate].
  cbn [use_toc c] in H. injection H as <-. exists root.
  assert (HW := W_parse _ _ _ _ E). assert (HN := unify_len s).
  split; [unfold char, str in *; lia|]. split.
  - etransitivity; [apply strip_len|]. assert (HL := emit_len c eq_refl root).
    assert (HM : everywhere no_mac root).
    { revert HE. apply everywhere_impl. intros [h ch] Hn. unfold MarksFacts.nd_ok, MarksFacts.hdr_ok, no_mac in *. cbn [nkind]. destruct (hk h); auto. }
    specialize (HL HM _ _ _ _ Ee). cbn [li_level mkn hk kind_beq] in HL. unfold li_level in HL. cbn in HL. lia.
  - intro Hb. apply tb_none. apply (Q_parse (norm_newlines s)) with (blog := o_blog o) (u := []); [|exact E].
    intro K. apply Hb. apply HU in K; [exact K | discriminate|]. intros d [<-|[<-|[]]]; split; discriminate.
Qed.
Lemma lemma_C101 : forall o md s html, ~ occurs ($ "<<") s -> fst (creole2html o md s) = Ok html ->
  (N.of_nat (List.length html) <= 1300 * (N.of_nat (List.length s) + 1) * (N.of_nat (List.length s) + 1))%N.
Proof.
  intros o md s html Hm H. destruct (page_len _ _ _ _ Hm H) as (n & H1 & H2 & _). assert (H3 := tb_square n).
  set (w := wn n) in *. set (k := List.length s) in *. set (L := List.length html) in *. clearbody w k L.
  assert (HW : (N.of_nat w <= 30 * N.of_nat k + 11)%N) by lia.
  assert (HL : (N.of_nat L <= 64 * N.of_nat w + N.of_nat w * N.of_nat w)%N) by nia.
  nia.
Qed.
Lemma lemma_C101_linear : forall o md s html, ~ occurs ($ "<<") s -> ~ occurs [92; 92]%N s -> fst (creole2html o md s) = Ok html ->
  (N.of_nat (List.length html) <= 2000 * (N.of_nat (List.length s) + 1))%N.
Proof.
  intros o md s html Hm Hb H. destruct (page_len _ _ _ _ Hm H) as (n & H1 & H2 & H3). rewrite (H3 Hb) in H2. lia.
Qed.

(** ** Pages that are large *)
Local Open Scope N_scope.
Fixpoint beads (n : nat) : list inl := match n with O => [] | S k => IBreak :: IText [97] :: beads k end.
Lemma beads_ok : forall n b, inls_ok b (IText [97] :: beads n) = true.
Proof.
  induction n; intro b.
  - cbn. unfold literal, url_here. destruct (word_start b); reflexivity.
  - cbn [beads]. change (inls_ok b (IText [97] :: IBreak :: IText [97] :: beads n)) with
      (inl_ok b (IText [97]) (wr_inls (IBreak :: IText [97] :: beads n)) && (true && inls_ok (rev (wr_inl IBreak) ++ rev (wr_inl (IText [97])) ++ b) (IText [97] :: beads n))).
    rewrite IHn. cbn. unfold literal, url_here. destruct (word_start b); reflexivity.
Qed.
Lemma beads_end : forall n, exists l, IText [97] :: beads n = l ++ [IText [97]].
Proof.
  induction n as [|n [l IH]]; [exists []; reflexivity|]. exists (IText [97] :: IBreak :: l). cbn [beads app]. rewrite <- IH. reflexivity.
Qed.
Lemma beads_text : forall n, item_text_ok (IText [97] :: beads n) = true.
Proof.
  intro n. unfold item_text_ok. rewrite beads_ok. destruct (beads_end n) as [l E].
  assert (HE : ends_in_break (IText [97] :: beads n) = false) by (rewrite E; unfold ends_in_break; rewrite rev_app_distr; reflexivity).
  rewrite HE. rewrite !andb_true_r.
  assert (HT : trimmed (wr_inls (IText [97] :: beads n)) = true).
  { unfold trimmed. assert (HL : last_is is_space (wr_inls (IText [97] :: beads n)) = false).
    { rewrite E. unfold wr_inls. rewrite flat_map_app. cbn [flat_map wr_inl app]. unfold last_is. rewrite rev_app_distr. reflexivity. }
    rewrite HL. reflexivity. }
  rewrite HT. cbn [andb]. clear. cbn [wr_inls flat_map wr_inl app]. unfold no_char. cbn [forallb]. rewrite andb_true_iff. split; [reflexivity|].
  induction n; [reflexivity|]. cbn [beads flat_map wr_inl app forallb]. exact IHn.
Qed.
Lemma beads_len : forall n, List.length (wr_inls (beads n)) = (3 * n)%nat.
Proof. induction n; [reflexivity|]. cbn [beads]. unfold wr_inls in *. cbn [flat_map wr_inl app List.length]. rewrite IHn. lia. Qed.
Lemma beads_html : forall strict w n, (n * List.length w <= List.length (html_inls strict w (beads n)))%nat.
Proof.
  intros strict w n. unfold html_inls. induction n; [cbn; lia|]. cbn [beads flat_map html_inl]. rewrite !app_length. lia.
Qed.
Definition steep (n : nat) : str := $ "* a" ++ [10] ++ repeat 42 (S (S n)) ++ $ " a" ++ wr_inls (beads n).
Lemma steep_len : forall n, List.length (steep n) = (4 * n + 8)%nat.
Proof. intro n. unfold steep. rewrite !app_length, repeat_length, beads_len. cbn [List.length]. lia. Qed.
Lemma occurs_in : forall m s c, occurs m s -> In c m -> In c s.
Proof. intros m s c (a & b & ->) H. apply in_app_iff. right. apply in_app_iff. left. exact H. Qed.
Lemma steep_page : forall o md n, ~ occurs ($ "<<") (steep n) /\ exists html, fst (creole2html o md (steep n)) = Ok html /\ (n * n <= List.length html)%nat.
Proof.
  intros [blog v st] md n. split.
  - intro H. apply (occurs_in _ _ 60) in H; [|left; reflexivity]. unfold steep in H.
    rewrite !in_app_iff in H. destruct H as [H|[H|[H|[H|H]]]]; [cbn in H; intuition discriminate.. | apply repeat_spec in H; discriminate | cbn in H; intuition discriminate|].
    clear - H. induction n; [destruct H|]. cbn in H. destruct H as [H|[H|[H|H]]]; try discriminate. exact (IHn H).
  - assert (T := free_document_spec blog v st md [FList [mkline ($ "*") [IText [97]]; mkline (repeat 42 (S (S n))) (IText [97] :: beads n)]]).
    assert (HK : fdoc_ok blog [FList [mkline ($ "*") [IText [97]]; mkline (repeat 42 (S (S n))) (IText [97] :: beads n)]] = true).
    { unfold fdoc_ok. cbn [forallb tl fblock_ok free_ok]. unfold line_fine. cbn [l_bullets l_text]. rewrite beads_text.
      assert (HB : forallb bullet (repeat 42 (S (S n))) = true) by (apply forallb_forall; intros c Hc; apply repeat_spec in Hc; subst c; reflexivity).
      rewrite HB. reflexivity. }
    specialize (T HK). eexists. split; [exact (f_equal fst T)|].
    cbn [html_fdoc html_fblock html_free html_rest]. 
    assert (HJ : joins (l_numbered (mkline (repeat 42 (S (S n))) (IText [97] :: beads n))) (l_depth (mkline (repeat 42 (S (S n))) (IText [97] :: beads n)))
               [(l_numbered (mkline ($ "*") [IText [97]]), l_depth (mkline ($ "*") [IText [97]]))] = None).
    { cbn [joins]. unfold l_depth. cbn [l_bullets]. rewrite repeat_length. reflexivity. }
    rewrite HJ. rewrite !app_length. unfold start_item. rewrite !app_length. cbn [l_text].
    assert (HD : l_depth (mkline (repeat 42 (S (S n))) (IText [97] :: beads n)) = S n) by (unfold l_depth; cbn [l_bullets]; rewrite repeat_length; lia).
    rewrite HD.
    assert (HH := beads_html st (Spec4.br ++ tabs (S (S n))) n).
    change (html_inls st (Spec4.br ++ tabs (S (S n))) (IText [97] :: beads n)) with ([97] ++ html_inls st (Spec4.br ++ tabs (S (S n))) (beads n)).
    rewrite (app_length Spec4.br) in HH. assert (HT : (n <= List.length (tabs (S (S n))))%nat) by (unfold tabs; rewrite repeat_length; lia).
    assert (n * n <= n * (List.length Spec4.br + List.length (tabs (S (S n)))))%nat by (apply Nat.mul_le_mono_l; lia).
    repeat rewrite app_length. cbn [List.length]. unfold char, str in *. lia.
Qed.
Lemma lemma_C101_refuted : ~ (exists k, forall o md s html, ~ occurs ($ "<<") s -> fst (creole2html o md s) = Ok html ->
  (List.length html <= k * (List.length s + 1))%nat).
Proof.
  intros [k H]. destruct (steep_page default_opts no_md (13 * k + 13)) as (H1 & html & H2 & H3).
  specialize (H _ _ _ _ H1 H2). rewrite steep_len in H. nia.
Qed.
