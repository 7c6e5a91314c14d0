(** * The kinds of the nodes of a document depend on the block rules that matched *)
From Coq Require Import String List Arith NArith ZArith Bool Lia.
From Verif Require Import PyStr PyStrFacts GNames Regex RegexFacts Rules DocTree CreoleParser ParserFacts EmitterFacts Spec.
Import ListNotations.
Open Scope N_scope.

(** kinds that no block rule is named after *)
Definition free (k : kind) : bool :=
  match k with
  | KParagraph | KLine | KSeparator | KHeader | KPreBlock | KMacroBlock | KBulletList | KNumberList | KTable => false
  | _ => true
  end.
(** the kinds a block handler may use besides *)
Definition group_kinds (g : gname) : list kind :=
  match g with
  | G_macro_block | G_macro_block_start | G_macro_block_args | G_macro_block_text => [KMacroBlock]
  | G_line => [KLine]
  | G_head | G_head_head | G_head_text => [KHeader]
  | G_separator => [KSeparator]
  | G_pre_block | G_pre_block_text | G_pre_block_kind => [KPreBlock]
  | G_list => [KBulletList; KNumberList]
  | G_table => [KTable]
  | G_text | G_break | G_space => [KParagraph]
  | _ => []
  end.

Section Kinds.
Variable P : kind -> Prop.
Hypothesis Hfree : forall k, free k = true -> P k.
Definition kp (n : node) : Prop := match n with Nd h _ => P (hk h) end.
Definition frames_ok (k : list frame) : Prop :=
  Forall (fun fr : frame => P (hk (fst fr)) /\ Forall (everywhere kp) (snd fr)) k.
Definition J (s : ps) : Prop := frames_ok (stk s).

Lemma J_raise : forall s, J s -> J (raise_ s).
Proof. intros s H. exact H. Qed.
Lemma J_settxt : forall b s, J s -> J (set_txt b s).
Proof. intros b s H. exact H. Qed.
Lemma J_append : forall n s, everywhere kp n -> J s -> J (append_child n s).
Proof.
  intros n s Hn H. unfold append_child, J in *. destruct (stk s) as [|[h ch] up] eqn:E; [simpl; rewrite E; exact H|].
  simpl. inversion H as [|? ? [H1 H2] H3]; subst. constructor; [|exact H3]. split; [exact H1|].
  simpl in *. constructor; assumption.
Qed.
Lemma J_open : forall h s, P (hk h) -> J s -> J (open_ h s).
Proof. intros h s Hh H. constructor; [|exact H]. split; [exact Hh | constructor]. Qed.

Lemma close_ok : forall h ch, P (hk h) -> Forall (everywhere kp) ch ->
  everywhere kp (Nd h (rev ch)).
Proof.
  intros h ch Hh Hc. apply everywhere_intro; [exact Hh|].
  apply Forall_rev. exact Hc.
Qed.
Lemma F_pop1 : forall k, frames_ok k -> frames_ok (pop1 k).
Proof.
  intros k H. destruct k as [|[h ch] [|[h' ch'] up]]; try exact H. simpl.
  inversion H as [|? ? [H1 H2] H3]; subst. inversion H3 as [|? ? [H4 H5] H6]; subst.
  constructor; [|exact H6]. split; [exact H4|]. simpl in *. constructor; [|exact H5].
  apply close_ok; assumption.
Qed.
Lemma F_pop_n : forall n k, frames_ok k -> frames_ok (pop_n n k).
Proof. induction n; intros k H; [exact H|]. simpl. apply IHn, F_pop1, H. Qed.
Lemma J_pop_to : forall d s, J s -> J (pop_to d s).
Proof. intros d s H. unfold pop_to, J. simpl. apply F_pop_n. exact H. Qed.
Lemma J_set_stk : forall k s, frames_ok k -> J (set_stk k s).
Proof. intros k s H. exact H. Qed.
Lemma F_upto_loop : forall kinds up h ch, frames_ok ((h, ch) :: up) -> frames_ok (upto_loop kinds h ch up).
Proof.
  induction up as [|[h' ch'] up IH]; intros h ch H; [exact H|]. simpl.
  destruct (kind_in (hk h) kinds); [exact H|]. apply IH. apply (F_pop1 _ H).
Qed.
Lemma J_cleanup : forall s, J s -> J (cleanup_break s).
Proof.
  intros s H. unfold cleanup_break. unfold J in *. destruct (stk s) as [|[h [|n ch]] up] eqn:E; try (rewrite E; exact H).
  destruct (kind_beq (nkind n) KBreak); [|rewrite E; exact H]. simpl.
  inversion H as [|? ? [H1 H2] H3]; subst. constructor; [|exact H3]. split; [exact H1|]. inversion H2; assumption.
Qed.
Lemma J_upto : forall kinds s, J s -> J (upto kinds s).
Proof.
  intros kinds s H. unfold upto. apply J_cleanup in H. set (s' := cleanup_break s) in *. clearbody s'.
  destruct (stk s') as [|[h ch] up] eqn:E; [exact H|]. apply J_set_stk, F_upto_loop.
  unfold J in H. rewrite E in H. exact H.
Qed.
Lemma J_upto_block : forall s, J s -> J (upto_block s).
Proof. intros. apply J_upto. assumption. Qed.

Lemma leaf_ok : forall k c, P k -> everywhere kp (Nd (mkn k c) []).
Proof. intros k c Hk. apply everywhere_intro; [exact Hk | constructor]. Qed.

Lemma J_add_text : forall w s, J s -> J (add_text w s).
Proof.
  intros w s H. unfold add_text. destruct (txt s).
  - unfold J in *. destruct (stk s) as [|[h [|[th tch] ch]] up] eqn:E; try (simpl; rewrite E; exact H).
    destruct (hcontent th); [|simpl; rewrite E; exact H]. simpl.
    inversion H as [|? ? [H1 H2] H3]; subst. constructor; [|exact H3]. split; [exact H1|]. simpl in *.
    inversion H2 as [|? ? H4 H5]; subst. constructor; [|exact H5].
    apply everywhere_intro; [|apply everywhere_kids in H4; exact H4]. apply everywhere_here in H4. exact H4.
  - apply J_settxt, J_append; [|exact H]. apply leaf_ok, Hfree. reflexivity.
Qed.
Lemma J_add_macro : forall k n a t s, P k -> J s -> J (add_macro k n a t s).
Proof.
  intros k n a t s Hk H. unfold add_macro, J, append_child in *. simpl.
  destruct (stk s) as [|[h ch] up] eqn:E; simpl; [rewrite E; constructor|].
  inversion H as [|? ? [H1 H2] H3]; subst. constructor; [|exact H3]. split; [exact H1|].
  simpl in *. constructor; [|exact H2]. apply everywhere_intro; [exact Hk | constructor].
Qed.
Lemma J_need : forall g x s f, J s -> (forall v, J (f v)) -> J (need g x s f).
Proof. intros g x s f H Hf. unfold need. destruct (group g x); auto. Qed.
Lemma J_replace : forall gs hd s x, (forall g, J s -> J (hd g x s)) -> J s -> J (replace_ gs hd s x).
Proof.
  intros gs hd s x Hh H. unfold replace_. destruct (perr s); [exact H|].
  destruct (first_group gs x); auto.
Qed.

#[local] Hint Resolve J_raise J_settxt J_append J_open J_pop_to J_upto J_upto_block J_add_text J_add_macro leaf_ok : jdb.

Lemma J_image : forall x s, J s -> J (image_repl x s).
Proof.
  intros x s H. unfold image_repl. apply J_need; [exact H|]. intro v. apply J_settxt, J_append; [|exact H].
  apply everywhere_intro; [apply Hfree; reflexivity|]. constructor; [|constructor]. apply leaf_ok, Hfree. reflexivity.
Qed.
Lemma J_linebreak : forall s, J s -> J (linebreak_repl s).
Proof. intros s H. apply J_settxt, J_append; [|exact H]. apply leaf_ok, Hfree. reflexivity. Qed.
Lemma J_char : forall x s, J s -> J (char_repl x s).
Proof. intros x s H. unfold char_repl. apply J_need; auto with jdb. Qed.
Lemma J_link : forall x s, J s -> J (link_repl x s).
Proof.
  intros x s H. unfold link_repl. apply J_need; [exact H|]. intro v. apply J_settxt, J_pop_to.
  apply fold_inv; [|apply J_settxt, J_open; auto].
  intros s0 y _ H0. apply J_replace; [|exact H0]. intros g Hg. unfold link_text_handler.
  destruct g; try (apply J_raise; exact Hg);
    first [apply J_image; exact Hg | apply J_linebreak; exact Hg | apply J_char; exact Hg].
Qed.
Lemma J_mark : forall pi k gt x s, (forall t s, J s -> J (pi t s)) -> P k ->
  J s -> J (inline_mark pi k gt x s).
Proof.
  intros pi k gt x s Hpi Hk H. unfold inline_mark.
  assert (H1 : J (set_txt false (open_ (mkn k None) s))) by (apply J_settxt, J_open; auto).
  apply J_need; [exact H1|]. intro v. apply J_settxt, J_set_stk, F_pop1.
  assert (H2 : J (upto [k] (pi v (set_txt false (open_ (mkn k None) s))))) by (apply J_upto, Hpi, H1).
  exact H2.
Qed.

Lemma J_inline_f : forall fuel raw s, J s -> J (parse_inline_f fuel raw s).
Proof.
  induction fuel; intros raw s H; [exact H|].
  change (parse_inline_f (S fuel) raw s) with
    (fold_left (replace_ inline_groups (inline_handler (parse_inline_f fuel))) (finditer inline_re raw) s).
  revert s H. apply fold_inv. intros s x _ H. apply J_replace; [|exact H]. intros g _.
  assert (HU : J (url_repl x s)).
  { unfold url_repl. apply J_need; [exact H|]. intro v. destruct (truthy _).
    - apply J_add_text; exact H.
    - apply J_settxt, J_append; [|exact H]. apply everywhere_intro; [apply Hfree; reflexivity|].
      constructor; [|constructor]. apply leaf_ok, Hfree. reflexivity. }
  assert (HM : J (macro_inline_repl x s)).
  { unfold macro_inline_repl. repeat (apply J_need; [exact H|]; intro). apply J_add_macro; [apply Hfree; reflexivity | exact H]. }
  assert (HT : J (macro_tag_repl x s)).
  { unfold macro_tag_repl. repeat (apply J_need; [exact H|]; intro). apply J_add_macro; [apply Hfree; reflexivity | exact H]. }
  assert (HP : J (pre_inline_repl x s)).
  { unfold pre_inline_repl. apply J_need; [exact H|]. intro v. apply J_settxt, J_append; [|exact H].
    apply leaf_ok, Hfree. reflexivity. }
  assert (HE : J (escape_repl x s)).
  { unfold escape_repl. apply J_need; auto with jdb. }
  assert (HI := J_image x s H). assert (HB := J_linebreak s H). assert (HC := J_char x s H).
  assert (HL := J_link x s H).
  unfold inline_handler.
  destruct g; try (apply J_raise; exact H); try assumption;
    apply J_mark; auto.
Qed.
Lemma J_inline : forall raw s, J s -> J (parse_inline raw s).
Proof. intros. apply J_inline_f. assumption. Qed.

Lemma J_if : forall (b : bool) s1 s2, J s1 -> J s2 -> J (if b then s1 else s2).
Proof. intros [] s1 s2 H1 H2; assumption. Qed.

Lemma J_item : forall x s, P KBulletList -> P KNumberList -> J s -> J (item_repl x s).
Proof.
  intros x s Hb Hn H. unfold item_repl. apply J_need; [exact H|]. intro b. apply J_need; [exact H|]. intro t.
  destruct (rev b) as [|b0 br]; [apply J_raise; exact H|]. apply J_settxt, J_inline, J_open; [apply Hfree; reflexivity|].
  assert (HF : J (open_ (mkl (if b0 =? 35 then KNumberList else KBulletList) None (List.length b - 1))
                        (upto [KListItem; KDocument] s))).
  { apply J_open; [destruct (b0 =? 35); assumption|]. apply J_upto; exact H. }
  destruct (find_list _ 0 (stk s)) as [[n h]|]; [|exact HF].
  destruct (kind_beq _ _); [|exact HF]. apply J_set_stk, F_pop_n. exact H.
Qed.

Lemma J_block : forall g x s, (forall k, In k (group_kinds g) -> P k) -> J s -> J (block_handler g x s).
Proof.
  intros g x s HK H. assert (HU := J_upto_block s H).
  assert (HM : P KMacroBlock -> J (macro_block_repl x s)).
  { intro Hp. unfold macro_block_repl. assert (HP := J_pop_to 1 _ HU).
    repeat (apply J_need; [exact HP|]; intro). apply J_add_macro; assumption. }
  assert (HL : P KLine -> J (line_repl s)).
  { intro Hp. apply J_append; [|exact HU]. apply leaf_ok, Hp. }
  assert (HH : P KHeader -> J (head_repl x s)).
  { intro Hp. unfold head_repl. apply J_need; [exact HU|]. intro. apply J_need; [exact HU|]. intro.
    apply J_settxt, J_append; [|exact HU]. apply everywhere_intro; [exact Hp | constructor]. }
  assert (HS : P KSeparator -> J (separator_repl s)).
  { intro Hp. apply J_append; [|exact HU]. apply leaf_ok, Hp. }
  assert (HP : P KPreBlock -> J (pre_block_repl x s)).
  { intro Hp. unfold pre_block_repl. apply J_need; [exact HU|]. intro. apply J_settxt, J_append; [|exact HU].
    apply leaf_ok, Hp. }
  assert (HI : P KBulletList -> P KNumberList -> J (list_repl x s)).
  { intros Hb Hn. unfold list_repl. apply J_need; [exact H|]. intro l. clear HU HM HL HH HS HP. revert s H.
    apply fold_inv. intros s y _ H.
    apply J_replace; [|exact H]. intros g0 _. unfold item_handler.
    destruct g0; try (apply J_raise; exact H); apply J_item; assumption. }
  assert (HT : P KTable -> J (table_repl x s)).
  { intro Hp. unfold table_repl. apply J_need; [exact H|]. intro t. apply J_settxt, J_pop_to.
    apply fold_inv.
    - intros s0 y _ H0. unfold cell_step. destruct (perr s0); [exact H0|].
      assert (HQ := J_pop_to (S (List.length (stk (if kind_beq (cur_kind (upto [KTable; KDocument] s)) KTable
              then upto [KTable; KDocument] s else open_ (mkn KTable None) (upto [KTable; KDocument] s))))) s0 H0).
      cbn zeta. destruct (truthy _).
      + apply J_inline, J_settxt, J_open; [apply Hfree; reflexivity | exact HQ].
      + apply J_need; [exact HQ|]. intro. apply J_inline, J_settxt, J_append.
        * apply leaf_ok, Hfree; reflexivity.
        * apply J_open; [apply Hfree; reflexivity | exact HQ].
    - apply J_open; [apply Hfree; reflexivity|]. apply J_if; [|apply J_open; [exact Hp|]]; apply J_upto; exact H. }
  assert (HX : P KParagraph -> J (text_repl x s)).
  { intro Hp. unfold text_repl.
    assert (H1 : J (if kind_in (cur_kind s) [KTable; KTableRow; KBulletList; KNumberList] then upto_block s else s))
      by (apply J_if; assumption).
    set (s1 := if kind_in (cur_kind s) _ then _ else _) in *. clearbody s1.
    assert (H2 : J (if kind_in (cur_kind s1) [KDocument] then open_ (mkn KParagraph None) s1 else s1))
      by (apply J_if; [apply J_open; auto | exact H1]).
    set (s2 := if kind_in (cur_kind s1) _ then _ else _) in *. clearbody s2.
    apply J_need; [exact H2|]. intro v. apply J_settxt, J_if; [apply J_append; [apply leaf_ok, Hfree; reflexivity|]|];
      apply J_inline; exact H2. }
  unfold block_handler. destruct g; try (apply J_raise; exact H); cbn [group_kinds In] in HK; auto 8.
Qed.

Lemma J_finish : forall s n u, J s -> finish s = Some (n, u) -> everywhere kp n.
Proof.
  intros s n u HJ H. unfold finish in H. destruct (perr s); [discriminate|].
  assert (HP := J_pop_to 1 _ HJ). unfold J in HP.
  destruct (stk (pop_to 1 s)) as [|[h ch] [|? ?]]; try discriminate. inversion H; subst.
  inversion HP as [|? ? [H1 H2] H3]; subst. apply close_ok; assumption.
Qed.
Lemma J_init : J init_ps.
Proof. constructor; [|constructor]. split; [apply Hfree; reflexivity | constructor]. Qed.
End Kinds.
