(** * The used macros of a document: every macro node is registered *)
From Coq Require Import String List Arith NArith ZArith Bool Lia.
From Verif Require Import PyStr PyStrFacts GNames Regex RegexFacts Rules DocTree CreoleParser ParserFacts EmitterFacts Spec.
Import ListNotations.
Open Scope N_scope.

(** a macro node has a registered name *)
Definition registered (u : list str) (n : node) : Prop :=
  match n with Nd h _ => is_macro (hk h) = true -> In (hmname h) u end.

Definition frames_ok (u : list str) (k : list frame) : Prop :=
  Forall (fun fr : frame => is_macro (hk (fst fr)) = false /\ Forall (everywhere (registered u)) (snd fr)) k.
Definition J (s : ps) : Prop := frames_ok (used s) (stk s).

Lemma registered_mono : forall u v n, registered u n -> registered (u ++ v) n.
Proof. intros u v [h ch] H Hm. apply in_app_iff. left. exact (H Hm). Qed.
Lemma frames_mono : forall u v k, frames_ok u k -> frames_ok (u ++ v) k.
Proof.
  intros u v k H. unfold frames_ok in *. eapply Forall_impl; [|exact H]. intros [h ch] [H1 H2].
  split; [exact H1|]. eapply Forall_impl; [|exact H2]. intros n Hn.
  eapply everywhere_impl; [|exact Hn]. intros. apply registered_mono; assumption.
Qed.

Lemma J_raise : forall s, J s -> J (raise_ s).
Proof. intros s H. exact H. Qed.
Lemma J_settxt : forall b s, J s -> J (set_txt b s).
Proof. intros b s H. exact H. Qed.
Lemma J_append : forall n s, everywhere (registered (used s)) n -> J s -> J (append_child n s).
Proof.
  intros n s Hn H. unfold append_child, J in *. destruct (stk s) as [|[h ch] up] eqn:E; [simpl; rewrite E; exact H|].
  simpl. inversion H as [|? ? [H1 H2] H3]; subst. constructor; [|exact H3]. split; [exact H1|].
  simpl in *. constructor; assumption.
Qed.
Lemma J_open : forall h s, is_macro (hk h) = false -> J s -> J (open_ h s).
Proof. intros h s Hh H. constructor; [|exact H]. split; [exact Hh | constructor]. Qed.

Lemma close_ok : forall u h ch, is_macro (hk h) = false -> Forall (everywhere (registered u)) ch ->
  everywhere (registered u) (Nd h (rev ch)).
Proof.
  intros u h ch Hh Hc. apply everywhere_intro; [intro E; congruence|].
  apply Forall_rev. exact Hc.
Qed.
Lemma F_pop1 : forall u k, frames_ok u k -> frames_ok u (pop1 k).
Proof.
  intros u k H. destruct k as [|[h ch] [|[h' ch'] up]]; try exact H. simpl.
  inversion H as [|? ? [H1 H2] H3]; subst. inversion H3 as [|? ? [H4 H5] H6]; subst.
  constructor; [|exact H6]. split; [exact H4|]. simpl in *. constructor; [|exact H5].
  apply close_ok; assumption.
Qed.
Lemma F_pop_n : forall u n k, frames_ok u k -> frames_ok u (pop_n n k).
Proof. induction n; intros k H; [exact H|]. simpl. apply IHn, F_pop1, H. Qed.
Lemma J_pop_to : forall d s, J s -> J (pop_to d s).
Proof. intros d s H. unfold pop_to, J. simpl. apply F_pop_n. exact H. Qed.
Lemma J_set_stk : forall k s, frames_ok (used s) k -> J (set_stk k s).
Proof. intros k s H. exact H. Qed.
Lemma F_upto_loop : forall u kinds up h ch, frames_ok u ((h, ch) :: up) -> frames_ok u (upto_loop kinds h ch up).
Proof.
  induction up as [|[h' ch'] up IH]; intros h ch H; [exact H|]. simpl.
  destruct (kind_in (hk h) kinds); [exact H|]. apply IH. apply (F_pop1 u _ H).
Qed.
Lemma J_cleanup : forall s, J s -> J (cleanup_break s).
Proof.
  intros s H. unfold cleanup_break. unfold J in *. destruct (stk s) as [|[h [|n ch]] up] eqn:E; try (rewrite E; exact H).
  destruct (kind_beq (nkind n) KBreak); [|rewrite E; exact H]. simpl.
  inversion H as [|? ? [H1 H2] H3]; subst. constructor; [|exact H3]. split; [exact H1|]. inversion H2; assumption.
Qed.
Lemma J_upto : forall kinds s, J s -> J (upto kinds s).
Proof.
  intros kinds s H. unfold upto. apply J_cleanup in H. set (s' := cleanup_break s) in *. clearbody s'.
  destruct (stk s') as [|[h ch] up] eqn:E; [exact H|]. apply J_set_stk, F_upto_loop.
  unfold J in H. rewrite E in H. exact H.
Qed.
Lemma J_upto_block : forall s, J s -> J (upto_block s).
Proof. intros. apply J_upto. assumption. Qed.

Lemma leaf_ok : forall u k c, is_macro k = false -> everywhere (registered u) (Nd (mkn k c) []).
Proof. intros u k c Hk. apply everywhere_intro; [|constructor]. intro E. simpl in E. congruence. Qed.

Lemma J_add_text : forall w s, J s -> J (add_text w s).
Proof.
  intros w s H. unfold add_text. destruct (txt s).
  - unfold J in *. destruct (stk s) as [|[h [|[th tch] ch]] up] eqn:E; try (simpl; rewrite E; exact H).
    destruct (hcontent th); [|simpl; rewrite E; exact H]. simpl.
    inversion H as [|? ? [H1 H2] H3]; subst. constructor; [|exact H3]. split; [exact H1|]. simpl in *.
    inversion H2 as [|? ? H4 H5]; subst. constructor; [|exact H5].
    apply everywhere_intro; [|apply everywhere_kids in H4; exact H4]. apply everywhere_here in H4. exact H4.
  - apply J_settxt, J_append; [|exact H]. apply leaf_ok. reflexivity.
Qed.
Lemma J_add_macro : forall k n a t s, J s -> J (add_macro k n a t s).
Proof.
  intros k n a t s H. unfold add_macro, J, append_child in *. simpl.
  destruct (stk s) as [|[h ch] up] eqn:E; simpl; [rewrite E; constructor|].
  inversion H as [|? ? [H1 H2] H3]; subst.
  assert (H' := frames_mono _ [n] _ H). inversion H' as [|? ? [H4 H5] H6]; subst.
  constructor; [|exact H6]. split; [exact H4|]. simpl in *. constructor; [|exact H5].
  apply everywhere_intro; [|constructor]. intros _. apply in_app_iff. right. left. reflexivity.
Qed.
Lemma J_need : forall g x s f, J s -> (forall v, J (f v)) -> J (need g x s f).
Proof. intros g x s f H Hf. unfold need. destruct (group g x); auto. Qed.
Lemma J_replace : forall gs hd s x, (forall g, J s -> J (hd g x s)) -> J s -> J (replace_ gs hd s x).
Proof.
  intros gs hd s x Hh H. unfold replace_. destruct (perr s); [exact H|].
  destruct (first_group gs x); auto.
Qed.

#[local] Hint Resolve J_raise J_settxt J_append J_open J_pop_to J_upto J_upto_block J_add_text J_add_macro leaf_ok : jdb.

Lemma J_image : forall x s, J s -> J (image_repl x s).
Proof.
  intros x s H. unfold image_repl. apply J_need; [exact H|]. intro v. apply J_settxt, J_append; [|exact H].
  apply everywhere_intro; [intro E; discriminate|]. constructor; [|constructor]. apply leaf_ok. reflexivity.
Qed.
Lemma J_linebreak : forall s, J s -> J (linebreak_repl s).
Proof. intros s H. apply J_settxt, J_append; [|exact H]. apply leaf_ok. reflexivity. Qed.
Lemma J_char : forall x s, J s -> J (char_repl x s).
Proof. intros x s H. unfold char_repl. apply J_need; auto with jdb. Qed.
Lemma J_link : forall x s, J s -> J (link_repl x s).
Proof.
  intros x s H. unfold link_repl. apply J_need; [exact H|]. intro v. apply J_settxt, J_pop_to.
  apply fold_inv; [|apply J_settxt, J_open; auto].
  intros s0 y _ H0. apply J_replace; [|exact H0]. intros g Hg. unfold link_text_handler.
  destruct g; try (apply J_raise; exact Hg);
    first [apply J_image; exact Hg | apply J_linebreak; exact Hg | apply J_char; exact Hg].
Qed.
Lemma J_mark : forall pi k gt x s, (forall t s, J s -> J (pi t s)) -> is_macro k = false ->
  J s -> J (inline_mark pi k gt x s).
Proof.
  intros pi k gt x s Hpi Hk H. unfold inline_mark.
  assert (H1 : J (set_txt false (open_ (mkn k None) s))) by (apply J_settxt, J_open; auto).
  apply J_need; [exact H1|]. intro v. apply J_settxt, J_set_stk, F_pop1.
  assert (H2 : J (upto [k] (pi v (set_txt false (open_ (mkn k None) s))))) by (apply J_upto, Hpi, H1).
  exact H2.
Qed.

Lemma J_inline_f : forall fuel raw s, J s -> J (parse_inline_f fuel raw s).
Proof.
  induction fuel; intros raw s H; [exact H|].
  change (parse_inline_f (S fuel) raw s) with
    (fold_left (replace_ inline_groups (inline_handler (parse_inline_f fuel))) (finditer inline_re raw) s).
  revert s H. apply fold_inv. intros s x _ H. apply J_replace; [|exact H]. intros g _.
  assert (HU : J (url_repl x s)).
  { unfold url_repl. apply J_need; [exact H|]. intro v. destruct (truthy _).
    - apply J_add_text; exact H.
    - apply J_settxt, J_append; [|exact H]. apply everywhere_intro; [intro E; discriminate|].
      constructor; [|constructor]. apply leaf_ok. reflexivity. }
  assert (HM : J (macro_inline_repl x s)).
  { unfold macro_inline_repl. repeat (apply J_need; [exact H|]; intro). apply J_add_macro; exact H. }
  assert (HT : J (macro_tag_repl x s)).
  { unfold macro_tag_repl. repeat (apply J_need; [exact H|]; intro). apply J_add_macro; exact H. }
  assert (HP : J (pre_inline_repl x s)).
  { unfold pre_inline_repl. apply J_need; [exact H|]. intro v. apply J_settxt, J_append; [|exact H].
    apply leaf_ok. reflexivity. }
  assert (HE : J (escape_repl x s)).
  { unfold escape_repl. apply J_need; auto with jdb. }
  assert (HI := J_image x s H). assert (HB := J_linebreak s H). assert (HC := J_char x s H).
  assert (HL := J_link x s H).
  unfold inline_handler.
  destruct g; try (apply J_raise; exact H); try assumption;
    apply J_mark; auto.
Qed.
Lemma J_inline : forall raw s, J s -> J (parse_inline raw s).
Proof. intros. apply J_inline_f. assumption. Qed.

Lemma J_if : forall (b : bool) s1 s2, J s1 -> J s2 -> J (if b then s1 else s2).
Proof. intros [] s1 s2 H1 H2; assumption. Qed.

Lemma J_item : forall x s, J s -> J (item_repl x s).
Proof.
  intros x s H. unfold item_repl. apply J_need; [exact H|]. intro b. apply J_need; [exact H|]. intro t.
  destruct (rev b) as [|b0 br]; [apply J_raise; exact H|]. apply J_settxt, J_inline, J_open; [reflexivity|].
  assert (HF : J (open_ (mkl (if b0 =? 35 then KNumberList else KBulletList) None (List.length b - 1))
                        (upto [KListItem; KDocument] s))).
  { apply J_open; [destruct (b0 =? 35); reflexivity|]. apply J_upto; exact H. }
  destruct (find_list _ 0 (stk s)) as [[n h]|]; [|exact HF].
  destruct (kind_beq _ _); [|exact HF]. apply J_set_stk, F_pop_n. exact H.
Qed.

Lemma J_block : forall g x s, J s -> J (block_handler g x s).
Proof.
  intros g x s H. assert (HU := J_upto_block s H).
  assert (HM : J (macro_block_repl x s)).
  { unfold macro_block_repl. assert (HP := J_pop_to 1 _ HU).
    repeat (apply J_need; [exact HP|]; intro). apply J_add_macro; exact HP. }
  assert (HL : J (line_repl s)).
  { apply J_append; [|exact HU]. apply leaf_ok; reflexivity. }
  assert (HH : J (head_repl x s)).
  { unfold head_repl. apply J_need; [exact HU|]. intro. apply J_need; [exact HU|]. intro.
    apply J_settxt, J_append; [|exact HU]. apply everywhere_intro; [intro E; discriminate | constructor]. }
  assert (HS : J (separator_repl s)).
  { apply J_append; [|exact HU]. apply leaf_ok; reflexivity. }
  assert (HP : J (pre_block_repl x s)).
  { unfold pre_block_repl. apply J_need; [exact HU|]. intro. apply J_settxt, J_append; [|exact HU].
    apply leaf_ok; reflexivity. }
  assert (HI : J (list_repl x s)).
  { unfold list_repl. apply J_need; [exact H|]. intro l. revert s H HU HM HL HH HS HP.
    intros s H _ _ _ _ _ _. revert s H. apply fold_inv. intros s y _ H.
    apply J_replace; [|exact H]. intros g0 _. unfold item_handler.
    destruct g0; try (apply J_raise; exact H); apply J_item; exact H. }
  assert (HT : J (table_repl x s)).
  { unfold table_repl. apply J_need; [exact H|]. intro t. apply J_settxt, J_pop_to.
    apply fold_inv.
    - intros s0 y _ H0. unfold cell_step. destruct (perr s0); [exact H0|].
      assert (HQ := J_pop_to (S (List.length (stk (if kind_beq (cur_kind (upto [KTable; KDocument] s)) KTable
              then upto [KTable; KDocument] s else open_ (mkn KTable None) (upto [KTable; KDocument] s))))) s0 H0).
      cbn zeta. destruct (truthy _).
      + apply J_inline, J_settxt, J_open; [reflexivity | exact HQ].
      + apply J_need; [exact HQ|]. intro. apply J_inline, J_settxt, J_append.
        * apply leaf_ok; reflexivity.
        * apply J_open; [reflexivity | exact HQ].
    - apply J_open; [reflexivity|]. apply J_if; [|apply J_open; [reflexivity|]]; apply J_upto; exact H. }
  assert (HX : J (text_repl x s)).
  { unfold text_repl.
    assert (H1 : J (if kind_in (cur_kind s) [KTable; KTableRow; KBulletList; KNumberList] then upto_block s else s))
      by (apply J_if; assumption).
    set (s1 := if kind_in (cur_kind s) _ then _ else _) in *. clearbody s1.
    assert (H2 : J (if kind_in (cur_kind s1) [KDocument] then open_ (mkn KParagraph None) s1 else s1))
      by (apply J_if; [apply J_open; auto | exact H1]).
    set (s2 := if kind_in (cur_kind s1) _ then _ else _) in *. clearbody s2.
    apply J_need; [exact H2|]. intro v. apply J_settxt, J_if; [apply J_append; [apply leaf_ok; reflexivity|]|];
      apply J_inline; exact H2. }
  unfold block_handler. destruct g; try (apply J_raise; exact H); assumption.
Qed.

Theorem parse_registered : forall blog raw n u, parse blog raw = Some (n, u) ->
  everywhere (registered u) n.
Proof.
  intros blog raw n u H. unfold parse, finish in H.
  assert (HJ : J (parse_block blog (norm_newlines raw) init_ps)).
  { unfold parse_block. apply fold_inv.
    - intros s x _ Hs. apply J_replace; [|exact Hs]. intros g Hg. apply J_block; exact Hg.
    - constructor; [|constructor]. split; [reflexivity | constructor]. }
  set (s := parse_block _ _ _) in *. clearbody s. destruct (perr s); [discriminate|].
  assert (HP := J_pop_to 1 _ HJ). unfold J in HP.
  destruct (stk (pop_to 1 s)) as [|[h ch] [|? ?]]; try discriminate. inversion H; subst.
  inversion HP as [|? ? [H1 H2] H3]; subst. apply close_ok; assumption.
Qed.
