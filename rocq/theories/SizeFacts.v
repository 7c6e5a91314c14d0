(** * The size of a page: lemmas for C101 *)
From Coq Require Import String List Arith NArith ZArith Bool Lia.
From Verif Require Import PyStr PyStrFacts GNames Regex RegexFacts Rules DocTree CreoleParser ParserFacts
  Spec13 TextOrder Safety.
Import ListNotations.
Open Scope nat_scope.

(** ** Weights *)
Definition clen (h : hdr) : nat := match hcontent h with Some c => List.length c | None => 0 end.
Definition wh (h : hdr) : nat := 1 + clen h + hlevel h.
Fixpoint wn (n : node) : nat := match n with Nd h ch => wh h + list_sum (map wn ch) end.
Definition ws (l : list node) : nat := list_sum (map wn l).
Definition wf (f : frame) : nat := wh (fst f) + ws (snd f).
Definition wk (k : list frame) : nat := list_sum (map wf k).
Definition W (s : ps) : nat := wk (stk s).

Lemma ws_cons : forall n l, ws (n :: l) = wn n + ws l.
Proof. reflexivity. Qed.
Lemma wn_eq : forall h ch, wn (Nd h ch) = wh h + ws ch.
Proof. reflexivity. Qed.
Lemma wk_cons : forall h ch k, wk ((h, ch) :: k) = wh h + ws ch + wk k.
Proof. reflexivity. Qed.
Lemma ws_rev : forall l, ws (rev l) = ws l.
Proof.
  intro l. unfold ws. rewrite map_rev. induction (map wn l) as [|x r IH]; [reflexivity|].
  cbn [rev]. rewrite list_sum_app, IH. simpl. lia.
Qed.

(** ** The number of matches and their lengths *)
Definition mlen (x : mtch) : nat := List.length (mtxt x).
Lemma scan_cost : forall n r b t, List.length t <= n ->
  list_sum (map (fun x => match x with inl _ => 0 | inr y => mlen y + 1 end) (scan r 0 b t)) <= 3 * List.length t + 1.
Proof.
  induction n; intros r b t Hn.
  - destruct t; [|simpl in Hn; lia].
    destruct (at_pos_shape r b []) as [E|[(x & E & Et)|(x & y & E & Ex & _ & Et)]]; rewrite scan_end, E.
    + simpl. lia.
    + apply try_at_Mt in Et as (s' & _ & Et & _). unfold mlen. simpl. destruct (mtxt x); [simpl; lia|discriminate].
    + apply try_at_Mt in Et as (s' & _ & Et & _ & _ & Hne & _). specialize (Hne eq_refl).
      destruct (mtxt y); [congruence | discriminate].
  - destruct t as [|c t]; [apply IHn; simpl; lia|].
    destruct (at_pos_shape r b (c :: t)) as [E|[(x & E & Et)|(x & y & E & Ex & _ & Et)]].
    + rewrite (scan_none r b c t E). cbn [map list_sum fold_right]. simpl in Hn.
      assert (H := IHn r (c :: b)%list t ltac:(lia)). unfold list_sum in *. cbn [List.length]. lia.
    + apply try_at_Mt in Et as (s' & _ & Et & _).
      destruct (mtxt x) as [|d w] eqn:Ex.
      * rewrite (scan_empty_match r b c t x E Ex). simpl in Hn.
        assert (H := IHn r (c :: b)%list t ltac:(lia)). unfold mlen in *. unfold list_sum in *. cbn [map fold_right List.length]. rewrite Ex. cbn [List.length]. lia.
      * rewrite Et in E |- *. rewrite (scan_one r b (d :: w) (rest s') x E Ex) by discriminate.
        rewrite Et in Hn. rewrite app_length in *. simpl in Hn.
        assert (H := IHn r (rev (d :: w) ++ b)%list (rest s') ltac:(lia)). unfold mlen in *. unfold list_sum in *.
        cbn [map fold_right List.length]. rewrite Ex. cbn [List.length] in *. lia.
    + apply try_at_Mt in Et as (s' & _ & Et & _ & _ & Hne & _).
      specialize (Hne eq_refl).
      rewrite Et in E |- *. rewrite (scan_two r b (mtxt y) (rest s') x y E eq_refl Hne).
      rewrite Et in Hn. rewrite app_length in *. assert (1 <= List.length (mtxt y)) by (destruct (mtxt y); [congruence | cbn; lia]).
      assert (H2 := IHn r (rev (mtxt y) ++ b)%list (rest s') ltac:(lia)). unfold mlen in *. unfold list_sum in *.
      cbn [map fold_right]. rewrite Ex. cbn [List.length] in *. lia.
Qed.
Lemma find_cost : forall r t, list_sum (map (fun x => mlen x + 1) (finditer r t)) <= 3 * List.length t + 1.
Proof.
  intros r t. assert (H := scan_cost _ r [] t (le_n _)). unfold finditer.
  enough (E : list_sum (map (fun x => mlen x + 1) (flat_map (fun x => match x with inl _ => [] | inr y => [y] end) (scan r 0 [] t)))
              = list_sum (map (fun x => match x with inl _ => 0 | inr y => mlen y + 1 end) (scan r 0 [] t))) by lia.
  clear H. induction (scan r 0 [] t) as [|[c|y] l IH]; [reflexivity| |]; unfold list_sum in *; cbn [flat_map map app fold_right].
  - exact IH.
  - f_equal. exact IH.
Qed.
Lemma ss_length : forall {A} (a b : list A), subseq a b -> List.length a <= List.length b.
Proof. intros A a b H. induction H; cbn [List.length]; lia. Qed.
Lemma find_len : forall r t, list_sum (map mlen (finditer r t)) <= List.length t.
Proof.
  intros r t. assert (H := ss_length _ _ (finditer_ss r t)).
  enough (E : forall l, list_sum (map mlen l) = List.length (flat_map mtxt l)) by (rewrite E; exact H).
  induction l as [|x l IH]; [reflexivity|]. cbn [map flat_map]. rewrite app_length. unfold list_sum in *. cbn [fold_right]. rewrite IH. reflexivity.
Qed.
Lemma infix_len : forall v w : str, infix v w -> List.length v <= List.length w.
Proof. intros v w (a & b & ->). rewrite !app_length. lia. Qed.
Lemma grp_len : forall r t x g v, In x (finditer r t) -> group g x = Some v -> List.length v <= mlen x.
Proof. intros. apply infix_len. eapply grp_infix; eauto. Qed.
Lemma grp0_len : forall r t x g, In x (finditer r t) -> List.length (group0 g x) <= mlen x.
Proof. intros. apply infix_len. eapply grp0_infix; eauto. Qed.
Lemma find_pos : forall r t x, nonnull r = true -> In x (finditer r t) -> 1 <= mlen x.
Proof.
  intros r t x Hn H. apply finditer_In in H as (adv & b' & t' & H & _).
  apply try_at_Mt in H as (s' & HM & E & _). apply (nonnull_consuming _ Hn) in HM. cbn [rest] in HM.
  rewrite E, app_length in HM. unfold mlen. lia.
Qed.
Lemma grp_short : forall r t x g v, In x (finditer r t) -> strict r g = true -> group g x = Some v -> List.length v + 1 <= mlen x.
Proof.
  intros r t x g v H Hs Hg. apply finditer_In in H as (adv & b' & t' & H & _).
  apply try_at_Mt in H as (s' & HM & E & _ & C & _ & _). unfold group in Hg. rewrite C in Hg.
  destruct (Mt_strict _ _ _ g HM Hs) as [E2|(u & E2 & Hu)].
  - rewrite E2 in Hg. discriminate.
  - rewrite Hg in E2. inversion E2; subst u. cbn [rest] in Hu. rewrite E, app_length in Hu. unfold mlen. lia.
Qed.

(** ** What the parser adds *)
Lemma W_append : forall n s, W (append_child n s) <= W s + wn n.
Proof.
  intros n s. unfold append_child, W. destruct (stk s) as [|[h ch] up] eqn:E; [cbn [raise_ stk]; rewrite E; lia|].
  cbn [set_stk stk]. rewrite !wk_cons, ws_cons. lia.
Qed.
Lemma W_open : forall h s, W (open_ h s) = W s + wh h.
Proof. intros. unfold W, open_. cbn [stk set_stk]. rewrite wk_cons. cbn. lia. Qed.
Lemma W_settxt : forall b s, W (set_txt b s) = W s.
Proof. reflexivity. Qed.
Lemma W_raise : forall s, W (raise_ s) = W s.
Proof. reflexivity. Qed.
Lemma wk_pop1 : forall k, wk (pop1 k) = wk k.
Proof.
  intros [|[h ch] [|[h' ch'] up]]; try reflexivity. cbn [pop1]. rewrite !wk_cons, ws_cons, wn_eq, ws_rev. lia.
Qed.
Lemma wk_pop_n : forall n k, wk (pop_n n k) = wk k.
Proof. induction n; intro k; [reflexivity|]. cbn [pop_n]. rewrite IHn. apply wk_pop1. Qed.
Lemma W_pop_to : forall d s, W (pop_to d s) = W s.
Proof. intros. unfold W, pop_to. cbn [stk set_stk]. apply wk_pop_n. Qed.
Lemma W_pop1 : forall s, W (set_stk (pop1 (stk s)) s) = W s.
Proof. intros. unfold W. cbn [stk set_stk]. apply wk_pop1. Qed.
Lemma W_pop_n : forall n s, W (set_stk (pop_n n (stk s)) s) = W s.
Proof. intros. unfold W. cbn [stk set_stk]. apply wk_pop_n. Qed.
Lemma wk_upto : forall kinds up h ch, wk (upto_loop kinds h ch up) = wk ((h, ch) :: up).
Proof.
  induction up as [|[h' ch'] up IH]; intros h ch; [reflexivity|]. cbn [upto_loop].
  destruct (kind_in (hk h) kinds); [reflexivity|]. rewrite IH. apply (wk_pop1 ((h, ch) :: (h', ch') :: up)).
Qed.
Lemma W_cleanup : forall s, W (cleanup_break s) <= W s.
Proof.
  intro s. unfold cleanup_break. destruct (stk s) as [|[h [|n ch]] up] eqn:E; try lia.
  destruct (kind_beq _ _); [|lia]. unfold W. cbn [stk set_stk]. rewrite E, !wk_cons, ws_cons. lia.
Qed.
Lemma W_upto : forall kinds s, W (upto kinds s) <= W s.
Proof.
  intros kinds s. unfold upto. assert (H := W_cleanup s). set (s' := cleanup_break s) in *. clearbody s'.
  destruct (stk s') as [|[h ch] up] eqn:E; [exact H|]. unfold W in *. cbn [stk set_stk]. rewrite wk_upto. rewrite E in H. exact H.
Qed.
Lemma W_add_text : forall w s, W (add_text w s) <= W s + 1 + List.length w.
Proof.
  intros w s. unfold add_text. destruct (txt s).
  - destruct (stk s) as [|[h [|[th tch] ch]] up] eqn:E; try (rewrite W_raise; lia).
    destruct (hcontent th) as [c|] eqn:Et; [|rewrite W_raise; lia].
    unfold W. cbn [stk set_stk]. rewrite E, !wk_cons, !ws_cons, !wn_eq. unfold wh, clen. cbn [hcontent hlevel].
    rewrite Et, app_length. lia.
  - rewrite W_settxt. etransitivity; [apply W_append|]. cbn. lia.
Qed.
Lemma W_need : forall g x s f n, W s <= n -> (forall v, group g x = Some v -> W (f v) <= n) -> W (need g x s f) <= n.
Proof. intros g x s f n H Hf. unfold need. destruct (group g x); auto. Qed.
Lemma W_fold : forall (step : ps -> mtch -> ps) (cost : mtch -> nat) l, (forall s x, In x l -> W (step s x) <= W s + cost x) ->
  forall s, W (fold_left step l s) <= W s + list_sum (map cost l).
Proof.
  intros step cost l. induction l as [|x l IH]; intros H s; [cbn; lia|]. cbn [fold_left map list_sum fold_right].
  assert (H1 := H s x (or_introl eq_refl)). assert (H2 := IH (fun s y Hy => H s y (or_intror Hy)) (step s x)).
  unfold list_sum in *. lia.
Qed.
Lemma sum_mul : forall {A} (f : A -> nat) k l, list_sum (map (fun x => k * f x) l) = k * list_sum (map f l).
Proof. intros A f k l. unfold list_sum. induction l as [|x l IH]; cbn [map fold_right]; lia. Qed.

Lemma strip_len : forall s, List.length (strip s) <= List.length s.
Proof. intro s. apply infix_len, strip_by_infix. Qed.
Lemma strips_len : forall a s, List.length (strip_chars a s) <= List.length s.
Proof. intros a s. apply infix_len, strip_by_infix. Qed.

Lemma W_image : forall r t x s, nonnull r = true -> In x (finditer r t) -> W (image_repl x s) <= W s + 4 * mlen x.
Proof.
  intros r t x s Hr Hx. assert (H1 := find_pos _ _ _ Hr Hx). unfold image_repl. apply W_need; [lia|]. intros v Ev.
  assert (H2 := grp_len _ _ _ _ _ Hx Ev). assert (H3 := grp0_len _ _ _ G_image_text Hx).
  assert (H4 := strip_len v). assert (H5 := strip_len (group0 G_image_text x)).
  rewrite W_settxt. etransitivity; [apply W_append|]. rewrite wn_eq, ws_cons, wn_eq. cbn [ws list_sum map fold_right].
  unfold wh, clen. cbn [hcontent hlevel mkn]. unfold char, str in *. destruct (truthy _); lia.
Qed.
Lemma W_linebreak : forall s, W (linebreak_repl s) <= W s + 1.
Proof. intro s. unfold linebreak_repl. rewrite W_settxt. etransitivity; [apply W_append|]. cbn. lia. Qed.
Lemma W_char : forall r t x s, nonnull r = true -> In x (finditer r t) -> W (char_repl x s) <= W s + 2 * mlen x.
Proof.
  intros r t x s Hr Hx. assert (H1 := find_pos _ _ _ Hr Hx). unfold char_repl. apply W_need; [lia|]. intros v Ev.
  assert (H2 := grp_len _ _ _ _ _ Hx Ev). etransitivity; [apply W_add_text|]. unfold char, str in *. lia.
Qed.
Lemma W_link : forall raw x s, In x (finditer inline_re raw) -> W (link_repl x s) <= W s + 6 * mlen x.
Proof.
  intros raw x s Hx. assert (H1 := find_pos inline_re _ _ eq_refl Hx). unfold link_repl. apply W_need; [lia|]. intros v Ev.
  assert (H2 := grp_len _ _ _ _ _ Hx Ev). rewrite W_settxt, W_pop_to.
  set (text := strip (group0 G_link_text x)). assert (H3 : List.length text <= mlen x).
  { unfold text. etransitivity; [apply strip_len|]. eapply grp0_len; eauto. }
  etransitivity.
  - apply (W_fold _ (fun y => 4 * mlen y)). intros s0 y Hy. assert (H4 := find_pos link_re _ _ eq_refl Hy).
    unfold replace_. destruct (perr s0); [lia|].
    destruct (link_dispatch _ _ Hy) as [[E _]|[E|[E _]]]; rewrite E; cbn [link_text_handler].
    + eapply W_image; [|exact Hy]; reflexivity.
    + etransitivity; [apply W_linebreak|]. lia.
    + etransitivity; [eapply W_char; [|exact Hy]; reflexivity|]. lia.
  - rewrite sum_mul, W_settxt, W_open. assert (H4 := find_len link_re text). unfold wh, clen. cbn [hcontent hlevel mkn].
    unfold char, str in *. lia.
Qed.
Lemma W_inline_f : forall fuel raw s, W (parse_inline_f fuel raw s) <= W s + 6 * List.length raw.
Proof.
  induction fuel; intros raw s; [cbn [parse_inline_f]; lia|].
  change (parse_inline_f (S fuel) raw s) with
    (fold_left (replace_ inline_groups (inline_handler (parse_inline_f fuel))) (finditer inline_re raw) s).
  etransitivity; [apply (W_fold _ (fun y => 6 * mlen y)) | rewrite sum_mul; assert (H4 := find_len inline_re raw); unfold char, str in *; lia].
  clear s. intros s x Hx. assert (H1 := find_pos inline_re _ _ eq_refl Hx).
  unfold replace_. destruct (perr s); [lia|].
  destruct (inline_dispatch _ _ Hx) as (g & Eg & Hc). rewrite Eg.
  assert (HM : forall k n a (tx : option str), (forall w, tx = Some w -> List.length w <= mlen x) -> W (add_macro k n a tx s) <= W s + 6 * mlen x).
  { intros k n a tx Htx. unfold add_macro, W at 1. cbn [stk]. fold (W (append_child (Nd (mkh k (option_map strip tx) 0 n (strip a)) []) s)).
    etransitivity; [apply W_append|]. cbn [wn map list_sum fold_right]. unfold wh, clen. cbn [hcontent hlevel].
    destruct tx as [w|]; cbn [option_map]; [|lia]. assert (H5 := strip_len w). specialize (Htx w eq_refl). unfold char, str in *. lia. }
  destruct Hc as [v Ev|v Ev|n a w En Ea Et|n a En Ea|v Ev|v Ev|g k gt v Em Ev| |v Ev|v Ev].
  - cbn [inline_handler]. eapply W_link; eauto.
  - cbn [inline_handler]. unfold url_repl. apply W_need; [lia|]. intros u Eu. assert (H2 := grp_len _ _ _ _ _ Hx Eu).
    destruct (truthy _); [etransitivity; [apply W_add_text|]; unfold char, str in *; lia|].
    rewrite W_settxt. etransitivity; [apply W_append|]. rewrite wn_eq, ws_cons, wn_eq. cbn [ws list_sum map fold_right].
    unfold wh, clen. cbn [hcontent hlevel mkn]. unfold char, str in *. lia.
  - cbn [inline_handler]. unfold macro_inline_repl. apply W_need; [lia|]. intros. apply W_need; [lia|]. intros. apply W_need; [lia|]. intros u Eu.
    apply HM. intros w' E. injection E as <-. exact (grp_len _ _ _ _ _ Hx Eu).
  - cbn [inline_handler]. unfold macro_tag_repl. apply W_need; [lia|]. intros. apply W_need; [lia|]. intros u Eu.
    apply HM. discriminate.
  - cbn [inline_handler]. unfold pre_inline_repl. apply W_need; [lia|]. intros u Eu. assert (H2 := grp_len _ _ _ _ _ Hx Eu).
    rewrite W_settxt. etransitivity; [apply W_append|]. cbn [wn map list_sum fold_right]. unfold wh, clen. cbn [hcontent hlevel mkn]. unfold char, str in *. lia.
  - cbn [inline_handler]. etransitivity; [eapply W_image; [|exact Hx]; reflexivity | lia].
  - rewrite (mark_handler _ _ _ _ _ _ Em). unfold inline_mark. apply W_need; [rewrite W_settxt, W_open; cbn; lia|]. intros u Eu.
    assert (H2 : List.length u + 1 <= mlen x).
    { eapply grp_short; [exact Hx | | exact Eu]. destruct g; inversion Em; subst; reflexivity. }
    rewrite W_settxt, W_pop1. etransitivity; [apply W_upto|]. etransitivity; [apply IHfuel|]. rewrite W_settxt, W_open.
    unfold wh, clen. cbn [hcontent hlevel mkn]. unfold char, str in *. lia.
  - cbn [inline_handler]. etransitivity; [apply W_linebreak | lia].
  - cbn [inline_handler]. unfold escape_repl. apply W_need; [lia|]. intros u Eu. assert (H2 := grp_len _ _ _ _ _ Hx Eu).
    etransitivity; [apply W_add_text|]; unfold char, str in *; lia.
  - cbn [inline_handler]. etransitivity; [eapply W_char; [|exact Hx]; reflexivity | lia].
Qed.
Lemma W_inline : forall raw s, W (parse_inline raw s) <= W s + 6 * List.length raw.
Proof. intros. apply W_inline_f. Qed.

Lemma W_item : forall l x s, In x (finditer item_re l) -> W (item_repl x s) <= W s + 10 * mlen x.
Proof.
  intros l x s Hx. assert (H1 := find_pos item_re _ _ eq_refl Hx). unfold item_repl.
  apply W_need; [lia|]. intros b Eb. apply W_need; [lia|]. intros w Ew.
  assert (H2 := grp_len _ _ _ _ _ Hx Eb). assert (H3 := grp_len _ _ _ _ _ Hx Ew).
  destruct (rev b) as [|b0 br] eqn:Er; [rewrite W_raise; lia|].
  assert (Hb : 1 <= List.length b) by (rewrite <- (rev_length b), Er; cbn; lia).
  rewrite W_settxt. etransitivity; [apply W_inline|]. rewrite W_open. unfold wh, clen at 1. cbn [hcontent hlevel mkl].
  set (s1 := match find_list _ 0 (stk s) with Some _ => _ | None => _ end).
  assert (HF : W s1 <= W s + List.length b).
  { assert (HF : W (open_ (mkl (if N.eqb b0 35 then KNumberList else KBulletList) None (List.length b - 1))
                        (upto [KListItem; KDocument] s)) <= W s + List.length b).
    { rewrite W_open. assert (H := W_upto [KListItem; KDocument] s). unfold wh, clen. cbn [hcontent hlevel mkl]. unfold char, str in *. lia. }
    unfold s1. destruct (find_list _ 0 (stk s)) as [[n h]|]; [|exact HF].
    destruct (kind_beq _ _); [|exact HF]. rewrite W_pop_n. lia. }
  unfold char, str in *. lia.
Qed.
Lemma W_cell : forall row d x s, In x (finditer cell_re row) -> W (cell_step d s x) <= W s + 8 * mlen x.
Proof.
  intros row d x s Hx. assert (H1 := find_pos cell_re _ _ eq_refl Hx). unfold cell_step. destruct (perr s); [lia|]. cbn zeta.
  assert (H2 := grp0_len _ _ _ G_cell Hx).
  destruct (truthy (group0 G_cell x)) eqn:E.
  - etransitivity; [apply W_inline|]. rewrite W_settxt, W_open, W_pop_to. assert (H3 := strip_len (group0 G_cell x)). cbn [wh clen mkn hcontent hlevel].
    unfold wh, clen. cbn [hcontent hlevel mkn]. unfold char, str in *. lia.
  - apply W_need; [rewrite W_pop_to; lia|]. intros v Ev. assert (H3 := grp_len _ _ _ _ _ Hx Ev).
    etransitivity; [apply W_inline|]. rewrite W_settxt.
    assert (H4 := W_append (Nd (mkn KText (Some [])) []) (open_ (mkn KTableHead None) (pop_to d s))).
    rewrite W_open, W_pop_to in H4. assert (H5 := strips_len ($ "= ") v).
    unfold wh, clen in H4. cbn [wn map list_sum fold_right hcontent hlevel mkn] in H4. unfold wh, clen in H4. cbn [hcontent hlevel mkn List.length] in H4.
    unfold char, str in *. lia.
Qed.

Lemma W_block : forall blog raw x s, In x (finditer (block_re blog) raw) ->
  W (replace_ (block_groups blog) block_handler s x) <= W s + 10 * (mlen x + 1).
Proof.
  intros blog raw x s Hx. unfold replace_. destruct (perr s); [lia|].
  destruct (block_dispatch _ _ _ Hx) as (g & Eg & Hc). rewrite Eg.
  assert (HL : forall g v, group g x = Some v -> List.length v <= mlen x) by (intros g0 v E; exact (grp_len _ _ _ _ _ Hx E)).
  assert (HU := W_upto [KDocument] s). fold (upto_block s) in HU.
  destruct Hc as [n a w En Ea Et| |w h Et Eh Hne| |w Et|l El|w Et|w g Et Hg]; cbn [block_handler].
  - unfold macro_block_repl. apply W_need; [rewrite W_pop_to; lia|]. intros. apply W_need; [rewrite W_pop_to; lia|]. intros.
    apply W_need; [rewrite W_pop_to; lia|]. intros u Eu. apply HL in Eu.
    unfold add_macro, W at 1. cbn [stk]. match goal with |- wk (stk (append_child ?n ?s0)) <= _ => assert (HA := W_append n s0) end.
    rewrite W_pop_to in HA. unfold W in HA at 1. cbn [wn map list_sum fold_right] in HA. unfold wh, clen in HA. cbn [hcontent hlevel option_map] in HA.
    assert (H5 := strip_len u). unfold W in *. unfold char, str in *. cbn [option_map]. lia.
  - unfold line_repl. etransitivity; [apply W_append|]. cbn [wn map list_sum fold_right]. unfold wh, clen. cbn. lia.
  - unfold head_repl. apply W_need; [lia|]. intros u Eu. apply W_need; [lia|]. intros v Ev. apply HL in Eu, Ev.
    rewrite W_settxt. etransitivity; [apply W_append|]. assert (H5 := strip_len u). cbn [wn map list_sum fold_right]. unfold wh, clen. cbn [hcontent hlevel mkl].
    unfold char, str in *. lia.
  - unfold separator_repl. etransitivity; [apply W_append|]. cbn [wn map list_sum fold_right]. unfold wh, clen. cbn. lia.
  - unfold pre_block_repl. apply W_need; [lia|]. intros u Eu. apply HL in Eu.
    rewrite W_settxt. etransitivity; [apply W_append|]. cbn [wn map list_sum fold_right]. unfold wh, clen. cbn [hcontent hlevel mkn].
    assert (H5 := ss_length _ _ (resub_ss pre_escape_re remove_tilde u (tilde_ss u))). unfold char, str in *. lia.
  - unfold list_repl. apply W_need; [lia|]. intros u Eu. apply HL in Eu.
    etransitivity; [apply (W_fold _ (fun y => 10 * mlen y))|].
    + intros s0 y Hy. unfold replace_. destruct (perr s0); [lia|].
      destruct (item_dispatch _ _ Hy) as (-> & _). cbn [item_handler]. eapply W_item; eauto.
    + rewrite sum_mul. assert (H5 := find_len item_re u). unfold char, str in *. lia.
  - unfold table_repl. apply W_need; [lia|]. intros u Eu. apply HL in Eu. rewrite W_settxt, W_pop_to.
    etransitivity; [apply (W_fold _ (fun y => 8 * mlen y)); intros s0 y Hy; eapply W_cell; eauto|].
    rewrite sum_mul, W_open. assert (H5 := find_len cell_re (strip u)). assert (H6 := strip_len u).
    assert (H7 := W_upto [KTable; KDocument] s).
    set (s1 := upto [KTable; KDocument] s) in *. clearbody s1.
    assert (H8 : W (if kind_beq (cur_kind s1) KTable then s1 else open_ (mkn KTable None) s1) <= W s1 + 1)
      by (destruct (kind_beq _ _); [lia | rewrite W_open; cbn; lia]).
    unfold wh, clen. cbn [hcontent hlevel mkn]. unfold char, str in *. lia.
  - assert (W (text_repl x s) <= W s + 10 * (mlen x + 1)) as HT; [|destruct Hg as [->| ->]; exact HT].
    unfold text_repl.
    assert (H1 : W (if kind_in (cur_kind s) [KTable; KTableRow; KBulletList; KNumberList] then upto_block s else s) <= W s)
      by (destruct (kind_in _ _); lia).
    set (s1 := if kind_in (cur_kind s) _ then _ else _) in *. clearbody s1.
    assert (H2 : W (if kind_in (cur_kind s1) [KDocument] then open_ (mkn KParagraph None) s1 else s1) <= W s + 1)
      by (destruct (kind_in _ _); [rewrite W_open; cbn; lia | lia]).
    set (s2 := if kind_in (cur_kind s1) _ then _ else _) in *. clearbody s2.
    apply W_need; [lia|]. intros v Ev. apply HL in Ev. rewrite W_settxt.
    match goal with |- context[parse_inline ?tx s2] => set (tx0 := tx) end.
    assert (H3 : List.length tx0 <= mlen x + 1) by (unfold tx0; destruct (_ && _); cbn [List.length]; unfold char, str in *; lia).
    assert (H4 := W_inline tx0 s2). set (s3 := parse_inline tx0 s2) in *. clearbody s3.
    assert (H5 : W (append_child (Nd (mkn KBreak (Some [])) []) s3) <= W s3 + 1) by exact (W_append _ _).
    clearbody tx0. destruct (_ && _); unfold char, str in *; lia.
Qed.

Lemma W_parse : forall blog t n u, finish (parse_block blog t init_ps) = Some (n, u) -> wn n <= 30 * List.length t + 11.
Proof.
  intros blog t n u H.
  assert (HW : W (parse_block blog t init_ps) <= 30 * List.length t + 11).
  { unfold parse_block. etransitivity; [apply (W_fold _ (fun y => 10 * (mlen y + 1))); intros s0 y Hy; eapply W_block; eauto|].
    rewrite (sum_mul (fun y => mlen y + 1)). assert (H5 := find_cost (block_re blog) t). change (W init_ps) with 1. unfold char, str in *. lia. }
  unfold finish in H. destruct (perr _); [discriminate|]. rewrite <- (W_pop_to 1) in HW. unfold W in HW.
  destruct (stk (pop_to 1 (parse_block blog t init_ps))) as [|[h ch] [|? ?]]; try discriminate. inversion H; subst.
  rewrite wk_cons in HW. change (wk []) with 0 in HW. rewrite wn_eq, ws_rev. lia.
Qed.
