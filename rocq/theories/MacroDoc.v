(** * Documents with macros: [creole2html] *)
From Coq Require Import String List Arith NArith ZArith Bool Lia.
From Verif Require Import PyStr PyStrFacts GNames Regex Rules RegexFacts RegexRun Utils DocTree CreoleParser ParserFacts
  Res HtmlEmitter EmitterFacts HtmlToolsFacts Spec4 Spec5 Spec7 Spec20 DictFacts InlineRun InlineParse BlockRun BlockHits TableHits BlockParse DocParse LiftDoc MacroHit.
Import ListNotations.
Open Scope N_scope.
Notation doc_h := (mkn KDocument None).

Definition old_ok (l : list node) : Prop := match l with n :: _ => kind_beq (nkind n) KBreak = false | [] => True end.
Lemma based_pop : forall n k, based (pop_n n k) -> based k.
Proof.
  induction n as [|n IH]; intros k H; [exact H|]. cbn [pop_n] in H. apply IH in H. destruct k as [|[h ch] [|[h' ch'] [|f k]]]; try exact H.
Qed.
Section MDoc.
  Variable c : cfg.
  Hypothesis no_toc : use_toc c = false.
  Lemma docst_B : forall s out, docst c s out -> B s.
  Proof.
    intros s out (h & ch & up & dch & -> & _ & _ & Hp & _). split; [|reflexivity]. unfold K. cbn [stk]. apply (based_pop (List.length up)). rewrite Hp. reflexivity.
  Qed.
  (** the calls so far decide what comes next *)
  Definition tale := list call -> option (str * list call).
  Definition then_text (f : tale) (t : str) : tale := fun x => match f x with Some (a, l) => Some (a ++ t, l) | None => None end.
  Definition then_call (f : tale) (n : str) (kw : pydict) : tale := fun x =>
    match f x with
    | Some (a, l) => match answer (verbose c) (env c) l n kw with Some r => Some (a ++ r, called (env c) l n kw) | None => None end
    | None => None
    end.
  Definition lst (s : ps) (f : tale) : Prop := exists old u s0 out, s = lift old u s0 /\ old_ok old /\ docst c s0 out /\ Forall (fun n => n <> $ "toc") u /\
    forall t0 l0 a l1, f l0 = Some (a, l1) -> exists a1, emit_children c doc_h (rev old) (mkest t0 l0) = (Ok a1, mkest t0 l1) /\ a = a1 ++ out.
  Definition lat (s : ps) (f : tale) : Prop := exists old u s0 out, s = lift old u s0 /\ old_ok old /\ atdoc c s0 out /\ Forall (fun n => n <> $ "toc") u /\
    forall t0 l0 a l1, f l0 = Some (a, l1) -> exists a1, emit_children c doc_h (rev old) (mkest t0 l0) = (Ok a1, mkest t0 l1) /\ a = a1 ++ out.
  Lemma lst_ext : forall s f g, (forall x r, g x = Some r -> f x = Some r) -> lst s f -> lst s g.
  Proof. intros s f g E (old & u & s0 & out & H1 & H2 & H3 & H4 & H5). exists old, u, s0, out. repeat (split; [assumption|]). intros t0 l0 a l1 H. apply H5, E, H. Qed.
  Lemma lat_lst : forall s f, lat s f -> lst s f.
  Proof. intros s f (old & u & s0 & out & H1 & H2 & H3 & H4 & H5). exists old, u, s0, out. repeat (split; [assumption|]). split; [apply atdoc_docst; exact H3|]. auto. Qed.
  Lemma run_lift : forall blog old u, old_ok old -> forall ms s, B s -> run blog ms (lift old u s) = lift old u (run blog ms s).
  Proof. intros blog old u Ho ms s Hs. exact (proj2 (lift_run old u Ho (block_groups blog) ms s Hs)). Qed.
  Lemma text_fact : forall old (f : tale) out t, (forall t0 l0 a l1, f l0 = Some (a, l1) -> exists a1, emit_children c doc_h (rev old) (mkest t0 l0) = (Ok a1, mkest t0 l1) /\ a = a1 ++ out) ->
    forall t0 l0 a l1, then_text f t l0 = Some (a, l1) -> exists a1, emit_children c doc_h (rev old) (mkest t0 l0) = (Ok a1, mkest t0 l1) /\ a = a1 ++ out ++ t.
  Proof.
    intros old f out t H t0 l0 a l1 E. unfold then_text in E. destruct (f l0) as [[a0 l]|] eqn:F; [|discriminate]. injection E as <- <-.
    destruct (H t0 l0 a0 l F) as (a1 & Ea & ->). exists a1. split; [exact Ea|]. rewrite app_assoc. reflexivity.
  Qed.
  Lemma first_lift : forall blog raw w, first_ok c blog raw w -> forall T s f b, tail2 T = true -> lat s f -> bol b = true ->
    exists s', lst s' (then_text f raw) /\ run blog (mts (scan (block_re blog) 0 b (w ++ T))) s = run blog (rest_ms blog (rev w ++ b) T) s'.
  Proof.
    intros blog raw w H T s f b HT (old & u & s0 & out & -> & Ho & Hs & Hu & Hf) Hb. destruct (H T s0 out b HT Hs Hb) as (s1 & Hs1 & E).
    exists (lift old u s1). split.
    - exists old, u, s1, (out ++ raw). repeat (split; [assumption || reflexivity|]). apply text_fact. exact Hf.
    - rewrite !run_lift by (assumption || (eapply docst_B; first [exact Hs1|apply atdoc_docst; exact Hs])). rewrite E. reflexivity.
  Qed.
  Lemma next_lift : forall blog raw w, next_ok c blog raw w -> forall T s f b, tail2 T = true -> lst s f -> bol b = true ->
    exists s', lst s' (then_text f ([10] ++ raw)) /\ run blog (mts (scan (block_re blog) 0 b (10 :: w ++ T))) s = run blog (rest_ms blog (rev (10 :: w) ++ b) T) s'.
  Proof.
    intros blog raw w H T s f b HT (old & u & s0 & out & -> & Ho & Hs & Hu & Hf) Hb. destruct (H T s0 out b HT Hs Hb) as (s1 & Hs1 & E).
    exists (lift old u s1). split.
    - exists old, u, s1, (out ++ [10] ++ raw). repeat (split; [assumption || reflexivity|]). apply text_fact. exact Hf.
    - rewrite !run_lift by (assumption || (eapply docst_B; first [exact Hs1|exact Hs])). f_equal. exact E.
  Qed.
  Lemma line_lift : forall blog ms s f, lst s f -> exists s', lat s' (then_text f [10]) /\ run blog (line_m :: ms) s = run blog ms s'.
  Proof.
    intros blog ms s f (old & u & s0 & out & -> & Ho & Hs & Hu & Hf). destruct (run_line c blog ms s0 out Hs) as (s1 & Hs1 & E). exists (lift old u s1). split.
    - exists old, u, s1, (out ++ [10]). repeat (split; [assumption || reflexivity|]). apply text_fact. exact Hf.
    - rewrite !run_lift by (assumption || (eapply docst_B; first [exact Hs|apply atdoc_docst; exact Hs1])). rewrite E. reflexivity.
  Qed.

  (** ** a macro *)
  Definition kw_of (m : mcall) (kw : pydict) : Prop := exists d, string2dict (macro_args m) = Some d /\ kw = dict_set ($ "text") (VStr (strip (mc_text m))) d.
  Lemma macro_emitted : forall m kw t0 l a, macro_ok m = true -> kw_of m kw -> answer (verbose c) (env c) l (mc_name m) kw = Some a ->
    emit_node c doc_h (Nd (mkh KMacroBlock (Some (strip (mc_text m))) 0 (mc_name m) (strip (macro_args m))) []) (mkest t0 l) = (Ok a, mkest t0 (called (env c) l (mc_name m) kw)).
  Proof.
    intros m kw t0 l a Hm (d & Ed & ->) Ha. destruct (macro_parts m Hm) as (_ & _ & Hn & Hargs & _). rewrite emit_node_eq. cbv zeta. cbn [hk]. unfold macro_emit. cbn [hmargs hmname hcontent hk].
    assert (strip (macro_args m) = macro_args m) as ->. { destruct Hargs as [->|(X & _)]; [reflexivity|]. apply trimmed_strip. exact X. }
    rewrite Ed. cbv zeta. assert (str_eqb (mc_name m) ($ "toc") = false) as -> by (apply str_eqb_neq; exact Hn). cbv iota. change (kind_beq KMacroBlock KMacroBlock) with true. cbv iota. cbn [toc log].
    unfold answer, called in *. destruct (u_has (env c) (mc_name m)).
    - destruct (u_call (env c) l (mc_name m) _); try discriminate; try (injection Ha as <-; reflexivity).
      destruct (2 <? verbose c)%Z; [discriminate|]. injection Ha as <-. reflexivity.
    - injection Ha as <-. reflexivity.
  Qed.
  Lemma macro_first : forall blog m kw, macro_ok m = true -> kw_of m kw -> forall T s f b, tail2 T = true -> lat s f -> bol b = true ->
    exists s', lst s' (then_call f (mc_name m) kw) /\ run blog (mts (scan (block_re blog) 0 b (wr_macro m ++ T))) s = run blog (rest_ms blog (rev (wr_macro m) ++ b) T) s'.
  Proof.
    intros blog m kw Hm Hk T s f b HT (old & u & s0 & out & -> & Ho & (dch & -> & Hd & Sh) & Hu & Hf) Hb. destruct (macro_parts m Hm) as (_ & _ & Hn & _).
    set (n := Nd (mkh KMacroBlock (Some (strip (mc_text m))) 0 (mc_name m) (strip (macro_args m))) []).
    exists (lift (n :: dch ++ old) (u ++ [mc_name m]) init_ps). split.
    - exists (n :: dch ++ old), (u ++ [mc_name m]), init_ps, []. split; [reflexivity|]. split; [reflexivity|]. split; [|split].
      + apply atdoc_docst. exists []. split; [reflexivity|]. split; [exact I|]. intro st0. reflexivity.
      + apply Forall_app. split; [exact Hu|]. constructor; [exact Hn|constructor].
      + intros t0 l0 a l1 E. unfold then_call in E. destruct (f l0) as [[a0 l]|] eqn:F; [|discriminate]. destruct (answer (verbose c) (env c) l (mc_name m) kw) as [r|] eqn:Ea; [|discriminate]. injection E as <- <-.
        destruct (Hf t0 l0 a0 l F) as (a1 & Ea1 & ->). exists ((a1 ++ out) ++ r). split; [|rewrite app_nil_r; reflexivity].
        cbn [rev]. rewrite rev_app_distr, !emit_children_app, Ea1. rewrite (Sh (mkest t0 l)). cbn [emit_children]. pose proof (macro_emitted m kw t0 l r Hm Hk Ea) as EE. fold n in EE. rewrite EE. rewrite app_nil_r. reflexivity.
    - assert (Hw : wr_macro m <> []) by (unfold wr_macro; discriminate).
      rewrite (mts_hit _ b (wr_macro m) T (macro_caps m) Hw (macro_run blog m b T Hm)).
      rewrite (run_cons blog _ _ _ G_macro_block); [|reflexivity|destruct blog; reflexivity].
      rewrite rest_scan; [|exact HT|].
      2:{ rewrite bol_app by exact Hw. unfold wr_macro. rewrite !app_assoc, rev_app_distr. reflexivity. }
      f_equal. cbn [block_handler]. unfold macro_block_repl, lift. cbn [stk txt used perr lift_stk]. rewrite app_nil_r.
      assert (U : upto_block (mkps [(doc_h, dch ++ old)] false u false) = mkps [(doc_h, dch ++ old)] false u false).
      { unfold upto_block, upto. rewrite cleanup_nobreak; [reflexivity|]. destruct dch as [|x dch]; [|exact Hd]. destruct old as [|y o]; [exact I|]. cbn [app nobreak]. intro E. cbn [old_ok] in Ho. rewrite E in Ho. discriminate. }
      rewrite U. unfold need. cbn [group mcaps macro_caps mtxt]. unfold add_macro, append_child, pop_to, set_stk. cbn. rewrite app_nil_r. reflexivity.
  Qed.
  Lemma macro_next : forall m kw, macro_ok m = true -> kw_of m kw -> forall T s f b, tail2 T = true -> lst s f -> bol b = true ->
    exists s', lst s' (then_call (then_text f [10]) (mc_name m) kw) /\ run true (mts (scan (block_re true) 0 b (10 :: wr_macro m ++ T))) s = run true (rest_ms true (rev (10 :: wr_macro m) ++ b) T) s'.
  Proof.
    intros m kw Hm Hk T s f b HT Hs Hb. rewrite gap_lazy; try assumption; try reflexivity. cbn [mts flat_map app].
    destruct (line_lift true (mts (scan (block_re true) 0 (10 :: b) (wr_macro m ++ T))) s f Hs) as (s1 & Hs1 & E1).
    destruct (macro_first true m kw Hm Hk T s1 _ (10 :: b) HT Hs1 eq_refl) as (s2 & Hs2 & E2). exists s2. split; [exact Hs2|].
    unfold mts in E1, E2. rewrite E1, E2. cbn [rev]. rewrite <- app_assoc. reflexivity.
  Qed.

  (** ** the document *)
  Definition pafter (d : list piece) : str := match d with [] => [] | _ => [10; 10] ++ wr_pieces d end.
  Lemma wr_pieces_cons : forall p d, wr_pieces (p :: d) = wr_piece p ++ pafter d.
  Proof. intros p [|p2 d]; [cbn [wr_pieces pafter]; rewrite app_nil_r; reflexivity|reflexivity]. Qed.
  Lemma piece_head : forall blog p, piece_ok blog p = true -> truthy (wr_piece p) = true /\ head_is is_space (wr_piece p) = false.
  Proof. intros blog [b|m] H; [exact (block_head blog b H)|]. split; reflexivity. Qed.
  Lemma pafter_tail2 : forall blog d, forallb (piece_ok blog) d = true -> tail2 (pafter d) = true.
  Proof.
    intros blog [|p d] H; [reflexivity|]. cbn [forallb] in H. apply andb_true_iff in H as [H _]. destruct (piece_head blog p H) as (A1 & A2).
    cbn [pafter tail2 app]. rewrite wr_pieces_cons. destruct (head_app is_space (wr_piece p) (pafter d) A1) as (-> & ->). rewrite A2. reflexivity.
  Qed.
  Definition html_all := fun blog d kws l => html_pieces blog (strict c) (verbose c) (env c) d kws l.
  (** [f], then the rest of the document *)
  Definition then_all (f : tale) (blog : bool) (d : list piece) (kws : list pydict) : tale := fun x =>
    match f x with
    | Some (a, l) => match html_all blog d kws l with Some (t, l') => Some (a ++ between d ++ t, l') | None => None end
    | None => None
    end.
  Lemma pieces_run : forall blog d, forallb (piece_ok blog) d = true -> forallb (piece_after_blank blog) d = true -> forall kws, Forall2 kw_of (macros_of d) kws -> forall b s f, lst s f ->
    exists s', lst s' (then_all f blog d kws) /\ run blog (rest_ms blog b (pafter d)) s = s'.
  Proof.
    intros blog d. induction d as [|p d IH]; intros Hok Ha kws Hk b0 s f Hs.
    - exists s. split; [|reflexivity]. apply (lst_ext s f); [|exact Hs]. intros x r H. unfold then_all in H. destruct (f x) as [[a l]|]; [|discriminate]. cbn in H. rewrite app_nil_r in H. exact H.
    - cbn [forallb] in Hok, Ha. apply andb_true_iff in Hok as [H1 H2], Ha as [A1 A2]. pose proof (pafter_tail2 blog d H2) as HT. destruct p as [b|m].
      + cbn [piece_ok piece_after_blank macros_of] in *.
        destruct (next_lift blog _ _ (block_next c no_toc blog b H1 A1) (pafter d) s f (10 :: b0) HT Hs eq_refl) as (s1 & Hs1 & E1).
        destruct (IH H2 A2 kws Hk (rev (10 :: wr_block b) ++ 10 :: b0) s1 _ Hs1) as (s2 & Hs2 & E2). exists s2. split.
        * revert Hs2. apply lst_ext. intros x r H. unfold then_all, then_text, html_all in *. cbn [html_pieces between] in H. destruct (f x) as [[a l]|]; [|discriminate].
          destruct (html_pieces blog (strict c) (verbose c) (env c) d kws l) as [[t l']|]; [|discriminate]. rewrite <- H. unfold html_raw. fold (line_end b). rewrite <- !app_assoc. reflexivity.
        * rewrite <- E2, <- E1. unfold pafter at 1. cbn [rest_ms app]. rewrite wr_pieces_cons. reflexivity.
      + cbn [piece_ok piece_after_blank macros_of] in *. subst blog. inversion Hk as [|m' kw ms kws' Hkw Hks]; subst.
        destruct (macro_next m kw H1 Hkw (pafter d) s f (10 :: b0) HT Hs eq_refl) as (s1 & Hs1 & E1).
        destruct (IH H2 A2 kws' Hks (rev (10 :: wr_macro m) ++ 10 :: b0) s1 _ Hs1) as (s2 & Hs2 & E2). exists s2. split.
        * revert Hs2. apply lst_ext. intros x r H. unfold then_all, then_text, then_call, html_all in *. cbn [html_pieces between] in H. destruct (f x) as [[a l]|]; [|discriminate].
          destruct (answer (verbose c) (env c) l (mc_name m) kw) as [r0|]; [|discriminate].
          destruct (html_pieces true (strict c) (verbose c) (env c) d kws' (called (env c) l (mc_name m) kw)) as [[t l']|]; [|discriminate]. rewrite <- H. rewrite <- !app_assoc. reflexivity.
        * rewrite <- E2, <- E1. unfold pafter at 1. cbn [rest_ms app]. rewrite wr_pieces_cons. reflexivity.
  Qed.
  Lemma pieces_run_first : forall blog p d kws, pieces_ok blog (p :: d) = true -> Forall2 kw_of (macros_of (p :: d)) kws ->
    lst (parse_block blog (wr_pieces (p :: d)) init_ps) (fun l => html_all blog (p :: d) kws l).
  Proof.
    intros blog p d kws H Hk. unfold pieces_ok in H. cbn [forallb tl] in H. apply andb_true_iff in H as [H A2]. apply andb_true_iff in H as [H1 H2].
    pose proof (pafter_tail2 blog d H2) as HT.
    assert (Hi : lat init_ps (fun l => Some ([], l))).
    { exists [], [], init_ps, []. split; [reflexivity|]. split; [exact I|]. split; [exists []; split; [reflexivity|]; split; [exact I|apply showns_nil]|]. split; [constructor|].
      intros t0 l0 a l1 E. injection E as <- <-. exists []. split; reflexivity. }
    destruct p as [b|m].
    - cbn [piece_ok macros_of] in *. destruct (first_lift blog _ _ (block_first c no_toc blog b H1) (pafter d) init_ps _ [] HT Hi eq_refl) as (s1 & Hs1 & E1).
      destruct (pieces_run blog d H2 A2 kws Hk (rev (wr_block b) ++ []) s1 _ Hs1) as (s2 & Hs2 & E2).
      assert (E : parse_block blog (wr_pieces (PBlock b :: d)) init_ps = s2) by (rewrite <- E2, <- E1, wr_pieces_cons; reflexivity). rewrite E. revert Hs2. apply lst_ext.
      intros x r H. unfold then_all, then_text, html_all in *. cbn [html_pieces] in H.
      destruct (html_pieces blog (strict c) (verbose c) (env c) d kws x) as [[t l']|]; [|discriminate]. rewrite <- H. unfold html_raw. fold (line_end b). cbn [app]. rewrite <- !app_assoc. reflexivity.
    - cbn [piece_ok macros_of] in *. inversion Hk as [|m' kw ms kws' Hkw Hks]; subst.
      destruct (macro_first blog m kw H1 Hkw (pafter d) init_ps _ [] HT Hi eq_refl) as (s1 & Hs1 & E1).
      destruct (pieces_run blog d H2 A2 kws' Hks (rev (wr_macro m) ++ []) s1 _ Hs1) as (s2 & Hs2 & E2).
      assert (E : parse_block blog (wr_pieces (PMacro m :: d)) init_ps = s2) by (rewrite <- E2, <- E1, wr_pieces_cons; reflexivity). rewrite E. revert Hs2. apply lst_ext.
      intros x r H. unfold then_all, then_call, html_all in *. cbn [html_pieces] in H.
      destruct (answer (verbose c) (env c) x (mc_name m) kw) as [r0|]; [|discriminate].
      destruct (html_pieces blog (strict c) (verbose c) (env c) d kws' (called (env c) x (mc_name m) kw)) as [[t l']|]; [|discriminate]. rewrite <- H. cbn [app]. reflexivity.
  Qed.
  Lemma lst_emit : forall s f, lst s f -> exists root u, finish s = Some (root, u) /\ existsb (str_eqb ($ "toc")) u = false /\
    forall t0 l0 a l1, f l0 = Some (a, l1) -> emit_node c doc_h root (mkest t0 l0) = (Ok a, mkest t0 l1).
  Proof.
    intros s f (old & u & s0 & out & -> & Ho & Hs & Hu & Hf). pose proof (docst_B s0 out Hs) as [HB _]. destruct Hs as (h & ch & up & dch & -> & _ & _ & Hp & Sh).
    exists (Nd doc_h (rev (dch ++ old))), u. split; [|split].
    - unfold finish. change (perr (lift old u (mkps ((h, ch) :: up) false [] false))) with false. cbv iota.
      rewrite (proj2 (comm_pop_to old u 1 _ HB)). unfold pop_to, set_stk. cbn [stk List.length used].
      match goal with |- context [pop_n ?n ?k] => replace (pop_n n k) with [(doc_h, dch)] end; [|rewrite <- Hp; f_equal; symmetry; apply Nat.sub_0_r].
      unfold lift. cbn [stk lift_stk used]. rewrite app_nil_r. reflexivity.
    - clear - Hu. induction Hu as [|x l Hx _ IH]; [reflexivity|]. cbn [existsb]. rewrite IH. rewrite orb_false_r. apply str_eqb_neq. congruence.
    - intros t0 l0 a l1 E. destruct (Hf t0 l0 a l1 E) as (a1 & E1 & ->). rewrite emit_node_eq. cbv zeta. cbn [hk mkn]. rewrite rev_app_distr, emit_children_app, E1, (Sh (mkest t0 l1)). reflexivity.
  Qed.
End MDoc.
Lemma macro_kw : forall m, macro_ok m = true -> exists kw, kw_of m kw /\ call_means m kw.
Proof.
  intros m H. destruct (macro_parts m H) as (_ & _ & _ & _ & Ha & _). destruct (lemma_C58 (mc_args m) Ha) as (d & Ed & Hd). exists (dict_set ($ "text") (VStr (strip (mc_text m))) d). split.
  - exists d. split; [|reflexivity]. rewrite <- Ed. unfold macro_args. destruct (mc_args m); reflexivity.
  - split; [rewrite dict_get_set, str_eqb_refl; reflexivity|]. intros k Hk. rewrite dict_get_set. assert (str_eqb k ($ "text") = false) as -> by (apply str_eqb_neq; exact Hk). apply Hd.
Qed.
Lemma pieces_kws : forall blog d, forallb (piece_ok blog) d = true -> exists kws, Forall2 kw_of (macros_of d) kws /\ Forall2 call_means (macros_of d) kws.
Proof.
  intros blog. induction d as [|[b|m] d IH]; intro H; [exists []; split; constructor| |]; cbn [forallb] in H; apply andb_true_iff in H as [H1 H2]; destruct (IH H2) as (kws & A1 & A2).
  - exists kws. split; assumption.
  - destruct (macro_kw m H1) as (kw & K1 & K2). exists (kw :: kws). split; constructor; assumption.
Qed.
Lemma no_char_13 : forall t, no_char [13] t = true -> ~ In 13 t.
Proof. intros t H X. apply (no_char_In _ _ _ H X). left. reflexivity. Qed.
Lemma piece_no_cr : forall blog p, piece_ok blog p = true -> ~ In 13 (wr_piece p).
Proof.
  intros blog [b|m] H; [exact (block_no_cr blog b H)|]. destruct (macro_parts m H) as (_ & Hw & _ & Ha & _ & Ht & _ & E). cbn [wr_piece]. rewrite E.
  assert (N1 : ~ In 13 (mc_name m)) by (intro X; rewrite forallb_forall in Hw; specialize (Hw _ X); discriminate).
  assert (N2 : ~ In 13 (spaced (macro_args m))).
  { destruct Ha as [->|(_ & X & _)]; [intros []|]. apply no_cr in X. destruct (macro_args m); [intros []|]. intros [D|D]; [discriminate|exact (X D)]. }
  pose proof (no_char_13 _ Ht) as N3. rewrite !in_app_iff. cbn. intuition discriminate.
Qed.
Lemma pieces_no_cr : forall blog d, forallb (piece_ok blog) d = true -> ~ In 13 (wr_pieces d).
Proof.
  intros blog. induction d as [|p d IH]; intro H; [intros []|]. cbn [forallb] in H. apply andb_true_iff in H as [H1 H2]. rewrite wr_pieces_cons.
  intro X. apply in_app_or in X as [X|X]; [exact (piece_no_cr blog p H1 X)|]. destruct d as [|p2 d]; [destruct X|]. unfold pafter in X. apply in_app_or in X as [[X|[X|[]]]|X]; [discriminate|discriminate|exact (IH H2 X)].
Qed.
Theorem pieces_spec : forall blog d, pieces_ok blog d = true -> exists kws, Forall2 call_means (macros_of d) kws /\
  forall verbose strict md html calls,
    html_pieces blog strict (match verbose with None => 1%Z | Some v => v end) (md_env md) d kws (md_log md) = Some (html, calls) ->
    creole2html (mkopts blog verbose strict) md (wr_pieces d) = (Ok (strip html), mkmd (md_env md) (md_toc md) calls).
Proof.
  intros blog d H. pose proof H as H'. unfold pieces_ok in H'. apply andb_true_iff in H' as [H1 _]. destruct (pieces_kws blog d H1) as (kws & K1 & K2). exists kws. split; [exact K2|].
  intros v s md html calls E. destruct d as [|p d].
  - cbn in E. injection E as <- <-. destruct md as [e t l]. destruct blog, v, t; reflexivity.
  - unfold creole2html. cbn [o_blog o_verbose o_strict]. unfold parse. rewrite norm_id by (eapply pieces_no_cr; exact H1).
    set (c := mkcfg (match v with None => 1%Z | Some v => v end) s (md_env md) false).
    destruct (lst_emit c _ _ (pieces_run_first c eq_refl blog p d kws H K1)) as (root & u & -> & Eu & Em). unfold init_toc. rewrite Eu. fold c. unfold emit.
    rewrite (Em (md_toc md) (md_log md) html calls E). change (use_toc c) with false. cbv iota beta. reflexivity.
Qed.
