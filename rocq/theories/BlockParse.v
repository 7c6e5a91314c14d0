(** * Unambiguous documents: what the parser builds and what is shown *)
From Coq Require Import String List Arith NArith ZArith Bool Lia.
From Verif Require Import PyStr PyStrFacts GNames Regex Rules RegexFacts RegexRun Utils DocTree CreoleParser ParserFacts
  HtmlEmitter EmitterFacts HtmlToolsFacts Spec4 Spec5 InlineRun InlineParse BlockRun BlockHits TableHits.
Import ListNotations.
Open Scope N_scope.

(** ** the text before a line does not matter at its start *)
Definition same_before (b1 b2 : str) : Prop := head_is (N.eqb 58) b1 = head_is (N.eqb 58) b2 /\ word_start b1 = word_start b2.
Lemma same_before_app : forall w b1 b2, same_before b1 b2 -> same_before (w ++ b1) (w ++ b2).
Proof. intros [|c w] b1 b2 H; [exact H|]. split; reflexivity. Qed.
Lemma literals_before : forall w b1 b2 t, same_before b1 b2 -> literals b1 w t = literals b2 w t.
Proof.
  induction w as [|c w IH]; intros b1 b2 t H; [reflexivity|]. cbn [literals]. rewrite (IH (c :: b1) (c :: b2) t) by (split; reflexivity).
  f_equal. unfold literal, url_here. destruct H as [-> ->]. reflexivity.
Qed.
Lemma inl_ok_before : forall i b1 b2 t, same_before b1 b2 -> inl_ok b1 i t = inl_ok b2 i t.
Proof.
  intros [w|d|f body|x|a x|a x sz|u| |a body] b1 b2 t H; cbn [inl_ok]; try reflexivity.
  - rewrite (literals_before w b1 b2 t H). reflexivity.
  - unfold url_here. destruct H as [_ ->]. reflexivity.
  - destruct H as [-> _]. reflexivity.
  - destruct H as [_ ->]. reflexivity.
Qed.
Lemma inls_ok_before : forall l b1 b2, same_before b1 b2 -> inls_ok b1 l = inls_ok b2 l.
Proof.
  induction l as [|i l IH]; intros b1 b2 H; [reflexivity|]. cbn [inls_ok]. rewrite (inl_ok_before i b1 b2 _ H).
  rewrite (IH (rev (wr_inl i) ++ b1) (rev (wr_inl i) ++ b2)); [reflexivity|]. apply same_before_app. exact H.
Qed.
Lemma url_start_head : forall t, head_is is_space t = true -> url_start t = false.
Proof.
  intros [|c t] H; [discriminate|]. cbn [head_is] in H.
  assert (X : forall p, In p protocols -> startswith (p ++ $ "://") (c :: t) = false).
  { intros p Hp. cbn [protocols In] in Hp.
    repeat (destruct Hp as [<-|Hp]; [cbn [app startswith]; match goal with |- (?d =? c) && _ = _ => destruct (N.eqb_spec d c) as [<-|]; [discriminate H|reflexivity] end|]). contradiction. }
  unfold url_start. match goal with |- ?x = false => destruct x eqn:E; [|reflexivity] end. apply existsb_exists in E as (p & Hp & E). rewrite (X p Hp) in E. discriminate.
Qed.
Lemma space_ok : forall l, inls_ok [] l = true -> inls_ok [] (IText [32] :: l) = true.
Proof.
  intros l H. cbn [inls_ok inl_ok wr_inl rev app truthy is_nil negb andb literals]. rewrite (inls_ok_before l [32] []) by (split; reflexivity). rewrite H, !andb_true_r.
  unfold literal, url_here. rewrite url_start_head by reflexivity. reflexivity.
Qed.

Section Blocks.
  Variable c : cfg.
  Hypothesis no_toc : use_toc c = false.
  Notation shown := (shown c).
  Notation showns := (showns c).
  Notation doc_h := (mkn KDocument None).

  Definition run (blog : bool) (ms : list mtch) (s : ps) : ps := fold_left (replace_ (block_groups blog) block_handler) ms s.
  Lemma run_app : forall blog a b s, run blog (a ++ b) s = run blog b (run blog a s).
  Proof. intros. unfold run. apply fold_left_app. Qed.
  Lemma run_cons : forall blog x ms s g, perr s = false -> first_group (block_groups blog) x = Some g ->
    run blog (x :: ms) s = run blog ms (block_handler g x s).
  Proof. intros blog x ms s g Hp Hg. unfold run. cbn [fold_left]. unfold replace_ at 2. rewrite Hp, Hg. reflexivity. Qed.

  Definition nobreak (ch : list node) : Prop := match ch with n :: _ => nkind n <> KBreak | [] => True end.
  Lemma solid_nobreak : forall ch, solid ch -> nobreak ch.
  Proof. intros ch (n & r & -> & H). exact H. Qed.
  Lemma cleanup_nobreak : forall h ch up t u e, nobreak ch -> cleanup_break (mkps ((h, ch) :: up) t u e) = mkps ((h, ch) :: up) t u e.
  Proof.
    intros h [|n ch] up t u e H; [reflexivity|]. cbn [nobreak] in H. unfold cleanup_break. cbn [stk].
    destruct (kind_beq (nkind n) KBreak) eqn:E; [|reflexivity]. apply kind_beq_eq in E. contradiction.
  Qed.

  (** between blocks *)
  Definition atdoc (s : ps) (out : str) : Prop := exists dch,
    s = mkps [(doc_h, dch)] false [] false /\ nobreak dch /\ showns doc_h (rev dch) out.
  (** after a block: its nodes may still be open *)
  Definition docst (s : ps) (out : str) : Prop := exists h ch up dch,
    s = mkps ((h, ch) :: up) false [] false /\ nobreak ch /\
    (forall f, In f (removelast ((h, ch) :: up)) -> hk (fst f) <> KDocument) /\
    pop_n (List.length up) ((h, ch) :: up) = [(doc_h, dch)] /\ showns doc_h (rev dch) out.
  Lemma atdoc_docst : forall s out, atdoc s out -> docst s out.
  Proof. intros s out (dch & -> & H1 & H2). exists doc_h, dch, [], dch. repeat split; auto. Qed.
  Lemma kind_in_doc : forall k, k <> KDocument -> kind_in k [KDocument] = false.
  Proof. intros k H. unfold kind_in. cbn [existsb]. rewrite orb_false_r. destruct (kind_beq k KDocument) eqn:E; [|reflexivity]. apply kind_beq_eq in E. contradiction. Qed.
  Lemma upto_pop : forall up h ch, (forall f, In f (removelast ((h, ch) :: up)) -> hk (fst f) <> KDocument) ->
    upto_loop [KDocument] h ch up = pop_n (List.length up) ((h, ch) :: up).
  Proof.
    induction up as [|[h' ch'] up IH]; intros h ch H; [reflexivity|]. cbn [upto_loop List.length pop_n pop1].
    rewrite kind_in_doc by (apply (H (h, ch)); left; reflexivity). apply IH. intros f Hf.
    destruct up as [|f2 up]; [contradiction|].
    destruct Hf as [<-|Hf]; [apply (H (h', ch')); right; left; reflexivity|]. apply H. right. right. exact Hf.
  Qed.
  Lemma docst_block : forall s out, docst s out -> atdoc (upto_block s) out \/ exists dch, upto_block s = mkps [(doc_h, dch)] false [] false /\ showns doc_h (rev dch) out.
  Proof.
    intros s out (h & ch & up & dch & -> & H1 & H2 & H3 & H4). right. exists dch. split; [|exact H4].
    unfold upto_block, upto. rewrite cleanup_nobreak by exact H1. cbn [stk]. rewrite upto_pop, H3 by exact H2. reflexivity.
  Qed.
  Lemma line_step : forall s out, docst s out -> atdoc (line_repl s) (out ++ [10]).
  Proof.
    intros s out H. destruct (docst_block s out H) as [(dch & E & _ & Sh)|(dch & E & Sh)];
      unfold line_repl; rewrite E; exists (Nd (mkn KLine (Some [])) [] :: dch); (split; [reflexivity|]; split; [discriminate|]); cbn [rev];
      apply showns_snoc; try exact Sh; intro st; rewrite emit_node_eq; reflexivity.
  Qed.
  Lemma atdoc_upto : forall dch, nobreak dch -> upto_block (mkps [(doc_h, dch)] false [] false) = mkps [(doc_h, dch)] false [] false.
  Proof. intros dch H. unfold upto_block, upto. rewrite cleanup_nobreak by exact H. reflexivity. Qed.

  (** ** what stands after a block *)
  Definition rest_ms (blog : bool) (b T : str) : list mtch :=
    match T with [] => [] | _ :: T' => mts (scan (block_re blog) 0 (10 :: b) T') end.
  Lemma rest_scan : forall blog b T, tail2 T = true -> bol b = false -> mts (scan (block_re blog) 0 b T) = rest_ms blog b T.
  Proof.
    intros blog b T HT Hb. destruct (tail2_cases T HT) as [->|(X & -> & _)]; cbn [rest_ms].
    - rewrite scan_end, at_pos_miss; [reflexivity|]. apply end_no. exact Hb.
    - rewrite scan_miss; [reflexivity|]. apply newline_no; [exact Hb|]. right. right. reflexivity.
  Qed.
  Lemma mts_hit : forall re b w T cs, w <> [] -> m re (mk b (w ++ T) []) fin = Some (mk (rev w ++ b) T cs) ->
    mts (scan re 0 b (w ++ T)) = mkm w cs :: mts (scan re 0 (rev w ++ b) T).
  Proof. intros re b w T cs Hw H. rewrite (scan_hit _ _ w T cs Hw H). reflexivity. Qed.
  Lemma mts_adv : forall blog b w T cs, truthy (w ++ T) = true -> head_is is_space (w ++ T) = false -> bol b = true ->
    m (block_re blog) (mk b ((10 :: w) ++ T) []) (fadv ((10 :: w) ++ T)) = Some (mk (rev (10 :: w) ++ b) T cs) ->
    mts (scan (block_re blog) 0 b ((10 :: w) ++ T)) = line_m :: mkm (10 :: w) cs :: mts (scan (block_re blog) 0 (rev (10 :: w) ++ b) T).
  Proof. intros. rewrite (scan_adv _ _ _ _ cs) by assumption. reflexivity. Qed.
  Lemma bol_app : forall w b, w <> [] -> bol (rev w ++ b) = bol (rev w).
  Proof. intros w b H. destruct (exists_last H) as (v & d & ->). rewrite rev_app_distr. reflexivity. Qed.
  Lemma bol_last : forall w, w <> [] -> last_is (N.eqb 10) w = false -> bol (rev w) = false.
  Proof. intros w H1 H2. destruct (exists_last H1) as (v & d & ->). unfold last_is in H2. rewrite rev_app_distr in *. cbn [rev app head_is bol] in *. rewrite N.eqb_sym. exact H2. Qed.

  (** [blk] is processed: from the start of the text ... *)
  Definition first_ok (blog : bool) (raw w : str) : Prop := forall T s out b, tail2 T = true -> atdoc s out -> bol b = true ->
    exists s', docst s' (out ++ raw) /\ run blog (mts (scan (block_re blog) 0 b (w ++ T))) s = run blog (rest_ms blog (rev w ++ b) T) s'.
  (** ... or after an empty line *)
  Definition next_ok (blog : bool) (raw w : str) : Prop := forall T s out b, tail2 T = true -> docst s out -> bol b = true ->
    exists s', docst s' (out ++ [10] ++ raw) /\
      run blog (mts (scan (block_re blog) 0 b ((10 :: w) ++ T))) s = run blog (rest_ms blog (rev (10 :: w) ++ b) T) s'.
  Lemma docst_perr : forall s out, docst s out -> perr s = false.
  Proof. intros s out (h & ch & up & dch & -> & _). reflexivity. Qed.
  Lemma atdoc_perr : forall s out, atdoc s out -> perr s = false.
  Proof. intros s out (dch & -> & _). reflexivity. Qed.
  Lemma run_line : forall blog ms s out, docst s out -> exists s', atdoc s' (out ++ [10]) /\ run blog (line_m :: ms) s = run blog ms s'.
  Proof.
    intros blog ms s out H. exists (line_repl s). split; [apply line_step; exact H|].
    rewrite (run_cons blog line_m ms s G_line); [reflexivity|eapply docst_perr; exact H|destruct blog; reflexivity].
  Qed.
  (** blocks that are matched on their own line after the empty line *)
  Lemma next_lazy : forall raw w, first_ok true raw w -> truthy w = true -> head_is is_space w = false ->
    (forall T, tail T = true -> startswith ($ "----") (w ++ T) = false /\ list_start (w ++ T) = false /\ head_is (N.eqb 124) (w ++ T) = false) ->
    next_ok true raw w.
  Proof.
    intros raw w HF H1 H2 H3 T s out b HT Hs Hb. destruct (H3 T (tail2_tail T HT)) as (A1 & A2 & A3).
    cbn [app]. rewrite gap_lazy; try assumption; try (destruct w; [discriminate|]; assumption || reflexivity).
    cbn [mts flat_map app]. destruct (run_line true (mts (scan (block_re true) 0 (10 :: b) (w ++ T))) s out Hs) as (s1 & Hs1 & E1).
    destruct (HF T s1 (out ++ [10]) (10 :: b) HT Hs1 eq_refl) as (s2 & Hs2 & E2). exists s2. split; [change (10 :: raw) with ([10] ++ raw); rewrite app_assoc; exact Hs2|].
    unfold mts in E1, E2. rewrite E1, E2. cbn [rev]. rewrite <- app_assoc. reflexivity.
  Qed.

  (** ** headings *)
  Lemma shown_header : forall h n t, shown h (Nd (mkl KHeader (Some t) n) []) (elem ($ "h" ++ show_nat n) (escape t) ++ [10]).
  Proof.
    intros h n t st. rewrite emit_node_eq. cbv zeta. cbn [hk mkl hcontent]. unfold header_emit. rewrite no_toc. cbn [hlevel mkl].
    unfold elem. repeat (rewrite <- ?app_assoc; cbn [app]). reflexivity.
  Qed.
  Lemma head_scan : forall blog n sp0 t cl, block_ok true (BHead n sp0 t cl) = true -> forall T dch u b, tail2 T = true -> nobreak dch -> bol b = true ->
    run blog (mts (scan (block_re blog) 0 b (wr_block (BHead n sp0 t cl) ++ T))) (mkps [(doc_h, dch)] false u false) =
    run blog (rest_ms blog (rev (wr_block (BHead n sp0 t cl)) ++ b) T) (mkps [(doc_h, Nd (mkl KHeader (Some t) n) [] :: dch)] false u false).
  Proof.
    intros blog n sp0 t cl Hok T dch u b HT Hd Hb.
    pose proof Hok as Hok'. cbn [block_ok] in Hok'. rewrite !andb_true_iff, !negb_true_iff in Hok'.
    destruct Hok' as [[[[[[Hn Hsp] Ht] Hnl] Hh] Hl] Hcl].
    remember (wr_block (BHead n sp0 t cl)) as w eqn:Ew.
    assert (Hw : head_is (N.eqb 61) w = true) by (subst w; destruct n; [discriminate|reflexivity]).
    assert (Hm : m (block_re blog) (mk b (w ++ T) []) fin = Some (mk (rev w ++ b) T (head_caps n w t))).
    { rewrite block_alts. destruct w as [|d w']; [discriminate|]. cbn [head_is] in Hw. apply N.eqb_eq in Hw. subst d. unfold r_macro_block.
      rewrite macro_no by reflexivity. rewrite line_no by (right; reflexivity). cbn [orelse]. apply orelse_some. rewrite Ew. apply head_hit; [exact Hok|exact Hb|apply tail2_tail; exact HT]. }
    assert (Hwn : w <> []) by (intros ->; discriminate).
    rewrite (mts_hit _ _ _ _ _ Hwn Hm).
    assert (Hbl : bol (rev w ++ b) = false).
    { rewrite bol_app by exact Hwn. apply bol_last; [exact Hwn|]. subst w. cbn [wr_block].
      destruct cl as [|d cl] using rev_ind.
      - rewrite app_nil_r, app_assoc. unfold trimmed in Ht. rewrite !andb_true_iff in Ht. destruct Ht as [_ Ht].
        rewrite last_is_suffix by (destruct t; discriminate). unfold last_is. destruct (rev t) as [|d r] eqn:R; [reflexivity|]. cbn [head_is].
        rewrite N.eqb_sym. eapply (no_nl [10; 13] t d (rev r) []); [left; reflexivity|exact Hnl|]. rewrite <- (rev_involutive t), R. reflexivity.
      - rewrite !app_assoc, last_is_suffix by discriminate. rewrite forallb_app in Hcl. apply andb_true_iff in Hcl as [_ Hcl]. cbn [forallb] in Hcl.
        rewrite andb_true_r in Hcl. apply orb_true_iff in Hcl as [H|H]; apply N.eqb_eq in H; subst d; reflexivity. }
    rewrite rest_scan by assumption.
    rewrite (run_cons blog _ _ _ G_head) by (destruct blog; reflexivity). f_equal. cbn [block_handler]. unfold head_repl.
    assert (U : upto_block (mkps [(doc_h, dch)] false u false) = mkps [(doc_h, dch)] false u false) by (unfold upto_block, upto; rewrite cleanup_nobreak by exact Hd; reflexivity). rewrite U.
    rewrite (need_some G_head_text _ _ _ t) by reflexivity. rewrite (need_some G_head_head _ _ _ (repeat 61 n)) by reflexivity.
    rewrite repeat_length, trimmed_strip by exact Ht. reflexivity.
  Qed.
  Lemma head_first : forall blog n sp0 t cl, block_ok true (BHead n sp0 t cl) = true ->
    first_ok blog (html_block true (strict c) (BHead n sp0 t cl) ++ [10]) (wr_block (BHead n sp0 t cl)).
  Proof.
    intros blog n sp0 t cl Hok T s out b HT (dch & -> & Hd & Sh) Hb. eexists. split; [|apply head_scan; assumption].
    apply atdoc_docst. eexists. split; [reflexivity|]. split; [discriminate|]. cbn [rev html_block]. apply showns_snoc; [exact Sh|]. apply shown_header.
  Qed.
  Lemma head_next : forall n sp0 t cl, block_ok true (BHead n sp0 t cl) = true ->
    next_ok true (html_block true (strict c) (BHead n sp0 t cl) ++ [10]) (wr_block (BHead n sp0 t cl)).
  Proof.
    intros n sp0 t cl Hok. apply next_lazy; [apply head_first; exact Hok| | |]; cbn [block_ok] in Hok; destruct n as [|n]; try discriminate; try reflexivity.
    intros T HT. repeat split. cbn [wr_block repeat app list_start]. match goal with |- match ?x with _ => _ end = _ => destruct x end; reflexivity.
  Qed.

  (** ** rules *)
  Lemma rule_m : forall blog p b T k r, lead p -> bol b = true -> tail T = true ->
    (p = [] \/ forall k', m r_line (mk b (p ++ $ "----" ++ T) []) k' = m r_line (mk b (p ++ $ "----" ++ T) []) k' /\ m r_line (mk b (p ++ $ "----" ++ T) []) k = None) ->
    k (mk (rev (p ++ $ "----") ++ b) T [(G_separator, p ++ $ "----")]) = Some r ->
    m (block_re blog) (mk b (p ++ $ "----" ++ T) []) k = Some r.
  Proof.
    intros blog p b T k r Hp Hb HT Hl Hk. rewrite block_alts. unfold r_macro_block. rewrite macro_no by (destruct Hp as [-> | ->]; reflexivity).
    assert (L : m r_line (mk b (p ++ $ "----" ++ T) []) k = None).
    { destruct Hl as [->|Hl]; [apply line_no; right; reflexivity|]. apply (Hl k). }
    rewrite L. rewrite head_no by (right; destruct Hp as [-> | ->]; reflexivity). cbn [orelse]. apply orelse_some. apply sep_hit; assumption.
  Qed.
  Lemma shown_rule : forall h, shown h (Nd (mkn KSeparator None) []) ($ "<hr />" ++ [10]).
  Proof. intros h st. rewrite emit_node_eq. reflexivity. Qed.
  Lemma rule_step : forall s out, atdoc s out -> docst (separator_repl s) (out ++ $ "<hr />" ++ [10]).
  Proof.
    intros s out (dch & -> & Hd & Sh). apply atdoc_docst. unfold separator_repl. rewrite atdoc_upto by exact Hd.
    eexists. split; [reflexivity|]. split; [discriminate|]. cbn [rev]. apply showns_snoc; [exact Sh|apply shown_rule].
  Qed.
  Lemma rule_first : forall blog, first_ok blog ($ "<hr />" ++ [10]) ($ "----").
  Proof.
    intros blog T s out b HT Hs Hb. rewrite (mts_hit _ _ ($ "----") T [(G_separator, $ "----")]); [|discriminate|].
    - rewrite rest_scan by (exact HT || reflexivity). rewrite (run_cons blog _ _ _ G_separator) by (try (eapply atdoc_perr; exact Hs); destruct blog; reflexivity).
      eexists. split; [apply rule_step; exact Hs|reflexivity].
    - apply (rule_m blog []); [left; reflexivity|exact Hb|apply tail2_tail; exact HT|left; reflexivity|reflexivity].
  Qed.
  Lemma rule_next : forall blog, next_ok blog ($ "<hr />" ++ [10]) ($ "----").
  Proof.
    intros blog T s out b HT Hs Hb. rewrite (mts_adv _ _ ($ "----") T [(G_separator, 10 :: $ "----")]); try reflexivity; [| exact Hb |].
    - rewrite rest_scan by (exact HT || reflexivity).
      destruct (run_line blog (mkm (10 :: $ "----") [(G_separator, 10 :: $ "----")] :: rest_ms blog (rev (10 :: $ "----") ++ b) T) s out Hs) as (s1 & Hs1 & ->).
      rewrite (run_cons blog _ _ _ G_separator) by (try (eapply atdoc_perr; exact Hs1); destruct blog; reflexivity).
      eexists. split; [rewrite app_assoc; apply rule_step; exact Hs1|reflexivity].
    - apply (rule_m blog [10]); [right; reflexivity|exact Hb|apply tail2_tail; exact HT| |].
      + right. intro k'. split; [reflexivity|]. apply (gap_line_adv ($ "----" ++ T)); reflexivity.
      + apply (fadv_hit (10 :: $ "----") T). discriminate.
  Qed.

  (** ** preformatted blocks *)
  Lemma shown_code : forall h t, shown h (Nd (mkn KPreBlock (Some t)) []) (elem ($ "pre") (escape t) ++ [10]).
  Proof. intros h t st. rewrite emit_node_eq. cbv zeta. cbn [hk mkn hcontent]. unfold elem. repeat (rewrite <- ?app_assoc; cbn [app]). reflexivity. Qed.
  Lemma lines_text_suffix : forall l a, exists v, lines_text (l ++ [a]) = v ++ a.
  Proof.
    induction l as [|x l IH]; intro a; [exists []; reflexivity|]. destruct (IH a) as (v & E). exists (x ++ [10] ++ v).
    cbn [app lines_text]. destruct (l ++ [a]) as [|y r] eqn:R; [destruct l; discriminate|]. rewrite E. rewrite <- !app_assoc. reflexivity.
  Qed.
  Lemma code_first : forall blog lines, block_ok blog (BCode lines) = true ->
    first_ok blog (html_block blog (strict c) (BCode lines) ++ [10]) (wr_block (BCode lines)).
  Proof.
    intros blog lines Hok T s out b HT (dch & -> & Hd & Sh) Hb.
    remember (wr_block (BCode lines)) as w eqn:Ew.
    assert (Hw : exists w', w = $ "{{{" ++ 10 :: w').
    { rewrite Ew. cbn [wr_block]. rewrite lines_body. eexists. reflexivity. }
    assert (Hm : m (block_re blog) (mk b (w ++ T) []) fin = Some (mk (rev w ++ b) T (code_caps w (lines_text ([] :: lines ++ [[]]))))).
    { rewrite block_alts. pose proof (preb_hit blog lines T b Hok Hb) as P. cbv zeta in P. rewrite <- Ew in P. destruct Hw as (w' & Hw). rewrite P.
      rewrite Hw. cbn [app]. unfold r_macro_block. rewrite macro_no by reflexivity. rewrite line_no by (right; reflexivity). rewrite head_no by (right; reflexivity).
      rewrite sep_no by (right; apply sp_no_here; reflexivity). reflexivity. }
    assert (Hwn : w <> []) by (destruct Hw as (w' & ->); discriminate).
    rewrite (mts_hit _ _ _ _ _ Hwn Hm).
    assert (Hbl : bol (rev w ++ b) = false).
    { rewrite Ew. cbn [wr_block]. destruct (lines_text_suffix ($ "{{{" :: lines) ($ "}}}")) as (v & E). match goal with |- bol (rev ?x ++ _) = _ => replace x with (v ++ $ "}}}") by (symmetry; exact E) end. rewrite rev_app_distr. reflexivity. }
    rewrite rest_scan by assumption.
    rewrite (run_cons blog _ _ _ G_pre_block) by (destruct blog; reflexivity). eexists. split; [|reflexivity].
    apply atdoc_docst. cbn [block_handler]. unfold pre_block_repl. rewrite atdoc_upto by exact Hd.
    rewrite (need_some G_pre_block_text _ _ _ (lines_text ([] :: lines ++ [[]]))) by reflexivity.
    cbn [block_ok] in Hok. apply andb_true_iff in Hok as [Hok _]. rewrite resub_code by exact Hok.
    eexists. split; [reflexivity|]. split; [discriminate|]. cbn [rev html_block]. apply showns_snoc; [exact Sh|]. apply shown_code.
  Qed.
  Lemma code_next : forall lines, block_ok true (BCode lines) = true ->
    next_ok true (html_block true (strict c) (BCode lines) ++ [10]) (wr_block (BCode lines)).
  Proof.
    intros lines Hok. assert (Hw : exists w', wr_block (BCode lines) = $ "{{{" ++ 10 :: w').
    { cbn [wr_block]. rewrite lines_body. eexists. reflexivity. }
    apply next_lazy; [apply code_first; exact Hok| | |]; destruct Hw as (w' & ->); try reflexivity. intros T HT. repeat split; reflexivity.
  Qed.

  (** ** paragraphs *)
  Notation par_h := (mkn KParagraph None).
  Definition in_par (dch ch : list node) : ps := mkps [(par_h, ch); (doc_h, dch)] false [] false.
  Definition par_start (dch ch : list node) (s : ps) : Prop := s = in_par dch ch \/ ch = [] /\ s = mkps [(doc_h, dch)] false [] false.
  Lemma text_open : forall x dch ch s, par_start dch ch s -> text_repl x s = text_repl x (in_par dch ch).
  Proof. intros x dch ch s [->|[-> ->]]; reflexivity. Qed.
  Lemma text_step : forall x dch ch s pout l (p : bool), par_start dch ch s -> inls_ok [] l = true ->
    group G_text x = Some (wr_inls l) -> p = truthy (group0 G_space x) && negb (is_nil ch) -> showns par_h (rev ch) pout ->
    exists ch', text_repl x s = in_par dch (if truthy (group0 G_break x) then Nd (mkn KBreak (Some [])) [] :: ch' else ch') /\
      (last_break l = false -> solid ch') /\ showns par_h (rev ch') (pout ++ (if p then [32] else []) ++ html_inls (strict c) br l).
  Proof.
    intros x dch ch s pout l p Hs Hl Hx Hp Sh. rewrite (text_open x dch ch s Hs).
    replace (text_repl x (in_par dch ch)) with (need G_text x (in_par dch ch) (fun text =>
      let s := parse_inline (if truthy (group0 G_space x) && negb (is_nil ch) then 32 :: text else text) (in_par dch ch) in
      set_txt false (if truthy (group0 G_break x) && kind_in (cur_kind s) [KParagraph; KEmphasis; KStrong; KPreInline]
                     then append_child (Nd (mkn KBreak (Some [])) []) s else s))) by reflexivity.
    rewrite (need_some _ _ _ _ _ Hx). cbv zeta. rewrite <- Hp.
    assert (A : adds c par_h (parse_inline (if p then 32 :: wr_inls l else wr_inls l)) ((if p then [32] else []) ++ html_inls (strict c) br l) (last_break l)).
    { destruct p; [|apply (inls_parse c l par_h); exact Hl].
      assert (E : last_break (IText [32] :: l) = (if is_nil l then false else last_break l)).
      { unfold last_break. cbn [rev]. destruct l as [|i l]; [reflexivity|]. cbn [is_nil]. destruct (rev (i :: l)) eqn:R; [|reflexivity].
        apply (f_equal (@rev _)) in R. rewrite rev_involutive in R. discriminate. }
      pose proof (inls_parse c (IText [32] :: l) par_h (space_ok l Hl)) as A. rewrite E in A. destruct l as [|i l]; [|exact A].
      cbn [is_nil] in A. intros c0 u0 t0 uu Ht. destruct (A c0 u0 t0 uu Ht) as (c1 & t1 & E1 & E2 & E3 & E4). exists c1, t1. repeat split; auto. }
    destruct (A ch [(doc_h, dch)] false [] ltac:(discriminate)) as (ch' & t' & E1 & E2 & E3 & E4).
    unfold in_par in *. exists ch'. rewrite E1. split; [|split; [exact E3|apply (grows_showns _ _ _ _ _ E4); exact Sh]].
    change (kind_in (cur_kind (mkps ((par_h, ch') :: [(doc_h, dch)]) t' [] false)) [KParagraph; KEmphasis; KStrong; KPreInline]) with true.
    rewrite andb_true_r. destruct (truthy (group0 G_break x)); reflexivity.
  Qed.
  Lemma shown_break : forall o, shown par_h (Nd (mkn KBreak o) []) br.
  Proof. intros o st. rewrite emit_node_eq. reflexivity. Qed.
  Lemma line_ok_facts : forall l, line_ok l = true ->
    truthy (wr_inls l) = true /\ no_char [10; 13] (wr_inls l) = true /\ block_start (wr_inls l) = false /\ inls_ok [] l = true.
  Proof. intros l H. unfold line_ok in H. rewrite !andb_true_iff, negb_true_iff in H. tauto. Qed.
  Lemma line_solid : forall l, line_ok l = true -> ends_in_break l = false -> last_break l = false.
  Proof.
    intros l H1 H2. unfold last_break, ends_in_break in *. destruct (rev l) as [|i r] eqn:R; [|exact H2].
    apply (f_equal (@rev _)) in R. rewrite rev_involutive in R. subst l. discriminate H1.
  Qed.
  Lemma break_backslash : forall l, ends_in_break l = true -> ends_in_backslash l = true.
  Proof.
    intros l H. unfold ends_in_break in H. destruct (rev l) as [|i r] eqn:R; [discriminate|]. apply (f_equal (@rev _)) in R. rewrite rev_involutive in R. cbn [rev] in R. subst l.
    destruct i; try discriminate. unfold ends_in_backslash, wr_inls. rewrite flat_map_app. cbn [flat_map wr_inl app]. unfold last_is. rewrite rev_app_distr. reflexivity.
  Qed.
  Lemma last_is_head : forall p w b, w <> [] -> head_is p (rev w ++ b) = last_is p w.
  Proof. intros p w b H. destruct (exists_last H) as (v & d & ->). unfold last_is. rewrite rev_app_distr. reflexivity. Qed.
  Lemma no_char_last : forall cs w d, no_char cs w = true -> In d cs -> last_is (N.eqb d) w = false.
  Proof.
    intros cs w d H Hi. unfold last_is. destruct (rev w) as [|e r] eqn:R; [reflexivity|]. cbn [head_is]. destruct (N.eqb_spec d e) as [->|]; [|reflexivity].
    exfalso. apply (no_char_In cs w e H); [|exact Hi]. apply in_rev. rewrite R. left. reflexivity.
  Qed.
  Lemma truthy_ne : forall w : str, truthy w = true -> w <> [].
  Proof. intros [|d w]; discriminate. Qed.
  Lemma para_run : forall blog lines, forallb line_ok lines = true -> last_ok (fun l => negb (ends_in_break l)) lines = true ->
    forall p b T dch ch s pout, tail2 T = true -> showns par_h (rev ch) pout -> par_start dch ch s ->
    p = [] \/ blog = false /\ p = [10] /\ bol b = false /\ head_is (N.eqb 92) b = false /\ solid ch ->
    exists ch', run blog (mts (scan (block_re blog) 0 b ((p ++ wr_block (BPara lines)) ++ T))) s =
                run blog (rest_ms blog (rev (p ++ wr_block (BPara lines)) ++ b) T) (in_par dch ch') /\
      solid ch' /\ showns par_h (rev ch') (pout ++ (if truthy p then [32] else []) ++ html_lines blog (strict c) lines).
  Proof.
    intros blog. induction lines as [|l lines IH]; intros Hl Hlast p b T dch ch s pout HT Sh Hs Hp; [discriminate|].
    cbn [forallb] in Hl. apply andb_true_iff in Hl as [Hl Hls]. destruct (line_ok_facts l Hl) as (L1 & L2 & L3 & L4).
    assert (L5 : head_is is_space (wr_inls l) = false).
    { unfold block_start in L3. rewrite !orb_false_iff in L3. tauto. }
    pose proof (truthy_ne _ L1) as L6.
    assert (PE : perr s = false) by (destruct Hs as [->|[_ ->]]; reflexivity).
    (* the line at the end of a match *)
    assert (One : forall R, tail R = true -> (blog = true -> ends_in_backslash l = true \/ match R with 10 :: t' => head_is (N.eqb 10) t' | _ => true end = true) ->
      exists ch', run blog (mts (scan (block_re blog) 0 b ((p ++ wr_inls l) ++ R))) s =
        run blog (mts (scan (block_re blog) 0 (rev (p ++ wr_inls l) ++ b) R)) (in_par dch ch') /\ (last_break l = false -> solid ch') /\
        showns par_h (rev ch') (pout ++ (if truthy p then [32] else []) ++ html_inls (strict c) br l)).
    { intros R HR HB. destruct Hp as [->|(-> & -> & Hb1 & Hb2 & Hso)].
      - cbn [app]. assert (Hm : m (block_re blog) (mk b (wr_inls l ++ R) []) fin = Some (mk (rev (wr_inls l) ++ b) R [(G_text, wr_inls l)])).
        { destruct blog; [apply blog_line; auto|apply wiki_line; assumption]. }
        rewrite (mts_hit _ _ _ _ _ L6 Hm). rewrite (run_cons blog _ _ _ G_text) by (assumption || (destruct blog; reflexivity)). cbn [block_handler].
        destruct (text_step (mkm (wr_inls l) [(G_text, wr_inls l)]) dch ch s pout l false Hs L4 eq_refl eq_refl Sh) as (ch' & E1 & E2 & E3).
        exists ch'. rewrite E1. repeat split; assumption.
      - assert (Hm := wiki_line_more (wr_inls l) R b L1 L2 L5 HR Hb1 Hb2).
        change ([10] ++ wr_inls l) with (10 :: wr_inls l). rewrite (mts_hit _ _ (10 :: wr_inls l) R _ ltac:(discriminate) Hm).
        rewrite (run_cons false _ _ _ G_space) by (assumption || reflexivity). cbn [block_handler].
        destruct Hso as (nd & r & -> & Hnd).
        destruct (text_step (mkm (10 :: wr_inls l) [(G_text, wr_inls l); (G_space, [10])]) dch (nd :: r) s pout l true Hs L4 eq_refl eq_refl Sh) as (ch' & E1 & E2 & E3).
        exists ch'. rewrite E1. repeat split; assumption. }
    assert (Hbl : bol (rev (p ++ wr_inls l) ++ b) = false).
    { rewrite bol_app by (destruct p; [exact L6|discriminate]). rewrite rev_app_distr, bol_app; [|exact L6].
      apply bol_last; [exact L6|]. eapply no_char_last; [exact L2|left; reflexivity]. }
    destruct lines as [|l2 lines].
    - cbn [wr_block map lines_text]. destruct (One T (tail2_tail T HT)) as (ch' & E1 & E2 & E3).
      { intros _. right. destruct (tail2_cases T HT) as [->|(X & -> & _)]; reflexivity. }
      exists ch'. rewrite E1, rest_scan by assumption. split; [reflexivity|]. split; [|exact E3]. apply E2. apply line_solid; [exact Hl|].
      cbn in Hlast. apply negb_true_iff. exact Hlast.
    - assert (Hlast' : last_ok (fun l => negb (ends_in_break l)) (l2 :: lines) = true).
      { unfold last_ok in *. cbn [rev] in *. rewrite <- app_assoc in Hlast. cbn [app] in Hlast. destruct (rev lines) as [|z r]; exact Hlast. }
      specialize (IH Hls Hlast').
      assert (Ew : wr_block (BPara (l :: l2 :: lines)) = wr_inls l ++ [10] ++ wr_block (BPara (l2 :: lines))) by reflexivity.
      rewrite Ew. set (W := wr_block (BPara (l2 :: lines))) in *.
      assert (Eh : html_lines blog (strict c) (l :: l2 :: lines) = html_inls (strict c) br l ++ (if ends_in_backslash l then [] else if blog then br else [32]) ++ html_lines blog (strict c) (l2 :: lines)) by reflexivity.
      rewrite Eh. set (H2 := html_lines blog (strict c) (l2 :: lines)) in *.
      assert (Ef : rev (p ++ wr_inls l ++ [10] ++ W) ++ b = rev W ++ 10 :: rev (p ++ wr_inls l) ++ b).
      { repeat (rewrite ?rev_app_distr, <- ?app_assoc; cbn [rev app]). reflexivity. }
      destruct (ends_in_backslash l) eqn:Eb.
      + destruct (One (10 :: W ++ T) eq_refl) as (ch1 & E1 & E2 & E3); [intros _; left; reflexivity|].
        replace ((p ++ wr_inls l ++ [10] ++ W) ++ T) with ((p ++ wr_inls l) ++ 10 :: W ++ T) by (rewrite <- !app_assoc; reflexivity).
        rewrite E1. rewrite scan_miss.
        2:{ apply newline_no; [exact Hbl|]. right. left. unfold ends_in_backslash in Eb. rewrite rev_app_distr, <- app_assoc. rewrite last_is_head by exact L6. exact Eb. }
        change (mts (Datatypes.inl 10 :: ?x)) with (mts x).
        destruct (IH [] (10 :: rev (p ++ wr_inls l) ++ b) T dch ch1 (in_par dch ch1) _ HT E3 (or_introl eq_refl) (or_introl eq_refl)) as (ch2 & F1 & F2 & F3).
        exists ch2. cbn [app] in F1. change (truthy []) with false in F3. cbn [app] in F3. cbn [app] in Ef |- *. rewrite F1, Ef. split; [reflexivity|]. split; [exact F2|].
        rewrite <- !app_assoc in F3. exact F3.
      + assert (Hne : last_break l = false).
        { apply line_solid; [exact Hl|]. destruct (ends_in_break l) eqn:X; [|reflexivity]. apply break_backslash in X. congruence. }
        destruct blog.
        * destruct Hp as [->|(X & _)]; [|discriminate]. cbn [app truthy is_nil negb]. unfold ends_in_backslash in Eb.
          assert (HW : blank (W ++ T) = false).
          { cbn [forallb] in Hls. apply andb_true_iff in Hls as [Hl2 _]. destruct (line_ok_facts l2 Hl2) as (M1 & M2 & M3 & M4).
            unfold block_start in M3. rewrite !orb_false_iff in M3.
            destruct (wr_inls l2) as [|d v] eqn:R; [discriminate|].
            assert (X : exists Y, lines_text ((d :: v) :: map wr_inls lines) = d :: Y) by (destruct lines; eexists; reflexivity).
            destruct X as (Y & X). replace W with ((d :: Y)) by (unfold W; cbn [wr_block map]; rewrite R; symmetry; exact X). apply blank_line_no; [reflexivity|]. cbn [head_is] in *. tauto. }
          pose proof (blog_line_break (wr_inls l) (W ++ T) b L1 L2 L3 Eb HW) as Hm.
          replace ((wr_inls l ++ 10 :: W) ++ T) with ((wr_inls l ++ [10]) ++ W ++ T) by (rewrite <- !app_assoc; reflexivity).
          assert (Hne2 : wr_inls l ++ [10] <> []) by (destruct (wr_inls l); discriminate).
          rewrite (mts_hit _ _ _ _ _ Hne2 Hm).
          rewrite (run_cons true _ _ _ G_text) by (assumption || reflexivity). cbn [block_handler].
          destruct (text_step (mkm (wr_inls l ++ [10]) [(G_break, [10]); (G_text, wr_inls l)]) dch ch s pout l false Hs L4 eq_refl eq_refl Sh) as (ch1 & E1 & E2 & E3).
          rewrite E1. change (truthy (group0 G_break _)) with true. cbv iota.
          assert (E4 : showns par_h (rev (Nd (mkn KBreak (Some [])) [] :: ch1)) ((pout ++ html_inls (strict c) br l) ++ br)).
          { cbn [rev]. apply showns_snoc; [exact E3|apply shown_break]. }
          destruct (IH [] (rev (wr_inls l ++ [10]) ++ b) T dch _ _ _ HT E4 (or_introl eq_refl) (or_introl eq_refl)) as (ch2 & F1 & F2 & F3).
          exists ch2. cbn [app] in F1. rewrite F1. split; [|split; [exact F2|]].
          -- cbn [app] in Ef. rewrite Ef. rewrite rev_app_distr. reflexivity.
          -- change (truthy []) with false in F3. cbn [app] in F3. rewrite <- !app_assoc in F3. exact F3.
        * destruct (One (10 :: W ++ T) eq_refl) as (ch1 & E1 & E2 & E3); [discriminate|].
          replace ((p ++ wr_inls l ++ [10] ++ W) ++ T) with ((p ++ wr_inls l) ++ 10 :: W ++ T) by (rewrite <- !app_assoc; reflexivity).
          rewrite E1.
          destruct (IH [10] (rev (p ++ wr_inls l) ++ b) T dch ch1 (in_par dch ch1) _ HT E3 (or_introl eq_refl)) as (ch2 & F1 & F2 & F3).
          { right. repeat split; [exact Hbl| |apply E2; exact Hne]. rewrite rev_app_distr, <- app_assoc. rewrite last_is_head by exact L6. exact Eb. }
          exists ch2. cbn [app] in F1. cbn [app]. rewrite F1. split; [|split; [exact F2|]].
          -- cbn [app] in Ef. rewrite Ef. cbn [rev]. rewrite <- app_assoc. reflexivity.
          -- change (truthy [10]) with true in F3. cbn [app] in F3. rewrite <- !app_assoc in F3. exact F3.
  Qed.

  Lemma shown_par : forall l w, showns par_h l w -> shown doc_h (Nd par_h l) (elem ($ "p") w ++ [10]).
  Proof.
    intros l w H st. rewrite emit_node_eq. cbv zeta. cbn [hk mkn]. rewrite H. cbn [wrap]. unfold elem. repeat (rewrite <- ?app_assoc; cbn [app]). reflexivity.
  Qed.
  Lemma par_docst : forall dch ch out w, solid ch -> showns par_h (rev ch) w -> showns doc_h (rev dch) out ->
    docst (in_par dch ch) (out ++ elem ($ "p") w ++ [10]).
  Proof.
    intros dch ch out w Hso H1 H2. exists par_h, ch, [(doc_h, dch)], (Nd par_h (rev ch) :: dch). split; [reflexivity|]. split; [apply solid_nobreak; exact Hso|].
    split; [intros f [<-|[]]; discriminate|]. split; [reflexivity|]. cbn [rev]. apply showns_snoc; [exact H2|]. apply shown_par. exact H1.
  Qed.
  Lemma para_first : forall blog lines, block_ok blog (BPara lines) = true ->
    first_ok blog (html_block blog (strict c) (BPara lines) ++ [10]) (wr_block (BPara lines)).
  Proof.
    intros blog lines Hok T s out b HT (dch & -> & Hd & Sh) Hb. cbn [block_ok] in Hok. apply andb_true_iff in Hok as [H1 H2].
    destruct (para_run blog lines H1 H2 [] b T dch [] (mkps [(doc_h, dch)] false [] false) [] HT (showns_nil c par_h)) as (ch' & E1 & E2 & E3).
    { right. split; reflexivity. }
    { left. reflexivity. }
    cbn [app] in E1. exists (in_par dch ch'). split; [|exact E1]. cbn [html_block]. apply par_docst; assumption.
  Qed.
  Lemma para_head : forall blog lines, block_ok blog (BPara lines) = true -> exists l R, wr_block (BPara lines) = wr_inls l ++ R /\ tail R = true /\ line_ok l = true.
  Proof.
    intros blog [|l lines] H; [discriminate|]. cbn [block_ok forallb] in H. apply andb_true_iff in H as [H _]. apply andb_true_iff in H as [H _].
    exists l. cbn [wr_block map lines_text]. destruct (map wr_inls lines) as [|x r] eqn:E.
    - exists []. rewrite app_nil_r. auto.
    - exists ([10] ++ lines_text (x :: r)). auto.
  Qed.
  Lemma tail_app : forall a b, tail a = true -> tail b = true -> tail (a ++ b) = true.
  Proof. intros [|d a] b H1 H2; [exact H2|exact H1]. Qed.
  Lemma line_not : forall l R, line_ok l = true -> tail R = true ->
    startswith ($ "----") (wr_inls l ++ R) = false /\ list_start (wr_inls l ++ R) = false /\ head_is (N.eqb 124) (wr_inls l ++ R) = false /\
    head_is is_space (wr_inls l ++ R) = false /\ truthy (wr_inls l ++ R) = true.
  Proof.
    intros l R Hl HR. destruct (line_ok_facts l Hl) as (L1 & L2 & L3 & L4). unfold block_start in L3. rewrite !orb_false_iff in L3.
    destruct L3 as [[[[[[A1 A2] A3] A4] A5] A6] A7]. repeat split.
    - rewrite startswith_line by (reflexivity || exact HR). exact A5.
    - destruct (wr_inls l) as [|d [|e w]]; [discriminate| |].
      + cbn [head_is skipn] in A7. rewrite andb_true_r in A7. cbn [app]. unfold list_start. destruct R as [|f R]; [reflexivity|].
        cbn [list_start]. rewrite A7. reflexivity.
      + cbn [head_is skipn] in A7. cbn [app]. unfold list_start, bullet in *.
        destruct (d =? 42), (d =? 35), (e =? 42), (e =? 35); try reflexivity; discriminate.
    - rewrite line_head by exact L1. exact A3.
    - rewrite line_head by exact L1. exact A1.
    - destruct (wr_inls l); [discriminate|reflexivity].
  Qed.
  Lemma para_next : forall blog lines, block_ok blog (BPara lines) = true ->
    next_ok blog (html_block blog (strict c) (BPara lines) ++ [10]) (wr_block (BPara lines)).
  Proof.
    intros blog lines Hok. destruct (para_head blog lines Hok) as (l & R & Ew & HR & Hl). destruct (line_not l R Hl HR) as (A1 & A2 & A3 & A4 & A5). destruct blog.
    - apply next_lazy; [apply para_first; exact Hok| | |]; rewrite Ew; try assumption. intros T HT. rewrite <- app_assoc.
      destruct (line_not l (R ++ T) Hl (tail_app R T HR HT)) as (B1 & B2 & B3 & _). auto.
    - intros T s out b HT Hs Hb. destruct (line_ok_facts l Hl) as (L1 & L2 & L3 & L4).
      assert (HRT : tail (R ++ T) = true) by (apply tail_app; [exact HR|apply tail2_tail; exact HT]).
      pose proof (wiki_gap_line (wr_inls l) (R ++ T) b L1 L2 L3 HRT Hb) as G.
      replace ((10 :: wr_block (BPara lines)) ++ T) with ((10 :: wr_inls l) ++ R ++ T) by (rewrite Ew; cbn [app]; rewrite <- app_assoc; reflexivity).
      rewrite G. change (mts (inr line_m :: inr ?x :: ?y)) with (line_m :: x :: mts y).
      match goal with |- context [run false (line_m :: ?ms) s] => destruct (run_line false ms s out Hs) as (s1 & Hs1 & ->) end.
      destruct (para_first false lines Hok T s1 (out ++ [10]) (10 :: b) HT Hs1 eq_refl) as (s2 & Hs2 & E2). exists s2.
      split; [change (out ++ [10] ++ ?x) with (out ++ ([10] ++ x)); rewrite app_assoc; exact Hs2|].
      replace (rev (10 :: wr_block (BPara lines)) ++ b) with (rev (wr_block (BPara lines)) ++ 10 :: b) by (cbn [rev]; rewrite <- app_assoc; reflexivity). rewrite <- E2. replace (wr_block (BPara lines) ++ T) with (wr_inls l ++ R ++ T) by (rewrite Ew, <- app_assoc; reflexivity).
      rewrite (mts_hit _ _ _ _ _ (truthy_ne _ L1) (wiki_line (wr_inls l) (R ++ T) (10 :: b) L1 L2 L3 HRT)).
      destruct Hs1 as (dch & -> & _ & _).
      rewrite (run_cons false _ _ _ G_space) by reflexivity. rewrite (run_cons false _ _ _ G_text) by reflexivity.
      replace (rev (10 :: wr_inls l) ++ b) with (rev (wr_inls l) ++ 10 :: b) by (cbn [rev]; rewrite <- app_assoc; reflexivity). reflexivity.
  Qed.

  (** ** lists *)
  Definition list_kind (o : bool) : kind := if o then KNumberList else KBulletList.
  Definition list_h (l : nat) (o : bool) : hdr := mkl (list_kind o) None l.
  Definition item_h (l : nat) : hdr := mkl KListItem None (S l).
  Definition at_list (l : nat) (o : bool) (up : list frame) (lout : str) (s : ps) : Prop := exists inner lch0 lch1,
    s = mkps (inner ++ (list_h l o, lch0) :: up) false [] false /\
    match inner ++ (list_h l o, lch0) :: up with (_, ch) :: _ => nobreak ch | [] => True end /\
    Forall (fun f : frame => (hk (fst f) <> KDocument /\ hk (fst f) <> KTable) /\ (kind_in (hk (fst f)) list_kinds = true -> (l < hlevel (fst f))%nat)) inner /\
    pop_n (List.length inner) (inner ++ (list_h l o, lch0) :: up) = (list_h l o, lch1) :: up /\
    showns (list_h l o) (rev lch1) lout.
  (** the search for a list of level [l] or more reaches the document *)
  Definition reach (l : nat) (up : list frame) : Prop := forall k n, (l <= k)%nat -> exists n', find_list k n up = Some (n', doc_h).
  Lemma find_inner : forall l o up inner n lch, 
    Forall (fun f : frame => (hk (fst f) <> KDocument /\ hk (fst f) <> KTable) /\ (kind_in (hk (fst f)) list_kinds = true -> (l < hlevel (fst f))%nat)) inner ->
    find_list l n (inner ++ (list_h l o, lch) :: up) = Some ((n + List.length inner)%nat, list_h l o).
  Proof.
    intros l o up inner. induction inner as [|[h ch] inner IH]; intros n lch H.
    - cbn [app find_list List.length]. unfold list_h at 1 2. cbn [hk hlevel mkl]. rewrite Nat.eqb_refl. rewrite Nat.add_0_r. destruct o; reflexivity.
    - apply Forall_cons_iff in H as [[[H1 _] H2] H]. cbn [fst] in *. cbn [app find_list]. rewrite kind_in_doc by exact H1.
      destruct (kind_in (hk h) list_kinds) eqn:E.
      + specialize (H2 eq_refl). destruct (Nat.eqb_spec (hlevel h) l); [lia|]. cbn [andb orb]. rewrite IH by exact H. f_equal. f_equal. cbn [List.length]. lia.
      + cbn [andb orb]. rewrite IH by exact H. f_equal. f_equal. cbn [List.length]. lia.
  Qed.
  Lemma reach_item : forall l o lch ch up, reach l up -> reach (S l) ((item_h l, ch) :: (list_h l o, lch) :: up).
  Proof.
    intros l o lch ch up H k n Hk. cbn [find_list]. change (kind_in (hk (item_h l)) list_kinds) with false. change (kind_in (hk (item_h l)) [KDocument]) with false. cbn [andb orb].
    unfold list_h at 2. cbn [hlevel mkl]. destruct (Nat.eqb_spec l k); [lia|]. rewrite andb_false_r.
    assert (kind_in (hk (list_h l o)) [KDocument] = false) as -> by (destruct o; reflexivity). cbn [orb]. apply H. lia.
  Qed.
  Lemma mark_kind : forall o, (if list_mark o =? 35 then KNumberList else KBulletList) = list_kind o.
  Proof. intros []; reflexivity. Qed.
  (** the text of an item *)
  Lemma item_open : forall bullets t l o up lout s p, List.length bullets = S l -> last_is (N.eqb (list_mark o)) bullets = true ->
    item_text_ok t = true -> at_list l o up lout s ->
    exists ch lch1, item_repl (item_ms p (bullets, wr_inls t)) s = mkps ((item_h l, ch) :: (list_h l o, lch1) :: up) false [] false /\
      solid ch /\ showns (item_h l) (rev ch) (html_inls (strict c) (br ++ tabs (S l)) t) /\ showns (list_h l o) (rev lch1) lout.
  Proof.
    intros bullets t l o up lout s p Hlen Hlast Ht (inner & lch0 & lch1 & -> & _ & HI & Hpop & Sh).
    unfold item_repl. rewrite (need_some G_item_head _ _ _ bullets) by reflexivity. rewrite (need_some G_item_text _ _ _ (wr_inls t)) by reflexivity.
    unfold last_is in Hlast. destruct (rev bullets) as [|d r]; [discriminate|]. cbn [head_is] in Hlast. apply N.eqb_eq in Hlast. subst d.
    rewrite mark_kind. rewrite Hlen. replace (S l - 1)%nat with l by lia. cbn [stk]. rewrite find_inner by exact HI.
    assert (kind_beq (hk (list_h l o)) (list_kind o) = true) as -> by (destruct o; reflexivity). cbn [Nat.add]. unfold frame in *. rewrite Hpop. unfold open_, set_stk. cbn [stk txt used perr].
    replace (l + 1)%nat with (S l) by lia. unfold item_text_ok in Ht. rewrite !andb_true_iff, negb_true_iff in Ht. destruct Ht as [[[T1 T2] T3] T4].
    pose proof (inls_parse c t (item_h l) T3) as A. unfold item_h in A.
    destruct (A [] ((list_h l o, lch1) :: up) false [] ltac:(discriminate)) as (ch & t' & E1 & E2 & E3 & E4).
    exists ch, lch1. rewrite E1. split; [reflexivity|]. split; [|split; [|exact Sh]].
    - apply E3. unfold last_break, ends_in_break in *. destruct (rev t) as [|i q] eqn:R; [|exact T4].
      apply (f_equal (@rev _)) in R. rewrite rev_involutive in R. subst t. discriminate T1.
    - pose proof (grows_showns _ _ _ _ _ E4 [] (showns_nil c _)) as E4'. clear E4. rename E4' into E4. cbn [app] in E4. unfold item_h.
      replace (br ++ tabs (S l)) with (break_emit (mkl KListItem None (S l))); [exact E4|]. cbn [break_emit hk mkl hlevel]. unfold br, tabs. rewrite <- app_assoc. reflexivity.
  Qed.
  (** the first item of a new list opens the list *)
  Lemma item_fresh : forall x bullets text l o h ch up, group G_item_head x = Some bullets -> group G_item_text x = Some text ->
    List.length bullets = S l -> last_is (N.eqb (list_mark o)) bullets = true -> reach l ((h, ch) :: up) -> nobreak ch ->
    hk h = KListItem \/ up = [] ->
    item_repl x (mkps ((h, ch) :: up) false [] false) = item_repl x (mkps ((list_h l o, []) :: (h, ch) :: up) false [] false).
  Proof.
    intros x bullets text l o h ch up Hb Ht Hlen Hlast Hr Hn Hh. unfold item_repl. rewrite !(need_some _ _ _ _ _ Hb). rewrite !(need_some _ _ _ _ _ Ht).
    unfold last_is in Hlast. destruct (rev bullets) as [|d r]; [discriminate|]. cbn [head_is] in Hlast. apply N.eqb_eq in Hlast. subst d.
    rewrite mark_kind. rewrite Hlen. replace (S l - 1)%nat with l by lia. cbn [stk].
    destruct (Hr l 0%nat (le_n l)) as (n' & ->). pose proof (find_inner l o ((h, ch) :: up) [] 0%nat [] (Forall_nil _)) as F. cbn [app] in F. rewrite F.
    assert (kind_beq (hk doc_h) (list_kind o) = false) as -> by (destruct o; reflexivity).
    assert (kind_beq (hk (list_h l o)) (list_kind o) = true) as -> by (destruct o; reflexivity). cbn [Nat.add List.length pop_n].
    unfold upto. rewrite cleanup_nobreak by exact Hn. cbn [stk].
    assert (U : upto_loop [KListItem; KDocument] h ch up = (h, ch) :: up).
    { destruct up as [|[h' ch'] up]; [reflexivity|]. destruct Hh as [Hh|]; [|discriminate]. cbn [upto_loop]. rewrite Hh. reflexivity. }
    rewrite U. reflexivity.
  Qed.
  Fixpoint item_lines (bullets : str) (i : litem) : list list_line :=
    match i with LI t o sub => (bullets, wr_inls t) :: flat_map (item_lines (bullets ++ [list_mark o])) sub end.
  Lemma litem_ind' : forall P : litem -> Prop, (forall t o sub, Forall P sub -> P (LI t o sub)) -> forall i, P i.
  Proof.
    intros P H. fix IH 1. intros [t o sub]. apply H. revert sub. fix IHl 1. intros [|x l]; [constructor|]. constructor; [apply IH|apply IHl].
  Qed.
  Lemma map_flat_map : forall (A B C : Type) (f : B -> C) (g : A -> list B) l, map f (flat_map g l) = flat_map (fun x => map f (g x)) l.
  Proof. intros A B C f g. induction l as [|x l IH]; [reflexivity|]. cbn [flat_map]. rewrite map_app, IH. reflexivity. Qed.
  Lemma item_lines_wr : forall i bullets, map line_of (item_lines bullets i) = wr_item bullets i.
  Proof.
    induction i as [t o sub IH] using litem_ind'. intro bullets. cbn [item_lines wr_item map]. unfold line_of at 1. cbn [fst snd]. f_equal.
    rewrite map_flat_map. induction IH as [|x l Hx _ IHl]; [reflexivity|]. cbn [flat_map]. rewrite Hx, IHl. reflexivity.
  Qed.
  Definition steps (ls : list list_line) (s : ps) : ps := fold_left (replace_ item_groups item_handler) (map (item_ms []) ls) s.
  Lemma steps_app : forall a b s, steps (a ++ b) s = steps b (steps a s).
  Proof. intros. unfold steps. rewrite map_app. apply fold_left_app. Qed.
  Lemma steps_cons : forall l ls s, perr s = false -> steps (l :: ls) s = steps ls (item_repl (item_ms [] l) s).
  Proof. intros l ls s H. unfold steps. cbn [map fold_left]. unfold replace_ at 2. rewrite H. reflexivity. Qed.
  Lemma at_list_perr : forall l o up lout s, at_list l o up lout s -> perr s = false.
  Proof. intros l o up lout s (i & a & b & -> & _). reflexivity. Qed.
  Lemma shown_item : forall l o ch w, showns (item_h l) ch w -> shown (list_h l o) (Nd (item_h l) ch) ([10] ++ tabs (S l) ++ $ "<li>" ++ w ++ $ "</li>").
  Proof.
    intros l o ch w H st. rewrite emit_node_eq. cbv zeta. change (hk (item_h l)) with KListItem. cbv iota. rewrite H. cbn [wrap]. unfold list_emit.
    assert (kind_beq (hk (list_h l o)) KDocument = false) as -> by (destruct o; reflexivity). reflexivity.
  Qed.
  Lemma shown_list : forall h l o ch w, showns (list_h l o) ch w ->
    shown h (Nd (list_h l o) ch) ((if kind_beq (hk h) KDocument then [] else [10]) ++ tabs l ++ $ "<" ++ list_tag o ++ $ ">" ++ w ++ [10] ++ tabs l ++ $ "</" ++ list_tag o ++ $ ">").
  Proof.
    intros h l o ch w H st. rewrite emit_node_eq. cbv zeta. destruct o; cbn [list_h hk mkl list_kind]; cbv iota;
      rewrite H; cbn [wrap]; unfold list_emit; cbn [hk mkl list_h list_kind hlevel kind_beq]; reflexivity.
  Qed.
  Lemma at_list_top : forall l o up ch lch w lout, solid ch -> showns (item_h l) (rev ch) w -> showns (list_h l o) (rev lch) lout ->
    at_list l o up (lout ++ [10] ++ tabs (S l) ++ $ "<li>" ++ w ++ $ "</li>") (mkps ((item_h l, ch) :: (list_h l o, lch) :: up) false [] false).
  Proof.
    intros l o up ch lch w lout Hso H1 H2. exists [(item_h l, ch)], lch, (Nd (item_h l) (rev ch) :: lch). split; [reflexivity|]. split; [apply solid_nobreak; exact Hso|].
    split; [constructor; [|constructor]; split; [split; discriminate|discriminate]|]. split; [reflexivity|]. cbn [rev]. apply showns_snoc; [exact H2|]. apply shown_item. exact H1.
  Qed.
  Lemma pop_n_add : forall n k st, pop_n (n + k) st = pop_n k (pop_n n st).
  Proof. induction n as [|n IH]; intros k st; [reflexivity|]. cbn [Nat.add pop_n]. apply IH. Qed.
  (** back from the nested list to the item's list *)
  Lemma at_list_up : forall l o o2 up ch lch w sub lout s, showns (item_h l) (rev ch) w -> showns (list_h l o) (rev lch) lout ->
    at_list (S l) o2 ((item_h l, ch) :: (list_h l o, lch) :: up) sub s ->
    at_list l o up (lout ++ [10] ++ tabs (S l) ++ $ "<li>" ++ (w ++ [10] ++ tabs (S l) ++ $ "<" ++ list_tag o2 ++ $ ">" ++ sub ++ [10] ++ tabs (S l) ++ $ "</" ++ list_tag o2 ++ $ ">") ++ $ "</li>") s.
  Proof.
    intros l o o2 up ch lch w sub lout s H1 H2 (inner & lch0 & lch1 & -> & Hn & HI & Hpop & Sh).
    exists (inner ++ [(list_h (S l) o2, lch0); (item_h l, ch)]), lch, (Nd (item_h l) (rev (Nd (list_h (S l) o2) (rev lch1) :: ch)) :: lch).
    assert (E : (inner ++ [(list_h (S l) o2, lch0); (item_h l, ch)]) ++ (list_h l o, lch) :: up = inner ++ (list_h (S l) o2, lch0) :: (item_h l, ch) :: (list_h l o, lch) :: up)
      by (rewrite <- app_assoc; reflexivity).
    rewrite E. split; [reflexivity|]. split; [exact Hn|]. split; [|split].
    - apply Forall_app. split.
      + eapply Forall_impl; [|exact HI]. intros f [A B]. split; [exact A|]. intro X. specialize (B X). lia.
      + constructor; [split; [split; destruct o2; discriminate|cbn [fst list_h hlevel mkl]; lia]|]. constructor; [split; [split; discriminate|discriminate]|constructor].
    - rewrite app_length, pop_n_add, Hpop. reflexivity.
    - cbn [rev]. apply showns_snoc; [exact H2|]. apply shown_item. cbn [rev]. apply showns_snoc; [exact H1|].
      apply (shown_list (item_h l) (S l) o2). exact Sh.
  Qed.
  Lemma item_run : forall i bullets o l up lout s, List.length bullets = S l -> last_is (N.eqb (list_mark o)) bullets = true ->
    item_ok i = true -> reach l up -> at_list l o up lout s ->
    at_list l o up (lout ++ html_item (strict c) l i) (steps (item_lines bullets i) s).
  Proof.
    induction i as [t o2 sub IH] using litem_ind'. intros bullets o l up lout s Hlen Hlast Hok Hr Hs.
    cbn [item_ok] in Hok. rewrite !andb_true_iff in Hok. destruct Hok as [Ht Hsub].
    cbn [item_lines]. rewrite steps_cons by (eapply at_list_perr; exact Hs).
    destruct (item_open bullets t l o up lout s [] Hlen Hlast Ht Hs) as (ch & lch1 & E & Hso & Sh1 & Sh2).
    match goal with |- context [item_repl ?x s] => replace (item_repl x s) with (mkps ((item_h l, ch) :: (list_h l o, lch1) :: up) false [] false) by (symmetry; exact E) end.
    cbn [html_item]. destruct sub as [|i sub].
    - cbn [flat_map]. unfold steps. cbn [map fold_left app]. apply at_list_top; assumption.
    - set (up1 := (item_h l, ch) :: (list_h l o, lch1) :: up).
      assert (Hlen2 : List.length (bullets ++ [list_mark o2]) = S (S l)) by (rewrite app_length, Hlen; cbn; lia).
      assert (Hlast2 : last_is (N.eqb (list_mark o2)) (bullets ++ [list_mark o2]) = true).
      { unfold last_is. rewrite rev_app_distr. cbn [rev app head_is]. apply N.eqb_refl. }
      assert (Hr2 : reach (S l) up1) by (apply reach_item; exact Hr).
      assert (Fr : steps (flat_map (item_lines (bullets ++ [list_mark o2])) (i :: sub)) (mkps up1 false [] false) =
                   steps (flat_map (item_lines (bullets ++ [list_mark o2])) (i :: sub)) (mkps ((list_h (S l) o2, []) :: up1) false [] false)).
      { destruct i as [t3 o3 sub3]. cbn [flat_map item_lines app]. rewrite !steps_cons by reflexivity. f_equal.
        unfold up1. apply (item_fresh _ (bullets ++ [list_mark o2]) (wr_inls t3) (S l) o2); try assumption; try reflexivity; [apply solid_nobreak; exact Hso|left; reflexivity]. }
      rewrite Fr.
      assert (H0 : at_list (S l) o2 up1 [] (mkps ((list_h (S l) o2, []) :: up1) false [] false)).
      { exists [], [], []. repeat split; try constructor. }
      assert (Hall : forall its acc s0, Forall (fun i => forall bullets o l up lout s, List.length bullets = S l -> last_is (N.eqb (list_mark o)) bullets = true ->
          item_ok i = true -> reach l up -> at_list l o up lout s -> at_list l o up (lout ++ html_item (strict c) l i) (steps (item_lines bullets i) s)) its ->
          forallb item_ok its = true -> at_list (S l) o2 up1 acc s0 ->
          at_list (S l) o2 up1 (acc ++ flat_map (html_item (strict c) (S l)) its) (steps (flat_map (item_lines (bullets ++ [list_mark o2])) its) s0)).
      { induction its as [|x its IHi]; intros acc s0 HF Hk Ha.
        - cbn [flat_map]. rewrite app_nil_r. exact Ha.
        - apply Forall_cons_iff in HF as [Hx HF]. cbn [forallb] in Hk. apply andb_true_iff in Hk as [Hk1 Hk2]. cbn [flat_map]. rewrite steps_app, app_assoc.
          apply IHi; [exact HF|exact Hk2|]. apply Hx; assumption. }
      specialize (Hall (i :: sub) [] _ IH Hsub H0). rewrite app_nil_l in Hall.
      pose proof (at_list_up l o o2 up ch lch1 _ _ lout _ Sh1 Sh2 Hall) as F.
      match goal with F : at_list _ _ _ ?a _ |- at_list _ _ _ ?b _ => replace b with a; [exact F|] end.
      unfold html_list_with. repeat (rewrite <- ?app_assoc; cbn [app]). reflexivity.
  Qed.

  Lemma item_lines_ok : forall i bullets, forallb bullet bullets = true -> bullets <> [] -> item_ok i = true -> Forall list_line_ok (item_lines bullets i).
  Proof.
    induction i as [t o sub IH] using litem_ind'. intros bullets Hb Hn Hok. cbn [item_ok] in Hok. rewrite !andb_true_iff in Hok. destruct Hok as [Ht Hsub].
    cbn [item_lines]. constructor.
    - unfold item_text_ok in Ht. rewrite !andb_true_iff in Ht. destruct Ht as [[[T1 T2] T3] T4].
      unfold list_line_ok. cbn [fst snd]. auto.
    - revert Hsub. induction IH as [|x l Hx _ IHl]; intro Hsub; [constructor|]. cbn [forallb] in Hsub. apply andb_true_iff in Hsub as [H1 H2]. cbn [flat_map]. apply Forall_app. split; [|apply IHl; exact H2].
      apply Hx; [|destruct bullets; discriminate|exact H1]. rewrite forallb_app, Hb. destruct o; reflexivity.
  Qed.
  Definition lines_of (o : bool) (items : list litem) : list list_line := flat_map (item_lines [list_mark o]) items.
  Lemma lines_of_text : forall o items l ls, lines_of o items = l :: ls -> wr_block (BList o items) = list_text l ls.
  Proof.
    intros o items l ls E. cbn [wr_block]. replace (flat_map (wr_item [list_mark o]) items) with (map line_of (l :: ls)).
    - apply bullets_text.
    - rewrite <- E. unfold lines_of. rewrite map_flat_map. apply flat_map_ext. intro i. apply item_lines_wr.
  Qed.
  Lemma list_cases : forall blog o items, block_ok blog (BList o items) = true ->
    exists t o2 sub r ls, items = LI t o2 sub :: r /\ lines_of o items = ([list_mark o], wr_inls t) :: ls /\
      list_line_ok ([list_mark o], wr_inls t) /\ Forall list_line_ok ls /\ forallb item_ok items = true.
  Proof.
    intros blog o items H. cbn [block_ok] in H. apply andb_true_iff in H as [H1 H2]. destruct items as [|[t o2 sub] r]; [discriminate|].
    exists t, o2, sub, r. unfold lines_of. cbn [flat_map item_lines app]. eexists. split; [reflexivity|]. split; [reflexivity|].
    assert (A : Forall list_line_ok (lines_of o (LI t o2 sub :: r))).
    { unfold lines_of. clear H1. induction (LI t o2 sub :: r) as [|x l IH]; [constructor|]. cbn [forallb] in H2. apply andb_true_iff in H2 as [H2 H3]. cbn [flat_map]. apply Forall_app. split; [|apply IH; exact H3].
      apply item_lines_ok; [destruct o; reflexivity|discriminate|exact H2]. }
    unfold lines_of in A. cbn [flat_map item_lines app] in A. apply Forall_cons_iff in A as [A1 A2]. auto.
  Qed.
  Lemma items_steps : forall p l ls s, perr s = false -> fold_left (replace_ item_groups item_handler) (item_ms p l :: map (item_ms []) ls) s = steps (l :: ls) s.
  Proof. intros p l ls s H. unfold steps. cbn [map fold_left]. reflexivity. Qed.
  (** a list that is still open: no table is *)
  Definition openst (s : ps) (out : str) : Prop := exists h ch up dch,
    s = mkps ((h, ch) :: up) false [] false /\ nobreak ch /\
    (forall f, In f (removelast ((h, ch) :: up)) -> hk (fst f) <> KDocument /\ hk (fst f) <> KTable) /\
    pop_n (List.length up) ((h, ch) :: up) = [(doc_h, dch)] /\ nobreak dch /\ showns doc_h (rev dch) out.
  Lemma openst_docst : forall s out, openst s out -> docst s out.
  Proof. intros s out (h & ch & up & dch & H1 & H2 & H3 & H4 & _ & H5). exists h, ch, up, dch. repeat (split; try assumption). intros f Hf. apply (H3 f Hf). Qed.
  Lemma list_open : forall blog p o items l ls s out, block_ok blog (BList o items) = true -> lead p -> lines_of o items = l :: ls -> list_line_ok l -> Forall list_line_ok ls -> atdoc s out ->
    openst (list_repl (mkm (p ++ list_text l ls) [(G_list, p ++ list_text l ls)]) s) (out ++ html_block blog (strict c) (BList o items)).
  Proof.
    intros blog p o items l ls s out Hok Hp El Hl Hls (dch & -> & Hd & Sh). unfold list_repl. rewrite (need_some G_list _ _ _ (p ++ list_text l ls)) by reflexivity.
    change (finditer item_re ?t) with (mts (scan item_re 0 [] t)). unfold list_text. rewrite app_assoc.
    rewrite items_scan by (assumption || reflexivity). rewrite items_steps by reflexivity. rewrite <- El.
    destruct (list_cases blog o items Hok) as (t & o2 & sub & r & ls' & Ei & El' & _ & _ & Hit).
    set (s1 := mkps [(list_h 0 o, []); (doc_h, dch)] false [] false).
    assert (Fr : steps (lines_of o items) (mkps [(doc_h, dch)] false [] false) = steps (lines_of o items) s1).
    { rewrite El'. rewrite !steps_cons by reflexivity. f_equal. unfold s1.
      apply (item_fresh _ [list_mark o] (wr_inls t) 0 o); try reflexivity; try assumption.
      - unfold last_is. cbn [rev app head_is]. apply N.eqb_refl.
      - intros k n _. exists n. reflexivity.
      - right. reflexivity. }
    rewrite Fr.
    assert (H0 : at_list 0 o [(doc_h, dch)] [] s1).
    { exists [], [], []. repeat split; try constructor. }
    assert (R0 : reach 0 [(doc_h, dch)]) by (intros k n _; exists n; reflexivity).
    assert (Hall : forall its acc s0, forallb item_ok its = true -> at_list 0 o [(doc_h, dch)] acc s0 ->
      at_list 0 o [(doc_h, dch)] (acc ++ flat_map (html_item (strict c) 0) its) (steps (lines_of o its) s0)).
    { induction its as [|x its IHi]; intros acc s0 Hk Ha.
      - cbn [flat_map]. rewrite app_nil_r. exact Ha.
      - cbn [forallb] in Hk. apply andb_true_iff in Hk as [Hk1 Hk2]. unfold lines_of. cbn [flat_map]. rewrite steps_app, app_assoc.
        apply IHi; [exact Hk2|]. apply item_run; try assumption; [reflexivity|]. unfold last_is. cbn [rev app head_is]. apply N.eqb_refl. }
    specialize (Hall items [] s1 Hit H0). rewrite app_nil_l in Hall.
    destruct Hall as (inner & lch0 & lch1 & -> & Hn & HI & Hpop & Sh1).
    assert (exists h ch up, inner ++ (list_h 0 o, lch0) :: [(doc_h, dch)] = (h, ch) :: up) as (h & ch & up & E) by (destruct inner as [|[h ch] inner]; cbn [app]; eauto).
    exists h, ch, up, (Nd (list_h 0 o) (rev lch1) :: dch). rewrite E in *. split; [reflexivity|]. split; [exact Hn|]. split; [|split].
    - rewrite <- E. change (inner ++ (list_h 0 o, lch0) :: [(doc_h, dch)]) with (inner ++ [(list_h 0 o, lch0); (doc_h, dch)]).
      replace (inner ++ [(list_h 0 o, lch0); (doc_h, dch)]) with ((inner ++ [(list_h 0 o, lch0)]) ++ [(doc_h, dch)]) by (rewrite <- app_assoc; reflexivity).
      rewrite removelast_last. intros f Hf. apply in_app_or in Hf as [Hf|[<-|[]]]; [|split; destruct o; discriminate].
      rewrite Forall_forall in HI. apply (HI f Hf).
    - assert (L : List.length up = (List.length inner + 1)%nat).
      { apply (f_equal (@List.length _)) in E. rewrite app_length in E. cbn [List.length] in E. lia. }
      rewrite L, pop_n_add, Hpop. reflexivity.
    - split; [destruct o; discriminate|]. cbn [rev]. apply showns_snoc; [exact Sh|]. cbn [html_block]. apply (shown_list doc_h 0 o). exact Sh1.
  Qed.
  Lemma list_step : forall blog p o items l ls s out, block_ok blog (BList o items) = true -> lead p -> lines_of o items = l :: ls -> list_line_ok l -> Forall list_line_ok ls -> atdoc s out ->
    docst (list_repl (mkm (p ++ list_text l ls) [(G_list, p ++ list_text l ls)]) s) (out ++ html_block blog (strict c) (BList o items)).
  Proof. intros. apply openst_docst. apply list_open; assumption. Qed.
  Lemma list_m_free : forall blog p l ls T b k r, lead p -> bol b = true -> List.length (fst l) = 1%nat ->
    list_line_ok l -> Forall list_line_ok ls -> tail T = true -> no_more T ->
    m r_line (mk b ((p ++ list_text l ls) ++ T) []) k = None ->
    k (mk (rev (p ++ list_text l ls) ++ b) T [(G_list, p ++ list_text l ls)]) = Some r ->
    m (block_re blog) (mk b ((p ++ list_text l ls) ++ T) []) k = Some r.
  Proof.
    intros blog p l ls T b k r Hp Hb Hlen Hl Hls HT HM Hline Hk. rewrite block_alts. rewrite Hline.
    rewrite (list_hit_any p l ls T b k r) by assumption.
    assert (X : exists d Y, (p ++ list_text l ls) ++ T = p ++ d :: Y /\ bullet d = true).
    { destruct l as [[|d w] v]; [discriminate|]. destruct Hl as (Hl & _). cbn [fst forallb] in Hl. apply andb_true_iff in Hl as [Hl _].
      exists d. unfold list_text, line_of. cbn [fst snd app]. rewrite <- !app_assoc. cbn [app]. eexists. split; [reflexivity|exact Hl]. }
    destruct X as (d & Y & E & Hd). rewrite E.
    assert (Hcase : d = 42 \/ d = 35) by (unfold bullet in Hd; apply orb_true_iff in Hd as [H|H]; apply N.eqb_eq in H; auto).
    unfold r_macro_block. rewrite macro_no by (destruct Hp as [-> | ->], Hcase as [-> | ->]; reflexivity).
    rewrite head_no by (right; destruct Hp as [-> | ->], Hcase as [-> | ->]; reflexivity).
    rewrite sep_no by (right; destruct Hp as [-> | ->], Hcase as [-> | ->]; (apply sp_no_here; reflexivity) || (apply sp_no_nl; reflexivity)).
    rewrite preb_no by (right; left; destruct Hp as [-> | ->], Hcase as [-> | ->]; reflexivity). reflexivity.
  Qed.
  Lemma list_m_any : forall blog p o items l ls T b k r, lead p -> bol b = true -> lines_of o items = l :: ls -> List.length (fst l) = 1%nat ->
    list_line_ok l -> Forall list_line_ok ls -> tail T = true -> no_more T ->
    m r_line (mk b ((p ++ list_text l ls) ++ T) []) k = None ->
    k (mk (rev (p ++ list_text l ls) ++ b) T [(G_list, p ++ list_text l ls)]) = Some r ->
    m (block_re blog) (mk b ((p ++ list_text l ls) ++ T) []) k = Some r.
  Proof. intros. apply list_m_free; assumption. Qed.
  Lemma list_m : forall blog p o items l ls T b k r, lead p -> bol b = true -> lines_of o items = l :: ls -> List.length (fst l) = 1%nat ->
    list_line_ok l -> Forall list_line_ok ls -> tail2 T = true ->
    m r_line (mk b ((p ++ list_text l ls) ++ T) []) k = None ->
    k (mk (rev (p ++ list_text l ls) ++ b) T [(G_list, p ++ list_text l ls)]) = Some r ->
    m (block_re blog) (mk b ((p ++ list_text l ls) ++ T) []) k = Some r.
  Proof. intros. apply (list_m_any blog p o items l ls); try assumption; [apply tail2_tail|apply tail2_no_more]; assumption. Qed.
  Lemma list_bol : forall l ls b, list_line_ok l -> Forall list_line_ok ls -> bol (rev (list_text l ls) ++ b) = false.
  Proof.
    intros l ls b Hl Hls. unfold list_text. destruct ls as [|x ls _] using rev_ind.
    - cbn [more_lines flat_map]. rewrite app_nil_r. apply line_bol. exact Hl.
    - apply Forall_app in Hls as [_ Hx]. apply Forall_cons_iff in Hx as [Hx _]. unfold more_lines. rewrite flat_map_app. cbn [flat_map]. rewrite app_nil_r, app_assoc.
      rewrite rev_app_distr. cbn [rev]. rewrite <- !app_assoc. apply line_bol. exact Hx.
  Qed.
  Lemma list_head : forall l ls T, list_line_ok l -> truthy (list_text l ls ++ T) = true /\ head_is is_space (list_text l ls ++ T) = false.
  Proof.
    intros [[|d w] v] ls T (H1 & H2 & _); [contradiction|]. cbn [fst forallb] in H1. apply andb_true_iff in H1 as [H1 _]. unfold bullet in H1. unfold list_text, line_of. cbn [fst app].
    apply orb_true_iff in H1 as [H|H]; apply N.eqb_eq in H; subst d; split; reflexivity.
  Qed.
  Lemma list_first : forall blog o items, block_ok blog (BList o items) = true ->
    first_ok blog (html_block blog (strict c) (BList o items)) (wr_block (BList o items)).
  Proof.
    intros blog o items Hok T s out b HT Hs Hb. destruct (list_cases blog o items Hok) as (t & o2 & sub & r & ls & Ei & El & Hl & Hls & _).
    rewrite (lines_of_text o items _ _ El). set (l := ([list_mark o], wr_inls t)) in *. destruct (list_head l ls T Hl) as (A1 & A2).
    assert (Hne : list_text l ls <> []) by discriminate.
    assert (Hm : m (block_re blog) (mk b (list_text l ls ++ T) []) fin = Some (mk (rev (list_text l ls) ++ b) T [(G_list, list_text l ls)])).
    { apply (list_m blog [] o items l ls T b fin); try assumption; try reflexivity; [left; reflexivity|].
      apply line_no. right. cbn [app]. destruct o; reflexivity. }
    rewrite (mts_hit _ _ _ _ _ Hne Hm). rewrite rest_scan by (exact HT || (apply list_bol; assumption)).
    rewrite (run_cons blog _ _ _ G_list) by (try (eapply atdoc_perr; exact Hs); destruct blog; reflexivity).
    eexists. split; [|reflexivity]. cbn [block_handler]. apply (list_step blog [] o items l ls s out Hok (or_introl eq_refl) El Hl Hls Hs).
  Qed.
  Lemma list_next : forall blog o items, block_ok blog (BList o items) = true ->
    next_ok blog (html_block blog (strict c) (BList o items)) (wr_block (BList o items)).
  Proof.
    intros blog o items Hok T s out b HT Hs Hb. destruct (list_cases blog o items Hok) as (t & o2 & sub & r & ls & Ei & El & Hl & Hls & _).
    rewrite (lines_of_text o items _ _ El). set (l := ([list_mark o], wr_inls t)) in *. destruct (list_head l ls T Hl) as (A1 & A2).
    rewrite (mts_adv blog b (list_text l ls) T [(G_list, [10] ++ list_text l ls)] A1 A2 Hb).
    - rewrite rest_scan; [|exact HT|cbn [rev]; rewrite <- app_assoc; apply list_bol; assumption].
      match goal with |- context [run blog (line_m :: ?ms) s] => destruct (run_line blog ms s out Hs) as (s1 & Hs1 & ->) end.
      rewrite (run_cons blog _ _ _ G_list) by (try (eapply atdoc_perr; exact Hs1); destruct blog; reflexivity).
      eexists. split; [|reflexivity]. cbn [block_handler]. rewrite app_assoc. apply (list_step blog [10] o items l ls s1 (out ++ [10]) Hok (or_intror eq_refl) El Hl Hls Hs1).
    - apply (list_m blog [10] o items l ls T b); try assumption; try reflexivity; [right; reflexivity| |].
      + exact (gap_line_adv (list_text l ls ++ T) b A1 A2).
      + apply (fadv_hit (10 :: list_text l ls) T). discriminate.
  Qed.

  (** ** tables *)
  Notation table_h := (mkn KTable None).
  Notation row_h := (mkn KTableRow None).
  Definition in_table (dch tch : list node) : ps := mkps [(table_h, tch); (doc_h, dch)] false [] false.
  Definition tab_start (dch tch : list node) (s : ps) : Prop := s = in_table dch tch \/ tch = [] /\ nobreak dch /\ s = mkps [(doc_h, dch)] false [] false.
  Definition row_st (dch tch rch : list node) (s : ps) : Prop := exists t,
    s = mkps [(row_h, rch); (table_h, tch); (doc_h, dch)] t [] false \/
    exists h ch rch0, s = mkps [(h, ch); (row_h, rch0); (table_h, tch); (doc_h, dch)] t [] false /\ rch = Nd h (rev ch) :: rch0.
  Lemma row_st_pop : forall dch tch rch s, row_st dch tch rch s ->
    perr s = false /\ (exists t, pop_to 3 s = mkps [(row_h, rch); (table_h, tch); (doc_h, dch)] t [] false) /\
    set_txt false (pop_to 2 s) = in_table dch (Nd row_h (rev rch) :: tch).
  Proof.
    intros dch tch rch s (t & [->|(h & ch & rch0 & -> & ->)]); (split; [reflexivity|]; split; [exists t; reflexivity|reflexivity]).
  Qed.
  Lemma strip_head : forall w, trimmed w = true -> head_is (N.eqb 61) w = false -> last_is (N.eqb 61) w = false -> strip_chars ($ "= ") (61 :: w) = w.
  Proof.
    intros w Hw H1 H2. unfold trimmed in Hw. rewrite !andb_true_iff, !negb_true_iff in Hw. destruct Hw as [[T1 T2] T3].
    assert (I : forall d, is_space d = false -> (61 =? d) = false -> in_str ($ "= ") d = false).
    { intros d D1 D2. unfold in_str. cbn [list_ascii_of_string map existsb]. 
      destruct (N.eqb_spec d 32) as [->|]; [discriminate|]. rewrite N.eqb_sym in D2. cbn in *. rewrite D2. destruct (N.eqb_spec d 32); [contradiction|reflexivity]. }
    assert (E : strip_chars ($ "= ") (61 :: w) = strip_chars ($ "= ") w) by reflexivity. rewrite E. clear E.
    destruct w as [|d w]; [reflexivity|]. cbn [head_is] in *. unfold strip_chars.
    destruct (exists_last (l := d :: w) ltac:(discriminate)) as (v & e & Ev). unfold last_is in *. rewrite Ev in T2, H2. rewrite rev_app_distr in T2, H2. cbn [rev app head_is] in T2, H2.
    destruct v as [|f v].
    - injection Ev as -> ->. unfold strip_by, lstrip_by, rstrip_by. cbn [app drop_while]. rewrite (I e T1 H1). cbn [rev app drop_while]. rewrite (I e T1 H1). reflexivity.
    - rewrite Ev. injection Ev as <- Ev. apply strip_by_id; apply I; assumption.
  Qed.
  Lemma shown_cell : forall cl ch w, showns (mkn (if is_head cl then KTableHead else KTableCell) None) ch w ->
    shown row_h (Nd (mkn (if is_head cl then KTableHead else KTableCell) None) ch) ([9] ++ elem (if is_head cl then $ "th" else $ "td") w ++ [10]).
  Proof.
    intros cl ch w H st. rewrite emit_node_eq. cbv zeta. destruct (is_head cl); cbn [hk mkn]; rewrite H; cbn [wrap]; unfold elem; repeat (rewrite <- ?app_assoc; cbn [app]); reflexivity.
  Qed.
  Lemma cell_step_run : forall cl x dch tch rch out s, cell_ok cl = true -> cell_m cl x -> row_st dch tch rch s -> showns row_h (rev rch) out ->
    exists rch', row_st dch tch rch' (cell_step 3 s x) /\ showns row_h (rev rch') (out ++ html_cell (strict c) cl).
  Proof.
    intros cl x dch tch rch out s Hok Hx Hs Sh. destruct (row_st_pop dch tch rch s Hs) as (Hp & (t & Ht) & _).
    unfold cell_step. rewrite Hp, Ht. unfold cell_ok in Hok. rewrite !andb_true_iff, negb_true_iff in Hok. destruct Hok as [[Hit Heq] Hrest].
    pose proof Hit as Hit'. unfold item_text_ok in Hit'. rewrite !andb_true_iff, negb_true_iff in Hit'. destruct Hit' as [[[T1 T2] T3] T4].
    unfold cell_m in Hx. unfold html_cell. pose proof (shown_cell cl) as SC. destruct (is_head cl) eqn:Hh.
    - destruct Hx as [Hx1 Hx2]. apply andb_true_iff in Hrest as [_ Hl]. apply negb_true_iff in Hl.
      assert (group0 G_cell x = []) as -> by (unfold group0; rewrite Hx2; reflexivity). change (truthy []) with false. cbv iota.
      rewrite (need_some _ _ _ _ _ Hx1). unfold cell_body. rewrite Hh. cbn [app]. rewrite strip_head by assumption.
      unfold open_, append_child, set_stk, set_txt. cbn [stk used perr txt].
      pose proof (inls_parse c (cell_text cl) (mkn KTableHead None) T3) as A.
      destruct (A [Nd (mkn KText (Some [])) []] [(row_h, rch); (table_h, tch); (doc_h, dch)] true []) as (ch & t' & E1 & E2 & E3 & E4).
      { intros _. exists (mkn KText (Some [])), [], []. auto. }
      rewrite E1. exists (Nd (mkn KTableHead None) (rev ch) :: rch). split.
      + exists t'. right. exists (mkn KTableHead None), ch, rch. auto.
      + cbn [rev]. apply showns_snoc; [exact Sh|]. apply SC. pose proof (grows_showns _ _ _ _ _ E4 []) as E4'. clear E4. rename E4' into E4. cbn [app] in E4.
        change (br ++ [9; 9]) with (break_emit (mkn KTableHead None)). apply E4. intro st. reflexivity.
    - assert (group0 G_cell x = cell_body cl) as -> by (unfold group0; rewrite Hx; reflexivity). unfold cell_body. rewrite Hh. cbn [app].
      assert (truthy (wr_inls (cell_text cl)) = true) as -> by (unfold trimmed in T1; rewrite !andb_true_iff in T1; tauto). rewrite trimmed_strip by exact T1.
      unfold open_, append_child, set_stk, set_txt. cbn [stk used perr txt].
      pose proof (inls_parse c (cell_text cl) (mkn KTableCell None) T3) as A.
      destruct (A [] [(row_h, rch); (table_h, tch); (doc_h, dch)] false [] ltac:(discriminate)) as (ch & t' & E1 & E2 & E3 & E4).
      rewrite E1. exists (Nd (mkn KTableCell None) (rev ch) :: rch). split.
      + exists t'. right. exists (mkn KTableCell None), ch, rch. auto.
      + cbn [rev]. apply showns_snoc; [exact Sh|]. apply SC. pose proof (grows_showns _ _ _ _ _ E4 []) as E4'. clear E4. rename E4' into E4. cbn [app] in E4.
        change (br ++ [9; 9]) with (break_emit (mkn KTableCell None)). apply E4. intro st. reflexivity.
  Qed.
  Lemma cells_run : forall cells ms, Forall2 cell_m cells ms -> forallb cell_ok cells = true -> forall dch tch rch out s, row_st dch tch rch s -> showns row_h (rev rch) out ->
    exists rch', row_st dch tch rch' (fold_left (cell_step 3) ms s) /\ showns row_h (rev rch') (out ++ flat_map (html_cell (strict c)) cells).
  Proof.
    intros cells ms HF. induction HF as [|cl x cells ms Hx _ IH]; intros Hok dch tch rch out s Hs Sh.
    - exists rch. cbn [fold_left flat_map]. rewrite app_nil_r. auto.
    - cbn [forallb] in Hok. apply andb_true_iff in Hok as [H1 H2]. destruct (cell_step_run cl x dch tch rch out s H1 Hx Hs Sh) as (rch1 & A1 & A2).
      destruct (IH H2 dch tch rch1 _ _ A1 A2) as (rch2 & B1 & B2). exists rch2. cbn [fold_left flat_map]. rewrite app_assoc. auto.
  Qed.
  Lemma shown_row : forall ch w, showns row_h ch w -> shown table_h (Nd row_h ch) ($ "<tr>" ++ [10] ++ w ++ $ "</tr>" ++ [10]).
  Proof. intros ch w H st. rewrite emit_node_eq. cbv zeta. cbn [hk mkn]. rewrite H. reflexivity. Qed.
  Lemma shown_table : forall ch w, showns table_h ch w -> shown doc_h (Nd table_h ch) (($ "<table>" ++ [10] ++ w ++ $ "</table>") ++ [10]).
  Proof. intros ch w H st. rewrite emit_node_eq. cbv zeta. cbn [hk mkn]. rewrite H. cbn [wrap]. repeat (rewrite <- ?app_assoc; cbn [app]). reflexivity. Qed.
  Lemma row_step : forall r x dch tch out s, forallb cell_ok r = true -> r <> [] -> group G_table x = Some (wr_row r) -> nobreak tch -> tab_start dch tch s -> showns table_h (rev tch) out ->
    exists rch, table_repl x s = in_table dch (Nd row_h rch :: tch) /\ showns table_h (rev (Nd row_h rch :: tch)) (out ++ html_row (strict c) r).
  Proof.
    intros r x dch tch out s Hok Hn Hx Hb Hs Sh. unfold table_repl. rewrite (need_some _ _ _ _ _ Hx).
    assert (Es : strip (wr_row r) = wr_row r).
    { apply trimmed_strip. destruct (row_shape r Hn Hok) as (R & -> & _). unfold bar_row, trimmed, last_is. cbn [rev]. rewrite !rev_app_distr. reflexivity. }
    rewrite Es. cbv zeta.
    assert (E : (if kind_beq (cur_kind (upto [KTable; KDocument] s)) KTable then upto [KTable; KDocument] s else open_ table_h (upto [KTable; KDocument] s)) = in_table dch tch).
    { destruct Hs as [->|(-> & Hd & ->)].
      - unfold in_table, upto. rewrite cleanup_nobreak by exact Hb. reflexivity.
      - unfold upto. rewrite cleanup_nobreak by exact Hd. reflexivity. }
    rewrite E. change (finditer cell_re ?t) with (mts (scan cell_re 0 [] t)). destruct (cells_scan r [] Hok) as (ms & -> & HF).
    change (List.length (stk (in_table dch tch))) with 2%nat.
    destruct (cells_run r ms HF Hok dch tch [] [] (open_ row_h (in_table dch tch))) as (rch & A1 & A2).
    { exists false. left. reflexivity. }
    { apply showns_nil. }
    destruct (row_st_pop _ _ _ _ A1) as (_ & _ & A3). exists (rev rch). split; [exact A3|]. cbn [rev]. apply showns_snoc; [exact Sh|].
    apply shown_row. cbn [app] in A2. exact A2.
  Qed.
  Lemma row_m : forall blog p r T e T' b k x, lead p -> bol b = true -> r <> [] -> forallb cell_ok r = true -> row_tail T e T' ->
    m r_line (mk b (p ++ wr_row r ++ T) []) k = None ->
    k (mk (rev (p ++ wr_row r ++ e) ++ b) T' [(G_table, wr_row r)]) = Some x ->
    m (block_re blog) (mk b (p ++ wr_row r ++ T) []) k = Some x.
  Proof.
    intros blog p r T e T' b k x Hp Hb Hr Hok HT Hl Hk. destruct (row_shape r Hr Hok) as (R & ER & H1 & H2 & H3). rewrite ER in *.
    rewrite block_alts, Hl. rewrite (table_hit p R T e T' b k x) by assumption.
    assert (X : exists Y, p ++ bar_row R ++ T = p ++ 124 :: Y) by (eexists; reflexivity). destruct X as (Y & ->).
    unfold r_macro_block. rewrite macro_no by (destruct Hp as [-> | ->]; reflexivity).
    rewrite head_no by (right; destruct Hp as [-> | ->]; reflexivity).
    rewrite sep_no by (right; destruct Hp as [-> | ->]; [apply sp_no_here; reflexivity|apply sp_no_nl; reflexivity]).
    rewrite preb_no by (right; left; destruct Hp as [-> | ->]; reflexivity).
    rewrite list_no by (right; destruct Hp as [-> | ->]; [apply sp_no_here; [destruct Y|]; reflexivity|apply sp_no_nl; [|destruct Y|]; reflexivity]). reflexivity.
  Qed.
  (** the end of a row: the next row, an empty line or the end of the text *)
  Lemma row_bol : forall r b, bol (rev (wr_row r) ++ b) = false.
  Proof. intros r b. unfold wr_row. rewrite rev_app_distr. reflexivity. Qed.
  Lemma wr_row_head : forall r, r <> [] -> exists Y, wr_row r = 124 :: Y.
  Proof. intros [|cl r] H; [congruence|]. eexists. reflexivity. Qed.
  Lemma tail2_row : forall blog r T b, tail2 T = true -> exists e T', row_tail T e T' /\
    mts (scan (block_re blog) 0 (rev (wr_row r ++ e) ++ b) T') = rest_ms blog (rev (wr_row r) ++ b) T.
  Proof.
    intros blog r T b HT. destruct (tail2_cases T HT) as [->|(X & -> & H1 & H2)].
    - exists [], []. split; [apply row_tail_nil|]. rewrite app_nil_r. apply rest_scan; [reflexivity|apply row_bol].
    - exists [10], (10 :: X). split; [apply row_tail_gap; assumption|]. rewrite rev_app_distr. reflexivity.
  Qed.
  Definition rows_ok (rows : list (list cell)) : bool := forallb (fun r => nonempty r && forallb cell_ok r) rows.
  Lemma rows_run : forall blog rows, rows <> [] -> rows_ok rows = true -> blog = true \/ List.length rows = 1%nat -> forall T b dch tch out s, bol b = true -> tail2 T = true ->
    nobreak tch -> tab_start dch tch s -> showns table_h (rev tch) out ->
    exists tch', run blog (mts (scan (block_re blog) 0 b (wr_block (BTable rows) ++ T))) s = run blog (rest_ms blog (rev (wr_block (BTable rows)) ++ b) T) (in_table dch tch') /\
      nobreak tch' /\ showns table_h (rev tch') (out ++ flat_map (html_row (strict c)) rows).
  Proof.
    intros blog. induction rows as [|r rows IH]; intros Hne Hok Hblog T b dch tch out s Hb HT Hn Hs Sh; [congruence|].
    unfold rows_ok in Hok. cbn [forallb] in Hok. apply andb_true_iff in Hok as [Hr Hrs]. apply andb_true_iff in Hr as [Hr1 Hr2].
    assert (Hrn : r <> []) by (destruct r; discriminate). assert (PE : perr s = false) by (destruct Hs as [->|(_ & _ & ->)]; reflexivity).
    assert (One : forall R e T', row_tail R e T' -> exists rch,
      run blog (mts (scan (block_re blog) 0 b (wr_row r ++ R))) s = run blog (mts (scan (block_re blog) 0 (rev (wr_row r ++ e) ++ b) T')) (in_table dch (Nd row_h rch :: tch)) /\
      showns table_h (rev (Nd row_h rch :: tch)) (out ++ html_row (strict c) r)).
    { intros R e T' HR. pose proof HR as (ER & _).
      assert (Hm : m (block_re blog) (mk b ((wr_row r ++ e) ++ T') []) fin = Some (mk (rev (wr_row r ++ e) ++ b) T' [(G_table, wr_row r)])).
      { rewrite <- app_assoc, <- ER. apply (row_m blog [] r R e T' b fin); try assumption; try reflexivity; [left; reflexivity|].
        apply line_no. right. destruct (wr_row_head r Hrn) as (Y & ->). reflexivity. }
      rewrite ER, app_assoc. destruct (wr_row_head r Hrn) as (Y & EY). assert (Hwn : wr_row r ++ e <> []) by (rewrite EY; discriminate).
      rewrite (mts_hit _ _ _ _ _ Hwn Hm). rewrite (run_cons blog _ _ _ G_table) by (assumption || (destruct blog; reflexivity)). cbn [block_handler].
      destruct (row_step r (mkm (wr_row r ++ e) [(G_table, wr_row r)]) dch tch out s Hr2 Hrn eq_refl Hn Hs Sh) as (rch & E1 & E2).
      exists rch. rewrite E1. auto. }
    destruct rows as [|r2 rows].
    - cbn [wr_block map lines_text flat_map]. rewrite app_nil_r. destruct (tail2_row blog r T b HT) as (e & T' & HR & E). destruct (One T e T' HR) as (rch & E1 & E2).
      exists (Nd row_h rch :: tch). rewrite E1, E. split; [reflexivity|]. split; [discriminate|exact E2].
    - assert (Hbl : blog = true) by (destruct Hblog as [|X]; [assumption|discriminate]). subst blog.
      set (W := wr_block (BTable (r2 :: rows))) in *. change (wr_block (BTable (r :: r2 :: rows))) with (wr_row r ++ [10] ++ W).
      assert (Hr2n : r2 <> []) by (cbn [forallb] in Hrs; destruct r2; discriminate).
      assert (HW : exists Y, W = 124 :: Y).
      { destruct (wr_row_head r2 Hr2n) as (Y & EY). unfold W. cbn [wr_block map lines_text]. rewrite EY. destruct (map wr_row rows); eexists; reflexivity. }
      destruct HW as (Y & EW).
      assert (HR : row_tail (10 :: W ++ T) [] (10 :: W ++ T)) by (apply row_tail_row; rewrite EW; reflexivity).
      destruct (One _ _ _ HR) as (rch & E1 & E2).
      replace ((wr_row r ++ [10] ++ W) ++ T) with (wr_row r ++ 10 :: W ++ T) by (rewrite <- !app_assoc; reflexivity). rewrite E1. rewrite app_nil_r.
      rewrite scan_miss by (apply newline_no; [apply row_bol|left; reflexivity]). change (mts (Datatypes.inl 10 :: ?x)) with (mts x).
      destruct (IH ltac:(discriminate) Hrs (or_introl eq_refl) T (10 :: rev (wr_row r) ++ b) dch (Nd row_h rch :: tch) _ _ eq_refl HT ltac:(discriminate) (or_introl eq_refl) E2) as (tch' & F1 & F2 & F3).
      exists tch'. rewrite F1. split; [|split; [exact F2|]].
      + replace (rev (wr_row r ++ [10] ++ W) ++ b) with (rev W ++ 10 :: rev (wr_row r) ++ b); [reflexivity|]. repeat (rewrite ?rev_app_distr, <- ?app_assoc; cbn [rev app]). reflexivity.
      + cbn [flat_map] in F3 |- *. rewrite <- !app_assoc in F3. exact F3.
  Qed.
  Lemma table_facts : forall blog rows, block_ok blog (BTable rows) = true -> rows <> [] /\ rows_ok rows = true /\ (blog = true \/ List.length rows = 1%nat).
  Proof.
    intros blog rows H. cbn [block_ok] in H. rewrite !andb_true_iff in H. destruct H as [[H1 H2] H3]. split; [destruct rows; discriminate|]. split; [exact H2|].
    apply orb_true_iff in H3 as [H3|H3]; [left; exact H3|right; apply Nat.eqb_eq; exact H3].
  Qed.
  Lemma table_first : forall blog rows, block_ok blog (BTable rows) = true ->
    first_ok blog (html_block blog (strict c) (BTable rows) ++ [10]) (wr_block (BTable rows)).
  Proof.
    intros blog rows Hok T s out b HT (dch & -> & Hd & Sh) Hb. destruct (table_facts blog rows Hok) as (H1 & H2 & H3).
    destruct (rows_run blog rows H1 H2 H3 T b dch [] [] (mkps [(doc_h, dch)] false [] false) Hb HT I) as (tch & E1 & E2 & E3).
    { right. auto. }
    { apply showns_nil. }
    exists (in_table dch tch). split; [|exact E1]. exists table_h, tch, [(doc_h, dch)], (Nd table_h (rev tch) :: dch). split; [reflexivity|]. split; [exact E2|].
    split; [intros f [<-|[]]; discriminate|]. split; [reflexivity|]. cbn [rev html_block]. apply showns_snoc; [exact Sh|]. apply shown_table. exact E3.
  Qed.
  Lemma table_next : forall blog rows, block_ok blog (BTable rows) = true ->
    next_ok blog (html_block blog (strict c) (BTable rows) ++ [10]) (wr_block (BTable rows)).
  Proof.
    intros blog rows Hok T s out b HT Hs Hb. pose proof (table_first blog rows Hok) as HF. destruct (table_facts blog rows Hok) as (H1 & H2 & H3).
    destruct rows as [|r rows]; [congruence|]. unfold rows_ok in H2. cbn [forallb] in H2. apply andb_true_iff in H2 as [Hr Hrs]. apply andb_true_iff in Hr as [Hr1 Hr2].
    assert (Hrn : r <> []) by (destruct r; discriminate). destruct (wr_row_head r Hrn) as (Y & EY).
    assert (X : exists R e T', wr_block (BTable (r :: rows)) ++ T = wr_row r ++ R /\ row_tail R e T').
    { destruct rows as [|r2 rows].
      - destruct (tail2_row blog r T b HT) as (e & T' & HR & _). exists T, e, T'. auto.
      - exists (10 :: wr_block (BTable (r2 :: rows)) ++ T), [], (10 :: wr_block (BTable (r2 :: rows)) ++ T). split.
        + change (wr_block (BTable (r :: r2 :: rows))) with (wr_row r ++ [10] ++ wr_block (BTable (r2 :: rows))). rewrite <- !app_assoc. reflexivity.
        + assert (Hr2n : r2 <> []) by (cbn [forallb] in Hrs; destruct r2; discriminate). destruct (wr_row_head r2 Hr2n) as (Z & EZ).
          assert (HW : exists Y, wr_block (BTable (r2 :: rows)) = 124 :: Y).
          { cbn [wr_block map lines_text]. rewrite EZ. destruct (map wr_row rows); eexists; reflexivity. }
          destruct HW as (V & ->). apply row_tail_row; reflexivity. }
    destruct X as (R & e & T' & ER & HR). pose proof HR as (ER2 & _).
    assert (Hm : m (block_re blog) (mk (10 :: b) ((wr_row r ++ e) ++ T') []) fin = Some (mk (rev (wr_row r ++ e) ++ 10 :: b) T' [(G_table, wr_row r)])).
    { rewrite <- app_assoc, <- ER2. apply (row_m blog [] r R e T' (10 :: b) fin); try assumption; try reflexivity; [left; reflexivity|].
      apply line_no. right. rewrite EY. reflexivity. }
    assert (Ew : wr_block (BTable (r :: rows)) ++ T = (wr_row r ++ e) ++ T') by (rewrite ER, ER2, app_assoc; reflexivity).
    assert (Hwn : wr_row r ++ e <> []) by (rewrite EY; discriminate).
    assert (Ha : m (block_re blog) (mk b ((10 :: wr_row r ++ e) ++ T') []) (fadv ((10 :: wr_row r ++ e) ++ T')) = Some (mk (rev (10 :: wr_row r ++ e) ++ b) T' [(G_table, wr_row r)])).
    { replace ((10 :: wr_row r ++ e) ++ T') with ([10] ++ wr_row r ++ R) by (rewrite ER2; cbn [app]; rewrite <- app_assoc; reflexivity).
      apply (row_m blog [10] r R e T' b); try assumption; [right; reflexivity| |].
      - apply (gap_line_adv (wr_row r ++ R) b); rewrite EY; reflexivity.
      - replace ([10] ++ wr_row r ++ R) with ((10 :: wr_row r ++ e) ++ T') by (rewrite ER2; cbn [app]; rewrite <- app_assoc; reflexivity).
        apply fadv_hit. discriminate. }
    change ((10 :: wr_block (BTable (r :: rows))) ++ T) with (10 :: (wr_block (BTable (r :: rows)) ++ T)). rewrite Ew.
    change (10 :: (wr_row r ++ e) ++ T') with ((10 :: wr_row r ++ e) ++ T').
    rewrite (mts_adv blog b (wr_row r ++ e) T' [(G_table, wr_row r)]); [|rewrite EY; reflexivity|rewrite EY; reflexivity|exact Hb|exact Ha].
    match goal with |- context [run blog (line_m :: ?ms) s] => destruct (run_line blog ms s out Hs) as (s1 & Hs1 & ->) end.
    destruct (HF T s1 (out ++ [10]) (10 :: b) HT Hs1 eq_refl) as (s2 & Hs2 & E2). exists s2. split; [rewrite <- app_assoc in Hs2; exact Hs2|].
    replace (rev (10 :: wr_block (BTable (r :: rows))) ++ b) with (rev (wr_block (BTable (r :: rows))) ++ 10 :: b) by (cbn [rev]; rewrite <- app_assoc; reflexivity).
    rewrite <- E2, Ew. rewrite (mts_hit _ _ _ _ _ Hwn Hm). pose proof (atdoc_perr _ _ Hs1) as PE.
    rewrite !(run_cons blog _ _ _ G_table) by (assumption || (destruct blog; reflexivity)). cbn [block_handler].
    replace (rev (10 :: wr_row r ++ e) ++ b) with (rev (wr_row r ++ e) ++ 10 :: b) by (cbn [rev]; rewrite <- app_assoc; reflexivity). reflexivity.
  Qed.
End Blocks.
