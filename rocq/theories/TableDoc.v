(** * Creole documents with blanks in the cells of their tables: to html *)
From Coq Require Import String List Arith NArith ZArith Bool Lia.
From Verif Require Import PyStr PyStrFacts GNames Regex Rules RegexFacts RegexRun Utils DocTree CreoleParser ParserFacts
  Res HtmlEmitter EmitterFacts HtmlToolsFacts Spec4 Spec5 Spec33 InlineRun InlineParse BlockRun BlockHits TableHits BlockParse DocParse TablePad CodeTrip.
Import ListNotations.
Open Scope N_scope.

Notation doc_h := (mkn KDocument None).
Notation table_h := (mkn KTable None).
Notation row_h := (mkn KTableRow None).
Section Padded.
  Variable c : cfg.
  Hypothesis no_toc : use_toc c = false.
  Local Notation shown := (shown c).
  Local Notation showns := (showns c).

  (** ** the cells of a row *)
  Lemma pcell_inls : forall p, pcell_ok p = true -> inls_ok [] (cell_text (pc_cell p)) = true.
  Proof.
    intros p H. unfold pcell_ok in H. destruct (cell_text (pc_cell p)) as [|i l] eqn:E; [reflexivity|]. rewrite <- E. unfold cell_ok in H. rewrite !andb_true_iff in H. destruct H as [[H _] _].
    unfold item_text_ok in H. rewrite !andb_true_iff in H. tauto.
  Qed.
  Lemma pcell_step : forall cl x dch tch rch out s, inls_ok [] (cell_text cl) = true -> pcell_m cl x -> row_st dch tch rch s -> showns row_h (rev rch) out ->
    exists rch', row_st dch tch rch' (cell_step 3 s x) /\ showns row_h (rev rch') (out ++ html_cell (strict c) cl).
  Proof.
    intros cl x dch tch rch out s T3 Hx Hs Sh. destruct (row_st_pop dch tch rch s Hs) as (Hp & (t & Ht) & _).
    unfold cell_step. rewrite Hp, Ht. unfold pcell_m in Hx. unfold html_cell. pose proof (shown_cell c cl) as SC. destruct (is_head cl) eqn:Hh.
    - destruct Hx as [Hx2 (h & Hx1 & Hx3)].
      assert (group0 G_cell x = []) as -> by (unfold group0; rewrite Hx2; reflexivity). change (truthy []) with false. cbv iota.
      rewrite (need_some _ _ _ _ _ Hx1). rewrite Hx3.
      unfold open_, append_child, set_stk, set_txt. cbn [stk used perr txt].
      pose proof (inls_parse c (cell_text cl) (mkn KTableHead None) T3) as A.
      destruct (A [Nd (mkn KText (Some [])) []] [(row_h, rch); (table_h, tch); (doc_h, dch)] true []) as (ch & t' & E1 & E2 & E3 & E4).
      { intros _. exists (mkn KText (Some [])), [], []. auto. }
      rewrite E1. exists (Nd (mkn KTableHead None) (rev ch) :: rch). split.
      + exists t'. right. exists (mkn KTableHead None), ch, rch. auto.
      + cbn [rev]. apply showns_snoc; [exact Sh|]. apply SC. pose proof (grows_showns _ _ _ _ _ E4 []) as E4'. clear E4. rename E4' into E4. cbn [app] in E4.
        change (br ++ [9; 9]) with (break_emit (mkn KTableHead None)). apply E4. intro st. reflexivity.
    - destruct Hx as (w & Hx1 & Hx2 & Hx3). assert (group0 G_cell x = w) as -> by (unfold group0; rewrite Hx1; reflexivity). rewrite Hx2, Hx3.
      unfold open_, append_child, set_stk, set_txt. cbn [stk used perr txt].
      pose proof (inls_parse c (cell_text cl) (mkn KTableCell None) T3) as A.
      destruct (A [] [(row_h, rch); (table_h, tch); (doc_h, dch)] false [] ltac:(discriminate)) as (ch & t' & E1 & E2 & E3 & E4).
      rewrite E1. exists (Nd (mkn KTableCell None) (rev ch) :: rch). split.
      + exists t'. right. exists (mkn KTableCell None), ch, rch. auto.
      + cbn [rev]. apply showns_snoc; [exact Sh|]. apply SC. pose proof (grows_showns _ _ _ _ _ E4 []) as E4'. clear E4. rename E4' into E4. cbn [app] in E4.
        change (br ++ [9; 9]) with (break_emit (mkn KTableCell None)). apply E4. intro st. reflexivity.
  Qed.
  Lemma pcells_run : forall cells ms, Forall2 pcell_m cells ms -> forallb (fun cl => inls_ok [] (cell_text cl)) cells = true -> forall dch tch rch out s, row_st dch tch rch s -> showns row_h (rev rch) out ->
    exists rch', row_st dch tch rch' (fold_left (cell_step 3) ms s) /\ showns row_h (rev rch') (out ++ flat_map (html_cell (strict c)) cells).
  Proof.
    intros cells ms HF. induction HF as [|cl x cells ms Hx _ IH]; intros Hok dch tch rch out s Hs Sh.
    - exists rch. cbn [fold_left flat_map]. rewrite app_nil_r. auto.
    - cbn [forallb] in Hok. apply andb_true_iff in Hok as [H1 H2]. destruct (pcell_step cl x dch tch rch out s H1 Hx Hs Sh) as (rch1 & A1 & A2).
      destruct (IH H2 dch tch rch1 _ _ A1 A2) as (rch2 & B1 & B2). exists rch2. cbn [fold_left flat_map]. rewrite app_assoc. auto.
  Qed.
  Lemma prow_step : forall r x dch tch out s, forallb pcell_ok r = true -> r <> [] -> group G_table x = Some (wr_prow r) -> nobreak tch -> tab_start dch tch s -> showns table_h (rev tch) out ->
    exists rch, table_repl x s = in_table dch (Nd row_h rch :: tch) /\ showns table_h (rev (Nd row_h rch :: tch)) (out ++ html_row (strict c) (map pc_cell r)).
  Proof.
    intros r x dch tch out s Hok Hn Hx Hb Hs Sh. unfold table_repl. rewrite (need_some _ _ _ _ _ Hx).
    assert (Es : strip (wr_prow r) = wr_prow r).
    { apply trimmed_strip. destruct (prow_shape r Hn Hok) as (R & -> & _). unfold bar_row, trimmed, last_is. cbn [rev]. rewrite !rev_app_distr. reflexivity. }
    rewrite Es. cbv zeta.
    assert (E : (if kind_beq (cur_kind (upto [KTable; KDocument] s)) KTable then upto [KTable; KDocument] s else open_ table_h (upto [KTable; KDocument] s)) = in_table dch tch).
    { destruct Hs as [->|(-> & Hd & ->)].
      - unfold in_table, upto. rewrite cleanup_nobreak by exact Hb. reflexivity.
      - unfold upto. rewrite cleanup_nobreak by exact Hd. reflexivity. }
    rewrite E. change (finditer cell_re ?t) with (mts (scan cell_re 0 [] t)). destruct (pcells_scan r [] Hok) as (ms & -> & HF).
    change (List.length (stk (in_table dch tch))) with 2%nat.
    destruct (pcells_run (map pc_cell r) ms HF) with (dch := dch) (tch := tch) (rch := @nil node) (out := @nil N) (s := open_ row_h (in_table dch tch)) as (rch & A1 & A2).
    { clear - Hok. induction r as [|p r IH]; [reflexivity|]. cbn [map forallb] in *. apply andb_true_iff in Hok as [H1 H2]. rewrite (pcell_inls p H1). exact (IH H2). }
    { exists false. left. reflexivity. }
    { apply showns_nil. }
    destruct (row_st_pop _ _ _ _ A1) as (_ & _ & A3). exists (rev rch). split; [exact A3|]. cbn [rev]. apply showns_snoc; [exact Sh|].
    apply shown_row. cbn [app] in A2. exact A2.
  Qed.
  Lemma prow_m : forall p r T e T' b k x, lead p -> bol b = true -> r <> [] -> forallb pcell_ok r = true -> row_tail T e T' ->
    m r_line (mk b (p ++ wr_prow r ++ T) []) k = None ->
    k (mk (rev (p ++ wr_prow r ++ e) ++ b) T' [(G_table, wr_prow r)]) = Some x ->
    m (block_re true) (mk b (p ++ wr_prow r ++ T) []) k = Some x.
  Proof.
    intros p r T e T' b k x Hp Hb Hr Hok HT Hl Hk. destruct (prow_shape r Hr Hok) as (R & ER & H2). rewrite ER in *.
    rewrite block_alts, Hl. rewrite (table_hit' p R T e T' b k x) by assumption.
    assert (X : exists Y, p ++ bar_row R ++ T = p ++ 124 :: Y) by (eexists; reflexivity). destruct X as (Y & ->).
    unfold r_macro_block. rewrite macro_no by (destruct Hp as [-> | ->]; reflexivity).
    rewrite head_no by (right; destruct Hp as [-> | ->]; reflexivity).
    rewrite sep_no by (right; destruct Hp as [-> | ->]; [apply sp_no_here; reflexivity|apply sp_no_nl; reflexivity]).
    rewrite preb_no by (right; left; destruct Hp as [-> | ->]; reflexivity).
    rewrite list_no by (right; destruct Hp as [-> | ->]; [apply sp_no_here; [destruct Y|]; reflexivity|apply sp_no_nl; [|destruct Y|]; reflexivity]). reflexivity.
  Qed.
  (** the end of a table: a block below it, an empty line or the end of the text *)
  Definition below (T : str) : Prop := tail2 T = true \/ exists X, T = 10 :: X /\ head_is is_space X = false /\ truthy X = true.
  Lemma prow_bol : forall r b, bol (rev (wr_prow r) ++ b) = false.
  Proof. intros r b. unfold wr_prow. rewrite rev_app_distr. reflexivity. Qed.
  Lemma wr_prow_head : forall r, r <> [] -> exists Y, wr_prow r = 124 :: Y.
  Proof. intros [|cl r] H; [congruence|]. eexists. reflexivity. Qed.
  Lemma below_row : forall r T b, below T -> exists e T', row_tail T e T' /\
    mts (scan (block_re true) 0 (rev (wr_prow r ++ e) ++ b) T') = rest_ms true (rev (wr_prow r) ++ b) T.
  Proof.
    intros r T b [HT|(X & -> & H1 & H2)].
    - destruct (tail2_cases T HT) as [->|(X & -> & H1 & H2)].
      + exists [], []. split; [apply row_tail_nil|]. rewrite app_nil_r. apply rest_scan; [reflexivity|apply prow_bol].
      + exists [10], (10 :: X). split; [apply row_tail_gap; assumption|]. rewrite rev_app_distr. reflexivity.
    - exists [], (10 :: X). split; [apply row_tail_row; assumption|]. rewrite app_nil_r. rewrite scan_miss by (apply newline_no; [apply prow_bol|left; reflexivity]). reflexivity.
  Qed.
  Definition wr_rows (rows : list (list pcell)) : str := lines_text (map wr_prow rows).
  Definition prows_ok (rows : list (list pcell)) : bool := forallb (fun r => nonempty r && forallb pcell_ok r) rows.
  Lemma wr_rows_head : forall r rows, r <> [] -> exists Y, wr_rows (r :: rows) = 124 :: Y.
  Proof. intros r rows H. destruct (wr_prow_head r H) as (Y & EY). unfold wr_rows. cbn [map lines_text]. rewrite EY. destruct (map wr_prow rows); eexists; reflexivity. Qed.
  Lemma prows_run : forall rows, rows <> [] -> prows_ok rows = true -> forall T b dch tch out s, bol b = true -> below T ->
    nobreak tch -> tab_start dch tch s -> showns table_h (rev tch) out ->
    exists tch', run true (mts (scan (block_re true) 0 b (wr_rows rows ++ T))) s = run true (rest_ms true (rev (wr_rows rows) ++ b) T) (in_table dch tch') /\
      nobreak tch' /\ showns table_h (rev tch') (out ++ flat_map (html_row (strict c)) (map (map pc_cell) rows)).
  Proof.
    induction rows as [|r rows IH]; intros Hne Hok T b dch tch out s Hb HT Hn Hs Sh; [congruence|].
    unfold prows_ok in Hok. cbn [forallb] in Hok. apply andb_true_iff in Hok as [Hr Hrs]. apply andb_true_iff in Hr as [Hr1 Hr2].
    assert (Hrn : r <> []) by (destruct r; discriminate). assert (PE : perr s = false) by (destruct Hs as [->|(_ & _ & ->)]; reflexivity).
    assert (One : forall R e T', row_tail R e T' -> exists rch,
      run true (mts (scan (block_re true) 0 b (wr_prow r ++ R))) s = run true (mts (scan (block_re true) 0 (rev (wr_prow r ++ e) ++ b) T')) (in_table dch (Nd row_h rch :: tch)) /\
      showns table_h (rev (Nd row_h rch :: tch)) (out ++ html_row (strict c) (map pc_cell r))).
    { intros R e T' HR. pose proof HR as (ER & _).
      assert (Hm : m (block_re true) (mk b ((wr_prow r ++ e) ++ T') []) fin = Some (mk (rev (wr_prow r ++ e) ++ b) T' [(G_table, wr_prow r)])).
      { rewrite <- app_assoc, <- ER. apply (prow_m [] r R e T' b fin); try assumption; try reflexivity; [left; reflexivity|].
        apply line_no. right. destruct (wr_prow_head r Hrn) as (Y & ->). reflexivity. }
      rewrite ER, app_assoc. destruct (wr_prow_head r Hrn) as (Y & EY). assert (Hwn : wr_prow r ++ e <> []) by (rewrite EY; discriminate).
      rewrite (mts_hit _ _ _ _ _ Hwn Hm). rewrite (run_cons true _ _ _ G_table) by (assumption || reflexivity). cbn [block_handler].
      destruct (prow_step r (mkm (wr_prow r ++ e) [(G_table, wr_prow r)]) dch tch out s Hr2 Hrn eq_refl Hn Hs Sh) as (rch & E1 & E2).
      exists rch. rewrite E1. auto. }
    destruct rows as [|r2 rows].
    - unfold wr_rows. cbn [map lines_text flat_map]. rewrite app_nil_r. destruct (below_row r T b HT) as (e & T' & HR & E). destruct (One T e T' HR) as (rch & E1 & E2).
      exists (Nd row_h rch :: tch). rewrite E1, E. split; [reflexivity|]. split; [discriminate|exact E2].
    - assert (Hr2n : r2 <> []) by (cbn [forallb] in Hrs; destruct r2; discriminate).
      destruct (wr_rows_head r2 rows Hr2n) as (Y & EW). change (wr_rows (r :: r2 :: rows)) with (wr_prow r ++ [10] ++ wr_rows (r2 :: rows)).
      remember (wr_rows (r2 :: rows)) as W eqn:DW.
      assert (HR : row_tail (10 :: W ++ T) [] (10 :: W ++ T)) by (apply row_tail_row; rewrite EW; reflexivity).
      destruct (One _ _ _ HR) as (rch & E1 & E2).
      replace ((wr_prow r ++ [10] ++ W) ++ T) with (wr_prow r ++ 10 :: W ++ T) by (rewrite <- !app_assoc; reflexivity). rewrite E1. rewrite app_nil_r.
      rewrite scan_miss by (apply newline_no; [apply prow_bol|left; reflexivity]). change (mts (Datatypes.inl 10 :: ?x)) with (mts x).
      destruct (IH ltac:(discriminate) Hrs T (10 :: rev (wr_prow r) ++ b) dch (Nd row_h rch :: tch) _ _ eq_refl HT ltac:(discriminate) (or_introl eq_refl) E2) as (tch' & F1 & F2 & F3).
      exists tch'. rewrite F1. split; [|split; [exact F2|]].
      + replace (rev (wr_prow r ++ [10] ++ W) ++ b) with (rev W ++ 10 :: rev (wr_prow r) ++ b); [reflexivity|]. repeat (rewrite ?rev_app_distr, <- ?app_assoc; cbn [rev app]). reflexivity.
      + cbn [flat_map map] in F3 |- *. rewrite <- !app_assoc in F3. exact F3.
  Qed.
  (** the document with the table still open *)
  Definition tabst (s : ps) (out : str) : Prop := exists dch tch, s = in_table dch tch /\ nobreak tch /\ showns doc_h (rev (Nd table_h (rev tch) :: dch)) out.
  Lemma tabst_docst : forall s out, tabst s out -> docst c s out.
  Proof.
    intros s out (dch & tch & -> & E2 & Sh). exists table_h, tch, [(doc_h, dch)], (Nd table_h (rev tch) :: dch). split; [reflexivity|]. split; [exact E2|].
    split; [intros f [<-|[]]; discriminate|]. split; [reflexivity|exact Sh].
  Qed.
  Definition html_t (rows : list (list pcell)) : str := html_block true (strict c) (BTable (map (map pc_cell) rows)) ++ [10].
  Lemma ptable_facts : forall rows, ptable_ok rows = true -> rows <> [] /\ prows_ok rows = true.
  Proof. intros rows H. unfold ptable_ok in H. apply andb_true_iff in H as [H1 H2]. split; [destruct rows; discriminate|exact H2]. Qed.
  Lemma ptable_first : forall rows, ptable_ok rows = true -> forall T s out b, below T -> atdoc c s out -> bol b = true ->
    exists s', tabst s' (out ++ html_t rows) /\ run true (mts (scan (block_re true) 0 b (wr_rows rows ++ T))) s = run true (rest_ms true (rev (wr_rows rows) ++ b) T) s'.
  Proof.
    intros rows Hok T s out b HT (dch & -> & Hd & Sh) Hb. destruct (ptable_facts rows Hok) as (H1 & H2).
    destruct (prows_run rows H1 H2 T b dch [] [] (mkps [(doc_h, dch)] false [] false) Hb HT I) as (tch & E1 & E2 & E3).
    { right. auto. }
    { apply showns_nil. }
    exists (in_table dch tch). split; [|exact E1]. exists dch, tch. split; [reflexivity|]. split; [exact E2|].
    cbn [rev]. unfold html_t. cbn [html_block]. apply showns_snoc; [exact Sh|]. apply shown_table. exact E3.
  Qed.
  Lemma ptable_next : forall rows, ptable_ok rows = true -> forall T s out b, below T -> docst c s out -> bol b = true ->
    exists s', tabst s' (out ++ [10] ++ html_t rows) /\ run true (mts (scan (block_re true) 0 b ((10 :: wr_rows rows) ++ T))) s = run true (rest_ms true (rev (10 :: wr_rows rows) ++ b) T) s'.
  Proof.
    intros rows Hok T s out b HT Hs Hb. pose proof (ptable_first rows Hok) as HF. destruct (ptable_facts rows Hok) as (H1 & H2).
    destruct rows as [|r rows]; [congruence|]. unfold prows_ok in H2. cbn [forallb] in H2. apply andb_true_iff in H2 as [Hr Hrs]. apply andb_true_iff in Hr as [Hr1 Hr2].
    assert (Hrn : r <> []) by (destruct r; discriminate). destruct (wr_prow_head r Hrn) as (Y & EY).
    assert (X : exists R e T', wr_rows (r :: rows) ++ T = wr_prow r ++ R /\ row_tail R e T').
    { destruct rows as [|r2 rows].
      - destruct (below_row r T b HT) as (e & T' & HR & _). exists T, e, T'. auto.
      - exists (10 :: wr_rows (r2 :: rows) ++ T), [], (10 :: wr_rows (r2 :: rows) ++ T). split.
        + change (wr_rows (r :: r2 :: rows)) with (wr_prow r ++ [10] ++ wr_rows (r2 :: rows)). rewrite <- !app_assoc. reflexivity.
        + assert (Hr2n : r2 <> []) by (cbn [forallb] in Hrs; destruct r2; discriminate). destruct (wr_rows_head r2 rows Hr2n) as (V & ->). apply row_tail_row; reflexivity. }
    destruct X as (R & e & T' & ER & HR). pose proof HR as (ER2 & _).
    assert (Hm : m (block_re true) (mk (10 :: b) ((wr_prow r ++ e) ++ T') []) fin = Some (mk (rev (wr_prow r ++ e) ++ 10 :: b) T' [(G_table, wr_prow r)])).
    { rewrite <- app_assoc, <- ER2. apply (prow_m [] r R e T' (10 :: b) fin); try assumption; try reflexivity; [left; reflexivity|].
      apply line_no. right. rewrite EY. reflexivity. }
    assert (Ew : wr_rows (r :: rows) ++ T = (wr_prow r ++ e) ++ T') by (rewrite ER, ER2, app_assoc; reflexivity).
    assert (Hwn : wr_prow r ++ e <> []) by (rewrite EY; discriminate).
    assert (Ha : m (block_re true) (mk b ((10 :: wr_prow r ++ e) ++ T') []) (fadv ((10 :: wr_prow r ++ e) ++ T')) = Some (mk (rev (10 :: wr_prow r ++ e) ++ b) T' [(G_table, wr_prow r)])).
    { replace ((10 :: wr_prow r ++ e) ++ T') with ([10] ++ wr_prow r ++ R) by (rewrite ER2; cbn [app]; rewrite <- app_assoc; reflexivity).
      apply (prow_m [10] r R e T' b); try assumption; [right; reflexivity| |].
      - apply (gap_line_adv (wr_prow r ++ R) b); rewrite EY; reflexivity.
      - replace ([10] ++ wr_prow r ++ R) with ((10 :: wr_prow r ++ e) ++ T') by (rewrite ER2; cbn [app]; rewrite <- app_assoc; reflexivity).
        apply fadv_hit. discriminate. }
    change ((10 :: wr_rows (r :: rows)) ++ T) with (10 :: (wr_rows (r :: rows) ++ T)). rewrite Ew.
    change (10 :: (wr_prow r ++ e) ++ T') with ((10 :: wr_prow r ++ e) ++ T').
    rewrite (mts_adv true b (wr_prow r ++ e) T' [(G_table, wr_prow r)]); [|rewrite EY; reflexivity|rewrite EY; reflexivity|exact Hb|exact Ha].
    match goal with |- context [run true (line_m :: ?ms) s] => destruct (run_line c true ms s out Hs) as (s1 & Hs1 & ->) end.
    destruct (HF T s1 (out ++ [10]) (10 :: b) HT Hs1 eq_refl) as (s2 & Hs2 & E2). exists s2. split; [rewrite <- app_assoc in Hs2; exact Hs2|].
    replace (rev (10 :: wr_rows (r :: rows)) ++ b) with (rev (wr_rows (r :: rows)) ++ 10 :: b) by (cbn [rev]; rewrite <- app_assoc; reflexivity).
    rewrite <- E2, Ew. rewrite (mts_hit _ _ _ _ _ Hwn Hm). pose proof (atdoc_perr c _ _ Hs1) as PE.
    rewrite !(run_cons true _ _ _ G_table) by (assumption || reflexivity). cbn [block_handler].
    replace (rev (10 :: wr_prow r ++ e) ++ b) with (rev (wr_prow r ++ e) ++ 10 :: b) by (cbn [rev]; rewrite <- app_assoc; reflexivity). reflexivity.
  Qed.

  (** ** a block directly below a table *)
  Definition closed (dch tch : list node) : ps := mkps [(doc_h, Nd table_h (rev tch) :: dch)] false [] false.
  Lemma tab_upto : forall dch tch, nobreak tch -> upto_block (in_table dch tch) = upto_block (closed dch tch).
  Proof. intros dch tch H. unfold upto_block, upto, in_table, closed. rewrite !cleanup_nobreak by (exact H || discriminate). reflexivity. Qed.
  Lemma tab_text : forall x dch tch, nobreak tch -> text_repl x (in_table dch tch) = text_repl x (closed dch tch).
  Proof.
    intros x dch tch H. unfold text_repl. change (kind_in (cur_kind (in_table dch tch)) [KTable; KTableRow; KBulletList; KNumberList]) with true.
    change (kind_in (cur_kind (closed dch tch)) [KTable; KTableRow; KBulletList; KNumberList]) with false. cbv iota.
    rewrite (tab_upto dch tch H). unfold closed. rewrite (atdoc_upto (Nd table_h (rev tch) :: dch)) by discriminate. reflexivity.
  Qed.
  Lemma tab_item : forall o t dch tch, nobreak tch -> item_repl (item_ms [] ([list_mark o], t)) (in_table dch tch) = item_repl (item_ms [] ([list_mark o], t)) (closed dch tch).
  Proof.
    intros o t dch tch H. unfold item_repl. rewrite !(need_some G_item_head _ _ _ [list_mark o]) by reflexivity. rewrite !(need_some G_item_text _ _ _ t) by reflexivity.
    cbn [rev app List.length Nat.sub]. rewrite mark_kind.
    change (find_list 0 0 (stk (in_table dch tch))) with (Some (1%nat, doc_h)). change (find_list 0 0 (stk (closed dch tch))) with (Some (0%nat, doc_h)). cbv iota beta.
    assert (kind_beq (hk doc_h) (list_kind o) = false) as -> by (destruct o; reflexivity).
    assert (upto [KListItem; KDocument] (in_table dch tch) = upto [KListItem; KDocument] (closed dch tch)) as ->; [|reflexivity].
    unfold upto, in_table, closed. rewrite !cleanup_nobreak by (exact H || discriminate). reflexivity.
  Qed.
  Definition leaves (ms : list mtch) : Prop := forall dch tch, nobreak tch -> run true ms (in_table dch tch) = run true ms (closed dch tch).
  Lemma leaves_intro : forall x ms g, first_group (block_groups true) x = Some g ->
    (forall dch tch, nobreak tch -> block_handler g x (in_table dch tch) = block_handler g x (closed dch tch)) -> leaves (x :: ms).
  Proof. intros x ms g Hg H dch tch Hn. rewrite !(run_cons true _ _ _ g) by (exact Hg || reflexivity). f_equal. apply H. exact Hn. Qed.
  Lemma head_leaves : forall n sp0 t cl T b, block_ok true (BHead n sp0 t cl) = true -> tail T = true -> bol b = true -> leaves (mts (scan (block_re true) 0 b (wr_block (BHead n sp0 t cl) ++ T))).
  Proof.
    intros n sp0 t cl T b Hok HT Hb. pose proof (head_hit n sp0 t cl) as HH.
    remember (wr_block (BHead n sp0 t cl)) as w eqn:Ew.
    assert (Hw : head_is (N.eqb 61) w = true) by (subst w; cbn [block_ok] in Hok; destruct n; [discriminate|reflexivity]).
    assert (Hm : m (block_re true) (mk b (w ++ T) []) fin = Some (mk (rev w ++ b) T (head_caps n w t))).
    { rewrite block_alts. destruct w as [|d w']; [discriminate|]. cbn [head_is] in Hw. apply N.eqb_eq in Hw. subst d. unfold r_macro_block.
      rewrite macro_no by reflexivity. rewrite line_no by (right; reflexivity). cbn [orelse]. apply orelse_some. rewrite Ew. apply head_hit; assumption. }
    assert (Hwn : w <> []) by (intros ->; discriminate).
    rewrite (mts_hit _ _ _ _ _ Hwn Hm). apply (leaves_intro _ _ G_head); [reflexivity|]. intros dch tch Hn. cbn [block_handler]. unfold head_repl. rewrite (tab_upto dch tch Hn). reflexivity.
  Qed.
  Lemma rule_leaves : forall T b, tail T = true -> bol b = true -> leaves (mts (scan (block_re true) 0 b ($ "----" ++ T))).
  Proof.
    intros T b HT Hb. rewrite (mts_hit _ _ ($ "----") T [(G_separator, $ "----")]); [|discriminate|].
    - apply (leaves_intro _ _ G_separator); [reflexivity|]. intros dch tch Hn. cbn [block_handler]. unfold separator_repl. rewrite (tab_upto dch tch Hn). reflexivity.
    - apply (rule_m true []); [left; reflexivity|exact Hb|exact HT|left; reflexivity|reflexivity].
  Qed.
  Lemma code_leaves : forall lines T b, block_ok true (BCode lines) = true -> bol b = true -> leaves (mts (scan (block_re true) 0 b (wr_block (BCode lines) ++ T))).
  Proof.
    intros lines T b Hok Hb. remember (wr_block (BCode lines)) as w eqn:Ew.
    assert (Hw : exists w', w = $ "{{{" ++ 10 :: w').
    { rewrite Ew. cbn [wr_block]. rewrite lines_body. eexists. reflexivity. }
    assert (Hm : m (block_re true) (mk b (w ++ T) []) fin = Some (mk (rev w ++ b) T (code_caps w (lines_text ([] :: lines ++ [[]]))))).
    { rewrite block_alts. pose proof (preb_hit true lines T b Hok Hb) as P. cbv zeta in P. rewrite <- Ew in P. destruct Hw as (w' & Hw). rewrite P.
      rewrite Hw. cbn [app]. unfold r_macro_block. rewrite macro_no by reflexivity. rewrite line_no by (right; reflexivity). rewrite head_no by (right; reflexivity).
      rewrite sep_no by (right; apply sp_no_here; reflexivity). reflexivity. }
    assert (Hwn : w <> []) by (destruct Hw as (w' & ->); discriminate).
    rewrite (mts_hit _ _ _ _ _ Hwn Hm). apply (leaves_intro _ _ G_pre_block); [reflexivity|]. intros dch tch Hn. cbn [block_handler]. unfold pre_block_repl. rewrite (tab_upto dch tch Hn). reflexivity.
  Qed.
  Lemma list_leaves : forall o items T b, block_ok true (BList o items) = true -> tail2 T = true -> bol b = true -> leaves (mts (scan (block_re true) 0 b (wr_block (BList o items) ++ T))).
  Proof.
    intros o items T b Hok HT Hb. destruct (list_cases true o items Hok) as (t & o2 & sub & r & ls & Ei & El & Hl & Hls & _).
    rewrite (lines_of_text o items _ _ El). set (l := ([list_mark o], wr_inls t)) in *. destruct (list_head l ls T Hl) as (A1 & A2).
    assert (Hne : list_text l ls <> []) by discriminate.
    assert (Hm : m (block_re true) (mk b (list_text l ls ++ T) []) fin = Some (mk (rev (list_text l ls) ++ b) T [(G_list, list_text l ls)])).
    { apply (list_m true [] o items l ls T b fin); try assumption; try reflexivity; [left; reflexivity|].
      apply line_no. right. cbn [app]. destruct o; reflexivity. }
    rewrite (mts_hit _ _ _ _ _ Hne Hm). apply (leaves_intro _ _ G_list); [reflexivity|]. intros dch tch Hn. cbn [block_handler]. unfold list_repl.
    rewrite !(need_some G_list _ _ _ ([] ++ list_text l ls)) by reflexivity.
    change (finditer item_re ?t) with (mts (scan item_re 0 [] t)). unfold list_text. rewrite app_assoc.
    rewrite items_scan by (assumption || reflexivity || (left; reflexivity)). rewrite !items_steps by reflexivity. rewrite !steps_cons by reflexivity. f_equal. apply tab_item. exact Hn.
  Qed.
  Lemma para_leaves : forall lines T b, block_ok true (BPara lines) = true -> tail2 T = true -> leaves (mts (scan (block_re true) 0 b (wr_block (BPara lines) ++ T))).
  Proof.
    intros [|l lines] T b Hok HT; [discriminate|]. cbn [block_ok forallb] in Hok. apply andb_true_iff in Hok as [Hl _]. apply andb_true_iff in Hl as [Hl Hls].
    destruct (line_ok_facts l Hl) as (L1 & L2 & L3 & L4). pose proof (truthy_ne _ L1) as L6.
    assert (One : forall R, tail R = true -> ends_in_backslash l = true \/ match R with 10 :: t' => head_is (N.eqb 10) t' | _ => true end = true -> leaves (mts (scan (block_re true) 0 b (wr_inls l ++ R)))).
    { intros R HR HB. rewrite (mts_hit _ _ _ _ _ L6 (blog_line (wr_inls l) R b L1 L2 L3 HR HB)). apply (leaves_intro _ _ G_text); [reflexivity|]. intros dch tch Hn. cbn [block_handler]. apply tab_text. exact Hn. }
    destruct lines as [|l2 lines].
    - cbn [wr_block map lines_text]. apply One; [apply tail2_tail; exact HT|]. right. destruct (tail2_cases T HT) as [->|(X & -> & _)]; reflexivity.
    - assert (Ew : wr_block (BPara (l :: l2 :: lines)) = wr_inls l ++ [10] ++ wr_block (BPara (l2 :: lines))) by reflexivity.
      rewrite Ew. set (W := wr_block (BPara (l2 :: lines))) in *.
      destruct (ends_in_backslash l) eqn:Eb.
      + replace ((wr_inls l ++ [10] ++ W) ++ T) with (wr_inls l ++ 10 :: W ++ T) by (rewrite <- !app_assoc; reflexivity). apply One; [reflexivity|left; reflexivity].
      + assert (HW : blank (W ++ T) = false).
        { cbn [forallb] in Hls. apply andb_true_iff in Hls as [Hl2 _]. destruct (line_ok_facts l2 Hl2) as (M1 & M2 & M3 & M4).
          unfold block_start in M3. rewrite !orb_false_iff in M3.
          destruct (wr_inls l2) as [|d v] eqn:R; [discriminate|].
          assert (X : exists Y, lines_text ((d :: v) :: map wr_inls lines) = d :: Y) by (destruct lines; eexists; reflexivity).
          destruct X as (Y & X). replace W with ((d :: Y)) by (unfold W; cbn [wr_block map]; rewrite R; symmetry; exact X). apply blank_line_no; [reflexivity|]. cbn [head_is] in *. tauto. }
        pose proof (blog_line_break (wr_inls l) (W ++ T) b L1 L2 L3 Eb HW) as Hm.
        replace ((wr_inls l ++ [10] ++ W) ++ T) with ((wr_inls l ++ [10]) ++ W ++ T) by (rewrite <- !app_assoc; reflexivity).
        assert (Hne2 : wr_inls l ++ [10] <> []) by (destruct (wr_inls l); discriminate).
        rewrite (mts_hit _ _ _ _ _ Hne2 Hm). apply (leaves_intro _ _ G_text); [reflexivity|]. intros dch tch Hn. cbn [block_handler]. apply tab_text. exact Hn.
  Qed.
  (** the blocks that need an empty line behind them *)
  Definition gapped (p : tpart) : bool := match p with TBlock (BCode _) | TTable _ => false | _ => true end.
  Definition tail_for (p : tpart) (T : str) : Prop := if gapped p then tail2 T = true else below T.
  Lemma part_leaves : forall p T b, tpart_ok p = true -> is_table p = false -> tail_for p T -> bol b = true -> leaves (mts (scan (block_re true) 0 b (wr_tpart p ++ T))).
  Proof.
    intros [[lines|n sp0 t cl| |lines|o items|rows]|rows] T b Hok Ht HT Hb; try discriminate Ht; try discriminate Hok; cbn [tpart_ok wr_tpart] in *.
    - apply para_leaves; assumption.
    - apply head_leaves; [exact Hok|apply tail2_tail; exact HT|exact Hb].
    - apply rule_leaves; [apply tail2_tail; exact HT|exact Hb].
    - apply code_leaves; assumption.
    - apply list_leaves; assumption.
  Qed.

  (** ** the document *)
  Definition praw (p : tpart) : str := html_raw true (strict c) (bare_block p).
  Definition after (p : tpart) (s : ps) (out : str) : Prop :=
    match p with TBlock (BCode _) => atdoc c s out | TTable _ => tabst s out | _ => docst c s out end.
  Lemma after_docst : forall p s out, after p s out -> docst c s out.
  Proof. intros [[]|] s out H; cbn [after] in H; try exact H; [apply atdoc_docst; exact H|apply tabst_docst; exact H]. Qed.
  Lemma below_code : forall T, below T -> T = [] \/ exists X, T = 10 :: X.
  Proof. intros T [H|(X & -> & _)]; [|right; eexists; reflexivity]. destruct (tail2_cases T H) as [->|(X & -> & _)]; [left; reflexivity|right; eexists; reflexivity]. Qed.
  Lemma part_first : forall p T s out b, tpart_ok p = true -> tail_for p T -> atdoc c s out -> bol b = true ->
    exists s', after p s' (out ++ praw p) /\ run true (mts (scan (block_re true) 0 b (wr_tpart p ++ T))) s = run true (rest_ms true (rev (wr_tpart p) ++ b) T) s'.
  Proof.
    intros [x|rows] T s out b Hok HT Hs Hb.
    - assert (D : gapped (TBlock x) = true \/ exists lines, x = BCode lines) by (destruct x; eauto). destruct D as [D|(lines & ->)].
      + unfold tail_for in HT. rewrite D in HT. assert (Hok' : block_ok true x = true) by (destruct x; try discriminate Hok; exact Hok).
        destruct (block_first c no_toc true x Hok' T s out b HT Hs Hb) as (s' & A & E). exists s'. split; [destruct x; try discriminate D; exact A|exact E].
      + exact (code_any c lines T s out b Hok (below_code T HT) Hs Hb).
    - exact (ptable_first rows Hok T s out b HT Hs Hb).
  Qed.
  Lemma part_next : forall p T s out b, tpart_ok p = true -> tail_for p T -> docst c s out -> bol b = true ->
    exists s', after p s' (out ++ [10] ++ praw p) /\ run true (mts (scan (block_re true) 0 b ((10 :: wr_tpart p) ++ T))) s = run true (rest_ms true (rev (10 :: wr_tpart p) ++ b) T) s'.
  Proof.
    intros [x|rows] T s out b Hok HT Hs Hb.
    - assert (D : gapped (TBlock x) = true \/ exists lines, x = BCode lines) by (destruct x; eauto). destruct D as [D|(lines & ->)].
      + unfold tail_for in HT. rewrite D in HT. assert (Hok' : block_ok true x = true) by (destruct x; try discriminate Hok; exact Hok).
        destruct (block_next c no_toc true x Hok' eq_refl T s out b HT Hs Hb) as (s' & A & E). exists s'. split; [destruct x; try discriminate D; exact A|exact E].
      + cbn [wr_tpart]. assert (K : exists w', wr_block (BCode lines) = $ "{{{" ++ 10 :: w') by (cbn [wr_block]; rewrite lines_body; eexists; reflexivity).
        change ((10 :: wr_block (BCode lines)) ++ T) with (10 :: (wr_block (BCode lines) ++ T)).
        rewrite gap_lazy; try assumption; try (destruct K as (w' & ->); reflexivity).
        cbn [mts flat_map app]. destruct (run_line c true (mts (scan (block_re true) 0 (10 :: b) (wr_block (BCode lines) ++ T))) s out Hs) as (s1 & Hs1 & E1).
        destruct (code_any c lines T s1 _ (10 :: b) Hok (below_code T HT) Hs1 eq_refl) as (s2 & Hs2 & E2). exists s2. split; [rewrite <- app_assoc in Hs2; exact Hs2|].
        etransitivity; [exact E1|]. etransitivity; [exact E2|]. cbn [rev]. rewrite <- app_assoc. reflexivity.
    - exact (ptable_next rows Hok T s out b HT Hs Hb).
  Qed.
  Fixpoint draw (d : tdoc) : str := match d with [] => [] | [(p, _)] => praw p | (p, e) :: r => praw p ++ (if e then [10] else []) ++ draw r end.
  Definition sep_of (e : bool) : str := if e then [10; 10] else [10].
  Lemma wr_tdoc_cons : forall p e q d, wr_tdoc ((p, e) :: q :: d) = wr_tpart p ++ sep_of e ++ wr_tdoc (q :: d). Proof. reflexivity. Qed.
  Lemma draw_cons : forall p e q d, draw ((p, e) :: q :: d) = praw p ++ (if e then [10] else []) ++ draw (q :: d). Proof. reflexivity. Qed.
  Lemma tpart_head : forall p, tpart_ok p = true -> truthy (wr_tpart p) = true /\ head_is is_space (wr_tpart p) = false.
  Proof.
    intros [x|rows] H.
    - apply (block_head true). destruct x; try discriminate H; exact H.
    - destruct (ptable_facts rows H) as (A & B). destruct rows as [|r rows]; [congruence|]. unfold prows_ok in B. cbn [forallb] in B. apply andb_true_iff in B as [B _]. apply andb_true_iff in B as [B _].
      destruct (wr_rows_head r rows ltac:(destruct r; discriminate)) as (Y & EY). unfold wr_rows in EY. cbn [wr_tpart]. rewrite EY. split; reflexivity.
  Qed.
  Lemma wr_tdoc_head : forall d, d <> [] -> tdoc_ok d = true -> truthy (wr_tdoc d) = true /\ head_is is_space (wr_tdoc d) = false.
  Proof.
    intros [|[p e] d] Hn H; [congruence|]. cbn [tdoc_ok] in H. apply andb_true_iff in H as [H _]. apply andb_true_iff in H as [H _]. destruct (tpart_head p H) as (A & B). destruct d as [|q d]; [split; assumption|].
    rewrite wr_tdoc_cons. destruct (head_app is_space (wr_tpart p) (sep_of e ++ wr_tdoc (q :: d)) A) as (-> & ->). auto.
  Qed.
  (** what follows the first part *)
  Definition rest_of (d : tdoc) : str := match d with (_, e) :: q :: r => sep_of e ++ wr_tdoc (q :: r) | _ => [] end.
  Lemma wr_tdoc_rest : forall p e d, wr_tdoc ((p, e) :: d) = wr_tpart p ++ rest_of ((p, e) :: d).
  Proof. intros p e [|q d]; [symmetry; apply app_nil_r|reflexivity]. Qed.
  Lemma rest_tail : forall p e d, tdoc_ok ((p, e) :: d) = true -> tail_for p (rest_of ((p, e) :: d)).
  Proof.
    intros p e [|[q f] d] H; unfold tail_for.
    - cbn [rest_of]. destruct (gapped p); [reflexivity|left; reflexivity].
    - cbn [tdoc_ok] in H. rewrite !andb_true_iff in H. destruct H as [[H1 H2] H3]. destruct (wr_tdoc_head ((q, f) :: d) ltac:(discriminate)) as (A & B); [cbn [tdoc_ok]; rewrite !andb_true_iff; exact H3|].
      change (rest_of ((p, e) :: (q, f) :: d)) with (sep_of e ++ wr_tdoc ((q, f) :: d)). destruct e.
      + assert (HT : tail2 (sep_of true ++ wr_tdoc ((q, f) :: d)) = true) by (unfold sep_of; cbn [tail2 app]; rewrite A, B; reflexivity). destruct (gapped p); [exact HT|left; exact HT].
      + assert (gapped p = false) as -> by (destruct p as [[]|]; try discriminate H2; reflexivity). right. exists (wr_tdoc ((q, f) :: d)). split; [reflexivity|split; assumption].
  Qed.
  Lemma tdoc_run : forall d, tdoc_ok d = true -> d <> [] ->
    (forall b s out, bol b = true -> atdoc c s out -> docst c (run true (mts (scan (block_re true) 0 b (wr_tdoc d))) s) (out ++ draw d)) /\
    (match d with (p, _) :: _ => is_table p = false | [] => True end -> forall b s out, bol b = true -> tabst s out -> docst c (run true (mts (scan (block_re true) 0 b (wr_tdoc d))) s) (out ++ draw d)) /\
    (forall b s out, bol b = true -> docst c s out -> docst c (run true (mts (scan (block_re true) 0 b (10 :: wr_tdoc d))) s) (out ++ [10] ++ draw d)).
  Proof.
    induction d as [|[p e] d IH]; intros Hok Hn; [congruence|]. pose proof (rest_tail p e d Hok) as HT. pose proof Hok as Hok'. cbn [tdoc_ok] in Hok. rewrite !andb_true_iff in Hok. destruct Hok as [[H1 H2] H3]. specialize (IH H3).
    assert (Go : forall b s out, after p s out -> docst c (run true (rest_ms true b (rest_of ((p, e) :: d))) s) (out ++ match d with [] => [] | _ => (if e then [10] else []) ++ draw d end)).
    { intros b s out Hs. destruct d as [|[q f] d].
      - rewrite app_nil_r. exact (after_docst p s out Hs).
      - destruct (IH ltac:(discriminate)) as (I1 & I2 & I3). change (rest_of ((p, e) :: (q, f) :: d)) with (sep_of e ++ wr_tdoc ((q, f) :: d)). destruct e.
        + exact (I3 (10 :: b) s out eq_refl (after_docst p s out Hs)).
        + cbn [orb] in H2. destruct p as [x|rows]; [destruct x; try discriminate H2|].
          * exact (I1 (10 :: b) s out eq_refl Hs).
          * apply negb_true_iff in H2. exact (I2 H2 (10 :: b) s out eq_refl Hs). }
    assert (Ed : draw ((p, e) :: d) = praw p ++ match d with [] => [] | _ => (if e then [10] else []) ++ draw d end) by (destruct d; [symmetry; apply app_nil_r|reflexivity]).
    rewrite Ed.
    assert (P1 : forall b s out, bol b = true -> atdoc c s out -> docst c (run true (mts (scan (block_re true) 0 b (wr_tdoc ((p, e) :: d)))) s) (out ++ praw p ++ match d with [] => [] | _ => (if e then [10] else []) ++ draw d end)).
    { intros b s out Hb Hs. rewrite wr_tdoc_rest. destruct (part_first p _ s out b H1 HT Hs Hb) as (s1 & Hs1 & ->). rewrite app_assoc. apply Go. exact Hs1. }
    split; [exact P1|]. split.
    - intros Hp b s out Hb (dch & tch & -> & Hn2 & Sh). pose proof (part_leaves p (rest_of ((p, e) :: d)) b H1 Hp HT Hb) as HL. rewrite wr_tdoc_rest. rewrite (HL dch tch Hn2). rewrite <- wr_tdoc_rest.
      apply P1; [exact Hb|]. eexists. split; [reflexivity|]. split; [discriminate|exact Sh].
    - intros b s out Hb Hs. rewrite wr_tdoc_rest. change (10 :: wr_tpart p ++ ?x) with ((10 :: wr_tpart p) ++ x). destruct (part_next p _ s out b H1 HT Hs Hb) as (s1 & Hs1 & ->).
      replace (out ++ [10] ++ praw p ++ match d with [] => [] | _ => (if e then [10] else []) ++ draw d end) with ((out ++ [10] ++ praw p) ++ match d with [] => [] | _ => (if e then [10] else []) ++ draw d end) by (rewrite <- !app_assoc; reflexivity).
      apply Go. exact Hs1.
  Qed.
End Padded.
(** ** the document as html *)
Lemma html_tdoc_cons : forall s p e q d, html_tdoc s ((p, e) :: q :: d) = html_block true s (bare_block p) ++ (if e then gap (bare_block p) else [10]) ++ html_tdoc s (q :: d). Proof. reflexivity. Qed.
Lemma html_tdoc_solid : forall s d, d <> [] -> solid_text (html_tdoc s d).
Proof.
  intros s. induction d as [|[p e] d IH]; intro H; [congruence|]. destruct (html_block_solid true s (bare_block p)) as (A & B & C). destruct d as [|q d]; [exact (conj A (conj B C))|].
  destruct (IH ltac:(discriminate)) as (D & E & F). rewrite html_tdoc_cons. destruct (head_app is_space (html_block true s (bare_block p)) ((if e then gap (bare_block p) else [10]) ++ html_tdoc s (q :: d)) C) as (G1 & G2).
  split; [rewrite G1; exact A|]. split; [|exact G2]. rewrite app_assoc. rewrite last_is_suffix; [exact E|]. destruct (html_tdoc s (q :: d)); discriminate.
Qed.
Definition last_end (d : tdoc) : str := last_nl (map (fun x => bare_block (fst x)) d).
Lemma draw_html : forall c d, tdoc_ok d = true -> d <> [] -> draw c d = html_tdoc (strict c) d ++ last_end d.
Proof.
  intro c. induction d as [|[p e] d IH]; intros Hok Hn; [congruence|]. destruct d as [|q d].
  - cbn [draw html_tdoc]. unfold praw, html_raw, last_end, last_nl. cbn [map fst rev app]. destruct (bare_block p); reflexivity.
  - cbn [tdoc_ok] in Hok. destruct q as [q f]. apply andb_true_iff in Hok as [Hok H3]. apply andb_true_iff in Hok as [H1 H2]. rewrite draw_cons, html_tdoc_cons, IH by (exact H3 || discriminate).
    assert (last_end ((p, e) :: (q, f) :: d) = last_end ((q, f) :: d)) as -> by (unfold last_end, last_nl; cbn [map rev fst]; destruct (rev (map (fun x : tpart * bool => bare_block (fst x)) d)); reflexivity).
    unfold praw, html_raw. rewrite <- !app_assoc. f_equal. destruct e; [destruct p as [[]|]; reflexivity|]. destruct p as [[]|]; try discriminate H2; reflexivity.
Qed.
Lemma prow_no_cr : forall r, forallb pcell_ok r = true -> r <> [] -> ~ In 13 (wr_prow r).
Proof.
  intros r H Hn I. destruct (prow_shape r Hn H) as (R & E & HR). rewrite E in I. unfold bar_row in I. unfold no_char in HR. destruct I as [I|I]; [discriminate I|]. apply in_app_or in I as [I|[I|[]]]; [|discriminate I].
  rewrite forallb_forall in HR. specialize (HR 13 I). discriminate HR.
Qed.
Lemma tpart_no_cr : forall p, tpart_ok p = true -> ~ In 13 (wr_tpart p).
Proof.
  intros [x|rows] H.
  - apply (block_no_cr true). destruct x; try discriminate H; exact H.
  - destruct (ptable_facts rows H) as (_ & B). cbn [wr_tpart]. clear H. unfold prows_ok in B. induction rows as [|r rows IH]; [intros []|]. cbn [forallb] in B. apply andb_true_iff in B as [B1 B2]. apply andb_true_iff in B1 as [B0 B1].
    pose proof (prow_no_cr r B1 ltac:(destruct r; discriminate)) as N. specialize (IH B2). cbn [map]. destruct (map wr_prow rows) as [|y ys] eqn:E; [exact N|]. change (lines_text (wr_prow r :: y :: ys)) with (wr_prow r ++ [10] ++ lines_text (y :: ys)).
    intro I. apply in_app_or in I as [I|[I|I]]; [exact (N I)|discriminate I|exact (IH I)].
Qed.
Lemma tdoc_no_cr : forall d, tdoc_ok d = true -> ~ In 13 (wr_tdoc d).
Proof.
  induction d as [|[p e] d IH]; intro H; [intros []|]. cbn [tdoc_ok] in H. apply andb_true_iff in H as [H H3]. apply andb_true_iff in H as [H1 _]. pose proof (tpart_no_cr p H1) as B. destruct d as [|q d]; [exact B|]. rewrite wr_tdoc_cons.
  intro I. apply in_app_or in I as [I|I]; [exact (B I)|]. apply in_app_or in I as [I|I]; [destruct e; cbn in I; intuition discriminate|]. exact (IH H3 I).
Qed.
Theorem tdoc_spec : forall v s md d, tdoc_ok d = true -> creole2html (mkopts true v s) md (wr_tdoc d) = (Ok (html_tdoc s d), md).
Proof.
  intros v s md d H. destruct d as [|x d].
  - destruct md as [e t l]. destruct v, t; reflexivity.
  - unfold creole2html. cbn [o_blog o_verbose o_strict]. unfold parse. rewrite norm_id by (apply tdoc_no_cr; exact H).
    set (c := mkcfg (match v with None => 1%Z | Some v => v end) s (md_env md) false).
    assert (Hi : atdoc c init_ps []) by (exists []; split; [reflexivity|]; split; [exact Logic.I|apply showns_nil]).
    destruct (tdoc_run c eq_refl (x :: d) H ltac:(discriminate)) as [R _]. specialize (R [] init_ps [] eq_refl Hi).
    change (parse_block true (wr_tdoc (x :: d)) init_ps) with (run true (mts (scan (block_re true) 0 [] (wr_tdoc (x :: d)))) init_ps).
    destruct (docst_emit c _ _ (mkest (md_toc md) (md_log md)) R) as (root & -> & Er). cbn [init_toc existsb]. fold c. unfold emit. rewrite Er.
    change (use_toc c) with false. cbv iota beta. cbn [toc log app]. rewrite draw_html by (exact H || discriminate). rewrite strip_solid.
    + destruct md. reflexivity.
    + apply html_tdoc_solid. discriminate.
    + unfold last_end, last_nl. destruct (rev _) as [|[] r]; auto.
Qed.
Lemma html_tdoc_bare : forall s d d', map (fun x => (bare_block (fst x), snd x)) d = map (fun x => (bare_block (fst x), snd x)) d' -> html_tdoc s d = html_tdoc s d'.
Proof.
  intros s. induction d as [|[p e] d IH]; intros [|[p' e'] d'] H; try discriminate H; [reflexivity|]. cbn [map fst snd] in H. injection H as H1 H2 H3. specialize (IH d' H3).
  destruct d as [|q d], d' as [|q' d']; try discriminate H3.
  - cbn [html_tdoc]. rewrite H1. reflexivity.
  - rewrite !html_tdoc_cons, IH, H1, H2. reflexivity.
Qed.
Theorem tdoc_blanks : forall v s md d d', tdoc_ok d = true -> tdoc_ok d' = true ->
  map (fun x => (bare_block (fst x), snd x)) d = map (fun x => (bare_block (fst x), snd x)) d' ->
  creole2html (mkopts true v s) md (wr_tdoc d) = creole2html (mkopts true v s) md (wr_tdoc d').
Proof. intros v s md d d' H H' E. rewrite !tdoc_spec by assumption. rewrite (html_tdoc_bare s d d' E). reflexivity. Qed.
