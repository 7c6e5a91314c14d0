(** * Canonical creole documents with tables: to html and back *)
From Coq Require Import String List Arith NArith ZArith Bool Lia.
From Verif Require Import PyStr PyStrFacts Utils Res HtmlEmitter Spec2 Spec4 Spec5 InlineParse HtmlTok HtmlBase Html2X Spec10 Spec11 Spec12 Spec26 Spec27 Spec33 Spec34 PreDoc TableDoc.
From Verif Require RoundTrip CodeTrip.
Import RoundTrip.
Import ListNotations.
Open Scope N_scope.

(** ** the text of a cell *)
Definition reads_nl (i : inl) : Prop := forall s r, okay i -> neat_inl true s i r = true -> cre_inls [10] (to_x i) = wr_nl i /\ one_row (wr_nl i) = wr_inl i.
Lemma one_row_app : forall a b, one_row (a ++ b) = one_row a ++ one_row b.
Proof. intros. unfold one_row. apply flat_map_app. Qed.
Lemma one_row_id : forall w, forallb (fun c => negb (c =? 10)) w = true -> one_row w = w.
Proof. unfold one_row. induction w as [|c w IH]; intro H; [reflexivity|]. cbn [forallb flat_map] in *. apply andb_true_iff in H as [H1 H2]. apply negb_true_iff in H1. rewrite H1, (IH H2). reflexivity. Qed.
Lemma no10_app : forall a b, forallb (fun c => negb (c =? 10)) a = true -> forallb (fun c => negb (c =? 10)) b = true -> forallb (fun c => negb (c =? 10)) (a ++ b) = true.
Proof. intros a b A B. rewrite forallb_app, A, B. reflexivity. Qed.
Lemma nls_of : forall l, Forall reads_nl l -> forall s, Forall okay l -> neat_inls true s l = true -> cre_inls [10] (to_xs l) = flat_map wr_nl l /\ one_row (flat_map wr_nl l) = wr_inls l.
Proof.
  intros l H. induction H as [|x l Hx Hl IH]; intros s O N; [split; reflexivity|]. cbn [neat_inls] in *. apply andb_true_iff in N as [N1 N2]. inversion O as [|? ? O1 O2]; subst.
  destruct (IH _ O2 N2) as (I1 & I2). destruct (Hx _ _ O1 N1) as (X1 & X2). unfold to_xs, cre_inls, wr_inls in *. cbn [flat_map]. rewrite flat_map_app, one_row_app, X2, I1, I2, X1. split; reflexivity.
Qed.
Lemma nl_one : forall i, reads_nl i.
Proof.
  induction i as [w|d|f body IH|x|target text|target title size|v| |target body IH] using inl_ind'; intros s r O N; try discriminate N; pose proof O as O'; try destruct O as (b & t & O).
  - split; [apply refs_cre|]. cbn [wr_nl wr_inl]. apply one_row_id. exact (proj2 O').
  - rewrite neat_face in N. apply ok_face in O. destruct (nls_of body IH _ (okay_all _ _ O) N) as (E1 & E2). split.
    + unfold cre_inls, to_xs in *. cbn [to_x flat_map cre_inl wr_nl]. rewrite E1, app_nil_r. destruct f; reflexivity.
    + cbn [wr_nl wr_inl]. rewrite !one_row_app, E2. destruct f; reflexivity.
  - split.
    + cbn [wr_nl]. apply (to_x_cre (ILink target text) false [10] s r O' N ltac:(discriminate)).
    + cbn [wr_nl]. apply one_row_id. cbn [inl_ok] in O. rewrite !andb_true_iff in O. destruct O as [[[_ O1] _] O2]. cbn [wr_inl]. apply no10_app; [reflexivity|]. apply no10_app; [apply (no10_one [10; 124; 93]); [reflexivity|exact O1]|].
      apply no10_app; [|reflexivity]. destruct text as [x|]; [|reflexivity]. cbn [opt_ok with_bar] in *. rewrite !andb_true_iff in O2. destruct O2 as [[[_ O2] _] _]. apply no10_app; [reflexivity|]. apply (no10_one [10; 93]); [reflexivity|exact O2].
  - split.
    + cbn [wr_nl]. apply (to_x_cre (IImage target title size) false [10] s r O'); [|discriminate]. exact N.
    + destruct title as [title|]; [|discriminate N]. destruct size; [discriminate N|]. cbn [wr_nl]. apply one_row_id. cbn [inl_ok] in O. rewrite !andb_true_iff in O. destruct O as [[[[_ O1] _] O2] _]. cbn [opt_ok] in O2. rewrite andb_true_iff in O2. destruct O2 as [_ O2].
      cbn [wr_inl image_text with_bar]. apply no10_app; [reflexivity|]. apply no10_app; [apply (no10_one [10; 124; 125]); [reflexivity|exact O1]|]. apply no10_app; [|reflexivity]. apply no10_app; [reflexivity|]. apply (no10_one [10; 125]); [reflexivity|exact O2].
  - split; reflexivity.
  - apply neat_rich in N as (_ & _ & D & N). destruct (nls_of body IH _ (okay_rich _ _ _ _ O) N) as (E1 & E2). apply rich_facts in O as (_ & O & _). apply (no10_one [10; 124; 93] _ eq_refl) in O.
    assert (D2 : str_eqb (flat_map wr_nl body) target = false).
    { apply str_eqb_neq. intro E. rewrite E, (one_row_id _ O) in E2. unfold wr_inls in E2. rewrite <- E2, str_eqb_refl in D. discriminate D. }
    split.
    + unfold cre_inls, to_xs in *. cbn [to_x flat_map cre_inl wr_nl]. rewrite E1, app_nil_r, D2. reflexivity.
    + cbn [wr_nl wr_inl]. rewrite !one_row_app, E2, (one_row_id _ O). reflexivity.
Qed.
Lemma nls : forall l s b, inls_ok b l = true -> neat_inls true s l = true -> cre_inls [10] (to_xs l) = flat_map wr_nl l /\ one_row (flat_map wr_nl l) = wr_inls l.
Proof. intros l s b O N. apply nls_of with (s := s); [|exact (okay_all _ _ O)|exact N]. apply Forall_forall. intros; apply nl_one. Qed.

(** ** cells *)
Lemma cell_facts : forall c, neat_cell c = true -> cell_text c = [] /\ is_head c = false \/
  cell_text c <> [] /\ cell_ok c = true /\ inls_ok [] (cell_text c) = true /\ neat_inls true Edge (cell_text c) = true /\ wr_inls (cell_text c) <> [] /\ head_is (N.eqb 61) (wr_inls (cell_text c)) = false /\
  forallb solid (split_on 10 (flat_map wr_nl (cell_text c))) = true /\ startswith [92] (flat_map wr_nl (cell_text c)) = false /\ endswith [92] (flat_map wr_nl (cell_text c)) = false.
Proof.
  intros c H. unfold neat_cell in H. destruct (cell_text c) as [|i l] eqn:E; [left; split; [reflexivity|apply negb_true_iff; exact H]|]. right. cbv zeta in H. rewrite !andb_true_iff, !negb_true_iff in H. destruct H as [[[[H1 H2] H3] H4] H5].
  split; [discriminate|]. split; [exact H1|]. unfold cell_ok in H1. cbv zeta in H1. rewrite !andb_true_iff, negb_true_iff in H1. destruct H1 as [[H1 H6] _]. rewrite E in H1, H6. unfold item_text_ok in H1. rewrite !andb_true_iff in H1. destruct H1 as [[[H0 _] H1] _].
  split; [exact H1|]. split; [exact H2|]. split; [intro X; rewrite X in H0; discriminate H0|]. split; [exact H6|]. split; [exact H3|]. split; assumption.
Qed.
Lemma cell_src_eq : forall c, neat_cell c = true -> cre_cell (to_xcell c) = cell_src c.
Proof.
  intros c H. unfold cre_cell, to_xcell, cell_src. cbn [fst snd]. destruct (cell_facts c H) as [(-> & _)|(A & _ & O & N & W & _)]; [reflexivity|]. destruct (nls _ _ _ O N) as (-> & ->).
  destruct (wr_inls (cell_text c)) as [|x w] eqn:E; [congruence|]. destruct (cell_text c) as [|i l]; [congruence|]. rewrite E. reflexivity.
Qed.
Lemma xcell_fine : forall c, neat_cell c = true -> xcell_ok (to_xcell c) = true.
Proof.
  intros c H. unfold xcell_ok, to_xcell. cbn [fst snd]. cbv zeta. destruct (cell_facts c H) as [(-> & ->)|(A & _ & O & N & W & HD & S & B1 & B2)]; [reflexivity|].
  rewrite (inls_clean _ true Edge [] O N), to_xs_tags. cbn [andb]. destruct (nls _ _ _ O N) as (E1 & E2). rewrite E1, S, B1, B2. cbn [negb andb].
  assert (startswith ($ "= ") (flat_map wr_nl (cell_text c)) = false) as ->; [|cbn [negb]; rewrite orb_true_r; apply orb_true_r].
  rewrite <- E2 in HD. destruct (flat_map wr_nl (cell_text c)) as [|x t]; [reflexivity|]. unfold one_row in HD. cbn [flat_map] in HD.
  destruct (N.eqb_spec x 10) as [->|X]; [reflexivity|]. cbn [app head_is] in HD. change ($ "= ") with [61; 32]. cbn [startswith]. rewrite HD. reflexivity.
Qed.
Lemma cell_fits : forall s c, neat_cell c = true -> fits (tm_elem (if is_head c then $ "th" else $ "td") (tm_text (to_xs (cell_text c)))) (elem (if is_head c then $ "th" else $ "td") (html_inls s (br ++ [9; 9]) (cell_text c))).
Proof.
  intros s c H. rewrite elem_eq. unfold tm_elem. apply fits_part; [discriminate|]. apply fits_ws0. apply fits_app; [|apply fits_one; discriminate]. unfold tm_text. rewrite <- (app_nil_r (html_inls _ _ _)).
  apply fits_app; [|destruct (last_side Edge (to_xs (cell_text c))); try reflexivity; apply fits_ws0; reflexivity].
  destruct (cell_facts c H) as [(-> & _)|(A & _ & O & N & _)]; [reflexivity|]. apply (to_xs_fits s _ true [10; 9; 9] Edge Edge []); [reflexivity|exact O|exact N].
Qed.
Lemma cells_fits : forall s l, forallb neat_cell l = true -> forall w, forallb is_space w = true -> fits (Ws :: flat_map tm_cell (map to_xcell l)) (w ++ flat_map (html_cell s) l).
Proof.
  intro s. induction l as [|c l IH]; intros H w W.
  - cbn [map flat_map]. apply fits_ws; [exact W|reflexivity].
  - cbn [map flat_map forallb] in *. apply andb_true_iff in H as [H1 H2]. unfold tm_cell at 1, html_cell at 1. cbn [fst snd to_xcell]. rewrite <- !app_assoc.
    replace (w ++ [9] ++ elem (if is_head c then $ "th" else $ "td") (html_inls s (br ++ [9; 9]) (cell_text c)) ++ [10] ++ flat_map (html_cell s) l)
      with ((w ++ [9]) ++ elem (if is_head c then $ "th" else $ "td") (html_inls s (br ++ [9; 9]) (cell_text c)) ++ [10] ++ flat_map (html_cell s) l) by (rewrite <- app_assoc; reflexivity).
    apply fits_ws; [rewrite forallb_app; apply andb_true_iff; split; [exact W|reflexivity]|]. apply fits_app; [exact (cell_fits s c H1)|]. exact (IH H2 [10] eq_refl).
Qed.
Lemma rows_fits : forall s rows, forallb (forallb neat_cell) rows = true -> forall w, forallb is_space w = true -> fits (Ws :: flat_map tm_row (map (map to_xcell) rows)) (w ++ flat_map (html_row s) rows).
Proof.
  intro s. induction rows as [|r rows IH]; intros H w W.
  - cbn [map flat_map]. apply fits_ws; [exact W|reflexivity].
  - cbn [map flat_map forallb] in *. apply andb_true_iff in H as [H1 H2]. apply fits_ws; [exact W|].
    assert (ET : tm_row (map to_xcell r) ++ flat_map tm_row (map (map to_xcell) rows) = Open ($ "tr") [] :: (Ws :: flat_map tm_cell (map to_xcell r)) ++ Close ($ "tr") :: Ws :: flat_map tm_row (map (map to_xcell) rows)).
    { unfold tm_row at 1, tm_elem. rewrite <- app_comm_cons. rewrite <- app_comm_cons. f_equal. rewrite <- !app_comm_cons. f_equal. rewrite <- !app_assoc. reflexivity. }
    assert (EH : html_row s r ++ flat_map (html_row s) rows = part_src (Open ($ "tr") []) ++ ([10] ++ flat_map (html_cell s) r) ++ part_src (Close ($ "tr")) ++ [10] ++ flat_map (html_row s) rows) by (unfold html_row at 1; rewrite <- !app_assoc; reflexivity).
    rewrite ET, EH. apply fits_part; [discriminate|]. apply fits_app; [apply cells_fits; [exact H1|reflexivity]|]. apply fits_part; [discriminate|]. exact (IH H2 [10] eq_refl).
Qed.
Lemma table_fits : forall s rows, forallb (forallb neat_cell) rows = true -> fits (tm_block (XTable (map (map to_xcell) rows))) (html_block true s (BTable rows)).
Proof.
  intros s rows H. cbn [tm_block html_block]. unfold tm_elem.
  replace ($ "<table>" ++ [10] ++ flat_map (html_row s) rows ++ $ "</table>") with (part_src (Open ($ "table") []) ++ ([10] ++ flat_map (html_row s) rows) ++ part_src (Close ($ "table"))) by (rewrite <- !app_assoc; reflexivity).
  apply fits_part; [discriminate|]. change (Ws :: flat_map tm_row (map (map to_xcell) rows) ++ ?x) with ((Ws :: flat_map tm_row (map (map to_xcell) rows)) ++ x).
  apply fits_app; [apply rows_fits; [exact H|reflexivity]|]. apply fits_one. discriminate.
Qed.
(** ** tables *)
Lemma table_parts : forall rows, neat_table rows = true -> rows <> [] /\ forallb (forallb neat_cell) rows = true /\ exists n, n <> 0%nat /\ (forall r, In r rows -> List.length r = n) /\ forall j, (j < n)%nat -> width rows j <> 0%nat.
Proof.
  intros [|r0 rows] H; [discriminate|]. unfold neat_table in H. remember (r0 :: rows) as all eqn:Ea. rewrite !andb_true_iff in H. destruct H as [[H1 H2] H3]. split; [subst; discriminate|]. split.
  - rewrite forallb_forall in *. intros r I. specialize (H2 r I). apply andb_true_iff in H2 as [_ H2]. exact H2.
  - exists (List.length r0). split; [destruct r0; discriminate|]. split.
    + intros r I. rewrite forallb_forall in H2. specialize (H2 r I). apply andb_true_iff in H2 as [H2 _]. apply Nat.eqb_eq. exact H2.
    + intros j J. rewrite forallb_forall in H3. specialize (H3 j ltac:(apply in_seq; lia)). apply negb_true_iff, Nat.eqb_neq in H3. exact H3.
Qed.
Lemma xtable_fine : forall rows, neat_table rows = true -> xblock_ok (XTable (map (map to_xcell) rows)) = true.
Proof.
  intros rows H. destruct (table_parts rows H) as (A & B & n & C & D & _). cbn [xblock_ok]. destruct rows as [|r rows]; [congruence|]. cbn [map]. apply andb_true_iff. split.
  - pose proof (D r (or_introl eq_refl)) as E. destruct r; [cbn in E; congruence|reflexivity].
  - change (map to_xcell r :: map (map to_xcell) rows) with (map (map to_xcell) (r :: rows)). rewrite forallb_forall. intros x I. apply in_map_iff in I as (r' & <- & I). rewrite !map_length, (D r' I), (D r (or_introl eq_refl)), Nat.eqb_refl. cbn [andb].
    rewrite forallb_forall in B. specialize (B r' I). rewrite forallb_forall in *. intros y J. apply in_map_iff in J as (c & <- & J). apply xcell_fine. exact (B c J).
Qed.
Lemma srcs_eq : forall rows, forallb (forallb neat_cell) rows = true -> map (map cre_cell) (map (map to_xcell) rows) = map (map cell_src) rows.
Proof.
  intros rows H. rewrite map_map. apply map_ext_in. intros r I. rewrite map_map. apply map_ext_in. intros c J. apply cell_src_eq. rewrite forallb_forall in H. specialize (H r I). rewrite forallb_forall in H. exact (H c J).
Qed.
Lemma wr_align : forall rows j c, neat_cell c = true -> wr_pcell (align_cell rows j c) = $ "|" ++ cell_src c ++ repeat 32 (width rows j - List.length (cell_src c)).
Proof.
  intros rows j c H. unfold align_cell, wr_pcell. cbv zeta. set (n := (width rows j - List.length (cell_src c))%nat). clearbody n. unfold cell_src. destruct (cell_facts c H) as [(E & HD)|(E & _)].
  - rewrite E. cbn [pc_cell pc_pre pc_in pc_out]. rewrite E, HD. reflexivity.
  - destruct (cell_text c) as [|i l] eqn:E2; [congruence|]. destruct (is_head c) eqn:HD; cbn [pc_cell pc_pre pc_in pc_out]; rewrite HD, E2; unfold blanks; cbn [repeat Nat.add app]; rewrite <- ?app_assoc; reflexivity.
Qed.
Lemma wr_align_row : forall rows r j, forallb neat_cell r = true -> wr_prow (align_row rows j r) = pad_row (map (map cell_src) rows) j (map cell_src r).
Proof.
  intro rows. unfold wr_prow. induction r as [|c r IH]; intros j H; [reflexivity|]. cbn [forallb] in H. apply andb_true_iff in H as [H1 H2]. cbn [align_row flat_map map pad_row]. rewrite (wr_align rows j c H1). rewrite <- (IH (S j) H2). unfold width.
  rewrite <- !app_assoc. reflexivity.
Qed.
Lemma x_lines_text : forall l, x_lines l = lines_text l.
Proof. induction l as [|x l IH]; [reflexivity|]. destruct l as [|y l]; [reflexivity|]. cbn [x_lines lines_text] in *. rewrite IH. reflexivity. Qed.
Lemma table_creole : forall rows, forallb (forallb neat_cell) rows = true -> cre_block (XTable (map (map to_xcell) rows)) = wr_tpart (TTable (align rows)).
Proof.
  intros rows H. cbn [cre_block wr_tpart]. cbv zeta. rewrite (srcs_eq rows H), x_lines_text. unfold align. rewrite map_map. f_equal. rewrite !map_map. apply map_ext_in. intros r I. symmetry. apply wr_align_row. rewrite forallb_forall in H. exact (H r I).
Qed.
Lemma align_bare : forall rows, map (map pc_cell) (align rows) = rows.
Proof.
  intro rows. unfold align. rewrite map_map. rewrite <- (map_id rows) at 2. apply map_ext. intro r. generalize 0%nat. induction r as [|c r IH]; intro j; [reflexivity|]. cbn [align_row map]. rewrite IH. f_equal. unfold align_cell. cbv zeta. destruct (cell_text c); [reflexivity|]. destruct (is_head c); reflexivity.
Qed.
Lemma align_ok : forall rows, neat_table rows = true -> ptable_ok (align rows) = true.
Proof.
  intros rows H. destruct (table_parts rows H) as (A & B & n & C & D & W). unfold ptable_ok. apply andb_true_iff. split; [unfold align; destruct rows; [congruence|reflexivity]|].
  unfold align. rewrite forallb_forall. intros x I. apply in_map_iff in I as (r & <- & I). pose proof (D r I) as E. rewrite forallb_forall in B. specialize (B r I). apply andb_true_iff. split; [destruct r; [cbn in E; congruence|reflexivity]|].
  clear I. assert (G : forall j, (j + List.length r <= n)%nat -> forallb pcell_ok (align_row rows j r) = true); [|apply G; lia]. clear E. induction r as [|c r IH]; intros j J; [reflexivity|]. cbn [forallb List.length align_row] in *. apply andb_true_iff in B as [B1 B2].
  apply andb_true_iff. split; [|apply (IH B2); lia]. assert (WJ := W j ltac:(lia)). unfold pcell_ok. assert (pc_cell (align_cell rows j c) = c) as -> by (unfold align_cell; cbv zeta; destruct (cell_text c); [reflexivity|]; destruct (is_head c); reflexivity).
  destruct (cell_facts c B1) as [(E1 & E2)|(E1 & E2 & _)].
  - rewrite E1, E2. unfold align_cell, cell_src. rewrite E1. cbn [pc_pre pc_in pc_out List.length negb andb Nat.add]. apply negb_true_iff, Nat.eqb_neq. lia.
  - destruct (cell_text c); [congruence|exact E2].
Qed.

(** ** documents *)
Lemma laid_cons : forall b c d, wr_tdoc (laid (b :: c :: d)) = wr_tpart (laid_part b) ++ (if laid_gap b then [10; 10] else [10]) ++ wr_tdoc (laid (c :: d)). Proof. reflexivity. Qed.
Lemma tidy_part : forall b, tidy_block b = true -> tpart_ok (laid_part b) = true /\ bare_block (laid_part b) = b.
Proof.
  intros b H. destruct b; cbn [tidy_block laid_part tpart_ok bare_block] in *; try (split; [apply andb_true_iff in H as [H _]; exact H|reflexivity]); [split; [exact H|reflexivity]|].
  split; [apply align_ok; exact H|rewrite align_bare; reflexivity].
Qed.
Lemma laid_ok : forall d, tidy d = true -> tdoc_ok (laid d) = true.
Proof.
  induction d as [|b d IH]; intro H; [reflexivity|]. cbn [tidy] in H. rewrite !andb_true_iff in H. destruct H as [[H1 H2] H3]. destruct (tidy_part b H1) as (P & _). cbn [laid map tdoc_ok]. apply andb_true_iff. split; [|exact (IH H3)]. rewrite P. cbn [andb].
  destruct d as [|c d]; [reflexivity|]. cbn [map]. destruct b; try reflexivity. cbn [laid_gap laid_part may_touch orb]. destruct c; try reflexivity. discriminate H2.
Qed.
Lemma laid_bare : forall d, tidy d = true -> map (fun x => (bare_block (fst x), snd x)) (laid d) = map (fun b => (b, laid_gap b)) d.
Proof. induction d as [|b d IH]; intro H; [reflexivity|]. cbn [tidy] in H. rewrite !andb_true_iff in H. destruct H as [[H1 H2] H3]. destruct (tidy_part b H1) as (_ & P). cbn [laid map fst snd]. rewrite P. f_equal. exact (IH H3). Qed.
Lemma tidy_hpart : forall s b, tidy_block b = true -> match to_hpart b with HBlock x => xblock_ok x = true | HPre l => pre_ok l end /\ h_text cre_block cre_pre (to_hpart b) = wr_tpart (laid_part b) /\
  match to_hpart b with HBlock x => fits (tm_block x) (html_block true s b) | HPre l => exists w1, Spec26.blank w1 /\ html_block true s b = pre_html w1 l end.
Proof.
  intros s b H.
  assert (G : (exists rows, b = BTable rows) \/ (block_ok true b = true /\ match b with BCode _ => true | _ => neat_block true b end = true /\ to_hpart b = to_part b /\ laid_part b = TBlock b)).
  { destruct b; first [left; eexists; reflexivity|right; split; [exact H|auto; fail]|right; cbn [tidy_block] in H; apply andb_true_iff in H as [? ?]; auto]. }
  destruct G as [(rows & ->)|(O & N & E1 & E2)].
  - cbn [to_hpart laid_part h_text tidy_block] in *. destruct (table_parts rows H) as (_ & B & _). split; [apply xtable_fine; exact H|]. split; [apply table_creole; exact B|apply table_fits; exact B].
  - rewrite E1, E2. exact (CodeTrip.block_part s b O N).
Qed.
Lemma laid_hgap : forall b c, tidy_block b = true -> tidy_block c = true -> may_come b c = true -> h_gap (to_hpart b) (to_hpart c) = (if laid_gap b then [10; 10] else [10]).
Proof. intros [] [] H1 H2 H3; try discriminate H3; reflexivity. Qed.
(** the html with some white space between the parts *)
Fixpoint html_sep (s : bool) (d : list (block * str)) : str := match d with [] => [] | [(b, _)] => html_block true s b | (b, w) :: r => html_block true s b ++ w ++ html_sep s r end.
Lemma back_fits : forall s (d : list (block * str)), tidy (map fst d) = true -> (forall x, In x d -> Spec26.blank (snd x) /\ exists w, snd x = w ++ [10]) ->
  parts_ok xblock_ok (map to_hpart (map fst d)) /\ cre_parts (map to_hpart (map fst d)) = wr_tdoc (laid (map fst d)) /\ pfits (map to_hpart (map fst d)) (html_sep s d).
Proof.
  intro s. induction d as [|[b g] d IH]; intros C G; [repeat split; constructor|]. cbn [map fst tidy] in C. rewrite !andb_true_iff in C. destruct C as [[C1 C2] C3].
  destruct (IH C3 (fun x I => G x (or_intror I))) as (I1 & I2 & I3). destruct (tidy_hpart s b C1) as (B1 & B2 & B3). cbn [map fst]. split; [constructor; [exact B1|exact I1]|]. destruct (G (b, g) (or_introl eq_refl)) as (G1 & G2). cbn [snd] in G1, G2.
  destruct d as [|[c g2] d].
  - cbn [map]. split; [unfold cre_parts; cbn [h_doc app]; rewrite B2, !app_nil_r; reflexivity|]. cbn [html_sep]. exists (html_block true s b), [], []. split; [rewrite app_nil_r; reflexivity|]. split; [exact B3|]. split; [reflexivity|]. split; [reflexivity|]. split; [discriminate|]. split; [congruence|reflexivity].
  - split.
    + cbn [map fst] in *. change (cre_parts (to_hpart b :: to_hpart c :: map to_hpart (map fst d))) with (h_text cre_block cre_pre (to_hpart b) ++ h_gap (to_hpart b) (to_hpart c) ++ cre_parts (to_hpart c :: map to_hpart (map fst d))). rewrite B2, I2, laid_cons, laid_hgap; [reflexivity|exact C1| |exact C2].
      cbn [tidy] in C3. rewrite !andb_true_iff in C3. tauto.
    + change (html_sep s ((b, g) :: (c, g2) :: d)) with (html_block true s b ++ g ++ html_sep s ((c, g2) :: d)). exists (html_block true s b), g, (html_sep s ((c, g2) :: d)). split; [reflexivity|]. split; [exact B3|]. split; [exact G1|]. split; [discriminate|].
      split; [intros _; exact G2|]. split; [intros _ _; destruct G2 as (w & ->); apply in_or_app; right; left; reflexivity|]. exact I3.
Qed.
Lemma to_creole : forall u strict d html, tidy d = true -> countable (map to_hpart d) -> pwritten (map to_hpart d) html -> html2creole u strict html = Ok (wr_tdoc (laid d)).
Proof.
  intros u strict d html C K W. assert (X : exists D : list (block * str), map fst D = d /\ forall x, In x D -> Spec26.blank (snd x) /\ exists w, snd x = w ++ [10]).
  { exists (map (fun b => (b, [10])) d). split; [rewrite map_map; cbn [fst]; apply map_id|]. intros x I. apply in_map_iff in I as (b & <- & _). split; [reflexivity|]. exists []. reflexivity. }
  destruct X as (D & E0 & G). rewrite <- E0 in C. destruct (back_fits false D C G) as (P & E & _). rewrite E0 in P, E. rewrite <- E. apply parts_creole; assumption.
Qed.
(** any way to write the document in creole is one *)
Theorem table_back : forall v s md u strict d d', tidy d = true -> countable (map to_hpart d) -> tdoc_ok d' = true -> map (fun x => bare_block (fst x)) d' = d ->
  exists html, creole2html (mkopts true v s) md (wr_tdoc d') = (Ok html, md) /\ html2creole u strict html = Ok (wr_tdoc (laid d)).
Proof.
  intros v s md u strict d d' C K O E. exists (html_tdoc s d'). split; [apply tdoc_spec; exact O|]. apply to_creole; [exact C|exact K|]. 
  set (d2 := map (fun x => (bare_block (fst x), if snd x : bool then gap (bare_block (fst x)) else [10])) d').
  assert (E2 : map fst d2 = d) by (unfold d2; rewrite map_map; cbn [fst]; exact E).
  assert (E3 : html_tdoc s d' = html_sep s d2).
  { unfold d2. clear. induction d' as [|[p e] d IH]; [reflexivity|]. destruct d as [|[q f] d]; [reflexivity|]. rewrite html_tdoc_cons, IH. reflexivity. }
  exists [], (html_tdoc s d'), []. split; [rewrite app_nil_r; reflexivity|]. split; [reflexivity|]. split; [reflexivity|]. rewrite E3, <- E2. apply back_fits.
  - rewrite E2. exact C.
  - intros x I. unfold d2 in I. apply in_map_iff in I as ([p e] & <- & _). cbn [fst snd]. destruct e; [destruct (bare_block p)|]; (split; [reflexivity|]); first [exists []; reflexivity|exists [10]; reflexivity].
Qed.
Theorem table_trip : forall v s md u strict d, tidy d = true -> countable (map to_hpart d) ->
  exists html, creole2html (mkopts true v s) md (wr_tdoc (laid d)) = (Ok html, md) /\ html2creole u strict html = Ok (wr_tdoc (laid d)).
Proof.
  intros v s md u strict d C K. apply (table_back v s md u strict d (laid d) C K); [apply laid_ok; exact C|]. pose proof (laid_bare d C) as E. apply (f_equal (map fst)) in E. rewrite !map_map in E. cbn [fst] in E. rewrite map_id in E. exact E.
Qed.
Theorem table_html_trip : forall v s md u strict d html, tidy d = true -> countable (map to_hpart d) -> pwritten (map to_hpart d) html ->
  exists t, html2creole u strict html = Ok t /\ creole2html (mkopts true v s) md t = (Ok (html_tdoc s (laid d)), md).
Proof. intros v s md u strict d html C K W. exists (wr_tdoc (laid d)). split; [apply to_creole; assumption|]. apply tdoc_spec. apply laid_ok. exact C. Qed.
