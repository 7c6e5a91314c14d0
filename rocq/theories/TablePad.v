(** * How table rows with blanks in their cells are matched *)
From Coq Require Import String List Arith NArith ZArith Bool Lia.
From Verif Require Import PyStr PyStrFacts GNames Regex Rules RegexFacts RegexRun Utils Spec4 Spec5 Spec33 InlineRun InlineParse BlockRun BlockHits TableHits.
From Verif Require BlockParse.
Import ListNotations.
Open Scope N_scope.

Lemma blanks_space : forall n, forallb is_space (blanks n) = true.
Proof. induction n as [|n IH]; [reflexivity|]. exact IH. Qed.
Lemma blanks_nochar : forall n, no_char [10; 13] (blanks n) = true.
Proof. induction n as [|n IH]; [reflexivity|]. exact IH. Qed.
Lemma blanks_add : forall n k, blanks (n + k) = blanks n ++ blanks k.
Proof. intros. apply repeat_app. Qed.
Lemma blanks_S : forall n, blanks (S n) = blanks n ++ [32].
Proof. intro n. change [32] with (blanks 1). rewrite <- blanks_add. rewrite Nat.add_comm. reflexivity. Qed.
Lemma nochar_app : forall cs a b, no_char cs (a ++ b) = no_char cs a && no_char cs b.
Proof. intros. unfold no_char. apply forallb_app. Qed.

(** ** rows *)
(** a text that ends in a bar does not end in a line of blanks *)
Lemma bar_eol : forall w Y z y, no_char [10; 13] w = true -> w ++ 124 :: Y = z ++ y -> forallb is_space z = true -> eol y = false.
Proof.
  induction w as [|c w IH]; intros Y z y Hn E Hz.
  - destruct z as [|d z]; cbn [app] in E.
    + subst y. reflexivity.
    + injection E as <- _. cbn [forallb] in Hz. discriminate.
  - unfold no_char in Hn. cbn [forallb] in Hn. apply andb_true_iff in Hn as [Hc Hn]. destruct z as [|d z]; cbn [app] in E.
    + subst y. cbn [eol]. cbn [existsb] in Hc. apply negb_true_iff in Hc. apply orb_false_iff in Hc as [Hc _]. exact Hc.
    + injection E as <- E. cbn [forallb] in Hz. apply andb_true_iff in Hz as [_ Hz]. eapply IH; eassumption.
Qed.
Lemma blank_end : forall R : str, exists R0 sp, R = R0 ++ sp /\ forallb is_space sp = true /\ last_is is_space R0 = false.
Proof.
  intro R. induction R as [|c R IH] using rev_ind; [exists [], []; repeat split|].
  destruct (is_space c) eqn:E.
  - destruct IH as (R0 & sp & -> & H1 & H2). exists R0, (sp ++ [c]). rewrite app_assoc. split; [reflexivity|]. split; [|exact H2].
    rewrite forallb_app. apply andb_true_iff. split; [exact H1|]. cbn [forallb]. rewrite E. reflexivity.
  - exists (R ++ [c]), []. rewrite app_nil_r. split; [reflexivity|]. split; [reflexivity|]. unfold last_is. rewrite rev_app_distr. exact E.
Qed.
Lemma table_hit' : forall p R T e T' b k r, lead p -> bol b = true -> no_char [10; 13] R = true -> row_tail T e T' ->
  k (mk (rev (p ++ bar_row R ++ e) ++ b) T' [(G_table, bar_row R)]) = Some r ->
  m r_table (mk b (p ++ bar_row R ++ T) []) k = Some r.
Proof.
  intros p R T e T' b k r Hp Hb Hn (-> & He & Ho & Hz) Hk. unfold r_table, seqs. rewrite m_seq, m_bol, Hb, m_seq.
  unfold sps, sp. apply star_take; [apply lead_space; exact Hp|reflexivity|]. rewrite m_seq, m_grp, m_seq. unfold c1.
  unfold bar_row at 1. cbn [app]. rewrite m_chr. change (124 =? 124) with true. cbv iota. rewrite m_seq.
  rewrite <- app_assoc. destruct (blank_end R) as (R0 & sp & ER & Hsp & HR0).
  assert (Hn0 : no_char [10; 13] R0 = true) by (rewrite ER, nochar_app in Hn; apply andb_true_iff in Hn as [Hn _]; exact Hn).
  assert (Hn1 : no_char [10; 13] sp = true) by (rewrite ER, nochar_app in Hn; apply andb_true_iff in Hn as [_ Hn1]; exact Hn1).
  replace (R ++ [124] ++ e ++ T') with (R0 ++ sp ++ [124] ++ e ++ T') by (rewrite ER, <- app_assoc; reflexivity).
  unfold dotstar_lazy, dot. apply lazy_until; [apply dots; exact Hn0| |].
  - rewrite m_seq. apply star_take; [exact Hsp|reflexivity|]. unfold ROpt. rewrite m_alt. apply orelse_some. cbn [app]. rewrite m_chr. change (124 =? 124) with true. cbv iota.
    cbn [bef rest caps]. rewrite m_seq. apply star_back; [exact He| |].
    + rewrite m_eol, Ho. rewrite <- Hk. f_equal. f_equal.
      * unfold bar_row. rewrite ER. repeat (rewrite ?rev_app_distr, <- ?app_assoc; cbn [rev app]). reflexivity.
      * f_equal. f_equal. pose proof (firstn_grp (bar_row R) (e ++ T')) as F. etransitivity; [|exact F]. unfold bar_row. rewrite ER. repeat (rewrite <- ?app_assoc; cbn [app]). reflexivity.
    + intros z y E Hne Hs. rewrite m_eol. rewrite (Hz z y E Hne Hs). reflexivity.
  - intros x1 x2 Ex Hx2. subst R0. rewrite m_seq. apply star_none. intros z y Ez Hs.
    rewrite last_is_suffix in HR0 by exact Hx2. rewrite nochar_app in Hn0. apply andb_true_iff in Hn0 as [_ Hn2].
    destruct (spaces_inside _ _ _ _ Hx2 HR0 Ez Hs) as (d & x3 & -> & z' & E).
    assert (Hn3 : no_char [10; 13] (d :: x3) = true) by (rewrite E, nochar_app in Hn2; apply andb_true_iff in Hn2 as [_ X]; exact X).
    unfold ROpt. rewrite m_alt. apply orelse_none. split.
    + rewrite m_chr. destruct (124 =? d); [|reflexivity]. cbn [bef rest caps]. rewrite m_seq. apply star_none.
      intros z2 y2 Ez2 Hs2. rewrite m_eol. rewrite (bar_eol (x3 ++ sp) (e ++ T') z2 y2); [reflexivity| |rewrite <- app_assoc; exact Ez2|exact Hs2].
      unfold no_char in *. cbn [forallb] in Hn3. apply andb_true_iff in Hn3 as [_ Hn3]. rewrite forallb_app. apply andb_true_iff. split; assumption.
    + rewrite m_eps. cbn [bef rest caps]. rewrite m_seq. apply star_none. intros z2 y2 Ez2 Hs2. rewrite m_eol.
      rewrite (bar_eol ((d :: x3) ++ sp) (e ++ T') z2 y2); [reflexivity| |rewrite <- app_assoc; exact Ez2|exact Hs2].
      rewrite nochar_app, Hn3. exact Hn1.
Qed.

(** ** cells: what follows the text does not matter *)
Lemma startswith_stop : forall p w d X, (forall c, In c p -> c <> d /\ c <> 124) -> startswith p (w ++ d :: X) = startswith p (w ++ [124]).
Proof.
  induction p as [|c p IH]; intros w d X H; [destruct w; reflexivity|].
  destruct (H c (or_introl eq_refl)) as (H1 & H2).
  destruct w as [|e w]; cbn [app startswith].
  - apply N.eqb_neq in H1, H2. rewrite H1, H2. reflexivity.
  - rewrite (IH w d X); [reflexivity|]. intros c' Hc'. apply H. right. exact Hc'.
Qed.
Definition stops (d : N) : Prop := d = 32 \/ d = 124.
Lemma stops_mark : forall d c, stops d -> c = 91 \/ c = 123 \/ c = 60 -> c <> d /\ c <> 124.
Proof. intros d c [->| ->] [->|[->| ->]]; split; discriminate. Qed.
Lemma plain_stop : forall w t d X, stops d -> plain_cell w (t ++ d :: X) = plain_cell w (t ++ [124]).
Proof.
  induction w as [|c w IH]; intros t d X S; [reflexivity|]. cbn [plain_cell existsb]. rewrite (IH t d X S).
  change ((c :: w) ++ t ++ d :: X) with (c :: w ++ t ++ d :: X). change ((c :: w) ++ t ++ [124]) with (c :: w ++ t ++ [124]).
  assert (Q : forall p, (forall e, In e p -> e = 91 \/ e = 123 \/ e = 60) -> startswith p (c :: w ++ t ++ d :: X) = startswith p (c :: w ++ t ++ [124])).
  { intros p Hp. pose proof (startswith_stop p (c :: w ++ t) d X (fun e He => stops_mark d e S (Hp e He))) as E. cbn [app] in E. rewrite <- !app_assoc in E. exact E. }
  rewrite (Q ($ "[[")), (Q ($ "{{")), (Q ($ "<<")); [reflexivity| | |]; intros e [<-|[<-|[]]]; auto.
Qed.
Lemma cell_inl_stop : forall i t d X, stops d -> cell_inl i (t ++ d :: X) = cell_inl i (t ++ [124]).
Proof.
  induction i as [w|d|f body IH|x|a x|a x sz|u| |a body IH] using inl_ind'; intros t d0 X S; try reflexivity; try (apply plain_stop; exact S).
  cbn [cell_inl]. induction IH as [|x l Hx Hl IHl]; [reflexivity|]. rewrite IHl. f_equal.
  rewrite !(app_assoc (flat_map wr_inl l)), !(app_assoc _ t). apply Hx. exact S.
Qed.
Lemma eaten_inls' : forall l b d X, stops d -> l <> [] -> inls_ok b l = true -> cell_inls l [124] = true -> eaten (wr_inls l) (d :: X).
Proof.
  induction l as [|i l IH]; intros b d X S Hn Hok Hc; [congruence|]. cbn [inls_ok cell_inls] in *. apply andb_true_iff in Hok as [O1 O2], Hc as [C1 C2].
  unfold wr_inls. cbn [flat_map]. fold (wr_inls l). destruct l as [|j l].
  - cbn [wr_inls flat_map]. rewrite app_nil_r. eapply eaten_inl; [exact O1|]. cbn [wr_inls flat_map app] in C1.
    change (d :: X) with ([] ++ d :: X). rewrite cell_inl_stop by exact S. exact C1.
  - apply eaten_app; [|eapply IH; [exact S|discriminate|exact O2|exact C2]]. eapply eaten_inl; [exact O1|]. rewrite cell_inl_stop by exact S. exact C1.
Qed.
Lemma plain_blanks : forall n X, plain_cell (blanks n) (124 :: X) = true.
Proof. induction n as [|n IH]; intro X; [reflexivity|]. change (blanks (S n)) with (32 :: blanks n). cbn [plain_cell]. rewrite (IH X). reflexivity. Qed.
Lemma eaten_text : forall l b n X, l <> [] -> inls_ok b l = true -> cell_inls l [124] = true -> eaten (wr_inls l ++ blanks n) (124 :: X).
Proof.
  intros l b n X Hn Hok Hc. destruct n as [|n].
  - change (blanks 0) with (@nil N). rewrite app_nil_r. eapply eaten_inls'; try eassumption. right. reflexivity.
  - apply eaten_app; [|apply eaten_plain; [discriminate|apply plain_blanks]]. change (blanks (S n) ++ 124 :: X) with (32 :: blanks n ++ 124 :: X). eapply eaten_inls'; try eassumption. left. reflexivity.
Qed.

(** what the match of a cell gives *)
Definition pcell_m (c : cell) (x : mtch) : Prop :=
  if is_head c then group G_cell x = None /\ exists h, group G_head x = Some h /\ strip_chars ($ "= ") h = wr_inls (cell_text c)
  else exists w, group G_cell x = Some w /\ truthy w = true /\ strip w = wr_inls (cell_text c).
Lemma strip_sides : forall p a w z, forallb p a = true -> forallb p z = true -> strip_by p (a ++ w ++ z) = strip_by p w.
Proof.
  intros p a w z Ha Hz. unfold strip_by, lstrip_by.
  assert (D : forall x y : str, forallb p x = true -> drop_while p (x ++ y) = drop_while p y).
  { induction x as [|c x IH]; intros y H; [reflexivity|]. cbn [forallb] in H. apply andb_true_iff in H as [H1 H2]. cbn [app drop_while]. rewrite H1. apply IH. exact H2. }
  assert (A : forall x : str, forallb p x = true -> rstrip_by p x = []).
  { induction x as [|c x IH]; intro H; [reflexivity|]. cbn [forallb] in H. apply andb_true_iff in H as [H1 H2]. cbn [rstrip_by]. rewrite (IH H2), H1. reflexivity. }
  assert (Rs : forall x : str, rstrip_by p (x ++ z) = rstrip_by p x).
  { induction x as [|c x IH]; [apply A; exact Hz|]. cbn [app rstrip_by]. rewrite IH. reflexivity. }
  rewrite (D a) by exact Ha.
  assert (K : forall w : str, rstrip_by p (drop_while p (w ++ z)) = rstrip_by p (drop_while p w)).
  { induction w0 as [|c w0 IH]; cbn [app drop_while].
    - pose proof (D z [] Hz) as E. rewrite app_nil_r in E. rewrite E. reflexivity.
    - destruct (p c); [exact IH|]. exact (Rs (c :: w0)). }
  apply K.
Qed.
Lemma blanks_head : forall n, forallb (in_str ($ "= ")) (blanks n) = true.
Proof. induction n as [|n IH]; [reflexivity|]. exact IH. Qed.

(** as [BlockParse.strip_head] *)
Lemma strip_mark : forall w, trimmed w = true -> head_is (N.eqb 61) w = false -> last_is (N.eqb 61) w = false -> strip_by (in_str ($ "= ")) ([61] ++ w) = w.
Proof. exact BlockParse.strip_head. Qed.
Definition pcell_rest (c : pcell) : str := wr_inls (cell_text (pc_cell c)) ++ blanks (pc_out c).
Lemma pcell_hit : forall c X b, pcell_ok c = true -> exists cs,
  m cell_re (mk b (wr_pcell c ++ 124 :: X) []) fin = Some (mk (rev (wr_pcell c) ++ b) (124 :: X) cs) /\ pcell_m (pc_cell c) (mkm (wr_pcell c) cs).
Proof.
  intros c X b H. unfold pcell_ok in H. unfold wr_pcell, pcell_m.
  assert (M : forall Y cs k, m cell_re (mk b (124 :: Y) cs) k = m (seqs [sps; RAlt (RGrp G_head (RSeq (c1 61) (RPlus true not_bar))) (RGrp G_cell (RPlus true cell_alt)); sps]) (mk (124 :: b) Y cs) k).
  { intros. unfold cell_re. reflexivity. }
  change ($ "|") with [124]. cbn [app]. rewrite M. clear M.
  destruct (cell_text (pc_cell c)) as [|i l] eqn:Et.
  - (* an empty cell *)
    apply andb_true_iff in H as [H1 H2]. apply negb_true_iff in H1. rewrite H1. cbn [app]. unfold wr_inls. cbn [flat_map app].
    assert (EB : exists n, blanks (pc_pre c) ++ blanks (pc_in c) ++ blanks (pc_out c) = blanks n ++ [32]).
    { rewrite <- !blanks_add. rewrite Nat.add_assoc. apply negb_true_iff in H2. destruct (pc_pre c + pc_in c + pc_out c)%nat as [|n]; [discriminate|]. exists n. apply blanks_S. }
    destruct EB as (n & EB). rewrite EB. exists [(G_cell, [32])]. split; [|exists [32]; repeat split; reflexivity].
    rewrite <- app_assoc. cbn [app]. unfold seqs. rewrite m_seq. unfold sps at 1, sp at 1. apply star_back; [apply blanks_space| |].
    + rewrite m_seq, m_alt. rewrite grp_none by (intro k'; rewrite m_seq; unfold c1; rewrite m_chr; reflexivity). cbn [orelse]. rewrite m_grp. unfold RPlus. rewrite m_seq.
      pose proof (eaten_plain [32] (124 :: X) ltac:(discriminate) eq_refl (rev (blanks n) ++ 124 :: b) []) as (cs' & E).
      assert (Ec : cs' = []) by (revert E; clear; intro E; pose proof (E fin) as E1; rewrite bar_stop in E1; specialize (E1 _ eq_refl); rewrite cell_alts in E1; rewrite link_no in E1 by reflexivity; unfold r_macro_inline in E1; rewrite macro_no in E1 by reflexivity; rewrite macro_tag_no, image_no, pre_no in E1 by reflexivity; cbn [orelse app] in E1; unfold not_bar in E1; rewrite m_chr in E1; change (negb (32 =? 124)) with true in E1; cbv iota in E1; rewrite bar_stop in E1; unfold fin in E1; injection E1 as E1; destruct cs'; [reflexivity|discriminate]).
      subst cs'. cbn [app] in E. apply E. rewrite bar_stop. cbn [bef rest caps]. unfold sps, sp. rewrite star_zero by reflexivity. unfold fin. f_equal. f_equal.
      * repeat (rewrite ?rev_app_distr, <- ?app_assoc; cbn [rev app]). reflexivity.
      * f_equal. f_equal. exact (firstn_grp [32] (124 :: X)).
    + intros z y' Ez Hz1 Hz2. destruct z as [|d z]; [congruence|]. cbn [app] in Ez. injection Ez as <- Ez. destruct z as [|d z]; cbn [app] in Ez.
      * subst y'. rewrite m_seq, m_alt. apply orelse_none. split; [apply grp_none; intro k'; rewrite m_seq; unfold c1; rewrite m_chr; reflexivity|].
        apply grp_none. intro k'. unfold RPlus. rewrite m_seq, cell_alts. rewrite link_no by reflexivity. unfold r_macro_inline. rewrite macro_no by reflexivity. rewrite macro_tag_no, image_no, pre_no by reflexivity. reflexivity.
      * injection Ez as <- _. cbn [forallb] in Hz2. discriminate.
  - rewrite <- Et in *. unfold cell_ok in H. cbv zeta in H. rewrite !andb_true_iff in H. destruct H as [[H1 H2] H3]. unfold item_text_ok in H1. rewrite !andb_true_iff in H1.
    destruct H1 as [[[Ht Hn] Hi] _]. pose proof Ht as Htr. unfold trimmed in Ht. rewrite !andb_true_iff, !negb_true_iff in Ht. destruct Ht as [[T1 T2] T3]. apply negb_true_iff in H2.
    assert (Hne : cell_text (pc_cell c) <> []) by (rewrite Et; discriminate).
    destruct (is_head (pc_cell c)) eqn:Eh.
    + apply andb_true_iff in H3 as [H3 H4]. apply negb_true_iff in H4.
      set (w := wr_inls (cell_text (pc_cell c))) in *.
      assert (NB : forallb (fun c => negb (c =? 124)) (blanks (pc_in c) ++ w ++ blanks (pc_out c)) = true).
      { rewrite !forallb_app. assert (B : forall n, forallb (fun c => negb (c =? 124)) (blanks n) = true) by (clear; induction n as [|n IH]; [reflexivity|exact IH]). rewrite !B, andb_true_r. cbn [andb].
        unfold no_char in H3. rewrite forallb_forall in *. intros e He. specialize (H3 e He). cbn [existsb] in H3. rewrite orb_false_r in H3. exact H3. }
      set (R := blanks (pc_in c) ++ w ++ blanks (pc_out c)) in *.
      assert (RN : R <> []) by (unfold R; destruct w; [discriminate|]; destruct (blanks (pc_in c)); discriminate).
      exists [(G_head, 61 :: R)]. split; [|split; [reflexivity|]; exists (61 :: R); split; [reflexivity|]].
      * rewrite <- !app_assoc. unfold seqs. rewrite m_seq. unfold sps at 1, sp at 1. apply star_take; [apply blanks_space|reflexivity|].
        change ($ "=") with [61]. cbn [app]. replace (blanks (pc_in c) ++ w ++ blanks (pc_out c) ++ 124 :: X) with (R ++ 124 :: X) by (unfold R; rewrite <- !app_assoc; reflexivity).
        rewrite m_seq, m_alt. apply orelse_some. rewrite m_grp, m_seq. unfold c1. rewrite m_chr. change (61 =? 61) with true. cbv iota. unfold RPlus, not_bar. rewrite m_seq.
        destruct R as [|d R'] eqn:ER; [congruence|]. cbn [app]. rewrite m_chr. cbn [forallb] in NB. apply andb_true_iff in NB as [NB1 NB2]. rewrite NB1.
        apply star_take; [exact NB2|reflexivity|]. cbn [bef rest caps]. unfold sps, sp. rewrite star_zero by reflexivity. unfold fin. f_equal. f_equal.
        -- repeat (rewrite ?rev_app_distr, <- ?app_assoc; cbn [rev app]). reflexivity.
        -- f_equal. f_equal. exact (firstn_grp (61 :: d :: R') (124 :: X)).
      * unfold strip_chars, R. change (61 :: blanks (pc_in c) ++ w ++ blanks (pc_out c)) with ((61 :: blanks (pc_in c)) ++ w ++ blanks (pc_out c)).
        rewrite strip_sides; [|exact (blanks_head (pc_in c))|apply blanks_head].
        pose proof (strip_sides (in_str ($ "= ")) [61] w [] eq_refl eq_refl) as E. rewrite app_nil_r in E. rewrite <- E. exact (strip_mark w Htr H2 H4).
    + cbn [app]. set (w := wr_inls (cell_text (pc_cell c))) in *.
      pose proof (eaten_text (cell_text (pc_cell c)) [] (pc_out c) X Hne Hi H3 (rev (blanks (pc_pre c + pc_in c)) ++ 124 :: b) []) as (cs' & E). cbn [app] in E. rewrite app_nil_r in E. fold w in E.
      exists ((G_cell, w ++ blanks (pc_out c)) :: cs'). split.
      * rewrite (app_assoc (blanks (pc_pre c))), <- blanks_add. rewrite <- app_assoc. unfold seqs. rewrite m_seq. unfold sps at 1, sp at 1.
        apply star_take; [apply blanks_space|destruct w; [discriminate|exact T1]|].
        rewrite m_seq, m_alt. rewrite grp_none.
        2: { intro k'. rewrite m_seq. unfold c1. destruct w as [|d w]; [discriminate|]. cbn [app head_is] in *. rewrite m_chr. rewrite H2. reflexivity. }
        cbn [orelse]. rewrite m_grp. unfold RPlus. rewrite m_seq. apply E. rewrite bar_stop. cbn [bef rest caps].
        unfold sps, sp. rewrite star_zero by reflexivity. unfold fin. f_equal. f_equal.
        -- repeat (rewrite ?rev_app_distr, <- ?app_assoc; cbn [rev app]). reflexivity.
        -- f_equal. f_equal. apply firstn_grp.
      * exists (w ++ blanks (pc_out c)). split; [reflexivity|]. split; [destruct w; [discriminate|reflexivity]|].
        unfold strip. pose proof (strip_sides is_space [] w (blanks (pc_out c)) eq_refl (blanks_space _)) as E2. cbn [app] in E2. etransitivity; [exact E2|]. exact (trimmed_strip w Htr).
Qed.
Lemma pcells_scan : forall r b, forallb pcell_ok r = true -> exists ms,
  mts (scan cell_re 0 b (wr_prow r)) = ms /\ Forall2 pcell_m (map pc_cell r) ms.
Proof.
  induction r as [|c r IH]; intros b H.
  - destruct (cells_scan [] b eq_refl) as (ms & E & F). exists ms. split; [exact E|]. inversion F. constructor.
  - cbn [forallb] in H. apply andb_true_iff in H as [Hc Hr].
    assert (E : exists X, flat_map wr_pcell r ++ [124] = 124 :: X) by (destruct r; eexists; reflexivity). destruct E as (X & E).
    destruct (pcell_hit c X b Hc) as (cs & Hm & Hg).
    destruct (IH (rev (wr_pcell c) ++ b) Hr) as (ms & E2 & F2).
    exists (mkm (wr_pcell c) cs :: ms). split.
    + unfold wr_prow in *. cbn [flat_map]. rewrite <- app_assoc. change ($ "|") with [124] in *. rewrite E in *.
      rewrite (scan_hit _ _ (wr_pcell c) (124 :: X) cs); [|discriminate|exact Hm]. cbn [mts flat_map app]. unfold mts in E2. rewrite E2. reflexivity.
    + cbn [map]. constructor; [exact Hg|exact F2].
Qed.
(** the shape of a row *)
Lemma prow_shape : forall r, r <> [] -> forallb pcell_ok r = true -> exists R, wr_prow r = bar_row R /\ no_char [10; 13] R = true.
Proof.
  assert (B : forall c, pcell_ok c = true -> exists w, wr_pcell c = 124 :: w /\ no_char [10; 13] w = true).
  { intros c H. unfold wr_pcell. eexists. split; [reflexivity|]. rewrite !nochar_app, !blanks_nochar, !andb_true_r. cbn [andb]. apply andb_true_iff. split; [destruct (is_head (pc_cell c)); reflexivity|].
    unfold pcell_ok in H. destruct (cell_text (pc_cell c)) as [|i l] eqn:Et; [reflexivity|]. rewrite <- Et. unfold cell_ok in H. cbv zeta in H. rewrite !andb_true_iff in H. destruct H as [[H1 _] _]. unfold item_text_ok in H1. rewrite !andb_true_iff in H1. tauto. }
  assert (G : forall r, forallb pcell_ok r = true -> no_char [10; 13] (flat_map wr_pcell r) = true).
  { induction r as [|c r IH]; intro H; [reflexivity|]. cbn [forallb] in H. apply andb_true_iff in H as [H1 H2]. destruct (B c H1) as (w & E & N). cbn [flat_map]. rewrite nochar_app, (IH H2), andb_true_r, E. exact N. }
  intros [|c r] Hn H; [congruence|]. cbn [forallb] in H. apply andb_true_iff in H as [H1 H2]. destruct (B c H1) as (w & E & N).
  exists (w ++ flat_map wr_pcell r). unfold wr_prow, bar_row. cbn [flat_map]. rewrite E. split; [cbn [app]; rewrite <- app_assoc; reflexivity|]. rewrite nochar_app, N. apply G. exact H2.
Qed.
