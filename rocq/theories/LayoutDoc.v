(** * Creole documents with any blank lines between their blocks: to html *)
From Coq Require Import String List Arith NArith ZArith Bool Lia.
From Verif Require Import PyStr PyStrFacts GNames Regex Rules RegexFacts RegexRun Utils DocTree CreoleParser ParserFacts
  Res HtmlEmitter EmitterFacts HtmlToolsFacts Spec4 Spec5 Spec33 Spec36 InlineRun InlineParse BlockRun BlockHits TableHits BlockParse DocParse TablePad CodeTrip TableDoc.
Import ListNotations.
Open Scope N_scope.

Notation par_h := (mkn KParagraph None).
Notation blankp := BlockRun.blank.
Definition nl (T : str) : Prop := T = [] \/ exists X, T = 10 :: X.
Lemma nl_tail : forall T, nl T -> tail T = true.
Proof. intros T [->|(X & ->)]; reflexivity. Qed.
Lemma rest_any : forall b T, nl T -> bol b = false -> mts (scan (block_re true) 0 b T) = rest_ms true b T.
Proof.
  intros b T [->|(X & ->)] Hb; cbn [rest_ms].
  - rewrite scan_end, at_pos_miss; [reflexivity|]. apply end_no. exact Hb.
  - rewrite scan_miss; [reflexivity|]. apply newline_no; [exact Hb|left; reflexivity].
Qed.
(** a text line followed by a blank line *)
Lemma blank_ahead : forall t b cs, blankp t = true -> exists s, Mt (RSeq sps REol) (mk b t cs) s.
Proof.
  induction t as [|d t IH]; intros b cs H.
  - exists (mk b [] cs). apply Mt_seq with (mk b [] cs); [apply Mt_star0|]. apply Mt_eol. left. reflexivity.
  - cbn [BlockRun.blank] in H. destruct (N.eqb_spec d 10) as [->|Hd].
    + exists (mk b (10 :: t) cs). apply Mt_seq with (mk b (10 :: t) cs); [apply Mt_star0|]. apply Mt_eol. right. exists t. reflexivity.
    + cbn [orb] in H. apply andb_true_iff in H as [H1 H2]. destruct (IH (d :: b) cs H2) as (s & M). inversion M as [| |a0 b0 s0 s1 s2 M1 M2| | | | | | | | | | |]; subst. exists s.
      apply Mt_seq with s1; [|exact M2]. apply Mt_starS with (mk (d :: b) t cs); [|exact M1]. apply Mt_chr. exact H1.
Qed.
Lemma line_end_blank : forall b t cs k, blankp t = true -> m r_line_end (mk b (10 :: t) cs) k = None.
Proof.
  intros b t cs k H. unfold r_line_end, seqs. rewrite m_seq, m_behind_no.
  destruct (head_is (N.eqb 92) b); [reflexivity|]. rewrite m_seq, m_eol. cbn [eol]. change (10 =? 10) with true. cbv iota.
  rewrite m_seq. unfold c1. rewrite m_chr. change (10 =? 10) with true. cbv iota.
  change (m (RNotAhead ?r) ?s ?k) with (match m r s (fun s' => Some s') with Some _ => None | None => k s end).
  destruct (m (RSeq sps REol) (mk (10 :: b) t cs) (fun s' => Some s')) eqn:E; [reflexivity|]. exfalso.
  destruct (blank_ahead t (10 :: b) cs H) as (s & M). apply (m_complete (RSeq sps REol) eq_refl _ _ (fun s' => Some s') M) in E; [exact E|discriminate].
Qed.
Definition no_break_behind (T : str) : Prop := T = [] \/ exists X, T = 10 :: X /\ blankp X = true.
Lemma blog_line_blank : forall w T b, truthy w = true -> no_char [10; 13] w = true -> block_start w = false -> no_break_behind T ->
  m (block_re true) (mk b (w ++ T) []) fin = Some (mk (rev w ++ b) T [(G_text, w)]).
Proof.
  intros w T b Hw Hn Hs HT. assert (Ht : tail T = true) by (destruct HT as [->|(X & -> & _)]; reflexivity).
  rewrite before_text_gen; [|exact Hw|exact Hn|apply block_start_no; exact Hs|apply plain_no_macro; assumption|exact Ht]. unfold r_text. rewrite m_seq.
  apply text_grp; try assumption. unfold ROpt. rewrite m_alt. rewrite grp_none; [reflexivity|]. intro k'.
  destruct HT as [->|(X & -> & HX)]; [apply line_end_no; right; reflexivity|apply line_end_blank; exact HX].
Qed.

(** ** blank lines *)
Lemma space_sp : forall d, is_space d = true -> (d =? 60) = false.
Proof. intros d H. destruct (N.eqb_spec d 60) as [->|]; [discriminate H|reflexivity]. Qed.
Lemma space_run : forall G T b, G <> [] -> forallb is_space G = true -> bol b = true -> eol T = true ->
  (forall z y, T = z ++ y -> z <> [] -> forallb is_space z = true -> eol y = false) ->
  m (block_re true) (mk b (G ++ T) []) fin = Some (mk (rev G ++ b) T [(G_line, G)]).
Proof.
  intros G T b Hn HG Hb HT HZ. rewrite block_alts. unfold r_macro_block. rewrite macro_no.
  2:{ destruct G as [|d G]; [congruence|]. cbn [forallb] in HG. apply andb_true_iff in HG as [HG _]. change ($ "<<") with [60; 60]. cbn [app startswith]. rewrite N.eqb_sym, (space_sp d HG). reflexivity. }
  cbn [orelse]. apply orelse_some. unfold r_line. rewrite m_grp. unfold seqs. rewrite m_seq, m_bol, Hb, m_seq.
  unfold sps, sp. apply star_back; [exact HG| |].
  - rewrite m_eol, HT. cbn [bef rest caps]. unfold fin. f_equal. f_equal. f_equal. f_equal. exact (firstn_grp G T).
  - intros z y E Hne Hz. rewrite m_eol, (HZ z y E Hne Hz). reflexivity.
Qed.
Lemma solid_end : forall X, truthy X = true -> head_is is_space X = false -> forall z y, 10 :: X = z ++ y -> z <> [] -> forallb is_space z = true -> eol y = false.
Proof. intros X H1 H2. destruct (row_tail_row X H2 H1) as (_ & _ & _ & A). exact A. Qed.
Lemma nothing_end : forall z y : str, [] = z ++ y -> z <> [] -> forallb is_space z = true -> eol y = false.
Proof. intros [|d z] y E H; [congruence|discriminate E]. Qed.
(** at the end of the text *)
Lemma at_end : forall b, bol b = true -> mts (scan (block_re true) 0 b []) = [line_m].
Proof.
  intros b Hb. rewrite scan_end. unfold at_pos.
  assert (E1 : try_at (block_re true) false b [] = Some line_m).
  { unfold try_at. cbn [andb]. rewrite block_alts. unfold r_macro_block. rewrite macro_no by reflexivity. cbn [orelse].
    assert (E : m r_line (mk b [] []) (fun s' => Some s') = Some (mk b [] [(G_line, [])])).
    { unfold r_line. rewrite m_grp. unfold seqs. rewrite m_seq, m_bol, Hb, m_seq. unfold sps, sp. rewrite star_zero by exact I. rewrite m_eol. reflexivity. }
    rewrite E. reflexivity. }
  rewrite E1. cbn [mtxt line_m].
  assert (E2 : try_at (block_re true) true b [] = None).
  { rewrite try_adv. destruct (m (block_re true) (mk b [] []) (fadv [])) as [s'|] eqn:E; [|reflexivity]. apply m_sound in E as (s1 & M & E). apply Mt_length in M. cbn [rest List.length] in M.
    unfold fadv in E. destruct (rest s1); [discriminate E|cbn [List.length] in M; lia]. }
  rewrite E2. reflexivity.
Qed.
Lemma at_end_no : forall b, bol b = false -> mts (scan (block_re true) 0 b []) = [].
Proof. intros b Hb. rewrite scan_end, at_pos_miss; [reflexivity|]. apply end_no. exact Hb. Qed.

(** ** the text of blank lines *)
Lemma wr_lines_text : forall ls X, ls <> [] -> wr_lines ls ++ X = lines_text ls ++ 10 :: X.
Proof.
  induction ls as [|l ls IH]; intros X H; [congruence|]. destruct ls as [|l2 ls].
  - cbn [wr_lines flat_map lines_text]. rewrite app_nil_r, <- app_assoc. reflexivity.
  - change (wr_lines (l :: l2 :: ls)) with ((l ++ [10]) ++ wr_lines (l2 :: ls)). change (lines_text (l :: l2 :: ls)) with (l ++ [10] ++ lines_text (l2 :: ls)). rewrite <- !app_assoc. rewrite IH by discriminate. reflexivity.
Qed.
Lemma wr_ends_text : forall ls, ls <> [] -> wr_ends ls = 10 :: lines_text ls.
Proof.
  induction ls as [|l ls IH]; intro H; [congruence|]. destruct ls as [|l2 ls].
  - cbn [wr_ends flat_map lines_text]. rewrite app_nil_r. reflexivity.
  - change (wr_ends (l :: l2 :: ls)) with (([10] ++ l) ++ wr_ends (l2 :: ls)). rewrite IH by discriminate. rewrite <- app_assoc. reflexivity.
Qed.
Lemma lines_space : forall ls, forallb blank_line ls = true -> forallb is_space (lines_text ls) = true.
Proof.
  induction ls as [|l ls IH]; intro H; [reflexivity|]. cbn [forallb] in H. apply andb_true_iff in H as [H1 H2]. unfold blank_line in H1. apply andb_true_iff in H1 as [H1 _]. destruct ls as [|l2 ls]; [exact H1|].
  change (lines_text (l :: l2 :: ls)) with (l ++ [10] ++ lines_text (l2 :: ls)). rewrite forallb_app. apply andb_true_iff. split; [exact H1|]. rewrite forallb_app. apply andb_true_iff. split; [reflexivity|exact (IH H2)].
Qed.
Lemma lines_empty : forall ls, ls <> [] -> lines_text ls = [] -> ls = [[]].
Proof.
  intros [|l [|l2 ls]] H E; [congruence|cbn in E; subst; reflexivity|]. change (lines_text (l :: l2 :: ls)) with (l ++ [10] ++ lines_text (l2 :: ls)) in E. destruct l; discriminate E.
Qed.
Lemma ends_empty_cons : forall l l2 ls, ends_empty (l :: l2 :: ls) = ends_empty (l2 :: ls).
Proof. intros. unfold ends_empty. cbn [rev]. destruct (rev ls) as [|x r]; reflexivity. Qed.
Lemma lines_bol : forall ls b, ls <> [] -> forallb blank_line ls = true -> bol b = true -> bol (rev (lines_text ls) ++ b) = ends_empty ls.
Proof.
  induction ls as [|l ls IH]; intros b Hn H Hb; [congruence|]. cbn [forallb] in H. apply andb_true_iff in H as [H1 H2]. destruct ls as [|l2 ls].
  - cbn [lines_text]. unfold ends_empty. cbn [rev app]. destruct l as [|d l]; [exact Hb|]. rewrite bol_app by discriminate. apply bol_last; [discriminate|]. unfold blank_line in H1. apply andb_true_iff in H1 as [_ H1]. eapply no_char_last; [exact H1|left; reflexivity].
  - change (lines_text (l :: l2 :: ls)) with (l ++ [10] ++ lines_text (l2 :: ls)). rewrite ends_empty_cons. rewrite <- (IH (10 :: rev l ++ b)) by (discriminate || assumption || reflexivity).
    f_equal. repeat (rewrite ?rev_app_distr, <- ?app_assoc; cbn [rev app]). reflexivity.
Qed.
(** no further item of a list *)
Lemma blanks_no_bullet : forall z l R y, forallb is_space l = true -> nl R -> l ++ R = z ++ y -> forallb (fun c => (c =? 32) || (c =? 9)) z = true -> head_is bullet y = false.
Proof.
  induction z as [|d z IH]; intros l R y Hl HR E Hz.
  - cbn [app] in E. subst y. destruct l as [|e l].
    + destruct HR as [->|(X & ->)]; reflexivity.
    + cbn [app head_is forallb] in *. apply andb_true_iff in Hl as [Hl _]. unfold bullet. destruct (N.eqb_spec e 42) as [->|]; [discriminate Hl|]. destruct (N.eqb_spec e 35) as [->|]; [discriminate Hl|reflexivity].
  - cbn [forallb] in Hz. apply andb_true_iff in Hz as [Hd Hz]. destruct l as [|e l].
    + destruct HR as [->|(X & ->)]; [discriminate E|]. injection E as <- _. discriminate Hd.
    + injection E as _ E. cbn [forallb] in Hl. apply andb_true_iff in Hl as [_ Hl]. exact (IH l R y Hl HR E Hz).
Qed.
Lemma no_more_intro : forall Y, (forall z y, Y = z ++ y -> forallb (fun c => (c =? 32) || (c =? 9)) z = true -> head_is bullet y = false) -> no_more (10 :: Y).
Proof.
  intros Y H b cs k. unfold r_more, seqs. rewrite m_seq. unfold c1. rewrite m_chr. change (10 =? 10) with true. cbv iota. rewrite m_seq. apply star_none. intros z y E Hz.
  unfold RPlus. rewrite m_seq, m_seq. specialize (H z y E Hz). destruct y as [|d y]; [reflexivity|]. rewrite m_chr. cbn [head_is] in H. change (is_bullet d) with (bullet d). rewrite H. reflexivity.
Qed.
Lemma no_more_nil : no_more [].
Proof. intros b cs k. reflexivity. Qed.
Lemma no_more_blank : forall l R, forallb is_space l = true -> nl R -> no_more (10 :: l ++ R).
Proof. intros l R Hl HR. apply no_more_intro. intros z y E Hz. exact (blanks_no_bullet z l R y Hl HR E Hz). Qed.
Lemma no_more_head : forall d X, bullet d = false -> is_space d = false -> no_more (10 :: d :: X).
Proof.
  intros d X H1 H2. apply no_more_intro. intros [|e z] y E Hz; [cbn [app] in E; subst y; exact H1|]. injection E as <- _. cbn [forallb] in Hz. apply andb_true_iff in Hz as [Hz _].
  apply orb_true_iff in Hz as [Hz|Hz]; apply N.eqb_eq in Hz; subst; discriminate H2.
Qed.
(** ... and the end of a table *)
Lemma row_tail_blank : forall G X, forallb is_space G = true -> truthy X = true -> head_is is_space X = false -> row_tail (10 :: G ++ 10 :: X) (10 :: G) (10 :: X).
Proof. intros G X HG H1 H2. destruct (row_tail_row X H2 H1) as (_ & _ & A & B). repeat split; assumption. Qed.
Lemma row_tail_end : forall G, forallb is_space G = true -> row_tail G G [].
Proof. intros G HG. split; [rewrite app_nil_r; reflexivity|]. split; [exact HG|]. split; [reflexivity|]. exact nothing_end. Qed.

(** ** the states between blocks *)
Definition closed1 (dch : list node) : ps := mkps [(doc_h, dch)] false [] false.
Definition sane (s : ps) : Prop := perr s = false /\ exists dch, upto_block s = closed1 dch.
Notation line_n := (Nd (mkn KLine (Some [])) []).
Lemma sane_line : forall s dch, upto_block s = closed1 dch -> line_repl s = closed1 (line_n :: dch).
Proof. intros s dch E. unfold line_repl. rewrite E. reflexivity. Qed.
Lemma closed_upto : forall dch, nobreak dch -> upto_block (closed1 dch) = closed1 dch.
Proof. exact atdoc_upto. Qed.
Lemma sane_next : forall s, sane s -> sane (line_repl s).
Proof. intros s (_ & dch & E). rewrite (sane_line s dch E). split; [reflexivity|]. eexists. apply closed_upto. discriminate. Qed.
Fixpoint lines (n : nat) (s : ps) : ps := match n with O => s | S n => lines n (line_repl s) end.
Definition brk_n : node := Nd (mkn KBreak (Some [])) [].
Definition post (p : tpart) (brk : bool) (s : ps) (dch : list node) : Prop := nobreak dch /\
  match p with
  | TBlock (BPara _) => exists dch0 ch, s = in_par dch0 (if brk then brk_n :: ch else ch) /\ solid ch /\ dch = Nd par_h (rev ch) :: dch0
  | TBlock (BList _ _) => exists h ch up, s = mkps ((h, ch) :: up) false [] false /\ nobreak ch /\
      (forall f, In f (removelast ((h, ch) :: up)) -> hk (fst f) <> KDocument /\ hk (fst f) <> KTable) /\ pop_n (List.length up) ((h, ch) :: up) = [(doc_h, dch)]
  | TTable _ => exists dch0 tch, s = in_table dch0 tch /\ nobreak tch /\ dch = Nd table_h (rev tch) :: dch0
  | TBlock _ => s = closed1 dch
  end.
Lemma par_clean : forall dch0 ch (brk : bool), solid ch -> cleanup_break (in_par dch0 (if brk then brk_n :: ch else ch)) = in_par dch0 ch.
Proof. intros dch0 ch [|] H; [reflexivity|]. unfold in_par. rewrite cleanup_nobreak by (apply solid_nobreak; exact H). reflexivity. Qed.
Lemma upto_pop2 : forall up h ch, (forall f, In f (removelast ((h, ch) :: up)) -> hk (fst f) <> KDocument /\ hk (fst f) <> KTable) ->
  upto_loop [KTable; KDocument] h ch up = pop_n (List.length up) ((h, ch) :: up).
Proof.
  induction up as [|[h' ch'] up IH]; intros h ch H; [reflexivity|]. cbn [upto_loop List.length pop_n pop1].
  assert (kind_in (hk h) [KTable; KDocument] = false) as ->.
  { destruct (H (h, ch) ltac:(left; reflexivity)) as (A & B). cbn [fst] in A, B. unfold kind_in. cbn [existsb]. destruct (kind_beq (hk h) KTable) eqn:E1; [apply kind_beq_eq in E1; congruence|]. destruct (kind_beq (hk h) KDocument) eqn:E2; [apply kind_beq_eq in E2; congruence|reflexivity]. }
  apply IH. intros f Hf. destruct up as [|f2 up]; [contradiction|].
  destruct Hf as [<-|Hf]; [apply (H (h', ch')); right; left; reflexivity|]. apply H. right. right. exact Hf.
Qed.
Lemma post_upto : forall p brk s dch, post p brk s dch -> upto_block s = closed1 dch.
Proof.
  intros p brk s dch (Hd & H). unfold upto_block.
  destruct p as [[]|]; try (subst s; apply closed_upto; exact Hd).
  - destruct H as (dch0 & ch & -> & Hs & ->). unfold upto. rewrite par_clean by exact Hs. reflexivity.
  - destruct H as (h & ch & up & -> & Hn & Hf & Hp). unfold upto. rewrite cleanup_nobreak by exact Hn. cbn [stk]. rewrite upto_pop, Hp by (intros f I; apply (Hf f I)). reflexivity.
  - destruct H as (dch0 & tch & -> & Hn & ->). unfold upto, in_table. rewrite cleanup_nobreak by exact Hn. reflexivity.
Qed.
Lemma post_perr : forall p brk s dch, post p brk s dch -> perr s = false.
Proof. intros p brk s dch (_ & H). destruct p as [[]|]; try (subst s; reflexivity); [destruct H as (? & ? & -> & _)|destruct H as (? & ? & ? & -> & _)|destruct H as (? & ? & -> & _)]; reflexivity. Qed.
Lemma post_sane : forall p brk s dch, post p brk s dch -> sane s.
Proof. intros p brk s dch H. split; [exact (post_perr _ _ _ _ H)|]. exists dch. exact (post_upto _ _ _ _ H). Qed.
(** a table below another block *)
Lemma post_upto2 : forall p brk s dch, post p brk s dch -> is_table p = false -> upto [KTable; KDocument] s = closed1 dch.
Proof.
  intros p brk s dch (Hd & H) Ht.
  destruct p as [[]|]; try discriminate Ht; try (subst s; unfold upto, closed1; rewrite cleanup_nobreak by exact Hd; reflexivity).
  - destruct H as (dch0 & ch & -> & Hs & ->). unfold upto. rewrite par_clean by exact Hs. reflexivity.
  - destruct H as (h & ch & up & -> & Hn & Hf & Hp). unfold upto. rewrite cleanup_nobreak by exact Hn. cbn [stk]. rewrite upto_pop2, Hp by exact Hf. reflexivity.
Qed.
Lemma closed_upto2 : forall dch, nobreak dch -> upto [KTable; KDocument] (closed1 dch) = closed1 dch.
Proof. intros dch H. unfold upto, closed1. rewrite cleanup_nobreak by exact H. reflexivity. Qed.
Lemma post_item : forall p brk s dch o t, post p brk s dch -> match p with TBlock (BList _ _) => false | _ => true end = true ->
  item_repl (item_ms [] ([list_mark o], t)) s = item_repl (item_ms [] ([list_mark o], t)) (closed1 dch).
Proof.
  intros p brk s dch o t (Hd & H) Hp. unfold item_repl. rewrite !(need_some G_item_head _ _ _ [list_mark o]) by reflexivity. rewrite !(need_some G_item_text _ _ _ t) by reflexivity.
  cbn [rev app List.length Nat.sub]. rewrite mark_kind. change (find_list 0 0 (stk (closed1 dch))) with (Some (0%nat, doc_h)). cbv iota beta.
  assert (K : kind_beq (hk doc_h) (list_kind o) = false) by (destruct o; reflexivity). rewrite K.
  destruct p as [[]|]; try discriminate Hp; try (subst s; change (find_list 0 0 (stk (closed1 dch))) with (Some (0%nat, doc_h)); cbv iota beta; rewrite K; reflexivity).
  - destruct H as (dch0 & ch & -> & Hs & ->). change (find_list 0 0 (stk (in_par dch0 (if brk then brk_n :: ch else ch)))) with (Some (1%nat, doc_h)). cbv iota beta. rewrite K.
    assert (E : upto [KListItem; KDocument] (in_par dch0 (if brk then brk_n :: ch else ch)) = upto [KListItem; KDocument] (closed1 (Nd par_h (rev ch) :: dch0))); [|rewrite E; reflexivity].
    unfold upto. rewrite par_clean by exact Hs. unfold closed1. rewrite cleanup_nobreak by exact Hd. reflexivity.
  - destruct H as (dch0 & tch & -> & Hn & ->). change (find_list 0 0 (stk (in_table dch0 tch))) with (Some (1%nat, doc_h)). cbv iota beta. rewrite K.
    assert (E : upto [KListItem; KDocument] (in_table dch0 tch) = upto [KListItem; KDocument] (closed1 (Nd table_h (rev tch) :: dch0))); [|rewrite E; reflexivity].
    unfold upto, in_table, closed1. rewrite !cleanup_nobreak by (exact Hn || discriminate). reflexivity.
Qed.
Lemma post_text : forall p brk s dch x, post p brk s dch -> match p with TBlock (BList _ _) | TBlock (BPara _) => false | _ => true end = true -> text_repl x s = text_repl x (closed1 dch).
Proof.
  intros p brk s dch x (Hd & H) Hp. destruct p as [[]|]; try discriminate Hp; try (subst s; reflexivity). destruct H as (dch0 & tch & -> & Hn & ->). exact (tab_text x dch0 tch Hn).
Qed.

(** ** what may follow a block *)
Definition tails (q : tpart) (T : str) : Prop := nl T /\ match q with TBlock (BList _ _) => no_more T | TTable _ => exists e T', row_tail T e T' | _ => True end.
Definition handled (g : gname) (x : mtch) (q : tpart) : Prop := forall p brk s dch, post p brk s dch -> may_adjoin p q = true -> block_handler g x s = block_handler g x (closed1 dch).
Definition starts (q : tpart) (ms : list mtch) : Prop := exists x ms' g, ms = x :: ms' /\ first_group (block_groups true) x = Some g /\ handled g x q.
Lemma start_run : forall q ms p brk s dch, starts q ms -> post p brk s dch -> may_adjoin p q = true -> run true ms s = run true ms (closed1 dch).
Proof.
  intros q ms p brk s dch (x & ms' & g & -> & Hg & H) Hp Hm. rewrite !(run_cons true _ _ _ g) by (exact Hg || reflexivity || (eapply post_perr; exact Hp)). f_equal. exact (H _ _ _ _ Hp Hm).
Qed.
Lemma head_match : forall n sp0 t cl T b, block_ok true (BHead n sp0 t cl) = true -> nl T -> bol b = true -> let w := wr_block (BHead n sp0 t cl) in
  m (block_re true) (mk b (w ++ T) []) fin = Some (mk (rev w ++ b) T (head_caps n w t)) /\ w <> [] /\ head_is (N.eqb 61) w = true /\ bol (rev w ++ b) = false.
Proof.
  intros n sp0 t cl T b Hok HT Hb w. pose proof Hok as Hok'. cbn [block_ok] in Hok'. rewrite !andb_true_iff, !negb_true_iff in Hok'. destruct Hok' as [[[[[[Hn Hsp] Ht] Hnl] Hh] Hl] Hcl].
  assert (Hw : head_is (N.eqb 61) w = true) by (unfold w; destruct n; [discriminate|reflexivity]).
  assert (Hwn : w <> []) by (intro E; rewrite E in Hw; discriminate). split; [|split; [exact Hwn|split; [exact Hw|]]].
  - pose proof (head_hit n sp0 t cl T b Hok Hb (nl_tail T HT)) as HH. cbv zeta in HH. fold w in HH. rewrite block_alts. clearbody w. destruct w as [|d w']; [discriminate|]. cbn [head_is] in Hw. apply N.eqb_eq in Hw. subst d. unfold r_macro_block.
    rewrite macro_no by reflexivity. rewrite line_no by (right; reflexivity). cbn [orelse]. apply orelse_some. exact HH.
  - rewrite bol_app by exact Hwn. apply bol_last; [exact Hwn|]. unfold w. cbn [wr_block].
    destruct cl as [|d cl] using rev_ind.
    + rewrite app_nil_r, app_assoc. unfold trimmed in Ht. rewrite !andb_true_iff in Ht. destruct Ht as [_ Ht].
      rewrite last_is_suffix by (destruct t; discriminate). unfold last_is. destruct (rev t) as [|d r] eqn:R; [reflexivity|]. cbn [head_is].
      rewrite N.eqb_sym. eapply (no_nl [10; 13] t d (rev r) []); [left; reflexivity|exact Hnl|]. rewrite <- (rev_involutive t), R. reflexivity.
    + rewrite !app_assoc, last_is_suffix by discriminate. rewrite forallb_app in Hcl. apply andb_true_iff in Hcl as [_ Hcl]. cbn [forallb] in Hcl.
      rewrite andb_true_r in Hcl. apply orb_true_iff in Hcl as [H|H]; apply N.eqb_eq in H; subst d; reflexivity.
Qed.
Lemma rule_match : forall T b, nl T -> bol b = true -> m (block_re true) (mk b ($ "----" ++ T) []) fin = Some (mk (rev ($ "----") ++ b) T [(G_separator, $ "----")]).
Proof. intros T b HT Hb. apply (rule_m true []); [left; reflexivity|exact Hb|apply nl_tail; exact HT|left; reflexivity|reflexivity]. Qed.
Lemma code_match : forall lines T b, block_ok true (BCode lines) = true -> bol b = true -> let w := wr_block (BCode lines) in
  m (block_re true) (mk b (w ++ T) []) fin = Some (mk (rev w ++ b) T (code_caps w (lines_text ([] :: lines ++ [[]])))) /\ exists w', w = $ "{{{" ++ 10 :: w'.
Proof.
  intros lines T b Hok Hb w. assert (Hw : exists w', w = $ "{{{" ++ 10 :: w') by (unfold w; cbn [wr_block]; rewrite lines_body; eexists; reflexivity). split; [|exact Hw].
  rewrite block_alts. pose proof (preb_hit true lines T b Hok Hb) as P. cbv zeta in P. fold w in P. destruct Hw as (w' & Hw). rewrite P. clearbody w. subst w. cbn [app]. unfold r_macro_block. rewrite macro_no by reflexivity. rewrite line_no by (right; reflexivity). rewrite head_no by (right; reflexivity).
  rewrite sep_no by (right; apply sp_no_here; reflexivity). reflexivity.
Qed.
Lemma para_match : forall l lines T b, block_ok true (BPara (l :: lines)) = true -> nl T -> exists x ms, mts (scan (block_re true) 0 b (wr_block (BPara (l :: lines)) ++ T)) = x :: ms /\ first_group (block_groups true) x = Some G_text.
Proof.
  intros l lines T b Hok HT. cbn [block_ok forallb] in Hok. apply andb_true_iff in Hok as [Hl _]. apply andb_true_iff in Hl as [Hl _].
  destruct (line_ok_facts l Hl) as (L1 & L2 & L3 & L4). pose proof (truthy_ne _ L1) as L6.
  assert (One : forall R, nl R -> exists x ms, mts (scan (block_re true) 0 b (wr_inls l ++ R)) = x :: ms /\ first_group (block_groups true) x = Some G_text).
  { intros R [->|(X & ->)].
    - pose proof (blog_line (wr_inls l) [] b L1 L2 L3 eq_refl (or_intror eq_refl)) as Hm. rewrite (mts_hit _ _ _ _ _ L6 Hm). eexists. eexists. split; reflexivity.
    - destruct (blankp X) eqn:EB.
      + pose proof (blog_line_blank (wr_inls l) (10 :: X) b L1 L2 L3 (or_intror (ex_intro _ X (conj eq_refl EB)))) as Hm. rewrite (mts_hit _ _ _ _ _ L6 Hm). eexists. eexists. split; reflexivity.
      + destruct (ends_in_backslash l) eqn:Eb.
        * pose proof (blog_line (wr_inls l) (10 :: X) b L1 L2 L3 eq_refl (or_introl Eb)) as Hm. rewrite (mts_hit _ _ _ _ _ L6 Hm). eexists. eexists. split; reflexivity.
        * pose proof (blog_line_break (wr_inls l) X b L1 L2 L3 Eb EB) as Hm. change (wr_inls l ++ 10 :: X) with (wr_inls l ++ [10] ++ X). rewrite app_assoc.
          assert (Hne2 : wr_inls l ++ [10] <> []) by (destruct (wr_inls l); discriminate). rewrite (mts_hit _ _ _ _ _ Hne2 Hm). eexists. eexists. split; reflexivity. }
  destruct lines as [|l2 lines]; [exact (One T HT)|].
  change (wr_block (BPara (l :: l2 :: lines))) with (wr_inls l ++ [10] ++ wr_block (BPara (l2 :: lines))). rewrite <- app_assoc. apply One. right. eexists. cbn [app]. reflexivity.
Qed.
Lemma list_match : forall o items T b, block_ok true (BList o items) = true -> nl T -> no_more T -> bol b = true ->
  exists t ls, lines_of o items = ([list_mark o], wr_inls t) :: ls /\ wr_block (BList o items) = list_text ([list_mark o], wr_inls t) ls /\ list_line_ok ([list_mark o], wr_inls t) /\ Forall list_line_ok ls /\
    mts (scan (block_re true) 0 b (wr_block (BList o items) ++ T)) = mkm (wr_block (BList o items)) [(G_list, wr_block (BList o items))] :: rest_ms true (rev (wr_block (BList o items)) ++ b) T.
Proof.
  intros o items T b Hok HT HM Hb. destruct (list_cases true o items Hok) as (t & o2 & sub & r & ls & Ei & El & Hl & Hls & _). exists t, ls.
  pose proof (lines_of_text o items _ _ El) as Ew. split; [exact El|]. split; [exact Ew|]. split; [exact Hl|]. split; [exact Hls|]. rewrite Ew. set (l := ([list_mark o], wr_inls t)) in *.
  assert (Hne : list_text l ls <> []) by discriminate.
  assert (Hm : m (block_re true) (mk b (list_text l ls ++ T) []) fin = Some (mk (rev (list_text l ls) ++ b) T [(G_list, list_text l ls)])).
  { apply (list_m_any true [] o items l ls T b fin); try assumption; try reflexivity; [left; reflexivity|apply nl_tail; exact HT|].
    apply line_no. right. cbn [app]. destruct o; reflexivity. }
  rewrite (mts_hit _ _ _ _ _ Hne Hm). rewrite rest_any by (exact HT || (apply list_bol; assumption)). reflexivity.
Qed.
Lemma rows_split : forall rows T e0 T0, rows <> [] -> prows_ok rows = true -> row_tail T e0 T0 ->
  exists r rows' R e T', rows = r :: rows' /\ r <> [] /\ forallb pcell_ok r = true /\ wr_rows rows ++ T = wr_prow r ++ R /\ row_tail R e T'.
Proof.
  intros [|r rows] T e0 T0 Hn Hok HT; [congruence|]. unfold prows_ok in Hok. cbn [forallb] in Hok. apply andb_true_iff in Hok as [Hr Hrs]. apply andb_true_iff in Hr as [Hr1 Hr2].
  assert (Hrn : r <> []) by (destruct r; discriminate). destruct rows as [|r2 rows].
  - exists r, [], T, e0, T0. repeat (split; [reflexivity || assumption|]). exact HT.
  - assert (Hr2n : r2 <> []) by (cbn [forallb] in Hrs; destruct r2; discriminate). destruct (wr_rows_head r2 rows Hr2n) as (V & EV).
    exists r, (r2 :: rows), (10 :: wr_rows (r2 :: rows) ++ T), [], (10 :: wr_rows (r2 :: rows) ++ T). repeat (split; [reflexivity || assumption|]). split.
    + change (wr_rows (r :: r2 :: rows)) with (wr_prow r ++ [10] ++ wr_rows (r2 :: rows)). rewrite <- !app_assoc. reflexivity.
    + rewrite EV. apply row_tail_row; reflexivity.
Qed.
Lemma row_match : forall r R e T' b, r <> [] -> forallb pcell_ok r = true -> row_tail R e T' -> bol b = true ->
  mts (scan (block_re true) 0 b (wr_prow r ++ R)) = mkm (wr_prow r ++ e) [(G_table, wr_prow r)] :: mts (scan (block_re true) 0 (rev (wr_prow r ++ e) ++ b) T').
Proof.
  intros r R e T' b Hrn Hr2 HR Hb. pose proof HR as (ER & _). destruct (wr_prow_head r Hrn) as (Y & EY).
  assert (Hm : m (block_re true) (mk b ((wr_prow r ++ e) ++ T') []) fin = Some (mk (rev (wr_prow r ++ e) ++ b) T' [(G_table, wr_prow r)])).
  { rewrite <- app_assoc, <- ER. apply (prow_m [] r R e T' b fin); try assumption; try reflexivity; [left; reflexivity|]. apply line_no. right. rewrite EY. reflexivity. }
  assert (Hwn : wr_prow r ++ e <> []) by (rewrite EY; discriminate). rewrite ER, app_assoc. exact (mts_hit _ _ _ _ _ Hwn Hm).
Qed.
Lemma part_starts : forall q T b, tpart_ok q = true -> tails q T -> bol b = true -> starts q (mts (scan (block_re true) 0 b (wr_tpart q ++ T))).
Proof.
  intros [[ls|n sp0 t cl| |ls|o items|rows]|rows] T b Hok (HT & HM) Hb; try discriminate Hok; cbn [wr_tpart tpart_ok] in *.
  - destruct ls as [|l ls]; [discriminate Hok|]. destruct (para_match l ls T b Hok HT) as (x & ms & E & F). exists x, ms, G_text. split; [exact E|]. split; [exact F|].
    intros p brk s dch Hp Hm. cbn [block_handler]. apply (post_text p brk); [exact Hp|]. destruct p as [[]|]; try discriminate Hm; reflexivity.
  - destruct (head_match n sp0 t cl T b Hok HT Hb) as (E & Hn & _). rewrite (mts_hit _ _ _ _ _ Hn E). eexists. eexists. exists G_head. split; [reflexivity|]. split; [reflexivity|].
    intros p brk s dch Hp _. cbn [block_handler]. unfold head_repl. rewrite (post_upto _ _ _ _ Hp), closed_upto by (apply Hp). reflexivity.
  - change (wr_block BRule) with ($ "----"). rewrite (mts_hit _ _ ($ "----") T _ ltac:(discriminate) (rule_match T b HT Hb)). eexists. eexists. exists G_separator. split; [reflexivity|]. split; [reflexivity|].
    intros p brk s dch Hp _. cbn [block_handler]. unfold separator_repl. rewrite (post_upto _ _ _ _ Hp), closed_upto by (apply Hp). reflexivity.
  - destruct (code_match ls T b Hok Hb) as (E & w' & Ew). assert (Hn : wr_block (BCode ls) <> []) by (rewrite Ew; discriminate). rewrite (mts_hit _ _ _ _ _ Hn E). eexists. eexists. exists G_pre_block. split; [reflexivity|]. split; [reflexivity|].
    intros p brk s dch Hp _. cbn [block_handler]. unfold pre_block_repl. rewrite (post_upto _ _ _ _ Hp), closed_upto by (apply Hp). reflexivity.
  - destruct (list_match o items T b Hok HT HM Hb) as (t & ls & El & Ew & Hl & Hls & ->). eexists. eexists. exists G_list. split; [reflexivity|]. split; [reflexivity|].
    intros p brk s dch Hp Hm. cbn [block_handler]. unfold list_repl. rewrite !(need_some G_list _ _ _ (wr_block (BList o items))) by reflexivity.
    change (finditer item_re ?t) with (mts (scan item_re 0 [] t)). rewrite Ew. set (l := ([list_mark o], wr_inls t)) in *. change (list_text l ls) with (([] ++ line_of l) ++ more_lines ls).
    rewrite items_scan by (assumption || reflexivity || (left; reflexivity)). rewrite !items_steps by (reflexivity || (eapply post_perr; exact Hp)). rewrite !steps_cons by (reflexivity || (eapply post_perr; exact Hp)). f_equal.
    apply (post_item p brk); [exact Hp|]. destruct p as [[]|]; try discriminate Hm; reflexivity.
  - destruct HM as (e0 & T0 & HM). destruct (ptable_facts rows Hok) as (A & B). destruct (rows_split rows T e0 T0 A B HM) as (r & rows' & R & e & T' & -> & Hrn & Hr & ER & HR).
    change (lines_text (map wr_prow (r :: rows'))) with (wr_rows (r :: rows')). rewrite ER, (row_match r R e T' b Hrn Hr HR Hb). eexists. eexists. exists G_table. split; [reflexivity|]. split; [reflexivity|].
    intros p brk s dch Hp Hm. cbn [block_handler]. unfold table_repl. rewrite !(need_some G_table _ _ _ (wr_prow r)) by reflexivity. cbv zeta.
    rewrite (post_upto2 p brk s dch Hp) by (destruct p as [[]|]; try discriminate Hm; reflexivity). rewrite closed_upto2 by (apply Hp). reflexivity.
Qed.

(** ** an empty line before a block *)
Lemma run_line_m : forall ms s, sane s -> run true (line_m :: ms) s = run true ms (line_repl s).
Proof. intros ms s (H & _). rewrite (run_cons true _ _ _ G_line) by (exact H || reflexivity). reflexivity. Qed.
Lemma lazy_any : forall X b s, truthy X = true -> head_is is_space X = false -> bol b = true -> startswith ($ "----") X = false -> list_start X = false -> head_is (N.eqb 124) X = false -> sane s ->
  run true (mts (scan (block_re true) 0 b (10 :: X))) s = run true (mts (scan (block_re true) 0 (10 :: b) X)) (line_repl s).
Proof. intros X b s H1 H2 Hb H3 H4 H5 Hs. rewrite gap_lazy by assumption. change (mts (inr line_m :: Datatypes.inl 10 :: ?y)) with (line_m :: mts y). apply run_line_m. exact Hs. Qed.
Lemma rev_cons_app : forall (w b : str), rev (10 :: w) ++ b = rev w ++ 10 :: b.
Proof. intros. cbn [rev]. rewrite <- app_assoc. reflexivity. Qed.
Lemma gap_any : forall q T b s, tpart_ok q = true -> tails q T -> bol b = true -> sane s ->
  run true (mts (scan (block_re true) 0 b (10 :: wr_tpart q ++ T))) s = run true (mts (scan (block_re true) 0 (10 :: b) (wr_tpart q ++ T))) (line_repl s).
Proof.
  intros [[ls|n sp0 t cl| |ls|o items|rows]|rows] T b s Hok (HT & HM) Hb Hs; try discriminate Hok; cbn [wr_tpart tpart_ok] in *; pose proof (proj1 (sane_next s Hs)) as PE.
  - destruct (para_head true ls Hok) as (l & R & Ew & HR & Hl). assert (E : wr_block (BPara ls) ++ T = wr_inls l ++ R ++ T) by (rewrite Ew, <- app_assoc; reflexivity). rewrite E.
    destruct (line_not l (R ++ T) Hl (tail_app R T HR (nl_tail T HT))) as (A1 & A2 & A3 & A4 & A5). apply lazy_any; assumption.
  - destruct (head_match n sp0 t cl T b Hok HT Hb) as (_ & _ & Hw & _). destruct (wr_block (BHead n sp0 t cl)) as [|d w]; [discriminate Hw|]. cbn [head_is] in Hw. apply N.eqb_eq in Hw. subst d.
    apply lazy_any; try reflexivity; try assumption. cbn [app list_start]. destruct (w ++ T); reflexivity.
  - change (10 :: wr_block BRule ++ T) with ((10 :: $ "----") ++ T). change (wr_block BRule) with ($ "----"). rewrite (mts_adv _ _ ($ "----") T [(G_separator, 10 :: $ "----")]); try reflexivity; [| exact Hb |].
    + rewrite run_line_m by exact Hs. rewrite (mts_hit _ _ ($ "----") T _ ltac:(discriminate) (rule_match T (10 :: b) HT eq_refl)).
      rewrite !(run_cons true _ _ _ G_separator) by (exact PE || reflexivity). rewrite rev_cons_app. reflexivity.
    + apply (rule_m true [10]); [right; reflexivity|exact Hb|apply nl_tail; exact HT| |].
      * right. intro k'. split; [reflexivity|]. apply (gap_line_adv ($ "----" ++ T)); reflexivity.
      * apply (fadv_hit (10 :: $ "----") T). discriminate.
  - destruct (code_match ls T b Hok Hb) as (_ & w' & Ew). rewrite Ew. apply lazy_any; try reflexivity; assumption.
  - destruct (list_match o items T (10 :: b) Hok HT HM eq_refl) as (t & ls & El & Ew & Hl & Hls & E). rewrite E. clear E. rewrite Ew. set (l := ([list_mark o], wr_inls t)) in *. destruct (list_head l ls T Hl) as (A1 & A2).
    change (10 :: list_text l ls ++ T) with ((10 :: list_text l ls) ++ T).
    rewrite (mts_adv true b (list_text l ls) T [(G_list, [10] ++ list_text l ls)] A1 A2 Hb).
    + rewrite rest_any; [|exact HT|rewrite rev_cons_app; apply list_bol; assumption]. rewrite run_line_m by exact Hs.
      rewrite !(run_cons true _ _ _ G_list) by (exact PE || reflexivity). rewrite rev_cons_app. f_equal. cbn [block_handler]. unfold list_repl.
      rewrite (need_some G_list _ _ _ ([10] ++ list_text l ls)) by reflexivity. rewrite (need_some G_list _ _ _ (list_text l ls)) by reflexivity.
      change (finditer item_re ?t) with (mts (scan item_re 0 [] t)). change ([10] ++ list_text l ls) with (([10] ++ line_of l) ++ more_lines ls). change (list_text l ls) with (([] ++ line_of l) ++ more_lines ls).
      rewrite !items_scan by (assumption || reflexivity || (left; reflexivity) || (right; reflexivity)). rewrite !items_steps by exact PE. reflexivity.
    + apply (list_m_any true [10] o items l ls T b); try assumption; try reflexivity; [right; reflexivity|apply nl_tail; exact HT| |].
      * exact (gap_line_adv (list_text l ls ++ T) b A1 A2).
      * apply (fadv_hit (10 :: list_text l ls) T). discriminate.
  - destruct HM as (e0 & T0 & HM). destruct (ptable_facts rows Hok) as (A & B). destruct (rows_split rows T e0 T0 A B HM) as (r & rows' & R & e & T' & -> & Hrn & Hr & ER & HR).
    change (lines_text (map wr_prow (r :: rows'))) with (wr_rows (r :: rows')). rewrite ER, (row_match r R e T' (10 :: b) Hrn Hr HR eq_refl).
    destruct (wr_prow_head r Hrn) as (Y & EY). pose proof HR as (ER2 & _).
    assert (Ew : 10 :: wr_prow r ++ R = (10 :: wr_prow r ++ e) ++ T') by (rewrite ER2; cbn [app]; rewrite <- app_assoc; reflexivity). rewrite Ew.
    rewrite (mts_adv true b (wr_prow r ++ e) T' [(G_table, wr_prow r)]); [|rewrite EY; reflexivity|rewrite EY; reflexivity|exact Hb|].
    + rewrite run_line_m by exact Hs. rewrite !(run_cons true _ _ _ G_table) by (exact PE || reflexivity). rewrite rev_cons_app. reflexivity.
    + rewrite <- Ew. change (10 :: wr_prow r ++ R) with ([10] ++ wr_prow r ++ R). apply (prow_m [10] r R e T' b); try assumption; [right; reflexivity| |].
      * apply (gap_line_adv (wr_prow r ++ R) b); rewrite EY; reflexivity.
      * change ([10] ++ wr_prow r ++ R) with (10 :: wr_prow r ++ R). rewrite Ew. apply fadv_hit. discriminate.
Qed.

(** ** every block *)
Section Blocks.
  Variable c : cfg.
  Hypothesis no_toc : use_toc c = false.
  Local Notation shown := (shown c).
  Local Notation showns := (showns c).
  Definition hit (q : tpart) : Prop := forall T b dch out, tails q T -> bol b = true -> nobreak dch -> showns doc_h (rev dch) out ->
    exists s' dch' brk, post q brk s' dch' /\ (no_break_behind T -> brk = false) /\ showns doc_h (rev dch') (out ++ praw c q) /\
      run true (mts (scan (block_re true) 0 b (wr_tpart q ++ T))) (closed1 dch) = run true (rest_ms true (rev (wr_tpart q) ++ b) T) s'.
  Lemma head_hits : forall n sp0 t cl, tpart_ok (TBlock (BHead n sp0 t cl)) = true -> hit (TBlock (BHead n sp0 t cl)).
  Proof.
    intros n sp0 t cl Hok T b dch out (HT & _) Hb Hd Sh. cbn [tpart_ok wr_tpart] in *. destruct (head_match n sp0 t cl T b Hok HT Hb) as (E & Hn & _ & Hl).
    exists (closed1 (Nd (mkl KHeader (Some t) n) [] :: dch)), (Nd (mkl KHeader (Some t) n) [] :: dch), false. split; [split; [discriminate|reflexivity]|]. split; [reflexivity|]. split.
    - unfold praw, html_raw. cbn [bare_block html_block rev]. apply showns_snoc; [exact Sh|]. apply shown_header. exact no_toc.
    - rewrite (mts_hit _ _ _ _ _ Hn E). rewrite rest_any by assumption. rewrite (run_cons true _ _ _ G_head) by reflexivity. f_equal. cbn [block_handler]. unfold head_repl. rewrite closed_upto by exact Hd.
      rewrite (need_some G_head_text _ _ _ t) by reflexivity. rewrite (need_some G_head_head _ _ _ (repeat 61 n)) by reflexivity.
      rewrite repeat_length. cbn [block_ok] in Hok. rewrite !andb_true_iff in Hok. destruct Hok as [[[[[[_ _] Ht] _] _] _] _]. rewrite trimmed_strip by exact Ht. reflexivity.
  Qed.
  Lemma rule_hits : hit (TBlock BRule).
  Proof.
    intros T b dch out (HT & _) Hb Hd Sh. exists (closed1 (Nd (mkn KSeparator None) [] :: dch)), (Nd (mkn KSeparator None) [] :: dch), false. split; [split; [discriminate|reflexivity]|]. split; [reflexivity|]. split.
    - unfold praw, html_raw. cbn [bare_block html_block rev]. apply showns_snoc; [exact Sh|]. apply shown_rule.
    - change (wr_tpart (TBlock BRule)) with ($ "----"). rewrite (mts_hit _ _ ($ "----") T _ ltac:(discriminate) (rule_match T b HT Hb)). rewrite rest_any by (exact HT || reflexivity). rewrite (run_cons true _ _ _ G_separator) by reflexivity. f_equal.
      cbn [block_handler]. unfold separator_repl. rewrite closed_upto by exact Hd. reflexivity.
  Qed.
  Lemma code_hits : forall lines, tpart_ok (TBlock (BCode lines)) = true -> hit (TBlock (BCode lines)).
  Proof.
    intros lines Hok T b dch out (HT & _) Hb Hd Sh. destruct (code_any c lines T (closed1 dch) out b Hok HT) as (s' & (dch' & -> & Hd' & Sh') & E); [exists dch; auto|exact Hb|].
    exists (closed1 dch'), dch', false. split; [split; [exact Hd'|reflexivity]|]. split; [reflexivity|]. split; [exact Sh'|exact E].
  Qed.
  Lemma list_hits : forall o items, tpart_ok (TBlock (BList o items)) = true -> hit (TBlock (BList o items)).
  Proof.
    intros o items Hok T b dch out (HT & HM) Hb Hd Sh. cbn [tpart_ok wr_tpart] in *. destruct (list_match o items T b Hok HT HM Hb) as (t & ls & El & Ew & Hl & Hls & E). rewrite E.
    destruct (list_open c true [] o items _ ls (closed1 dch) out Hok (or_introl eq_refl) El Hl Hls) as (h & ch & up & dch' & E1 & E2 & E3 & E4 & E5 & E6); [exists dch; auto|].
    exists (mkps ((h, ch) :: up) false [] false), dch', false. split; [split; [exact E5|exists h, ch, up; auto]|]. split; [reflexivity|]. split.
    - unfold praw, html_raw. cbn [bare_block]. rewrite app_nil_r. exact E6.
    - rewrite (run_cons true _ _ _ G_list) by reflexivity. f_equal. cbn [block_handler]. rewrite Ew. exact E1.
  Qed.
  Lemma para_any : forall lines, forallb line_ok lines = true -> last_ok (fun l => negb (ends_in_break l)) lines = true ->
    forall b T dch ch s pout, nl T -> showns par_h (rev ch) pout -> par_start dch ch s ->
    exists ch' (brk : bool), run true (mts (scan (block_re true) 0 b (wr_block (BPara lines) ++ T))) s =
                run true (rest_ms true (rev (wr_block (BPara lines)) ++ b) T) (in_par dch (if brk then brk_n :: ch' else ch')) /\
      solid ch' /\ (no_break_behind T -> brk = false) /\ showns par_h (rev ch') (pout ++ html_lines true (strict c) lines).
  Proof.
    intros xs; induction xs as [|l lines IH]; intros Hl Hlast b T dch ch s pout HT Sh Hs; [discriminate|].
    cbn [forallb] in Hl. apply andb_true_iff in Hl as [Hl Hls]. destruct (line_ok_facts l Hl) as (L1 & L2 & L3 & L4). pose proof (truthy_ne _ L1) as L6.
    assert (PE : perr s = false) by (destruct Hs as [->|[_ ->]]; reflexivity).
    assert (Hbl : bol (rev (wr_inls l) ++ b) = false) by (rewrite bol_app by exact L6; apply bol_last; [exact L6|]; eapply no_char_last; [exact L2|left; reflexivity]).
    assert (One : forall R, m (block_re true) (mk b (wr_inls l ++ R) []) fin = Some (mk (rev (wr_inls l) ++ b) R [(G_text, wr_inls l)]) ->
      exists ch', run true (mts (scan (block_re true) 0 b (wr_inls l ++ R))) s = run true (mts (scan (block_re true) 0 (rev (wr_inls l) ++ b) R)) (in_par dch ch') /\
        (last_break l = false -> solid ch') /\ showns par_h (rev ch') (pout ++ html_inls (strict c) br l)).
    { intros R Hm. rewrite (mts_hit _ _ _ _ _ L6 Hm). rewrite (run_cons true _ _ _ G_text) by (assumption || reflexivity). cbn [block_handler].
      destruct (text_step c (mkm (wr_inls l) [(G_text, wr_inls l)]) dch ch s pout l false Hs L4 eq_refl eq_refl Sh) as (ch' & E1 & E2 & E3). exists ch'. rewrite E1. repeat split; assumption. }
    assert (Two : forall X, ends_in_backslash l = false -> blankp X = false -> exists ch', run true (mts (scan (block_re true) 0 b (wr_inls l ++ 10 :: X))) s =
        run true (mts (scan (block_re true) 0 (10 :: rev (wr_inls l) ++ b) X)) (in_par dch (brk_n :: ch')) /\ (last_break l = false -> solid ch') /\ showns par_h (rev ch') (pout ++ html_inls (strict c) br l)).
    { intros X Eb EB. pose proof (blog_line_break (wr_inls l) X b L1 L2 L3 Eb EB) as Hm. change (wr_inls l ++ 10 :: X) with (wr_inls l ++ [10] ++ X). rewrite app_assoc.
      assert (Hne2 : wr_inls l ++ [10] <> []) by (destruct (wr_inls l); discriminate). rewrite (mts_hit _ _ _ _ _ Hne2 Hm).
      rewrite (run_cons true _ _ _ G_text) by (assumption || reflexivity). cbn [block_handler].
      destruct (text_step c (mkm (wr_inls l ++ [10]) [(G_break, [10]); (G_text, wr_inls l)]) dch ch s pout l false Hs L4 eq_refl eq_refl Sh) as (ch1 & E1 & E2 & E3).
      exists ch1. rewrite E1. change (truthy (group0 G_break _)) with true. cbv iota. split; [rewrite rev_app_distr; reflexivity|]. split; assumption. }
    assert (Bs : forall X, ends_in_backslash l = true -> m (block_re true) (mk (rev (wr_inls l) ++ b) (10 :: X) []) fin = None).
    { intros X Eb. apply newline_no; [exact Hbl|left; reflexivity]. }
    destruct lines as [|l2 lines].
    - cbn [wr_block map lines_text]. unfold html_lines.
      assert (So : last_break l = false) by (apply line_solid; [exact Hl|]; cbn in Hlast; apply negb_true_iff; exact Hlast).
      assert (D : no_break_behind T \/ exists X, T = 10 :: X /\ blankp X = false).
      { destruct HT as [->|(X & ->)]; [left; left; reflexivity|]. destruct (blankp X) eqn:EB; [left; right; exists X; auto|right; exists X; auto]. }
      destruct D as [D|(X & -> & EB)].
      + destruct (One T (blog_line_blank _ T b L1 L2 L3 D)) as (ch' & E1 & E2 & E3). exists ch', false. rewrite E1, rest_any by assumption. split; [reflexivity|]. split; [exact (E2 So)|]. split; [reflexivity|exact E3].
      + assert (NB : no_break_behind (10 :: X) -> False) by (intros [K|(Y & K & K2)]; [discriminate K|]; injection K as <-; congruence).
        destruct (ends_in_backslash l) eqn:Eb.
        * destruct (One (10 :: X) (blog_line (wr_inls l) (10 :: X) b L1 L2 L3 eq_refl (or_introl Eb))) as (ch' & E1 & E2 & E3). exists ch', false. rewrite E1, rest_any by assumption. split; [reflexivity|]. split; [exact (E2 So)|]. split; [reflexivity|exact E3].
        * destruct (Two X eq_refl EB) as (ch' & E1 & E2 & E3). exists ch', true. rewrite E1. split; [reflexivity|]. split; [exact (E2 So)|]. split; [intro K; destruct (NB K)|exact E3].
    - assert (Hlast' : last_ok (fun l => negb (ends_in_break l)) (l2 :: lines) = true).
      { unfold last_ok in *. cbn [rev] in *. rewrite <- app_assoc in Hlast. cbn [app] in Hlast. destruct (rev lines) as [|z r]; exact Hlast. }
      specialize (IH Hls Hlast').
      assert (Ew : wr_block (BPara (l :: l2 :: lines)) = wr_inls l ++ [10] ++ wr_block (BPara (l2 :: lines))) by reflexivity.
      rewrite Ew. set (W := wr_block (BPara (l2 :: lines))) in *.
      assert (Eh : html_lines true (strict c) (l :: l2 :: lines) = html_inls (strict c) br l ++ (if ends_in_backslash l then [] else br) ++ html_lines true (strict c) (l2 :: lines)) by reflexivity.
      rewrite Eh. set (H2 := html_lines true (strict c) (l2 :: lines)) in *.
      assert (Ef : rev (wr_inls l ++ [10] ++ W) ++ b = rev W ++ 10 :: rev (wr_inls l) ++ b).
      { repeat (rewrite ?rev_app_distr, <- ?app_assoc; cbn [rev app]). reflexivity. }
      assert (El : (wr_inls l ++ [10] ++ W) ++ T = wr_inls l ++ 10 :: W ++ T) by (rewrite <- !app_assoc; reflexivity). rewrite El.
      destruct (ends_in_backslash l) eqn:Eb.
      + destruct (One (10 :: W ++ T) (blog_line (wr_inls l) (10 :: W ++ T) b L1 L2 L3 eq_refl (or_introl Eb))) as (ch1 & E1 & E2 & E3). rewrite E1. rewrite scan_miss by (apply Bs; reflexivity).
        change (mts (Datatypes.inl 10 :: ?x)) with (mts x).
        destruct (IH (10 :: rev (wr_inls l) ++ b) T dch ch1 (in_par dch ch1) _ HT E3 (or_introl eq_refl)) as (ch2 & brk & F1 & F2 & F3 & F4).
        exists ch2, brk. rewrite F1, Ef. split; [reflexivity|]. split; [exact F2|]. split; [exact F3|]. rewrite <- !app_assoc in F4. exact F4.
      + assert (HW : blankp (W ++ T) = false).
        { cbn [forallb] in Hls. apply andb_true_iff in Hls as [Hl2 _]. destruct (line_ok_facts l2 Hl2) as (M1 & M2 & M3 & M4). unfold block_start in M3. rewrite !orb_false_iff in M3.
          destruct (wr_inls l2) as [|d v] eqn:R; [discriminate|]. assert (X : exists Y, lines_text ((d :: v) :: map wr_inls lines) = d :: Y) by (destruct lines; eexists; reflexivity).
          destruct X as (Y & X). replace W with ((d :: Y)) by (unfold W; cbn [wr_block map]; rewrite R; symmetry; exact X). apply blank_line_no; [reflexivity|]. cbn [head_is] in *. tauto. }
        destruct (Two (W ++ T) eq_refl HW) as (ch1 & E1 & E2 & E3). rewrite E1.
        assert (E4 : showns par_h (rev (brk_n :: ch1)) ((pout ++ html_inls (strict c) br l) ++ br)) by (cbn [rev]; apply showns_snoc; [exact E3|apply shown_break]).
        destruct (IH (10 :: rev (wr_inls l) ++ b) T dch _ _ _ HT E4 (or_introl eq_refl)) as (ch2 & brk & F1 & F2 & F3 & F4).
        exists ch2, brk. rewrite F1, Ef. split; [reflexivity|]. split; [exact F2|]. split; [exact F3|]. rewrite <- !app_assoc in F4. exact F4.
  Qed.
  Lemma para_hits : forall lines, tpart_ok (TBlock (BPara lines)) = true -> hit (TBlock (BPara lines)).
  Proof.
    intros lines Hok T b dch out (HT & _) Hb Hd Sh. cbn [tpart_ok wr_tpart block_ok] in *. apply andb_true_iff in Hok as [H1 H2].
    destruct (para_any lines H1 H2 b T dch [] (closed1 dch) [] HT (showns_nil c par_h)) as (ch' & brk & E1 & E2 & E3 & E4); [right; split; reflexivity|].
    exists (in_par dch (if brk then brk_n :: ch' else ch')), (Nd par_h (rev ch') :: dch), brk. split; [split; [discriminate|exists dch, ch'; auto]|]. split; [exact E3|]. split; [|exact E1].
    unfold praw, html_raw. cbn [rev bare_block html_block]. apply showns_snoc; [exact Sh|]. apply shown_par. exact E4.
  Qed.
  Lemma part_hits : forall q, tpart_ok q = true -> is_table q = false -> hit q.
  Proof.
    intros [[lines|n sp0 t cl| |lines|o items|rows]|rows] Hok Ht; try discriminate Hok; try discriminate Ht; [exact (para_hits _ Hok)|exact (head_hits _ _ _ _ Hok)|exact rule_hits|exact (code_hits _ Hok)|exact (list_hits _ _ Hok)].
  Qed.
  (** tables *)
  Lemma rows_any : forall rows, rows <> [] -> prows_ok rows = true -> forall T e T' b dch tch out s, bol b = true -> row_tail T e T' ->
    nobreak tch -> tab_start dch tch s -> showns table_h (rev tch) out ->
    exists tch', run true (mts (scan (block_re true) 0 b (wr_rows rows ++ T))) s = run true (mts (scan (block_re true) 0 (rev (wr_rows rows ++ e) ++ b) T')) (in_table dch tch') /\
      nobreak tch' /\ showns table_h (rev tch') (out ++ flat_map (html_row (strict c)) (map (map pc_cell) rows)).
  Proof.
    induction rows as [|r rows IH]; intros Hne Hok T e T' b dch tch out s Hb HT Hn Hs Sh; [congruence|].
    unfold prows_ok in Hok. cbn [forallb] in Hok. apply andb_true_iff in Hok as [Hr Hrs]. apply andb_true_iff in Hr as [Hr1 Hr2].
    assert (Hrn : r <> []) by (destruct r; discriminate). assert (PE : perr s = false) by (destruct Hs as [->|(_ & _ & ->)]; reflexivity).
    assert (One : forall R f U, row_tail R f U -> exists rch,
      run true (mts (scan (block_re true) 0 b (wr_prow r ++ R))) s = run true (mts (scan (block_re true) 0 (rev (wr_prow r ++ f) ++ b) U)) (in_table dch (Nd row_h rch :: tch)) /\
      showns table_h (rev (Nd row_h rch :: tch)) (out ++ html_row (strict c) (map pc_cell r))).
    { intros R f U HR. rewrite (row_match r R f U b Hrn Hr2 HR Hb). rewrite (run_cons true _ _ _ G_table) by (assumption || reflexivity). cbn [block_handler].
      destruct (prow_step c r (mkm (wr_prow r ++ f) [(G_table, wr_prow r)]) dch tch out s Hr2 Hrn eq_refl Hn Hs Sh) as (rch & E1 & E2). exists rch. rewrite E1. auto. }
    destruct rows as [|r2 rows].
    - unfold wr_rows. cbn [map lines_text flat_map]. rewrite app_nil_r. destruct (One T e T' HT) as (rch & E1 & E2).
      exists (Nd row_h rch :: tch). rewrite E1. split; [reflexivity|]. split; [discriminate|exact E2].
    - assert (Hr2n : r2 <> []) by (cbn [forallb] in Hrs; destruct r2; discriminate).
      destruct (wr_rows_head r2 rows Hr2n) as (Y & EW). change (wr_rows (r :: r2 :: rows)) with (wr_prow r ++ [10] ++ wr_rows (r2 :: rows)).
      remember (wr_rows (r2 :: rows)) as W eqn:DW.
      assert (HR : row_tail (10 :: W ++ T) [] (10 :: W ++ T)) by (apply row_tail_row; rewrite EW; reflexivity).
      destruct (One _ _ _ HR) as (rch & E1 & E2).
      replace ((wr_prow r ++ [10] ++ W) ++ T) with (wr_prow r ++ 10 :: W ++ T) by (rewrite <- !app_assoc; reflexivity). rewrite E1. rewrite app_nil_r.
      rewrite scan_miss by (apply newline_no; [apply prow_bol|left; reflexivity]). change (mts (Datatypes.inl 10 :: ?x)) with (mts x).
      destruct (IH ltac:(discriminate) Hrs T e T' (10 :: rev (wr_prow r) ++ b) dch (Nd row_h rch :: tch) _ _ eq_refl HT ltac:(discriminate) (or_introl eq_refl) E2) as (tch' & F1 & F2 & F3).
      exists tch'. rewrite F1. split; [|split; [exact F2|]].
      + replace (rev ((wr_prow r ++ [10] ++ W) ++ e) ++ b) with (rev (W ++ e) ++ 10 :: rev (wr_prow r) ++ b); [reflexivity|]. repeat (rewrite ?rev_app_distr, <- ?app_assoc; cbn [rev app]). reflexivity.
      + cbn [flat_map map] in F3 |- *. rewrite <- !app_assoc in F3. exact F3.
  Qed.
  Lemma table_hits : forall rows T e T' b dch out, tpart_ok (TTable rows) = true -> row_tail T e T' -> bol b = true -> nobreak dch -> showns doc_h (rev dch) out ->
    exists s' dch', post (TTable rows) false s' dch' /\ showns doc_h (rev dch') (out ++ praw c (TTable rows)) /\
      run true (mts (scan (block_re true) 0 b (wr_tpart (TTable rows) ++ T))) (closed1 dch) = run true (mts (scan (block_re true) 0 (rev (wr_tpart (TTable rows) ++ e) ++ b) T')) s'.
  Proof.
    intros rows T e T' b dch out Hok HT Hb Hd Sh. destruct (ptable_facts rows Hok) as (H1 & H2).
    destruct (rows_any rows H1 H2 T e T' b dch [] [] (closed1 dch) Hb HT Logic.I) as (tch & E1 & E2 & E3).
    { right. auto. }
    { apply showns_nil. }
    exists (in_table dch tch), (Nd table_h (rev tch) :: dch). split; [split; [discriminate|exists dch, tch; auto]|]. split; [|exact E1].
    unfold praw, html_raw. cbn [rev bare_block html_block]. apply showns_snoc; [exact Sh|]. apply shown_table. exact E3.
  Qed.
End Blocks.

(** ** blank lines between two blocks *)
Lemma run_space_m : forall G ms s, sane s -> run true (mkm G [(G_line, G)] :: ms) s = run true ms (line_repl s).
Proof. intros G ms s (H & _). rewrite (run_cons true _ _ _ G_line) by (exact H || reflexivity). reflexivity. Qed.
Lemma first_head : forall q T, tpart_ok q = true -> truthy (wr_tpart q ++ T) = true /\ head_is is_space (wr_tpart q ++ T) = false.
Proof. intros q T H. destruct (tpart_head q H) as (A & B). destruct (head_app is_space (wr_tpart q) T A) as (C & D). rewrite C. auto. Qed.
Lemma shown_single : forall t, shown_lines t [[]] = 1%nat.
Proof. intros []; reflexivity. Qed.
Lemma shown_more : forall ls, lines_text ls <> [] -> shown_lines false ls = (if ends_empty ls then 2 else 1)%nat /\ shown_lines true ls = (if ends_empty ls then 1 else 0)%nat.
Proof. intros [|[|d l] [|l2 ls]] H; cbn [lines_text] in H; try congruence; unfold shown_lines; destruct (ends_empty _); auto. Qed.
Lemma gap_run : forall q T ls b s, tpart_ok q = true -> tails q T -> forallb blank_line ls = true -> bol b = true -> sane s -> exists b', bol b' = true /\
  run true (mts (scan (block_re true) 0 b (wr_lines ls ++ wr_tpart q ++ T))) s = run true (mts (scan (block_re true) 0 b' (wr_tpart q ++ T))) (lines (shown_lines false ls) s).
Proof.
  intros q T ls b s Hq HT Hls Hb Hs. assert (D : ls = [] \/ ls <> []) by (destruct ls; [left; reflexivity|right; discriminate]). destruct D as [->|Hn]; [exists b; auto|].
  rewrite wr_lines_text by exact Hn. destruct (first_head q T Hq) as (H1 & H2). pose proof (lines_space ls Hls) as HG. pose proof (lines_bol ls b Hn Hls Hb) as HB.
  assert (D : lines_text ls = [] \/ lines_text ls <> []) by (destruct (lines_text ls); [left; reflexivity|right; discriminate]). destruct D as [D|D].
  - rewrite D. rewrite (lines_empty ls Hn D), shown_single. exists (10 :: b). split; [reflexivity|]. exact (gap_any q T b s Hq HT Hb Hs).
  - destruct (shown_more ls D) as (-> & _). set (G := lines_text ls) in *. pose proof (space_run G (10 :: wr_tpart q ++ T) b D HG Hb eq_refl (solid_end _ H1 H2)) as Hm.
    rewrite (mts_hit _ _ _ _ _ D Hm). rewrite run_space_m by exact Hs. exists (10 :: rev G ++ b). split; [reflexivity|]. destruct (ends_empty ls).
    + exact (gap_any q T (rev G ++ b) (line_repl s) Hq HT HB (sane_next s Hs)).
    + rewrite scan_miss by (apply newline_no; [exact HB|left; reflexivity]). reflexivity.
Qed.
Lemma blank_end : forall G b s, forallb is_space G = true -> bol b = true -> sane s -> exists k, run true (mts (scan (block_re true) 0 b G)) s = lines k s.
Proof.
  intros G b s HG Hb Hs. assert (D : G = [] \/ G <> []) by (destruct G; [left; reflexivity|right; discriminate]). destruct D as [->|D].
  - exists 1%nat. rewrite at_end by exact Hb. rewrite run_line_m by exact Hs. reflexivity.
  - pose proof (space_run G [] b D HG Hb eq_refl nothing_end) as Hm. pose proof (mts_hit _ _ _ _ _ D Hm) as E. rewrite app_nil_r in E. rewrite E. rewrite run_space_m by exact Hs.
    destruct (bol (rev G ++ b)) eqn:HB.
    + exists 2%nat. rewrite at_end by exact HB. rewrite run_line_m by (apply sane_next; exact Hs). reflexivity.
    + exists 1%nat. rewrite at_end_no by exact HB. reflexivity.
Qed.

(** ** the text behind a block *)
Lemma wr_lines_cons : forall l ls X, wr_lines (l :: ls) ++ X = l ++ 10 :: wr_lines ls ++ X.
Proof. intros. cbn [wr_lines flat_map]. rewrite <- !app_assoc. reflexivity. Qed.
Lemma ends_nl : forall ls, nl (wr_ends ls).
Proof. intros [|l ls]; [left; reflexivity|right; eexists; reflexivity]. Qed.
Lemma blank_app : forall l R, forallb is_space l = true -> nl R -> blankp (l ++ R) = true.
Proof.
  induction l as [|d l IH]; intros R H HR.
  - destruct HR as [->|(X & ->)]; reflexivity.
  - cbn [forallb] in H. apply andb_true_iff in H as [H1 H2]. cbn [app BlockRun.blank]. destruct (d =? 10); [reflexivity|]. cbn [orb]. apply andb_true_iff. split; [exact H1|exact (IH R H2 HR)].
Qed.
Lemma blank_line_space : forall l, blank_line l = true -> forallb is_space l = true.
Proof. intros l H. unfold blank_line in H. apply andb_true_iff in H. tauto. Qed.
Lemma ends_no_break : forall ls, forallb blank_line ls = true -> no_break_behind (wr_ends ls).
Proof.
  intros [|l ls] H; [left; reflexivity|]. right. exists (l ++ wr_ends ls). split; [reflexivity|]. cbn [forallb] in H. apply andb_true_iff in H as [H _]. apply blank_app; [apply blank_line_space; exact H|apply ends_nl].
Qed.
Lemma ends_space : forall ls, forallb blank_line ls = true -> forallb is_space (wr_ends ls) = true.
Proof. intros [|l ls] H; [reflexivity|]. rewrite wr_ends_text by discriminate. cbn [forallb]. apply andb_true_iff. split; [reflexivity|]. apply lines_space. exact H. Qed.
Lemma table_tail : forall ls X, forallb blank_line ls = true -> truthy X = true -> head_is is_space X = false ->
  ls = [] /\ row_tail (10 :: wr_lines ls ++ X) [] (10 :: X) \/ ls <> [] /\ row_tail (10 :: wr_lines ls ++ X) (10 :: lines_text ls) (10 :: X).
Proof.
  intros ls X H H1 H2. destruct ls as [|l ls]; [left; split; [reflexivity|]; apply row_tail_row; assumption|]. right. split; [discriminate|]. rewrite wr_lines_text by discriminate. exact (row_tail_blank _ X (lines_space _ H) H1 H2).
Qed.
Lemma tails_end : forall p ls, forallb blank_line ls = true -> tails p (wr_ends ls).
Proof.
  intros p ls H. split; [apply ends_nl|]. destruct p as [[]|]; try exact Logic.I.
  - destruct ls as [|l ls]; [exact no_more_nil|]. cbn [forallb] in H. apply andb_true_iff in H as [H _]. exact (no_more_blank l (wr_ends ls) (blank_line_space l H) (ends_nl ls)).
  - exists (wr_ends ls), []. apply row_tail_end. apply ends_space. exact H.
Qed.
Lemma tails_next : forall p q ls T, tpart_ok q = true -> forallb blank_line ls = true -> may_adjoin p q || negb (Nat.eqb (shown_lines (is_table p) ls) 0) = true -> tails p (10 :: wr_lines ls ++ wr_tpart q ++ T).
Proof.
  intros p q ls T Hq H HA. destruct (first_head q T Hq) as (H1 & H2). split; [right; eexists; reflexivity|]. destruct p as [[]|]; try exact Logic.I.
  - destruct ls as [|l ls].
    + cbn [shown_lines ends_empty rev Nat.add Nat.eqb negb] in HA. rewrite orb_false_r in HA. cbn [wr_lines flat_map app].
      assert (K : exists d X, wr_tpart q ++ T = d :: X /\ bullet d = false /\ is_space d = false); [|destruct K as (d & X & -> & K1 & K2); exact (no_more_head d X K1 K2)].
      destruct q as [[lines0|n sp0 t cl| |lines0|o items0|rows]|rows]; try discriminate HA; try discriminate Hq; cbn [wr_tpart tpart_ok] in *.
      * destruct n; [discriminate Hq|]. exists 61. eexists. split; [reflexivity|]. split; reflexivity.
      * eexists. eexists. split; [reflexivity|]. split; reflexivity.
      * destruct (code_match lines0 [] [] Hq eq_refl) as (_ & w' & ->). eexists. eexists. split; [reflexivity|]. split; reflexivity.
      * destruct (ptable_facts rows Hq) as (A & B). destruct rows as [|r rows]; [congruence|]. unfold prows_ok in B. cbn [forallb] in B. apply andb_true_iff in B as [B _]. apply andb_true_iff in B as [B _].
        destruct (wr_rows_head r rows ltac:(destruct r; discriminate)) as (Y & EY). unfold wr_rows in EY. rewrite EY. eexists. eexists. split; [reflexivity|]. split; reflexivity.
    + rewrite wr_lines_cons. cbn [forallb] in H. apply andb_true_iff in H as [H _]. apply no_more_blank; [exact (blank_line_space l H)|right; eexists; reflexivity].
  - destruct (table_tail ls (wr_tpart q ++ T) H H1 H2) as [(_ & R)|(_ & R)]; eexists; eexists; exact R.
Qed.
Definition lined (k : nat) (dch : list node) : list node := repeat line_n k ++ dch.
Lemma repeat_swap : forall k (x : node) l, repeat x k ++ x :: l = x :: repeat x k ++ l.
Proof. induction k as [|k IH]; intros x l; [reflexivity|]. cbn [repeat app]. rewrite IH. reflexivity. Qed.
Lemma lines_closed : forall k dch, lines k (closed1 (line_n :: dch)) = closed1 (lined k (line_n :: dch)).
Proof.
  induction k as [|k IH]; intro dch; [reflexivity|]. cbn [lines]. rewrite (sane_line _ (line_n :: dch)) by (apply closed_upto; discriminate). rewrite IH. unfold lined. cbn [repeat app].
  rewrite (repeat_swap k line_n (line_n :: dch)). reflexivity.
Qed.
Lemma lines_lined : forall k s dch, upto_block s = closed1 dch -> lines (S k) s = closed1 (lined (S k) dch).
Proof.
  intros k s dch E. cbn [lines]. rewrite (sane_line s dch E). rewrite lines_closed. unfold lined. cbn [repeat app]. rewrite (repeat_swap k line_n dch). reflexivity.
Qed.
Section Document.
  Variable c : cfg.
  Hypothesis no_toc : use_toc c = false.
  Local Notation showns := (showns c).
  Lemma lined_shown : forall k dch out, showns doc_h (rev dch) out -> showns doc_h (rev (lined k dch)) (out ++ repeat 10 k).
  Proof.
    induction k as [|k IH]; intros dch out H; [rewrite app_nil_r; exact H|]. unfold lined. cbn [repeat app rev]. rewrite (repeat_cons k 10), app_assoc. apply showns_snoc; [exact (IH dch out H)|]. intro st. rewrite emit_node_eq. reflexivity.
  Qed.
  Lemma lined_nobreak : forall k dch, nobreak dch -> nobreak (lined k dch).
  Proof. intros [|k] dch H; [exact H|discriminate]. Qed.
  Lemma post_docst : forall p s dch out, post p false s dch -> showns doc_h (rev dch) out -> docst c s out.
  Proof.
    intros p s dch out (Hd & H) Sh. destruct p as [[]|]; try (subst s; apply atdoc_docst; exists dch; auto).
    - destruct H as (dch0 & ch & -> & Hs & ->). exists par_h, ch, [(doc_h, dch0)], (Nd par_h (rev ch) :: dch0). split; [reflexivity|]. split; [apply solid_nobreak; exact Hs|]. split; [intros f [<-|[]]; discriminate|]. split; [reflexivity|exact Sh].
    - destruct H as (h & ch & up & -> & Hn & Hf & Hp). exists h, ch, up, dch. split; [reflexivity|]. split; [exact Hn|]. split; [intros f I; apply (Hf f I)|]. split; [exact Hp|exact Sh].
    - destruct H as (dch0 & tch & -> & Hn & ->). apply tabst_docst. exists dch0, tch. auto.
  Qed.
  Lemma lines_docst : forall p s dch out k, post p false s dch -> showns doc_h (rev dch) out -> docst c (lines k s) (out ++ repeat 10 k).
  Proof.
    intros p s dch out [|k] Hp Sh; [rewrite app_nil_r; exact (post_docst p s dch out Hp Sh)|]. rewrite (lines_lined k s dch (post_upto _ _ _ _ Hp)). apply atdoc_docst. exists (lined (S k) dch). split; [reflexivity|]. split; [discriminate|]. apply lined_shown. exact Sh.
  Qed.
  Lemma part_end : forall p ls b dch out, tpart_ok p = true -> forallb blank_line ls = true -> bol b = true -> nobreak dch -> showns doc_h (rev dch) out ->
    exists k, docst c (run true (mts (scan (block_re true) 0 b (wr_tpart p ++ wr_ends ls))) (closed1 dch)) ((out ++ praw c p) ++ repeat 10 k).
  Proof.
    intros p ls b dch out Hp Hls Hb Hd Sh. destruct (is_table p) eqn:Ht.
    - destruct p as [x|rows]; [discriminate Ht|]. destruct (table_hits c rows (wr_ends ls) (wr_ends ls) [] b dch out Hp (row_tail_end _ (ends_space ls Hls)) Hb Hd Sh) as (s' & dch' & P & Sh' & ->).
      destruct (bol (rev (wr_tpart (TTable rows) ++ wr_ends ls) ++ b)) eqn:HB.
      + exists 1%nat. rewrite at_end by exact HB. rewrite run_line_m by (eapply post_sane; exact P). exact (lines_docst _ s' dch' _ 1 P Sh').
      + exists 0%nat. rewrite at_end_no by exact HB. exact (lines_docst _ s' dch' _ 0 P Sh').
    - destruct (part_hits c no_toc p Hp Ht (wr_ends ls) b dch out (tails_end p ls Hls) Hb Hd Sh) as (s' & dch' & brk & P & B & Sh' & ->). rewrite (B (ends_no_break ls Hls)) in P. clear B.
      destruct ls as [|l ls]; [exists 0%nat; exact (lines_docst _ s' dch' _ 0 P Sh')|]. rewrite wr_ends_text by discriminate. cbn [rest_ms].
      destruct (blank_end (lines_text (l :: ls)) (10 :: rev (wr_tpart p) ++ b) s' (lines_space _ Hls) eq_refl (post_sane _ _ _ _ P)) as (k & ->). exists k. exact (lines_docst _ s' dch' _ k P Sh').
  Qed.
  Lemma part_then : forall p ls q T b dch out, tpart_ok p = true -> forallb blank_line ls = true -> tpart_ok q = true -> tails q T ->
    may_adjoin p q || negb (Nat.eqb (shown_lines (is_table p) ls) 0) = true -> bol b = true -> nobreak dch -> showns doc_h (rev dch) out ->
    exists b' dch', bol b' = true /\ nobreak dch' /\ showns doc_h (rev dch') ((out ++ praw c p) ++ repeat 10 (shown_lines (is_table p) ls)) /\
      run true (mts (scan (block_re true) 0 b (wr_tpart p ++ 10 :: wr_lines ls ++ wr_tpart q ++ T))) (closed1 dch) = run true (mts (scan (block_re true) 0 b' (wr_tpart q ++ T))) (closed1 dch').
  Proof.
    intros p ls q T b dch out Hp Hls Hq HT HA Hb Hd Sh. destruct (first_head q T Hq) as (H1 & H2).
    assert (Step : exists s' dch' brk b', post p brk s' dch' /\ showns doc_h (rev dch') (out ++ praw c p) /\ bol b' = true /\
      run true (mts (scan (block_re true) 0 b (wr_tpart p ++ 10 :: wr_lines ls ++ wr_tpart q ++ T))) (closed1 dch) = run true (mts (scan (block_re true) 0 b' (wr_tpart q ++ T))) (lines (shown_lines (is_table p) ls) s')).
    { destruct (is_table p) eqn:Ht.
      - destruct p as [x|rows]; [discriminate Ht|]. destruct (table_tail ls (wr_tpart q ++ T) Hls H1 H2) as [(-> & R)|(Hn & R)].
        + destruct (table_hits c rows _ _ _ b dch out Hp R Hb Hd Sh) as (s' & dch' & P & Sh' & E). exists s', dch', false, (10 :: rev (wr_tpart (TTable rows)) ++ b). split; [exact P|]. split; [exact Sh'|]. split; [reflexivity|].
          etransitivity; [exact E|]. rewrite app_nil_r. rewrite scan_miss; [reflexivity|]. apply newline_no; [|left; reflexivity].
          destruct (ptable_facts rows Hp) as (A & _). change (wr_tpart (TTable rows)) with (wr_rows rows). destruct (exists_last A) as (rs & r & ->). unfold wr_rows. rewrite map_app. cbn [map]. destruct (lines_text_suffix (map wr_prow rs) (wr_prow r)) as (v & ->).
          rewrite rev_app_distr, <- app_assoc. apply prow_bol.
        + destruct (table_hits c rows _ _ _ b dch out Hp R Hb Hd Sh) as (s' & dch' & P & Sh' & E).
          exists s', dch', false, (10 :: rev (wr_tpart (TTable rows) ++ 10 :: lines_text ls) ++ b). split; [exact P|]. split; [exact Sh'|]. split; [reflexivity|]. etransitivity; [exact E|].
          set (B := rev (wr_tpart (TTable rows) ++ 10 :: lines_text ls) ++ b).
          assert (HB : bol B = ends_empty ls).
          { rewrite <- (lines_bol ls (10 :: rev (wr_tpart (TTable rows)) ++ b) Hn Hls eq_refl). unfold B. repeat (rewrite ?rev_app_distr, <- ?app_assoc; cbn [rev app]). reflexivity. }
          assert (HS : shown_lines true ls = (if ends_empty ls then 1 else 0)%nat).
          { assert (D : lines_text ls = [] \/ lines_text ls <> []) by (destruct (lines_text ls); [left; reflexivity|right; discriminate]). destruct D as [D|D]; [rewrite (lines_empty ls Hn D); reflexivity|apply (shown_more ls D)]. }
          rewrite HS. destruct (ends_empty ls).
          * exact (gap_any q T B s' Hq HT HB (post_sane _ _ _ _ P)).
          * rewrite scan_miss by (apply newline_no; [exact HB|left; reflexivity]). reflexivity.
      - pose proof (tails_next p q ls T Hq Hls) as TN. rewrite Ht in TN. specialize (TN HA).
        destruct (part_hits c no_toc p Hp Ht _ b dch out TN Hb Hd Sh) as (s' & dch' & brk & P & _ & Sh' & E). cbn [rest_ms] in E.
        destruct (gap_run q T ls (10 :: rev (wr_tpart p) ++ b) s' Hq HT Hls eq_refl (post_sane _ _ _ _ P)) as (b' & Hb' & E').
        exists s', dch', brk, b'. split; [exact P|]. split; [exact Sh'|]. split; [exact Hb'|]. etransitivity; [exact E|exact E']. }
    destruct Step as (s' & dch' & brk & b' & P & Sh' & Hb' & E). exists b', (lined (shown_lines (is_table p) ls) dch'). split; [exact Hb'|]. split; [apply lined_nobreak; apply P|]. split; [apply lined_shown; exact Sh'|]. etransitivity; [exact E|].
    destruct (shown_lines (is_table p) ls) as [|k].
    - cbn [Nat.eqb negb] in HA. rewrite orb_false_r in HA. exact (start_run q _ p brk s' dch' (part_starts q T b' Hq HT Hb') P HA).
    - rewrite (lines_lined k s' dch' (post_upto _ _ _ _ P)). reflexivity.
  Qed.

  (** ** the document *)
  Fixpoint fraw (d : fdoc) : str := match d with [] => [] | [(p, _)] => praw c p | (p, ls) :: r => praw c p ++ repeat 10 (shown_lines (is_table p) ls) ++ fraw r end.
  Lemma wr_fdoc_cons : forall p ls q d, wr_fdoc ((p, ls) :: q :: d) = wr_tpart p ++ 10 :: wr_lines ls ++ wr_fdoc (q :: d). Proof. reflexivity. Qed.
  Lemma fraw_cons : forall p ls q d, fraw ((p, ls) :: q :: d) = praw c p ++ repeat 10 (shown_lines (is_table p) ls) ++ fraw (q :: d). Proof. reflexivity. Qed.
  Lemma fdoc_ok_cons : forall p ls q ls2 d, fdoc_ok ((p, ls) :: (q, ls2) :: d) = true ->
    tpart_ok p = true /\ forallb blank_line ls = true /\ may_adjoin p q || negb (Nat.eqb (shown_lines (is_table p) ls) 0) = true /\ fdoc_ok ((q, ls2) :: d) = true.
  Proof. intros p ls q ls2 d H. change (fdoc_ok ((p, ls) :: (q, ls2) :: d)) with (tpart_ok p && forallb blank_line ls && (may_adjoin p q || negb (Nat.eqb (shown_lines (is_table p) ls) 0)) && fdoc_ok ((q, ls2) :: d)) in H. rewrite !andb_true_iff in H. tauto. Qed.
  Lemma fdoc_first : forall q ls d, fdoc_ok ((q, ls) :: d) = true -> tpart_ok q = true /\ exists T, wr_fdoc ((q, ls) :: d) = wr_tpart q ++ T /\ tails q T.
  Proof.
    intros q ls [|[q2 ls2] d] H.
    - cbn [fdoc_ok] in H. rewrite !andb_true_iff in H. destruct H as [[[H1 H2] _] _]. split; [exact H1|]. exists (wr_ends ls). split; [reflexivity|]. apply tails_end. exact H2.
    - destruct (fdoc_ok_cons _ _ _ _ _ H) as (H1 & H2 & H3 & H4). split; [exact H1|]. rewrite wr_fdoc_cons. eexists. split; [reflexivity|].
      assert (H5 : tpart_ok q2 = true) by (cbn [fdoc_ok] in H4; rewrite !andb_true_iff in H4; tauto).
      assert (X : exists T, wr_fdoc ((q2, ls2) :: d) = wr_tpart q2 ++ T) by (destruct d; eexists; reflexivity). destruct X as (T & ->). apply tails_next; assumption.
  Qed.
  Lemma fdoc_run : forall d, d <> [] -> fdoc_ok d = true -> forall b dch out, bol b = true -> nobreak dch -> showns doc_h (rev dch) out ->
    exists k, docst c (run true (mts (scan (block_re true) 0 b (wr_fdoc d))) (closed1 dch)) ((out ++ fraw d) ++ repeat 10 k).
  Proof.
    induction d as [|[p ls] d IH]; intros Hn Hok b dch out Hb Hd Sh; [congruence|]. destruct d as [|[q ls2] d].
    - cbn [fdoc_ok] in Hok. rewrite !andb_true_iff in Hok. destruct Hok as [[[H1 H2] _] _]. exact (part_end p ls b dch out H1 H2 Hb Hd Sh).
    - destruct (fdoc_ok_cons _ _ _ _ _ Hok) as (H1 & H2 & H3 & H4). destruct (fdoc_first _ _ _ H4) as (H5 & T & ET & HT).
      destruct (part_then p ls q T b dch out H1 H2 H5 HT H3 Hb Hd Sh) as (b' & dch' & Hb' & Hd' & Sh' & E).
      destruct (IH ltac:(discriminate) H4 b' dch' _ Hb' Hd' Sh') as (k & K). exists k. rewrite wr_fdoc_cons, ET, E, <- ET. rewrite fraw_cons. rewrite <- !app_assoc in *. exact K.
  Qed.
End Document.

(** ** the document as html *)
Lemma html_fdoc_cons : forall s p ls q d, html_fdoc s ((p, ls) :: q :: d) = html_tpart s p ++ block_end p ++ repeat 10 (shown_lines (is_table p) ls) ++ html_fdoc s (q :: d). Proof. reflexivity. Qed.
Lemma html_fdoc_solid : forall s d, d <> [] -> solid_text (html_fdoc s d).
Proof.
  intros s. induction d as [|[p ls] d IH]; intro H; [congruence|]. destruct (html_block_solid true s (bare_block p)) as (A & B & C). destruct d as [|q d]; [exact (conj A (conj B C))|].
  destruct (IH ltac:(discriminate)) as (D & E & F). rewrite html_fdoc_cons. destruct (head_app is_space (html_tpart s p) (block_end p ++ repeat 10 (shown_lines (is_table p) ls) ++ html_fdoc s (q :: d)) C) as (G1 & G2).
  split; [rewrite G1; exact A|]. split; [|exact G2]. rewrite !app_assoc. rewrite last_is_suffix; [exact E|]. destruct (html_fdoc s (q :: d)); discriminate.
Qed.
Definition ends_in (d : fdoc) : str := match rev d with (p, _) :: _ => block_end p | [] => [] end.
Lemma fraw_html : forall c d, fraw c d = html_fdoc (strict c) d ++ ends_in d.
Proof.
  intro c. induction d as [|[p ls] d IH]; [reflexivity|]. assert (P : praw c p = html_tpart (strict c) p ++ block_end p) by (destruct p as [[]|]; reflexivity). destruct d as [|q d].
  - cbn [fraw html_fdoc]. rewrite P. reflexivity.
  - rewrite fraw_cons, html_fdoc_cons, IH, P. assert (ends_in ((p, ls) :: q :: d) = ends_in (q :: d)) as ->; [|rewrite <- !app_assoc; reflexivity].
    unfold ends_in. cbn [rev]. destruct (rev d) as [|x r]; reflexivity.
Qed.
Lemma nl_space : forall k, forallb is_space (repeat 10 k) = true.
Proof. induction k as [|k IH]; [reflexivity|exact IH]. Qed.
Lemma ends_in_space : forall d, forallb is_space (ends_in d) = true.
Proof. intro d. unfold ends_in. destruct (rev d) as [|[p ls] r]; [reflexivity|]. destruct p as [[]|]; reflexivity. Qed.
Lemma blank_no_cr : forall l, blank_line l = true -> ~ In 13 l.
Proof. intros l H. unfold blank_line in H. apply andb_true_iff in H as [_ H]. apply no_cr. exact H. Qed.
Lemma lines_no_cr : forall ls, forallb blank_line ls = true -> ~ In 13 (wr_lines ls).
Proof.
  induction ls as [|l ls IH]; intros H I; [exact I|]. cbn [forallb] in H. apply andb_true_iff in H as [H1 H2]. change (wr_lines (l :: ls)) with ((l ++ [10]) ++ wr_lines ls) in I. apply in_app_or in I as [I|I]; [|exact (IH H2 I)].
  apply in_app_or in I as [I|[I|[]]]; [exact (blank_no_cr l H1 I)|discriminate I].
Qed.
Lemma ends_no_cr : forall ls, forallb blank_line ls = true -> ~ In 13 (wr_ends ls).
Proof.
  induction ls as [|l ls IH]; intros H I; [exact I|]. cbn [forallb] in H. apply andb_true_iff in H as [H1 H2]. change (wr_ends (l :: ls)) with (([10] ++ l) ++ wr_ends ls) in I. apply in_app_or in I as [I|I]; [|exact (IH H2 I)].
  destruct I as [I|I]; [discriminate I|exact (blank_no_cr l H1 I)].
Qed.
Lemma fdoc_no_cr : forall d, fdoc_ok d = true -> ~ In 13 (wr_fdoc d).
Proof.
  induction d as [|[p ls] d IH]; intro H; [intros []|]. destruct d as [|[q ls2] d].
  - cbn [fdoc_ok] in H. rewrite !andb_true_iff in H. destruct H as [[[H1 H2] _] _]. cbn [wr_fdoc]. intro I. apply in_app_or in I as [I|I]; [exact (tpart_no_cr p H1 I)|exact (ends_no_cr ls H2 I)].
  - destruct (fdoc_ok_cons _ _ _ _ _ H) as (H1 & H2 & H3 & H4). rewrite wr_fdoc_cons. intro I. apply in_app_or in I as [I|[I|I]]; [exact (tpart_no_cr p H1 I)|discriminate I|]. apply in_app_or in I as [I|I]; [exact (lines_no_cr ls H2 I)|exact (IH H4 I)].
Qed.
Theorem fdoc_spec : forall v s md lead d, forallb blank_line lead = true -> fdoc_ok d = true ->
  creole2html (mkopts true v s) md (wr_lines lead ++ wr_fdoc d) = (Ok (html_fdoc s d), md).
Proof.
  intros v s md lead d Hl H. unfold creole2html. cbn [o_blog o_verbose o_strict]. unfold parse.
  rewrite norm_id by (intro I; apply in_app_or in I as [I|I]; [exact (lines_no_cr lead Hl I)|exact (fdoc_no_cr d H I)]).
  set (c := mkcfg (match v with None => 1%Z | Some v => v end) s (md_env md) false).
  assert (R : exists k1 k2, docst c (parse_block true (wr_lines lead ++ wr_fdoc d) init_ps) (repeat 10 k1 ++ html_fdoc s d ++ ends_in d ++ repeat 10 k2)).
  { change (parse_block true ?t init_ps) with (run true (mts (scan (block_re true) 0 [] t)) (closed1 [])). assert (Hs : sane (closed1 [])) by (split; [reflexivity|exists []; reflexivity]).
    assert (Z : showns c doc_h (rev []) []) by apply showns_nil. destruct d as [|[q ls] d].
    - cbn [wr_fdoc]. rewrite app_nil_r. assert (HG : forallb is_space (wr_lines lead) = true).
      { clear - Hl. induction lead as [|l lead IH]; [reflexivity|]. cbn [forallb] in Hl. apply andb_true_iff in Hl as [H1 H2]. change (wr_lines (l :: lead)) with ((l ++ [10]) ++ wr_lines lead). rewrite forallb_app. apply andb_true_iff. split; [|exact (IH H2)].
        rewrite forallb_app. apply andb_true_iff. split; [exact (blank_line_space l H1)|reflexivity]. }
      destruct (blank_end (wr_lines lead) [] (closed1 []) HG eq_refl Hs) as (k & ->). exists k, 0%nat. cbn [html_fdoc ends_in rev repeat]. rewrite !app_nil_r.
      exact (lines_docst c (TBlock BRule) (closed1 []) [] [] k (conj Logic.I eq_refl) Z).
    - destruct (fdoc_first _ _ _ H) as (H5 & T & ET & HT). rewrite ET. destruct (gap_run q T lead [] (closed1 []) H5 HT Hl eq_refl Hs) as (b' & Hb' & ->). rewrite <- ET.
      assert (E : lines (shown_lines false lead) (closed1 []) = closed1 (lined (shown_lines false lead) [])) by (destruct (shown_lines false lead) as [|k]; [reflexivity|apply lines_lined; reflexivity]). rewrite E.
      destruct (fdoc_run c eq_refl ((q, ls) :: d) ltac:(discriminate) H b' (lined (shown_lines false lead) []) _ Hb' (lined_nobreak _ [] Logic.I) (lined_shown c _ [] [] Z)) as (k & K).
      exists (shown_lines false lead), k. rewrite fraw_html in K. cbn [app] in K. rewrite <- !app_assoc in K. exact K. }
  destruct R as (k1 & k2 & R). destruct (docst_emit c _ _ (mkest (md_toc md) (md_log md)) R) as (root & -> & Er). cbn [init_toc existsb]. fold c. unfold emit. rewrite Er.
  change (use_toc c) with false. cbv iota beta. cbn [toc log app].
  assert (S0 : strip (repeat 10 k1 ++ html_fdoc s d ++ ends_in d ++ repeat 10 k2) = html_fdoc s d).
  { etransitivity; [apply (strip_sides is_space (repeat 10 k1) (html_fdoc s d) (ends_in d ++ repeat 10 k2)); [apply nl_space|rewrite forallb_app; apply andb_true_iff; split; [apply ends_in_space|apply nl_space]]|].
    destruct d as [|x d]; [reflexivity|]. apply (trimmed_strip (html_fdoc s (x :: d))). apply solid_trimmed. apply html_fdoc_solid. discriminate. }
  rewrite S0. destruct md. reflexivity.
Qed.
