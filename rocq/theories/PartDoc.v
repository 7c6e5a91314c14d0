(** * Documents with macros between and inside of paragraphs: [creole2html] *)
From Coq Require Import String List Arith NArith ZArith Bool Lia.
From Verif Require Import PyStr PyStrFacts GNames Regex Rules RegexFacts RegexRun Utils DocTree CreoleParser ParserFacts
  Res HtmlEmitter EmitterFacts HtmlToolsFacts Spec4 Spec5 Spec7 Spec20 Spec22 DictFacts InlineRun InlineParse BlockRun BlockHits TableHits BlockParse DocParse LiftDoc MacroHit MacroDoc TagHit BitParse.
Import ListNotations.
Open Scope N_scope.
Notation run := BlockParse.run.

Lemma gap_starts : forall blog X b, truthy X = true -> head_is is_space X = false -> bol b = true ->
  exists ms, mts (scan (block_re blog) 0 b (10 :: X)) = line_m :: ms.
Proof.
  intros blog X b H1 H2 Hb. cbn [scan]. cbv zeta. rewrite at_pos_gap by assumption. unfold mts. rewrite flat_map_app. cbn [map flat_map app]. eexists. reflexivity.
Qed.
Lemma bline_not : forall w R, truthy w = true -> start_no w -> tail R = true ->
  startswith ($ "----") (w ++ R) = false /\ list_start (w ++ R) = false /\ head_is (N.eqb 124) (w ++ R) = false /\
  head_is is_space (w ++ R) = false /\ truthy (w ++ R) = true.
Proof.
  intros w R L1 (A1 & A2 & A3 & A5 & A6 & A7) HR. repeat split.
  - rewrite startswith_line by (reflexivity || exact HR). exact A5.
  - destruct w as [|d [|e w]]; [discriminate| |].
    + cbn [head_is skipn] in A7. rewrite andb_true_r in A7. cbn [app]. unfold list_start. destruct R as [|f R]; [reflexivity|].
      cbn [list_start]. rewrite A7. reflexivity.
    + cbn [head_is skipn] in A7. cbn [app]. unfold list_start, bullet in *.
      destruct (d =? 42), (d =? 35), (e =? 42), (e =? 35); try reflexivity; discriminate.
  - rewrite line_head by exact L1. exact A3.
  - rewrite line_head by exact L1. exact A1.
  - destruct w; [discriminate|reflexivity].
Qed.
(** the first line *)
Lemma bpara_head : forall lines T, blines_ok lines T = true -> tail2 T = true -> exists l R,
  lines_text (map wr_bits lines) = wr_bits l ++ R /\ tail (R ++ T) = true /\ bline_ok l (R ++ T) = true.
Proof.
  intros [|l [|l2 lines]] T H HT; [discriminate| |]; cbn [blines_ok] in H; apply andb_true_iff in H as [H _].
  - exists l, []. cbn [map lines_text app]. rewrite app_nil_r. split; [reflexivity|]. split; [apply tail2_tail; exact HT|exact H].
  - exists l, ([10] ++ lines_text (map wr_bits (l2 :: lines))). split; [reflexivity|]. split; [reflexivity|]. rewrite <- app_assoc. exact H.
Qed.

Section PDoc.
  Variable c : cfg.
  Hypothesis no_toc : use_toc c = false.
  Notation lst := (lst c).
  Notation lat := (lat c).
  Notation say_lines blog := (say_lines blog (strict c) (verbose c) (env c) kw_for).
  Notation say_part blog := (say_part blog (strict c) (verbose c) (env c) kw_for).
  Notation say_parts blog := (say_parts blog (strict c) (verbose c) (env c) kw_for).

  Definition gst (s : ps) (f : say) : Prop := exists s', lst s' f /\
    (forall blog ms, run blog (line_m :: ms) s = run blog (line_m :: ms) s') /\ finish s = finish s'.
  Lemma lst_gst : forall s f, lst s f -> gst s f.
  Proof. intros s f H. exists s. auto. Qed.
  Lemma gst_ext : forall s f g, (forall l, f l = g l) -> gst s f -> gst s g.
  Proof. intros s f g E (s' & H & H1). exists s'. split; [|exact H1]. revert H. apply lst_ext. intros x r Hg. rewrite E. exact Hg. Qed.
  Lemma lat_at : forall s f, lat s f -> exists D u, s = mkps [(mkn KDocument None, D)] false u false /\ notoc u /\ nobreak D /\ tells c (mkn KDocument None) D f.
  Proof.
    intros s f (old & u & s0 & out & -> & Ho & (dch & -> & Hd & Sh) & Hu & Hf). exists (dch ++ old), u. split; [|split; [exact Hu|split]].
    - unfold lift. cbn [stk txt used perr lift_stk]. rewrite app_nil_r. reflexivity.
    - destruct dch as [|x dch]; [|exact Hd]. destruct old as [|y o]; [exact I|]. cbn [app nobreak]. intro E. cbn [old_ok] in Ho. rewrite E in Ho. discriminate.
    - intros t0 l0 x l1 E. destruct (Hf t0 l0 x l1 E) as (a1 & Ea & ->). rewrite rev_app_distr, emit_children_app, Ea. rewrite (Sh (mkest t0 l1)). reflexivity.
  Qed.
  Lemma at_lst : forall D u f, notoc u -> old_ok D -> tells c (mkn KDocument None) D f -> lst (mkps [(mkn KDocument None, D)] false u false) f.
  Proof.
    intros D u f Hu Ho Ht. exists D, u, init_ps, []. split; [unfold lift; cbn; rewrite ?app_nil_r; reflexivity|]. split; [exact Ho|]. split; [|split; [exact Hu|]].
    - apply atdoc_docst. exists []. split; [reflexivity|]. split; [exact I|]. intro st0. reflexivity.
    - intros t0 l0 a l1 E. exists a. split; [apply Ht; exact E|]. rewrite app_nil_r. reflexivity.
  Qed.
  Definition para_say (blog : bool) (lines : list (list bit)) : say := andthen (done ($ "<p>")) (andthen (say_lines blog lines) (done ($ "</p>" ++ [10]))).
  Lemma para_node : forall blog lines ch, tells c par_h ch (say_lines blog lines) -> forall st x l, para_say blog lines (log st) = Some (x, l) ->
    emit_node c (mkn KDocument None) (Nd par_h (rev ch)) st = (Ok x, mkest (toc st) l).
  Proof.
    intros blog lines ch H [t0 l0] x l E. unfold para_say, andthen, done in E. cbn [log] in E. destruct (say_lines blog lines l0) as [[y l1]|] eqn:Ey; [|discriminate]. injection E as <- <-.
    rewrite emit_node_eq. cbv zeta. cbn [hk mkn]. rewrite (H t0 l0 y l1 Ey). reflexivity.
  Qed.
  Lemma gpara_first : forall blog lines T s f b, blines_ok lines T = true -> tail2 T = true -> lat s f -> 
    exists s', gst s' (andthen f (para_say blog lines)) /\
      run blog (mts (scan (block_re blog) 0 b (lines_text (map wr_bits lines) ++ T))) s = run blog (rest_ms blog (rev (lines_text (map wr_bits lines)) ++ b) T) s'.
  Proof.
    intros blog lines T s f b Hok HT Hs. destruct (lat_at s f Hs) as (D & u & -> & Hu & HD & Hf).
    destruct (gpara_run c blog lines T Hok HT [] b D [] u (mkps [(mkn KDocument None, D)] false u false) (done []) Hu) as (ch & u' & E1 & E2 & E3 & E4).
    { intros t0 l0 x l1 E. injection E as <- <-. reflexivity. }
    { right. split; reflexivity. }
    { left. reflexivity. }
    exists (gpar D ch u'). split; [|exact E1]. exists (mkps [(mkn KDocument None, Nd par_h (rev ch) :: D)] false u' false). split; [|split].
    - apply at_lst; [exact E3|reflexivity|]. eapply tells_grows; [exact Hf|]. apply ggrows_node. apply para_node. revert E4. apply tells_ext. intro l. rewrite !andthen_nil. reflexivity.
    - intros bl ms. rewrite !(run_cons bl line_m ms _ G_line) by (reflexivity || (destruct bl; reflexivity)). f_equal. cbn [block_handler]. unfold line_repl, upto_block, upto, gpar.
      rewrite !cleanup_nobreak; [reflexivity|discriminate|]. apply solid_nobreak. exact E2.
    - reflexivity.
  Qed.
  (** at an empty line *)
  Lemma gst_gap : forall s f, gst s f -> exists s', lst s' f /\ forall blog X b, truthy X = true -> head_is is_space X = false -> bol b = true ->
    run blog (mts (scan (block_re blog) 0 b (10 :: X))) s = run blog (mts (scan (block_re blog) 0 b (10 :: X))) s'.
  Proof.
    intros s f (s' & H1 & H2 & _). exists s'. split; [exact H1|]. intros blog X b X1 X2 Hb. destruct (gap_starts blog X b X1 X2 Hb) as (ms & ->). apply H2.
  Qed.
  Lemma gpara_next : forall blog lines T s f b, blines_ok lines T = true -> tail2 T = true -> lst s f -> bol b = true ->
    exists s', gst s' (andthen f (andthen (done [10]) (para_say blog lines))) /\
      run blog (mts (scan (block_re blog) 0 b (10 :: lines_text (map wr_bits lines) ++ T))) s = run blog (rest_ms blog (rev (10 :: lines_text (map wr_bits lines)) ++ b) T) s'.
  Proof.
    intros blog lines T s f b Hok HT Hs Hb. destruct (bpara_head lines T Hok HT) as (l & R & Ew & HR & Hl). destruct (bline_facts l _ Hl HR) as (L1 & L2 & L3 & L7 & _).
    destruct (bline_not (wr_bits l) (R ++ T) L1 L3 HR) as (A1 & A2 & A3 & A4 & A5).
    assert (Er : rev (10 :: lines_text (map wr_bits lines)) ++ b = rev (lines_text (map wr_bits lines)) ++ 10 :: b) by (cbn [rev]; rewrite <- app_assoc; reflexivity).
    assert (Ewt : lines_text (map wr_bits lines) ++ T = wr_bits l ++ R ++ T) by (rewrite Ew, <- app_assoc; reflexivity).
    assert (G : forall s2, gst s2 (andthen (then_text f [10]) (para_say blog lines)) -> gst s2 (andthen f (andthen (done [10]) (para_say blog lines)))).
    { intros s2. apply gst_ext. intro x. rewrite <- andthen_assoc. apply andthen_ext; [|reflexivity]. intro y. reflexivity. }
    rewrite Er. destruct blog.
    - rewrite Ewt, gap_lazy by assumption. rewrite <- Ewt.
      destruct (line_lift c true (mts (scan (block_re true) 0 (10 :: b) (lines_text (map wr_bits lines) ++ T))) s f Hs) as (s1 & Hs1 & E1).
      destruct (gpara_first true lines T s1 _ (10 :: b) Hok HT Hs1) as (s2 & Hs2 & E2). exists s2. split; [apply G; exact Hs2|]. rewrite <- E2, <- E1. reflexivity.
    - assert (Hline : scan (block_re false) 0 b (10 :: lines_text (map wr_bits lines) ++ T) =
        inr line_m :: inr (mkm (10 :: wr_bits l) [(G_text, wr_bits l); (G_space, [10])]) :: scan (block_re false) 0 (rev (10 :: wr_bits l) ++ b) (R ++ T)).
      { rewrite Ewt. exact (wiki_gap_line_gen (wr_bits l) (R ++ T) b L1 L2 L3 HR Hb). }
      rewrite Hline. change (mts (inr line_m :: inr ?x :: ?y)) with (line_m :: x :: mts y).
      match goal with |- context [run false (line_m :: ?ms) s] => destruct (line_lift c false ms s f Hs) as (s1 & Hs1 & ->) end.
      destruct (gpara_first false lines T s1 _ (10 :: b) Hok HT Hs1) as (s2 & Hs2 & E2). exists s2. split; [apply G; exact Hs2|]. rewrite <- E2, Ewt.
      rewrite (mts_hit _ _ _ _ _ (truthy_ne _ L1) (wiki_line_gen (wr_bits l) (R ++ T) (10 :: b) L1 L2 L3 (L7 _) HR)).
      destruct (lat_at s1 _ Hs1) as (D & u & -> & _ & _ & _).
      rewrite (run_cons false _ _ _ G_space) by reflexivity. rewrite (run_cons false _ _ _ G_text) by reflexivity.
      replace (rev (10 :: wr_bits l) ++ b) with (rev (wr_bits l) ++ 10 :: b) by (cbn [rev]; rewrite <- app_assoc; reflexivity). reflexivity.
  Qed.
  (** ** parts *)
  Lemma ask_answer : forall n kw l, ask (verbose c) (env c) [10] n kw l = match answer (verbose c) (env c) l n kw with Some r => Some (r, called (env c) l n kw) | None => None end.
  Proof.
    intros n kw l. unfold ask, answer, called. cbv zeta. destruct (u_has (env c) n); [|reflexivity]. destruct (u_call (env c) l n kw); try reflexivity. destruct (2 <? verbose c)%Z; reflexivity.
  Qed.
  Lemma then_call_ask : forall f n kw l, then_call c f n kw l = andthen f (ask (verbose c) (env c) [10] n kw) l.
  Proof.
    intros f n kw l. unfold then_call, andthen. destruct (f l) as [[a l1]|]; [|reflexivity]. rewrite ask_answer. destruct (answer (verbose c) (env c) l1 n kw); reflexivity.
  Qed.
  Lemma macro_kw_of : forall m, macro_ok m = true -> kw_of m (kw_for (of_macro m)).
  Proof.
    intros m H. destruct (macro_parts m H) as (_ & _ & _ & _ & Ha & _). destruct (raw_dict (mc_args m) Ha) as (d & Ed). exists d. rewrite raw_macro. split; [exact Ed|].
    rewrite (kw_for_ok (of_macro m) d Ed). reflexivity.
  Qed.
  Definition qafter (d : list part2) : str := match d with [] => [] | _ => [10; 10] ++ wr_parts d end.
  Lemma wr_parts_cons : forall p d, wr_parts (p :: d) = wr_part p ++ qafter d.
  Proof. intros p [|p2 d]; [cbn [wr_parts qafter]; rewrite app_nil_r; reflexivity|reflexivity]. Qed.
  Lemma part_first : forall blog p T s f b, part_ok blog p T = true -> tail2 T = true -> lat s f -> bol b = true ->
    exists s', gst s' (andthen f (say_part blog p)) /\ run blog (mts (scan (block_re blog) 0 b (wr_part p ++ T))) s = run blog (rest_ms blog (rev (wr_part p) ++ b) T) s'.
  Proof.
    intros blog [b0|m|lines] T s f b H HT Hs Hb; cbn [part_ok wr_part] in *.
    - destruct (first_lift c blog _ _ (block_first c no_toc blog b0 H) T s f b HT Hs Hb) as (s' & H1 & H2). exists s'. split; [|exact H2]. apply lst_gst. exact H1.
    - destruct (macro_first c blog m _ H (macro_kw_of m H) T s f b HT Hs Hb) as (s' & H1 & H2). exists s'. split; [|exact H2].
      apply (gst_ext _ (then_call c f (mc_name m) (kw_for (of_macro m)))); [|apply lst_gst; exact H1]. intro l. apply then_call_ask.
    - exact (gpara_first blog lines T s f b H HT Hs).
  Qed.
  Lemma part_head : forall blog p T, part_ok blog p T = true -> tail2 T = true -> truthy (wr_part p) = true /\ head_is is_space (wr_part p) = false.
  Proof.
    intros blog [b|m|lines] T H HT; cbn [part_ok wr_part] in *; [exact (block_head blog b H)|split; reflexivity|].
    destruct (bpara_head lines T H HT) as (l & R & Ew & HR & Hl). destruct (bline_facts l _ Hl HR) as (L1 & L2 & (L3 & _) & _). rewrite Ew. rewrite line_head by exact L1. split; [|exact L3]. destruct (wr_bits l); [discriminate|reflexivity].
  Qed.
  Lemma qafter_tail2 : forall blog fst d, parts_ok_from blog fst d = true -> tail2 (qafter d) = true.
  Proof.
    intros blog fst d. revert fst. induction d as [|p d IH]; intros fst H; [reflexivity|]. cbn [parts_ok_from] in H. apply andb_true_iff in H as [H H3]. apply andb_true_iff in H as [H1 H2].
    assert (HT : tail2 (qafter d) = true) by (eapply IH; exact H3).
    destruct (part_head blog p (qafter d) H1 HT) as (A1 & A2). cbn [qafter tail2 app]. rewrite wr_parts_cons. destruct (head_app is_space (wr_part p) (qafter d) A1) as (-> & ->). rewrite A2. reflexivity.
  Qed.
  Lemma part_next : forall blog p T s f b, part_ok blog p T = true -> part_after_blank blog p = true -> tail2 T = true -> gst s f -> bol b = true ->
    exists s', gst s' (andthen f (andthen (done [10]) (say_part blog p))) /\ run blog (mts (scan (block_re blog) 0 b (10 :: wr_part p ++ T))) s = run blog (rest_ms blog (rev (10 :: wr_part p) ++ b) T) s'.
  Proof.
    intros blog p T s0 f b H HA HT Hg Hb. destruct (gst_gap s0 f Hg) as (s & Hs & Es). destruct (part_head blog p T H HT) as (P1 & P2). destruct (head_app is_space (wr_part p) T P1) as (Q1 & Q2).
    rewrite (Es blog (wr_part p ++ T) b) by (congruence || exact Hb). clear s0 Hg Es.
    destruct p as [b0|m|lines]; cbn [part_ok part_after_blank wr_part] in *.
    - destruct (next_lift c blog _ _ (block_next c no_toc blog b0 H HA) T s f b HT Hs Hb) as (s' & H1 & H2). exists s'. split; [|exact H2].
      eapply gst_ext; [|apply lst_gst; exact H1]. intro l. unfold then_text, andthen, done. cbn [Spec22.say_part]. unfold done. destruct (f l) as [[a l1]|]; reflexivity.
    - subst blog. destruct (macro_next c m _ H (macro_kw_of m H) T s f b HT Hs Hb) as (s' & H1 & H2). exists s'. split; [|exact H2].
      eapply gst_ext; [|apply lst_gst; exact H1]. intro l. rewrite then_call_ask. rewrite <- andthen_assoc. apply andthen_ext; [|reflexivity]. intro y. reflexivity.
    - exact (gpara_next blog lines T s f b H HT Hs Hb).
  Qed.
  (** what comes after the first part *)
  Definition more (blog : bool) (d : list part2) : say := match d with [] => done [] | _ => andthen (done [10]) (say_parts blog d) end.
  Lemma say_parts_cons : forall blog p d l, say_parts blog (p :: d) l = andthen (say_part blog p) (more blog d) l.
  Proof. intros blog p [|p2 d] l; [symmetry; apply andthen_nil_r|reflexivity]. Qed.
  Lemma parts_run : forall blog d, parts_ok_from blog false d = true -> forall b s f, gst s f ->
    exists s', gst s' (andthen f (more blog d)) /\ run blog (rest_ms blog b (qafter d)) s = s'.
  Proof.
    intros blog d. induction d as [|p d IH]; intros Hok b0 s f Hs.
    - exists s. split; [|reflexivity]. apply (gst_ext s f); [|exact Hs]. intro l. symmetry. apply andthen_nil_r.
    - pose proof Hok as Hok'. cbn [parts_ok_from] in Hok. apply andb_true_iff in Hok as [H H3]. apply andb_true_iff in H as [H1 H2]. cbn [orb] in H2.
      pose proof (qafter_tail2 blog false d H3) as HT.
      destruct (part_next blog p (qafter d) s f (10 :: b0) H1 H2 HT Hs eq_refl) as (s1 & Hs1 & E1).
      destruct (IH H3 (rev (10 :: wr_part p) ++ 10 :: b0) s1 _ Hs1) as (s2 & Hs2 & E2). exists s2. split.
      + revert Hs2. apply gst_ext. intro l. cbn [more]. rewrite !andthen_assoc. apply andthen_ext; [reflexivity|]. intro x. rewrite andthen_assoc. apply andthen_ext; [reflexivity|]. intro y. symmetry. apply say_parts_cons.
      + rewrite <- E2, <- E1. unfold qafter at 1. cbn [rest_ms app]. rewrite wr_parts_cons. reflexivity.
  Qed.
  Lemma parts_run_first : forall blog p d, parts_ok blog (p :: d) = true -> gst (parse_block blog (wr_parts (p :: d)) init_ps) (say_parts blog (p :: d)).
  Proof.
    intros blog p d H. unfold parts_ok in H. cbn [parts_ok_from] in H. apply andb_true_iff in H as [H H3]. apply andb_true_iff in H as [H1 _].
    pose proof (qafter_tail2 blog false d H3) as HT.
    assert (Hi : lat init_ps (done [])).
    { exists [], [], init_ps, []. split; [reflexivity|]. split; [exact I|]. split; [exists []; split; [reflexivity|]; split; [exact I|apply showns_nil]|]. split; [constructor|].
      intros t0 l0 a l1 E. injection E as <- <-. exists []. split; reflexivity. }
    destruct (part_first blog p (qafter d) init_ps (done []) [] H1 HT Hi eq_refl) as (s1 & Hs1 & E1).
    destruct (parts_run blog d H3 (rev (wr_part p) ++ []) s1 _ Hs1) as (s2 & Hs2 & E2).
    assert (E : parse_block blog (wr_parts (p :: d)) init_ps = s2) by (rewrite <- E2, <- E1, wr_parts_cons; reflexivity). rewrite E. revert Hs2. apply gst_ext.
    intro l. rewrite say_parts_cons. apply andthen_ext; [|reflexivity]. intro y. apply andthen_nil.
  Qed.
End PDoc.
(** ** the calls *)
Lemma kw_means : forall r, forallb arg_ok (rq_args r) = true -> request_means r (kw_for r).
Proof.
  intros r H. destruct (lemma_C58 (rq_args r) H) as (d & Ed & Hd).
  assert (E : string2dict (raw_args (rq_args r)) = Some d) by (rewrite <- Ed; destruct (rq_args r); reflexivity).
  unfold kw_for. rewrite E. split; [rewrite dict_get_set, str_eqb_refl; destruct (rq_text r); reflexivity|].
  intros k Hk. rewrite dict_get_set. assert (str_eqb k ($ "text") = false) as -> by (apply str_eqb_neq; exact Hk). apply Hd.
Qed.
Lemma bit_args : forall x b t r, bit_ok b x t = true -> In r (bit_requests x) -> forallb arg_ok (rq_args r) = true.
Proof.
  intros [i|g|m] b t r H I; cbn [bit_requests] in I; [destruct I| |]; destruct I as [<-|[]]; cbn [bit_ok] in H; apply andb_true_iff in H as [H _].
  - destruct (tag_parts g H) as (_ & _ & _ & _ & X & _). exact X.
  - destruct (macro_parts m H) as (_ & _ & _ & _ & X & _). exact X.
Qed.
Lemma bits_args : forall l b r, bits_ok b l = true -> In r (flat_map bit_requests l) -> forallb arg_ok (rq_args r) = true.
Proof.
  induction l as [|x l IH]; intros b r H I; [destruct I|]. cbn [bits_ok flat_map] in *. apply andb_true_iff in H as [H1 H2]. apply in_app_or in I as [I|I]; [eapply bit_args; eassumption|eapply IH; eassumption].
Qed.
Lemma blines_args : forall lines T r, blines_ok lines T = true -> In r (flat_map (flat_map bit_requests) lines) -> forallb arg_ok (rq_args r) = true.
Proof.
  assert (G : forall l t r, bline_ok l t = true -> In r (flat_map bit_requests l) -> forallb arg_ok (rq_args r) = true).
  { intros l t r H. unfold bline_ok in H. apply andb_true_iff in H as [_ H]. intro I. eapply bits_args; eassumption. }
  induction lines as [|l lines IH]; intros T r H I; [destruct I|]. cbn [flat_map] in I. cbn [blines_ok] in H. destruct lines as [|l2 lines]; apply andb_true_iff in H as [H1 H2]; apply in_app_or in I as [I|I].
  - eapply G; eassumption.
  - destruct I.
  - eapply G; eassumption.
  - eapply IH; eassumption.
Qed.
Lemma parts_args : forall blog fst d r, parts_ok_from blog fst d = true -> In r (requests d) -> forallb arg_ok (rq_args r) = true.
Proof.
  intros blog fst d. revert fst. induction d as [|p d IH]; intros fst r H I; [destruct I|]. cbn [parts_ok_from] in H. apply andb_true_iff in H as [H H3]. apply andb_true_iff in H as [H1 _].
  unfold requests in I. cbn [flat_map] in I. apply in_app_or in I as [I|I]; [|eapply IH; eassumption]. destruct p as [b|m|lines]; cbn [part_requests part_ok] in *.
  - destruct I.
  - destruct I as [<-|[]]. destruct (macro_parts m H1) as (_ & _ & _ & _ & X & _). exact X.
  - eapply blines_args; eassumption.
Qed.
(** ** no carriage return *)
Lemma lines_no_cr : forall lines T, blines_ok lines T = true -> ~ In 13 (lines_text (map wr_bits lines)).
Proof.
  assert (G : forall l t, bline_ok l t = true -> ~ In 13 (wr_bits l)).
  { intros l t H. unfold bline_ok in H. rewrite !andb_true_iff in H. destruct H as [[[_ H] _] _]. apply no_cr. exact H. }
  induction lines as [|l lines IH]; intros T H; [discriminate|]. cbn [blines_ok] in H. destruct lines as [|l2 lines]; apply andb_true_iff in H as [H1 H2].
  - exact (G l T H1).
  - cbn [map lines_text]. intro X. apply in_app_or in X as [X|X]; [exact (G _ _ H1 X)|]. destruct X as [X|X]; [discriminate|]. exact (IH T H2 X).
Qed.
Lemma parts_no_cr : forall blog fst d, parts_ok_from blog fst d = true -> ~ In 13 (wr_parts d).
Proof.
  intros blog fst d. revert fst. induction d as [|p d IH]; intros fst H; [intros []|]. cbn [parts_ok_from] in H. apply andb_true_iff in H as [H H3]. apply andb_true_iff in H as [H1 _].
  rewrite wr_parts_cons. intro X. apply in_app_or in X as [X|X].
  - destruct p as [b|m|lines]; cbn [part_ok wr_part] in *; [exact (piece_no_cr blog (PBlock b) H1 X)|exact (piece_no_cr blog (PMacro m) H1 X)|exact (lines_no_cr _ _ H1 X)].
  - destruct d as [|p2 d]; [destruct X|]. unfold qafter in X. apply in_app_or in X as [[X|[X|[]]]|X]; [discriminate|discriminate|exact (IH _ H3 X)].
Qed.
Lemma parts_for : forall blog d, parts_ok blog d = true -> forall verbose strict md html calls,
    say_parts blog strict (match verbose with None => 1%Z | Some v => v end) (md_env md) kw_for d (md_log md) = Some (html, calls) ->
    creole2html (mkopts blog verbose strict) md (wr_parts d) = (Ok (strip html), mkmd (md_env md) (md_toc md) calls).
Proof.
  intros blog d H.
  intros v s md html calls E. destruct d as [|p d].
  - cbn in E. injection E as <- <-. destruct md as [e t l]. destruct blog, v, t; reflexivity.
  - unfold creole2html. cbn [o_blog o_verbose o_strict]. unfold parse. rewrite norm_id by (eapply parts_no_cr; exact H).
    set (c := mkcfg (match v with None => 1%Z | Some v => v end) s (md_env md) false).
    destruct (parts_run_first c eq_refl blog p d H) as (s' & Hs & _ & Hf). rewrite Hf.
    destruct (lst_emit c _ _ Hs) as (root & u & -> & Eu & Em). unfold init_toc. rewrite Eu. fold c. unfold emit.
    rewrite (Em (md_toc md) (md_log md) html calls E). change (use_toc c) with false. cbv iota beta. reflexivity.
Qed.
Theorem parts_spec : forall blog d, parts_ok blog d = true -> exists kw, (forall r, In r (requests d) -> request_means r (kw r)) /\
  forall verbose strict md html calls,
    say_parts blog strict (match verbose with None => 1%Z | Some v => v end) (md_env md) kw d (md_log md) = Some (html, calls) ->
    creole2html (mkopts blog verbose strict) md (wr_parts d) = (Ok (strip html), mkmd (md_env md) (md_toc md) calls).
Proof. intros blog d H. exists kw_for. split; [intros r Hr; apply kw_means; eapply parts_args; eassumption|exact (parts_for blog d H)]. Qed.
