(** * Canonical creole documents with code blocks: to html and back *)
From Coq Require Import String List Arith NArith ZArith Bool Lia.
From Verif Require Import PyStr PyStrFacts GNames Regex Rules RegexFacts RegexRun Utils DocTree CreoleParser ParserFacts
  Res HtmlEmitter EmitterFacts HtmlToolsFacts Spec4 Spec5 InlineRun InlineParse BlockRun BlockHits TableHits BlockParse DocParse.
From Verif Require Import HtmlTok HtmlBase Html2X Spec2 Spec10 Spec11 Spec12 Spec26 Spec27 PreDoc.
From Verif Require RoundTrip TocHtml CleanRun CleanEmit.
Import ListNotations.
Open Scope N_scope.

(** ** to html *)
Section Tight.
  Variable c : cfg.
  Hypothesis no_toc : use_toc c = false.
  Local Notation hr := (html_raw true (strict c)).
  Lemma code_any : forall lines T s out b, block_ok true (BCode lines) = true -> (T = [] \/ exists X, T = 10 :: X) -> atdoc c s out -> bol b = true ->
    exists s', atdoc c s' (out ++ hr (BCode lines)) /\
      run true (mts (scan (block_re true) 0 b (wr_block (BCode lines) ++ T))) s = run true (rest_ms true (rev (wr_block (BCode lines)) ++ b) T) s'.
  Proof.
    intros lines T s out b Hok HT (dch & -> & Hd & Sh) Hb.
    remember (wr_block (BCode lines)) as w eqn:Ew.
    assert (Hw : exists w', w = $ "{{{" ++ 10 :: w').
    { rewrite Ew. cbn [wr_block]. rewrite lines_body. eexists. reflexivity. }
    assert (Hm : m (block_re true) (mk b (w ++ T) []) fin = Some (mk (rev w ++ b) T (code_caps w (lines_text ([] :: lines ++ [[]]))))).
    { rewrite block_alts. pose proof (preb_hit true lines T b Hok Hb) as P. cbv zeta in P. rewrite <- Ew in P. destruct Hw as (w' & Hw). rewrite P.
      rewrite Hw. cbn [app]. unfold r_macro_block. rewrite macro_no by reflexivity. rewrite line_no by (right; reflexivity). rewrite head_no by (right; reflexivity).
      rewrite sep_no by (right; apply sp_no_here; reflexivity). reflexivity. }
    assert (Hwn : w <> []) by (destruct Hw as (w' & ->); discriminate).
    rewrite (mts_hit _ _ _ _ _ Hwn Hm).
    assert (Hbl : bol (rev w ++ b) = false).
    { rewrite Ew. cbn [wr_block]. destruct (lines_text_suffix ($ "{{{" :: lines) ($ "}}}")) as (v & E). match goal with |- bol (rev ?x ++ _) = _ => replace x with (v ++ $ "}}}") by (symmetry; exact E) end. rewrite rev_app_distr. reflexivity. }
    assert (RS : mts (scan (block_re true) 0 (rev w ++ b) T) = rest_ms true (rev w ++ b) T).
    { destruct HT as [->|(X & ->)]; cbn [rest_ms]; [rewrite scan_end, at_pos_miss; [reflexivity|apply end_no; exact Hbl]|]. rewrite scan_miss; [reflexivity|]. apply newline_no; [exact Hbl|left; reflexivity]. }
    rewrite RS.
    rewrite (run_cons true _ _ _ G_pre_block) by reflexivity. eexists. split; [|reflexivity].
    cbn [block_handler]. unfold pre_block_repl. rewrite (atdoc_upto dch) by exact Hd.
    rewrite (need_some G_pre_block_text _ _ _ (lines_text ([] :: lines ++ [[]]))) by reflexivity.
    cbn [block_ok] in Hok. apply andb_true_iff in Hok as [Hok _]. rewrite resub_code by exact Hok.
    eexists. split; [reflexivity|]. split; [discriminate|]. unfold html_raw. cbn [rev html_block]. apply showns_snoc; [exact Sh|]. apply shown_code.
  Qed.
  Definition is_code (b : block) : bool := match b with BCode _ => true | _ => false end.
  Definition tgap (b : block) : str := if is_code b then [10] else [10; 10].
  Lemma wr_tight_cons : forall b b2 d, wr_tight (b :: b2 :: d) = wr_block b ++ tgap b ++ wr_tight (b2 :: d).
  Proof. intros [] b2 d; reflexivity. Qed.
  Fixpoint traw (d : list block) : str := match d with [] => [] | [b] => hr b | b :: r => hr b ++ (if is_code b then [] else [10]) ++ traw r end.
  Lemma traw_cons : forall b b2 d, traw (b :: b2 :: d) = hr b ++ (if is_code b then [] else [10]) ++ traw (b2 :: d). Proof. reflexivity. Qed.
  Lemma wr_tight_head : forall d, d <> [] -> forallb (block_ok true) d = true -> truthy (wr_tight d) = true /\ head_is is_space (wr_tight d) = false.
  Proof.
    intros [|b d] Hn H; [congruence|]. cbn [forallb] in H. apply andb_true_iff in H as [H _]. destruct (block_head true b H) as (A & B). destruct d as [|b2 d]; [split; assumption|]. rewrite wr_tight_cons.
    destruct (head_app is_space (wr_block b) (tgap b ++ wr_tight (b2 :: d)) A) as (-> & ->). auto.
  Qed.
  Lemma tight_run : forall d, forallb (block_ok true) d = true -> d <> [] ->
    (forall b s out, bol b = true -> atdoc c s out -> exists s', docst c s' (out ++ traw d) /\ run true (mts (scan (block_re true) 0 b (wr_tight d))) s = s') /\
    (forall b s out, bol b = true -> docst c s out -> exists s', docst c s' (out ++ [10] ++ traw d) /\ run true (mts (scan (block_re true) 0 b (10 :: wr_tight d))) s = s').
  Proof.
    induction d as [|x d IH]; intros Hok Hn; [congruence|]. pose proof Hok as Hok'. cbn [forallb] in Hok. apply andb_true_iff in Hok as [H1 H2]. specialize (IH H2).
    assert (A : is_code x = true -> forall b s out, bol b = true -> atdoc c s out -> exists s', docst c s' (out ++ traw (x :: d)) /\ run true (mts (scan (block_re true) 0 b (wr_tight (x :: d)))) s = s').
    { intros IC b s out Hb Hs. destruct x as [| | |lines| |]; try discriminate IC. destruct d as [|b2 d].
      - cbn [wr_tight traw]. destruct (code_any lines [] s out b H1 (or_introl eq_refl) Hs Hb) as (s1 & Hs1 & E1). exists s1. rewrite app_nil_r in E1. split; [apply atdoc_docst; exact Hs1|exact E1].
      - rewrite wr_tight_cons, traw_cons. cbn [tgap is_code]. destruct (code_any lines ([10] ++ wr_tight (b2 :: d)) s out b H1 (or_intror (ex_intro _ _ eq_refl)) Hs Hb) as (s1 & Hs1 & E1).
        destruct (IH ltac:(discriminate)) as [IH1 _]. destruct (IH1 (10 :: rev (wr_block (BCode lines)) ++ b) s1 _ eq_refl Hs1) as (s2 & Hs2 & E2). exists s2. split; [rewrite <- app_assoc in Hs2; exact Hs2|]. unfold tgap. cbn [is_code]. rewrite E1. exact E2. }
    destruct (is_code x) eqn:IC.
    - split; [exact (A eq_refl)|]. intros b s out Hb Hs. destruct (wr_tight_head (x :: d) ltac:(discriminate) Hok') as (T1 & T2).
      assert (Hw : exists w', wr_tight (x :: d) = $ "{{{" ++ 10 :: w').
      { destruct x as [| | |lines| |]; try discriminate IC. assert (K : exists w', wr_block (BCode lines) = $ "{{{" ++ 10 :: w') by (cbn [wr_block]; rewrite lines_body; eexists; reflexivity).
        destruct K as (w' & K). destruct d as [|b2 d]; [exists w'; exact K|]. rewrite wr_tight_cons, K. eexists. cbn [app]. reflexivity. }
      rewrite gap_lazy; try assumption; try (destruct Hw as (w' & ->); reflexivity).
      cbn [mts flat_map app]. destruct (run_line c true (mts (scan (block_re true) 0 (10 :: b) (wr_tight (x :: d)))) s out Hs) as (s1 & Hs1 & E1).
      destruct (A eq_refl (10 :: b) s1 _ eq_refl Hs1) as (s2 & Hs2 & E2). exists s2. split; [rewrite <- app_assoc in Hs2; exact Hs2|]. rewrite <- E2. exact E1.
    - clear A. destruct d as [|b2 d].
      + cbn [wr_tight traw]. split; intros b s out Hb Hs.
        * destruct (block_first c no_toc true x H1 [] s out b eq_refl Hs Hb) as (s1 & Hs1 & E1). exists s1. rewrite app_nil_r in E1. split; [exact Hs1|exact E1].
        * destruct (block_next c no_toc true x H1 eq_refl [] s out b eq_refl Hs Hb) as (s1 & Hs1 & E1). exists s1. rewrite app_nil_r in E1. split; [exact Hs1|exact E1].
      + destruct (wr_tight_head (b2 :: d) ltac:(discriminate) H2) as (T1 & T2). destruct (IH ltac:(discriminate)) as [_ IH2]. rewrite wr_tight_cons, traw_cons. unfold tgap. rewrite IC.
        assert (HT : tail2 ([10; 10] ++ wr_tight (b2 :: d)) = true) by (cbn [tail2 app]; rewrite T1, T2; reflexivity).
        split; intros b s out Hb Hs.
        * destruct (block_first c no_toc true x H1 _ s out b HT Hs Hb) as (s1 & Hs1 & E1). destruct (IH2 (10 :: rev (wr_block x) ++ b) s1 _ eq_refl Hs1) as (s2 & Hs2 & E2). exists s2. split; [rewrite <- app_assoc in Hs2; exact Hs2|]. rewrite E1. exact E2.
        * destruct (block_next c no_toc true x H1 eq_refl _ s out b HT Hs Hb) as (s1 & Hs1 & E1). destruct (IH2 (10 :: rev (10 :: wr_block x) ++ b) s1 _ eq_refl Hs1) as (s2 & Hs2 & E2). exists s2. split; [rewrite <- !app_assoc in Hs2; exact Hs2|].
          etransitivity; [exact E1|]. exact E2.
  Qed.
End Tight.
Definition hgap (b : block) : str := match b with BCode _ | BList _ _ => [10] | _ => [10; 10] end.
Lemma html_tight_cons : forall s b b2 d, html_tight s (b :: b2 :: d) = html_block true s b ++ hgap b ++ html_tight s (b2 :: d). Proof. intros s [] b2 d; reflexivity. Qed.
Lemma html_tight_solid : forall s d, d <> [] -> solid_text (html_tight s d).
Proof.
  intros s. induction d as [|b d IH]; intro H; [congruence|]. destruct (html_block_solid true s b) as (A & B & C). destruct d as [|b2 d]; [exact (conj A (conj B C))|].
  destruct (IH ltac:(discriminate)) as (D & E & F). rewrite html_tight_cons. destruct (head_app is_space (html_block true s b) (hgap b ++ html_tight s (b2 :: d)) C) as (G1 & G2).
  split; [rewrite G1; exact A|]. split; [|exact G2]. rewrite app_assoc. rewrite last_is_suffix; [exact E|]. destruct (html_tight s (b2 :: d)); discriminate.
Qed.
Lemma traw_html : forall c d, d <> [] -> traw c d = html_tight (strict c) d ++ last_nl d.
Proof.
  intro c. induction d as [|b d IH]; intro Hn; [congruence|]. destruct d as [|b2 d].
  - cbn [traw html_tight]. unfold html_raw, last_nl. cbn [rev app]. destruct b; reflexivity.
  - rewrite traw_cons, html_tight_cons, IH by discriminate.
    assert (last_nl (b :: b2 :: d) = last_nl (b2 :: d)) as -> by (unfold last_nl; cbn [rev]; destruct (rev d); reflexivity).
    unfold html_raw. rewrite <- !app_assoc. f_equal. destruct b; reflexivity.
Qed.
Lemma tight_no_cr : forall d, forallb (block_ok true) d = true -> ~ In 13 (wr_tight d).
Proof.
  induction d as [|b d IH]; intro H; [intros []|]. cbn [forallb] in H. apply andb_true_iff in H as [H1 H2]. pose proof (block_no_cr true b H1) as B. destruct d as [|b2 d]; [exact B|]. rewrite wr_tight_cons.
  intro I. apply in_app_or in I as [I|I]; [exact (B I)|]. apply in_app_or in I as [I|I]; [destruct b; cbn in I; intuition discriminate|]. exact (IH H2 I).
Qed.
Theorem tight_spec : forall v s md d, forallb (block_ok true) d = true -> creole2html (mkopts true v s) md (wr_tight d) = (Ok (html_tight s d), md).
Proof.
  intros v s md d H. destruct d as [|b d].
  - destruct md as [e t l]. destruct v, t; reflexivity.
  - unfold creole2html. cbn [o_blog o_verbose o_strict]. unfold parse. rewrite norm_id by (apply tight_no_cr; exact H).
    set (c := mkcfg (match v with None => 1%Z | Some v => v end) s (md_env md) false).
    assert (Hi : atdoc c init_ps []) by (exists []; split; [reflexivity|]; split; [exact I|apply showns_nil]).
    destruct (tight_run c eq_refl (b :: d) H ltac:(discriminate)) as [R _]. destruct (R [] init_ps [] eq_refl Hi) as (s' & Hs & E).
    change (parse_block true (wr_tight (b :: d)) init_ps) with (run true (mts (scan (block_re true) 0 [] (wr_tight (b :: d)))) init_ps). rewrite E.
    destruct (docst_emit c s' _ (mkest (md_toc md) (md_log md)) Hs) as (root & -> & Er). cbn [init_toc existsb]. fold c. unfold emit. rewrite Er.
    change (use_toc c) with false. cbv iota beta. cbn [toc log app]. rewrite traw_html by discriminate. rewrite strip_solid.
    + destruct md. reflexivity.
    + apply html_tight_solid. discriminate.
    + unfold last_nl. destruct (rev (b :: d)) as [|[] r]; auto.
Qed.

(** ** and back *)
Lemma ents_src : forall t, pre_src (code_ents t) = escape t.
Proof.
  intro t. rewrite escape_esc. unfold pre_src, code_ents, esc. induction t as [|c t IH]; [reflexivity|]. cbn [map flat_map]. rewrite IH. f_equal. unfold esc_char. destruct (c =? 38), (c =? 60), (c =? 62); reflexivity.
Qed.
Lemma ents_meant : forall t, meant_all (code_ents t) = Ok t.
Proof.
  induction t as [|c t IH]; [reflexivity|]. unfold code_ents in *. cbn [map meant_all]. rewrite IH.
  destruct (N.eqb_spec c 38) as [->|]; [reflexivity|]. destruct (N.eqb_spec c 60) as [->|]; [reflexivity|]. destruct (N.eqb_spec c 62) as [->|]; reflexivity.
Qed.
Lemma ents_text : forall t, pre_text (code_ents t) = t.
Proof. intro t. unfold pre_text. rewrite ents_meant. reflexivity. Qed.
Lemma esc_no10 : forall l, no_char [10; 13] l = true -> forallb (fun c => negb (c =? 10)) (escape l) = true.
Proof.
  intros l H. rewrite escape_esc. unfold esc. unfold no_char in H. induction l as [|c l IH]; [reflexivity|]. cbn [forallb flat_map] in *. apply andb_true_iff in H as [H1 H2]. rewrite forallb_app, (IH H2), andb_true_r.
  unfold esc_char. destruct (c =? 38); [reflexivity|]. destruct (c =? 60); [reflexivity|]. destruct (c =? 62); [reflexivity|]. cbn [forallb]. rewrite andb_true_r. apply negb_true_iff in H1. cbn [existsb] in H1. apply orb_false_iff in H1 as [H1 _].
  apply negb_true_iff. first [exact H1|rewrite N.eqb_sym; exact H1].
Qed.
Lemma esc_blank : forall l, forallb is_space (escape l) = true -> forallb is_space l = true.
Proof.
  intros l H. rewrite escape_esc in H. unfold esc in H. induction l as [|c l IH]; [reflexivity|]. cbn [forallb flat_map] in *. rewrite forallb_app in H. apply andb_true_iff in H as [H1 H2]. rewrite (IH H2), andb_true_r.
  unfold esc_char in H1. destruct (c =? 38); [discriminate H1|]. destruct (c =? 60); [discriminate H1|]. destruct (c =? 62); [discriminate H1|]. cbn [forallb] in H1. rewrite andb_true_r in H1. exact H1.
Qed.
Lemma take_while_all : forall (p : N -> bool) a b, forallb p a = true -> take_while p (a ++ b) = a ++ take_while p b.
Proof. intros p a b. induction a as [|x a IH]; intro H; [reflexivity|]. cbn [forallb] in H. apply andb_true_iff in H as [H1 H2]. cbn [app take_while]. rewrite H1, (IH H2). reflexivity. Qed.
Lemma code_fine : forall lines, block_ok true (BCode lines) = true -> pre_ok (code_ents (lines_text lines)).
Proof.
  intros lines H. cbn [block_ok] in H. apply andb_true_iff in H as [H1 H2]. destruct lines as [|l lines]; [discriminate H2|]. apply negb_true_iff in H2. cbn [forallb] in H1. apply andb_true_iff in H1 as [H1 _]. apply andb_true_iff in H1 as [H1 _]. apply andb_true_iff in H1 as [H1 _].
  split; [|split; [|split]].
  - unfold code_ents. apply Forall_forall. intros e He. apply in_map_iff in He as (c & <- & _). destruct (N.eqb_spec c 38); [split; [discriminate|reflexivity]|]. destruct (N.eqb_spec c 60); [split; [discriminate|reflexivity]|].
    destruct (N.eqb_spec c 62); [split; [discriminate|reflexivity]|]. intros [X|[]]. congruence.
  - eexists. apply ents_meant.
  - rewrite ents_src. apply TocHtml.escape_lt.
  - rewrite ents_src. assert (E : exists X, lines_text (l :: lines) = l ++ X) by (destruct lines; [exists []; symmetry; apply app_nil_r|eexists; reflexivity]). destruct E as (X & E). rewrite E, escape_app. unfold first_line.
    rewrite take_while_all by (apply esc_no10; exact H1). rewrite forallb_app. apply andb_false_iff. left. destruct (forallb is_space (escape l)) eqn:B; [|exact B]. apply esc_blank in B. congruence.
Qed.
Lemma code_html : forall blog s lines, block_ok true (BCode lines) = true -> html_block blog s (BCode lines) = pre_html [] (code_ents (lines_text lines)).
Proof.
  intros blog s lines H. cbn [html_block]. unfold elem, pre_html. rewrite ents_src. destruct lines as [|l lines]; [discriminate H|].
  assert (E : lines_text ([] :: (l :: lines) ++ [[]]) = [10] ++ lines_text (l :: lines) ++ [10]).
  { clear. change (lines_text ([] :: (l :: lines) ++ [[]])) with ([10] ++ lines_text ((l :: lines) ++ [[]])). f_equal. revert l. induction lines as [|x lines IH]; intro l; [cbn; reflexivity|].
    change (lines_text ((l :: x :: lines) ++ [[]])) with (l ++ [10] ++ lines_text ((x :: lines) ++ [[]])). rewrite IH. change (lines_text (l :: x :: lines)) with (l ++ [10] ++ lines_text (x :: lines)). rewrite <- !app_assoc. reflexivity. }
  rewrite E, !escape_app. rewrite <- !app_assoc. reflexivity.
Qed.
Lemma code_creole : forall lines, block_ok true (BCode lines) = true -> cre_pre (lines_text lines) = wr_block (BCode lines).
Proof.
  intros lines H. unfold cre_pre. cbn [wr_block]. destruct lines as [|l lines]; [discriminate H|]. change (lines_text ($ "{{{" :: (l :: lines) ++ [$ "}}}"])) with ($ "{{{" ++ [10] ++ lines_text ((l :: lines) ++ [$ "}}}"])). f_equal. f_equal.
  clear. revert l. induction lines as [|x lines IH]; intro l; [reflexivity|]. change (lines_text ((l :: x :: lines) ++ [$ "}}}"])) with (l ++ [10] ++ lines_text ((x :: lines) ++ [$ "}}}"])). rewrite <- IH.
  change (lines_text (l :: x :: lines)) with (l ++ [10] ++ lines_text (x :: lines)). rewrite <- !app_assoc. reflexivity.
Qed.
Section Back.
Variable (s : bool) (g : block -> str).
Hypothesis GS : forall b, blank (g b) /\ exists w, g b = w ++ [10].
Fixpoint html_with (d : list block) : str := match d with [] => [] | [b] => html_block true s b | b :: r => html_block true s b ++ g b ++ html_with r end.
Lemma block_part : forall b, block_ok true b = true -> match b with BCode _ => true | _ => neat_block true b end = true ->
  match to_part b with HBlock x => xblock_ok x = true | HPre l => pre_ok l end /\ h_text cre_block cre_pre (to_part b) = wr_block b /\
  match to_part b with HBlock x => fits (tm_block x) (html_block true s b) | HPre l => exists w1, blank w1 /\ html_block true s b = pre_html w1 l end.
Proof.
  intros b O N. destruct b as [| | |lines| |].
  4: { split; [exact (code_fine lines O)|]. split; [cbn [to_part h_text]; rewrite ents_text; exact (code_creole lines O)|]. exists []. split; [reflexivity|exact (code_html true s lines O)]. }
  all: exact (RoundTrip.block_fine true s _ O N).
Qed.
Lemma gap_tight : forall b c, match b with BCode _ => true | _ => neat_block true b end = true -> match c with BCode _ => true | _ => neat_block true c end = true -> may_follow b c = true -> h_gap (to_part b) (to_part c) = tgap b.
Proof. intros [] [] H1 H2 H3; try discriminate H1; try discriminate H2; try discriminate H3; reflexivity. Qed.
Lemma back_fits : forall d, coded d = true -> parts_ok xblock_ok (map to_part d) /\ cre_parts (map to_part d) = wr_tight d /\ pfits (map to_part d) (html_with d).
Proof.
  unfold coded. induction d as [|b d IH]; intro C; [repeat split; constructor|]. cbn [forallb neat_coded] in C. apply andb_true_iff in C as [C1 C2]. apply andb_true_iff in C1 as [O1 O2]. apply andb_true_iff in C2 as [C2 N3]. apply andb_true_iff in C2 as [N1 N2].
  destruct IH as (I1 & I2 & I3); [rewrite O2; exact N3|]. destruct (block_part b O1 N1) as (B1 & B2 & B3). split; [constructor; [exact B1|exact I1]|]. destruct (GS b) as (G1 & G2).
  destruct d as [|c d].
  - cbn [map]. split; [unfold cre_parts; cbn [h_doc app]; rewrite B2, !app_nil_r; reflexivity|]. cbn [html_with]. exists (html_block true s b), [], []. split; [rewrite app_nil_r; reflexivity|]. split; [exact B3|]. split; [reflexivity|]. split; [reflexivity|]. split; [discriminate|]. split; [congruence|reflexivity].
  - split.
    + change (cre_parts (map to_part (b :: c :: d))) with (h_text cre_block cre_pre (to_part b) ++ h_gap (to_part b) (to_part c) ++ cre_parts (map to_part (c :: d))). rewrite B2, I2, wr_tight_cons, gap_tight; [reflexivity|exact N1| |exact N2].
      cbn [neat_coded] in N3. apply andb_true_iff in N3 as [N3 _]. apply andb_true_iff in N3 as [N3 _]. exact N3.
    + change (html_with (b :: c :: d)) with (html_block true s b ++ g b ++ html_with (c :: d)). exists (html_block true s b), (g b), (html_with (c :: d)). split; [reflexivity|]. split; [exact B3|]. split; [exact G1|]. split; [discriminate|].
      split; [intros _; exact G2|]. split; [intros _ _; destruct G2 as (w & ->); apply in_or_app; right; left; reflexivity|]. exact I3.
Qed.
Lemma back_written : forall d, coded d = true -> pwritten (map to_part d) (html_with d).
Proof. intros d C. exists [], (html_with d), []. split; [rewrite app_nil_r; reflexivity|]. split; [reflexivity|]. split; [reflexivity|]. apply back_fits. exact C. Qed.
End Back.
Lemma to_creole : forall u strict d html, coded d = true -> countable (map to_part d) -> pwritten (map to_part d) html -> html2creole u strict html = Ok (wr_tight d).
Proof.
  intros u strict d html C K W. destruct (back_fits false (fun _ => [10]) (fun _ => conj eq_refl (ex_intro _ [] eq_refl)) d C) as (P & E & _). rewrite <- E. apply parts_creole; assumption.
Qed.
Theorem code_trip : forall v s md u strict d, coded d = true -> countable (map to_part d) ->
  exists html, creole2html (mkopts true v s) md (wr_tight d) = (Ok html, md) /\ html2creole u strict html = Ok (wr_tight d).
Proof.
  intros v s md u strict d C K. exists (html_tight s d). pose proof C as C'. unfold coded in C'. apply andb_true_iff in C' as [C1 _]. split; [apply tight_spec; exact C1|]. apply to_creole; [exact C|exact K|].
  assert (E : html_tight s d = html_with s hgap d) by (clear; induction d as [|b d IH]; [reflexivity|]; destruct d as [|c d]; [reflexivity|]; rewrite html_tight_cons, IH; reflexivity).
  rewrite E. apply back_written; [|exact C]. intros []; (split; [reflexivity|]); first [exists []; reflexivity|exists [10]; reflexivity].
Qed.
Theorem code_loose : forall v s md u strict d, coded d = true -> countable (map to_part d) ->
  exists html, creole2html (mkopts true v s) md (wr_doc d) = (Ok html, md) /\ html2creole u strict html = Ok (wr_tight d).
Proof.
  intros v s md u strict d C K. exists (html_doc true s d). pose proof C as C'. unfold coded in C'. apply andb_true_iff in C' as [C1 _]. split.
  - apply document_spec. unfold doc_ok. rewrite C1. cbn [andb]. clear. destruct d as [|b d]; [reflexivity|]. cbn [tl]. induction d; [reflexivity|]. cbn [forallb]. exact IHd.
  - apply to_creole; [exact C|exact K|].
    assert (E : html_doc true s d = html_with s gap d) by (clear; induction d as [|b d IH]; [reflexivity|]; destruct d as [|c d]; [reflexivity|]; rewrite html_doc_cons, IH; reflexivity).
    rewrite E. apply back_written; [|exact C]. intros []; (split; [reflexivity|]); first [exists []; reflexivity|exists [10]; reflexivity].
Qed.
Theorem code_html_trip : forall v s md u strict d html, coded d = true -> countable (map to_part d) -> pwritten (map to_part d) html ->
  exists t, html2creole u strict html = Ok t /\ creole2html (mkopts true v s) md t = (Ok (html_tight s d), md).
Proof.
  intros v s md u strict d html C K W. exists (wr_tight d). split; [apply to_creole; assumption|]. unfold coded in C. apply andb_true_iff in C as [C1 _]. apply tight_spec. exact C1.
Qed.
