(** * Documents with a table of contents: [creole2html] *)
From Coq Require Import String List Arith NArith ZArith Bool Lia.
From Verif Require Import PyStr PyStrFacts NumFacts GNames Regex Rules RegexFacts RegexRun Utils DocTree CreoleParser ParserFacts
  Res HtmlEmitter EmitterFacts HtmlToolsFacts Spec4 Spec5 Spec7 Spec20 Spec22 Spec23 DictFacts InlineRun InlineParse BlockRun BlockHits TableHits BlockParse DocParse LiftDoc MacroHit MacroDoc TagHit BitParse PartDoc TocFacts TocHtml.
Import ListNotations.
Open Scope N_scope.
Notation run := BlockParse.run.

(** ** the tag *)
Definition toc_args (d : option N) : str := match d with None => [] | Some n => $ "depth=" ++ show_N n end.
Lemma wr_toc_eq : forall d, wr_toc d = $ "<<" ++ $ "toc" ++ spaced (toc_args d) ++ slash false ++ $ ">>".
Proof. intros [n|]; [|reflexivity]. unfold wr_toc, toc_args, slash. cbn [app spaced]. reflexivity. Qed.
Lemma digit_at : forall n c, In c (show_N n) -> 48 <= c <= 57.
Proof. exact show_N_In. Qed.
Lemma in_last : forall (p : N -> bool) l, last_is p l = true -> exists c, In c l /\ p c = true.
Proof. intros p l H. unfold last_is in H. destruct (rev l) as [|c r] eqn:E; [discriminate|]. exists c. split; [|exact H]. apply in_rev. rewrite E. left. reflexivity. Qed.
Lemma only_end_plain : forall t, ~ In 62 t -> only_end ($ ">>") t = true.
Proof.
  induction t as [|c t IH]; intro H; [reflexivity|]. cbn [only_end]. rewrite IH by (intro X; apply H; right; exact X). rewrite andb_true_r. apply negb_true_iff.
  change (startswith ($ ">>") ((c :: t) ++ $ ">>")) with ((62 =? c) && startswith [62] (t ++ $ ">>")). destruct (N.eqb_spec 62 c) as [<-|]; [exfalso; apply H; left; reflexivity|reflexivity].
Qed.
Lemma toc_args_in : forall d c, In c (toc_args d) -> In c ($ "depth=") \/ 48 <= c <= 57.
Proof. intros [n|] c H; [|destruct H]. apply in_app_or in H as [H|H]; [left; exact H|right; apply digit_at in H; exact H]. Qed.
Lemma toc_args_space : forall c, In c ($ "depth=") \/ 48 <= c <= 57 -> is_space c = false.
Proof.
  intros c [H|H].
  - change (In c [100; 101; 112; 116; 104; 61]) in H. repeat (destruct H as [<-|H]; [reflexivity|]). destruct H.
  - assert (E : c = 48 \/ c = 49 \/ c = 50 \/ c = 51 \/ c = 52 \/ c = 53 \/ c = 54 \/ c = 55 \/ c = 56 \/ c = 57) by lia. repeat destruct E as [->|E]; try reflexivity. subst c. reflexivity.
Qed.
Lemma toc_args_fine : forall d, args_fine (toc_args d) /\ last_is (N.eqb 47) (toc_args d) = false.
Proof.
  intros d. split.
  - destruct d as [n|]; [right|left; reflexivity]. split; [|split].
    + unfold trimmed. rewrite !andb_true_iff, !negb_true_iff. split; [split; [reflexivity|]|reflexivity]. destruct (last_is is_space (toc_args (Some n))) eqn:E; [|reflexivity].
      apply in_last in E as (c & H1 & H2). apply toc_args_in, toc_args_space in H1. congruence.
    + apply forallb_forall. intros c H. apply toc_args_in in H. apply negb_true_iff. cbn [existsb].
      destruct (N.eqb_spec c 10) as [->|]; [destruct H as [H|H]; [cbn in H; intuition discriminate|lia]|]. destruct (N.eqb_spec c 13) as [->|]; [destruct H as [H|H]; [cbn in H; intuition discriminate|lia]|]. reflexivity.
    + apply only_end_plain. intro H. apply toc_args_in in H as [H|H]; [cbn in H; intuition discriminate|lia].
  - destruct (last_is (N.eqb 47) (toc_args d)) eqn:E; [|reflexivity]. apply in_last in E as (c & H1 & H2). apply N.eqb_eq in H2. subst c.
    apply toc_args_in in H1 as [H|H]; [cbn in H; intuition discriminate|lia].
Qed.
Lemma toc_dict : forall d, match d with None => true | Some n => N.of_nat (List.length (show_N n)) <=? 4300 end = true ->
  exists kw, string2dict (toc_args d) = Some kw /\ dict_get ($ "self") kw = None /\ dict_get ($ "depth") kw = option_map (fun n => VInt (Z.of_N n)) d.
Proof.
  intros [n|] H.
  - destruct (lemma_C58 [mkarg ($ "depth") Bare (show_N n)]) as (kw & E & Hk).
    { cbn [forallb]. rewrite andb_true_r. unfold arg_ok. cbn [a_key a_quoting a_val]. apply andb_true_iff. split; [reflexivity|]. apply forallb_forall. intros c Hc. apply digit_at in Hc. apply negb_true_iff. cbn [existsb].
      repeat match goal with |- (?a =? ?b) || _ = false => destruct (N.eqb_spec a b); [lia|cbn [orb]] end. reflexivity. }
    exists kw. split; [exact E|]. split; [exact (Hk ($ "self"))|]. specialize (Hk ($ "depth")). cbn [arg_value a_key a_val] in Hk. change (str_eqb ($ "depth") ($ "depth")) with true in Hk. cbv iota in Hk.
    destruct Hk as (p & -> & Hp). cbn [option_map]. f_equal.
    apply N.leb_le in H. pose proof (py_int_show n H) as Ei.
    assert (Es : strip_chars [39; 34] (show_N n) = show_N n) by (rewrite <- show_Z_N; apply show_Z_strip_quotes).
    assert (Kw : keyword (show_N n) = false).
    { destruct (keyword (show_N n)) eqn:K; [|reflexivity]. exfalso. unfold keyword in K. apply existsb_exists in K as (w & Hw & K). apply str_eqb_eq in K. pose proof (digit_at n) as D. rewrite K in D.
      destruct Hw as [<-|[<-|[<-|[]]]]; [specialize (D 84 (or_introl eq_refl))|specialize (D 70 (or_introl eq_refl))|specialize (D 78 (or_introl eq_refl))]; lia. }
    inversion Hp as [E1|E1|E1|v z K1 K2 E1|v K1 K2 E1]; subst; try (rewrite <- E1 in Kw; discriminate).
    + apply NumeralFacts.number_iff in K2. rewrite Es, Ei in K2. congruence.
    + apply NumeralFacts.no_number in K2. rewrite Es, Ei in K2. discriminate.
  - exists []. repeat split.
Qed.
Definition toc_node (d : option N) : node := Nd (mkh KMacroInline None 0 ($ "toc") (toc_args d)) [].
Lemma toc_run : forall d b T, closed_in ($ "toc") T = false ->
  m inline_re (mk b (wr_toc d ++ T) []) fin = Some (mk (rev (wr_toc d) ++ b) T [(G_macro_tag, wr_toc d); (G_macro_tag_args, spaced (toc_args d)); (G_macro_tag_name, $ "toc")]).
Proof.
  intros d b T Hc. destruct (toc_args_fine d) as (F1 & F2). rewrite inline_alts. unfold r_macro_inline. rewrite wr_toc_eq.
  assert (U : m (r_macro G_macro_inline G_macro_inline_start G_macro_inline_args G_macro_inline_text) (mk b (($ "<<" ++ $ "toc" ++ spaced (toc_args d) ++ slash false ++ $ ">>") ++ T) []) fin = None).
  { replace (($ "<<" ++ $ "toc" ++ spaced (toc_args d) ++ slash false ++ $ ">>") ++ T) with ($ "<<" ++ $ "toc" ++ (spaced (toc_args d) ++ slash false) ++ $ ">>" ++ T) by (rewrite <- !app_assoc; reflexivity).
    apply unclosed_gen; try discriminate; try reflexivity; [| |exact Hc].
    - destruct (toc_args d); reflexivity.
    - apply only_end_word; [reflexivity|]. apply only_end_slash, only_end_spaced, F1. }
  rewrite U. rewrite link_no by reflexivity. rewrite url_no by (apply (url_here_mark b 60 60); [cbn; auto 20|discriminate]).
  cbn [orelse]. apply orelse_some. apply (tag_hit ($ "toc") (toc_args d) false); try assumption; try discriminate; reflexivity.
Qed.
Lemma toc_no_block : forall d b T k, closed_in ($ "toc") T = false -> m r_macro_block (mk b (wr_toc d ++ T) []) k = None.
Proof.
  intros d b T k Hc. destruct (toc_args_fine d) as (F1 & F2). unfold r_macro_block. rewrite wr_toc_eq.
  replace (($ "<<" ++ $ "toc" ++ spaced (toc_args d) ++ slash false ++ $ ">>") ++ T) with ($ "<<" ++ $ "toc" ++ (spaced (toc_args d) ++ slash false) ++ $ ">>" ++ T) by (rewrite <- !app_assoc; reflexivity).
  apply unclosed_gen; try discriminate; try reflexivity; [| |exact Hc].
  - destruct (toc_args d); reflexivity.
  - apply only_end_word; [reflexivity|]. apply only_end_slash, only_end_spaced, F1.
Qed.
Lemma toc_inline : forall d h ch up t u, parse_inline (wr_toc d) (mkps ((h, ch) :: up) t u false) = mkps ((h, toc_node d :: ch) :: up) false (u ++ [$ "toc"]) false.
Proof.
  intros d h ch up t u. destruct (toc_args_fine d) as (F1 & F2). rewrite parse_inline_fuel. unfold finditer.
  pose proof (toc_run d [] [] eq_refl) as R. rewrite app_nil_r in R.
  assert (E : scan inline_re 0 [] (wr_toc d) = inr (mkm (wr_toc d) [(G_macro_tag, wr_toc d); (G_macro_tag_args, spaced (toc_args d)); (G_macro_tag_name, $ "toc")]) :: scan inline_re 0 (rev (wr_toc d) ++ []) []).
  { rewrite <- (app_nil_r (wr_toc d)) at 1. apply scan_hit; [rewrite wr_toc_eq; discriminate|]. rewrite app_nil_r. exact R. }
  rewrite E, inline_end. cbn [flat_map app fold_left]. unfold replace_. cbn [perr].
  change (first_group inline_groups (mkm (wr_toc d) [(G_macro_tag, wr_toc d); (G_macro_tag_args, spaced (toc_args d)); (G_macro_tag_name, $ "toc")])) with (Some G_macro_tag).
  cbv iota. cbn [inline_handler]. unfold macro_tag_repl. rewrite (need_some G_macro_tag_name _ _ _ ($ "toc")) by reflexivity. rewrite (need_some G_macro_tag_args _ _ _ (spaced (toc_args d))) by reflexivity.
  unfold add_macro. rewrite strip_spaced by exact F1. reflexivity.
Qed.
Lemma toc_text : forall d x D u, group G_text x = Some (wr_toc d) -> group0 G_break x = [] -> (group0 G_space x = [] \/ True) ->
  text_repl x (mkps [(mkn KDocument None, D)] false u false) = gpar D [toc_node d] (u ++ [$ "toc"]).
Proof.
  intros d x D u Hx Hb _. change (mkps [(mkn KDocument None, D)] false u false) with (mkps [(mkn KDocument None, D)] false u false).
  rewrite (gtext_open x D [] u) by (right; split; reflexivity).
  replace (text_repl x (gpar D [] u)) with (need G_text x (gpar D [] u) (fun text =>
      let s := parse_inline (if truthy (group0 G_space x) && negb (is_nil (@nil node)) then 32 :: text else text) (gpar D [] u) in
      set_txt false (if truthy (group0 G_break x) && kind_in (cur_kind s) [KParagraph; KEmphasis; KStrong; KPreInline]
                     then append_child (Nd (mkn KBreak (Some [])) []) s else s))) by reflexivity.
  rewrite (need_some _ _ _ _ _ Hx). cbv zeta. rewrite Hb. cbn [is_nil negb]. rewrite andb_false_r. unfold gpar. rewrite toc_inline. reflexivity.
Qed.
Lemma toc_line_facts : forall d, truthy (wr_toc d) = true /\ no_char [10; 13] (wr_toc d) = true /\ start_no (wr_toc d) /\ last_is (N.eqb 10) (wr_toc d) = false.
Proof.
  intro d. destruct (toc_args_fine d) as (F1 & _). rewrite wr_toc_eq. split; [reflexivity|]. split; [|split].
  - unfold no_char. rewrite !forallb_app. repeat (apply andb_true_iff; split); try reflexivity. destruct F1 as [->|(_ & F & _)]; [reflexivity|]. destruct (toc_args d); [reflexivity|exact F].
  - repeat split.
  - rewrite !app_assoc. rewrite last_is_suffix by discriminate. reflexivity.
Qed.
Lemma toc_scan : forall blog d T D u b, closed_in ($ "toc") T = false -> tail2 T = true ->
  run blog (mts (scan (block_re blog) 0 b (wr_toc d ++ T))) (mkps [(mkn KDocument None, D)] false u false) =
  run blog (rest_ms blog (rev (wr_toc d) ++ b) T) (gpar D [toc_node d] (u ++ [$ "toc"])).
Proof.
  intros blog d T D u b Hc HT. destruct (toc_line_facts d) as (L1 & L2 & L3 & L4).
  assert (Hm : m (block_re blog) (mk b (wr_toc d ++ T) []) fin = Some (mk (rev (wr_toc d) ++ b) T [(G_text, wr_toc d)])).
  { assert (L7 : forall k, m r_macro_block (mk b (wr_toc d ++ T) []) k = None) by (intro k; apply toc_no_block; exact Hc).
    destruct blog; [apply blog_line_gen|apply wiki_line_gen]; try assumption; try (apply tail2_tail; exact HT). right. destruct (tail2_cases T HT) as [->|(X & -> & _)]; reflexivity. }
  rewrite (mts_hit _ _ _ _ _ (truthy_ne _ L1) Hm). rewrite (run_cons blog _ _ _ G_text) by (reflexivity || (destruct blog; reflexivity)). cbn [block_handler].
  rewrite (toc_text d) by (reflexivity || auto). f_equal. apply rest_scan; [exact HT|]. rewrite bol_app by (apply truthy_ne; exact L1). apply bol_last; [apply truthy_ne; exact L1|exact L4].
Qed.

(** ** what is shown, and what is listed *)
Definition shows := tocst -> str * tocst.
Definition text (w : str) : shows := fun t => (w, t).
Definition both (f g : shows) : shows := fun t => (fst (f t) ++ fst (g (snd (f t))), snd (g (snd (f t)))).
Definition okd (t : tocst) : Prop := match max_depth t with None | Some (VInt _) => True | _ => False end.
Lemma both_assoc : forall f g h t, both (both f g) h t = both f (both g h) t.
Proof. intros. unfold both. cbn [fst snd]. rewrite app_assoc. reflexivity. Qed.
Lemma both_ext : forall f f' g g' t, (forall t, f t = f' t) -> (forall t, g t = g' t) -> both f g t = both f' g' t.
Proof. intros f f' g g' t H1 H2. unfold both. rewrite !H1, !H2. reflexivity. Qed.
Lemma both_text : forall f t, both f (text []) t = f t.
Proof. intros f t. unfold both, text. cbn [fst snd]. rewrite app_nil_r. symmetry. apply surjective_pairing. Qed.
Lemma both_text_l : forall f t, both (text []) f t = f t.
Proof. intros f t. unfold both, text. cbn [fst snd app]. symmetry. apply surjective_pairing. Qed.

Section TDoc.
  Variable c : cfg.
  Hypothesis with_toc : use_toc c = true.
  Definition tellt (h : hdr) (ch : list node) (F : shows) : Prop := forall t l, okd t ->
    okd (snd (F t)) /\ emit_children c h (rev ch) (mkest (TObj t) l) = (Ok (fst (F t)), mkest (TObj (snd (F t))) l).
  Lemma tellt_ext : forall h ch F G, (forall t, F t = G t) -> tellt h ch F -> tellt h ch G.
  Proof. intros h ch F G E H t l Ht. rewrite <- E. apply H. exact Ht. Qed.
  Lemma tellt_node : forall h ch F n G, tellt h ch F ->
    (forall t l, okd t -> okd (snd (G t)) /\ emit_node c h n (mkest (TObj t) l) = (Ok (fst (G t)), mkest (TObj (snd (G t))) l)) -> tellt h (n :: ch) (both F G).
  Proof.
    intros h ch F n G HF HG t l Ht. destruct (HF t l Ht) as (A1 & A2). destruct (HG (snd (F t)) l A1) as (B1 & B2). split; [exact B1|].
    cbn [rev]. rewrite emit_children_app, A2. cbn [emit_children]. rewrite B2, app_nil_r. reflexivity.
  Qed.
  Definition tst (has : bool) (s : ps) (F : shows) : Prop := exists old u s0 out F0, s = lift old u s0 /\ old_ok old /\ docst c s0 out /\ (has = true -> In ($ "toc") u) /\
    tellt doc_h old F0 /\ forall t, F t = both F0 (text out) t.
  Definition tat (has : bool) (s : ps) (F : shows) : Prop := exists old u s0 out F0, s = lift old u s0 /\ old_ok old /\ atdoc c s0 out /\ (has = true -> In ($ "toc") u) /\
    tellt doc_h old F0 /\ forall t, F t = both F0 (text out) t.
  Definition tgst (has : bool) (s : ps) (F : shows) : Prop := exists s', tst has s' F /\
    (forall blog ms, run blog (line_m :: ms) s = run blog (line_m :: ms) s') /\ finish s = finish s'.
  Lemma tst_tgst : forall has s F, tst has s F -> tgst has s F.
  Proof. intros has s F H. exists s. auto. Qed.
  Lemma tst_ext : forall has s F G, (forall t, F t = G t) -> tst has s F -> tst has s G.
  Proof. intros has s F G E (old & u & s0 & out & F0 & H1 & H2 & H3 & H4 & H5 & H6). exists old, u, s0, out, F0. repeat (split; [assumption|]). intro t. rewrite <- E. apply H6. Qed.
  Lemma tgst_ext : forall has s F G, (forall t, F t = G t) -> tgst has s F -> tgst has s G.
  Proof. intros has s F G E (s' & H & H1). exists s'. split; [|exact H1]. revert H. apply tst_ext. exact E. Qed.
  Lemma tat_at : forall has s F, tat has s F -> exists D u, s = mkps [(doc_h, D)] false u false /\ (has = true -> In ($ "toc") u) /\ nobreak D /\ tellt doc_h D F.
  Proof.
    intros has s F (old & u & s0 & out & F0 & -> & Ho & (dch & -> & Hd & Sh) & Hu & Hf & Hx). exists (dch ++ old), u. split; [|split; [exact Hu|split]].
    - unfold lift. cbn [stk txt used perr lift_stk]. rewrite app_nil_r. reflexivity.
    - destruct dch as [|x dch]; [|exact Hd]. destruct old as [|y o]; [exact I|]. cbn [app nobreak]. intro E. cbn [MacroDoc.old_ok] in Ho. rewrite E in Ho. discriminate.
    - intros t l Ht. destruct (Hf t l Ht) as (A1 & A2). rewrite Hx. split; [exact A1|]. rewrite rev_app_distr, emit_children_app, A2. rewrite (Sh (mkest (TObj (snd (F0 t))) l)). reflexivity.
  Qed.
  Lemma at_tst : forall has D u F, (has = true -> In ($ "toc") u) -> old_ok D -> tellt doc_h D F -> tst has (mkps [(doc_h, D)] false u false) F.
  Proof.
    intros has D u F Hu Ho Ht. exists D, u, init_ps, [], F. split; [unfold lift; cbn; rewrite ?app_nil_r; reflexivity|]. split; [exact Ho|]. split; [|split; [exact Hu|split; [exact Ht|]]].
    - apply atdoc_docst. exists []. split; [reflexivity|]. split; [exact I|]. intro st0. reflexivity.
    - intro t. symmetry. apply both_text.
  Qed.
  Lemma tfirst_lift : forall has blog raw w, first_ok c blog raw w -> forall T s F b, tail2 T = true -> tat has s F -> bol b = true ->
    exists s', tst has s' (both F (text raw)) /\ run blog (mts (scan (block_re blog) 0 b (w ++ T))) s = run blog (rest_ms blog (rev w ++ b) T) s'.
  Proof.
    intros has blog raw w H T s F b HT (old & u & s0 & out & F0 & -> & Ho & Hs & Hu & Hf & Hx) Hb. destruct (H T s0 out b HT Hs Hb) as (s1 & Hs1 & E).
    exists (lift old u s1). split.
    - exists old, u, s1, (out ++ raw), F0. repeat (split; [assumption || reflexivity|]). intro t. unfold both at 1. rewrite !Hx. unfold both, text. cbn [fst snd]. rewrite <- app_assoc. reflexivity.
    - rewrite !run_lift by (assumption || (eapply docst_B; first [exact Hs1|apply atdoc_docst; exact Hs])). rewrite E. reflexivity.
  Qed.
  Lemma tnext_lift : forall has blog raw w, next_ok c blog raw w -> forall T s F b, tail2 T = true -> tst has s F -> bol b = true ->
    exists s', tst has s' (both F (text ([10] ++ raw))) /\ run blog (mts (scan (block_re blog) 0 b (10 :: w ++ T))) s = run blog (rest_ms blog (rev (10 :: w) ++ b) T) s'.
  Proof.
    intros has blog raw w H T s F b HT (old & u & s0 & out & F0 & -> & Ho & Hs & Hu & Hf & Hx) Hb. destruct (H T s0 out b HT Hs Hb) as (s1 & Hs1 & E).
    exists (lift old u s1). split.
    - exists old, u, s1, (out ++ [10] ++ raw), F0. repeat (split; [assumption || reflexivity|]). intro t. unfold both at 1. rewrite !Hx. unfold both, text. cbn [fst snd]. rewrite <- app_assoc. reflexivity.
    - rewrite !run_lift by (assumption || (eapply docst_B; first [exact Hs1|exact Hs])). f_equal. exact E.
  Qed.
  Lemma tline_lift : forall has blog ms s F, tst has s F -> exists s', tat has s' (both F (text [10])) /\ run blog (line_m :: ms) s = run blog ms s'.
  Proof.
    intros has blog ms s F (old & u & s0 & out & F0 & -> & Ho & Hs & Hu & Hf & Hx). destruct (run_line c blog ms s0 out Hs) as (s1 & Hs1 & E). exists (lift old u s1). split.
    - exists old, u, s1, (out ++ [10]), F0. repeat (split; [assumption || reflexivity|]). intro t. unfold both at 1. rewrite !Hx. unfold both, text. cbn [fst snd]. rewrite <- app_assoc. reflexivity.
    - rewrite !run_lift by (assumption || (eapply docst_B; first [exact Hs|apply atdoc_docst; exact Hs1])). rewrite E. reflexivity.
  Qed.

  (** ** headings *)
  Definition head_shows (n : nat) (t : str) : shows := fun st =>
    ($ "<a name=""" ++ escape t ++ $ """>" ++ elem ($ "h" ++ show_nat n) (escape t) ++ $ "</a>" ++ [10],
     match max_depth st with
     | Some (VInt z) => if (Z.of_nat n <=? z)%Z then mktoc (max_depth st) (headlines st ++ [(n, t)]) (created st) else st
     | _ => mktoc (max_depth st) (headlines st ++ [(n, t)]) (created st)
     end).
  Lemma head_emitted : forall h n t st l, okd st -> okd (snd (head_shows n t st)) /\
    emit_node c h (Nd (mkl KHeader (Some t) n) []) (mkest (TObj st) l) = (Ok (fst (head_shows n t st)), mkest (TObj (snd (head_shows n t st))) l).
  Proof.
    intros h n t st l Hst. split.
    - unfold head_shows, okd in *. cbn [snd]. destruct (max_depth st) as [[s|z|b|]|] eqn:E; try contradiction; [destruct (_ <=? _)%Z|]; cbn [max_depth]; rewrite ?E; exact I.
    - rewrite emit_node_eq. cbv zeta. cbn [hk mkl hcontent]. unfold header_emit. rewrite with_toc. cbn [hlevel mkl toc log]. unfold add_headline, depth_ok, head_shows, okd in *. cbn [fst snd].
      assert (E : forall x, $ "<a name=""" ++ escape t ++ $ """>" ++ ($ "<h" ++ show_nat n ++ $ ">" ++ escape t ++ $ "</h" ++ show_nat n ++ $ ">") ++ $ "</a>" ++ x = $ "<a name=""" ++ escape t ++ $ """>" ++ elem ($ "h" ++ show_nat n) (escape t) ++ $ "</a>" ++ x).
      { intro x. unfold elem. repeat (rewrite <- ?app_assoc; cbn [app]). reflexivity. }
      destruct (max_depth st) as [[s|z|b|]|] eqn:M; try contradiction.
      + destruct (Z.of_nat n <=? z)%Z; rewrite E; reflexivity.
      + rewrite E. reflexivity.
  Qed.
  Lemma thead_first : forall has blog n sp0 t cl, block_ok true (BHead n sp0 t cl) = true -> forall T s F b, tail2 T = true -> tat has s F -> bol b = true ->
    exists s', tst has s' (both F (head_shows n t)) /\
      run blog (mts (scan (block_re blog) 0 b (wr_block (BHead n sp0 t cl) ++ T))) s = run blog (rest_ms blog (rev (wr_block (BHead n sp0 t cl)) ++ b) T) s'.
  Proof.
    intros has blog n sp0 t cl Hok T s F b HT Hs Hb. destruct (tat_at has s F Hs) as (D & u & -> & Hu & HD & HF). eexists. split; [|apply head_scan; assumption].
    apply at_tst; [exact Hu|reflexivity|]. apply tellt_node; [exact HF|]. intros st l Hst. apply head_emitted. exact Hst.
  Qed.
  Lemma thead_next : forall has n sp0 t cl, block_ok true (BHead n sp0 t cl) = true -> forall T s F b, tail2 T = true -> tst has s F -> bol b = true ->
    exists s', tst has s' (both F (both (text [10]) (head_shows n t))) /\
      run true (mts (scan (block_re true) 0 b (10 :: wr_block (BHead n sp0 t cl) ++ T))) s = run true (rest_ms true (rev (10 :: wr_block (BHead n sp0 t cl)) ++ b) T) s'.
  Proof.
    intros has n sp0 t cl Hok T s F b HT Hs Hb. assert (Hn : exists k, n = S k) by (cbn [block_ok] in Hok; destruct n; [discriminate|eauto]). destruct Hn as (k & Hn).
    rewrite gap_lazy.
    - destruct (tline_lift has true (mts (scan (block_re true) 0 (10 :: b) (wr_block (BHead n sp0 t cl) ++ T))) s F Hs) as (s1 & Hs1 & E1).
      destruct (thead_first has true n sp0 t cl Hok T s1 _ (10 :: b) HT Hs1 eq_refl) as (s2 & Hs2 & E2). exists s2. split; [revert Hs2; apply tst_ext; intro x; apply both_assoc|].
      replace (rev (10 :: wr_block (BHead n sp0 t cl)) ++ b) with (rev (wr_block (BHead n sp0 t cl)) ++ 10 :: b) by (cbn [rev]; rewrite <- app_assoc; reflexivity).
      rewrite <- E2, <- E1. reflexivity.
    - subst n. reflexivity.
    - subst n. reflexivity.
    - exact Hb.
    - subst n. reflexivity.
    - subst n. cbn [wr_block repeat app list_start]. match goal with |- match ?x with _ => _ end = _ => destruct x end; reflexivity.
    - subst n. reflexivity.
  Qed.

  (** ** the tag *)
  Definition tag_call (d : option N) : shows := fun t =>
    if created t then ($ "&lt;&lt;toc&gt;&gt;", t)
    else ($ "<<toc>>", mktoc (match d with Some n => Some (VInt (Z.of_N n)) | None => max_depth t end) (headlines t) true).
  Definition tag_shows (d : option N) : shows := fun t => ($ "<p>" ++ fst (tag_call d t) ++ $ "</p>" ++ [10], snd (tag_call d t)).
  Definition depth_fine (d : option N) : bool := match d with None => true | Some n => N.of_nat (List.length (show_N n)) <=? 4300 end.
  Lemma tag_emitted : forall d h t l, depth_fine d = true -> okd t -> okd (snd (tag_shows d t)) /\
    emit_node c h (Nd par_h (rev [toc_node d])) (mkest (TObj t) l) = (Ok (fst (tag_shows d t)), mkest (TObj (snd (tag_shows d t))) l).
  Proof.
    intros d h t l Hd Ht. split.
    - unfold tag_shows, tag_call, okd in *. cbn [snd]. destruct (created t); [exact Ht|]. cbn [snd max_depth]. destruct d; [exact I|exact Ht].
    - rewrite emit_node_eq. cbv zeta. change (hk par_h) with KParagraph. cbv iota. change (rev [toc_node d]) with [toc_node d]. cbn [emit_children]. unfold toc_node. rewrite emit_node_eq. cbv zeta. cbn [hk]. unfold macro_emit. cbn [hmargs hmname hcontent hk].
      destruct (toc_dict d Hd) as (kw & -> & K1 & K2). cbv zeta. change (str_eqb ($ "toc") ($ "toc")) with true. cbn [toc log]. rewrite dict_get_set. match goal with |- context [str_eqb ?a ?b] => change (str_eqb a b) with false end. cbv iota. rewrite K1. unfold toc_call. rewrite dict_get_set. match goal with |- context [str_eqb ?a ?b] => change (str_eqb a b) with false end. cbv iota. rewrite K2.
      unfold tag_shows, tag_call. destruct (created t); [reflexivity|]. destruct d; reflexivity.
  Qed.
  Lemma ttag_first : forall has blog d T s F b, depth_fine d = true -> closed_in ($ "toc") T = false -> tail2 T = true -> tat has s F ->
    exists s', tgst true s' (both F (tag_shows d)) /\ run blog (mts (scan (block_re blog) 0 b (wr_toc d ++ T))) s = run blog (rest_ms blog (rev (wr_toc d) ++ b) T) s'.
  Proof.
    intros has blog d T s F b Hd Hc HT Hs. destruct (tat_at has s F Hs) as (D & u & -> & Hu & HD & HF). exists (gpar D [toc_node d] (u ++ [$ "toc"])). split; [|apply toc_scan; assumption].
    exists (mkps [(mkn KDocument None, Nd par_h (rev [toc_node d]) :: D)] false (u ++ [$ "toc"]) false). split; [|split].
    - apply at_tst; [intros _; apply in_or_app; right; left; reflexivity|reflexivity|]. apply tellt_node; [exact HF|]. intros st l Hst. apply tag_emitted; assumption.
    - intros bl ms. rewrite !(run_cons bl line_m ms _ G_line) by (reflexivity || (destruct bl; reflexivity)). f_equal.
    - reflexivity.
  Qed.
  Lemma tag_next : forall has blog d T s F b, depth_fine d = true -> closed_in ($ "toc") T = false -> tail2 T = true -> tst has s F -> bol b = true ->
    exists s', tgst true s' (both F (both (text [10]) (tag_shows d))) /\
      run blog (mts (scan (block_re blog) 0 b (10 :: wr_toc d ++ T))) s = run blog (rest_ms blog (rev (10 :: wr_toc d) ++ b) T) s'.
  Proof.
    intros has blog d T s F b Hd Hc HT Hs Hb. destruct (toc_line_facts d) as (L1 & L2 & L3 & L4). pose proof (tail2_tail T HT) as HR.
    assert (L7 : forall b k, m r_macro_block (mk b (wr_toc d ++ T) []) k = None) by (intros; apply toc_no_block; exact Hc).
    destruct (bline_not (wr_toc d) T L1 L3 HR) as (A1 & A2 & A3 & A4 & A5).
    assert (Er : rev (10 :: wr_toc d) ++ b = rev (wr_toc d) ++ 10 :: b) by (cbn [rev]; rewrite <- app_assoc; reflexivity).
    assert (G : forall s2, tgst true s2 (both (both F (text [10])) (tag_shows d)) -> tgst true s2 (both F (both (text [10]) (tag_shows d)))).
    { intros s2. apply tgst_ext. intro x. apply both_assoc. }
    rewrite Er. destruct blog.
    - rewrite gap_lazy by assumption.
      destruct (tline_lift has true (mts (scan (block_re true) 0 (10 :: b) (wr_toc d ++ T))) s F Hs) as (s1 & Hs1 & E1).
      destruct (ttag_first has true d T s1 _ (10 :: b) Hd Hc HT Hs1) as (s2 & Hs2 & E2). exists s2. split; [apply G; exact Hs2|]. rewrite <- E2, <- E1. reflexivity.
    - assert (Hline : scan (block_re false) 0 b (10 :: wr_toc d ++ T) =
        inr line_m :: inr (mkm (10 :: wr_toc d) [(G_text, wr_toc d); (G_space, [10])]) :: scan (block_re false) 0 (rev (10 :: wr_toc d) ++ b) T).
      { exact (wiki_gap_line_gen (wr_toc d) T b L1 L2 L3 HR Hb). }
      rewrite Hline. change (mts (inr line_m :: inr ?x :: ?y)) with (line_m :: x :: mts y).
      match goal with |- context [run false (line_m :: ?ms) s] => destruct (tline_lift has false ms s F Hs) as (s1 & Hs1 & ->) end.
      destruct (ttag_first has false d T s1 _ (10 :: b) Hd Hc HT Hs1) as (s2 & Hs2 & E2). exists s2. split; [apply G; exact Hs2|]. rewrite <- E2.
      rewrite (mts_hit _ _ _ _ _ (truthy_ne _ L1) (wiki_line_gen (wr_toc d) T (10 :: b) L1 L2 L3 (L7 _) HR)).
      destruct (tat_at has s1 _ Hs1) as (D & u & -> & _ & _ & _).
      rewrite (run_cons false _ _ _ G_space) by reflexivity. rewrite (run_cons false _ _ _ G_text) by reflexivity.
      replace (rev (10 :: wr_toc d) ++ b) with (rev (wr_toc d) ++ 10 :: b) by (cbn [rev]; rewrite <- app_assoc; reflexivity). reflexivity.
  Qed.

  (** ** items *)
  Definition item_shows (blog : bool) (i : titem) : shows :=
    match i with
    | TBlock (BHead n _ t _) => head_shows n t
    | TBlock b => text (html_raw blog (strict c) b)
    | TToc d => tag_shows d
    end.
  Definition is_tag (i : titem) : bool := match i with TToc _ => true | _ => false end.
  Lemma tgst_weaken : forall s F, tgst true s F -> forall has, tgst has s F.
  Proof.
    intros s F (s' & (old & u & s0 & out & F0 & H1 & H2 & H3 & H4 & H5 & H6) & Hx) has. exists s'. split; [|exact Hx]. exists old, u, s0, out, F0. repeat (split; [assumption|]). split; [intros _; apply H4; reflexivity|]. split; assumption.
  Qed.
  Lemma titem_first : forall has blog i T s F b, titem_ok blog i T = true -> tail2 T = true -> tat has s F -> bol b = true ->
    exists s', tgst (has || is_tag i) s' (both F (item_shows blog i)) /\ run blog (mts (scan (block_re blog) 0 b (wr_titem i ++ T))) s = run blog (rest_ms blog (rev (wr_titem i) ++ b) T) s'.
  Proof.
    intros has blog [b0|d] T s F b H HT Hs Hb; cbn [titem_ok wr_titem is_tag] in *.
    - rewrite orb_false_r. destruct b0 as [lines|n sp0 t cl| |lines|o items|rows]; unfold item_shows, html_raw.
      1, 3, 4, 6: match goal with |- context [text ?r] => match goal with |- context [scan _ _ _ (?w ++ _)] => assert (X : first_ok c blog r w) by (first [apply para_first; exact H|apply rule_first|apply code_first; exact H|apply table_first; exact H]) end end;
        destruct (tfirst_lift has blog _ _ X T s F b HT Hs Hb) as (s' & H1 & H2); exists s'; (split; [apply tst_tgst; exact H1|exact H2]).
      + destruct (thead_first has blog n sp0 t cl H T s F b HT Hs Hb) as (s' & H1 & H2). exists s'. split; [apply tst_tgst; exact H1|exact H2].
      + rewrite app_nil_r. destruct (tfirst_lift has blog _ _ (list_first c blog o items H) T s F b HT Hs Hb) as (s' & H1 & H2). exists s'. split; [apply tst_tgst; exact H1|exact H2].
    - apply andb_true_iff in H as [H1 H2]. apply negb_true_iff in H2. destruct (ttag_first has blog d T s F b H1 H2 HT Hs) as (s' & A1 & A2). exists s'. split; [|exact A2]. apply tgst_weaken. exact A1.
  Qed.
  Lemma titem_head : forall blog i T, titem_ok blog i T = true -> truthy (wr_titem i) = true /\ head_is is_space (wr_titem i) = false.
  Proof. intros blog [b|d] T H; cbn [titem_ok wr_titem] in *; [exact (block_head blog b H)|]. destruct d; split; reflexivity. Qed.
  Definition tafter (d : list titem) : str := match d with [] => [] | _ => [10; 10] ++ wr_titems d end.
  Lemma wr_titems_cons : forall i d, wr_titems (i :: d) = wr_titem i ++ tafter d.
  Proof. intros i [|i2 d]; [cbn [wr_titems tafter]; rewrite app_nil_r; reflexivity|reflexivity]. Qed.
  Lemma tafter_tail2 : forall blog fst d, titems_ok_from blog fst d = true -> tail2 (tafter d) = true.
  Proof.
    intros blog fst d. revert fst. induction d as [|p d IH]; intros fst H; [reflexivity|]. cbn [titems_ok_from] in H. apply andb_true_iff in H as [H H3]. apply andb_true_iff in H as [H1 H2].
    destruct (titem_head blog p (tafter d) H1) as (A1 & A2). cbn [tafter tail2 app]. rewrite wr_titems_cons. destruct (head_app is_space (wr_titem p) (tafter d) A1) as (-> & ->). rewrite A2. reflexivity.
  Qed.
  Lemma titem_next : forall has blog i T s F b, titem_ok blog i T = true -> titem_after_blank blog i = true -> tail2 T = true -> tgst has s F -> bol b = true ->
    exists s', tgst (has || is_tag i) s' (both F (both (text [10]) (item_shows blog i))) /\ run blog (mts (scan (block_re blog) 0 b (10 :: wr_titem i ++ T))) s = run blog (rest_ms blog (rev (10 :: wr_titem i) ++ b) T) s'.
  Proof.
    intros has blog i T s0 F b H HA HT (s & Hs & Es & _) Hb. destruct (titem_head blog i T H) as (P1 & P2). destruct (head_app is_space (wr_titem i) T P1) as (Q1 & Q2).
    assert (Ex : run blog (mts (scan (block_re blog) 0 b (10 :: wr_titem i ++ T))) s0 = run blog (mts (scan (block_re blog) 0 b (10 :: wr_titem i ++ T))) s).
    { destruct (gap_starts blog (wr_titem i ++ T) b) as (ms & ->); [congruence|congruence|exact Hb|]. apply Es. }
    rewrite Ex. clear s0 Es Ex. destruct i as [b0|d]; cbn [titem_ok wr_titem titem_after_blank is_tag] in *.
    - rewrite orb_false_r. destruct b0 as [lines|n sp0 t cl| |lines|o items|rows]; unfold item_shows, html_raw.
      1, 3, 4, 6: match goal with |- context [both _ (both _ (text ?r))] => match goal with |- context [scan _ _ _ (10 :: ?w ++ _)] => assert (X : next_ok c blog r w) by
          (first [apply para_next; exact H|apply rule_next|destruct blog; [|discriminate]; apply code_next; exact H|apply table_next; exact H]) end end;
        destruct (tnext_lift has blog _ _ X T s F b HT Hs Hb) as (s' & H1 & H2); exists s'; (split; [apply tst_tgst; exact H1|exact H2]).
      + destruct blog; [|discriminate]. destruct (thead_next has n sp0 t cl H T s F b HT Hs Hb) as (s' & H1 & H2). exists s'. split; [apply tst_tgst; exact H1|exact H2].
      + rewrite app_nil_r. destruct (tnext_lift has blog _ _ (list_next c blog o items H) T s F b HT Hs Hb) as (s' & H1 & H2). exists s'. split; [apply tst_tgst; exact H1|exact H2].
    - apply andb_true_iff in H as [H1 H2]. apply negb_true_iff in H2. destruct (tag_next has blog d T s F b H1 H2 HT Hs Hb) as (s' & A1 & A2). exists s'. split; [|exact A2]. apply tgst_weaken. exact A1.
  Qed.

  (** ** the document *)
  Fixpoint items_show (blog : bool) (d : list titem) : shows :=
    match d with [] => text [] | i :: r => both (item_shows blog i) (both (text (match r with [] => [] | _ => [10] end)) (items_show blog r)) end.
  Lemma titems_run : forall blog d, titems_ok_from blog false d = true -> forall has b s F, tgst has s F ->
    exists s', tgst (has || has_toc d) s' (both F (both (text (match d with [] => [] | _ => [10] end)) (items_show blog d))) /\ run blog (rest_ms blog b (tafter d)) s = s'.
  Proof.
    intros blog d. induction d as [|p d IH]; intros Hok has b0 s F Hs.
    - exists s. split; [|reflexivity]. cbn [has_toc existsb]. rewrite orb_false_r. revert Hs. apply tgst_ext. intro t. symmetry. cbn [items_show]. etransitivity; [apply both_ext; [reflexivity|intro; apply both_text_l]|apply both_text].
    - cbn [titems_ok_from] in Hok. apply andb_true_iff in Hok as [H H3]. apply andb_true_iff in H as [H1 H2]. cbn [orb] in H2.
      pose proof (tafter_tail2 blog false d H3) as HT.
      destruct (titem_next has blog p (tafter d) s F (10 :: b0) H1 H2 HT Hs eq_refl) as (s1 & Hs1 & E1).
      destruct (IH H3 _ (rev (10 :: wr_titem p) ++ 10 :: b0) s1 _ Hs1) as (s2 & Hs2 & E2). exists s2. split.
      + replace (has || has_toc (p :: d)) with (has || is_tag p || has_toc d) by (rewrite <- orb_assoc; reflexivity). revert Hs2. apply tgst_ext. intro t. rewrite both_assoc. apply both_ext; [reflexivity|]. intro t1. rewrite both_assoc. reflexivity.
      + rewrite <- E2, <- E1. unfold tafter at 1. cbn [rest_ms app]. rewrite wr_titems_cons. reflexivity.
  Qed.
  Lemma titems_run_first : forall blog p d, titems_ok blog (p :: d) = true -> tgst (has_toc (p :: d)) (parse_block blog (wr_titems (p :: d)) init_ps) (items_show blog (p :: d)).
  Proof.
    intros blog p d H. unfold titems_ok in H. cbn [titems_ok_from] in H. apply andb_true_iff in H as [H H3]. apply andb_true_iff in H as [H1 _].
    pose proof (tafter_tail2 blog false d H3) as HT.
    assert (Hi : tat false init_ps (text [])).
    { exists [], [], init_ps, [], (text []). split; [reflexivity|]. split; [exact I|]. split; [exists []; split; [reflexivity|]; split; [exact I|apply showns_nil]|]. split; [discriminate|]. split; [|reflexivity].
      intros t l Ht. split; [exact Ht|reflexivity]. }
    destruct (titem_first false blog p (tafter d) init_ps (text []) [] H1 HT Hi eq_refl) as (s1 & Hs1 & E1).
    destruct (titems_run blog d H3 _ (rev (wr_titem p) ++ []) s1 _ Hs1) as (s2 & Hs2 & E2).
    assert (E : parse_block blog (wr_titems (p :: d)) init_ps = s2) by (rewrite <- E2, <- E1, wr_titems_cons; reflexivity). rewrite E. revert Hs2. apply tgst_ext.
    intro l. rewrite both_assoc. apply both_text_l.
  Qed.
  Lemma tst_emit : forall s F, tst true s F -> exists root u, finish s = Some (root, u) /\ existsb (str_eqb ($ "toc")) u = true /\
    forall t l, okd t -> emit_node c doc_h root (mkest (TObj t) l) = (Ok (fst (F t)), mkest (TObj (snd (F t))) l).
  Proof.
    intros s F (old & u & s0 & out & F0 & -> & Ho & Hs & Hu & Hf & Hx). pose proof (docst_B c s0 out Hs) as [HB _]. destruct Hs as (h & ch & up & dch & -> & _ & _ & Hp & Sh).
    exists (Nd doc_h (rev (dch ++ old))), u. split; [|split].
    - unfold finish. change (perr (lift old u (mkps ((h, ch) :: up) false [] false))) with false. cbv iota.
      rewrite (proj2 (comm_pop_to old u 1 _ HB)). unfold pop_to, set_stk. cbn [stk List.length used].
      match goal with |- context [pop_n ?n ?k] => replace (pop_n n k) with [(doc_h, dch)] end; [|rewrite <- Hp; f_equal; symmetry; apply Nat.sub_0_r].
      unfold lift. cbn [stk lift_stk used]. rewrite app_nil_r. reflexivity.
    - apply existsb_exists. exists ($ "toc"). split; [apply Hu; reflexivity|apply str_eqb_refl].
    - intros t l Ht. destruct (Hf t l Ht) as (A1 & A2). rewrite emit_node_eq. cbv zeta. cbn [hk mkn]. rewrite rev_app_distr, emit_children_app, A2, (Sh (mkest _ l)). rewrite Hx. reflexivity.
  Qed.
End TDoc.

(** ** the headings listed *)
Lemma block_text : forall blog str_ b, html_raw blog str_ b = html_block blog str_ b ++ line_end b.
Proof. reflexivity. Qed.
Definition depth_val (d : option N) : option pyval := option_map (fun n => VInt (Z.of_N n)) d.
Lemma shows_below : forall c blog d depth t, created t = true -> max_depth t = depth_val depth ->
  items_show c blog d t = (html_titems blog (strict c) None d, mktoc (max_depth t) (headlines t ++ listed_below depth d) true).
Proof.
  intros c blog. induction d as [|i d IH]; intros depth t Hc Hm.
  - cbn [items_show html_titems listed_below]. unfold text. rewrite app_nil_r. destruct t as [m h cr]. cbn [created] in Hc. subst cr. reflexivity.
  - cbn [items_show]. unfold both, text. cbn [fst snd].
    assert (B : forall w, item_shows c blog i t = (w, t) -> listed_below depth (i :: d) = listed_below depth d -> 
      html_titems blog (strict c) None (i :: d) = w ++ match d with [] => [] | _ => [10] end ++ html_titems blog (strict c) None d ->
      (fst (item_shows c blog i t) ++ match d with [] => [] | _ => [10] end ++ fst (items_show c blog d (snd (item_shows c blog i t))), snd (items_show c blog d (snd (item_shows c blog i t)))) =
      (html_titems blog (strict c) None (i :: d), mktoc (max_depth t) (headlines t ++ listed_below depth (i :: d)) true)).
    { intros w -> -> ->. cbn [fst snd]. rewrite (IH depth t Hc Hm). reflexivity. }
    destruct i as [b|dd].
    + destruct b as [lines|n sp0 x cl| |lines|o items|rows]; try (eapply B; [reflexivity|reflexivity|cbn [html_titems html_tblock]; rewrite block_text, <- !app_assoc; reflexivity]).
      clear B. cbn [item_shows html_titems html_tblock html_block line_end listed_below]. unfold head_shows. cbn [fst snd]. rewrite Hm.
      assert (E : forall u v, u ++ [10] ++ v = u ++ 10 :: v) by reflexivity.
      destruct depth as [nn|]; cbn [depth_val option_map within].
      * replace (N.of_nat n <=? nn) with (Z.of_nat n <=? Z.of_N nn)%Z by (destruct (N.leb_spec (N.of_nat n) nn); [apply Z.leb_le; lia|apply Z.leb_gt; lia]).
        destruct (Z.of_nat n <=? Z.of_N nn)%Z.
        -- rewrite (IH (Some nn)) by (reflexivity || exact Hc). cbn [fst snd max_depth headlines]. rewrite <- !app_assoc. reflexivity.
        -- rewrite (IH (Some nn)) by assumption. cbn [fst snd]. rewrite <- !app_assoc, Hm. reflexivity.
      * rewrite (IH None) by (reflexivity || exact Hc). cbn [fst snd max_depth headlines]. rewrite <- !app_assoc. reflexivity.
    + eapply B; [unfold item_shows, tag_shows, tag_call; rewrite Hc; reflexivity|reflexivity|]. cbn [html_titems fst]. rewrite <- !app_assoc. reflexivity.
Qed.
(** the tag has been called *)
Definition spent (t : tocst) : Prop := created t = true /\ exists depth, max_depth t = depth_val depth.
Lemma shows_above : forall c blog d t, created t = false -> max_depth t = None ->
  exists t', items_show c blog d t = (html_titems blog (strict c) (Some ($ "<p><<toc>></p>")) d, t') /\ headlines t' = headlines t ++ contents d /\ (has_toc d = true -> spent t').
Proof.
  intros c blog. induction d as [|i d IH]; intros t Hc Hm.
  - exists t. split; [reflexivity|]. split; [symmetry; apply app_nil_r|discriminate].
  - cbn [items_show]. unfold both, text. cbn [fst snd].
    assert (B : forall w, item_shows c blog i t = (w, t) -> contents (i :: d) = contents d -> 
      html_titems blog (strict c) (Some ($ "<p><<toc>></p>")) (i :: d) = w ++ match d with [] => [] | _ => [10] end ++ html_titems blog (strict c) (Some ($ "<p><<toc>></p>")) d ->
      exists t', (fst (item_shows c blog i t) ++ match d with [] => [] | _ => [10] end ++ fst (items_show c blog d (snd (item_shows c blog i t))), snd (items_show c blog d (snd (item_shows c blog i t)))) =
      (html_titems blog (strict c) (Some ($ "<p><<toc>></p>")) (i :: d), t') /\ headlines t' = headlines t ++ contents (i :: d) /\ (has_toc d = true -> spent t')).
    { intros w -> -> ->. cbn [fst snd]. destruct (IH t Hc Hm) as (t' & -> & E). exists t'. split; [reflexivity|exact E]. }
    destruct i as [b|dd].
    + destruct b as [lines|n sp0 x cl| |lines|o items|rows]; try (eapply B; [reflexivity|reflexivity|cbn [html_titems html_tblock]; rewrite block_text, <- !app_assoc; reflexivity]).
      clear B. cbn [item_shows html_titems html_tblock html_block line_end contents]. unfold head_shows. cbn [fst snd]. rewrite Hm.
      destruct (IH (mktoc None (headlines t ++ [(n, x)]) (created t)) Hc eq_refl) as (t' & -> & E & E'). exists t'. cbn [fst snd]. rewrite <- !app_assoc. split; [reflexivity|]. split; [rewrite E; cbn [headlines]; rewrite <- app_assoc; reflexivity|exact E'].
    + clear B. eexists. unfold item_shows, tag_shows, tag_call. rewrite Hc. cbn [fst snd]. rewrite (shows_below c blog d dd); [|reflexivity|rewrite Hm; destruct dd; reflexivity]. cbn [fst snd html_titems]. split; [rewrite <- !app_assoc; reflexivity|]. split; [reflexivity|]. intros _. split; [reflexivity|]. exists dd. cbn [max_depth]. rewrite Hm. destruct dd; reflexivity.
Qed.
(** ** where the tag stands *)
Lemma tag_place : forall blog str_ d, has_toc d = true -> exists X Y, single X = true /\ forall w, html_titems blog str_ (Some w) d = X ++ w ++ Y.
Proof.
  intros blog str_. induction d as [|i d IH]; intro H; [discriminate|]. destruct i as [b|dd].
  - destruct (IH H) as (X & Y & HX & E). exists (html_tblock blog str_ b ++ line_end b ++ match d with [] => [] | _ => [10] end ++ X), Y. split.
    + apply single_app; [apply single_tblock|]. apply single_app; [destruct b; reflexivity|]. apply single_app; [destruct d; reflexivity|exact HX].
    + intro w. cbn [html_titems]. rewrite E, <- !app_assoc. reflexivity.
  - exists [], ([10] ++ match d with [] => [] | _ => [10] end ++ html_titems blog str_ None d). split; [reflexivity|]. reflexivity.
Qed.
Lemma drop_while_stop : forall (p : N -> bool) X c r, p c = false -> drop_while p (X ++ c :: r) = drop_while p X ++ c :: r.
Proof. intros p X c r H. induction X as [|x X IH]; cbn [app drop_while]; [rewrite H; reflexivity|]. destruct (p x); [exact IH|reflexivity]. Qed.
Lemma rstrip_stop : forall (p : N -> bool) A z Y, p z = false -> rstrip_by p (A ++ z :: Y) = A ++ z :: rstrip_by p Y.
Proof.
  intros p A z Y H. induction A as [|x A IH]; cbn [app rstrip_by]; [rewrite H; destruct (rstrip_by p Y); reflexivity|]. rewrite IH. destruct A; reflexivity.
Qed.
Lemma strip_outside : forall (X : str) a w z Y, is_space a = false -> is_space z = false -> strip (X ++ (a :: w ++ [z]) ++ Y) = lstrip X ++ (a :: w ++ [z]) ++ rstrip Y.
Proof.
  intros X a w z Y Ha Hz. assert (E1 : lstrip (X ++ (a :: w ++ [z]) ++ Y) = (lstrip X ++ a :: w) ++ z :: Y).
  { etransitivity; [exact (drop_while_stop is_space X a ((w ++ [z]) ++ Y) Ha)|]. rewrite <- !app_assoc. reflexivity. }
  change (strip (X ++ (a :: w ++ [z]) ++ Y)) with (rstrip (lstrip (X ++ (a :: w ++ [z]) ++ Y))). rewrite E1. etransitivity; [exact (rstrip_stop is_space (lstrip X ++ a :: w) z Y Hz)|].
  rewrite <- !app_assoc. cbn [app]. rewrite <- !app_assoc. reflexivity.
Qed.
Lemma single_lstrip : forall X, single X = true -> single (lstrip X) = true.
Proof.
  unfold lstrip, lstrip_by. induction X as [|c X IH]; intro H; [reflexivity|]. cbn [drop_while]. destruct (is_space c); [|exact H]. apply IH. cbn [single] in H. apply andb_true_iff in H as [_ H]. exact H.
Qed.
Lemma toc_ends : forall l, exists w, html_toc l = 60 :: w ++ [62].
Proof. intro l. exists ($ "ul>" ++ [10] ++ toc_lines 1 l ++ $ "</ul"). unfold html_toc. repeat (rewrite <- ?app_assoc; cbn [app]). reflexivity. Qed.
Lemma contents_levels : forall blog fst d, titems_ok_from blog fst d = true -> Forall (fun x => (1 <= Datatypes.fst x)%nat) (contents d).
Proof.
  assert (H0 : forall blog n sp0 t cl T, titem_ok blog (TBlock (BHead n sp0 t cl)) T = true -> (1 <= n)%nat) by (intros blog [|n] sp0 t cl T H; [discriminate|lia]).
  assert (G : forall blog depth d fst, titems_ok_from blog fst d = true -> Forall (fun x => (1 <= Datatypes.fst x)%nat) (listed_below depth d)).
  { intros blog depth. induction d as [|i d IH]; intros fst H; [constructor|]. cbn [titems_ok_from] in H. apply andb_true_iff in H as [H H3]. apply andb_true_iff in H as [H1 _].
    destruct i as [[lines|n sp0 x cl| |lines|o items|rows]|dd]; cbn [listed_below]; try (exact (IH _ H3)). destruct (within depth n); [|exact (IH _ H3)]. constructor; [eapply H0; exact H1|exact (IH _ H3)]. }
  intros blog fst d. revert fst. induction d as [|i d IH]; intros fst H; [constructor|]. cbn [titems_ok_from] in H. apply andb_true_iff in H as [H H3]. apply andb_true_iff in H as [H1 _].
  destruct i as [[lines|n sp0 x cl| |lines|o items|rows]|dd]; cbn [contents]; try (exact (IH _ H3)); [|exact (G _ _ _ _ H3)]. constructor; [eapply H0; exact H1|exact (IH _ H3)].
Qed.
Lemma titems_no_cr : forall blog fst d, titems_ok_from blog fst d = true -> ~ In 13 (wr_titems d).
Proof.
  intros blog fst d. revert fst. induction d as [|p d IH]; intros fst H; [intros []|]. cbn [titems_ok_from] in H. apply andb_true_iff in H as [H H3]. apply andb_true_iff in H as [H1 _].
  rewrite wr_titems_cons. intro X. apply in_app_or in X as [X|X].
  - destruct p as [b|dd]; cbn [titem_ok wr_titem] in *; [exact (piece_no_cr blog (PBlock b) H1 X)|]. destruct (toc_line_facts dd) as (_ & L2 & _). exact (no_cr _ L2 X).
  - destruct d as [|p2 d]; [destruct X|]. unfold tafter in X. apply in_app_or in X as [[X|[X|[]]]|X]; [discriminate|discriminate|exact (IH _ H3 X)].
Qed.
Theorem titems_spent : forall blog verbose strict md d, titems_ok blog d = true -> has_toc d = true -> md_toc md = TNone -> exists t', spent t' /\
  creole2html (mkopts blog verbose strict) md (wr_titems d) = (Ok (strip (html_titems blog strict (Some (html_toc (contents d))) d)), mkmd (md_env md) (TObj t') (md_log md)).
Proof.
  intros blog v st md d H Ht Hm. destruct d as [|p d]; [discriminate|]. unfold creole2html. cbn [o_blog o_verbose o_strict]. unfold parse. rewrite norm_id by (eapply titems_no_cr; exact H).
  set (c := mkcfg (match v with None => 1%Z | Some v => v end) st (md_env md) true).
  pose proof (titems_run_first c eq_refl blog p d H) as Hr. rewrite Ht in Hr. destruct Hr as (s' & Hs & _ & Hf). rewrite Hf.
  destruct (tst_emit c _ _ Hs) as (root & u & -> & Eu & Em). unfold init_toc. rewrite Eu, Hm. fold c. unfold emit.
  rewrite (Em new_toc (md_log md) I). destruct (shows_above c blog (p :: d) new_toc eq_refl eq_refl) as (t' & -> & Eh & Esp). cbn [fst snd toc log]. change (use_toc c) with true. cbv iota.
  exists t'. split; [exact (Esp Ht)|]. change (strict c) with st. destruct (tag_place blog st (p :: d) Ht) as (X & Y & HX & EX). rewrite !EX. destruct (toc_ends (contents (p :: d))) as (w & Ew).
  unfold toc_emit. rewrite Eh. change (headlines new_toc ++ contents (p :: d)) with (contents (p :: d)). rewrite (toc_html_lines _ (contents_levels blog true (p :: d) H)).
  assert (E1 : strip (X ++ html_toc (contents (p :: d)) ++ Y) = lstrip X ++ html_toc (contents (p :: d)) ++ rstrip Y) by (rewrite Ew; exact (strip_outside X 60 w 62 Y eq_refl eq_refl)).
  assert (E2 : strip (X ++ $ "<p><<toc>></p>" ++ Y) = lstrip X ++ $ "<p><<toc>></p>" ++ rstrip Y) by exact (strip_outside X 60 ($ "p><<toc>></p") 62 Y eq_refl eq_refl).
  rewrite E1, E2.
  destruct (tag_replaced (lstrip X) (rstrip Y) (html_toc (contents (p :: d))) (single_lstrip X HX)) as (-> & ->). reflexivity.
Qed.
Theorem titems_spec : forall blog verbose strict md d, titems_ok blog d = true -> has_toc d = true -> md_toc md = TNone -> exists t',
  creole2html (mkopts blog verbose strict) md (wr_titems d) = (Ok (strip (html_titems blog strict (Some (html_toc (contents d))) d)), mkmd (md_env md) t' (md_log md)).
Proof. intros blog v st md d H Ht Hm. destruct (titems_spent blog v st md d H Ht Hm) as (t' & _ & E). exists (TObj t'). exact E. Qed.
