(** * The text of a heading may stand some lines below its equal signs (C12) *)
From Coq Require Import String List Arith NArith ZArith Bool Lia.
From Verif Require Import PyStr PyStrFacts GNames Regex Rules RegexFacts RegexRun Utils DocTree CreoleParser ParserFacts
  Res HtmlEmitter EmitterFacts HtmlToolsFacts Spec4 Spec5 InlineRun InlineParse BlockRun BlockHits TableHits BlockParse DocParse Spec53.
Import ListNotations.
Open Scope N_scope.

Definition far_ok (n : nat) (sp0 t cl : str) : bool :=
  Nat.ltb 0 n && forallb is_space sp0 && no_char [13] sp0 && trimmed t && no_char [10; 13] t && negb (head_is (N.eqb 61) t) && negb (last_is (N.eqb 61) t) &&
  forallb (fun c => (c =? 61) || (c =? 32)) cl.
Lemma far_hit : forall n sp0 t cl T b, far_ok n sp0 t cl = true -> bol b = true -> tail T = true ->
  let w := wr_block (BHead n sp0 t cl) in
  m r_head (mk b (w ++ T) []) fin = Some (mk (rev w ++ b) T (head_caps n w t)).
Proof.
  intros n sp0 t cl T b Hok Hb HT w. unfold far_ok in Hok. rewrite !andb_true_iff, !negb_true_iff in Hok.
  destruct Hok as [[[[[[[Hn Hs] _] Ht] Hnl] Hh] Hl] Hcl]. unfold trimmed in Ht. rewrite !andb_true_iff, !negb_true_iff in Ht.
  destruct Ht as [[Ht1 Ht2] Ht3].
  unfold r_head. rewrite m_grp. unfold seqs. rewrite m_seq, m_bol, Hb, m_seq.
  subst w. cbn [wr_block]. destruct n as [|n]; [discriminate|]. rewrite m_grp. unfold RPlus. rewrite m_seq. unfold c1 at 1.
  cbn [repeat app]. rewrite m_chr. change (61 =? 61) with true. cbv iota.
  repeat rewrite <- app_assoc.
  assert (Hst : stop (N.eqb 61) (sp0 ++ t ++ cl ++ T)).
  { destruct sp0 as [|c s]; cbn [app].
    - destruct t as [|c t]; [discriminate|]. cbn [app stop]. cbn [head_is] in Hh. exact Hh.
    - cbn [stop]. cbn [forallb] in Hs. apply andb_true_iff in Hs as [Hs _]. destruct (N.eqb_spec 61 c); [subst c; discriminate|reflexivity]. }
  apply star_take; [apply forallb_repeat; reflexivity|exact Hst|]. cbn [bef rest caps]. rewrite m_seq.
  unfold sps, sp. apply star_take; [exact Hs| |].
  { destruct t as [|c t]; [discriminate|]. exact Ht1. }
  rewrite m_seq. unfold dotstar_lazy, dot. apply star_lazy_grp.
  - apply (no_char_dot [10; 13]); [left; reflexivity|exact Hnl].
  - rewrite m_seq. unfold c1. rewrite star_alt_chr. apply lazy_until.
    + rewrite forallb_forall in *. intros x Hx. specialize (Hcl x Hx). apply orb_true_iff in Hcl as [H|H]; apply N.eqb_eq in H; subst x; reflexivity.
    + rewrite m_eol. assert (eol T = true) as -> by (destruct T; [reflexivity|exact HT]). unfold fin. cbn [bef rest caps]. f_equal. f_equal.
      * cbn [rev]. repeat (rewrite ?rev_app_distr, <- ?app_assoc; cbn [rev app]). reflexivity.
      * unfold head_caps. f_equal; [|f_equal].
        -- f_equal. 
           match goal with |- firstn _ ?l = ?w => replace l with (w ++ T) by (cbn [app repeat]; repeat (rewrite <- app_assoc; cbn [app]); reflexivity) end.
           apply firstn_grp.
        -- f_equal. f_equal. exact (firstn_grp (repeat 61 (S n)) _).
    + intros x1 x2 -> Hx2. rewrite m_eol. destruct x2 as [|c x2]; [congruence|]. cbn [app eol].
      rewrite forallb_forall in Hcl. assert (Hc : In c (x1 ++ c :: x2)) by (apply in_or_app; right; left; reflexivity).
      specialize (Hcl c Hc). apply orb_true_iff in Hcl as [H|H]; apply N.eqb_eq in H; subst c; reflexivity.
  - intros x1 x2 -> Hx2. rewrite m_seq. unfold c1. rewrite star_alt_chr. apply star_none. intros z y Ez Hz. rewrite m_eol.
    assert (L : last_is (fun c => (61 =? c) || is_space c) x2 = false).
    { rewrite last_is_orb. rewrite last_is_suffix in Ht2, Hl by exact Hx2. rewrite Ht2, Hl. reflexivity. }
    destruct (class_inside _ _ _ _ _ Hx2 L Ez Hz) as (d & x3 & -> & z' & E). cbn [eol].
    rewrite (no_nl [10; 13] (x1 ++ x2) d (x1 ++ z') x3); [reflexivity|left; reflexivity|exact Hnl|rewrite E, app_assoc; reflexivity].
Qed.
Section Far.
  Variable c : cfg.
  Hypothesis no_toc : use_toc c = false.
  Lemma far_scan : forall blog n sp0 t cl, far_ok n sp0 t cl = true -> forall T dch u b, tail2 T = true -> nobreak dch -> bol b = true ->
    run blog (mts (scan (block_re blog) 0 b (wr_block (BHead n sp0 t cl) ++ T))) (mkps [(doc_h, dch)] false u false) =
    run blog (rest_ms blog (rev (wr_block (BHead n sp0 t cl)) ++ b) T) (mkps [(doc_h, Nd (mkl KHeader (Some t) n) [] :: dch)] false u false).
  Proof.
    intros blog n sp0 t cl Hok T dch u b HT Hd Hb.
    pose proof Hok as Hok'. unfold far_ok in Hok'. rewrite !andb_true_iff, !negb_true_iff in Hok'.
    destruct Hok' as [[[[[[[Hn Hsp] Hcr] Ht] Hnl] Hh] Hl] Hcl].
    remember (wr_block (BHead n sp0 t cl)) as w eqn:Ew.
    assert (Hw : head_is (N.eqb 61) w = true) by (subst w; destruct n; [discriminate|reflexivity]).
    assert (Hm : m (block_re blog) (mk b (w ++ T) []) fin = Some (mk (rev w ++ b) T (head_caps n w t))).
    { rewrite block_alts. destruct w as [|d w']; [discriminate|]. cbn [head_is] in Hw. apply N.eqb_eq in Hw. subst d. unfold r_macro_block.
      rewrite macro_no by reflexivity. rewrite line_no by (right; reflexivity). cbn [orelse]. apply orelse_some. rewrite Ew. apply far_hit; [exact Hok|exact Hb|apply tail2_tail; exact HT]. }
    assert (Hwn : w <> []) by (intros ->; discriminate).
    rewrite (mts_hit _ _ _ _ _ Hwn Hm).
    assert (Hbl : bol (rev w ++ b) = false).
    { rewrite bol_app by exact Hwn. apply bol_last; [exact Hwn|]. subst w. cbn [wr_block].
      destruct cl as [|d cl] using rev_ind.
      - rewrite app_nil_r, app_assoc. unfold trimmed in Ht. rewrite !andb_true_iff in Ht. destruct Ht as [_ Ht].
        rewrite last_is_suffix by (destruct t; discriminate). unfold last_is. destruct (rev t) as [|d r] eqn:R; [reflexivity|]. cbn [head_is].
        rewrite N.eqb_sym. eapply (no_nl [10; 13] t d (rev r) []); [left; reflexivity|exact Hnl|]. rewrite <- (rev_involutive t), R. reflexivity.
      - rewrite !app_assoc, last_is_suffix by discriminate. rewrite forallb_app in Hcl. apply andb_true_iff in Hcl as [_ Hcl]. cbn [forallb] in Hcl.
        rewrite andb_true_r in Hcl. apply orb_true_iff in Hcl as [H|H]; apply N.eqb_eq in H; subst d; reflexivity. }
    rewrite rest_scan by assumption.
    rewrite (run_cons blog _ _ _ G_head) by (destruct blog; reflexivity). f_equal. cbn [block_handler]. unfold head_repl.
    assert (U : upto_block (mkps [(doc_h, dch)] false u false) = mkps [(doc_h, dch)] false u false) by (unfold upto_block, upto; rewrite cleanup_nobreak by exact Hd; reflexivity). rewrite U.
    rewrite (need_some G_head_text _ _ _ t) by reflexivity. rewrite (need_some G_head_head _ _ _ (repeat 61 n)) by reflexivity.
    rewrite repeat_length, trimmed_strip by exact Ht. reflexivity.
  Qed.
  Lemma far_first : forall blog n sp0 t cl, far_ok n sp0 t cl = true ->
    first_ok c blog (html_block true (strict c) (BHead n sp0 t cl) ++ [10]) (wr_block (BHead n sp0 t cl)).
  Proof.
    intros blog n sp0 t cl Hok T s out b HT (dch & -> & Hd & Sh) Hb. eexists. split; [|apply far_scan; assumption].
    apply atdoc_docst. eexists. split; [reflexivity|]. split; [discriminate|]. cbn [rev html_block]. apply showns_snoc; [exact Sh|]. apply shown_header. exact no_toc.
  Qed.
  Lemma far_next : forall n sp0 t cl, far_ok n sp0 t cl = true ->
    next_ok c true (html_block true (strict c) (BHead n sp0 t cl) ++ [10]) (wr_block (BHead n sp0 t cl)).
  Proof.
    intros n sp0 t cl Hok. apply next_lazy; [apply far_first; exact Hok| | |]; unfold far_ok in Hok; destruct n as [|n]; try discriminate; try reflexivity.
    intros T HT. repeat split. cbn [wr_block repeat app list_start]. match goal with |- match ?x with _ => _ end = _ => destruct x end; reflexivity.
  Qed.
  Lemma respaced_far : forall blog b b', block_ok blog b = true -> respaced b b' -> b' = b \/ exists n sp sp' t cl, b = BHead n sp t cl /\ b' = BHead n sp' t cl /\ far_ok n sp' t cl = true.
  Proof.
    intros blog b b' H R. destruct R as [b|n sp0 sp' t cl H1 H2]; [left; reflexivity|]. right. exists n, sp0, sp', t, cl. split; [reflexivity|]. split; [reflexivity|].
    cbn [block_ok] in H. rewrite !andb_true_iff in H. destruct H as [[[[[[A1 A2] A3] A4] A5] A6] A7]. unfold far_ok. rewrite H1, A3, A4, A5, A6, A7.
    assert (no_char [13] sp' = true) as ->.
    { clear - H2. unfold no_char. apply forallb_forall. intros x Hx. cbn [in_str existsb]. destruct (N.eqb_spec x 13) as [->|]; [contradiction|reflexivity]. }
    destruct n; [discriminate|reflexivity].
  Qed.
  Lemma html_same : forall blog st b b', respaced b b' -> html_raw blog st b' = html_raw blog st b.
  Proof. intros blog st b b' R. destruct R; reflexivity. Qed.
  Lemma far_block_first : forall blog b b', block_ok blog b = true -> respaced b b' -> first_ok c blog (html_raw blog (strict c) b) (wr_block b').
  Proof.
    intros blog b b' H R. destruct (respaced_far blog b b' H R) as [->|(n & sp0 & sp' & t & cl & -> & -> & F)]; [apply block_first; assumption|].
    exact (far_first blog n sp' t cl F).
  Qed.
  Lemma far_block_next : forall blog b b', block_ok blog b = true -> after_blank blog b = true -> respaced b b' -> next_ok c blog (html_raw blog (strict c) b) (wr_block b').
  Proof.
    intros blog b b' H A R. destruct (respaced_far blog b b' H R) as [->|(n & sp0 & sp' & t & cl & -> & -> & F)]; [apply block_next; assumption|].
    destruct blog; [|discriminate]. exact (far_next n sp' t cl F).
  Qed.
  Lemma far_head : forall blog b b', block_ok blog b = true -> respaced b b' -> truthy (wr_block b') = true /\ head_is is_space (wr_block b') = false.
  Proof.
    intros blog b b' H R. destruct (respaced_far blog b b' H R) as [->|(n & sp0 & sp' & t & cl & -> & -> & F)]; [apply (block_head blog b H)|].
    unfold far_ok in F. destruct n; [discriminate|]. split; reflexivity.
  Qed.
  Lemma far_tail2 : forall blog d d', forallb (block_ok blog) d = true -> Forall2 respaced d d' -> tail2 (after d') = true.
  Proof.
    intros blog d d' H R. destruct R as [|b b' d d' R _]; [reflexivity|]. cbn [forallb] in H. apply andb_true_iff in H as [H _].
    destruct (far_head blog b b' H R) as (A & B). cbn [after tail2 app]. rewrite wr_doc_cons. destruct (head_app is_space (wr_block b') (after d') A) as (-> & ->). rewrite B. reflexivity.
  Qed.
  Lemma far_docs : forall blog d d', Forall2 respaced d d' -> forallb (block_ok blog) d = true -> forallb (after_blank blog) d = true -> forall b s out, docst c s out -> 
    exists s', docst c s' (out ++ raws c blog d) /\ run blog (rest_ms blog b (after d')) s = s'.
  Proof.
    intros blog d d' R. induction R as [|b b' d d' R RS IH]; intros Hok Ha b0 s out Hs.
    - exists s. cbn [after rest_ms raws flat_map]. rewrite app_nil_r. auto.
    - cbn [forallb] in Hok, Ha. apply andb_true_iff in Hok as [H1 H2], Ha as [A1 A2]. pose proof (far_tail2 blog d d' H2 RS) as HT.
      destruct (far_block_next blog b b' H1 A1 R (after d') s out (10 :: b0) HT Hs eq_refl) as (s1 & Hs1 & E1).
      destruct (IH H2 A2 (rev (10 :: wr_block b') ++ 10 :: b0) s1 _ Hs1) as (s2 & Hs2 & E2). exists s2. split.
      + unfold raws. cbn [flat_map]. fold (raws c blog d). rewrite <- !app_assoc in Hs2. rewrite <- !app_assoc. exact Hs2.
      + rewrite <- E2, <- E1. unfold after at 1. cbn [rest_ms app]. rewrite wr_doc_cons. reflexivity.
  Qed.
  Lemma far_run : forall blog b d b' d', doc_ok blog (b :: d) = true -> respaced b b' -> Forall2 respaced d d' ->
    exists s', docst c s' (html_raw blog (strict c) b ++ raws c blog d) /\ parse_block blog (wr_doc (b' :: d')) init_ps = s'.
  Proof.
    intros blog b d b' d' H R RS. unfold doc_ok in H. cbn [forallb tl] in H. apply andb_true_iff in H as [H A2]. apply andb_true_iff in H as [H1 H2].
    assert (Hi : atdoc c init_ps []) by (exists []; split; [reflexivity|]; split; [exact I|apply showns_nil]).
    destruct (far_block_first blog b b' H1 R (after d') init_ps [] [] (far_tail2 blog d d' H2 RS) Hi eq_refl) as (s1 & Hs1 & E1).
    destruct (far_docs blog d d' RS H2 A2 (rev (wr_block b') ++ []) s1 _ Hs1) as (s2 & Hs2 & E2). exists s2. split; [exact Hs2|].
    rewrite <- E2, <- E1, wr_doc_cons. reflexivity.
  Qed.
End Far.
Lemma far_no_cr : forall blog d d', Forall2 respaced d d' -> forallb (block_ok blog) d = true -> ~ In 13 (wr_doc d').
Proof.
  intros blog d d' R. induction R as [|b b' d d' R RS IH]; intro H; [intros []|]. cbn [forallb] in H. apply andb_true_iff in H as [H1 H2]. rewrite wr_doc_cons.
  assert (B : ~ In 13 (wr_block b')).
  { pose proof (block_no_cr blog b H1) as K. destruct R as [b|n sp0 sp' t cl _ N]; [exact K|]. cbn [wr_block] in *. rewrite !in_app_iff in *. tauto. }
  intro K. apply in_app_or in K as [K|K]; [exact (B K)|]. destruct d' as [|b2 d']; [destruct K|]. unfold after in K. apply in_app_or in K as [[K|[K|[]]]|K]; [discriminate|discriminate|exact (IH H2 K)].
Qed.
Lemma far_spec : forall blog v s md d d', doc_ok blog d = true -> Forall2 respaced d d' ->
  creole2html (mkopts blog v s) md (wr_doc d') = (Ok (html_doc blog s d), md).
Proof.
  intros blog v s md d d' H R. destruct R as [|b b' d d' R RS]; [apply (document_spec blog v s md []); exact H|].
  unfold creole2html. cbn [o_blog o_verbose o_strict]. unfold parse. 
  pose proof H as H'. unfold doc_ok in H'. apply andb_true_iff in H' as [H1 _]. rewrite norm_id by (eapply far_no_cr; [constructor; [exact R | exact RS] | exact H1]).
  set (c := mkcfg (match v with None => 1%Z | Some v => v end) s (md_env md) false).
  destruct (far_run c eq_refl blog b d b' d' H R RS) as (s' & Hs & E). rewrite E.
  destruct (docst_emit c s' _ (mkest (md_toc md) (md_log md)) Hs) as (root & -> & Er). cbn [init_toc existsb]. fold c. unfold emit. rewrite Er.
  change (use_toc c) with false. cbv iota beta. cbn [toc log]. rewrite raws_html. rewrite strip_solid.
  + destruct md. reflexivity.
  + apply html_doc_solid. discriminate.
  + unfold last_nl. destruct (rev (b :: d)) as [|[] r]; auto.
Qed.
Lemma far_below : forall v s md n k t, (1 <= n)%nat -> trimmed t = true -> no_char [10; 13] t = true ->
  head_is (N.eqb 61) t = false -> last_is (N.eqb 61) t = false ->
  creole2html (mkopts true v s) md (repeat 61 n ++ [10; 10] ++ repeat 10 k ++ t) =
  (Ok ($ "<h" ++ show_nat n ++ $ ">" ++ escape t ++ $ "</h" ++ show_nat n ++ $ ">"), md).
Proof.
  intros v s md n k t H1 H2 H3 H4 H5. pose proof (far_spec true v s md [BHead n ($ " ") t []] [BHead n ([10; 10] ++ repeat 10 k) t []]) as K.
  cbn [wr_doc wr_block html_doc html_block] in K. rewrite <- app_assoc, app_nil_r in K. rewrite K.
  - unfold elem. rewrite <- !app_assoc. reflexivity.
  - unfold doc_ok. cbn [forallb tl block_ok]. rewrite H2, H3, H4, H5. destruct n; [lia|reflexivity].
  - constructor; [|constructor]. apply head_block.
    + rewrite forallb_app. rewrite forallb_repeat; reflexivity.
    + intro K2. apply in_app_or in K2 as [K2|K2]; [cbn in K2; intuition discriminate|]. apply repeat_spec in K2. discriminate.
Qed.
