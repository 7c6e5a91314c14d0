(** * Single macro tags in a line are recognised *)
From Coq Require Import String List Arith NArith ZArith Bool Lia.
From Verif Require Import PyStr PyStrFacts GNames Regex Rules RegexFacts RegexRun Utils DocTree CreoleParser ParserFacts
  HtmlEmitter EmitterFacts HtmlToolsFacts Spec4 Spec5 Spec7 Spec20 Spec22 InlineRun BlockRun BlockHits MacroHit.
Import ListNotations.
Open Scope N_scope.

Lemma Mt_seq_inv : forall a b s s', Mt (RSeq a b) s s' -> exists s1, Mt a s s1 /\ Mt b s1 s'.
Proof. intros a b s s' H. inversion H; subst. eauto. Qed.
Lemma Mt_grp_inv : forall g r s s', Mt (RGrp g r) s s' -> exists s1, Mt r s s1 /\ bef s' = bef s1 /\ rest s' = rest s1 /\
  caps s' = (g, firstn (List.length (rest s) - List.length (rest s1)) (rest s)) :: caps s1.
Proof. intros g r s s' H. inversion H; subst. eauto. Qed.
Lemma Mt_c1 : forall c s s', Mt (c1 c) s s' -> rest s = c :: rest s' /\ caps s' = caps s.
Proof. intros c s s' H. inversion H; subst. cbn [rest caps]. match goal with E : (_ =? _) = true |- _ => apply N.eqb_eq in E; subst end. auto. Qed.
Lemma Mt_lit : forall w s s', Mt (lit w) s s' -> rest s = w ++ rest s' /\ caps s' = caps s.
Proof.
  induction w as [|c w IH]; intros s s' H.
  - inversion H; subst; auto.
  - destruct w as [|d w].
    + cbn [lit] in H. apply Mt_c1 in H. exact H.
    + change (lit (c :: d :: w)) with (RSeq (c1 c) (lit (d :: w))) in H. apply Mt_seq_inv in H as (s1 & H1 & H2).
      apply Mt_c1 in H1 as [A1 B1]. apply IH in H2 as [A2 B2]. rewrite A1, A2. split; [reflexivity|congruence].
Qed.
Lemma Mt_sps : forall s s', Mt sps s s' -> exists z, rest s = z ++ rest s' /\ caps s' = caps s /\ forallb is_space z = true.
Proof. intros s s' H. apply Mt_star_chr in H as (z & A & _ & B & C). eauto. Qed.
Lemma Mt_words : forall s s', Mt (RPlus true word) s s' -> exists w, rest s = w ++ rest s' /\ caps s' = caps s /\ forallb is_word w = true /\ w <> [].
Proof.
  intros s s' H. apply Mt_seq_inv in H as (s1 & H1 & H2). apply Mt_star_chr in H2 as (z & A & _ & B & C).
  inversion H1; subst. cbn [rest caps] in *. exists (c :: z). cbn [forallb app]. match goal with E : is_word c = true |- _ => rewrite E end. rewrite A.
  split; [reflexivity|split; [exact B|split; [exact C|discriminate]]].
Qed.
Lemma Mt_rest : forall r s s', Mt r s s' -> exists w, rest s = w ++ rest s'.
Proof. intros r s s' H. apply Mt_ext in H as (w & cs & A & _). eauto. Qed.
Lemma eat_inv : forall w s s', eat w s = Some s' -> rest s = w ++ rest s' /\ caps s' = caps s.
Proof.
  induction w as [|c w IH]; intros [b t cs] s' H; cbn [eat rest caps] in *.
  - injection H as <-. auto.
  - destruct t as [|d t]; [discriminate|]. destruct (c =? d) eqn:E; [|discriminate]. apply N.eqb_eq in E. subst d.
    apply IH in H as [A B]. cbn [rest caps] in *. rewrite A. auto.
Qed.
Lemma Mt_back_inv : forall g s s', Mt (RBack g) s s' -> exists w, cap g (caps s) = Some w /\ eat w s = Some s'.
Proof. intros g s s' H. inversion H; subst. eauto. Qed.
(** what a match of a macro around a text looks like *)
Lemma macro_shape : forall g gs ga gt b T s', gs <> ga -> gs <> gt -> Mt (r_macro g gs ga gt) (mk b T []) s' ->
  exists z1 w u text z4 z5 T', T = $ "<<" ++ z1 ++ w ++ u ++ $ ">>" ++ text ++ $ "<</" ++ z4 ++ w ++ z5 ++ $ ">>" ++ T' /\
  forallb is_space z1 = true /\ forallb is_space z4 = true /\ forallb is_space z5 = true /\ forallb is_word w = true /\ w <> [].
Proof.
  intros g gs ga gt b T s' G1 G2 H. unfold r_macro in H. apply Mt_grp_inv in H as (s1 & H & _). clear s'. unfold seqs in H.
  apply Mt_seq_inv in H as (t1 & H1 & H). apply Mt_lit in H1 as [A1 B1]. cbn [rest caps] in *.
  apply Mt_seq_inv in H as (t2 & H2 & H). apply Mt_sps in H2 as (z1 & A2 & B2 & C2).
  apply Mt_seq_inv in H as (t3 & H3 & H). apply Mt_grp_inv in H3 as (t3' & H3 & _ & A3' & B3'). apply Mt_words in H3 as (w & A3 & B3 & C3 & D3).
  apply Mt_seq_inv in H as (t4 & H4 & H). apply Mt_sps in H4 as (z2 & A4 & B4 & C4).
  apply Mt_seq_inv in H as (t5 & H5 & H). apply Mt_grp_inv in H5 as (t5' & H5 & _ & A5' & B5'). unfold dotstar_lazy, dot in H5. apply Mt_star_chr in H5 as (a & A5 & _ & B5 & _).
  apply Mt_seq_inv in H as (t6 & H6 & H). apply Mt_sps in H6 as (z3 & A6 & B6 & _).
  apply Mt_seq_inv in H as (t7 & H7 & H). apply Mt_lit in H7 as [A7 B7].
  apply Mt_seq_inv in H as (t8 & H8 & H). apply Mt_grp_inv in H8 as (t8' & H8 & _ & A8' & B8').
  assert (B8 : cap gs (caps t8') = cap gs (caps t7)) by (apply (Mt_may _ _ _ gs) in H8; [exact H8|reflexivity]).
  apply Mt_rest in H8 as (text & A8).
  apply Mt_seq_inv in H as (t9 & H9 & H). apply Mt_lit in H9 as [A9 B9].
  apply Mt_seq_inv in H as (t10 & H10 & H). apply Mt_sps in H10 as (z4 & A10 & B10 & C10).
  apply Mt_seq_inv in H as (t11 & H11 & H).
  apply Mt_seq_inv in H as (t12 & H12 & H). apply Mt_sps in H12 as (z5 & A12 & B12 & C12).
  apply Mt_lit in H as [A13 B13].
  assert (N0 : forall x y, x <> y -> gname_beq x y = false) by (intros x y N; destruct (gname_beq x y) eqn:E; [exfalso; apply N, gname_beq_eq, E|reflexivity]).
  assert (CW : cap gs (caps t10) = Some w).
  { rewrite B10, B9, B8'. cbn [cap]. rewrite (N0 gs gt G2), B8, B7, B6, B5'. cbn [cap]. rewrite (N0 gs ga G1), B5, B4, B3'. cbn [cap]. rewrite gname_beq_refl, A3.
    f_equal. rewrite app_length. replace (List.length w + List.length (rest t3') - List.length (rest t3'))%nat with (List.length w + 0)%nat by lia. rewrite firstn_app_2. cbn [firstn]. apply app_nil_r. }
  apply Mt_back_inv in H11 as (w' & C11 & E11). rewrite CW in C11. injection C11 as <-. apply eat_inv in E11 as [A11 B11].
  exists z1, w, (z2 ++ a ++ z3), text, z4, z5, (rest s1).
  split; [|auto]. rewrite A1, A2, A3, <- A3', A4, A5, <- A5', A6, A7, A8, <- A8', A9, A10, A11, A12, A13. rewrite <- !app_assoc. reflexivity.
Qed.
Lemma closed_in_skip : forall name u t, closed_in name t = true -> closed_in name (u ++ t) = true.
Proof. induction u as [|c u IH]; intros t H; [exact H|]. cbn [app closed_in]. rewrite (IH t H). apply orb_true_r. Qed.
Lemma take_stop : forall (p : N -> bool) a r, forallb p a = true -> stop p r -> take_while p (a ++ r) = a.
Proof.
  induction a as [|c a IH]; intros r H Hr.
  - destruct r as [|c r]; [reflexivity|]. cbn [stop] in Hr. cbn [app take_while]. rewrite Hr. reflexivity.
  - cbn [forallb] in H. apply andb_true_iff in H as [H1 H2]. cbn [app take_while]. rewrite H1. f_equal. apply IH; assumption.
Qed.
Lemma words_stop_drop : forall w X, forallb is_word w = true -> w <> [] -> drop_while is_space (w ++ X) = w ++ X.
Proof. intros [|c w] X H Hn; [congruence|]. cbn [forallb] in H. apply andb_true_iff in H as [H _]. cbn [app]. apply drop_while_none, word_not_space, H. Qed.
Lemma closed_in_here : forall name z4 w z5 T, startswith w name = true -> forallb is_space z4 = true -> forallb is_space z5 = true -> forallb is_word w = true -> w <> [] ->
  closed_in name ($ "<</" ++ z4 ++ w ++ z5 ++ $ ">>" ++ T) = true.
Proof.
  intros name z4 w z5 T Hs H4 H5 Hw Hn.
  assert (E : forall X, closed_in name ($ "<</" ++ X) = (let w := take_while is_word (drop_while is_space X) in truthy w && startswith w name) || closed_in name (47 :: X)
    || closed_in name (47 :: X)).
  { intro X. change ($ "<</" ++ X) with (60 :: 60 :: 47 :: X).
    change (closed_in name (60 :: 60 :: 47 :: X)) with
      ((startswith ($ "<</") (60 :: 60 :: 47 :: X) && (let w := take_while is_word (drop_while is_space (skipn 3 (60 :: 60 :: 47 :: X))) in truthy w && startswith w name))
       || ((startswith ($ "<</") (60 :: 47 :: X) && (let w := take_while is_word (drop_while is_space (skipn 3 (60 :: 47 :: X))) in truthy w && startswith w name)) || closed_in name (47 :: X))).
    change (startswith ($ "<</") (60 :: 60 :: 47 :: X)) with (startswith [] X). change (skipn 3 (60 :: 60 :: 47 :: X)) with X.
    change (startswith ($ "<</") (60 :: 47 :: X)) with false. destruct X; cbn [startswith]; rewrite andb_true_l, andb_false_l, orb_false_l; destruct (truthy _ && _)%bool, (closed_in name _); reflexivity. }
  rewrite E. rewrite (drop_while_app is_space z4) by exact H4. rewrite (words_stop_drop w _ Hw Hn).
  rewrite take_stop; [|exact Hw|]. 2:{ destruct z5 as [|c z5]; [reflexivity|]. cbn [forallb] in H5. apply andb_true_iff in H5 as [H5 _]. cbn [app stop]. apply space_not_word. exact H5. }
  cbv zeta. rewrite Hs. destruct w; [congruence|]. reflexivity.
Qed.
Lemma word_prefix : forall (w name M Z : str), forallb is_word w = true -> stop is_word M -> name ++ M = w ++ Z -> startswith w name = true.
Proof.
  induction w as [|c w IH]; intros name M Z Hw Hst E; [destruct name; reflexivity|].
  cbn [forallb] in Hw. apply andb_true_iff in Hw as [H1 H2]. destruct name as [|d name].
  - cbn [app] in E. subst M. cbn [stop] in Hst. congruence.
  - cbn [app] in E. injection E as -> E. cbn [startswith]. rewrite N.eqb_refl. exact (IH name M Z H2 Hst E).
Qed.
Lemma first_end : forall (X Y T Z : str), only_end ($ ">>") X = true -> X ++ $ ">>" ++ T = Y ++ $ ">>" ++ Z -> exists v, T = v ++ Z.
Proof.
  induction X as [|c X IH]; intros Y T Z Ho E.
  - change ($ ">>" ++ T) with (62 :: 62 :: T) in E. change ($ ">>" ++ Z) with (62 :: 62 :: Z) in E.
    destruct Y as [|c [|d Y]]; cbn [app] in E; [injection E as ->; exists []; reflexivity|injection E as _ ->; exists [62]; reflexivity|].
    injection E as _ _ ->. exists (Y ++ [62; 62]). rewrite <- app_assoc. reflexivity.
  - destruct Y as [|d Y].
    + exfalso. pose proof (only_end_more ($ ">>") [] (c :: X) T Ho ltac:(discriminate)) as P. cbn [app] in P, E.
      apply not_true_iff_false in P. apply P. apply startswith_app. exists Z. exact E.
    + cbn [app] in E. injection E as _ E. cbn [only_end] in Ho. apply andb_true_iff in Ho as [_ Ho]. exact (IH Y T Z Ho E).
Qed.
(** a tag that is not closed is no macro around a text *)
Lemma unclosed_gen : forall g gs ga gt name mid b T k, gs <> ga -> gs <> gt -> forallb is_word name = true -> name <> [] -> stop is_word (mid ++ $ ">>" ++ T) -> only_end ($ ">>") (name ++ mid) = true ->
  closed_in name T = false -> m (r_macro g gs ga gt) (mk b ($ "<<" ++ name ++ mid ++ $ ">>" ++ T) []) k = None.
Proof.
  intros g gs ga gt name mid b T k G1 G2 Hw Hn Hst Ho Hc. apply m_none. intros s' H. exfalso.
  apply macro_shape in H as (z1 & w & u & text & z4 & z5 & T' & E & H1 & H4 & H5 & Hw' & Hn'); [|exact G1|exact G2].
  apply (app_inv_head ($ "<<")) in E.
  assert (z1 = []). { destruct z1 as [|c z1]; [reflexivity|]. destruct name as [|d name]; [congruence|]. cbn [app] in E. injection E as E _. subst d.
    cbn [forallb] in H1, Hw. apply andb_true_iff in H1 as [H1 _]. apply andb_true_iff in Hw as [Hw _]. rewrite (space_not_word c H1) in Hw. discriminate. }
  subst z1. cbn [app] in E.
  assert (Hs : startswith w name = true).
  { apply (word_prefix w name (mid ++ $ ">>" ++ T) _ Hw' Hst E). }
  assert (S : exists v, T = v ++ $ "<</" ++ z4 ++ w ++ z5 ++ $ ">>" ++ T').
  { rewrite (app_assoc name mid) in E. rewrite (app_assoc w u) in E. destruct (first_end _ _ _ _ Ho E) as (v & Ev). exists (v ++ text). rewrite Ev, <- app_assoc. reflexivity. }
  destruct S as (v & ->). rewrite closed_in_skip in Hc; [discriminate|]. apply closed_in_here; assumption.
Qed.
Lemma inside : forall (p : N -> bool) z x2 y v, x2 <> [] -> last_is p x2 = false -> x2 ++ y = z ++ v -> forallb p z = true ->
  exists d x3, v = d :: x3 ++ y /\ (exists z', x2 = z' ++ d :: x3).
Proof.
  induction z as [|c z IH]; intros x2 y v Hn Hl E Hz.
  - cbn [app] in E. subst v. destruct x2 as [|d x2]; [congruence|]. exists d, x2. split; [reflexivity|]. exists []. reflexivity.
  - destruct x2 as [|d x2]; [congruence|]. cbn [app] in E. inversion E; subst d.
    cbn [forallb] in Hz. apply andb_true_iff in Hz as [Hc Hz].
    assert (Hx : x2 <> []).
    { intros ->. unfold last_is in Hl. cbn in Hl. rewrite Hc in Hl. discriminate. }
    assert (Hl' : last_is p x2 = false) by (rewrite <- (last_is_suffix p [c] x2 Hx); exact Hl).
    destruct (IH x2 y v Hx Hl' H1 Hz) as (d & x3 & -> & z' & ->). exists d, x3. split; [reflexivity|]. exists (c :: z'). reflexivity.
Qed.
Definition slash (s : bool) : str := if s then $ " /" else [].
Lemma only_end_slash : forall x s, only_end ($ ">>") x = true -> only_end ($ ">>") (x ++ slash s) = true.
Proof.
  intros x [|] H; [|unfold slash; rewrite app_nil_r; exact H]. induction x as [|c x IH]; [reflexivity|].
  cbn [only_end] in H. apply andb_true_iff in H as [H1 H2]. cbn [app only_end]. rewrite (IH H2), andb_true_r. apply negb_true_iff in H1. apply negb_true_iff.
  change (c :: x ++ slash true) with ((c :: x) ++ slash true). destruct x as [|d x].
  - change (startswith ($ ">>") (([c] ++ slash true) ++ $ ">>")) with ((62 =? c) && false). apply andb_false_r.
  - etransitivity; [|exact H1]. change ((c :: d :: x) ++ slash true) with ((c :: d :: x ++ slash true)).
    etransitivity; [exact (startswith_short ($ ">>") [c; d] ((x ++ slash true) ++ $ ">>") (le_n 2))|symmetry]. exact (startswith_short ($ ">>") [c; d] (x ++ $ ">>") (le_n 2)).
Qed.
Lemma only_end_word : forall n x, forallb is_word n = true -> only_end ($ ">>") x = true -> only_end ($ ">>") (n ++ x) = true.
Proof.
  induction n as [|c n IH]; intros x H Hx; [exact Hx|]. cbn [forallb] in H. apply andb_true_iff in H as [H1 H2]. cbn [app only_end]. rewrite (IH x H2 Hx), andb_true_r.
  apply negb_true_iff. change (startswith ($ ">>") ((c :: n ++ x) ++ $ ">>")) with ((62 =? c) && startswith [62] ((n ++ x) ++ $ ">>")).
  destruct (N.eqb_spec 62 c) as [E|N]; [subst c; discriminate|]. apply N.eqb_neq in N. cbn [app startswith]. rewrite N. reflexivity.
Qed.
Lemma only_end_spaced : forall a, args_fine a -> only_end ($ ">>") (spaced a) = true.
Proof. intros [|c a] [H|(_ & _ & H)]; try reflexivity; try discriminate. exact H. Qed.
(** a single tag *)
Lemma tag_hit : forall name a sl b T k r, forallb is_word name = true -> name <> [] -> args_fine a -> last_is (N.eqb 47) a = false ->
  let w := $ "<<" ++ name ++ spaced a ++ slash sl ++ $ ">>" in
  k (mk (rev w ++ b) T [(G_macro_tag, w); (G_macro_tag_args, spaced a); (G_macro_tag_name, name)]) = Some r ->
  m r_macro_tag (mk b (w ++ T) []) k = Some r.
Proof.
  intros name a sl b T kk rr Hw Hn Ha Hl w Hkk. unfold r_macro_tag. rewrite m_grp. unfold seqs at 1. rewrite m_seq. subst w.
  match goal with |- context [mk b ?l []] => replace l with ($ "<<" ++ name ++ spaced a ++ slash sl ++ $ ">>" ++ T) by (repeat (rewrite <- app_assoc; cbn [app]); reflexivity) end.
  rewrite m_lit, m_seq. destruct name as [|d name]; [congruence|]. cbn [forallb] in Hw. apply andb_true_iff in Hw as [Hd Hw].
  apply word_grp; [exact Hd|exact Hw|destruct a; destruct sl; reflexivity|].
  rewrite m_seq. unfold dotstar_lazy, dot.
  assert (Hdot : forallb is_dot (spaced a) = true).
  { assert (forallb is_dot a = true) by (destruct Ha as [->|(_ & Ha & _)]; [reflexivity|apply (no_char_dot [10; 13]); [left; reflexivity|exact Ha]]). destruct a; [reflexivity|exact H]. }
  apply star_lazy_grp; [exact Hdot| |].
  - rewrite m_seq. unfold sps at 1, sp.
    assert (X : forall bb cs k r, k (mk (rev (slash sl ++ $ ">>") ++ bb) T cs) = Some r ->
      m (RStar true (RChr is_space)) (mk bb (slash sl ++ $ ">>" ++ T) cs) (fun s => m (RSeq (RStar true (c1 47)) (lit ($ ">>"))) s k) = Some r).
    { intros bb cs k r Hk. destruct sl.
      - change (slash true ++ $ ">>" ++ T) with ([32] ++ [47] ++ $ ">>" ++ T). apply star_take; [reflexivity|reflexivity|]. rewrite m_seq. unfold c1 at 1. apply star_take; [reflexivity|reflexivity|]. rewrite m_lit. exact Hk.
      - cbn [slash app]. rewrite star_zero by reflexivity. rewrite m_seq. unfold c1 at 1. rewrite star_zero by reflexivity. change (62 :: 62 :: T) with ($ ">>" ++ T). rewrite m_lit. exact Hk. }
    apply X. cbn [bef rest caps]. rewrite <- Hkk. f_equal. f_equal.
    + destruct a, sl; repeat (rewrite ?rev_app_distr, <- ?app_assoc; cbn [rev app spaced slash]); reflexivity.
    + f_equal. f_equal. match goal with |- firstn _ ?l = ?v => replace l with (v ++ T) by (repeat (rewrite <- app_assoc; cbn [app]); reflexivity) end. apply firstn_grp.
  - intros x1 x2 E Hx. pose proof (only_end_slash _ sl (only_end_spaced a Ha)) as Ho.
    destruct a as [|e a]; [destruct x1; [cbn [app spaced] in E; congruence|discriminate]|]. destruct Ha as [Ha|(H1 & _ & H3)]; [discriminate|].
    rewrite m_seq. unfold sps at 1, sp. apply star_none. intros z v Ez Hz.
    assert (L1 : last_is is_space x2 = false).
    { rewrite <- (last_is_suffix is_space x1 x2 Hx), <- E. cbn [spaced]. change (32 :: e :: a) with ([32] ++ e :: a). rewrite (last_is_suffix is_space [32] (e :: a)) by discriminate. apply trimmed_last. exact H1. }
    assert (L2 : last_is (N.eqb 47) x2 = false).
    { rewrite <- (last_is_suffix (N.eqb 47) x1 x2 Hx), <- E. cbn [spaced]. change (32 :: e :: a) with ([32] ++ e :: a). rewrite (last_is_suffix (N.eqb 47) [32] (e :: a)) by discriminate. exact Hl. }
    destruct (inside is_space z x2 _ v Hx L1 Ez Hz) as (f & x3 & -> & z' & E2). rewrite m_seq. unfold c1. apply star_none. intros z2 v2 Ez2 Hz2.
    assert (L3 : last_is (N.eqb 47) (f :: x3) = false) by (rewrite <- (last_is_suffix (N.eqb 47) z' (f :: x3)) by discriminate; rewrite <- E2; exact L2).
    destruct (inside (N.eqb 47) z2 (f :: x3) (slash sl ++ $ ">>" ++ T) v2 ltac:(discriminate) L3 Ez2 Hz2) as (g & x4 & -> & z3 & E3).
    apply m_lit_none. rewrite E, E2, E3 in Ho. rewrite <- !app_assoc in Ho. rewrite (app_assoc z') in Ho. rewrite app_assoc in Ho.
    pose proof (only_end_more ($ ">>") ((x1 ++ z') ++ z3) ((g :: x4) ++ slash sl) T) as P. rewrite <- !app_assoc in P, Ho. specialize (P Ho ltac:(discriminate)).
    replace (g :: x4 ++ slash sl ++ $ ">>" ++ T) with (((g :: x4) ++ slash sl) ++ $ ">>" ++ T) by (rewrite <- app_assoc; reflexivity). exact P.
Qed.
Definition raw_args (l : list arg) : str := match l with [] => [] | _ => args_text l end.
Lemma tag_parts : forall t, tag_ok t = true -> tg_name t <> [] /\ forallb is_word (tg_name t) = true /\ tg_name t <> $ "toc" /\ args_fine (raw_args (tg_args t)) /\
  forallb arg_ok (tg_args t) = true /\ last_is (N.eqb 47) (raw_args (tg_args t)) = false /\
  wr_tag t = $ "<<" ++ tg_name t ++ spaced (raw_args (tg_args t)) ++ slash (tg_slash t) ++ $ ">>".
Proof.
  intros t H. unfold tag_ok in H. rewrite !andb_true_iff in H. destruct H as [[[[H1 H2] H3] H4] H5]. apply negb_true_iff in H3, H5.
  split; [destruct (tg_name t); discriminate|]. split; [exact H2|]. split; [intro E; rewrite E in H3; discriminate|].
  unfold wr_tag, wr_args, raw_args, args_ok in *. destruct (tg_args t) as [|a l].
  - split; [left; reflexivity|]. repeat split; auto.
  - rewrite !andb_true_iff in H4. destruct H4 as [[[A1 A2] A3] A4]. split; [right; auto|]. split; [exact A1|].
    destruct (args_text (a :: l)) as [|d w] eqn:E; [discriminate|]. split; [|reflexivity].
    change ($ " " ++ d :: w) with ([32] ++ d :: w) in H5. rewrite last_is_suffix in H5 by discriminate. exact H5.
Qed.
Lemma unclosed : forall g gs ga gt t b T k, gs <> ga -> gs <> gt -> tag_ok t = true -> closed_in (tg_name t) T = false ->
  m (r_macro g gs ga gt) (mk b (wr_tag t ++ T) []) k = None.
Proof.
  intros g gs ga gt t b T k G1 G2 Ht Hc. destruct (tag_parts t Ht) as (H1 & H2 & H3 & H4 & H5 & H6 & ->).
  replace (($ "<<" ++ tg_name t ++ spaced (raw_args (tg_args t)) ++ slash (tg_slash t) ++ $ ">>") ++ T)
    with ($ "<<" ++ tg_name t ++ (spaced (raw_args (tg_args t)) ++ slash (tg_slash t)) ++ $ ">>" ++ T) by (rewrite <- !app_assoc; reflexivity).
  apply unclosed_gen; try assumption.
  - destruct (raw_args (tg_args t)), (tg_slash t); reflexivity.
  - apply only_end_word; [exact H2|]. apply only_end_slash, only_end_spaced, H4.
Qed.
Definition tag_caps (t : tcall) : list (gname * str) := [(G_macro_tag, wr_tag t); (G_macro_tag_args, spaced (raw_args (tg_args t))); (G_macro_tag_name, tg_name t)].
Lemma tag_run : forall t b T, tag_ok t = true -> closed_in (tg_name t) T = false ->
  m inline_re (mk b (wr_tag t ++ T) []) fin = Some (mk (rev (wr_tag t) ++ b) T (tag_caps t)).
Proof.
  intros t b T Ht Hc. rewrite inline_alts. pose proof (unclosed G_macro_inline G_macro_inline_start G_macro_inline_args G_macro_inline_text t b T fin ltac:(discriminate) ltac:(discriminate) Ht Hc) as U.
  unfold r_macro_inline. rewrite U. destruct (tag_parts t Ht) as (H1 & H2 & H3 & H4 & H5 & H6 & E).
  rewrite link_no by (rewrite E; reflexivity). rewrite url_no.
  2:{ rewrite E. apply (url_here_mark b 60 60); [cbn; auto 20|discriminate]. }
  cbn [orelse]. apply orelse_some. unfold tag_caps. rewrite E. apply tag_hit; try assumption. reflexivity.
Qed.
Definition around_caps (m : mcall) : list (gname * str) :=
  [(G_macro_inline, wr_macro m); (G_macro_inline_text, mc_text m); (G_macro_inline_args, macro_args m); (G_macro_inline_start, mc_name m)].
Lemma around_run : forall m0 b T, macro_ok m0 = true ->
  m inline_re (mk b (wr_macro m0 ++ T) []) fin = Some (mk (rev (wr_macro m0) ++ b) T (around_caps m0)).
Proof.
  intros m0 b T H. rewrite inline_alts. destruct (macro_parts m0 H) as (H1 & H2 & H3 & H4 & H5 & H6 & H7 & E).
  rewrite link_no by (rewrite E; reflexivity). rewrite url_no.
  2:{ rewrite E. apply (url_here_mark b 60 60); [cbn; auto 20|discriminate]. }
  cbn [orelse]. apply orelse_some. unfold around_caps. rewrite E. apply macro_hit_gen; try assumption; try discriminate. reflexivity.
Qed.
