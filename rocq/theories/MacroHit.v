(** * Written macros are recognised *)
From Coq Require Import String List Arith NArith ZArith Bool Lia.
From Verif Require Import PyStr PyStrFacts GNames Regex Rules RegexFacts RegexRun Utils DocTree CreoleParser ParserFacts
  HtmlEmitter EmitterFacts HtmlToolsFacts Spec4 Spec5 Spec7 Spec20 InlineRun BlockRun BlockHits.
Import ListNotations.
Open Scope N_scope.

(** white space is no word character *)
Lemma space_not_word : forall c, is_space c = true -> is_word c = false.
Proof.
  assert (R : forall n lo c, (lo <= c)%N -> (c <= lo + N.of_nat n)%N -> forallb (fun i => negb (is_word (lo + N.of_nat i))) (seq 0 (S n)) = true -> is_word c = false).
  { intros n lo c H1 H2 H. rewrite forallb_forall in H. assert (X : In (N.to_nat (c - lo)) (seq 0 (S n))) by (apply in_seq; lia).
    specialize (H _ X). rewrite N2Nat.id in H. replace (lo + (c - lo)) with c in H by lia. apply negb_true_iff. exact H. }
  intros c H. unfold is_space in H. repeat (apply orb_true_iff in H as [H|H]);
    first [apply N.eqb_eq in H; subst c; vm_compute; reflexivity
          |apply andb_true_iff in H as [H1 H2]; apply N.leb_le in H1, H2;
           match type of H1 with ?lo <= c => match type of H2 with c <= ?hi =>
             let n := eval vm_compute in (N.to_nat (hi - lo)) in apply (R n lo c); [exact H1|exact H2|vm_compute; reflexivity] end end].
Qed.
Lemma word_not_space : forall c, is_word c = true -> is_space c = false.
Proof. intros c H. destruct (is_space c) eqn:E; [|reflexivity]. rewrite (space_not_word c E) in H. discriminate. Qed.

(** back references *)
Lemma eat_app : forall w b t cs, eat w (mk b (w ++ t) cs) = Some (mk (rev w ++ b) t cs).
Proof.
  induction w as [|c w IH]; intros b t cs; [reflexivity|]. cbn [app eat rest bef caps]. rewrite N.eqb_refl. rewrite IH. cbn [rev]. rewrite <- app_assoc. reflexivity.
Qed.
Lemma m_back : forall g w b t cs k, cap g cs = Some w -> m (RBack g) (mk b (w ++ t) cs) k = k (mk (rev w ++ b) t cs).
Proof. intros g w b t cs k H. cbn [m caps]. rewrite H, eat_app. reflexivity. Qed.

Definition macro_args (m : mcall) : str := match mc_args m with [] => [] | l => args_text l end.
Definition macro_caps (m : mcall) : list (gname * str) :=
  [(G_macro_block, wr_macro m); (G_macro_block_text, mc_text m); (G_macro_block_args, macro_args m); (G_macro_block_start, mc_name m)].
Definition args_fine (a : str) : Prop := a = [] \/ trimmed a = true /\ no_char [10; 13] a = true /\ only_end ($ ">>") a = true.
Definition spaced (a : str) : str := match a with [] => [] | _ => 32 :: a end.
Lemma trimmed_last : forall a, trimmed a = true -> last_is is_space a = false.
Proof. intros a H. unfold trimmed in H. rewrite !andb_true_iff, !negb_true_iff in H. tauto. Qed.
Lemma trimmed_head : forall a, trimmed a = true -> head_is is_space a = false.
Proof. intros a H. unfold trimmed in H. rewrite !andb_true_iff, !negb_true_iff in H. tauto. Qed.
Lemma stop_head : forall p t, head_is p t = false -> stop p t.
Proof. intros p [|c t] H; [exact I|exact H]. Qed.
Lemma macro_text_hit : forall gs gt name text b T cs k r, forallb is_word name = true -> name <> [] -> only_end ($ "<</") text = true ->
  cap gs cs = Some name -> gs <> gt ->
  k (mk (rev ($ "<</" ++ name ++ $ ">>") ++ rev text ++ b) T ((gt, text) :: cs)) = Some r ->
  m (seqs [RGrp gt (RStar false anyc); lit ($ "<</"); sps; RBack gs; sps; lit ($ ">>")]) (mk b (text ++ $ "<</" ++ name ++ $ ">>" ++ T) cs) k = Some r.
Proof.
  intros gs gt name text b T cs k r Hw Hn Ht Hc Hg Hk. unfold seqs. rewrite m_seq, m_grp, anyc_star. apply lazy_until; [apply any_true| |].
  - cbn [bef rest caps]. rewrite firstn_grp, m_seq, m_lit, m_seq. unfold sps, sp.
    assert (S1 : stop is_space (name ++ $ ">>" ++ T)). { destruct name as [|d name]; [congruence|]. cbn [forallb] in Hw. apply andb_true_iff in Hw as [Hw _]. cbn [app stop]. apply word_not_space. exact Hw. }
    rewrite star_zero by exact S1. rewrite m_seq, (m_back gs name) by (cbn [cap]; destruct (gname_beq gs gt) eqn:E; [exfalso; apply Hg; apply gname_beq_eq; exact E|exact Hc]).
    rewrite m_seq, star_zero by reflexivity. rewrite m_lit. rewrite <- Hk. f_equal. f_equal. repeat (rewrite ?rev_app_distr, <- ?app_assoc; cbn [rev app]). reflexivity.
  - intros x1 x2 E Hx. cbn [bef rest caps]. subst text. rewrite m_seq. apply m_lit_none. apply (only_end_more ($ "<</") x1 x2 _ Ht Hx).
Qed.
Lemma word_grp : forall g (d : char) x y b cs k r, is_word d = true -> forallb is_word x = true -> stop is_word y ->
  k (mk (rev (d :: x) ++ b) y ((g, d :: x) :: cs)) = Some r -> m (RGrp g (RPlus true word)) (mk b ((d :: x) ++ y) cs) k = Some r.
Proof.
  intros g d x y b cs k r Hd Hx Hy Hk. rewrite m_grp. unfold RPlus, word. rewrite m_seq. cbn [app]. rewrite m_chr, Hd.
  apply star_take; [exact Hx|exact Hy|]. cbn [bef rest caps]. change (d :: x ++ y) with ((d :: x) ++ y). rewrite firstn_grp.
  cbn [rev] in Hk. rewrite <- app_assoc in Hk. exact Hk.
Qed.
Lemma macro_hit_gen : forall g gs ga gt name a text b T k r, gs <> ga -> gs <> gt -> forallb is_word name = true -> name <> [] -> args_fine a -> only_end ($ "<</") text = true ->
  let w := $ "<<" ++ name ++ spaced a ++ $ ">>" ++ text ++ $ "<</" ++ name ++ $ ">>" in
  k (mk (rev w ++ b) T [(g, w); (gt, text); (ga, a); (gs, name)]) = Some r ->
  m (r_macro g gs ga gt) (mk b (w ++ T) []) k = Some r.
Proof.
  intros g gs ga gt name a text b T kk rr G1 G2 Hw Hn Ha Ht w Hkk. unfold r_macro. rewrite m_grp. unfold seqs at 1. rewrite m_seq. subst w.
  match goal with |- context [mk b ?l []] => replace l with ($ "<<" ++ name ++ spaced a ++ $ ">>" ++ text ++ $ "<</" ++ name ++ $ ">>" ++ T) by (repeat (rewrite <- app_assoc; cbn [app]); reflexivity) end.
  rewrite m_lit, m_seq. unfold sps at 1, sp.
  assert (S0 : forall Z, stop is_space (name ++ Z)). { intro Z. destruct name as [|d name]; [congruence|]. cbn [forallb] in Hw. apply andb_true_iff in Hw as [Hw _]. cbn [app stop]. apply word_not_space. exact Hw. }
  rewrite star_zero by apply S0. rewrite m_seq.
  set (Y := text ++ $ "<</" ++ name ++ $ ">>" ++ T).
  destruct name as [|d name]; [congruence|]. cbn [forallb] in Hw. apply andb_true_iff in Hw as [Hd Hw].
  apply word_grp; [exact Hd|exact Hw|destruct a; reflexivity|].
  rewrite m_seq. unfold sps at 1, sp.
  assert (A : forall Z (k : st -> option st) (r : st) bb cs, (a = [] \/ head_is is_space a = false) -> k (mk (rev (firstn 1 (spaced a)) ++ bb) (a ++ $ ">>" ++ Z) cs) = Some r -> m (RStar true (RChr is_space)) (mk bb (spaced a ++ $ ">>" ++ Z) cs) k = Some r).
  { intros Z k r bb cs Hh Hk. destruct a as [|c a]; [cbn [spaced app firstn rev] in *; rewrite star_zero by reflexivity; exact Hk|]. destruct Hh as [Hh|Hh]; [discriminate|].
    cbn [spaced app]. change (32 :: c :: a ++ 62 :: 62 :: Z) with ([32] ++ (c :: a) ++ $ ">>" ++ Z). apply star_take; [reflexivity|exact Hh|exact Hk]. }
  apply A; [destruct Ha as [Ha|(Ha & _)]; [left; exact Ha|right; apply trimmed_head; exact Ha]|].
  rewrite m_seq. unfold dotstar_lazy, dot.
  assert (Hdot : forallb is_dot a = true) by (destruct Ha as [->|(_ & Ha & _)]; [reflexivity|apply (no_char_dot [10; 13]); [left; reflexivity|exact Ha]]).
  apply star_lazy_grp; [exact Hdot| |].
  - rewrite m_seq. unfold sps at 1, sp. rewrite star_zero by reflexivity. rewrite m_seq, m_lit. unfold Y.
    assert (Hcap : cap gs ((ga, a) :: [(gs, d :: name)]) = Some (d :: name)).
    { cbn [cap]. destruct (gname_beq gs ga) eqn:E; [exfalso; apply G1; apply gname_beq_eq; exact E|]. rewrite gname_beq_refl. reflexivity. }
    apply (macro_text_hit gs gt (d :: name)); [cbn [forallb]; rewrite Hd; exact Hw|discriminate|exact Ht|exact Hcap|exact G2|].
    cbn [bef rest caps]. rewrite <- Hkk. f_equal. f_equal.
    + destruct a; repeat (rewrite ?rev_app_distr, <- ?app_assoc; cbn [rev app spaced firstn]); reflexivity.
    + f_equal. f_equal. match goal with |- firstn _ ?l = ?v => replace l with (v ++ T) by (repeat (rewrite <- app_assoc; cbn [app]); reflexivity) end. apply firstn_grp.
  - intros x1 x2 E Hx. destruct Ha as [->|(H1 & _ & H3)]; [destruct x1; [cbn [app] in E; congruence|discriminate]|].
    rewrite m_seq. unfold sps at 1, sp. apply star_none. intros z v Ez Hz.
    assert (Hl : last_is is_space x2 = false) by (rewrite <- (last_is_suffix is_space x1 x2 Hx), <- E; apply trimmed_last; exact H1).
    destruct (spaces_inside x2 _ z v Hx Hl Ez Hz) as (e & x3 & -> & z' & E2). rewrite m_seq. apply m_lit_none. subst a x2.
    change (e :: x3 ++ $ ">>" ++ Y) with ((e :: x3) ++ $ ">>" ++ Y). apply (only_end_more ($ ">>") (x1 ++ z') (e :: x3)); [rewrite <- app_assoc; exact H3|discriminate].
Qed.
Lemma macro_hit : forall name a text b T, forallb is_word name = true -> name <> [] -> args_fine a -> only_end ($ "<</") text = true ->
  let w := $ "<<" ++ name ++ spaced a ++ $ ">>" ++ text ++ $ "<</" ++ name ++ $ ">>" in
  m r_macro_block (mk b (w ++ T) []) fin = Some (mk (rev w ++ b) T
    [(G_macro_block, w); (G_macro_block_text, text); (G_macro_block_args, a); (G_macro_block_start, name)]).
Proof. intros name a text b T Hw Hn Ha Ht w. apply macro_hit_gen; [discriminate|discriminate|exact Hw|exact Hn|exact Ha|exact Ht|reflexivity]. Qed.
Lemma macro_parts : forall m, macro_ok m = true -> mc_name m <> [] /\ forallb is_word (mc_name m) = true /\ mc_name m <> $ "toc" /\ args_fine (macro_args m) /\
  forallb arg_ok (mc_args m) = true /\ no_char [13] (mc_text m) = true /\ only_end ($ "<</") (mc_text m) = true /\
  wr_macro m = $ "<<" ++ mc_name m ++ spaced (macro_args m) ++ $ ">>" ++ mc_text m ++ $ "<</" ++ mc_name m ++ $ ">>".
Proof.
  intros m H. unfold macro_ok in H. rewrite !andb_true_iff in H. destruct H as [[[[[H1 H2] H3] H4] H5] H6]. apply negb_true_iff in H3.
  split; [destruct (mc_name m); discriminate|]. split; [exact H2|]. split; [intro E; rewrite E in H3; discriminate|].
  unfold wr_macro, macro_args. destruct (mc_args m) as [|a l].
  - split; [left; reflexivity|]. repeat split; auto.
  - rewrite !andb_true_iff in H4. destruct H4 as [[[A1 A2] A3] A4]. split; [right; auto|]. split; [exact A1|]. split; [exact H5|]. split; [exact H6|].
    destruct (args_text (a :: l)) as [|c w] eqn:E; [discriminate|]. reflexivity.
Qed.
Lemma macro_run : forall blog m0 b T, macro_ok m0 = true ->
  m (block_re blog) (mk b (wr_macro m0 ++ T) []) fin = Some (mk (rev (wr_macro m0) ++ b) T (macro_caps m0)).
Proof.
  intros blog m0 b T H. destruct (macro_parts m0 H) as (H1 & H2 & H3 & H4 & H5 & H6 & H7 & E). rewrite block_alts. apply orelse_some.
  unfold macro_caps. rewrite E. apply macro_hit; assumption.
Qed.
