(** * How the inline rules match unambiguous text *)
From Coq Require Import String List Arith NArith ZArith Bool Lia.
From Verif Require Import PyStr PyStrFacts GNames Regex Rules RegexFacts RegexRun Utils Spec4.
Import ListNotations.
Open Scope N_scope.

(** ** more about repetition *)
Lemma star_none : forall g p t b cs k,
  (forall z y, t = z ++ y -> forallb p z = true -> k (mk (rev z ++ b) y cs) = None) ->
  m (RStar g (RChr p)) (mk b t cs) k = None.
Proof.
  intros g p t. induction t as [|c t IH]; intros b cs k H.
  - rewrite m_star_nil. exact (H [] [] eq_refl eq_refl).
  - assert (H0 : k (mk b (c :: t) cs) = None) by exact (H [] (c :: t) eq_refl eq_refl).
    assert (H1 : p c = true -> m (RStar g (RChr p)) (mk (c :: b) t cs) k = None).
    { intro Hc. apply IH. intros z y E Hz. specialize (H (c :: z) y). cbn [rev] in H. rewrite <- app_assoc in H.
      apply H; [rewrite E; reflexivity|]. cbn [forallb]. rewrite Hc. exact Hz. }
    destruct g.
    + rewrite m_star_chr. destruct (p c); [rewrite H1 by reflexivity; exact H0|exact H0].
    + rewrite m_lazy_chr. rewrite H0. destruct (p c); [exact (H1 eq_refl)|reflexivity].
Qed.
Lemma star_zero : forall g p t b cs k, stop p t -> m (RStar g (RChr p)) (mk b t cs) k = k (mk b t cs).
Proof.
  intros g p t b cs k H. destruct t as [|c t]; [apply m_star_nil|]. cbn in H.
  destruct g; [rewrite m_star_chr, H; reflexivity|rewrite m_lazy_chr, H].
  destruct (k (mk b (c :: t) cs)); reflexivity.
Qed.
Lemma startswith_app : forall w t, startswith w t = true <-> exists t', t = w ++ t'.
Proof.
  induction w as [|c w IH]; intro t; [split; [exists t; reflexivity|reflexivity]|].
  destruct t as [|d t]; [split; [discriminate|intros (t' & E); discriminate]|].
  cbn [startswith app]. rewrite andb_true_iff, IH, N.eqb_eq. split.
  - intros [-> (t' & ->)]. exists t'. reflexivity.
  - intros (t' & E). inversion E; subst. split; [reflexivity|exists t'; reflexivity].
Qed.
Lemma startswith_app_no : forall w v t, startswith w t = false -> startswith (w ++ v) t = false.
Proof.
  intros w v t H. destruct (startswith (w ++ v) t) eqn:E; [|reflexivity]. apply startswith_app in E as (t' & ->).
  rewrite <- H. symmetry. apply startswith_app. exists (v ++ t'). rewrite app_assoc. reflexivity.
Qed.
Lemma m_lit_split : forall w b t cs k, m (lit w) (mk b t cs) k =
  if startswith w t then k (mk (rev w ++ b) (skipn (List.length w) t) cs) else None.
Proof.
  intros w b t cs k. destruct (startswith w t) eqn:E; [|apply m_lit_none; exact E].
  apply startswith_app in E as (t' & ->). rewrite m_lit. rewrite skipn_app, skipn_all, Nat.sub_diag. reflexivity.
Qed.

(** ** each rule fails when its first characters are not there *)
Lemma grp_none : forall g r b t cs k, (forall k', m r (mk b t cs) k' = None) -> m (RGrp g r) (mk b t cs) k = None.
Proof. intros. rewrite m_grp. apply H. Qed.
Lemma link_no : forall b t cs k, startswith [91; 91] t = false -> m r_link (mk b t cs) k = None.
Proof. intros. apply grp_none. intro k'. unfold seqs. rewrite m_seq. apply (m_lit_none ($ "[[")). exact H. Qed.
Lemma image_no : forall b t cs k, startswith [123; 123] t = false -> m r_image (mk b t cs) k = None.
Proof. intros. apply grp_none. intro k'. unfold seqs. rewrite m_seq. apply (m_lit_none ($ "{{")). exact H. Qed.
Lemma pre_no : forall b t cs k, startswith [123; 123] t = false -> m r_pre_inline (mk b t cs) k = None.
Proof.
  intros. apply grp_none. intro k'. unfold seqs. rewrite m_seq. apply (m_lit_none ($ "{{{")).
  exact (startswith_app_no [123; 123] [123] t H).
Qed.
Lemma macro_no : forall g gs ga gt b t cs k, startswith [60; 60] t = false -> m (r_macro g gs ga gt) (mk b t cs) k = None.
Proof. intros. apply grp_none. intro k'. unfold seqs. rewrite m_seq. apply (m_lit_none ($ "<<")). exact H. Qed.
Lemma macro_tag_no : forall b t cs k, startswith [60; 60] t = false -> m r_macro_tag (mk b t cs) k = None.
Proof. intros. apply grp_none. intro k'. unfold seqs. rewrite m_seq. apply (m_lit_none ($ "<<")). exact H. Qed.
Lemma mark_no : forall g gt c b t cs k, startswith [c; c] t = false -> m (r_mark g gt c) (mk b t cs) k = None.
Proof. intros. apply grp_none. intro k'. unfold seqs. rewrite m_seq. apply (m_lit_none [c; c]). exact H. Qed.
Lemma m_behind_no : forall p b t cs k, m (RBehind true p) (mk b t cs) k = if head_is p b then None else k (mk b t cs).
Proof. intros p [|c b] t cs k; [reflexivity|]. cbn. destruct (p c); reflexivity. Qed.
Lemma emphasis_no : forall b t cs k, startswith [47; 47] t && negb (head_is (N.eqb 58) b) = false ->
  m r_emphasis (mk b t cs) k = None.
Proof.
  intros b t cs k H. apply grp_none. intro k'. unfold seqs. rewrite m_seq, m_behind_no.
  destruct (head_is (N.eqb 58) b); [reflexivity|]. rewrite m_seq. apply (m_lit_none ($ "//")).
  rewrite andb_true_r in H. exact H.
Qed.
Lemma linebreak_no : forall b t cs k, startswith [92; 92] t = false -> m r_linebreak (mk b t cs) k = None.
Proof. intros. apply grp_none. intro k'. apply (m_lit_none [92; 92]). exact H. Qed.
Lemma escape_no : forall b c t cs k, (c =? 126) && head_is (fun d => negb (is_space d)) t = false ->
  m r_escape (mk b (c :: t) cs) k = None.
Proof.
  intros b c t cs k H. apply grp_none. intro k'. rewrite m_seq. unfold c1. rewrite m_chr.
  rewrite N.eqb_sym. destruct (c =? 126); [|reflexivity]. apply grp_none. intro k2.
  destruct t as [|d t]; [reflexivity|]. rewrite m_chr. cbn in H. rewrite H. reflexivity.
Qed.
Lemma alts_lit_none : forall l b t cs w k, existsb (fun p => startswith (p ++ w) t) l = false ->
  (forall b' t' cs', startswith w t' = false -> k (mk b' t' cs') = None) ->
  m (alts (map lit l)) (mk b t cs) k = None.
Proof.
  induction l as [|p l IH]; intros b t cs w k H Hk; [destruct t; reflexivity|].
  cbn [existsb] in H. apply orb_false_iff in H as [H1 H2].
  assert (E : m (lit p) (mk b t cs) k = None).
  { rewrite m_lit_split. destruct (startswith p t) eqn:Ep; [|reflexivity]. apply Hk.
    apply startswith_app in Ep as (t' & ->). rewrite skipn_app, skipn_all, Nat.sub_diag. cbn [app skipn].
    destruct (startswith w t') eqn:Ew; [|reflexivity]. apply startswith_app in Ew as (t2 & ->).
    rewrite <- H1. symmetry. apply startswith_app. exists t2. rewrite app_assoc. reflexivity. }
  destruct l as [|q l]; [exact E|]. cbn [map alts]. rewrite m_alt, E. apply (IH b t cs w k H2 Hk).
Qed.
Lemma url_target_none : forall b t cs k, url_start t = false ->
  m (RGrp G_url_target (seqs [ RGrp G_url_proto proto; lit ($ "://"); RPlus true (RChr (fun c => negb ((c =? 36) || is_space c))) ]))
    (mk b t cs) k = None.
Proof.
  intros b t cs k H. apply grp_none. intro k'. unfold seqs. rewrite m_seq, m_grp. unfold proto.
  apply (alts_lit_none protocols b t cs ($ "://")); [exact H|]. intros b' t' cs' Hw. rewrite m_seq. apply (m_lit_none ($ "://")). exact Hw.
Qed.
Lemma url_no : forall b t cs k, url_here b t = false -> m r_url (mk b t cs) k = None.
Proof.
  intros b t cs k H. apply grp_none. intro k'. unfold seqs at 1. rewrite m_seq, m_alt.
  assert (G : forall b', word_start b' = word_start b -> word_start b' = true ->
    m (RSeq (ROpt (RGrp G_escaped_url (c1 126))) (RGrp G_url_target (seqs [ RGrp G_url_proto proto; lit ($ "://"); RPlus true (RChr (fun c => negb ((c =? 36) || is_space c))) ])))
      (mk b' t cs) k' = None).
  { intros b' E1 E2. unfold url_here in H. rewrite <- E1, E2 in H. cbn [andb] in H. apply orb_false_iff in H as [H1 H2].
    rewrite m_seq. unfold ROpt. rewrite m_alt. apply orelse_none. split.
    - rewrite m_grp. destruct t as [|c t]; [reflexivity|]. unfold c1. rewrite m_chr. destruct (N.eqb_spec 126 c); [|reflexivity].
      subst c. cbn [bef rest caps]. apply url_target_none. exact H2.
    - change (m REps (mk b' t cs) ?k) with (k (mk b' t cs)). apply url_target_none. exact H1. }
  destruct b as [|c b].
  - apply orelse_none. split; [rewrite m_bos; apply G; reflexivity|reflexivity].
  - rewrite m_bos_no. cbn [orelse]. cbn [m bef]. destruct (xorb false (is_space c)) eqn:E; [|reflexivity].
    apply G; [reflexivity|]. cbn [word_start]. destruct (is_space c); [reflexivity|discriminate E].
Qed.

(** ** hits *)
Lemma inline_alts : forall s k, m inline_re s k =
  orelse (m r_link s k) (orelse (m r_url s k) (orelse (m r_macro_inline s k) (orelse (m r_macro_tag s k)
  (orelse (m r_pre_inline s k) (orelse (m r_image s k) (orelse (m r_strong s k) (orelse (m r_emphasis s k)
  (orelse (m r_monospace s k) (orelse (m r_underline s k) (orelse (m r_superscript s k) (orelse (m r_subscript s k)
  (orelse (m r_small s k) (orelse (m r_delete s k) (orelse (m r_linebreak s k) (orelse (m r_escape s k) (m r_char s k)))))))))))))))).
Proof. reflexivity. Qed.

Definition fin : st -> option st := fun s => Some s.
Lemma dbl_no : forall d c t, existsb (N.eqb c) doubles && head_is (N.eqb c) t = false -> In d doubles ->
  startswith [d; d] (c :: t) = false.
Proof.
  intros d c t H Hd. cbn [startswith]. destruct (N.eqb_spec d c) as [->|]; [|reflexivity].
  assert (E : existsb (N.eqb c) doubles = true).
  { apply existsb_exists. exists c. split; [exact Hd|apply N.eqb_refl]. }
  rewrite E in H. cbn [andb] in *. destruct t as [|x t]; [reflexivity|]. cbn in H. rewrite H. reflexivity.
Qed.
Lemma char_hit : forall b c t, literal b c t = true ->
  m inline_re (mk b (c :: t) []) fin = Some (mk (c :: b) t [(G_char, [c])]).
Proof.
  intros b c t H. unfold literal in H. rewrite !andb_true_iff, !negb_true_iff in H. destruct H as [[[H1 H2] H3] H4].
  assert (D : forall d, In d doubles -> d <> 47 -> startswith [d; d] (c :: t) = false).
  { intros d Hd Hn. destruct (N.eqb_spec c 47) as [->|Hc].
    - cbn. destruct (N.eqb_spec d 47); [congruence|reflexivity].
    - cbn [andb negb] in H1. rewrite andb_true_r in H1. apply dbl_no; assumption. }
  rewrite inline_alts.
  rewrite link_no by (apply D; [cbn; auto|discriminate]).
  rewrite url_no by exact H3.
  unfold r_macro_inline. rewrite macro_no by (apply D; [cbn; auto 20|discriminate]).
  rewrite macro_tag_no by (apply D; [cbn; auto 20|discriminate]).
  rewrite pre_no by (apply D; [cbn; auto 20|discriminate]).
  rewrite image_no by (apply D; [cbn; auto 20|discriminate]).
  unfold r_strong, r_monospace, r_underline, r_superscript, r_subscript, r_small, r_delete.
  rewrite (mark_no _ _ 42) by (apply D; [cbn; auto 20|discriminate]).
  rewrite emphasis_no.
  2:{ cbn [startswith]. destruct (N.eqb_spec 47 c) as [<-|Hc]; [|reflexivity].
      change (existsb (N.eqb 47) doubles) with true in H1. change (47 =? 47) with true in H1. cbn [andb] in *.
      destruct t as [|x t]; [reflexivity|]. cbn [head_is startswith] in *. rewrite andb_true_r. exact H1. }
  rewrite (mark_no _ _ 35) by (apply D; [cbn; auto 20|discriminate]).
  rewrite (mark_no _ _ 95) by (apply D; [cbn; auto 20|discriminate]).
  rewrite (mark_no _ _ 94) by (apply D; [cbn; auto 20|discriminate]).
  rewrite (mark_no _ _ 44) by (apply D; [cbn; auto 20|discriminate]).
  rewrite (mark_no _ _ 45) by (apply D; [cbn; auto 20|discriminate]).
  rewrite (mark_no _ _ 126).
  2:{ cbn [startswith]. rewrite N.eqb_sym. destruct (c =? 126); [|reflexivity]. destruct t as [|x t]; [reflexivity|].
      cbn in H2. destruct (N.eqb_spec 126 x); [|reflexivity]. subst x. discriminate. }
  rewrite linebreak_no by (apply D; [cbn; auto 20|discriminate]).
  rewrite escape_no by exact H2.
  cbn [orelse]. unfold r_char, dot. rewrite m_grp, m_chr. unfold is_dot. rewrite H4. cbn [negb].
  unfold fin. cbn [rest bef caps]. replace (List.length (c :: t) - List.length t)%nat with 1%nat by (cbn [List.length]; lia). reflexivity.
Qed.

(** the length computation of a group *)
Lemma firstn_grp : forall (w t : str), firstn (List.length (w ++ t) - List.length t) (w ++ t) = w.
Proof.
  intros. rewrite app_length. replace (List.length w + List.length t - List.length t)%nat with (List.length w) by lia.
  rewrite firstn_app, firstn_all, Nat.sub_diag. apply app_nil_r.
Qed.
(** [RGrp] around a known text *)
Lemma grp_hit : forall g r b w t cs k x,
  m r (mk b (w ++ t) cs) (fun s' => k (mk (bef s') (rest s') ((g, firstn (List.length (w ++ t) - List.length (rest s')) (w ++ t)) :: caps s'))) = x ->
  m (RGrp g r) (mk b (w ++ t) cs) k = x.
Proof. intros. rewrite m_grp. exact H. Qed.

(** lazy text of at least one character, up to a continuation *)
Lemma plus_lazy : forall g p c x y b cs k r, p c = true -> forallb p x = true ->
  k (mk (rev (c :: x) ++ b) y ((g, c :: x) :: cs)) = Some r ->
  (forall x1 x2, x = x1 ++ x2 -> x2 <> [] -> k (mk (rev (c :: x1) ++ b) (x2 ++ y) ((g, c :: x1) :: cs)) = None) ->
  m (RGrp g (RPlus false (RChr p))) (mk b ((c :: x) ++ y) cs) k = Some r.
Proof.
  intros g p c x y b cs k r Hc Hx Hk Hn. rewrite m_grp. unfold RPlus. rewrite m_seq. cbn [app]. rewrite m_chr, Hc.
  apply lazy_until; [exact Hx| |].
  - cbn [bef rest caps]. change (c :: x ++ y) with ((c :: x) ++ y). rewrite firstn_grp.
    cbn [rev] in Hk. rewrite <- app_assoc in Hk. exact Hk.
  - intros x1 x2 E Hx2. cbn [bef rest caps]. subst x.
    replace (c :: (x1 ++ x2) ++ y) with ((c :: x1) ++ (x2 ++ y)) by (cbn; rewrite app_assoc; reflexivity).
    rewrite firstn_grp. specialize (Hn x1 x2 eq_refl Hx2). cbn [rev] in Hn. rewrite <- app_assoc in Hn. exact Hn.
Qed.
Lemma star_lazy_grp : forall g p x y b cs k r, forallb p x = true ->
  k (mk (rev x ++ b) y ((g, x) :: cs)) = Some r ->
  (forall x1 x2, x = x1 ++ x2 -> x2 <> [] -> k (mk (rev x1 ++ b) (x2 ++ y) ((g, x1) :: cs)) = None) ->
  m (RGrp g (RStar false (RChr p))) (mk b (x ++ y) cs) k = Some r.
Proof.
  intros g p x y b cs k r Hx Hk Hn. rewrite m_grp. apply lazy_until; [exact Hx| |].
  - cbn [bef rest caps]. rewrite firstn_grp. exact Hk.
  - intros x1 x2 E Hx2. cbn [bef rest caps]. subst x. rewrite <- app_assoc. rewrite firstn_grp. apply Hn; auto.
Qed.
Lemma only_end_split : forall pat x1 x2, only_end pat (x1 ++ x2) = true -> x2 <> [] -> startswith pat (x2 ++ pat) = false.
Proof.
  induction x1 as [|c x1 IH]; intros x2 H Hn.
  - destruct x2 as [|d x2]; [congruence|]. cbn [app only_end] in H. apply andb_true_iff in H as [H _].
    apply negb_true_iff in H. exact H.
  - cbn [app only_end] in H. apply andb_true_iff in H as [_ H]. apply IH; auto.
Qed.
Lemma startswith_short : forall pat x t, (List.length pat <= List.length x)%nat -> startswith pat (x ++ t) = startswith pat x.
Proof.
  induction pat as [|c pat IH]; intros x t H; [reflexivity|]. destruct x as [|d x]; [cbn in H; lia|].
  cbn [app startswith]. rewrite IH; [reflexivity|cbn in H; lia].
Qed.
Lemma only_end_more : forall pat x1 x2 t, only_end pat (x1 ++ x2) = true -> x2 <> [] -> startswith pat (x2 ++ pat ++ t) = false.
Proof.
  intros pat x1 x2 t H Hn. rewrite app_assoc, startswith_short; [eapply only_end_split; eauto|]. rewrite app_length. lia.
Qed.
Lemma no_char_dot : forall cs t, In 10 cs -> no_char cs t = true -> forallb is_dot t = true.
Proof.
  intros cs t H Ht. unfold no_char in Ht. rewrite forallb_forall in *. intros c Hc. specialize (Ht c Hc).
  unfold is_dot. apply negb_true_iff in Ht. destruct (N.eqb_spec c 10); [|reflexivity]. subst c.
  rewrite <- not_true_iff_false in Ht. exfalso. apply Ht. apply existsb_exists. exists 10. split; [exact H|reflexivity].
Qed.

Lemma mark_hit : forall g gt c body b t, body <> [] -> no_char [10] body = true ->
  (match body with [] => false | _ :: x => only_end [c; c] x end) = true ->
  m (r_mark g gt c) (mk b ([c; c] ++ body ++ [c; c] ++ t) []) fin =
  Some (mk (rev ([c; c] ++ body ++ [c; c]) ++ b) t [(g, [c; c] ++ body ++ [c; c]); (gt, body)]).
Proof.
  intros g gt c body b t Hn Hd He. destruct body as [|d x]; [congruence|].
  apply (no_char_dot [10]) in Hd; [|left; reflexivity]. cbn [forallb] in Hd. apply andb_true_iff in Hd as [Hd Hx].
  unfold r_mark. rewrite m_grp. unfold seqs. rewrite m_seq, m_lit, m_seq.
  apply plus_lazy; [exact Hd|exact Hx| |].
  - rewrite m_lit. unfold fin. cbn [bef rest caps]. f_equal. f_equal.
    + rewrite !rev_app_distr. cbn [rev app]. rewrite <- !app_assoc. reflexivity.
    + f_equal. f_equal. replace ([c; c] ++ (d :: x) ++ [c; c] ++ t) with (([c; c] ++ (d :: x) ++ [c; c]) ++ t)
        by (repeat rewrite <- app_assoc; reflexivity). apply firstn_grp.
  - intros x1 x2 E Hx2. apply m_lit_none. apply (only_end_more [c; c] x1 x2); [rewrite <- E; exact He|exact Hx2].
Qed.
Lemma only_end_colon_split : forall x1 p x2, only_end_colon p (x1 ++ x2) = true -> x2 <> [] ->
  (head_is (N.eqb 58) (rev (p :: x1))) || negb (startswith [47; 47] (x2 ++ [47; 47])) = true.
Proof.
  induction x1 as [|c x1 IH]; intros p x2 H Hn.
  - destruct x2 as [|d x2]; [congruence|]. cbn [app only_end_colon] in H. apply andb_true_iff in H as [H _].
    cbn [rev app head_is]. rewrite N.eqb_sym. exact H.
  - cbn [app only_end_colon] in H. apply andb_true_iff in H as [_ H]. specialize (IH c x2 H Hn).
    replace (head_is (N.eqb 58) (rev (p :: c :: x1))) with (head_is (N.eqb 58) (rev (c :: x1))); [exact IH|].
    cbn [rev]. destruct (rev x1); reflexivity.
Qed.
Lemma only_end_colon_last : forall x p, only_end_colon p x = true -> head_is (N.eqb 58) (rev (p :: x)) = false.
Proof.
  induction x as [|c x IH]; intros p H.
  - cbn [only_end_colon rev app head_is] in *. rewrite N.eqb_sym. apply negb_true_iff in H. exact H.
  - cbn [only_end_colon] in H. apply andb_true_iff in H as [_ H]. specialize (IH c H).
    rewrite <- IH. cbn [rev]. destruct (rev x); reflexivity.
Qed.
Lemma head_is_app : forall p x y, x <> [] -> head_is p (x ++ y) = head_is p x.
Proof. intros p [|c x] y H; [congruence|reflexivity]. Qed.
Lemma rev_cons_ne : forall (c : N) x, rev (c :: x) <> [].
Proof. intros c x H. apply (f_equal (@List.length N)) in H. rewrite rev_length in H. discriminate. Qed.
Lemma emphasis_hit : forall c x b t, no_char [10] (c :: x) = true -> only_end_colon c x = true -> head_is (N.eqb 58) b = false ->
  m r_emphasis (mk b ([47; 47] ++ (c :: x) ++ [47; 47] ++ t) []) fin =
  Some (mk (rev ([47; 47] ++ (c :: x) ++ [47; 47]) ++ b) t [(G_emphasis, [47; 47] ++ (c :: x) ++ [47; 47]); (G_emphasis_text, c :: x)]).
Proof.
  intros c x b t Hd He Hb.
  apply (no_char_dot [10]) in Hd; [|left; reflexivity]. cbn [forallb] in Hd. apply andb_true_iff in Hd as [Hd Hx].
  unfold r_emphasis. rewrite m_grp. unfold seqs. rewrite m_seq, m_behind_no, Hb, m_seq.
  rewrite (m_lit ($ "//")), m_seq.
  apply plus_lazy; [exact Hd|exact Hx| |].
  - rewrite m_seq, m_behind_no. rewrite head_is_app by apply rev_cons_ne. rewrite only_end_colon_last by exact He.
    rewrite (m_lit ($ "//")). unfold fin. cbn [bef rest caps]. f_equal. f_equal.
    + rewrite !rev_app_distr. cbn [rev app]. rewrite <- !app_assoc. reflexivity.
    + f_equal. f_equal. replace ([47; 47] ++ (c :: x) ++ [47; 47] ++ t) with (([47; 47] ++ (c :: x) ++ [47; 47]) ++ t)
        by (repeat rewrite <- app_assoc; reflexivity). apply firstn_grp.
  - intros x1 x2 E Hx2. rewrite m_seq, m_behind_no. rewrite head_is_app by apply rev_cons_ne.
    subst x. pose proof (only_end_colon_split x1 c x2 He Hx2) as G.
    destruct (head_is (N.eqb 58) (rev (c :: x1))); [reflexivity|]. cbn [orb] in G. apply negb_true_iff in G.
    apply (m_lit_none ($ "//")). change ($ "//") with [47; 47]. rewrite app_assoc, startswith_short; [exact G|]. rewrite app_length. cbn [List.length]. lia.
Qed.

(** ** which rule is tried at a marker *)
Lemma url_here_mark : forall b c d t, In c [91; 123; 60; 42; 47; 35; 95; 94; 44; 45; 92; 126] -> (c = 126 -> d = 126) ->
  url_here b (c :: d :: t) = false.
Proof.
  intros b c d t H Hd. unfold url_here. apply andb_false_intro2.
  cbn [In] in H. repeat destruct H as [<-|H]; try reflexivity; [|contradiction].
  rewrite (Hd eq_refl). reflexivity.
Qed.
Ltac others :=
  rewrite ?link_no, ?macro_tag_no, ?pre_no, ?image_no, ?linebreak_no by reflexivity;
  unfold r_macro_inline, r_strong, r_monospace, r_underline, r_superscript, r_subscript, r_small, r_delete;
  rewrite ?macro_no by reflexivity;
  rewrite ?emphasis_no by reflexivity.

Lemma orelse_some : forall {A} (a b : option A) x, a = Some x -> orelse a b = Some x.
Proof. intros A a b x ->. reflexivity. Qed.

Definition face_groups (f : face) : gname * gname :=
  match f with
  | Bold => (G_strong, G_strong_text) | Italic => (G_emphasis, G_emphasis_text) | Mono => (G_monospace, G_monospace_text)
  | Under => (G_underline, G_underline_text) | Sup => (G_superscript, G_superscript_text)
  | Sub => (G_subscript, G_subscript_text) | Small => (G_small, G_small_text) | Del => (G_delete, G_delete_text)
  end.
Lemma face_hit : forall f body b t, face_ends f body = true -> no_char [10] body = true ->
  match f with Italic => negb (head_is (N.eqb 58) b) | _ => true end = true ->
  let c := face_mark f in let w := [c; c] ++ body ++ [c; c] in
  m inline_re (mk b ([c; c] ++ body ++ [c; c] ++ t) []) fin =
  Some (mk (rev w ++ b) t [(fst (face_groups f), w); (snd (face_groups f), body)]).
Proof.
  intros f body b t He Hd Hb. cbv zeta.
  assert (Hne : body <> []) by (destruct body; [discriminate|discriminate]).
  rewrite inline_alts.
  assert (U : m r_url (mk b ([face_mark f; face_mark f] ++ body ++ [face_mark f; face_mark f] ++ t) []) fin = None).
  { apply url_no. cbn [app]. apply url_here_mark; [destruct f; cbn; auto 20|auto]. }
  destruct f; cbn [face_mark face_groups fst snd] in *; rewrite U; clear U.
  - others. rewrite (orelse_some _ _ _ (mark_hit G_strong G_strong_text 42 body b t Hne Hd ltac:(destruct body; [discriminate|exact He]))). reflexivity.
  - others. rewrite (mark_no _ _ 42) by reflexivity. destruct body as [|c x]; [discriminate|]. apply negb_true_iff in Hb.
    rewrite (orelse_some _ _ _ (emphasis_hit c x b t Hd He Hb)). reflexivity.
  - others. rewrite (mark_no _ _ 42) by reflexivity.
    rewrite (orelse_some _ _ _ (mark_hit G_monospace G_monospace_text 35 body b t Hne Hd ltac:(destruct body; [discriminate|exact He]))). reflexivity.
  - others. rewrite (mark_no _ _ 42), (mark_no _ _ 35) by reflexivity.
    rewrite (orelse_some _ _ _ (mark_hit G_underline G_underline_text 95 body b t Hne Hd ltac:(destruct body; [discriminate|exact He]))). reflexivity.
  - others. rewrite (mark_no _ _ 42), (mark_no _ _ 35), (mark_no _ _ 95) by reflexivity.
    rewrite (orelse_some _ _ _ (mark_hit G_superscript G_superscript_text 94 body b t Hne Hd ltac:(destruct body; [discriminate|exact He]))). reflexivity.
  - others. rewrite (mark_no _ _ 42), (mark_no _ _ 35), (mark_no _ _ 95), (mark_no _ _ 94) by reflexivity.
    rewrite (orelse_some _ _ _ (mark_hit G_subscript G_subscript_text 44 body b t Hne Hd ltac:(destruct body; [discriminate|exact He]))). reflexivity.
  - others. rewrite (mark_no _ _ 42), (mark_no _ _ 35), (mark_no _ _ 95), (mark_no _ _ 94), (mark_no _ _ 44) by reflexivity.
    rewrite (orelse_some _ _ _ (mark_hit G_small G_small_text 45 body b t Hne Hd ltac:(destruct body; [discriminate|exact He]))). reflexivity.
  - others. rewrite (mark_no _ _ 42), (mark_no _ _ 35), (mark_no _ _ 95), (mark_no _ _ 94), (mark_no _ _ 44), (mark_no _ _ 45) by reflexivity.
    rewrite (orelse_some _ _ _ (mark_hit G_delete G_delete_text 126 body b t Hne Hd ltac:(destruct body; [discriminate|exact He]))). reflexivity.
Qed.

Lemma break_hit : forall b t, m inline_re (mk b ([92; 92] ++ t) []) fin = Some (mk ([92; 92] ++ b) t [(G_linebreak, [92; 92])]).
Proof.
  intros b t. rewrite inline_alts. rewrite url_no by (apply url_here_mark; [cbn; auto 20|discriminate]).
  rewrite link_no, macro_tag_no, pre_no, image_no by reflexivity.
  unfold r_macro_inline, r_strong, r_monospace, r_underline, r_superscript, r_subscript, r_small, r_delete.
  rewrite macro_no by reflexivity. rewrite emphasis_no by reflexivity.
  rewrite (mark_no _ _ 42), (mark_no _ _ 35), (mark_no _ _ 95), (mark_no _ _ 94), (mark_no _ _ 44), (mark_no _ _ 45), (mark_no _ _ 126) by reflexivity.
  cbn [orelse]. unfold r_linebreak. rewrite m_grp, m_lit. unfold fin. cbn [orelse bef rest caps rev app].
  f_equal. f_equal. f_equal. f_equal. exact (firstn_grp [92; 92] t).
Qed.
Lemma esc_hit : forall b c t, is_space c = false -> c <> 126 -> url_here b (126 :: c :: t) = false ->
  m inline_re (mk b ([126; c] ++ t) []) fin = Some (mk ([c; 126] ++ b) t [(G_escape, [126; c]); (G_escaped_char, [c])]).
Proof.
  intros b c t Hs Hc Hu. rewrite inline_alts. cbn [app]. rewrite url_no by exact Hu.
  rewrite link_no, macro_tag_no, pre_no, image_no by reflexivity.
  unfold r_macro_inline, r_strong, r_monospace, r_underline, r_superscript, r_subscript, r_small, r_delete.
  rewrite macro_no by reflexivity. rewrite emphasis_no by reflexivity.
  rewrite (mark_no _ _ 42), (mark_no _ _ 35), (mark_no _ _ 95), (mark_no _ _ 94), (mark_no _ _ 44), (mark_no _ _ 45) by reflexivity.
  rewrite (mark_no _ _ 126).
  2:{ cbn [startswith]. destruct (N.eqb_spec 126 c); [congruence|reflexivity]. }
  rewrite linebreak_no by reflexivity. cbn [orelse]. unfold r_escape. rewrite m_grp, m_seq. unfold c1. rewrite m_chr.
  change (126 =? 126) with true. cbn match. rewrite m_grp, m_chr, Hs. cbn [negb]. unfold fin. cbn [orelse bef rest caps].
  f_equal. f_equal.
  f_equal; [f_equal; exact (firstn_grp [126; c] t)|f_equal; f_equal; exact (firstn_grp [c] t)].
Qed.
Lemma code_hit : forall x b t, no_char [10] x = true -> only_end ($ "}}}") x = true ->
  let w := $ "{{{" ++ x ++ $ "}}}" in
  m inline_re (mk b ($ "{{{" ++ x ++ $ "}}}" ++ t) []) fin = Some (mk (rev w ++ b) t [(G_pre_inline, w); (G_pre_inline_text, x)]).
Proof.
  intros x b t Hd He. cbv zeta. apply (no_char_dot [10]) in Hd; [|left; reflexivity]. rewrite inline_alts.
  rewrite url_no by (apply url_here_mark; [cbn; auto 20|discriminate]).
  rewrite link_no, macro_tag_no by reflexivity. unfold r_macro_inline. rewrite macro_no by reflexivity. cbn [orelse].
  apply orelse_some. unfold r_pre_inline. rewrite m_grp. unfold seqs. rewrite m_seq, m_lit, m_seq.
  apply star_lazy_grp; [exact Hd| |].
  - rewrite m_lit. unfold fin. cbn [bef rest caps]. f_equal. f_equal.
    + rewrite !rev_app_distr. cbn [rev app]. rewrite <- !app_assoc. reflexivity.
    + f_equal. f_equal. replace ($ "{{{" ++ x ++ $ "}}}" ++ t) with (($ "{{{" ++ x ++ $ "}}}") ++ t)
        by (repeat rewrite <- app_assoc; reflexivity). apply firstn_grp.
  - intros x1 x2 E Hx2. apply m_lit_none. apply (only_end_more ($ "}}}") x1 x2); [rewrite <- E; exact He|exact Hx2].
Qed.

(** ** links and images: [open target sps (bar sps text sps)? close] *)
Lemma no_char_In : forall cs t c, no_char cs t = true -> In c t -> ~ In c cs.
Proof.
  intros cs t c H Hc Hi. unfold no_char in H. rewrite forallb_forall in H. specialize (H c Hc). apply negb_true_iff in H.
  rewrite <- not_true_iff_false in H. apply H. apply existsb_exists. exists c. split; [exact Hi|apply N.eqb_refl].
Qed.
(** white space in front of the end of a text without white space at its end *)
Lemma spaces_inside : forall x2 y z v, x2 <> [] -> last_is is_space x2 = false -> x2 ++ y = z ++ v -> forallb is_space z = true ->
  exists d x3, v = d :: x3 ++ y /\ (exists z', x2 = z' ++ d :: x3).
Proof.
  intros x2 y z. revert x2. induction z as [|c z IH]; intros x2 v Hn Hl E Hz.
  - cbn [app] in E. subst v. destruct x2 as [|d x2]; [congruence|]. exists d, x2. split; [reflexivity|]. exists []. reflexivity.
  - destruct x2 as [|d x2]; [congruence|]. cbn [app] in E. inversion E; subst d.
    cbn [forallb] in Hz. apply andb_true_iff in Hz as [Hc Hz].
    assert (Hx : x2 <> []).
    { intros ->. unfold last_is in Hl. cbn in Hl. rewrite Hc in Hl. discriminate. }
    assert (Hl' : last_is is_space x2 = false).
    { unfold last_is in *. cbn [rev] in Hl. rewrite head_is_app in Hl; [exact Hl|].
      intro R. apply Hx. rewrite <- (rev_involutive x2), R. reflexivity. }
    destruct (IH x2 v Hx Hl' H1 Hz) as (d & x3 & -> & z' & ->). exists d, x3. split; [reflexivity|]. exists (c :: z'). reflexivity.
Qed.
Lemma last_is_suffix : forall p x1 x2, x2 <> [] -> last_is p (x1 ++ x2) = last_is p x2.
Proof.
  intros p x1 x2 H. unfold last_is. rewrite rev_app_distr. apply head_is_app. intro R. apply H.
  rewrite <- (rev_involutive x2), R. reflexivity.
Qed.

Section Bracket.
  Variables (g gt gx : gname) (o c : N).
  Definition r_bracket : regex :=
    RGrp g (seqs [ lit [o; o]; RGrp gt dotplus_lazy; sps;
      ROpt (seqs [c1 124; sps; RGrp gx dotplus_lazy; sps]); lit [c; c] ]).
  Hypothesis Hc : is_space c = false.
  Hypothesis Hc2 : c <> 124.

  Lemma bracket_tail_no : forall d y b cs k, d <> 124 -> d <> c ->
    m (RSeq (ROpt (seqs [c1 124; sps; RGrp gx dotplus_lazy; sps])) (lit [c; c])) (mk b (d :: y) cs) k = None.
  Proof.
    intros d y b cs k H1 H2. rewrite m_seq. unfold ROpt. rewrite m_alt. apply orelse_none. split.
    - unfold seqs. rewrite m_seq. unfold c1. rewrite m_chr. destruct (N.eqb_spec 124 d); [congruence|reflexivity].
    - change (m REps (mk b (d :: y) cs) ?k) with (k (mk b (d :: y) cs)). apply m_lit_none. cbn [startswith].
      destruct (N.eqb_spec c d); [congruence|reflexivity].
  Qed.
  Lemma bracket_hit : forall target text b t cs,
    truthy target = true -> no_char [10; 124; c] target = true -> last_is is_space target = false ->
    opt_ok (fun x => trimmed x && no_char [10; c] x) text = true ->
    let w := [o; o] ++ target ++ with_bar text ++ [c; c] in
    m r_bracket (mk b (w ++ t) cs) fin =
    Some (mk (rev w ++ b) t (((g, w) :: match text with None => [] | Some x => [(gx, x)] end ++ [(gt, target)]) ++ cs)).
  Proof.
    intros target text b t cs H1 H2 H3 H4. cbv zeta. destruct target as [|c0 tr]; [discriminate|].
    assert (Hd : forallb is_dot (c0 :: tr) = true) by (apply (no_char_dot [10; 124; c]); [left; reflexivity|exact H2]).
    cbn [forallb] in Hd. apply andb_true_iff in Hd as [Hd0 Hd].
    unfold r_bracket. rewrite m_grp. unfold seqs at 1. rewrite m_seq.
    repeat rewrite <- app_assoc. rewrite m_lit, m_seq.
    apply plus_lazy; [exact Hd0|exact Hd| |].
    - rewrite m_seq.
      destruct text as [x|]; cbn [with_bar opt_ok] in *.
      + rewrite !andb_true_iff in H4. destruct H4 as [H4 H5]. unfold trimmed in H4.
        rewrite !andb_true_iff, !negb_true_iff in H4. destruct H4 as [[H4 H6] H7].
        destruct x as [|x0 xr]; [discriminate|]. cbn [head_is] in H4.
        assert (Hx : forallb is_dot (x0 :: xr) = true) by (apply (no_char_dot [10; c]); [left; reflexivity|exact H5]).
        cbn [forallb] in Hx. apply andb_true_iff in Hx as [Hx0 Hx].
        unfold sps at 1, sp at 1. rewrite star_zero by (cbn; reflexivity).
        rewrite m_seq. unfold ROpt. rewrite m_alt. apply orelse_some.
        unfold seqs. rewrite m_seq. unfold c1. cbn [app]. rewrite m_chr. change (124 =? 124) with true. cbn match.
        rewrite m_seq. unfold sps at 1, sp at 1. rewrite star_zero by (cbn [stop app]; exact H4).
        rewrite m_seq. change (x0 :: xr ++ c :: c :: t) with ((x0 :: xr) ++ c :: c :: t).
        apply plus_lazy; [exact Hx0|exact Hx| |].
        * unfold sps, sp. rewrite star_zero by (cbn; exact Hc).
          change (c :: c :: t) with ([c; c] ++ t). rewrite m_lit. unfold fin. cbn [bef rest caps app].
          f_equal. f_equal.
          -- repeat (rewrite ?rev_app_distr, <- ?app_assoc; cbn [rev app]). reflexivity.
          -- f_equal. f_equal. 
             match goal with |- firstn _ ?l = ?w => replace l with (w ++ t) by (cbn [app]; repeat (rewrite <- app_assoc; cbn [app]); reflexivity) end.
             apply firstn_grp.
        * intros x1 x2 E Hx2. unfold sps, sp. apply star_none. intros z y Ez Hz.
          assert (Hl : last_is is_space x2 = false).
          { rewrite <- H6. rewrite E. change (x0 :: x1 ++ x2) with ((x0 :: x1) ++ x2). symmetry. apply last_is_suffix. exact Hx2. }
          destruct (spaces_inside _ _ _ _ Hx2 Hl Ez Hz) as (d & x3 & -> & z' & Ex2).
          apply m_lit_none. cbn [startswith]. destruct (N.eqb_spec c d); [|reflexivity]. subst d. exfalso.
          apply (no_char_In [10; c] (x0 :: xr) c H5); [|right; left; reflexivity].
          rewrite E, Ex2. right. apply in_or_app. right. apply in_or_app. right. left. reflexivity.
      + unfold sps at 1, sp at 1. rewrite star_zero by (cbn; exact Hc).
        rewrite m_seq. unfold ROpt. rewrite m_alt.
        assert (E : forall k b' cs', m (seqs [c1 124; sps; RGrp gx dotplus_lazy; sps]) (mk b' (c :: c :: t) cs') k = None).
        { intros k b' cs'. unfold seqs. rewrite m_seq. unfold c1. rewrite m_chr. destruct (N.eqb_spec 124 c); [congruence|reflexivity]. }
        cbn [app]. rewrite E. cbn [orelse]. change (m REps ?s ?k) with (k s). cbn beta.
        change (c :: c :: t) with ([c; c] ++ t). rewrite m_lit. unfold fin. cbn [bef rest caps app].
        f_equal. f_equal.
        * repeat (rewrite ?rev_app_distr, <- ?app_assoc; cbn [rev app]). reflexivity.
        * f_equal. f_equal. 
          match goal with |- firstn _ ?l = ?w => replace l with (w ++ t) by (cbn [app]; repeat (rewrite <- app_assoc; cbn [app]); reflexivity) end.
          apply firstn_grp.
    - intros x1 x2 E Hx2. rewrite m_seq. unfold sps at 1, sp at 1. apply star_none. intros z y Ez Hz.
      assert (Hl : last_is is_space x2 = false).
      { rewrite <- H3. rewrite E. change (c0 :: x1 ++ x2) with ((c0 :: x1) ++ x2). symmetry. apply last_is_suffix. exact Hx2. }
      destruct (spaces_inside _ _ _ _ Hx2 Hl Ez Hz) as (d & x3 & -> & z' & Ex2).
      assert (Hin : In d (c0 :: tr)).
      { rewrite E, Ex2. right. apply in_or_app. right. apply in_or_app. right. left. reflexivity. }
      apply bracket_tail_no; intros ->; apply (no_char_In _ _ _ H2 Hin); cbn; auto.
  Qed.
End Bracket.
Lemma link_hit : forall target text b t,
  truthy target = true -> no_char [10; 124; 93] target = true -> last_is is_space target = false ->
  opt_ok (fun x => trimmed x && no_char [10; 93] x) text = true ->
  let w := $ "[[" ++ target ++ with_bar text ++ $ "]]" in
  m inline_re (mk b (w ++ t) []) fin =
  Some (mk (rev w ++ b) t ((G_link, w) :: match text with None => [] | Some x => [(G_link_text, x)] end ++ [(G_link_target, target)])).
Proof.
  intros target text b t H1 H2 H3 H4. cbv zeta. rewrite inline_alts. apply orelse_some.
  pose proof (bracket_hit G_link G_link_target G_link_text 91 93 eq_refl ltac:(discriminate) target text b t [] H1 H2 H3 H4) as Q.
  cbv zeta in Q. rewrite app_nil_r in Q. exact Q.
Qed.
Lemma image_hit : forall target text b t,
  truthy target = true -> no_char [10; 124; 125] target = true -> last_is is_space target = false ->
  opt_ok (fun x => trimmed x && no_char [10; 125] x) text = true -> head_is (N.eqb 123) target = false ->
  let w := $ "{{" ++ target ++ with_bar text ++ $ "}}" in
  m inline_re (mk b (w ++ t) []) fin =
  Some (mk (rev w ++ b) t ((G_image, w) :: match text with None => [] | Some x => [(G_image_text, x)] end ++ [(G_image_target, target)])).
Proof.
  intros target text b t H1 H2 H3 H4 H5. cbv zeta. rewrite inline_alts. cbn [app].
  rewrite url_no by (apply url_here_mark; [cbn; auto 20|discriminate]).
  rewrite link_no, macro_tag_no by reflexivity. unfold r_macro_inline. rewrite macro_no by reflexivity. cbn [orelse].
  assert (P : forall t', m r_pre_inline (mk b (123 :: 123 :: target ++ t') []) fin = None).
  { intro t'. apply grp_none. intro k'. unfold seqs. rewrite m_seq. apply (m_lit_none ($ "{{{")).
    destruct target as [|c0 tr]; [discriminate|]. cbn [head_is] in H5. change ($ "{{{") with [123; 123; 123].
    cbn [startswith app]. rewrite H5. reflexivity. }
  rewrite <- app_assoc. rewrite P. cbn [orelse]. apply orelse_some.
  pose proof (bracket_hit G_image G_image_target G_image_text 123 125 eq_refl ltac:(discriminate) target text b t [] H1 H2 H3 H4) as Q.
  cbv zeta in Q. rewrite app_nil_r in Q. cbn [app] in Q. rewrite <- app_assoc in Q. exact Q.
Qed.

