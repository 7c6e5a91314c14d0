(** * Pages with preformatted areas and tags that refer to them: facts behind C94 *)
From Coq Require Import String List Arith NArith ZArith Bool Lia.
From Verif Require Import PyStr PyStrFacts GNames Regex RegexFacts RegexRun Rules Utils Res Entities HtmlTools HtmlToolsFacts HtmlTok HtmlTokFacts.
From Verif Require Import HtmlParser Safety Spec2 TreeFacts Spec10 TokRun TagTok StripRun Spec11 CleanRun CleanDoc Spec29 Spelling HtmlBase Html2X SpellDoc Spec31 Soup AttrSoup.
From Verif Require Spec7 Spec26 Spec32 Spec40 Spec43 AttrMean CodeFence PreRun BlockHits InlineRun DictFacts.
Import ListNotations.
Open Scope N_scope.

(** ** cutting the areas out *)
Import CodeFence(misses, misses_plain, misses_piece, misses_app, block_re_miss, block_re_other).
Lemma tag_misses : forall p n a, tagged p n a -> misses (tag_src (shut p) n a).
Proof.
  intros p n a T y a' z E Hz. destruct (startswith ($ "<pre>") (z ++ y)) eqn:X; [|reflexivity]. exfalso. apply startswith_spec in X as (r & X).
  destruct (good_fine (shut p) n a (tg_name _ _ _ T) (tg_good _ _ _ T)) as (F & F6 & F60).
  destruct a' as [|c a'].
  - cbn [app] in E. subst z. unfold tag_src in X. cbn [app L] in X. injection X as X. destruct (shut p); [discriminate X|]. cbn [app] in X. rewrite <- !app_assoc in X. cbn [app] in X.
    destruct F as (F1 & F2 & F3 & F4 & F5).
    destruct (name_split n ($ "pre") (a ++ 62 :: y) (62 :: r) F2 eq_refl) as [Q _]; [| |exact X|exact (tg_pre _ _ _ T Q)].
    + destruct F4 as [->|(t & ->)]; eexists _, _; (split; [reflexivity|]); auto.
    + eexists _, _. split; [reflexivity|]. auto.
  - unfold tag_src in E. cbn [app] in E. injection E as _ E. destruct z as [|z0 z]; [congruence|]. cbn [app L] in X. injection X as -> X.
    assert (I : In 60 ((if shut p then [47] else []) ++ n ++ a ++ [62])) by (rewrite E; apply in_or_app; right; left; reflexivity).
    unfold no60 in F60. rewrite forallb_forall in F60. rewrite app_assoc in I. rewrite !in_app_iff in I.
    destruct I as [[I|I]|[I|I]].
    + destruct (shut p); [destruct I as [I|[]]; discriminate I|destruct I].
    + specialize (F60 60 (in_or_app _ _ _ (or_introl I))). discriminate F60.
    + specialize (F60 60 (in_or_app _ _ _ (or_intror I))). discriminate F60.
    + destruct I as [I|[]]; discriminate I.
Qed.
Lemma readable_no60 : forall w, readable w -> ~ In 60 w.
Proof.
  intros w H. induction H as [|c w C1 C2 _ IH|n w N _ IH|n w N _ IH].
  - intros [].
  - intros [E|I]; [congruence|contradiction].
  - assert (R : is_ref ($ "&#" ++ n ++ $ ";")) by (exists (DChar n); repeat split; exact N). apply ref_chars in R as [R _]. rewrite forallb_forall in R.
    intro I. replace ($ "&#" ++ n ++ $ ";" ++ w) with (($ "&#" ++ n ++ $ ";") ++ w) in I by (rewrite <- !app_assoc; reflexivity). apply in_app_iff in I as [I|I]; [|contradiction]. specialize (R 60 I). discriminate R.
  - assert (R : is_ref ($ "&" ++ n ++ $ ";")) by (exists (DEnt n); repeat split; exact N). apply ref_chars in R as [R _]. rewrite forallb_forall in R.
    intro I. replace ($ "&" ++ n ++ $ ";" ++ w) with (($ "&" ++ n ++ $ ";") ++ w) in I by (rewrite <- !app_assoc; reflexivity). apply in_app_iff in I as [I|I]; [|contradiction]. specialize (R 60 I). discriminate R.
Qed.
Lemma part_misses : forall p v, part_plain p -> part_written p v -> misses v.
Proof.
  intros p v P W. destruct (is_tag p) eqn:T.
  - destruct (part_tagged p v P W T) as (n & a & G & <-). apply tag_misses. exact G.
  - destruct p as [t a|t|t a|w|]; try discriminate T; [|destruct P]. assert (v = w) by (inversion W; reflexivity). subst v. apply misses_plain, readable_no60, P.
Qed.
Definition in_pre (x : str) : str := $ "<pre>" ++ x ++ $ "</pre>".
Lemma area_misses : forall x, ~ In 60 x -> misses ($ "pre>" ++ x ++ $ "</pre>").
Proof.
  intros x H. apply misses_app; [apply misses_plain; cbn; intuition discriminate|]. apply misses_app; [apply misses_plain; exact H|].
  apply (misses_piece ($ "/pre>")); [discriminate|cbn; intuition discriminate|intros r X; discriminate X].
Qed.
Lemma no_block_area : forall l s b, Spec43.items_written l s -> scan pre_block_re 0 b s = map Datatypes.inl s.
Proof.
  induction l as [|i l IH]; intros s b F; cbn [Spec43.items_written] in F.
  - subst s. cbn [scan]. rewrite at_pos_miss; [reflexivity|]. apply block_re_other. reflexivity.
  - destruct F as (v & u & Hv & -> & Hu). rewrite PreRun.scan_pass, (IH u _ Hu), <- map_app; [reflexivity|].
    intros a z E Hz. destruct i as [p|x]; cbn [Spec43.item_written] in Hv.
    + apply block_re_other. exact (part_misses p v (proj1 Hv) (proj2 Hv) u a z E Hz).
    + destruct Hv as [[N60 FL] ->]. destruct a as [|c a].
      * change ([] ++ z) with z in E. subst z. cbn [rev]. rewrite <- (app_assoc ($ "<pre>")), <- app_assoc. apply block_re_miss. exact FL.
      * apply block_re_other. apply (area_misses x N60 u a z); [|exact Hz]. cbn [app L] in E. injection E as _ E. exact E.
Qed.
Fixpoint cut (n : nat) (l : list Spec43.item) : list part :=
  match l with
  | [] => []
  | Spec43.Piece p :: r => p :: cut n r
  | Spec43.Area _ :: r => Single ($ "inlinedata") (cut_attrs n) :: cut (S n) r
  end.
Lemma inline_hit : forall b x y, ~ In 60 x ->
  m pre_inline_re (mk b (in_pre x ++ y) []) (fun s => Some s) = Some (mk (rev (in_pre x) ++ b) y [(G_html_pre_inline, x)]).
Proof.
  intros b x y H. unfold in_pre. rewrite <- !app_assoc. unfold pre_inline_re, seqs. rewrite m_seq, m_lit, m_seq, m_grp. unfold c1 at 1, dot at 1. rewrite BlockHits.star_alt_chr. apply lazy_until.
  - apply forallb_forall. intros c _. destruct (N.eqb_spec c 10); [subst c; reflexivity|]. apply orb_true_iff. right. apply negb_true_iff. apply N.eqb_neq. auto.
  - cbn [bef rest caps]. rewrite InlineRun.firstn_grp. rewrite <- (app_nil_r ($ "</pre>")), <- app_assoc. rewrite m_lit. cbn [app].
    f_equal. f_equal. repeat (rewrite ?rev_app_distr, <- ?app_assoc; cbn [rev app]). reflexivity.
  - intros x1 x2 E Hx. cbn [bef rest caps]. rewrite m_lit_none; [reflexivity|]. destruct x2 as [|c x2]; [congruence|]. cbn [app startswith L].
    replace (60 =? c) with false; [reflexivity|]. symmetry. apply N.eqb_neq. intros <-. apply H. rewrite E. apply in_or_app. right. left. reflexivity.
Qed.
Lemma cut_plain : forall n, part_plain (Single ($ "inlinedata") (cut_attrs n)).
Proof. intro n. pose proof (CodeFence.cut_fine n) as H. apply andb_true_iff in H as [_ H]. split; [reflexivity|exact H]. Qed.
Lemma cut_areas : forall l s b bd, Spec43.items_written l s ->
  exists s', sub_go cut_inline (scan pre_inline_re 0 b s) bd = Ok (s', bd ++ Spec43.areas l) /\ soup (cut (List.length bd) l) s'.
Proof.
  assert (OTHER : forall b x, startswith ($ "<pre>") x = false -> m pre_inline_re (mk b x []) (fun s => Some s) = None).
  { intros b x H. unfold pre_inline_re, seqs. rewrite m_seq, m_lit_none; [reflexivity|exact H]. }
  induction l as [|i l IH]; intros s b bd F; cbn [Spec43.items_written] in F.
  - subst s. exists []. split; [|reflexivity]. cbn [scan]. rewrite at_pos_miss by (apply OTHER; reflexivity). cbn [map app sub_go]. unfold Spec43.areas. cbn [flat_map]. rewrite app_nil_r. reflexivity.
  - destruct F as (v & u & Hv & -> & Hu). destruct i as [p|x]; cbn [Spec43.item_written] in Hv.
    + rewrite PreRun.scan_pass by (intros a z E Hz; apply OTHER; exact (part_misses p v (proj1 Hv) (proj2 Hv) u a z E Hz)).
      destruct (IH u (rev v ++ b) bd Hu) as (s' & S1 & S2). exists (v ++ s'). split; [exact (PreRun.sub_pass _ cut_inline v _ _ _ _ S1)|].
      cbn [cut soup]. exists v, s'. destruct Hv. auto.
    + destruct Hv as [[N60 FL] ->]. change ($ "<pre>" ++ x ++ $ "</pre>") with (in_pre x).
      rewrite (scan_hit _ _ _ _ [(G_html_pre_inline, x)]); [|discriminate|apply inline_hit; assumption].
      destruct (IH u (rev (in_pre x) ++ b) (bd ++ [x]) Hu) as (s' & S1 & S2). exists (part_src (Single ($ "inlinedata") (cut_attrs (List.length bd))) ++ s'). split.
      * cbn [sub_go]. unfold cut_inline at 1. cbn [bind]. change (group0 G_html_pre_inline (mkm ?x [(G_html_pre_inline, ?c)])) with c. unfold pre_cut.
        match goal with |- bind ?x ?k = _ => refine (eq_trans (f_equal (fun z => bind z k) S1) _) end. cbn [bind].
        f_equal. f_equal; [|unfold Spec43.areas; cbn [flat_map]; rewrite <- app_assoc; reflexivity]. f_equal.
        pose proof (show_cut false (List.length bd)) as SC. cbn [show_dom placeholder] in SC. cbn [part_src]. exact SC.
      * cbn [cut soup]. rewrite app_length in S2. cbn [List.length] in S2. rewrite Nat.add_1_r in S2.
        exists (part_src (Single ($ "inlinedata") (cut_attrs (List.length bd)))), s'. split; [apply cut_plain|]. split; [apply part_src_written, cut_plain|]. auto.
Qed.
Theorem sheet_parse : forall l html, Spec43.sheet l html -> exists s, soup (cut 0 l) s /\ parse_html html = feed_tokens (strip_html s) (Spec43.areas l).
Proof.
  intros l html (w & s & w' & -> & Hw & Hw' & F & (c & t & E1 & E2) & (t' & d & E3 & E4)).
  destruct (cut_areas l s [] [] F) as (s' & S1 & S2). exists s'. split; [exact S2|]. unfold parse_html, feed, preprocess.
  assert (ST : strip (w ++ s ++ w') = s) by (apply strip_around; [exact Hw|exact Hw'|exists c, t; auto|exists d, t'; auto]). rewrite ST.
  unfold resub_st. rewrite (no_block_area l s [] F), sub_nothing. cbn [bind]. match goal with |- bind (bind ?x ?k) ?k2 = _ => refine (eq_trans (f_equal (fun z => bind (bind z k) k2) S1) _) end. reflexivity.
Qed.

(** ** the tokens *)
Section Gen.
  Variable tk : tok -> tok -> Prop.
  Variable R : part -> part -> Prop.
  Hypothesis tk_data : forall s, tk (TData s) (TData s).
  Hypothesis tk_char : forall s, tk (TCharref s) (TCharref s).
  Hypothesis tk_ent : forall s, tk (TEntity s) (TEntity s).
  Hypothesis R_read : forall p p' k k', R p p' -> part_plain p -> part_plain p' -> reading p k -> reading p' k' -> tk k k'.
  Hypothesis R_shape : forall p p', R p p' -> is_tag p = is_tag p' /\ blk (tag_of p) = blk (tag_of p') /\ shut p = shut p' /\ alone p = alone p'.
  Hypothesis R_text : forall w p', R (Txt w) p' -> p' = Txt w.
  Lemma gen_near : forall ps ps' s s', Forall2 R ps ps' -> soup ps s -> soup ps' s' -> exists l l', near tk l l' /\ pcs_src l = s /\ pcs_src l' = s'.
  Proof.
    intros ps ps' s s' F. revert s s'. induction F as [|p p' ps ps' S0 _ IH]; intros s s' H H'; cbn [soup] in H, H'.
    - subst. exists [], []. split; [constructor|split; reflexivity].
    - destruct H as (v & u & P & W & -> & H). destruct H' as (v' & u' & P' & W' & -> & H'). destruct (IH u u' H H') as (l & l' & N & <- & <-).
      destruct (R_shape p p' S0) as (E1 & E2 & E3 & E4). destruct (is_tag p) eqn:T.
      + destruct (part_tagged p v P W T) as (n & a & G & <-). destruct (part_tagged p' v' P' W' (eq_sym E1)) as (n' & a' & G' & <-).
        exists (Tg (shut p) n a :: l), (Tg (shut p') n' a' :: l'). rewrite <- E3. split; [|split; reflexivity].
        destruct G as [G1 G2 G3 G4 G5 (k & G6 & G7)], G' as [G1' G2' G3' G4' G5' (k' & G6' & G7')].
        destruct (good_fine (shut p) n a G1 G2) as (F1 & F2 & F3). destruct (good_fine (shut p) n' a' G1' G2') as (F1' & F2' & F3').
        apply near_tg; [|exact N]. constructor; try assumption.
        * rewrite G3, G3', E2. reflexivity.
        * intro B. rewrite G3 in B. rewrite (G5 B). rewrite E2 in B. rewrite (G5' B). symmetry. exact E4.
        * exists k, k'. split; [exact (R_read p p' k k' S0 P P' G6 G6')|]. split; [exact G7|]. rewrite E3. exact G7'.
      + destruct p as [t a|t|t a|w|]; try discriminate T; [|destruct P]. apply R_text in S0. subst p'.
        assert (v = w) by (inversion W; reflexivity). assert (v' = w) by (inversion W'; reflexivity). subst v v'. cbn [part_plain] in P.
        exists (map Ch w ++ l), (map Ch w ++ l'). split; [|split; rewrite pcs_app; f_equal; apply chars_src]. apply near_app; [apply readable_near; exact P|exact N].
  Qed.
  Theorem gen_toks : forall ps ps' s s', Forall2 R ps ps' -> soup ps s -> soup ps' s' -> exists ts ts', Forall2 tk ts ts' /\ tokens (strip_html s) = (ts, false) /\ tokens (strip_html s') = (ts', false).
  Proof.
    intros ps ps' s s' F H H'. destruct (gen_near ps ps' s s' F H H') as (l & l' & N & <- & <-). destruct (strip_near tk l l' N) as (rs & rs' & R1 & R2 & R3). rewrite R1, R2.
    destruct (toks_near tk tk_data tk_char tk_ent (S (List.length rs)) rs rs' (Nat.lt_succ_diag_r _) R3) as (ts & ts' & T & T1 & T2). exists ts, ts'. auto.
  Qed.
End Gen.

(** every tag of the page is a token *)
Lemma sqp_tag : forall l seen p c n a, In (Tg c n a) l -> In (Tg c n a) (sqp seen p l).
Proof.
  induction l as [|x l IH]; intros seen p c n a H; [destruct H|]. destruct H as [E|I].
  - subst x. cbn [sqp]. apply in_or_app. right. left. reflexivity.
  - destruct x as [d|c0 n0 a0]; cbn [sqp]; [destruct (is_space d); [apply IH; exact I|]|]; apply in_or_app; right; right; apply IH; exact I.
Qed.
Lemma tag_outp_in : forall p c n a l, In (Tg c n a) (tag_outp p c n a l).
Proof.
  intros p c n a l. unfold tag_outp. cbv zeta. destruct (in_list BLOCK_TAGS n); [left; reflexivity|].
  destruct c, (endswith [47] a), (startswith [32] p), (endswith [32] l); cbn [orb app In]; tauto.
Qed.
Lemma szp_tag : forall l st c n a, In (Tg c n a) l \/ (exists p k, st = Tagged p c n a k) -> In (Tg c n a) (szp st l).
Proof.
  induction l as [|x l IH]; intros st c n a [H|(p & k & ->)].
  - destruct H.
  - cbn [szp flushp]. apply tag_outp_in.
  - destruct H as [E|H].
    + subst x. cbn [szp]. destruct st; [|apply in_or_app; right]; apply IH; right; eexists _, _; reflexivity.
    + destruct x as [d|c0 n0 a0]; cbn [szp]; [destruct (is_space d); [apply IH; left; exact H|apply in_or_app; right; right; apply IH; left; exact H]|].
      destruct st; [|apply in_or_app; right]; apply IH; left; exact H.
  - destruct x as [d|c0 n0 a0]; cbn [szp].
    + destruct (is_space d); [apply IH; right; eexists _, _; reflexivity|]. apply in_or_app. left. apply tag_outp_in.
    + apply in_or_app. left. apply tag_outp_in.
Qed.
Lemma toks_in : forall n l l' c m a t, (List.length l < n)%nat -> near (fun _ _ => True) l l' -> In (Tg c m a) l -> (forall y, one None (tag_src c m a ++ y) = Next [t] y None) -> In t (fst (toks None (pcs_src l))).
Proof.
  assert (TT : forall k : tok, (fun _ _ : tok => True) k k) by (intro; exact I).
  induction n as [|n IH]; intros l l' c m a t Hn H I T; [lia|]. destruct (near_run _ l l' H) as (w & r & r' & -> & -> & W & N & O & O'). rewrite app_length, map_length in Hn.
  apply in_app_iff in I as [I|I]; [apply in_map_iff in I as (? & I & _); discriminate I|].
  assert (R : In t (fst (toks None (pcs_src r)))).
  { inversion N as [|c0 l l' C1 C2 H'|x l l' R H'|c0 m0 a0 m' a' l l' T0 H']; subst.
    - destruct I.
    - exfalso. destruct O; congruence.
    - destruct (ref_toks (fun _ _ => True) (fun s => Logic.I) (fun s => Logic.I) x R) as (k & _ & T2). pose proof (ref_chars x R) as [_ (z & Ez)].
      rewrite pcs_app, chars_src, T2. apply in_app_iff in I as [I|I]; [apply in_map_iff in I as (? & I & _); discriminate I|].
      assert (Q : In t (fst (toks None (pcs_src l)))) by (apply (IH l l' c m a t); [rewrite app_length, map_length, Ez in Hn; cbn [List.length] in Hn; lia|exact H'|exact I|exact T]).
      destruct (toks None (pcs_src l)) as [ts b]. right. exact Q.
    - destruct (tn_tok _ _ _ _ _ _ T0) as (k & k' & _ & T2 & _). change (pcs_src (Tg c0 m0 a0 :: l)) with (tag_src c0 m0 a0 ++ pcs_src l).
      rewrite (toks_next (tag_src c0 m0 a0 ++ pcs_src l) [k] (pcs_src l)) by (solve [apply T2|discriminate|left; reflexivity]).
      destruct I as [E|I].
      + injection E as -> -> ->. specialize (T []). specialize (T2 []). rewrite T in T2. injection T2 as ->. destruct (toks None (pcs_src l)) as [ts b]. left. reflexivity.
      + assert (Q : In t (fst (toks None (pcs_src l)))) by (apply (IH l l' c m a t); [cbn [List.length] in Hn; lia|exact H'|exact I|exact T]).
        destruct (toks None (pcs_src l)) as [ts b]. right. exact Q. }
  destruct w as [|d w]; [exact R|]. rewrite pcs_app, chars_src, toks_text by (try discriminate; assumption). destruct (toks None (pcs_src r)) as [ts b]. right. exact R.
Qed.

(** ** the tree *)
Section Pages.
  Variables bd bd' : list str.
  Definition hq (h h' : hstate) : Prop := cur h = cur h' /\ list_level h = list_level h' /\ blockdata h = bd /\ blockdata h' = bd'.
  Definition tkb (k k' : tok) : Prop := forall h h', hq h h' -> rr hq (handle k h) (handle k' h').
  Definition reserved_tok (k : tok) : bool := match k with TStartEnd t _ => in_list [$ "blockdata"; $ "inlinedata"] t | _ => false end.
  Lemma tkb_same : forall k, reserved_tok k = false -> tkb k k.
  Proof.
    intros k K [c ll b] [c' ll' b'] (E1 & E2 & E3 & E4). cbn [cur list_level blockdata] in *. subst c' ll' b b'.
    destruct k as [t a|t a|t|s|s|s]; cbn [handle]; cbn [rr].
    - unfold handle_starttag. destruct (in_list IGNORE_TAGS t); [repeat split|]. destruct (headline_level t); [repeat split|]. cbn [cur list_level blockdata].
      destruct (in_list [$ "li"; $ "ul"; $ "ol"] t); [repeat split|]. destruct (in_list [$ "img"; $ "br"] t); repeat split.
    - cbn [reserved_tok] in K. unfold handle_startendtag. cbv zeta. rewrite K. cbn [rr]. repeat split.
    - unfold handle_endtag. destruct (in_list IGNORE_TAGS t); [repeat split|]. destruct (str_eqb t ($ "br")); [repeat split|]. cbv zeta. repeat split.
    - repeat split.
    - repeat split.
    - repeat split.
  Qed.
  Lemma tkb_all : forall ts ts' h h', Forall2 tkb ts ts' -> hq h h' -> rr hq (handle_all ts h) (handle_all ts' h').
  Proof.
    intros ts ts' h h' T. revert h h'. induction T as [|t t' ts ts' T _ IH]; intros h h' H; cbn [handle_all]; [exact H|].
    pose proof (T h h' H) as K. destruct (handle t h) as [x|e], (handle t' h') as [x'|e']; cbn [rr bind] in *; try contradiction; [apply IH; exact K|exact K].
  Qed.
  (** a tag of the parser: what it stands for *)
  Definition stands (b : list str) (a : attrs) (x : str) : Prop :=
    dict_get ($ "type") (dict_of a) = Some (VStr ($ "pre")) /\ exists s i, dict_get ($ "id") (dict_of a) = Some (VStr s) /\ py_int s = Some i /\ py_index b i = Some x.
  Lemma tkb_cut : forall a a' x, stands bd a x -> stands bd' a' x -> tkb (TStartEnd ($ "inlinedata") a) (TStartEnd ($ "inlinedata") a').
  Proof.
    intros a a' x (T & s & i & G & P & J) (T' & s' & i' & G' & P' & J') [c ll b] [c' ll' b'] (E1 & E2 & E3 & E4). cbn [cur list_level blockdata] in *. subst c' ll' b b'.
    cbn [handle]. unfold handle_startendtag. cbv zeta. change (in_list [$ "blockdata"; $ "inlinedata"] ($ "inlinedata")) with true. cbv iota.
    rewrite G, G', P, P', T, T'. cbn [blockdata]. rewrite J, J'. cbn [rr]. repeat split.
  Qed.
End Pages.

Lemma source_get : forall k a s, forallb attr_ok a = true -> Spec32.source k a s -> dict_get k (dict_of a) = Some (VStr s).
Proof. intros k a s A H. unfold Spec32.source in H. destruct (AttrMean.value_cases k a A) as [[E G]|(v & E & G)]; [congruence|]. rewrite G. congruence. Qed.
Lemma plain_ok : forall a, forallb attr_plain a = true -> forallb attr_ok a = true.
Proof. intros a H. exact (fine_ok a H). Qed.
Lemma index_nth : forall (xs : list str) i x, Spec43.nth_area xs i x -> py_index xs i = Some x.
Proof.
  intros xs i x (k & E & H). assert (L : (k < List.length xs)%nat) by (apply nth_error_Some; congruence). unfold py_index. cbv zeta. destruct H as [->| ->].
  - replace (- Z.of_nat (List.length xs) <=? Z.of_nat k)%Z with true by (symmetry; apply Z.leb_le; lia). replace (Z.of_nat k <? Z.of_nat (List.length xs))%Z with true by (symmetry; apply Z.ltb_lt; lia).
    replace (Z.of_nat k <? 0)%Z with false by (symmetry; apply Z.ltb_ge; lia). cbn [andb]. rewrite Nat2Z.id. exact E.
  - replace (- Z.of_nat (List.length xs) <=? Z.of_nat k - Z.of_nat (List.length xs))%Z with true by (symmetry; apply Z.leb_le; lia).
    replace (Z.of_nat k - Z.of_nat (List.length xs) <? Z.of_nat (List.length xs))%Z with true by (symmetry; apply Z.ltb_lt; lia).
    replace (Z.of_nat k - Z.of_nat (List.length xs) <? 0)%Z with true by (symmetry; apply Z.ltb_lt; lia). cbn [andb].
    replace (Z.of_nat k - Z.of_nat (List.length xs) + Z.of_nat (List.length xs))%Z with (Z.of_nat k) by lia. rewrite Nat2Z.id. exact E.
Qed.
Lemma index_none : forall (xs : list str) i, (i < - Z.of_nat (List.length xs) \/ Z.of_nat (List.length xs) <= i)%Z -> py_index xs i = None.
Proof.
  intros xs i H. unfold py_index. cbv zeta. destruct H as [H|H].
  - replace (- Z.of_nat (List.length xs) <=? i)%Z with false by (symmetry; apply Z.leb_gt; lia). reflexivity.
  - replace (i <? Z.of_nat (List.length xs))%Z with false by (symmetry; apply Z.ltb_ge; lia). rewrite andb_false_r. reflexivity.
Qed.

(** *** the areas written out *)
Definition Rel (bd bd' : list str) (p p' : part) : Prop :=
  p = p' /\ Spec43.not_reserved p \/ exists a a' x, p = Single ($ "inlinedata") a /\ p' = Single ($ "inlinedata") a' /\ stands bd a x /\ stands bd' a' x.
Lemma cut_stands : forall bd n x, nth_error bd n = Some x -> Spec43.readable_number (Z.of_nat n) -> stands bd (cut_attrs n) x.
Proof.
  intros bd n x E C. split; [reflexivity|]. exists (show_nat n), (Z.of_nat n). split; [reflexivity|]. split.
  - unfold Spec43.readable_number in C. pose proof (DictFacts.py_int_show_Z (Z.of_nat n) C) as H. rewrite <- nat_N_Z in H at 1. rewrite NumFacts.show_Z_N in H. exact H.
  - apply index_nth. exists n. auto.
Qed.
Lemma out_parts : forall bd bd' l l' n n' pb pb', Forall2 (Spec43.written_out bd) l l' -> Forall (fun p => match p with Spec43.Piece q => part_plain q | _ => True end) l ->
  bd = pb ++ Spec43.areas l -> n = List.length pb -> bd' = pb' ++ Spec43.areas l' -> n' = List.length pb' ->
  (forall i, (i < n + List.length l)%nat -> Spec43.readable_number (Z.of_nat i)) -> (forall i, (i < n' + List.length l')%nat -> Spec43.readable_number (Z.of_nat i)) ->
  Forall2 (Rel bd bd') (cut n l) (cut n' l').
Proof.
  intros bd bd' l l' n n' pb pb' F. revert n n' pb pb'. induction F as [|i i' l l' H F IH]; intros n n' pb pb' P E1 E2 E3 E4 C C'; [constructor|].
  inversion P as [|? ? P1 P2]; subst x l0. cbn [List.length] in C, C'.
  assert (ADV : forall x m (pl b : list str), b = pl ++ [x] ++ Spec43.areas l -> m = List.length pl -> nth_error b m = Some x).
  { intros x m pl b -> ->. rewrite nth_error_app2, Nat.sub_diag by lia. reflexivity. }
  assert (ADV' : forall x m (pl b : list str), b = pl ++ [x] ++ Spec43.areas l' -> m = List.length pl -> nth_error b m = Some x).
  { intros x m pl b -> ->. rewrite nth_error_app2, Nat.sub_diag by lia. reflexivity. }
  destruct H as [x|p NR|a j x TY ID RN NA]; cbn [cut].
  - constructor.
    + right. exists (cut_attrs n), (cut_attrs n'), x. split; [reflexivity|]. split; [reflexivity|].
      split; apply cut_stands; [exact (ADV x n pb bd E1 E2)|apply C; lia|exact (ADV' x n' pb' bd' E3 E4)|apply C'; lia].
    + apply (IH (S n) (S n') (pb ++ [x]) (pb' ++ [x])); [exact P2|rewrite <- app_assoc; exact E1|rewrite app_length; cbn [List.length]; lia|rewrite <- app_assoc; exact E3|rewrite app_length; cbn [List.length]; lia| |]; intros k Hk; [apply C|apply C']; lia.
  - constructor; [left; auto|]. apply (IH n n' pb pb'); [exact P2|exact E1|exact E2|exact E3|exact E4| |]; intros k Hk; [apply C|apply C']; lia.
  - constructor.
    + right. exists a, (cut_attrs n'), x. split; [reflexivity|]. split; [reflexivity|]. destruct P1 as [_ P1]. apply plain_ok in P1. split.
      * split; [exact (source_get _ _ _ P1 TY)|]. exists (show_Z j), j. split; [exact (source_get _ _ _ P1 ID)|]. split; [apply DictFacts.py_int_show_Z; exact RN|apply index_nth; exact NA].
      * apply cut_stands; [exact (ADV' x n' pb' bd' E3 E4)|apply C'; lia].
    + apply (IH n (S n') pb (pb' ++ [x])); [exact P2|exact E1|exact E2|rewrite <- app_assoc; exact E3|rewrite app_length; cbn [List.length]; lia| |]; intros k Hk; [apply C|apply C']; lia.
Qed.
Lemma items_plain : forall l s, Spec43.items_written l s -> Forall (fun p => match p with Spec43.Piece q => part_plain q | _ => True end) l.
Proof.
  induction l as [|i l IH]; intros s H; [constructor|]. cbn [Spec43.items_written] in H. destruct H as (v & u & H & _ & Hu). constructor; [|exact (IH u Hu)]. destruct i; [apply H|exact I].
Qed.
Lemma reading_reserved : forall p k, Spec43.not_reserved p -> reading p k -> reserved_tok k = false.
Proof.
  intros p k NR H. destruct p as [t a|t|t a|w|]; cbn [reading] in H; try contradiction; try (subst k; reflexivity). destruct H as [->|[_ ->]]; [|reflexivity]. cbn [reserved_tok].
  destruct (in_list [$ "blockdata"; $ "inlinedata"] t) eqn:E; [|reflexivity]. exfalso. unfold in_list in E. apply existsb_exists in E as (y & I & E). apply str_eqb_eq in E. subst y.
  apply (NR t a eq_refl). destruct I as [<-|[<-|[]]]; [left|right]; reflexivity.
Qed.
Lemma parse_tokens : forall s bd ts, tokens s = (ts, false) -> feed_tokens s bd = do h <- handle_all ts (h_init bd); Ok (root_of (cur h)).
Proof. intros s bd ts H. unfold feed_tokens. rewrite H. reflexivity. Qed.
Theorem written_out_parse : forall l l' html html', Forall2 (Spec43.written_out (Spec43.areas l)) l l' -> Spec43.few l -> Spec43.sheet l html -> Spec43.sheet l' html' ->
  parse_html html = parse_html html'.
Proof.
  intros l l' html html' F C S S'. destruct (sheet_parse l html S) as (s & K & ->). destruct (sheet_parse l' html' S') as (s' & K' & ->).
  assert (LN : List.length l = List.length l') by (clear -F; induction F; cbn [List.length]; [reflexivity|f_equal; assumption]).
  assert (P : Forall (fun p => match p with Spec43.Piece q => part_plain q | _ => True end) l) by (destruct S as (? & s0 & ? & _ & _ & _ & W & _); exact (items_plain l s0 W)).
  assert (RL : Forall2 (Rel (Spec43.areas l) (Spec43.areas l')) (cut 0 l) (cut 0 l')).
  { apply (out_parts (Spec43.areas l) (Spec43.areas l') l l' 0 0 [] []); try assumption; try reflexivity. rewrite <- LN. exact C. }
  destruct (gen_toks (tkb (Spec43.areas l) (Spec43.areas l')) (Rel (Spec43.areas l) (Spec43.areas l'))) with (ps := cut 0 l) (ps' := cut 0 l') (s := s) (s' := s') as (ts & ts' & T & T1 & T2); try assumption.
  1-3: intro; apply tkb_same; reflexivity.
  - intros p p' k k' [[<- NR]|(a & a' & x & -> & -> & S1 & S2)] PP PP' R R'.
    + pose proof (reading_reserved p k NR R) as N1. assert (E : k = k' \/ exists a, (k = TStartEnd ($ "br") a \/ k = TStart ($ "br") a) /\ (k' = TStartEnd ($ "br") a \/ k' = TStart ($ "br") a)).
      { destruct p as [t a|t|t a|w|]; cbn [reading] in R, R'; try contradiction; [left; congruence..|]. destruct R as [->|[E ->]], R' as [->|[E' ->]]; [left; reflexivity|right; subst t; exists a; auto..|left; reflexivity]. }
      destruct E as [->|(a & E & E')]; [apply tkb_same; exact N1|].
      intros h h' HQ. assert (B : forall g, handle (TStartEnd ($ "br") a) g = handle (TStart ($ "br") a) g) by (intro g; reflexivity).
      assert (G : rr (hq (Spec43.areas l) (Spec43.areas l')) (handle (TStart ($ "br") a) h) (handle (TStart ($ "br") a) h')) by (apply tkb_same; [reflexivity|exact HQ]).
      destruct E as [->| ->], E' as [->| ->]; rewrite ?B; exact G.
    + destruct R as [->|[E _]]; [|discriminate E]. destruct R' as [->|[E _]]; [|discriminate E]. exact (tkb_cut _ _ a a' x S1 S2).
  - intros p p' [[<- _]|(a & a' & x & -> & -> & _)]; repeat split.
  - intros w p' [[<- _]|(a & a' & x & E & _)]; [reflexivity|discriminate E].
  - rewrite (parse_tokens _ _ ts T1), (parse_tokens _ _ ts' T2).
    pose proof (tkb_all _ _ ts ts' (h_init (Spec43.areas l)) (h_init (Spec43.areas l')) T ltac:(repeat split)) as G.
    destruct (handle_all ts (h_init (Spec43.areas l))) as [x|e], (handle_all ts' (h_init (Spec43.areas l'))) as [x'|e']; cbn [rr bind] in *; try contradiction; [|congruence].
    destruct G as [-> _]. reflexivity.
Qed.
Theorem written_out_results : forall (u : unknown) (strict : bool) l l' html html', Forall2 (Spec43.written_out (Spec43.areas l)) l l' -> Spec43.few l -> Spec43.sheet l html -> Spec43.sheet l' html' ->
  html2creole u strict html = html2creole u strict html' /\ html2textile u html = html2textile u html' /\ html2markdown u html = html2markdown u html' /\ html2rest u html = html2rest u html'.
Proof.
  intros u strict l l' html html' F C S S'. pose proof (written_out_parse l l' html html' F C S S') as E. unfold html2creole, html2textile, html2markdown, html2rest. rewrite E. repeat split.
Qed.

(** *** tags that refer to nothing *)
Lemma blockdata_kept : forall k h h', handle k h = Ok h' -> blockdata h' = blockdata h.
Proof.
  intros k h h' H. destruct k as [t a|t a|t|s|s|s]; cbn [handle] in H.
  - injection H as <-. unfold handle_starttag. destruct (in_list IGNORE_TAGS t); [reflexivity|]. destruct (headline_level t); [reflexivity|].
    destruct (in_list [$ "li"; $ "ul"; $ "ol"] t); [reflexivity|]. destruct (in_list [$ "img"; $ "br"] t); reflexivity.
  - unfold handle_startendtag in H. cbv zeta in H. destruct (in_list [$ "blockdata"; $ "inlinedata"] t); [|injection H as <-; reflexivity].
    destruct (dict_get ($ "id") (dict_of a)) as [[s|z|b|]|]; try discriminate H. destruct (py_int s); [|discriminate H]. destruct (dict_get ($ "type") (dict_of a)); [|discriminate H].
    destruct (py_index (blockdata h) z); [|discriminate H]. injection H as <-. reflexivity.
  - injection H as <-. unfold handle_endtag. destruct (in_list IGNORE_TAGS t); [reflexivity|]. destruct (str_eqb t ($ "br")); reflexivity.
  - injection H as <-. reflexivity.
  - injection H as <-. reflexivity.
  - injection H as <-. reflexivity.
Qed.
Lemma all_raise : forall k ts h, In k ts -> (forall g, blockdata g = blockdata h -> exists e, handle k g = Exc e) -> exists e, handle_all ts h = Exc e.
Proof.
  intros k ts. induction ts as [|t ts IH]; intros h H K; [destruct H|]. cbn [handle_all]. destruct H as [->|H].
  - destruct (K h eq_refl) as (e & ->). exists e. reflexivity.
  - destruct (handle t h) as [g|e] eqn:E; [|exists e; reflexivity]. cbn [bind]. apply IH; [exact H|]. intros g' G. apply K. rewrite G. exact (blockdata_kept t h g E).
Qed.
Lemma nothing_raises : forall t a n, Spec43.reserved t -> forallb attr_plain a = true -> Spec43.refers_to_nothing n a ->
  forall h, List.length (blockdata h) = n -> exists e, handle (TStartEnd t a) h = Exc e.
Proof.
  intros t a n RT PA RN h LN. apply plain_ok in PA. cbn [handle]. unfold handle_startendtag. cbv zeta.
  assert (E : in_list [$ "blockdata"; $ "inlinedata"] t = true) by (destruct RT as [->| ->]; reflexivity). rewrite E. clear E RT.
  destruct RN as [A|A|s Sc LT|i Sc RD OUT].
  - rewrite (AttrMean.absent_get _ _ PA A). eexists. reflexivity.
  - destruct (dict_get ($ "id") (dict_of a)) as [[s|z|b|]|]; try (eexists; reflexivity). destruct (py_int s); [|eexists; reflexivity]. rewrite (AttrMean.absent_get _ _ PA A). eexists. reflexivity.
  - rewrite (source_get _ _ _ PA Sc). replace (py_int s) with (@None Z); [eexists; reflexivity|]. symmetry.
    unfold Spec7.has_letter in LT. apply existsb_exists in LT as (c & Hc & Lc). apply (NumFacts.py_int_letter c); [|exact Hc].
    unfold letter in Lc. unfold NumFacts.ascii_letter. apply orb_true_iff in Lc as [Lc|Lc]; apply andb_true_iff in Lc as [H1 H2]; apply N.leb_le in H1, H2; lia.
  - rewrite (source_get _ _ _ PA Sc). rewrite DictFacts.py_int_show_Z by exact RD. destruct (dict_get ($ "type") (dict_of a)); [|eexists; reflexivity].
    rewrite index_none by (rewrite LN; exact OUT). eexists. reflexivity.
Qed.
Lemma soup_tag : forall ps s t a, soup ps s -> In (Single t a) ps -> t <> $ "br" -> exists l c n b, near (fun _ _ => True) l l /\ pcs_src l = s /\ In (Tg c n b) l /\ forall y, one None (tag_src c n b ++ y) = Next [TStartEnd t a] y None.
Proof.
  induction ps as [|p ps IH]; intros s t a H I NB; [destruct I|]. cbn [soup] in H. destruct H as (v & u & P & W & -> & H).
  assert (TAIL : exists l, near (fun _ _ => True) l l /\ pcs_src l = u).
  { clear -H. revert u H. induction ps as [|p ps IH]; intros u H; cbn [soup] in H; [subst; exists []; split; [constructor|reflexivity]|].
    destruct H as (v & u0 & P & W & -> & H). destruct (IH u0 H) as (l & N & <-). destruct (is_tag p) eqn:T.
    - destruct (part_tagged p v P W T) as (n & b & G & <-). exists (Tg (shut p) n b :: l). split; [|reflexivity]. destruct G as [G1 G2 G3 G4 G5 (k & G6 & G7)].
      destruct (good_fine (shut p) n b G1 G2) as (F1 & F2 & F3). apply near_tg; [|exact N]. constructor; auto. exists k, k. auto.
    - destruct p as [t a|t|t a|w|]; try discriminate T; [|destruct P]. assert (v = w) by (inversion W; reflexivity). subst v.
      exists (map Ch w ++ l). split; [|rewrite pcs_app; f_equal; apply chars_src]. apply near_app; [apply readable_near; exact P|exact N]. }
  assert (HEAD : exists l, near (fun _ _ => True) l l /\ pcs_src l = v /\ (p = Single t a -> exists c n b, In (Tg c n b) l /\ forall y, one None (tag_src c n b ++ y) = Next [TStartEnd t a] y None)).
  { destruct (is_tag p) eqn:T.
    - destruct (part_tagged p v P W T) as (n & b & G & <-). exists [Tg (shut p) n b]. destruct G as [G1 G2 G3 G4 G5 (k & G6 & G7)].
      destruct (good_fine (shut p) n b G1 G2) as (F1 & F2 & F3). split; [apply near_tg; [|constructor]; constructor; auto; exists k, k; auto|]. split; [cbn [pcs_src flat_map pc_src]; apply app_nil_r|].
      intros ->. cbn [reading] in G6. destruct G6 as [->|[E _]]; [|contradiction]. exists (shut (Single t a)), n, b. split; [left; reflexivity|exact G7].
    - destruct p as [t0 a0|t0|t0 a0|w|]; try discriminate T; [|destruct P]. assert (v = w) by (inversion W; reflexivity). subst v.
      exists (map Ch w). split; [apply readable_near; exact P|]. split; [apply chars_src|discriminate]. }
  destruct HEAD as (lh & Nh & Eh & Hh). destruct I as [I|I].
  - destruct TAIL as (l & N & <-). destruct (Hh I) as (c & n & b & J & O). exists (lh ++ l), c, n, b. split; [apply near_app; assumption|]. split; [rewrite pcs_app, Eh; reflexivity|].
    split; [apply in_or_app; left; exact J|exact O].
  - destruct (IH u t a H I NB) as (l & c & n & b & N & <- & J & O). exists (lh ++ l), c, n, b. split; [apply near_app; assumption|]. split; [rewrite pcs_app, Eh; reflexivity|].
    split; [apply in_or_app; right; exact J|exact O].
Qed.
Theorem nothing_parse : forall l html t a, Spec43.sheet l html -> In (Spec43.Piece (Single t a)) l -> Spec43.reserved t -> Spec43.refers_to_nothing (List.length (Spec43.areas l)) a ->
  exists e, parse_html html = Exc e.
Proof.
  intros l html t a S I RT RN. destruct (sheet_parse l html S) as (s & K & ->).
  assert (P : forallb attr_plain a = true).
  { destruct S as (? & s0 & ? & _ & _ & _ & W & _). pose proof (items_plain l s0 W) as F. rewrite Forall_forall in F. exact (proj2 (F _ I)). }
  assert (IC : forall n, In (Single t a) (cut n l)).
  { clear -I. induction l as [|i l IH]; intro n; [destruct I|]. destruct I as [->|I]; [left; reflexivity|]. destruct i; cbn [cut]; right; apply IH; exact I. }
  assert (NB : t <> $ "br") by (destruct RT as [->| ->]; discriminate).
  destruct (soup_tag _ s t a K (IC 0%nat) NB) as (lp & c & n & b & N & <- & J & O).
  pose proof (sqp_near _ lp lp false [] N eq_refl) as Q. pose proof (near_fine _ _ _ Q) as [[F _] _]. pose proof (near_fine _ _ _ N) as [_ [TN _]].
  assert (ST : strip_html (pcs_src lp) = pcs_src (szp (Run []) (sqp false [] lp))).
  { rewrite strip_html_eq, squash_pcs by assumption. change (pcs_src (sqp false [] lp)) with (held (Run []) ++ pcs_src (sqp false [] lp)). rewrite rsub_squeeze; [|exact F|reflexivity]. apply squeeze_pcs. }
  assert (NR : near (fun _ _ => True) (szp (Run []) (sqp false [] lp)) (szp (Run []) (sqp false [] lp))) by (apply szp_near; [exact Q|constructor; reflexivity]).
  assert (IT : In (TStartEnd t a) (fst (toks None (pcs_src (szp (Run []) (sqp false [] lp)))))).
  { eapply (toks_in (Datatypes.S (List.length (szp (Run []) (sqp false [] lp))))); [apply Nat.lt_succ_diag_r|exact NR|apply szp_tag; left; apply sqp_tag; exact J|exact O]. }
  rewrite ST. unfold feed_tokens. change (tokens ?x) with (toks None x). destruct (toks None (pcs_src (szp (Run []) (sqp false [] lp)))) as [ts fl]. cbn [fst] in IT.
  destruct (all_raise (TStartEnd t a) ts (h_init (Spec43.areas l)) IT) as (e & E).
  { intros g G. apply (nothing_raises t a _ RT P RN). rewrite G. reflexivity. }
  rewrite E. exists e. reflexivity.
Qed.
Theorem nothing_results : forall (u : unknown) (strict : bool) l html t a, Spec43.sheet l html -> In (Spec43.Piece (Single t a)) l -> Spec43.reserved t -> Spec43.refers_to_nothing (List.length (Spec43.areas l)) a ->
  (exists e, html2creole u strict html = Exc e) /\ (exists e, html2textile u html = Exc e) /\ (exists e, html2markdown u html = Exc e) /\ (exists e, html2rest u html = Exc e).
Proof.
  intros u strict l html t a S I RT RN. destruct (nothing_parse l html t a S I RT RN) as (e & E). unfold html2creole, html2textile, html2markdown, html2rest. rewrite E. repeat split; exists e; reflexivity.
Qed.
Definition item_src (i : Spec43.item) : str := match i with Spec43.Piece p => part_src p | Spec43.Area x => $ "<pre>" ++ x ++ $ "</pre>" end.
Lemma sheet_plain : forall l, Forall (fun i => match i with Spec43.Piece p => part_plain p | Spec43.Area x => Spec43.area_ok x end) l ->
  Spec40.visible (flat_map item_src l) -> Spec40.visible_end (flat_map item_src l) -> Spec43.sheet l (flat_map item_src l).
Proof.
  intros l F V E. exists [], (flat_map item_src l), []. split; [rewrite app_nil_r; reflexivity|]. split; [reflexivity|]. split; [reflexivity|]. split; [|auto]. clear V E.
  induction F as [|i l H F IH]; [reflexivity|]. cbn [Spec43.items_written flat_map]. exists (item_src i), (flat_map item_src l). split; [|auto].
  destruct i; cbn [Spec43.item_written item_src]; split; try exact H; [apply part_src_written; exact H|reflexivity].
Qed.
