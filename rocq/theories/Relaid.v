(** * Html of any shape, laid out in another way *)
From Coq Require Import String List Arith NArith ZArith Bool Lia.
From Verif Require Import PyStr PyStrFacts Utils Res HtmlTools HtmlTok HtmlTokFacts HtmlParser Safety Spec2 TreeFacts Spec10 TokRun TagTok StripRun Spec11 CleanRun CleanDoc Spec29 Spelling HtmlBase Html2X SpellDoc Spec31 Soup AttrSoup.
From Verif Require Spec40.
Import ListNotations.
Open Scope N_scope.

Definition pg (l : list pc) : Prop := near (tkr (fun _ => None)) l l.
Definition out (l : list pc) : list pc := szp (Run []) (sqp false [] l).
Lemma same_parse : forall l l', pg l -> pg l' -> out l = out l' -> parse_html (pcs_src l) = parse_html (pcs_src l').
Proof.
  assert (K : forall l, pg l -> strip_html (pcs_src l) = pcs_src (out l)).
  { intros l H. pose proof (sqp_near _ l l false [] H eq_refl) as Q. pose proof (near_fine _ _ _ Q) as [[F _] _]. pose proof (near_fine _ _ _ H) as [_ [N _]].
    rewrite strip_html_eq, squash_pcs by assumption. change (rsub [] (pcs_src (sqp false [] l))) with (rsub [] (held (Run []) ++ pcs_src (sqp false [] l))).
    rewrite rsub_squeeze by (try exact F; reflexivity). apply squeeze_pcs. }
  intros l l' H H' E. pose proof (near_never_pre _ l l H) as [P _]. pose proof (near_never_pre _ l' l' H') as [P' _].
  unfold parse_html, feed. rewrite !preprocess_plain by assumption. cbn [bind]. rewrite (K l H), (K l' H'), E. reflexivity.
Qed.

(** ** the two passes, piece by piece *)
Definition vis (l : list pc) : Prop := match l with Ch c :: _ => is_space c = false | Tg _ _ _ :: _ => True | [] => False end.
Definition vis1 (x : pc) : Prop := match x with Ch c => is_space c = false | Tg _ _ _ => True end.
Fixpoint sq_st (seen : bool) (p : str) (l : list pc) : bool * str :=
  match l with
  | [] => (seen, p)
  | Ch c :: r => if is_space c then sq_st seen (p ++ [c]) r else sq_st true [] r
  | Tg _ _ _ :: r => sq_st true [] r
  end.
Lemma sqp_app : forall a b seen p, sqp seen p (a ++ b) = sqp seen p a ++ sqp (fst (sq_st seen p a)) (snd (sq_st seen p a)) b.
Proof.
  induction a as [|[c|c n x] a IH]; intros b seen p; [reflexivity| |]; cbn [app sqp sq_st].
  - destruct (is_space c); [apply IH|]. rewrite IH, <- app_assoc. reflexivity.
  - rewrite IH, <- app_assoc. reflexivity.
Qed.
Lemma sq_st_app : forall a b seen p, sq_st seen p (a ++ b) = sq_st (fst (sq_st seen p a)) (snd (sq_st seen p a)) b.
Proof. induction a as [|[c|c n x] a IH]; intros b seen p; [reflexivity| |]; cbn [app sq_st]; [destruct (is_space c)|]; apply IH. Qed.
Lemma sq_st_vis : forall a x seen p, vis1 x -> sq_st seen p (a ++ [x]) = (true, []).
Proof. intros a x seen p H. rewrite sq_st_app. destruct x as [c|c n y]; cbn [sq_st vis1] in *; [rewrite H|]; reflexivity. Qed.
Lemma sqp_after : forall a x b seen p, vis1 x -> sqp seen p ((a ++ [x]) ++ b) = sqp seen p (a ++ [x]) ++ sqp true [] b.
Proof. intros a x b seen p H. rewrite sqp_app, sq_st_vis by exact H. reflexivity. Qed.
Lemma sqp_last : forall a x seen p, vis1 x -> exists a', sqp seen p (a ++ [x]) = a' ++ [x].
Proof.
  intros a x seen p H. rewrite sqp_app. destruct (sq_st seen p a) as [s q]. cbn [fst snd]. destruct x as [c|c n y]; cbn [sqp vis1] in *; [rewrite H|];
  eexists; rewrite app_assoc; reflexivity.
Qed.
Lemma sqp_white : forall w b seen p, forallb is_space w = true -> sqp seen p (map Ch w ++ b) = sqp seen (p ++ w) b.
Proof.
  induction w as [|c w IH]; intros b seen p H; [rewrite app_nil_r; reflexivity|]. cbn [forallb] in H. apply andb_true_iff in H as [H1 H2]. cbn [map app sqp]. rewrite H1, IH by exact H2.
  rewrite <- app_assoc. reflexivity.
Qed.
Lemma sqp_head : forall r p, vis r -> sqp true p r = map Ch (conv p) ++ sqp true [] r.
Proof. intros [|[c|c n a] r] p H; cbn [vis] in H; [destruct H| |]; cbn [sqp]; [rewrite H|]; reflexivity. Qed.
Lemma sqp_head_vis : forall r, vis r -> vis (sqp true [] r).
Proof. intros [|[c|c n a] r] H; cbn [vis] in H; [destruct H| |]; cbn [sqp]; [rewrite H|]; cbn; auto. Qed.
Lemma sqp_trail : forall l w seen p, forallb is_space w = true -> sqp seen p (l ++ map Ch w) = sqp seen p l.
Proof.
  intros l w seen p H. rewrite sqp_app. rewrite <- (app_nil_r (map Ch w)), sqp_white by exact H. cbn [sqp]. apply app_nil_r.
Qed.
Lemma sqp_first : forall l p q, sqp false p l = sqp false q l.
Proof. induction l as [|[c|c n a] l IH]; intros p q; [reflexivity| |]; cbn [sqp]; [destruct (is_space c); [apply IH|]|]; reflexivity. Qed.
Lemma split_white : forall l, exists g r, l = map Ch g ++ r /\ forallb is_space g = true /\ (r = [] \/ vis r).
Proof.
  induction l as [|[c|c n a] l (g & r & -> & G & R)].
  - exists [], []. auto.
  - destruct (is_space c) eqn:E.
    + exists (c :: g), r. split; [reflexivity|]. split; [cbn [forallb]; rewrite E; exact G|exact R].
    + exists [], (Ch c :: map Ch g ++ r). split; [reflexivity|]. split; [reflexivity|]. right. exact E.
  - exists [], (Tg c n a :: map Ch g ++ r). split; [reflexivity|]. split; [reflexivity|]. right. exact Logic.I.
Qed.

Fixpoint sz_out (st : sst) (l : list pc) : list pc :=
  match l with
  | [] => []
  | Ch c :: r =>
    if is_space c then sz_out (match st with Run p => Run (p ++ [c]) | Tagged p cl n a k => Tagged p cl n a (k ++ [c]) end) r
    else flushp st ++ Ch c :: sz_out (Run []) r
  | Tg cl n a :: r =>
    match st with
    | Run p => sz_out (Tagged p cl n a []) r
    | Tagged _ _ _ _ _ => flushp st ++ sz_out (Tagged [] cl n a []) r
    end
  end.
Fixpoint sz_st (st : sst) (l : list pc) : sst :=
  match l with
  | [] => st
  | Ch c :: r =>
    if is_space c then sz_st (match st with Run p => Run (p ++ [c]) | Tagged p cl n a k => Tagged p cl n a (k ++ [c]) end) r
    else sz_st (Run []) r
  | Tg cl n a :: r => match st with Run p => sz_st (Tagged p cl n a []) r | Tagged _ _ _ _ _ => sz_st (Tagged [] cl n a []) r end
  end.
Lemma szp_app : forall a b st, szp st (a ++ b) = sz_out st a ++ szp (sz_st st a) b.
Proof.
  induction a as [|[c|c n x] a IH]; intros b st; [reflexivity| |]; cbn [app szp sz_out sz_st].
  - destruct (is_space c); [apply IH|]. rewrite IH, <- app_assoc. reflexivity.
  - destruct st as [p|p cl m y k]; [apply IH|]. rewrite IH, <- app_assoc. reflexivity.
Qed.
Lemma sz_st_app : forall a b st, sz_st st (a ++ b) = sz_st (sz_st st a) b.
Proof. induction a as [|[c|c n x] a IH]; intros b st; [reflexivity| |]; cbn [app sz_st]; [destruct (is_space c)|destruct st]; apply IH. Qed.
Lemma sz_st_ch : forall a c st, is_space c = false -> sz_st st (a ++ [Ch c]) = Run [].
Proof. intros a c st H. rewrite sz_st_app. cbn [sz_st]. rewrite H. reflexivity. Qed.
Lemma sz_st_tg : forall a c n x st, exists p, sz_st st (a ++ [Tg c n x]) = Tagged p c n x [].
Proof. intros a c n x st. rewrite sz_st_app. cbn [sz_st]. destruct (sz_st st a); eexists; reflexivity. Qed.
Lemma szp_run : forall w b p, forallb is_space w = true -> szp (Run p) (map Ch w ++ b) = szp (Run (p ++ w)) b.
Proof.
  induction w as [|c w IH]; intros b p H; [rewrite app_nil_r; reflexivity|]. cbn [forallb] in H. apply andb_true_iff in H as [H1 H2]. cbn [map app szp]. rewrite H1, IH by exact H2.
  rewrite <- app_assoc. reflexivity.
Qed.
Lemma szp_tagged : forall w b p c n a k, forallb is_space w = true -> szp (Tagged p c n a k) (map Ch w ++ b) = szp (Tagged p c n a (k ++ w)) b.
Proof.
  induction w as [|d w IH]; intros b p c n a k H; [rewrite app_nil_r; reflexivity|]. cbn [forallb] in H. apply andb_true_iff in H as [H1 H2]. cbn [map app szp]. rewrite H1, IH by exact H2.
  rewrite <- app_assoc. reflexivity.
Qed.
(** only this much of the white space around a tag counts *)
Lemma tag_out_same : forall p p' c n a k k', (blk n = true \/ (startswith [32] p = startswith [32] p' /\ endswith [32] k = endswith [32] k')) ->
  tag_outp p c n a k = tag_outp p' c n a k'.
Proof. intros p p' c n a k k' H. unfold tag_outp. cbv zeta. unfold blk in H. destruct H as [H|[H1 H2]]; [rewrite H; reflexivity|]. rewrite H1, H2. reflexivity. Qed.
Lemma szp_before : forall l p p' c n a k, (blk n = true \/ startswith [32] p = startswith [32] p') -> szp (Tagged p c n a k) l = szp (Tagged p' c n a k) l.
Proof.
  induction l as [|[d|d m x] l IH]; intros p p' c n a k H.
  - apply tag_out_same. destruct H as [H|H]; auto.
  - cbn [szp]. destruct (is_space d); [apply IH; exact H|]. cbn [flushp]. rewrite (tag_out_same p p' c n a k k); [reflexivity|]. destruct H; auto.
  - cbn [szp flushp]. rewrite (tag_out_same p p' c n a k k); [reflexivity|]. destruct H; auto.
Qed.
Lemma szp_vis : forall l p p' c n a k k', vis l -> tag_outp p c n a k = tag_outp p' c n a k' -> szp (Tagged p c n a k) l = szp (Tagged p' c n a k') l.
Proof. intros [|[d|d m x] l] p p' c n a k k' V H; cbn [vis] in V; [destruct V| |]; cbn [szp flushp]; [rewrite V|]; rewrite H; reflexivity. Qed.

(** ** the rules *)
Lemma conv_space' : forall w, forallb is_space w = true -> forallb is_space (conv w) = true.
Proof. exact conv_space. Qed.
Lemma rule_ends : forall l w w', forallb is_space w = true -> forallb is_space w' = true -> out (map Ch w ++ l ++ map Ch w') = out l.
Proof. intros l w w' H H'. unfold out. rewrite sqp_white, sqp_trail by assumption. cbn [app]. rewrite (sqp_first l w []). reflexivity. Qed.
Lemma rule_conv : forall l x w w' r, vis1 x -> vis r -> forallb is_space w = true -> forallb is_space w' = true -> conv w = conv w' ->
  out ((l ++ [x]) ++ map Ch w ++ r) = out ((l ++ [x]) ++ map Ch w' ++ r).
Proof. intros l x w w' r X V H H' E. unfold out. rewrite !sqp_after, !sqp_white by assumption. cbn [app]. rewrite (sqp_head r w), (sqp_head r w') by exact V. rewrite E. reflexivity. Qed.
Lemma rule_block_after : forall l c n a w r, blk n = true -> forallb is_space w = true -> out ((l ++ [Tg c n a]) ++ map Ch w ++ r) = out ((l ++ [Tg c n a]) ++ r).
Proof.
  intros l c n a w r B W. unfold out. rewrite !sqp_after by exact Logic.I. destruct (sqp_last l (Tg c n a) false [] Logic.I) as (q & Q). rewrite Q, !(szp_app (q ++ [Tg c n a])).
  destruct (sz_st_tg q c n a (Run [])) as (p & P). rewrite P. f_equal.
  destruct (split_white r) as (g & r' & -> & G & [->|V]).
  - rewrite app_nil_r, (sqp_trail (map Ch w) g true [] G). pose proof (sqp_trail [] w true [] W) as E1. pose proof (sqp_trail [] g true [] G) as E2. cbn [app] in E1, E2. rewrite E1, E2. reflexivity.
  - rewrite !sqp_white by assumption. cbn [app]. match goal with |- szp _ (sqp true ?q _) = szp _ (sqp true ?q' _) => rewrite (sqp_head r' q), (sqp_head r' q') by exact V end.
    rewrite !szp_tagged by (apply conv_space'; first [exact G|rewrite forallb_app; apply andb_true_iff; split; assumption]). apply szp_vis; [apply sqp_head_vis; exact V|]. apply tag_out_same. auto.
Qed.
Lemma rule_before : forall l d c n a w w' r, is_space d = false -> forallb is_space w = true -> forallb is_space w' = true -> (blk n = true \/ startswith [32] (conv w) = startswith [32] (conv w')) ->
  out ((l ++ [Ch d]) ++ map Ch w ++ Tg c n a :: r) = out ((l ++ [Ch d]) ++ map Ch w' ++ Tg c n a :: r).
Proof.
  intros l d c n a w w' r D W W' H. unfold out. rewrite !sqp_after, !sqp_white by assumption. cbn [sqp app]. destruct (sqp_last l (Ch d) false [] D) as (q & Q). rewrite Q, !(szp_app (q ++ [Ch d])), sz_st_ch by exact D. f_equal.
  rewrite !szp_run by (apply conv_space'; assumption). cbn [szp app]. apply szp_before. exact H.
Qed.
Lemma rule_after : forall l c n a w w' r, vis r -> forallb is_space w = true -> forallb is_space w' = true -> endswith [32] (conv w) = endswith [32] (conv w') ->
  out ((l ++ [Tg c n a]) ++ map Ch w ++ r) = out ((l ++ [Tg c n a]) ++ map Ch w' ++ r).
Proof.
  intros l c n a w w' r V W W' H. unfold out. rewrite !sqp_after by exact Logic.I. destruct (sqp_last l (Tg c n a) false [] Logic.I) as (q & Q). rewrite Q, !(szp_app (q ++ [Tg c n a])).
  destruct (sz_st_tg q c n a (Run [])) as (p & P). rewrite P. f_equal. rewrite !sqp_white by assumption. cbn [app]. rewrite (sqp_head r w), (sqp_head r w') by exact V.
  rewrite !szp_tagged by (apply conv_space'; assumption). apply szp_vis; [apply sqp_head_vis; exact V|]. apply tag_out_same. auto.
Qed.
Lemma rule_around : forall l d c n a w1 w2 w1' w2' r, is_space d = false -> vis r -> forallb is_space w1 = true -> forallb is_space w2 = true -> forallb is_space w1' = true -> forallb is_space w2' = true ->
  tag_outp (conv w1) c n a (conv w2) = tag_outp (conv w1') c n a (conv w2') ->
  out ((l ++ [Ch d]) ++ map Ch w1 ++ Tg c n a :: map Ch w2 ++ r) = out ((l ++ [Ch d]) ++ map Ch w1' ++ Tg c n a :: map Ch w2' ++ r).
Proof.
  intros l d c n a w1 w2 w1' w2' r D V W1 W2 W1' W2' H. unfold out. rewrite !sqp_after, !sqp_white by assumption. cbn [sqp app]. destruct (sqp_last l (Ch d) false [] D) as (q & Q). rewrite Q, !(szp_app (q ++ [Ch d])), sz_st_ch by exact D. f_equal.
  rewrite !szp_run by (apply conv_space'; assumption). cbn [szp app]. rewrite !sqp_white by assumption. cbn [app]. rewrite (sqp_head r w2), (sqp_head r w2') by exact V.
  rewrite !szp_tagged by (apply conv_space'; assumption). apply szp_vis; [apply sqp_head_vis; exact V|]. exact H.
Qed.

(** ** from texts to pieces *)
Lemma page_pcs : forall s, Spec40.page s -> exists l, pg l /\ pcs_src l = s.
Proof.
  intros s (ps & H). destruct (parts_near (fun _ => None) ps ps s s (same_parts_refl _ ps) H H) as (l & l' & N & E & E').
  (* the same choice on both sides *)
  exists l. split; [|exact E]. clear - N. unfold pg. induction N as [|c l l' C1 C2 _ IH|r l l' R _ IH|c n a n' a' l l' T _ IH]; [constructor|constructor; assumption|constructor; assumption|].
  constructor; [|exact IH]. destruct T as [T1 T1' T2 T2' T3 T4 T5 T5' T6 T6' (t & t' & T7 & T8 & T9)]. constructor; try assumption; try reflexivity. exists t, t. split; [constructor|auto].
Qed.
Lemma tag_pcs : forall p v, Spec40.written_tag p v -> is_tag p = true -> exists n a, pg [Tg (shut p) n a] /\ tag_src (shut p) n a = v /\ blk n = Spec40.block_level (tag_of p) /\ (blk n = false -> endswith [47] a = alone p).
Proof.
  intros p v [P W] T. destruct (part_tagged p v P W T) as (n & a & [G1 G2 G3 G4 G5 (k & G6 & G7)] & E). exists n, a. destruct (good_fine (shut p) n a G1 G2) as (F1 & F2 & F3).
  split; [|split; [exact E|split; [exact G3|intro B; apply G5; rewrite <- G3; exact B]]]. apply near_tg; [|constructor]. constructor; try assumption; try reflexivity.
  exists k, k. split; [constructor|auto].
Qed.
Lemma last_62 : forall l c n a, exists s, pcs_src (l ++ [Tg c n a]) = s ++ [62].
Proof. intros l c n a. rewrite pcs_app. unfold pcs_src at 2. cbn [flat_map pc_src]. unfold tag_src. exists (pcs_src l ++ 60 :: ((if c then [47] else []) ++ n) ++ a). repeat (rewrite <- ?app_assoc; cbn [app]). reflexivity. Qed.
Lemma in_text_pcs : forall l, Spec40.in_text (pcs_src l) -> exists l' d, l = l' ++ [Ch d] /\ is_space d = false.
Proof.
  intros l (X & c & E & S & N). destruct l as [|x l]; [destruct X; discriminate E|]. destruct (exists_last (l := x :: l) ltac:(discriminate)) as (l' & y & F). rewrite F in *.
  destruct y as [d|d n a].
  - exists l', d. split; [reflexivity|]. rewrite pcs_app in E. apply app_inj_tail in E as [_ <-]. exact S.
  - destruct (last_62 l' d n a) as (s & Es). rewrite Es in E. apply app_inj_tail in E as [_ <-]. congruence.
Qed.
Lemma visible_end_pcs : forall l, Spec40.visible_end (pcs_src l) -> exists l' x, l = l' ++ [x] /\ vis1 x.
Proof.
  intros l (X & c & E & S). destruct l as [|x l]; [destruct X; discriminate E|]. destruct (exists_last (l := x :: l) ltac:(discriminate)) as (l' & y & F). rewrite F in *.
  exists l', y. split; [reflexivity|]. destruct y as [d|d n a]; [|exact Logic.I]. rewrite pcs_app in E. apply app_inj_tail in E as [_ <-]. exact S.
Qed.
Lemma visible_pcs : forall l, Spec40.visible (pcs_src l) -> vis l.
Proof. intros [|[d|d n a] l] (c & Y & E & S); [discriminate E| |exact Logic.I]. change (d :: pcs_src l = c :: Y) in E. injection E as -> _. exact S. Qed.

Lemma one_space : forall b, forallb is_space (Spec40.sp b) = true.
Proof. intros []; reflexivity. Qed.
Lemma conv_sp : forall b, conv (Spec40.sp b) = Spec40.sp b.
Proof. intros []; reflexivity. Qed.
Lemma has_newline : forall w, existsb (N.eqb 10) w = true -> exists k, count_occ N.eq_dec w 10 = S k.
Proof.
  intros w H. apply existsb_exists in H as (c & H1 & H2). apply N.eqb_eq in H2. subst c. pose proof (proj1 (count_occ_In N.eq_dec w 10) H1). destruct (count_occ N.eq_dec w 10); [lia|eauto].
Qed.
Lemma before_sp : forall w, startswith [32] (conv w) = startswith [32] (conv (Spec40.sp (Spec40.counts_before w))).
Proof.
  intro w. rewrite conv_sp. unfold Spec40.counts_before, Spec40.over_lines, conv. destruct (existsb (N.eqb 10) w) eqn:E.
  - destruct (has_newline w E) as (k & K). rewrite K. reflexivity.
  - destruct w as [|c w]; [reflexivity|]. cbn [orb].  destruct (N.eqb_spec c 32) as [->|N]; [reflexivity|]. cbn. destruct c as [|p]; [reflexivity|]. destruct (Pos.eqb_spec 32 p); [subst; congruence|reflexivity].
Qed.
Lemma after_sp : forall w, endswith [32] (conv w) = endswith [32] (conv (Spec40.sp (Spec40.counts_after w))).
Proof.
  intro w. rewrite conv_sp. unfold Spec40.counts_after, Spec40.over_lines, conv. destruct (existsb (N.eqb 10) w) eqn:E.
  - destruct (has_newline w E) as (k & K). rewrite K. unfold endswith. cbn [rev app orb Spec40.sp].
    replace (rev (repeat 32 (S k))) with (32 :: repeat 32 k); [reflexivity|]. clear. symmetry. replace (repeat 32 (S k)) with (repeat 32 k ++ [32]); [rewrite rev_app_distr; cbn [rev app]; f_equal|].
    + induction k as [|k IH]; [reflexivity|]. cbn [repeat rev]. rewrite IH. clear. induction k as [|k IH]; [reflexivity|]. cbn [repeat app]. f_equal. exact IH.
    + induction k as [|k IH]; [reflexivity|]. cbn [repeat app]. f_equal. exact IH.
  - cbn [orb]. unfold endswith. destruct (rev w) as [|c r] eqn:F; [reflexivity|]. destruct (N.eqb_spec c 32) as [->|N]; [reflexivity|]. cbn. destruct c as [|p]; [reflexivity|]. destruct (Pos.eqb_spec 32 p); [subst; congruence|reflexivity].
Qed.

Lemma pg_app : forall a b, pg a -> pg b -> pg (a ++ b).
Proof. intros. apply near_app; assumption. Qed.
Lemma pg_white : forall w, forallb is_space w = true -> pg (map Ch w).
Proof. intros. apply near_space. assumption. Qed.
Lemma src3 : forall a w b, pcs_src (a ++ map Ch w ++ b) = pcs_src a ++ w ++ pcs_src b.
Proof. intros. rewrite !pcs_app, chars_src. reflexivity. Qed.

Lemma inline_pcs : forall v, Spec40.inline_tag v -> exists c n a, pg [Tg c n a] /\ tag_src c n a = v /\ blk n = false.
Proof.
  intros v [(t & a & B & [W|W])|(t & a & B & W)].
  all: destruct (tag_pcs _ v W eq_refl) as (n & x & G & E & Bn & _); cbn [tag_of] in Bn; rewrite B in Bn; eexists _, n, x; repeat split; eassumption.
Qed.
Lemma paired_pcs : forall v, Spec40.paired_tag v -> exists c n a, pg [Tg c n a] /\ tag_src c n a = v /\ blk n = false /\ endswith [47] a = false.
Proof.
  intros v (t & a & B & [W|W]); destruct (tag_pcs _ v W eq_refl) as (n & x & G & E & Bn & L); cbn [tag_of] in Bn; rewrite B in Bn; eexists _, n, x; (split; [exact G|]); (split; [exact E|]); (split; [exact Bn|]); exact (L Bn).
Qed.
Lemma block_pcs : forall v, Spec40.block_tag v -> exists c n a, pg [Tg c n a] /\ tag_src c n a = v /\ blk n = true.
Proof.
  intros v (t & a & B & [W|[W|W]]); destruct (tag_pcs _ v W eq_refl) as (n & x & G & E & Bn & _); cbn [tag_of] in Bn; rewrite B in Bn; eexists _, n, x; repeat split; eassumption.
Qed.
Lemma src_tg : forall c n a, pcs_src [Tg c n a] = tag_src c n a.
Proof. exact one_pc. Qed.
Ltac pgs := repeat first [assumption | apply pg_app | apply pg_white | apply one_space | (apply (near_space _ [32]); reflexivity) | reflexivity].
Theorem relaid_parse : forall s s', Spec40.relaid s s' -> parse_html s = parse_html s'.
Proof.
  intros s s' H. induction H as [X|X Y _ IH|X Y Z _ IH1 _ IH2|X w w' PX W W'|X w Y PX EX PY VY W L|X v w Y PX PY V W|X v w Y PX EX PY V W|X v w Y PX EX PY V W|X v w Y PX PY VY V W|X v Y PX EX PY VY V|X v Y PX EX PY VY V].
  - reflexivity.
  - symmetry. exact IH.
  - etransitivity; eassumption.
  - destruct (page_pcs X PX) as (l & P & <-). replace (w ++ pcs_src l ++ w') with (pcs_src (map Ch w ++ l ++ map Ch w')) by (rewrite !pcs_app, !chars_src; reflexivity).
    apply same_parse; [pgs|exact P|apply rule_ends; assumption].
  - destruct (page_pcs X PX) as (l & P & <-). destruct (page_pcs Y PY) as (r & P' & <-). apply visible_pcs in VY. destruct (visible_end_pcs l EX) as (l' & x & -> & Vx).
    rewrite <- !src3. assert (R : forallb is_space (repeat 32 (Spec40.newlines w)) = true) by (apply gap_space).
    apply same_parse; [pgs|pgs|]. apply rule_conv; try assumption. unfold Spec40.over_lines, Spec40.newlines in *. unfold conv at 1. rewrite L.
    destruct (has_newline w L) as (k & K). symmetry. apply conv_id. unfold nonl. clear. induction (count_occ N.eq_dec w 10) as [|n IH]; [reflexivity|]. cbn [repeat forallb]. exact IH.
  - destruct (page_pcs X PX) as (l & P & <-). destruct (page_pcs Y PY) as (r & P' & <-). destruct (block_pcs v V) as (c & n & a & G & <- & B).
    replace (pcs_src l ++ tag_src c n a ++ w ++ pcs_src r) with (pcs_src ((l ++ [Tg c n a]) ++ map Ch w ++ r)) by (rewrite !pcs_app, chars_src, src_tg, <- !app_assoc; reflexivity).
    replace (pcs_src l ++ tag_src c n a ++ pcs_src r) with (pcs_src ((l ++ [Tg c n a]) ++ r)) by (rewrite !pcs_app, src_tg, <- !app_assoc; reflexivity). apply same_parse; [pgs|pgs|]. apply rule_block_after; assumption.
  - destruct (page_pcs X PX) as (l & P & <-). destruct (page_pcs Y PY) as (r & P' & <-). destruct (block_pcs v V) as (c & n & a & G & <- & B). destruct (in_text_pcs l EX) as (l' & d & -> & D).
    assert (E : forall w, pcs_src (l' ++ [Ch d]) ++ w ++ tag_src c n a ++ pcs_src r = pcs_src ((l' ++ [Ch d]) ++ map Ch w ++ [Tg c n a] ++ r)) by (intro; rewrite (pcs_app (l' ++ [Ch d])), !(pcs_app (map Ch _)), chars_src, (pcs_app [Tg c n a]), src_tg; reflexivity).
    rewrite E. replace (pcs_src (l' ++ [Ch d]) ++ tag_src c n a ++ pcs_src r) with (pcs_src ((l' ++ [Ch d]) ++ map Ch [] ++ [Tg c n a] ++ r)) by (symmetry; exact (E [])). clear E.
    apply same_parse; [pgs|pgs|]. apply rule_before; try assumption; [reflexivity|auto].
  - destruct (page_pcs X PX) as (l & P & <-). destruct (page_pcs Y PY) as (r & P' & <-). destruct (inline_pcs v V) as (c & n & a & G & <- & B). destruct (in_text_pcs l EX) as (l' & d & -> & D).
    assert (E : forall w, pcs_src (l' ++ [Ch d]) ++ w ++ tag_src c n a ++ pcs_src r = pcs_src ((l' ++ [Ch d]) ++ map Ch w ++ [Tg c n a] ++ r)) by (intro; rewrite (pcs_app (l' ++ [Ch d])), !(pcs_app (map Ch _)), chars_src, (pcs_app [Tg c n a]), src_tg; reflexivity).
    rewrite !E. apply same_parse; [pgs|pgs|]. apply rule_before; try assumption; [apply one_space|]. right. apply before_sp.
  - destruct (page_pcs X PX) as (l & P & <-). destruct (page_pcs Y PY) as (r & P' & <-). apply visible_pcs in VY. destruct (inline_pcs v V) as (c & n & a & G & <- & B).
    assert (E : forall w, pcs_src l ++ tag_src c n a ++ w ++ pcs_src r = pcs_src ((l ++ [Tg c n a]) ++ map Ch w ++ r)) by (intro; rewrite !pcs_app, chars_src, src_tg, <- !app_assoc; reflexivity).
    rewrite !E. apply same_parse; [pgs|pgs|]. apply rule_after; try assumption; [apply one_space|]. apply after_sp.
  - destruct (page_pcs X PX) as (l & P & <-). destruct (page_pcs Y PY) as (r & P' & <-). apply visible_pcs in VY. destruct (paired_pcs v V) as (c & n & a & G & <- & B & E). destruct (in_text_pcs l EX) as (l' & d & -> & D).
    replace (pcs_src (l' ++ [Ch d]) ++ $ " " ++ tag_src c n a ++ pcs_src r) with (pcs_src ((l' ++ [Ch d]) ++ map Ch [32] ++ [Tg c n a] ++ map Ch [] ++ r)) by (rewrite !pcs_app, !chars_src, src_tg; reflexivity).
    replace (pcs_src (l' ++ [Ch d]) ++ tag_src c n a ++ $ " " ++ pcs_src r) with (pcs_src ((l' ++ [Ch d]) ++ map Ch [] ++ [Tg c n a] ++ map Ch [32] ++ r)) by (rewrite !pcs_app, !chars_src, src_tg; reflexivity).
    apply same_parse; [pgs|pgs|]. apply (rule_around l' d c n a [32] [] [] [32]); try assumption; try reflexivity.
    unfold tag_outp. cbv zeta. unfold blk in B. rewrite B, E. destruct c; reflexivity.
  - destruct (page_pcs X PX) as (l & P & <-). destruct (page_pcs Y PY) as (r & P' & <-). apply visible_pcs in VY. destruct (paired_pcs v V) as (c & n & a & G & <- & B & E). destruct (in_text_pcs l EX) as (l' & d & -> & D).
    replace (pcs_src (l' ++ [Ch d]) ++ $ " " ++ tag_src c n a ++ $ " " ++ pcs_src r) with (pcs_src ((l' ++ [Ch d]) ++ map Ch [32] ++ [Tg c n a] ++ map Ch [32] ++ r)) by (rewrite !pcs_app, !chars_src, src_tg; reflexivity).
    replace (pcs_src (l' ++ [Ch d]) ++ tag_src c n a ++ $ " " ++ pcs_src r) with (pcs_src ((l' ++ [Ch d]) ++ map Ch [] ++ [Tg c n a] ++ map Ch [32] ++ r)) by (rewrite !pcs_app, !chars_src, src_tg; reflexivity).
    apply same_parse; [pgs|pgs|]. apply (rule_around l' d c n a [32] [32] [] [32]); try assumption; try reflexivity.
    unfold tag_outp. cbv zeta. unfold blk in B. rewrite B, E. destruct c; reflexivity.
Qed.
Theorem relaid_results : forall (u : unknown) (strict : bool) html html', Spec40.relaid html html' ->
  html2creole u strict html = html2creole u strict html' /\ html2textile u html = html2textile u html' /\ html2markdown u html = html2markdown u html' /\ html2rest u html = html2rest u html'.
Proof.
  intros u strict html html' H. apply relaid_parse in H. unfold html2creole, html2textile, html2markdown, html2rest. rewrite H. repeat split.
Qed.
Definition relaid_results' : forall html html' (u : unknown) (strict : bool), Spec40.relaid html html' ->
  html2creole u strict html = html2creole u strict html' /\ html2textile u html = html2textile u html' /\ html2markdown u html = html2markdown u html' /\ html2rest u html = html2rest u html'
  := fun html html' u strict H => relaid_results u strict html html' H.
Lemma tabs_white : forall n, Spec40.white (repeat 9 n).
Proof. unfold Spec40.white. induction n as [|n IH]; [reflexivity|]. cbn [repeat forallb]. exact IH. Qed.
Lemma tabs_none : forall n, Spec40.counts_before (repeat 9 n) = false /\ Spec40.counts_after (repeat 9 n) = false.
Proof.
  assert (L : forall n, Spec40.over_lines (repeat 9 n) = false) by (unfold Spec40.over_lines; induction n as [|n IH]; [reflexivity|]; cbn [repeat existsb]; exact IH).
  assert (R : forall n, rev (repeat 9 n) = repeat 9 n).
  { induction n as [|n IH]; [reflexivity|]. cbn [repeat rev]. rewrite IH. clear. induction n as [|n IH]; [reflexivity|]. cbn [repeat app]. f_equal. exact IH. }
  intro n. unfold Spec40.counts_before, Spec40.counts_after. rewrite L, R. destruct n; split; reflexivity.
Qed.
Theorem tabs_join : forall X v Y n (u : unknown) (strict : bool), Spec40.page X -> Spec40.page Y -> Spec40.inline_tag v ->
  let joins html html' := html2creole u strict html = html2creole u strict html' /\ html2textile u html = html2textile u html' /\
                          html2markdown u html = html2markdown u html' /\ html2rest u html = html2rest u html' in
  (Spec40.in_text X -> joins (X ++ repeat 9 n ++ v ++ Y) (X ++ v ++ Y)) /\ (Spec40.visible Y -> joins (X ++ v ++ repeat 9 n ++ Y) (X ++ v ++ Y)).
Proof.
  intros X v Y n u strict PX PY V joins. destruct (tabs_none n) as [E1 E2]. split; intro H; apply relaid_results.
  - pose proof (Spec40.re_before_inline X v (repeat 9 n) Y PX H PY V (tabs_white n)) as R. rewrite E1 in R. exact R.
  - pose proof (Spec40.re_after_inline X v (repeat 9 n) Y PX PY H V (tabs_white n)) as R. rewrite E2 in R. exact R.
Qed.
