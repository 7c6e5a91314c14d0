(** * Cutting out the preformatted blocks of Spec26.v *)
From Coq Require Import String List Arith NArith ZArith Bool Lia.
From Verif Require Import PyStr PyStrFacts GNames Regex RegexFacts RegexRun Rules Utils Res Entities HtmlTools HtmlToolsFacts HtmlTok HtmlTokFacts.
From Verif Require Import HtmlParser Safety Spec2 TreeFacts Spec10 TokRun StripRun Spec11 CleanRun CleanDoc Spec26.
From Verif Require InlineRun BlockRun BlockHits.
Import ListNotations.
Open Scope N_scope.

(** ** a match of the pattern *)
Lemma line_stops : forall (src z y' r : str), forallb is_space (first_line src) = false -> forallb is_space z = true -> src ++ r = z ++ y' -> BlockRun.eol y' = false.
Proof.
  induction src as [|c src IH]; intros z y' r H Hz E; [discriminate H|]. unfold first_line in H. cbn [take_while] in H. destruct z as [|d z].
  - cbn [app] in E. subst y'. cbn [BlockRun.eol]. destruct (c =? 10); [discriminate H|reflexivity].
  - cbn [app] in E. injection E as -> E. cbn [forallb] in Hz. apply andb_true_iff in Hz as [Hd Hz]. destruct (d =? 10); [discriminate H|].
    cbn [negb forallb] in H. rewrite Hd in H. exact (IH z y' r H Hz E).
Qed.
Lemma last_nl : forall w : str, In 10 w -> exists wa wb, w = wa ++ 10 :: wb /\ ~ In 10 wb.
Proof.
  induction w as [|c w IH]; intro H; [destruct H|]. destruct (in_dec N.eq_dec 10 w) as [I|N].
  - destruct (IH I) as (wa & wb & -> & Hb). exists (c :: wa), wb. auto.
  - destruct H as [->|H]; [|contradiction]. exists [], w. auto.
Qed.
Lemma blank_stops : forall wb T z y' : str, ~ In 10 wb -> forallb is_space z = true -> wb ++ 60 :: T = z ++ y' -> BlockRun.eol y' = false.
Proof.
  induction wb as [|c wb IH]; intros T z y' H Hz E.
  - cbn [app] in E. destruct z as [|d z]; cbn [app] in E; [subst y'; reflexivity|]. injection E as <- _. discriminate Hz.
  - destruct z as [|d z]; cbn [app] in E.
    + subst y'. cbn [BlockRun.eol]. apply N.eqb_neq. intros ->. apply H. left. reflexivity.
    + injection E as -> E. cbn [forallb] in Hz. apply andb_true_iff in Hz as [_ Hz]. apply (IH T z y'); [|exact Hz|exact E]. intro X. apply H. right. exact X.
Qed.
Lemma pre_hit : forall b w1 src w T, BlockRun.bol b = true -> blank w1 -> ~ In 60 src -> forallb is_space (first_line src) = false -> blank w ->
  (T = [] /\ w = [] \/ In 10 w /\ exists T', T = 60 :: T') ->
  m pre_block_re (mk b (($ "<pre>" ++ w1 ++ [10] ++ src ++ [10] ++ $ "</pre>" ++ w) ++ T) []) (fun s => Some s) =
  Some (mk (rev ($ "<pre>" ++ w1 ++ [10] ++ src ++ [10] ++ $ "</pre>" ++ w) ++ b) T [(G_html_pre_block, [10] ++ src ++ [10])]).
Proof.
  intros b w1 src w T Hb H1 H60 Hl Hw HT. rewrite <- !app_assoc. unfold pre_block_re, seqs. rewrite m_seq, BlockRun.m_bol, Hb. rewrite m_seq, m_lit. rewrite m_seq.
  unfold sps, sp. apply star_back; [exact H1| |].
  2:{ intros z y' E Hz Hs. rewrite m_seq, BlockRun.m_eol. replace (BlockRun.eol y') with false; [reflexivity|]. symmetry.
      destruct z as [|c z]; [congruence|]. cbn [app] in E. injection E as <- E. cbn [forallb] in Hs. apply andb_true_iff in Hs as [_ Hs]. exact (line_stops src z y' _ Hl Hs E). }
  rewrite m_seq, BlockRun.m_eol. change (BlockRun.eol ([10] ++ ?x)) with true. cbv iota. rewrite m_seq, m_grp. unfold c1 at 1, dot at 1. rewrite BlockHits.star_alt_chr.
  assert (SH : forall x : str, [10] ++ src ++ [10] ++ x = ([10] ++ src ++ [10]) ++ x) by (intro x; rewrite <- !app_assoc; reflexivity). rewrite SH.
  apply lazy_until.
  - apply forallb_forall. intros c _. destruct (N.eqb_spec c 10); [subst c; reflexivity|]. apply orb_true_iff. right. apply negb_true_iff. apply N.eqb_neq. auto.
  - cbn [bef rest caps]. rewrite InlineRun.firstn_grp. rewrite m_seq, BlockRun.m_bol. cbn [app rev]. rewrite rev_app_distr. cbn [rev app BlockRun.bol]. change (10 =? 10) with true. cbv iota.
    rewrite m_seq. change (60 :: 47 :: 112 :: 114 :: 101 :: 62 :: w ++ T) with ($ "</pre>" ++ w ++ T). rewrite m_lit, m_seq.
    assert (FIN : forall B cs, BlockRun.eol (w ++ T) = true \/ In 10 w -> forall k r, k (mk (rev w ++ B) T cs) = Some r ->
              m (RStar true (RChr is_space)) (mk B (w ++ T) cs) (fun s' => m (RSeq REol (RStar true (RChr (fun c => is_space c || (c =? 10))))) s' k) = Some r).
    { intros B cs HE k r Hk. destruct HT as [(-> & ->)|(I10 & T' & ->)].
      - cbn [app]. apply (star_take is_space []); [reflexivity|exact I|]. rewrite m_seq, BlockRun.m_eol. cbn [BlockRun.eol]. rewrite m_star_nil. exact Hk.
      - destruct (last_nl w I10) as (wa & wb & -> & Hwb). unfold blank in Hw. rewrite forallb_app in Hw. apply andb_true_iff in Hw as [Ha Hwb'].
        rewrite <- app_assoc. apply star_back; [exact Ha| |].
        + rewrite m_seq, BlockRun.m_eol. cbn [app BlockRun.eol]. change (10 =? 10) with true. cbv iota.
          change (10 :: wb ++ 60 :: T') with ((10 :: wb) ++ 60 :: T'). apply star_take; [|reflexivity|].
          * eapply forallb_impl; [|exact Hwb']. intros c Hc. rewrite Hc. reflexivity.
          * rewrite rev_app_distr, <- app_assoc in Hk. exact Hk.
        + intros z y' E Hz Hs. rewrite m_seq, BlockRun.m_eol. replace (BlockRun.eol y') with false; [reflexivity|]. symmetry.
          destruct z as [|c z]; [congruence|]. cbn [app] in E. injection E as <- E. cbn [forallb] in Hs. apply andb_true_iff in Hs as [_ Hs]. exact (blank_stops wb T' z y' Hwb Hs E). }
    apply FIN.
    + destruct HT as [(-> & ->)|(I10 & _)]; [left; reflexivity|right; exact I10].
    + f_equal. f_equal. repeat (rewrite ?rev_app_distr, <- ?app_assoc; cbn [rev app]). reflexivity.
  - intros x1 x2 E Hx. cbn [bef rest caps]. rewrite m_seq, BlockRun.m_bol. match goal with |- (if ?c then _ else _) = _ => destruct c end; [|reflexivity]. rewrite m_seq, m_lit_none; [reflexivity|].
    destruct x2 as [|c x2]; [congruence|]. cbn [app startswith L]. replace (60 =? c) with false; [reflexivity|]. symmetry. apply N.eqb_neq. intros <-.
    assert (I : In 60 ([10] ++ src ++ [10])) by (rewrite E; apply in_or_app; right; left; reflexivity). apply in_app_iff in I as [[I|[]]|I]; [discriminate I|].
    apply in_app_iff in I as [I|[I|[]]]; [contradiction|discriminate I].
Qed.

(** ** the whole document *)
Lemma scan_pass : forall r x y b, (forall a z, x = a ++ z -> z <> [] -> m r (mk (rev a ++ b) (z ++ y) []) (fun s => Some s) = None) ->
  scan r 0 b (x ++ y) = map Datatypes.inl x ++ scan r 0 (rev x ++ b) y.
Proof.
  induction x as [|c x IH]; intros y b H; [reflexivity|]. cbn [app map rev]. rewrite scan_miss; [|exact (H [] (c :: x) eq_refl ltac:(discriminate))].
  f_equal. rewrite IH; [rewrite <- app_assoc; reflexivity|]. intros a z E Hz. specialize (H (c :: a) z). cbn [rev app] in H. rewrite <- app_assoc in H. apply H; [rewrite E; reflexivity|exact Hz].
Qed.
Lemma sub_pass : forall (S : Type) (f : mtch -> S -> res (str * S)) s l st s' st', sub_go f l st = Ok (s', st') -> sub_go f (map Datatypes.inl s ++ l) st = Ok (s ++ s', st').
Proof. intros S f s l st s' st' H. induction s as [|c s IH]; [exact H|]. cbn [map app sub_go]. rewrite IH. reflexivity. Qed.
Fixpoint ptm (n : nat) (d : list hpart) : list part :=
  match d with
  | [] => []
  | HBlock b :: r => tm_block b ++ Ws :: ptm n r
  | HPre _ :: r => Single ($ "blockdata") (cut_attrs n) :: ptm (S n) r
  end.
Definition pre_data (d : list hpart) : list str := flat_map (fun p => match p with HBlock _ => [] | HPre l => [[10] ++ pre_src l ++ [10]] end) d.
Definition part_fine (p : hpart) : Prop := match p with HBlock b => shape_block b = true | HPre l => pre_ok l end.
Lemma block_ends : forall b, exists l p, tm_block b = l ++ [p] /\ is_tag p = true.
Proof.
  assert (E : forall t c, exists l p, tm_elem t c = l ++ [p] /\ is_tag p = true) by (intros t c; exists (Open t [] :: Ws :: c), (Close t); split; reflexivity).
  intros [l|n l| |o l|l]; try apply E. exists [], (Single ($ "hr") []). split; reflexivity.
Qed.
Lemma fits_app : forall l l' s, fits (l ++ l') s -> exists a b, s = a ++ b /\ fits l a /\ fits l' b.
Proof.
  induction l as [|p l IH]; intros l' s H; [exists [], s; repeat split; assumption|]. cbn [app] in H.
  assert (K : p = Ws \/ p <> Ws /\ exists u, s = part_src p ++ u /\ fits (l ++ l') u).
  { destruct p; cbn [fits] in H; try (right; split; [discriminate|exact H]). left. reflexivity. }
  destruct K as [->|(Hp & u & -> & Hu)].
  - cbn [fits] in H. destruct H as (w & u & Hw & -> & Hu). destruct (IH l' u Hu) as (a & b & -> & Ha & Hb). exists (w ++ a), b. split; [rewrite app_assoc; reflexivity|]. split; [|exact Hb].
    cbn [fits]. exists w, a. auto.
  - destruct (IH l' u Hu) as (a & b & -> & Ha & Hb). exists (part_src p ++ a), b. split; [rewrite app_assoc; reflexivity|]. split; [|exact Hb].
    destruct p; cbn [fits]; try congruence; exists a; auto.
Qed.
Lemma fits_join : forall l l' a b, fits l a -> fits l' b -> fits (l ++ l') (a ++ b).
Proof.
  induction l as [|p l IH]; intros l' a b Ha Hb; [cbn [fits] in Ha; subst a; exact Hb|]. cbn [app].
  destruct p; cbn [fits] in *; try (destruct Ha as (u & -> & Hu); exists (u ++ b); split; [rewrite <- app_assoc; reflexivity|apply IH; assumption]).
  destruct Ha as (w & u & Hw & -> & Hu). exists w, (u ++ b). split; [exact Hw|]. split; [rewrite <- app_assoc; reflexivity|apply IH; assumption].
Qed.
Lemma block_last : forall b u, fits (tm_block b) u -> exists x, u = x ++ [62].
Proof.
  intros b u F. destruct (block_ends b) as (l & p & E & T). rewrite E in F. apply fits_app in F as (a & z & -> & _ & F).
  destruct (fits_cons p [] z) as (v & -> & Fv); [intros ->; discriminate T|exact F|]. cbn [fits] in Fv. subst v. rewrite app_nil_r.
  destruct p as [t at'|t|t at'|w|]; try discriminate T; cbn [part_src]; [exists (a ++ $ "<" ++ t ++ show_attrs at')|exists (a ++ $ "</" ++ t)|exists (a ++ $ "<" ++ t ++ show_attrs at' ++ $ " /")];
    rewrite <- !app_assoc; reflexivity.
Qed.
Lemma block_first : forall b u, fits (tm_block b) u -> exists x, u = 60 :: x.
Proof. intros [l|n l| |o l|l] u F; cbn [tm_block tm_elem fits] in F; destruct F as (v & -> & _); eexists; reflexivity. Qed.
Lemma pfits_first : forall d s, pfits d s -> d <> [] -> exists T, s = 60 :: T.
Proof.
  intros [|p d] s F N; [congruence|]. cbn [pfits] in F. destruct F as (u & w & v & -> & Hu & _). destruct p as [b|l].
  - destruct (block_first b u Hu) as (x & ->). eexists. reflexivity.
  - destruct Hu as (w1 & _ & ->). eexists. reflexivity.
Qed.
Lemma block_no_pre : forall b u w v, shape_block b = true -> fits (tm_block b) u -> blank w ->
  forall a z, u ++ w = a ++ z -> z <> [] -> startswith ($ "<pre>") (z ++ v) = false.
Proof.
  intros b u w v S F W a z E Hz. destruct (startswith ($ "<pre>") (z ++ v)) eqn:X; [|reflexivity]. exfalso. apply startswith_spec in X as (y & X).
  assert (TQ : tq QGap (tm_block b ++ [Ws]) = true) by (apply block_tq; [exact S|reflexivity|reflexivity]).
  assert (FF : fits (tm_block b ++ [Ws]) (u ++ w)) by (apply fits_join; [exact F|cbn [fits]; exists w, []; rewrite app_nil_r; auto]).
  (* the last character *)
  assert (LST : exists x c, u ++ w = x ++ [c] /\ (c = 62 \/ is_space c = true)).
  { destruct (block_last b u F) as (x & ->). unfold blank in W. destruct w as [|c w] using rev_ind; [exists x, 62; rewrite app_nil_r; auto|].
    exists ((x ++ [62]) ++ w), c. split; [rewrite !app_assoc; reflexivity|right]. rewrite forallb_app in W. apply andb_true_iff in W as [_ W]. cbn [forallb] in W. rewrite andb_true_r in W. exact W. }
  destruct LST as (x & c & EL & Hc). destruct z as [|z0 z] using rev_ind; [congruence|]. clear IHz. pose proof E as E'. rewrite EL, app_assoc in E. apply app_inj_tail in E as [_ <-].
  assert (BAD : forall k, In k [60; 112; 114; 101] -> c <> k).
  { intros k I ->. cbn in I. destruct I as [<-|[<-|[<-|[<-|[]]]]]; destruct Hc as [Hc|Hc]; discriminate Hc. }
  rewrite <- app_assoc in X. cbn [app L] in X.
  destruct z as [|z1 z]; [injection X as X _; exact (BAD 60 ltac:(cbn; tauto) X)|]. cbn [app] in X. injection X as -> X.
  destruct z as [|z2 z]; [injection X as X _; exact (BAD 112 ltac:(cbn; tauto) X)|]. cbn [app] in X. injection X as -> X.
  destruct z as [|z3 z]; [injection X as X _; exact (BAD 114 ltac:(cbn; tauto) X)|]. cbn [app] in X. injection X as -> X.
  destruct z as [|z4 z]; [injection X as X _; exact (BAD 101 ltac:(cbn; tauto) X)|]. cbn [app] in X. injection X as -> X.
  destruct z as [|z5 z]; cbn [app] in X; injection X as -> X; exact (never_pre _ _ _ a _ TQ FF E').
Qed.

Lemma cut_parts : forall d s b bd, Forall part_fine d -> pfits d s -> (pre_next d = true -> BlockRun.bol b = true) ->
  exists s', sub_go cut_block (scan pre_block_re 0 b s) bd = Ok (s', bd ++ pre_data d) /\ fits (ptm (List.length bd) d) s'.
Proof.
  induction d as [|p d IH]; intros s b bd FN F B.
  - cbn [pfits] in F. subst s. exists []. split; [|reflexivity]. cbn [scan]. rewrite at_pos_miss.
    + cbn [map app sub_go]. unfold pre_data. cbn [flat_map]. rewrite app_nil_r. reflexivity.
    + unfold pre_block_re, seqs. rewrite m_seq. apply m_none. intros s' M. apply bol_inv in M. subst s'. rewrite m_seq, m_lit_none; reflexivity.
  - inversion_clear FN. cbn [pfits] in F. destruct F as (u & w & v & -> & Hu & Hw & H1 & H2 & H3 & Hv). destruct p as [x|l].
    + cbn [part_fine] in H. rewrite app_assoc. rewrite scan_pass.
      * destruct (IH v (rev (u ++ w) ++ b) bd H0 Hv) as (s' & S1 & S2).
        { intro PN. destruct (H2 PN) as (w' & ->). rewrite !rev_app_distr. reflexivity. }
        exists ((u ++ w) ++ s'). split; [apply sub_pass; exact S1|]. cbn [ptm]. rewrite <- app_assoc. apply fits_join; [exact Hu|]. cbn [fits]. exists w, s'. auto.
      * intros a z E Hz. unfold pre_block_re, seqs. rewrite m_seq. apply m_none. intros s' M. apply bol_inv in M. subst s'. rewrite m_seq, m_lit_none; [reflexivity|].
        eapply block_no_pre; eassumption.
    + cbn [part_fine] in H. destruct H as (_ & _ & H60 & HL). destruct Hu as (w1 & Hw1 & ->). unfold pre_html.
      assert (RA : ($ "<pre>" ++ w1 ++ [10] ++ pre_src l ++ [10] ++ $ "</pre>") ++ w ++ v = ($ "<pre>" ++ w1 ++ [10] ++ pre_src l ++ [10] ++ $ "</pre>" ++ w) ++ v) by (rewrite <- !app_assoc; reflexivity).
      rewrite RA. rewrite (scan_hit _ _ _ _ [(G_html_pre_block, [10] ++ pre_src l ++ [10])]); [|discriminate|].
      * destruct (IH v (rev ($ "<pre>" ++ w1 ++ [10] ++ pre_src l ++ [10] ++ $ "</pre>" ++ w) ++ b) (bd ++ [[10] ++ pre_src l ++ [10]]) H0 Hv) as (s' & S1 & S2).
        { intro PN. destruct (H2 PN) as (w' & ->). repeat (rewrite ?rev_app_distr, <- ?app_assoc; cbn [rev app]). reflexivity. }
        cbn [sub_go]. unfold cut_block at 1. cbn [bind]. change (group0 G_html_pre_block (mkm ?w [(G_html_pre_block, ?c)])) with c. unfold pre_cut.
        eexists. split.
        -- match goal with |- bind ?x ?k = _ => refine (eq_trans (f_equal (fun z => bind z k) S1) _) end. cbn [bind]. unfold pre_data. cbn [flat_map]. rewrite <- (app_assoc bd). reflexivity.
        -- cbn [ptm fits]. rewrite app_length in S2. cbn [List.length] in S2. rewrite Nat.add_1_r in S2. exists s'. split; [|exact S2]. f_equal.
           pose proof (show_cut true (List.length bd)) as SC. cbn [show_dom placeholder] in SC. cbn [part_src]. exact SC.
      * apply pre_hit; auto. destruct d as [|p d]; [left; cbn [pfits] in Hv; auto|right]. split; [apply H3; [reflexivity|discriminate]|]. eapply pfits_first; [exact Hv|discriminate].
Qed.

Lemma ptm_tq : forall d n st, Forall part_fine d -> (d = [] -> tq st [] = true) -> before_block st = true -> before_open st = true -> tq st (ptm n d) = true.
Proof.
  induction d as [|p d IH]; intros n st F E B1 B2; [apply E; reflexivity|]. inversion_clear F. destruct p as [b|l]; cbn [ptm].
  - apply block_tq; [exact H|exact B1|]. cbn [tq]. apply IH; [exact H0|reflexivity|reflexivity|reflexivity].
  - cbn [tq]. rewrite B2. rewrite (IH (S n) QEnd H0 (fun _ => eq_refl) eq_refl eq_refl).
    assert (A : forallb attr_fine (cut_attrs n) = true).
    { unfold cut_attrs. cbn [forallb]. change (attr_fine ($ "type", VStr ($ "pre"))) with true. unfold attr_fine. cbn [fst snd value_of]. change (attr_ok ($ "id", VStr (show_nat n))) with true.
      cbn [andb]. rewrite andb_true_r. unfold one_line. eapply forallb_impl; [|apply show_nat_digits]. intros c Hc. unfold dec in Hc. destruct (N.eqb_spec c 10); [subst c; discriminate Hc|reflexivity]. }
    rewrite A. reflexivity.
Qed.
Lemma strip_html_parts2 : forall t s, tq QBlock t = true -> tq (QText []) t = true -> fits t s -> strip_html s = flat_map part_src t.
Proof.
  intros t s T T2 F. rewrite strip_html_eq. destruct (squash_parts t QBlock false [] s T F eq_refl) as (g & ps & S1 & S2 & S3).
  cbn [gq] in S3. destruct S3 as [_ S3]. rewrite (S3 eq_refl) in S2. cbn [app] in S2. rewrite S2.
  change (pcs_src ps) with (held (Run []) ++ pcs_src ps). rewrite rsub_squeeze; [|eapply parts_fine; eassumption|reflexivity].
  rewrite (squeeze_parts t ps (QText []) (Run []) [] T2 S1); [reflexivity|]. cbn [rel]. auto.
Qed.
Fixpoint pdoms (n : nat) (d : list hpart) : list dom :=
  match d with
  | [] => []
  | HBlock b :: r => b2d b :: pdoms n r
  | HPre _ :: r => DCut true n :: pdoms (S n) r
  end.
Lemma ptm_src : forall d n, srcs (ptm n d) = show_doms (pdoms n d).
Proof.
  induction d as [|[b|l] d IH]; intro n; [reflexivity| |]; cbn [ptm pdoms]; unfold show_doms; cbn [flat_map].
  - rewrite srcs_app, block_src. change (srcs (Ws :: ptm n d)) with (srcs (ptm n d)). rewrite IH. reflexivity.
  - unfold srcs. cbn [flat_map]. fold (srcs (ptm (S n) d)). rewrite IH. f_equal. symmetry. exact (show_cut true n).
Qed.
Lemma pfits_ends : forall d s, Forall part_fine d -> pfits d s -> d <> [] -> exists y, s = y ++ [62].
Proof.
  induction d as [|p d IH]; intros s FN F N; [congruence|]. inversion_clear FN. cbn [pfits] in F. destruct F as (u & w & v & -> & Hu & _ & H1 & _ & _ & Hv).
  destruct d as [|q d].
  - rewrite (H1 eq_refl). cbn [pfits] in Hv. subst v. rewrite !app_nil_r. destruct p as [b|l]; [eapply block_last; exact Hu|].
    destruct Hu as (w1 & _ & ->). unfold pre_html. exists ($ "<pre>" ++ w1 ++ [10] ++ pre_src l ++ [10] ++ $ "</pre"). rewrite <- !app_assoc. reflexivity.
  - destruct (IH v H0 Hv ltac:(discriminate)) as (y & ->). exists (u ++ w ++ y). rewrite <- !app_assoc. reflexivity.
Qed.
Lemma preprocess_parts : forall d html, d <> [] -> Forall part_fine d -> pwritten d html -> preprocess html = Ok (show_doms (pdoms 0 d), pre_data d).
Proof.
  intros d html N FN (w & s & w' & -> & Hw & Hw' & F). unfold preprocess.
  destruct (pfits_first d s F N) as (x & E1). destruct (pfits_ends d s FN F N) as (y & E2).
  assert (ST : strip (w ++ s ++ w') = s).
  { apply strip_around; [exact Hw|exact Hw'|exists 60, x; split; [exact E1|reflexivity]|]. exists 62, y. split; [exact E2|reflexivity]. }
  rewrite ST. destruct (cut_parts d s [] [] FN F ltac:(reflexivity)) as (s' & S1 & S2). unfold resub_st at 1. 
  match goal with |- bind ?x ?k = _ => refine (eq_trans (f_equal (fun z => bind z k) S1) _) end. cbn [bind app]. cbn [List.length] in S2.
  assert (T1 : tq QBlock (ptm 0 d) = true) by (apply ptm_tq; try assumption; reflexivity).
  assert (T2 : tq (QText []) (ptm 0 d) = true) by (apply ptm_tq; try assumption; try reflexivity; congruence).
  unfold resub_st. rewrite scan_nothing.
  - rewrite sub_nothing. cbn [bind]. rewrite (strip_html_parts2 _ _ T1 T2 S2). fold (srcs (ptm 0 d)). rewrite ptm_src. reflexivity.
  - intros a z E. unfold pre_inline_re, seqs. rewrite m_seq, m_lit_none; [reflexivity|]. destruct (startswith ($ "<pre>") z) eqn:X; [|reflexivity]. exfalso.
    apply startswith_spec in X as (z' & ->). exact (never_pre _ _ _ a z' T1 S2 E).
Qed.

(** ** the tree *)
Lemma ok_more : forall bd b x, dom_ok [] b x -> dom_ok bd b x /\ forall ll, dom_tree bd ll x = dom_tree [] ll x.
Proof.
  intros bd b x. revert b. induction x as [s|s|s|t a|t a|c i|t a ks IH] using dom_ind'; intros b H; inversion H; subst; (split; [constructor; assumption|reflexivity]) || idtac.
  - cbn in *. lia.
  - match goal with F : Forall (dom_ok [] _) ks |- _ => rename F into FF end.
    assert (K : Forall (dom_ok bd b) ks /\ forall ll, flat_map (dom_tree bd ll) ks = flat_map (dom_tree [] ll) ks).
    { clear H. induction IH as [|k ks Hk Hks IHk]; [split; [constructor|reflexivity]|]. inversion_clear FF. destruct (Hk _ H) as [K1 K2]. destruct (IHk H0) as [K3 K4].
      split; [constructor; assumption|]. intro ll. cbn [flat_map]. rewrite K2, K4. reflexivity. }
    destruct K as [K1 K2]. split; [apply ok_tbody; exact K1|]. intro ll. cbn [dom_tree]. rewrite K2. reflexivity.
  - match goal with F : Forall (dom_ok [] _) ks |- _ => rename F into FF end.
    assert (K : Forall (dom_ok bd (is_block t)) ks /\ forall ll, flat_map (dom_tree bd ll) ks = flat_map (dom_tree [] ll) ks).
    { clear H. induction IH as [|k ks Hk Hks IHk]; [split; [constructor|reflexivity]|]. inversion_clear FF. destruct (Hk _ H) as [K1 K2]. destruct (IHk H0) as [K3 K4].
      split; [constructor; assumption|]. intro ll. cbn [flat_map]. rewrite K2, K4. reflexivity. }
    destruct K as [K1 K2]. split; [apply ok_elem; assumption|]. intro ll. cbn [dom_tree]. rewrite !K2. reflexivity.
Qed.
Definition part_tree (p : hpart) : list hnode :=
  match p with
  | HBlock b => dom_tree [] 0 (b2d b)
  | HPre l => [HN ($ "blockdata_pre") (Some ([10] ++ pre_src l ++ [10])) [] None []]
  end.
Lemma pdoms_ok : forall d pb bd n, Forall part_fine d -> bd = pb ++ pre_data d -> n = List.length pb -> (forall i, (i < n + List.length d)%nat -> N.of_nat (List.length (show_nat i)) <= 4300) ->
  Forall (dom_ok bd true) (pdoms n d) /\ flat_map (dom_tree bd 0) (pdoms n d) = flat_map part_tree d.
Proof.
  induction d as [|[b|l] d IH]; intros pb bd n FN E En C; [split; [constructor|reflexivity]| |]; inversion_clear FN; cbn [pdoms flat_map part_tree].
  - destruct (ok_more bd true _ (b_ok b H)) as [K1 K2]. destruct (IH pb bd n H0) as [K3 K4]; [exact E|exact En|intros i Hi; apply C; cbn [List.length]; lia|].
    split; [constructor; assumption|]. rewrite K2, K4. reflexivity.
  - unfold pre_data in E. cbn [flat_map] in E. fold (pre_data d) in E.
    assert (LN : nth n bd [] = [10] ++ pre_src l ++ [10]). { rewrite E, En. rewrite app_nth2 by lia. rewrite Nat.sub_diag. reflexivity. }
    destruct (IH (pb ++ [[10] ++ pre_src l ++ [10]]) bd (S n) H0) as [K3 K4].
    + rewrite E, <- app_assoc. reflexivity.
    + rewrite app_length. cbn [List.length]. lia.
    + intros i Hi. apply C. cbn [List.length]. lia.
    + split; [constructor; [|exact K3]|].
      * apply ok_cut; [|apply C; cbn [List.length]; lia]. rewrite E, app_length. cbn [app List.length]. lia.
      * rewrite K4. cbn [dom_tree]. rewrite LN. reflexivity.
Qed.
Theorem pre_tree : forall d html, Forall part_fine d -> countable d -> pwritten d html ->
  parse_html html = Ok (HN ($ "document") None [] None (flat_map part_tree d)).
Proof.
  intros d html FN C W. destruct d as [|p0 d0] eqn:ED.
  - destruct W as (w & s & w' & -> & Hw & Hw' & F). cbn [pfits] in F. subst s. refine (clean_tree [] (w ++ w') eq_refl _). unfold written, tm_doc. cbn [flat_map fits].
    exists (w ++ w'), []. split; [rewrite forallb_app; apply andb_true_iff; split; [exact Hw|exact Hw']|]. rewrite app_nil_r. auto.
  - assert (N : d <> []) by (rewrite ED; discriminate). rewrite <- ED in *. clear ED p0 d0. unfold parse_html, feed. rewrite (preprocess_parts d html N FN W). cbn [bind]. unfold feed_tokens.
    destruct (pdoms_ok d [] (pre_data d) 0%nat FN eq_refl eq_refl C) as [K1 K2]. rewrite document_run.
    + destruct (tree_of_dom (pre_data d) (pdoms 0 d) K1) as (h & H1 & H2 & _). rewrite H1. cbn [bind]. rewrite H2, K2. reflexivity.
    + clear -FN. generalize 0%nat. induction FN as [|p d Hp Hd IH]; intro n; [reflexivity|]. destruct p as [b|l]; cbn [pdoms forallb]; [rewrite (b_wf b Hp)|]; apply IH.
    + clear -FN. generalize 0%nat. induction FN as [|p d Hp Hd IH]; intro n; [reflexivity|]. destruct p as [b|l]; cbn [pdoms]; (apply apart_step; [|apply IH]); intros y r _; [destruct b; exact I|exact I].
Qed.
