(** * Documents with a table of contents one after the other *)
From Coq Require Import String List Arith NArith ZArith Bool Lia.
From Verif Require Import PyStr PyStrFacts NumFacts GNames Regex Rules RegexFacts RegexRun Utils DocTree CreoleParser ParserFacts
  Res HtmlEmitter EmitterFacts HtmlToolsFacts Spec4 Spec5 Spec7 Spec20 Spec22 Spec23 Spec35 DictFacts InlineRun InlineParse BlockRun BlockHits TableHits BlockParse DocParse LiftDoc MacroHit MacroDoc TagHit BitParse PartDoc TocFacts TocHtml TocDoc.
Import ListNotations.
Open Scope N_scope.

(** ** no tag is left *)
Lemma single_tail : forall c s, single (c :: s) = true -> single s = true.
Proof. intros c s H. cbn [single] in H. apply andb_true_iff in H as [_ H]. exact H. Qed.
Definition lone (s : str) : bool := negb (contains ($ "<<") s).
Lemma lone_tail : forall c s, lone (c :: s) = true -> lone s = true.
Proof. intros c s H. unfold lone in *. cbn [contains] in H. apply negb_true_iff, orb_false_iff in H as [_ H]. rewrite H. reflexivity. Qed.
Lemma single_lone : forall s, single s = true -> lone s = true.
Proof.
  induction s as [|c s IH]; intro H; [reflexivity|]. pose proof (IH (single_tail _ _ H)) as K. unfold lone in *. cbn [contains]. apply negb_true_iff in K. rewrite K, orb_false_r.
  apply negb_true_iff. destruct s as [|d s]; [cbn [startswith]; apply andb_false_r|]. change (startswith ($ "<<") (c :: d :: s)) with ((60 =? c) && ((60 =? d) && true)).
  destruct (N.eqb_spec 60 c) as [<-|]; [|reflexivity]. destruct (N.eqb_spec 60 d) as [<-|]; [discriminate|reflexivity].
Qed.
Lemma lone_pre : forall a b, lone (a ++ b) = true -> lone a = true.
Proof.
  induction a as [|c a IH]; intros b H; [reflexivity|]. pose proof (IH b (lone_tail _ _ H)) as K. unfold lone in *. cbn [contains app] in *. apply negb_true_iff in H, K. apply orb_false_iff in H as [H _]. rewrite K, orb_false_r. apply negb_true_iff.
  destruct a as [|d a]; [cbn [startswith]; apply andb_false_r|]. exact H.
Qed.
Lemma lone_start : forall s, lone s = true -> startswith ($ "<<toc>>") s = false /\ startswith ($ "<p><<toc>></p>") s = false.
Proof.
  assert (K : forall s, lone s = true -> startswith ($ "<<toc>>") s = false).
  { intros s H. destruct (startswith _ s) eqn:E; [|reflexivity]. apply startswith_app in E as (z & ->). discriminate. }
  intros s H. split; [exact (K s H)|]. destruct (startswith _ s) eqn:E; [|reflexivity]. apply startswith_app in E as (z & ->).
  change ($ "<p><<toc>></p>" ++ z) with (60 :: 112 :: 62 :: ($ "<<toc>></p>" ++ z)) in H. apply lone_tail, lone_tail, lone_tail in H. discriminate.
Qed.
Lemma lone_keeps : forall h s, lone s = true -> replace1 ($ "<<toc>>") h s = s /\ contains ($ "<p><<toc>></p>") s = false.
Proof.
  intros h. induction s as [|c s IH]; intro H; [split; reflexivity|]. destruct (lone_start _ H) as (A & B). destruct (IH (lone_tail _ _ H)) as (C & D). split.
  - cbn [replace1]. rewrite A, C. reflexivity.
  - cbn [contains]. rewrite B, D. reflexivity.
Qed.
Lemma rstrip_pre : forall s, exists w, s = rstrip s ++ w.
Proof.
  unfold rstrip. induction s as [|c s (w & IH)]; [exists []; reflexivity|]. cbn [rstrip_by]. destruct (rstrip_by is_space s) as [|d r] eqn:E.
  - destruct (is_space c); [exists (c :: s); reflexivity|exists s; reflexivity].
  - exists w. cbn [app]. f_equal. exact IH.
Qed.
Lemma lone_strip : forall s, single s = true -> lone (strip s) = true.
Proof.
  intros s H. change (strip s) with (rstrip (lstrip s)). apply single_lstrip, single_lone in H. destruct (rstrip_pre (lstrip s)) as (w & E). rewrite E in H. exact (lone_pre _ _ H).
Qed.
Lemma single_titems : forall blog str_ d, single (html_titems blog str_ None d) = true.
Proof.
  intros blog str_. induction d as [|i d IH]; [reflexivity|]. destruct i as [b|dd]; cbn [html_titems].
  - apply single_app; [apply single_tblock|]. apply single_app; [destruct b; reflexivity|]. apply single_app; [destruct d; reflexivity|exact IH].
  - apply single_app; [reflexivity|]. apply single_app; [reflexivity|]. apply single_app; [destruct d; reflexivity|exact IH].
Qed.

(** ** the tag has been used before *)
Lemma titems_again : forall blog verbose strict md d t, titems_ok blog d = true -> has_toc d = true -> md_toc md = TObj t -> spent t -> exists t', spent t' /\
  creole2html (mkopts blog verbose strict) md (wr_titems d) = (Ok (strip (html_titems blog strict None d)), mkmd (md_env md) (TObj t') (md_log md)).
Proof.
  intros blog v st md d t H Ht Hm (Hc & depth & Hd). destruct d as [|p d]; [discriminate|]. unfold creole2html. cbn [o_blog o_verbose o_strict]. unfold parse. rewrite norm_id by (eapply titems_no_cr; exact H).
  set (c := mkcfg (match v with None => 1%Z | Some v => v end) st (md_env md) true).
  pose proof (titems_run_first c eq_refl blog p d H) as Hr. rewrite Ht in Hr. destruct Hr as (s' & Hs & _ & Hf). rewrite Hf.
  destruct (tst_emit c _ _ Hs) as (root & u & -> & Eu & Em). unfold init_toc. rewrite Eu, Hm. fold c. unfold emit.
  rewrite (Em t (md_log md)) by (unfold okd; rewrite Hd; destruct depth; exact Logic.I).
  rewrite (shows_below c blog (p :: d) depth t Hc Hd). cbn [fst snd toc log]. change (use_toc c) with true. cbv iota. change (HtmlEmitter.strict c) with st.
  eexists. split; [|unfold toc_emit]. 2: { destruct (lone_keeps (nested_headlines2html 0 (NList (flat_list2nest_list (headlines t ++ listed_below depth (p :: d))))) _ (lone_strip _ (single_titems blog st (p :: d)))) as (E1 & E2). cbn [headlines]. rewrite E1, E2. reflexivity. }
  split; [reflexivity|]. exists depth. exact Hd.
Qed.

(** ** without the tag *)
Lemma no_toc_blocks : forall d, has_toc d = false -> wr_titems d = wr_doc (blocks_of d) /\ (forall blog fst, titems_ok_from blog fst d = true -> forallb (block_ok blog) (blocks_of d) = true /\ (fst = false -> forallb (after_blank blog) (blocks_of d) = true) /\ forallb (after_blank blog) (tl (blocks_of d)) = true).
Proof.
  induction d as [|i d IH]; intro H; [split; [reflexivity|intros; repeat split; reflexivity]|]. destruct i as [b|dd]; [|discriminate]. destruct (IH H) as (A & B). split.
  - rewrite wr_titems_cons. cbn [blocks_of]. rewrite DocParse.wr_doc_cons. cbn [wr_titem]. f_equal. unfold tafter, DocParse.after. destruct d as [|i d]; [reflexivity|]. destruct i as [b2|dd]; [|discriminate]. cbn [blocks_of] in *. rewrite A. reflexivity.
  - intros blog fst K. cbn [titems_ok_from] in K. apply andb_true_iff in K as [K K3]. apply andb_true_iff in K as [K1 K2]. destruct (B blog false K3) as (B1 & B2 & B3). specialize (B2 eq_refl). cbn [blocks_of forallb tl]. cbn [titem_ok] in K1. rewrite K1, B1, B2. cbn [titem_after_blank] in K2. split; [reflexivity|]. split; [|reflexivity]. intros ->. cbn [orb] in K2. rewrite K2. reflexivity.
Qed.
Lemma no_toc_shown : forall blog v st md d, titems_ok blog d = true -> has_toc d = false ->
  creole2html (mkopts blog v st) md (wr_titems d) = (Ok (html_doc blog st (blocks_of d)), md).
Proof.
  intros blog v st md d H Ht. destruct (no_toc_blocks d Ht) as (-> & B). destruct (B _ _ H) as (B1 & _ & B3). apply document_spec. unfold doc_ok. rewrite B1, B3. reflexivity.
Qed.

(** ** in turn *)
Definition ready (sp : bool) (t : tocval) : Prop := if sp then exists t', t = TObj t' /\ spent t' else t = TNone.
Lemma turns : forall calls sp md, ready sp (md_toc md) -> Forall (fun x => titems_ok (o_blog (fst x)) (snd x) = true) calls ->
  in_turn md (written_calls calls) = map Ok (shown_in_turn sp calls).
Proof.
  induction calls as [|[o d] calls IH]; intros sp md Hr H; [reflexivity|]. pose proof (Forall_inv H) as H1. pose proof (Forall_inv_tail H) as H2. cbn [fst snd] in H1.
  cbn [written_calls map in_turn shown_in_turn fst snd]. destruct o as [bl v st]. cbn [o_blog o_strict] in *. unfold shown_now. destruct (has_toc d) eqn:Ht.
  - destruct sp; cbn [ready] in Hr.
    + destruct Hr as (t & Em & Hs). destruct (titems_again bl v st md d t H1 Ht Em Hs) as (t' & Hs' & ->). cbn [fst snd orb]. f_equal. apply IH; [|exact H2]. exists t'. split; [reflexivity|exact Hs'].
    + destruct (titems_spent bl v st md d H1 Ht Hr) as (t' & Hs' & ->). cbn [fst snd orb]. f_equal. apply IH; [|exact H2]. exists t'. split; [reflexivity|exact Hs'].
  - rewrite (no_toc_shown bl v st md d H1 Ht). cbn [fst snd]. rewrite orb_false_r. f_equal. apply IH; assumption.
Qed.
Theorem toc_in_turn : forall env log calls, Forall (fun x => titems_ok (o_blog (fst x)) (snd x) = true) calls ->
  in_turn (mkmd env TNone log) (written_calls calls) = map Ok (shown_in_turn false calls).
Proof. intros env log calls H. apply turns; [reflexivity|exact H]. Qed.
