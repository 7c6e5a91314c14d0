(** * Proofs behind P2_HtmlTools.v *)
From Coq Require Import String List Arith NArith ZArith Bool Lia.
From Verif Require Import PyStr PyStrFacts Utils Res HtmlTools MarkupTable HtmlTok HtmlParser HtmlBase Html2X.
From Verif Require Import Spec2 Spec10 HtmlToolsFacts TableFacts TreeFacts HtmlTokFacts TokRun.
Import ListNotations.
Open Scope N_scope.

Lemma lemma_C26_dec : forall n, n < 1114112 -> replace_all ($ "&#" ++ show_N n ++ $ ";") = Ok [n].
Proof.
  intros n H. pose proof (replace_all_spec [Dec (show_N n)]) as E. cbn [flat_map write] in E.
  rewrite app_nil_r in E. rewrite E.
  - cbn [meant_all meant]. rewrite show_N_value. unfold code_point.
    destruct (N.ltb_spec n 1114112); [reflexivity|lia].
  - apply Forall_cons; [|constructor]. split; [apply show_N_nonempty|]. split; [apply show_N_dec|].
    (* at most 21 digits *)
    unfold show_N.
    assert (G : forall f m acc, (List.length (digits_go f m acc) <= f + List.length acc)%nat).
    { induction f; intros m acc; cbn [digits_go]; [lia|]. destruct (m <? 10); [cbn [List.length]; lia|].
      specialize (IHf (m / 10) ((48 + m mod 10) :: acc)). cbn [List.length] in IHf. lia. }
    specialize (G (S (N.to_nat (N.size n))) n []). cbn [List.length] in G.
    assert (S : N.size n <= 21).
    { destruct n as [|p]; [simpl; lia|]. rewrite N.size_log2 by discriminate.
      assert (N.log2 (N.pos p) <= 20); [|lia].
      change 20 with (N.log2 1114112). apply N.log2_le_mono. lia. }
    lia.
Qed.

Lemma strip_ends : forall s, (forall (c : N) (t : str), strip s = c :: t -> is_space c = false) /\
  (forall (c : N) (t : str), strip s = t ++ [c] -> is_space c = false).
Proof.
  intro s. split; intros c t H.
  - eapply strip_by_head. exact H.
  - eapply (strip_by_last is_space s c (rev t)). fold (strip s). rewrite H, rev_app_distr. reflexivity.
Qed.
Lemma lemma_C28 : forall s, exists a core z : str,
  s = a ++ core ++ z /\ forallb is_space a = true /\ forallb is_space z = true /\ (core = [] -> z = []) /\
  (forall c t, core = c :: t -> is_space c = false) /\ (forall c t, core = t ++ [c] -> is_space c = false) /\
  clean_whitespace s = (if contains [32] a then [32] else []) ++ core ++
    (if contains [10] z then [10] else if contains [32] z then [32] else z).
Proof.
  intro s. destruct (strip_split is_space s) as (a & z & E & Ha & Hz). fold (strip s) in E.
  destruct (strip_ends s) as [Hf Hl].
  destruct (strip s) as [|c0 core0] eqn:Ec.
  - exists s, [], []. rewrite app_nil_r.
    assert (Hs : forallb is_space s = true) by (rewrite E; unfold str, char; rewrite forallb_app; cbn [app];
      apply andb_true_iff; split; assumption).
    split; [reflexivity|]. split; [exact Hs|]. split; [reflexivity|]. split; [reflexivity|].
    split; [discriminate|]. split; [intros c [|x t]; discriminate|].
    pose proof (clean_whitespace_spec s [] [] Hs eq_refl (fun _ => eq_refl)) as G.
    rewrite !app_nil_r in G. rewrite G; [destruct (contains [32] s); reflexivity|discriminate|intros c [|x t]; discriminate].
  - rewrite <- Ec in *. exists a, (strip s), z. split; [exact E|]. split; [exact Ha|]. split; [exact Hz|].
    split; [rewrite Ec; discriminate|]. split; [exact Hf|]. split; [exact Hl|].
    rewrite E at 1. apply clean_whitespace_spec; auto. rewrite Ec. discriminate.
Qed.

Lemma lemma_C30_rest_lost : forall bd ds tag rest h,
  Forall (dom_ok bd true) ds ->
  tag <> $ "tbody" -> tag <> $ "br" -> in_names block_elements tag = false ->
  handle_all (flat_map dom_toks ds ++ TEnd tag :: rest) (h_init bd) = Ok h ->
  root_of (cur h) = HN ($ "document") None [] None (flat_map (dom_tree bd 0) ds).
Proof.
  intros bd ds tag rest h Hds Hi Hbr Hb H.
  destruct (tree_of_dom bd ds Hds) as (h1 & E1 & R1 & _).
  rewrite handle_all_app, E1 in H. cbn [handle_all handle] in H.
  assert (C : exists r, cur (handle_endtag tag h1) = Lost r /\ r = root_of (cur h1)).
  { unfold handle_endtag. change (in_list BLOCK_TAGS tag) with (in_names block_elements tag). rewrite (ignore_no _ Hi), (proj2 (str_eqb_neq _ _) Hbr), Hb. cbn [cur].
    pose proof (build_all bd ds) as B. 
    assert (U : exists top, cur h1 = Live top []).
    { rewrite B in E1 by exact Hds. inversion E1. eexists. reflexivity. }
    destruct U as [top U]. rewrite U. cbn [go_parent]. eexists. split; reflexivity. }
  destruct C as (r & C & Er).
  pose proof (lost_all _ _ _ _ C H) as L. rewrite L. cbn [root_of]. rewrite Er. exact R1.
Qed.

(** ** C29 from the text *)
Lemma lemma_C29_document : forall ds : list dom, forallb dom_wf ds = true -> apart ds = true -> Forall (dom_ok [] true) ds ->
  strip (show_doms ds) = show_doms ds ->
  feed_raw (show_doms ds) = Ok (HN ($ "document") None [] None (flat_map (dom_tree [] 0) ds)).
Proof.
  intros ds W A K ST. unfold feed_raw, feed_tokens. rewrite ST, document_run by assumption.
  destruct (tree_of_dom [] ds K) as (h & H1 & H2 & _). rewrite H1. cbn [bind]. rewrite H2. reflexivity.
Qed.
