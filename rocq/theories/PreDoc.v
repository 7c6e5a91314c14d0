(** * What documents with preformatted blocks become *)
From Coq Require Import String List Arith NArith ZArith Bool Lia.
From Verif Require Import PyStr PyStrFacts GNames Regex RegexFacts RegexRun Rules Utils Res Entities HtmlTools HtmlToolsFacts HtmlTok HtmlTokFacts.
From Verif Require Import HtmlParser HtmlBase Html2X Spec2 TreeFacts Spec10 TokRun StripRun Spec11 CleanRun CleanDoc Spec16 Spec18 Spec19 Spec26 PreRun EmitFacts.
From Verif Require Spec24 TextKept TableFacts CleanEmit CleanGen TextileEmit MarkdownEmit RestEmit.
Import ListNotations.
Open Scope N_scope.

(** ** the text of a preformatted block *)
Lemma pre_meant : forall l, pre_ok l -> replace_all ([10] ++ pre_src l ++ [10]) = Ok ([10] ++ pre_text l ++ [10]).
Proof.
  intros l (F & (t & T) & _). unfold pre_text. rewrite T.
  assert (E : [10] ++ pre_src l ++ [10] = flat_map write (Text [10] :: l ++ [Text [10]])).
  { cbn [flat_map write]. rewrite flat_map_app. reflexivity. }
  rewrite E, replace_all_spec.
  - cbn [meant_all meant]. assert (K : forall l t, meant_all l = Ok t -> meant_all (l ++ [Text [10]]) = Ok (t ++ [10])).
    { clear. induction l as [|e l IH]; intros t T; [injection T as <-; reflexivity|]. cbn [app meant_all] in *. destruct (meant e) as [x|]; [|discriminate T].
      destruct (meant_all l) as [y|] eqn:EL; [|discriminate T]. injection T as <-. rewrite (IH y eq_refl), <- app_assoc. reflexivity. }
    rewrite (K l t T). reflexivity.
  - constructor; [cbn [ent_ok]; intros [X|[]]; discriminate X|]. apply Forall_app. split; [exact F|]. constructor; [|constructor]. cbn [ent_ok]; intros [X|[]]; discriminate X.
Qed.

Lemma el_app_gen : forall ms u pre anc a b s, emit_list ms u pre anc (a ++ b) s = do (r, s1) <- emit_list ms u pre anc a s; do (r', s2) <- emit_list ms u pre anc b s1; Ok (r ++ r', s2).
Proof.
  intros ms u pre anc a b. induction a as [|x a IH]; intro s.
  - cbn [app emit_list bind]. destruct (emit_list ms u pre anc b s) as [[r s1]|e]; reflexivity.
  - cbn [app emit_list]. destruct (emit_node ms u pre anc x s) as [[r s1]|e]; [|reflexivity]. cbn [bind]. rewrite IH.
    destruct (emit_list ms u pre anc a s1) as [[r2 s2]|e]; [|reflexivity]. cbn [bind]. destruct (emit_list ms u pre anc b s2) as [[r3 s3]|e]; [|reflexivity]. cbn [bind]. rewrite <- app_assoc. reflexivity.
Qed.
Lemma pre_node : forall ms u anc l s f, find_meth ms ($ "blockdata_pre") = Some f ->
  emit_list ms u no_pre anc (part_tree (HPre l)) s =
  do (r, s2) <- f (mkn ($ "blockdata_pre") (Some ([10] ++ pre_src l ++ [10])) [] None anc) (kids_of ms u no_pre anc ($ "blockdata_pre") (Some ([10] ++ pre_src l ++ [10])) []) s;
  Ok (r, set_last ($ "blockdata_pre", Some ([10] ++ pre_src l ++ [10])) s2).
Proof.
  intros ms u anc l s f H. cbn [part_tree]. cbn [emit_list]. rewrite emit_node_eq. unfold no_pre at 1. unfold run_meth. cbn [n_kind]. rewrite H. cbn [bind].
  match goal with |- context [f ?x ?y ?z] => destruct (f x y z) as [[r s2]|e]; [|reflexivity] end. cbn [bind app]. rewrite app_nil_r. reflexivity.
Qed.

(** ** gluing *)
Section Glue.
Variable (wb : xblock -> str) (wp : str -> str) (gap : hpart -> hpart -> str).
Variable (pre : bool -> hpart -> str) (suf : hpart -> str) (nlof : hpart -> bool).
Hypothesis G : forall p q, gap p q = suf p ++ pre (nlof p) q.
Hypothesis SP : forall p, forallb is_space (suf p) = true.
Hypothesis SQ : forall nl p, forallb is_space (pre nl p) = true.
Fixpoint raws (nl : bool) (d : list hpart) : str := match d with [] => [] | p :: r => pre nl p ++ h_text wb wp p ++ suf p ++ raws (nlof p) r end.
Lemma raws_doc : forall r p nl, raws nl (p :: r) = pre nl p ++ h_doc wb wp gap (p :: r) ++ suf (List.last r p).
Proof.
  induction r as [|c r IH]; intros b nl; [cbn [raws h_doc List.last app]; rewrite !app_nil_r; reflexivity|].
  change (raws nl (b :: c :: r)) with (pre nl b ++ h_text wb wp b ++ suf b ++ raws (nlof b) (c :: r)). rewrite IH.
  change (h_doc wb wp gap (b :: c :: r)) with (h_text wb wp b ++ gap b c ++ h_doc wb wp gap (c :: r)). rewrite G.
  assert (L : forall (r : list hpart) c b, List.last (c :: r) b = List.last r c).
  { clear. induction r as [|e r IH]; intros c b; [reflexivity|]. change (List.last (c :: e :: r) b) with (List.last (e :: r) b). rewrite (IH e b), (IH e c). reflexivity. }
  rewrite L, <- !app_assoc. reflexivity.
Qed.
Lemma glue_solid : forall d, Forall (fun p => solid (h_text wb wp p) = true) d -> d <> [] -> solid (h_doc wb wp gap d) = true.
Proof.
  induction d as [|b d IH]; intros C NE; [congruence|]. inversion_clear C. rename H into C1. rename H0 into C2.
  destruct d as [|c d]; [cbn [h_doc app]; rewrite !app_nil_r; exact C1|].
  change (h_doc wb wp gap (b :: c :: d)) with (h_text wb wp b ++ gap b c ++ h_doc wb wp gap (c :: d)). specialize (IH C2). pose proof (IH ltac:(discriminate)) as S2.
  apply CleanEmit.solid_ends in C1 as (c1 & r1 & d1 & r1' & E1 & K1 & E2 & K2). apply CleanEmit.solid_ends in S2 as (c2 & r2 & d2 & r2' & F1 & L1 & F2 & L2).
  eapply (CleanEmit.solid_intro _ c1 (r1 ++ gap b c ++ h_doc wb wp gap (c :: d)) d2 (h_text wb wp b ++ gap b c ++ r2')); [rewrite E1; reflexivity|exact K1|rewrite F2, <- !app_assoc; reflexivity|exact L2].
Qed.
Lemma glue_strip : forall d nl, Forall (fun p => solid (h_text wb wp p) = true) d -> strip (raws nl d) = h_doc wb wp gap d.
Proof.
  intros [|p d] nl H; [reflexivity|]. rewrite raws_doc. pose proof (glue_solid (p :: d) H ltac:(discriminate)) as SO.
  apply CleanEmit.solid_ends in SO as (c1 & r1 & d1 & r1' & E1 & K1 & E2 & K2).
  apply strip_around; [apply SQ|apply SP|exists c1, r1; auto|exists d1, r1'; auto].
Qed.
(** the emitter *)
Variable (ms : methods) (u : unknown).
Local Notation EL := (emit_list ms u no_pre).
Variable (ok : xblock -> bool) (inv : est -> bool -> Prop).
Variable Q : xblock -> Prop.
Hypothesis run_block : forall b nl anc s, ok b = true -> Q b -> inv s nl -> exists s', EL anc (dom_tree [] 0 (b2d b)) s = Ok (pre nl (HBlock b) ++ wb b ++ suf (HBlock b), s') /\ inv s' (nlof (HBlock b)).
Hypothesis run_pre : forall l nl anc s, pre_ok l -> inv s nl ->
  exists s', EL anc (part_tree (HPre l)) s = Ok (pre nl (HPre l) ++ wp (pre_text l) ++ suf (HPre l), s') /\ inv s' (nlof (HPre l)).
Lemma glue_run : forall d nl anc s, parts_ok ok d -> (forall b, In b (blocks_of d) -> Q b) -> inv s nl -> exists s', EL anc (flat_map part_tree d) s = Ok (raws nl d, s').
Proof.
  induction d as [|p d IH]; intros nl anc s C CQ I; [exists s; reflexivity|]. inversion_clear C. cbn [flat_map]. rewrite el_app_gen.
  assert (R : exists s', EL anc (part_tree p) s = Ok (pre nl p ++ h_text wb wp p ++ suf p, s') /\ inv s' (nlof p)).
  { destruct p as [b|l]; cbn [part_tree h_text]; [apply run_block; [exact H| |exact I]; apply CQ; cbn; auto|]. apply run_pre; assumption. }
  destruct R as (s1 & E1 & I1). rewrite E1. cbn [bind]. destruct (IH (nlof p) anc s1 H0) as (s2 & E2); [intros b Ib; apply CQ; unfold blocks_of; cbn [flat_map]; apply in_or_app; right; exact Ib|exact I1|].
  rewrite E2. cbn [bind raws]. exists s2. rewrite <- !app_assoc. reflexivity.
Qed.
End Glue.

Lemma wrap_solid : forall a b m, (exists c r, a = c :: r /\ is_space c = false) -> (exists d r, b = r ++ [d] /\ is_space d = false) -> solid (a ++ m ++ b) = true.
Proof.
  intros a b m (c & r & -> & K) (d & r' & -> & K'). eapply (CleanEmit.solid_intro _ c (r ++ m ++ r' ++ [d]) d ((c :: r) ++ m ++ r')); [reflexivity|exact K|rewrite <- !app_assoc; reflexivity|exact K'].
Qed.
Lemma fine_of : forall ok d, (forall b, ok b = true -> shape_block b = true) -> parts_ok ok d -> Forall part_fine d.
Proof. intros ok d H P. eapply Forall_impl; [|exact P]. intros [b|l]; cbn [part_fine]; auto. Qed.

(** ** creole and textile *)
Definition prefix (nl : bool) (p : hpart) : str := match p with HBlock b => CleanEmit.bpre nl b | HPre _ => [] end.
Definition suffix (p : hpart) : str := match p with HBlock b => CleanEmit.bsuf b | HPre _ => [10] end.
Definition nl_of (p : hpart) : bool := match p with HBlock b => CleanEmit.bnl b | HPre _ => false end.
Lemma gap_is : forall p q, h_gap p q = suffix p ++ prefix (nl_of p) q.
Proof. intros [[]|] [[]|]; reflexivity. Qed.
Lemma suffix_space : forall p, forallb is_space (suffix p) = true. Proof. intros [[]|]; reflexivity. Qed.
Lemma prefix_space : forall nl p, forallb is_space (prefix nl p) = true. Proof. intros [] [[]|]; reflexivity. Qed.
Definition settled (s : est) (nl : bool) : Prop := inner_list s = [] /\ starts_newline s = nl.
Lemma settled_pre : forall l s nl, settled s nl -> settled (set_last ($ "blockdata_pre", Some ([10] ++ pre_src l ++ [10])) s) false.
Proof.
  intros l s nl [I _]. split; [exact I|]. unfold starts_newline. cbn [set_last last]. cbn [app]. apply andb_false_iff. right. apply negb_false_iff. unfold endswith. change (10 :: pre_src l ++ [10]) with ([10] ++ pre_src l ++ [10]).
  rewrite !rev_app_distr. reflexivity.
Qed.
Theorem parts_creole : forall u strict d html, parts_ok xblock_ok d -> countable d -> pwritten d html -> html2creole u strict html = Ok (cre_parts d).
Proof.
  intros u strict d html P C W. unfold html2creole. rewrite (pre_tree d html (fine_of _ _ (fun b K => CleanEmit.block_shape Spec24.bare CleanEmit.nothing b (CleanEmit.plain_block_ok b K)) P) C W). cbn [bind]. unfold emit_creole.
  rewrite (CleanEmit.en_run _ strict ($ "document") document_emit) by reflexivity. unfold CleanEmit.node_run, document_emit, kids_of.
  destruct (glue_run cre_block cre_pre prefix suffix nl_of (creole_methods strict) u xblock_ok settled (fun _ => True)) with (d := d) (nl := true) (anc := [$ "document"]) (s := set_last ($ "document", None) e_init) as (s1 & E).
  - intros b nl anc s K _ [I S1]. destruct (CleanEmit.block_run Spec24.bare CleanEmit.nothing u strict ltac:(discriminate) b nl anc s (CleanEmit.plain_block_ok b K) I S1) as (s' & E & I' & S'). rewrite CleanEmit.plain_block in E. exists s'. repeat split; assumption.
  - intros l nl anc s K I. rewrite (pre_node _ _ _ _ _ c_blockdata_pre) by reflexivity. unfold c_blockdata_pre, deentity_content. cbn [n_content]. rewrite (pre_meant l K). cbn [bind].
    eexists. split; [|exact (settled_pre l s nl I)]. f_equal. f_equal. unfold cre_pre, prefix, suffix. rewrite <- !app_assoc. reflexivity.
  - exact P.
  - auto.
  - split; reflexivity.
  - match goal with |- context [emit_list ?x ?y ?z ?k ?ch ?t] => replace (emit_list x y z k ch t) with (Ok (raws cre_block cre_pre prefix suffix nl_of true d, s1)) by (symmetry; exact E) end. cbn [bind].
    f_equal. apply glue_strip; [exact gap_is|exact suffix_space|exact prefix_space|]. eapply Forall_impl; [|exact P]. intros [b|l] K; cbn [h_text].
    + rewrite <- CleanEmit.plain_block. apply (CleanEmit.block_solid Spec24.bare CleanEmit.nothing). apply CleanEmit.plain_block_ok. exact K.
    + unfold cre_pre. apply (wrap_solid ($ "{{{") ($ "}}}") ([10] ++ pre_text l ++ [10])) || idtac.
      replace ($ "{{{" ++ [10] ++ pre_text l ++ [10] ++ $ "}}}") with ($ "{{{" ++ ([10] ++ pre_text l ++ [10]) ++ $ "}}}") by (rewrite <- !app_assoc; reflexivity).
      apply wrap_solid; [exists 123, ($ "{{"); split; reflexivity|exists 125, ($ "}}"); split; reflexivity].
Qed.
Theorem parts_textile : forall u d html, parts_ok tex_block_ok d -> countable d -> pwritten d html -> html2textile u html = Ok (tex_parts d).
Proof.
  intros u d html P C W. unfold html2textile. rewrite (pre_tree d html (fine_of _ _ TextileEmit.tex_block_shape P) C W). cbn [bind]. unfold emit_textile.
  rewrite (CleanGen.en_run u textile_methods ($ "document") document_emit) by reflexivity. unfold CleanGen.node_run, document_emit, kids_of.
  destruct (glue_run tex_block tex_pre prefix suffix nl_of textile_methods u tex_block_ok settled (fun _ => True)) with (d := d) (nl := true) (anc := [$ "document"]) (s := set_last ($ "document", None) e_init) as (s1 & E).
  - intros b nl anc s K _ [I S1]. destruct (TextileEmit.block_run u b nl anc s K I S1) as (s' & E & I' & S'). exists s'. repeat split; assumption.
  - intros l nl anc s K I. rewrite (pre_node _ _ _ _ _ t_blockdata_pre) by reflexivity. unfold t_blockdata_pre, deentity_content. cbn [n_content]. rewrite (pre_meant l K). cbn [bind].
    eexists. split; [|exact (settled_pre l s nl I)]. f_equal. f_equal. unfold tex_pre, prefix, suffix. rewrite <- !app_assoc. reflexivity.
  - exact P.
  - auto.
  - split; reflexivity.
  - match goal with |- context [emit_list ?x ?y ?z ?k ?ch ?t] => replace (emit_list x y z k ch t) with (Ok (raws tex_block tex_pre prefix suffix nl_of true d, s1)) by (symmetry; exact E) end. cbn [bind].
    f_equal. apply glue_strip; [exact gap_is|exact suffix_space|exact prefix_space|]. eapply Forall_impl; [|exact P]. intros [b|l] K; cbn [h_text].
    + apply TextileEmit.block_solid. exact K.
    + unfold tex_pre.
      replace ($ "<pre>" ++ [10] ++ pre_text l ++ [10] ++ $ "</pre>") with ($ "<pre>" ++ ([10] ++ pre_text l ++ [10]) ++ $ "</pre>") by (rewrite <- !app_assoc; reflexivity).
      apply wrap_solid; [exists 60, ($ "pre>"); split; reflexivity|exists 62, ($ "</pre"); split; reflexivity].
Qed.
(** ** markdown *)
Definition md_prefix (nl : bool) (p : hpart) : str := match p with HBlock b => MarkdownEmit.bpre b | HPre _ => [] end.
Theorem parts_markdown : forall url u d html, parts_ok (md_block_ok url) d -> addresses url (blocks_of d) -> countable d -> pwritten d html -> html2markdown u html = Ok (md_parts url d).
Proof.
  intros url u d html P A C W. unfold html2markdown. rewrite (pre_tree d html (fine_of _ _ (MarkdownEmit.md_block_shape url) P) C W). cbn [bind]. unfold emit_markdown.
  rewrite (CleanGen.en_run u markdown_methods ($ "document") document_emit) by reflexivity. unfold CleanGen.node_run, document_emit, kids_of.
  destruct (glue_run (md_block url) md_pre md_prefix (fun _ => [10]) (fun _ => true) markdown_methods u (md_block_ok url) (fun _ _ => True) (fun b => MarkdownEmit.quotable url (tg_block b))) with (d := d) (nl := true) (anc := [$ "document"]) (s := set_last ($ "document", None) e_init) as (s1 & E).
  - intros b nl anc s K Q _. destruct (MarkdownEmit.block_run url u b anc s K Q) as (s' & E). exists s'. auto.
  - intros l nl anc s K I. rewrite (pre_node _ _ _ _ _ m_blockdata_pre) by reflexivity. unfold m_blockdata_pre, deentity_content. cbn [n_content]. rewrite (pre_meant l K). cbn [bind].
    eexists. split; [|exact Logic.I]. f_equal. f_equal. unfold md_pre, md_prefix. rewrite <- !app_assoc. reflexivity.
  - exact P.
  - intros b Ib h Ih. apply (MarkdownEmit.addresses_quotable url _ A h). unfold targets. apply in_flat_map. exists b. split; assumption.
  - exact Logic.I.
  - match goal with |- context [emit_list ?x ?y ?z ?k ?ch ?t] => replace (emit_list x y z k ch t) with (Ok (raws (md_block url) md_pre md_prefix (fun _ => [10]) (fun _ => true) true d, s1)) by (symmetry; exact E) end. cbn [bind].
    f_equal. apply glue_strip; [intros p [[]|]; reflexivity|reflexivity|intros nl [[]|]; reflexivity|]. eapply Forall_impl; [|exact P]. intros [b|l] K; cbn [h_text].
    + apply MarkdownEmit.block_solid. exact K.
    + unfold md_pre.
      replace ($ "```" ++ [10] ++ pre_text l ++ [10] ++ $ "```") with ($ "```" ++ ([10] ++ pre_text l ++ [10]) ++ $ "```") by (rewrite <- !app_assoc; reflexivity).
      apply wrap_solid; [exists 96, ($ "``"); split; reflexivity|exists 96, ($ "``"); split; reflexivity].
Qed.

(** ** reStructuredText *)
Lemma go_break : forall c t cur, is_linebreak c = true -> (c = 13 /\ exists t', t = 10 :: t' /\ splitlines_go cur (c :: t) = rev cur :: splitlines_go [] t') \/ splitlines_go cur (c :: t) = rev cur :: splitlines_go [] t.
Proof.
  intros c t cur H. cbn [splitlines_go]. rewrite H. destruct (N.eqb_spec c 13) as [->|NC].
  - destruct t as [|d t]; [right; reflexivity|]. destruct (N.eqb_spec d 10) as [->|ND]; [left; split; [reflexivity|]; exists t; split; reflexivity|right].
    destruct d as [|p]; [reflexivity|]. do 4 (destruct p as [p|p|]; try reflexivity). congruence.
  - right. destruct c as [|p]; [reflexivity|]. do 4 (destruct p as [p|p|]; try reflexivity). congruence.
Qed.
Lemma lines_end : forall n s cur d, (List.length s <= n)%nat -> is_space d = false -> exists l x, splitlines_go cur (s ++ [d]) = l ++ [x ++ [d]].
Proof.
  assert (ND : forall d, is_space d = false -> is_linebreak d = false) by (intros d H; destruct (is_linebreak d) eqn:E; [apply TextKept.linebreak_space in E; congruence|reflexivity]).
  induction n as [|n IH]; intros s cur d Hn S1.
  - destruct s; [|cbn in Hn; lia]. cbn [app splitlines_go]. rewrite (ND d S1). exists [], (rev cur). reflexivity.
  - destruct s as [|c s]; [cbn [app splitlines_go]; rewrite (ND d S1); exists [], (rev cur); reflexivity|]. cbn [List.length] in Hn. cbn [app]. destruct (is_linebreak c) eqn:EB.
    + destruct (go_break c (s ++ [d]) cur EB) as [(_ & t' & ET & E)|E]; rewrite E.
      * destruct s as [|x s]; [cbn [app] in ET; injection ET as -> _; discriminate S1|]. cbn [app] in ET. injection ET as -> <-. destruct (IH s [] d) as (l & x & EX); [cbn [List.length] in Hn; lia|exact S1|]. rewrite EX. exists (rev cur :: l), x. reflexivity.
      * destruct (IH s [] d) as (l & x & EX); [lia|exact S1|]. rewrite EX. exists (rev cur :: l), x. reflexivity.
    + cbn [splitlines_go]. rewrite EB. apply IH; [lia|exact S1].
Qed.
Lemma pre_ends : forall t, forallb is_space t = false -> MarkdownEmit.ends (rst_pre t) = true.
Proof.
  intros t H. destruct (rev (strip t)) as [|d r] eqn:R.
  - exfalso. destruct (strip_split is_space t) as (a & b & E & A & B). assert (E0 : strip_by is_space t = []) by (rewrite <- (rev_involutive (strip_by is_space t)); change (rev (strip_by is_space t)) with (rev (strip t)); rewrite R; reflexivity).
    rewrite E0 in E. cbn [app] in E. assert (H2 : forallb is_space t = true) by (rewrite E, forallb_app; apply andb_true_iff; split; assumption). congruence.
  - pose proof (strip_by_last is_space t d r R) as SD. assert (E : strip t = rev r ++ [d]) by (rewrite <- (rev_involutive (strip t)), R; reflexivity).
    destruct (lines_end (List.length (rev r)) (rev r) [] d (le_n _) SD) as (l & x & EX).
    assert (EX' : splitlines (strip t) = l ++ [x ++ [d]]) by (rewrite E; exact EX). unfold rst_pre. rewrite EX', map_app. cbn [map].
    do 2 apply RestEmit.ends_tail. apply RestEmit.x_lines_last. apply RestEmit.ends_tail. unfold MarkdownEmit.ends. rewrite rev_app_distr. cbn [rev app]. rewrite SD. reflexivity.
Qed.
Lemma strip_lines : forall t, strip ([10] ++ t ++ [10]) = strip t.
Proof.
  intro t. destruct (strip_split is_space t) as (a & b & E & A & B). rewrite E at 1. change (strip_by is_space t) with (strip t).
  replace ([10] ++ (a ++ strip t ++ b) ++ [10]) with (([10] ++ a) ++ strip t ++ (b ++ [10])) by (rewrite <- !app_assoc; reflexivity).
  apply TableFacts.strip_pad; rewrite forallb_app; apply andb_true_iff; split; try assumption; reflexivity.
Qed.
Section Rest.
Variable u : unknown.
Local Notation EL := (emit_list rest_methods u rest_pre).
Local Notation DOC := [$ "document"].
Lemma part_tells : forall p s n, match p with HBlock b => rst_block_ok b = true | HPre l => pre_ok l end -> RestEmit.rok s n ->
  exists k f a l c ch, part_tree p = [HN k c a l ch] /\ find_meth rest_methods k = Some f /\ RestEmit.block_told (rst_part p n) (RestEmit.node_run u k f a l c ch DOC s).
Proof.
  intros [b|l] s n K R; [exact (RestEmit.block_tells u b s n K R)|]. cbn [part_tree rst_part]. exists ($ "blockdata_pre"), r_blockdata_pre, [], None, (Some ([10] ++ pre_src l ++ [10])), []. split; [reflexivity|]. split; [reflexivity|].
  unfold RestEmit.node_run, r_blockdata_pre, deentity_content. cbn [n_content]. rewrite (pre_meant l K). cbn [bind RestEmit.block_told]. rewrite strip_lines. exists (set_last ($ "blockdata_pre", Some ([10] ++ pre_src l ++ [10])) s). split; [|exact R].
  f_equal. f_equal. unfold rst_pre. rewrite CleanEmit.x_lines_join, <- !app_assoc. reflexivity.
Qed.
Lemma parts_tells : forall d s n, parts_ok rst_block_ok d -> RestEmit.rok s n ->
  match rst_pchunks d (snd (rst_notes n)) with
  | Some ts => exists x s' n', EL DOC (flat_map part_tree d) s = Ok (x, s') /\ RestEmit.rok s' n' /\ x ++ RestEmit.cat (fst (rst_notes n')) = RestEmit.cat (fst (rst_notes n) ++ ts) /\
                 (x = [] /\ n' = n \/ exists y, x = y ++ [10; 10])
  | None => EL DOC (flat_map part_tree d) s = Exc ESubstitution
  end.
Proof.
  induction d as [|b d IH]; intros s n C R.
  - exists [], s, n. split; [reflexivity|]. split; [exact R|]. split; [rewrite app_nil_r; reflexivity|auto].
  - inversion_clear C. rename H into C1. rename H0 into C2. cbn [flat_map rst_pchunks]. rewrite el_app_gen. destruct (RestEmit.pre_doc s n R) as [P1 P2].
    destruct (part_tells b (snd (rest_pre DOC s)) (snd (rst_notes n)) C1 P2) as (k & f & a & l & c & ch & ET & M & B). rewrite ET, RestEmit.el_one, (RestEmit.en_run u k f) by exact M.
    destruct (rst_part b (snd (rst_notes n))) as [[t n1]|]; cbn [RestEmit.block_told] in B; [|rewrite B; reflexivity]. destruct B as (s1 & E1 & R1). rewrite E1, P1. cbn [bind].
    specialize (IH s1 n1 C2 R1). destruct (rst_notes n1) as [ds n2] eqn:EN. cbn [fst snd] in IH. destruct (rst_pchunks d n2) as [ts|]; [|rewrite IH; reflexivity].
    destruct IH as (x & s2 & n3 & E2 & R2 & EX & EY). rewrite E2. cbn [bind]. eexists. exists s2, n3. split; [reflexivity|]. split; [exact R2|]. split.
    + rewrite <- !app_assoc, EX. unfold RestEmit.cat. rewrite !flat_map_app. cbn [flat_map]. rewrite !flat_map_app, <- !app_assoc. reflexivity.
    + right. destruct EY as [[-> ->]|(y & ->)]; [exists (RestEmit.cat (fst (rst_notes n)) ++ t); rewrite app_nil_r, <- app_assoc; reflexivity|].
      exists ((RestEmit.cat (fst (rst_notes n)) ++ t ++ [10; 10]) ++ y). rewrite <- !app_assoc. reflexivity.
Qed.
End Rest.
Lemma pchunks_ends : forall d n ts, parts_ok rst_block_ok d -> texts_seen d -> RestEmit.good n -> rst_pchunks d n = Some ts -> forallb MarkdownEmit.ends ts = true.
Proof.
  induction d as [|p d IH]; intros n ts C T G E; [injection E as <-; reflexivity|]. inversion_clear C. rename H into C1. rename H0 into C2. inversion_clear T. rename H into T1. rename H0 into T2. cbn [rst_pchunks] in E.
  destruct (rst_part p n) as [[t n1]|] eqn:E1; [|discriminate E].
  assert (PE : RestEmit.good n1 /\ MarkdownEmit.ends t = true).
  { destruct p as [b|l]; [exact (RestEmit.block_ends b n t n1 C1 G E1)|]. cbn [rst_part] in E1. injection E1 as <- <-. split; [exact G|]. apply pre_ends. exact T1. }
  destruct PE as [G1 ET]. destruct (RestEmit.notes_ends n1 G1) as [EN G2]. destruct (rst_notes n1) as [ds n2]. cbn [fst snd] in *.
  destruct (rst_pchunks d n2) as [ts'|] eqn:E2; [|discriminate E]. injection E as <-. cbn [forallb]. rewrite forallb_app, ET, EN, (IH n2 ts' C2 T2 G2 E2). reflexivity.
Qed.
Theorem parts_rest : forall u d html, parts_ok rst_block_ok d -> texts_seen d -> countable d -> pwritten d html ->
  html2rest u html = match rst_parts d with Some t => Ok t | None => Exc ESubstitution end.
Proof.
  intros u d html C T K W. unfold html2rest. rewrite (pre_tree d html (fine_of _ _ RestEmit.rst_block_shape C) K W). cbn [bind]. unfold emit_rest.
  rewrite (RestEmit.en_run u ($ "document") r_document) by reflexivity. change (rest_pre [] e_init) with (@nil N, e_init). cbn [fst snd]. unfold RestEmit.node_run, r_document, kids_of.
  pose proof (parts_tells u d (set_last ($ "document", None) e_init) no_notes C) as D. change (snd (rst_notes no_notes)) with no_notes in D. specialize (D (conj eq_refl (conj eq_refl (conj eq_refl eq_refl)))).
  unfold rst_parts. pose proof (pchunks_ends d no_notes) as CE. destruct (rst_pchunks d no_notes) as [ts|]; cbn [option_map].
  2: { match goal with |- context [emit_list ?x ?y ?z ?k ?ch ?v] => replace (emit_list x y z k ch v) with (@Exc (str * est) ESubstitution) by (symmetry; exact D) end. reflexivity. }
  destruct D as (w & s' & n' & E & (R1 & R2 & R3 & R4) & EX & EY). match goal with |- context [emit_list ?x ?y ?z ?k ?ch ?v] => replace (emit_list x y z k ch v) with (Ok (w, s')) by (symmetry; exact E) end. cbn [bind].
  specialize (CE ts C T eq_refl eq_refl). change (fst (rst_notes no_notes) ++ ts) with ts in EX. rewrite R3. unfold rst_notes in EX. cbn [fst] in EX. destruct (no_defs n') as [|d0 ds] eqn:ND.
  - cbn [bind app]. unfold RestEmit.cat in EX at 1. cbn [flat_map] in EX. rewrite app_nil_r in EX. rewrite EX, (RestEmit.rstrip_cat ts CE). reflexivity.
  - destruct EY as [[-> ->]|(y & EY)]; [discriminate ND|].
    assert (EW : endswith [10; 10] w = true). { rewrite EY. unfold endswith. rewrite rev_app_distr. reflexivity. }
    rewrite EW. unfold get_block_data. rewrite R3. cbn [bind app]. unfold RestEmit.cat in EX at 1. cbn [flat_map] in EX. rewrite app_nil_r, CleanEmit.x_lines_join in EX. rewrite EX, (RestEmit.rstrip_cat ts CE). reflexivity.
Qed.
