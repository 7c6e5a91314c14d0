(** * Unambiguous documents: [creole2html] *)
From Coq Require Import String List Arith NArith ZArith Bool Lia.
From Verif Require Import PyStr PyStrFacts GNames Regex Rules RegexFacts RegexRun Utils DocTree CreoleParser ParserFacts
  Res HtmlEmitter EmitterFacts HtmlToolsFacts Spec4 Spec5 InlineRun InlineParse BlockRun BlockHits TableHits BlockParse.
Import ListNotations.
Open Scope N_scope.

Definition html_raw (blog str_ : bool) (b : block) : str :=
  html_block blog str_ b ++ match b with BList _ _ => [] | _ => [10] end.

Section Doc.
  Variable c : cfg.
  Hypothesis no_toc : use_toc c = false.
  Lemma block_first : forall blog b, block_ok blog b = true -> first_ok c blog (html_raw blog (strict c) b) (wr_block b).
  Proof.
    intros blog [lines|n sp0 t cl| |lines|o items|rows] H; unfold html_raw.
    - apply para_first; exact H.
    - exact (head_first c no_toc blog n sp0 t cl H).
    - apply rule_first.
    - apply code_first; exact H.
    - rewrite app_nil_r. apply list_first; exact H.
    - apply table_first; exact H.
  Qed.
  Lemma block_next : forall blog b, block_ok blog b = true -> after_blank blog b = true -> next_ok c blog (html_raw blog (strict c) b) (wr_block b).
  Proof.
    intros blog [lines|n sp0 t cl| |lines|o items|rows] H Ha; unfold html_raw.
    - apply para_next; exact H.
    - destruct blog; [|discriminate]. apply head_next; assumption.
    - apply rule_next.
    - destruct blog; [|discriminate]. apply code_next; exact H.
    - rewrite app_nil_r. apply list_next; exact H.
    - apply table_next; exact H.
  Qed.
  Lemma head_app : forall p (w T : str), truthy w = true -> head_is p (w ++ T) = head_is p w /\ truthy (w ++ T) = true.
  Proof. intros p [|d w] T H; [discriminate|]. split; reflexivity. Qed.
  Lemma block_head : forall blog b, block_ok blog b = true -> truthy (wr_block b) = true /\ head_is is_space (wr_block b) = false.
  Proof.
    intros blog [lines|n sp0 t cl| |lines|o items|rows] H.
    - destruct (para_head blog lines H) as (l & R & -> & HR & Hl). destruct (line_not l R Hl HR) as (_ & _ & _ & A & B). auto.
    - cbn [block_ok] in H. destruct n; [discriminate|]. split; reflexivity.
    - split; reflexivity.
    - cbn [wr_block]. rewrite lines_body. split; reflexivity.
    - destruct (list_cases blog o items H) as (t & o2 & sub & r & ls & _ & El & Hl & _ & _). rewrite (lines_of_text o items _ _ El).
      destruct (list_head ([list_mark o], wr_inls t) ls [] Hl) as (A & B). rewrite app_nil_r in A, B. auto.
    - destruct (table_facts blog rows H) as (H1 & H2 & _). destruct rows as [|r rows]; [congruence|]. unfold rows_ok in H2. cbn [forallb] in H2.
      apply andb_true_iff in H2 as [H2 _]. apply andb_true_iff in H2 as [H2 _]. assert (Hr : r <> []) by (destruct r; discriminate). destruct (wr_row_head r Hr) as (Y & EY).
      cbn [wr_block map lines_text]. rewrite EY. destruct (map wr_row rows); split; reflexivity.
  Qed.
  Definition after (d : list block) : str := match d with [] => [] | _ => [10; 10] ++ wr_doc d end.
  Lemma wr_doc_cons : forall b d, wr_doc (b :: d) = wr_block b ++ after d.
  Proof. intros b [|b2 d]; [cbn [wr_doc after]; rewrite app_nil_r; reflexivity|reflexivity]. Qed.
  Lemma wr_doc_head : forall blog d, d <> [] -> forallb (block_ok blog) d = true -> truthy (wr_doc d) = true /\ head_is is_space (wr_doc d) = false.
  Proof.
    intros blog [|b d] Hn H; [congruence|]. rewrite wr_doc_cons. cbn [forallb] in H. apply andb_true_iff in H as [H _]. destruct (block_head blog b H) as (A & B).
    destruct (head_app is_space (wr_block b) (after d) A) as (-> & ->). auto.
  Qed.
  Lemma after_tail2 : forall blog d, forallb (block_ok blog) d = true -> tail2 (after d) = true.
  Proof.
    intros blog d H. destruct d as [|b d]; [reflexivity|]. destruct (wr_doc_head blog (b :: d) ltac:(discriminate) H) as (A & B).
    cbn [after tail2 app]. rewrite A, B. reflexivity.
  Qed.
  Definition raws (blog : bool) (d : list block) : str := flat_map (fun b => [10] ++ html_raw blog (strict c) b) d.
  Lemma docs_run : forall blog d, forallb (block_ok blog) d = true -> forallb (after_blank blog) d = true -> forall b s out, docst c s out -> 
    exists s', docst c s' (out ++ raws blog d) /\ run blog (rest_ms blog b (after d)) s = s'.
  Proof.
    intros blog d. induction d as [|b d IH]; intros Hok Ha b0 s out Hs.
    - exists s. cbn [after rest_ms raws flat_map]. rewrite app_nil_r. auto.
    - pose proof Hok as Hok'. cbn [forallb] in Hok, Ha. apply andb_true_iff in Hok as [H1 H2], Ha as [A1 A2]. pose proof (after_tail2 blog d H2) as HT.
      destruct (block_next blog b H1 A1 (after d) s out (10 :: b0) HT Hs eq_refl) as (s1 & Hs1 & E1).
      destruct (IH H2 A2 (rev (10 :: wr_block b) ++ 10 :: b0) s1 _ Hs1) as (s2 & Hs2 & E2). exists s2. split.
      + unfold raws. cbn [flat_map]. fold (raws blog d). rewrite <- !app_assoc in Hs2. rewrite <- !app_assoc. exact Hs2.
      + rewrite <- E2, <- E1. unfold after at 1. cbn [rest_ms app]. rewrite wr_doc_cons. reflexivity.
  Qed.
  Lemma doc_run : forall blog b d, doc_ok blog (b :: d) = true ->
    exists s', docst c s' (html_raw blog (strict c) b ++ raws blog d) /\ parse_block blog (wr_doc (b :: d)) init_ps = s'.
  Proof.
    intros blog b d H. unfold doc_ok in H. cbn [forallb tl] in H. apply andb_true_iff in H as [H A2]. apply andb_true_iff in H as [H1 H2].
    assert (Hi : atdoc c init_ps []) by (exists []; split; [reflexivity|]; split; [exact I|apply showns_nil]).
    destruct (block_first blog b H1 (after d) init_ps [] [] (after_tail2 blog d H2) Hi eq_refl) as (s1 & Hs1 & E1).
    destruct (docs_run blog d H2 A2 (rev (wr_block b) ++ []) s1 _ Hs1) as (s2 & Hs2 & E2). exists s2. split; [exact Hs2|].
    rewrite <- E2, <- E1, wr_doc_cons. reflexivity.
  Qed.
  Lemma docst_emit : forall s out st, docst c s out -> exists root, finish s = Some (root, []) /\ emit_node c (mkn KDocument None) root st = (Ok out, st).
  Proof.
    intros s out st (h & ch & up & dch & -> & _ & _ & Hp & Sh). exists (Nd (mkn KDocument None) (rev dch)). split.
    - unfold finish. cbn [perr]. unfold pop_to, set_stk. cbn [stk List.length used]. match goal with |- context [pop_n ?n ?k] => replace (pop_n n k) with [(mkn KDocument None, dch)] end; [reflexivity|].
      rewrite <- Hp. f_equal. symmetry. apply Nat.sub_0_r.
    - rewrite emit_node_eq. cbv zeta. cbn [hk mkn]. apply Sh.
  Qed.
End Doc.

(** ** the ends of the text are not white space *)
Definition solid_text (t : str) : Prop := head_is is_space t = false /\ last_is is_space t = false /\ truthy t = true.
Lemma last_gt : forall v x, last_is is_space (v ++ x ++ [62]) = false.
Proof. intros v x. unfold last_is. rewrite !rev_app_distr. reflexivity. Qed.
Lemma angle : forall v x t, t = [60] ++ v ++ x ++ [62] -> solid_text t.
Proof. intros v x t ->. split; [reflexivity|]. split; [|reflexivity]. rewrite app_assoc. apply last_gt. Qed.
Lemma elem_solid : forall t x, solid_text (elem t x).
Proof. intros t x. unfold elem. split; [reflexivity|]. split; [|reflexivity]. unfold last_is. rewrite !rev_app_distr. reflexivity. Qed.
Lemma html_block_solid : forall blog s b, solid_text (html_block blog s b).
Proof.
  intros blog s [lines|n sp0 t cl| |lines|o items|rows]; cbn [html_block]; try apply elem_solid.
  - repeat split.
  - unfold html_list, html_list_with. eapply (angle (list_tag o ++ $ ">" ++ flat_map (html_item s 0) items ++ [10] ++ tabs 0 ++ $ "</") (list_tag o)).
    repeat (rewrite <- ?app_assoc; cbn [app tabs repeat]). reflexivity.
  - eapply (angle ($ "table>" ++ [10] ++ flat_map (html_row s) rows) ($ "</table")). repeat (rewrite <- ?app_assoc; cbn [app]). reflexivity.
Qed.
Lemma html_doc_cons : forall blog s b b2 d, html_doc blog s (b :: b2 :: d) = html_block blog s b ++ gap b ++ html_doc blog s (b2 :: d).
Proof. reflexivity. Qed.
Lemma html_doc_solid : forall blog s d, d <> [] -> solid_text (html_doc blog s d).
Proof.
  intros blog s. induction d as [|b d IH]; intro H; [congruence|]. destruct (html_block_solid blog s b) as (A & B & C). destruct d as [|b2 d]; [exact (conj A (conj B C))|].
  destruct (IH ltac:(discriminate)) as (D & E & F). rewrite html_doc_cons. destruct (head_app is_space (html_block blog s b) (gap b ++ html_doc blog s (b2 :: d)) C) as (G1 & G2).
  split; [rewrite G1; exact A|]. split; [|exact G2]. rewrite app_assoc. rewrite last_is_suffix; [exact E|]. destruct (html_doc blog s (b2 :: d)); discriminate.
Qed.
Lemma solid_trimmed : forall t, solid_text t -> trimmed t = true.
Proof. intros t (A & B & C). unfold trimmed. rewrite A, B, C. reflexivity. Qed.
Definition last_nl (d : list block) : str := match rev d with BList _ _ :: _ => [] | _ => [10] end.
Lemma raws_html : forall c blog d b, html_raw blog (strict c) b ++ raws c blog d = html_doc blog (strict c) (b :: d) ++ last_nl (b :: d).
Proof.
  intros c blog. induction d as [|b2 d IH]; intro b.
  - unfold raws. cbn [flat_map html_doc]. rewrite app_nil_r. unfold html_raw, last_nl. cbn [rev app]. destruct b; reflexivity.
  - unfold raws. cbn [flat_map]. fold (raws c blog d). rewrite <- app_assoc, IH. rewrite html_doc_cons. rewrite <- !app_assoc.
    assert (last_nl (b :: b2 :: d) = last_nl (b2 :: d)) as ->.
    { unfold last_nl. cbn [rev]. destruct (rev d); reflexivity. }
    unfold html_raw. rewrite <- app_assoc. f_equal. destruct b; reflexivity.
Qed.
Lemma strip_solid : forall t n, solid_text t -> n = [] \/ n = [10] -> strip (t ++ n) = t.
Proof.
  intros t n H [->| ->]; [rewrite app_nil_r; apply trimmed_strip, solid_trimmed; exact H|].
  pose proof (trimmed_strip t (solid_trimmed t H)) as E. destruct H as (A & B & C). destruct t as [|d t]; [discriminate|]. cbn [head_is] in A.
  unfold strip, strip_by, lstrip_by in *. cbn [app drop_while] in *. rewrite A in *.
  assert (R : forall x, rstrip_by is_space (x ++ [10]) = rstrip_by is_space x).
  { induction x as [|y x IH]; [reflexivity|]. cbn [app rstrip_by]. rewrite IH. reflexivity. }
  change (d :: t ++ [10]) with ((d :: t) ++ [10]). rewrite R. exact E.
Qed.

(** ** no carriage returns *)
Lemma no_cr_lines : forall l, Forall (fun x => ~ In 13 x) l -> ~ In 13 (lines_text l).
Proof.
  intros l H. induction H as [|x l Hx _ IH]; [intros []|]. cbn [lines_text]. destruct l as [|y l]; [exact Hx|].
  intro K. apply in_app_or in K as [K|K]; [exact (Hx K)|]. apply in_app_or in K as [[K|[]]|K]; [discriminate|exact (IH K)].
Qed.
Lemma no_cr : forall w, no_char [10; 13] w = true -> ~ In 13 w.
Proof. intros w H K. apply (no_char_In _ _ _ H K). right. left. reflexivity. Qed.
Lemma block_no_cr : forall blog b, block_ok blog b = true -> ~ In 13 (wr_block b).
Proof.
  intros blog [lines|n sp0 t cl| |lines|o items|rows] H.
  - cbn [block_ok] in H. apply andb_true_iff in H as [H _]. cbn [wr_block]. apply no_cr_lines. apply Forall_forall. intros x Hx. apply in_map_iff in Hx as (l & <- & Hl).
    rewrite forallb_forall in H. destruct (line_ok_facts l (H l Hl)) as (_ & A & _). apply no_cr. exact A.
  - cbn [block_ok] in H. rewrite !andb_true_iff in H. destruct H as [[[[[[_ H2] _] H4] _] _] H7]. cbn [wr_block]. intro K. rewrite !in_app_iff in K.
    destruct K as [K|[K|[K|K]]].
    + apply repeat_spec in K. discriminate.
    + rewrite forallb_forall in H2. specialize (H2 _ K). discriminate.
    + exact (no_cr _ H4 K).
    + rewrite forallb_forall in H7. specialize (H7 _ K). discriminate.
  - intro K. cbn in K. intuition discriminate.
  - cbn [block_ok] in H. apply andb_true_iff in H as [H _]. cbn [wr_block]. apply no_cr_lines. apply Forall_forall. intros x Hx.
    destruct Hx as [<-|Hx]; [intro K; cbn in K; intuition discriminate|]. apply in_app_or in Hx as [Hx|[<-|[]]]; [|intro K; cbn in K; intuition discriminate].
    rewrite forallb_forall in H. specialize (H _ Hx). rewrite !andb_true_iff in H. apply no_cr. tauto.
  - destruct (list_cases blog o items H) as (t & o2 & sub & r & ls & _ & El & Hl & Hls & _). 
    cbn [wr_block]. replace (flat_map (wr_item [list_mark o]) items) with (map line_of (([list_mark o], wr_inls t) :: ls)).
    2:{ rewrite <- El. unfold lines_of. rewrite map_flat_map. apply flat_map_ext. intro i. apply item_lines_wr. }
    apply no_cr_lines. apply Forall_forall. intros x Hx. apply in_map_iff in Hx as (l & <- & Hx).
    assert (A : list_line_ok l) by (destruct Hx as [<-|Hx]; [exact Hl|]; rewrite Forall_forall in Hls; exact (Hls l Hx)).
    destruct A as (A1 & _ & _ & A4). unfold line_of. intro K. apply in_app_or in K as [K|[K|K]]; [|discriminate|exact (no_cr _ A4 K)].
    rewrite forallb_forall in A1. specialize (A1 _ K). discriminate.
  - destruct (table_facts blog rows H) as (_ & H2 & _). cbn [wr_block]. apply no_cr_lines. apply Forall_forall. intros x Hx. apply in_map_iff in Hx as (r & <- & Hr).
    unfold rows_ok in H2. rewrite forallb_forall in H2. specialize (H2 r Hr). apply andb_true_iff in H2 as [H2 H3]. 
    destruct (row_shape r ltac:(destruct r; discriminate) H3) as (R & -> & _ & A & _). unfold bar_row. intros [K|K]; [discriminate|]. apply in_app_or in K as [K|[K|[]]]; [exact (no_cr _ A K)|discriminate].
Qed.
Lemma doc_no_cr : forall blog d, forallb (block_ok blog) d = true -> ~ In 13 (wr_doc d).
Proof.
  intros blog. induction d as [|b d IH]; intro H; [intros []|]. cbn [forallb] in H. apply andb_true_iff in H as [H1 H2]. rewrite wr_doc_cons.
  intro K. apply in_app_or in K as [K|K]; [exact (block_no_cr blog b H1 K)|]. destruct d as [|b2 d]; [destruct K|]. unfold after in K. apply in_app_or in K as [[K|[K|[]]]|K]; [discriminate|discriminate|exact (IH H2 K)].
Qed.
Lemma norm_id : forall t, ~ In 13 t -> norm_newlines t = t.
Proof.
  intros t H. unfold norm_newlines.
  assert (A : replace [13; 10] [10] t = t).
  { unfold replace. induction t as [|x t IH]; [reflexivity|]. cbn [replace_go startswith]. destruct (N.eqb_spec 13 x) as [<-|]; [exfalso; apply H; left; reflexivity|].
    cbn [andb]. f_equal. apply IH. intro K. apply H. right. exact K. }
  rewrite A. rewrite replace_single. clear A. induction t as [|x t IH]; [reflexivity|]. cbn [flat_map]. unfold sub1 at 1.
  destruct (N.eqb_spec 13 x) as [<-|]; [exfalso; apply H; left; reflexivity|]. cbn [app]. f_equal. apply IH. intro K. apply H. right. exact K.
Qed.

Theorem document_spec : forall blog v s md d, doc_ok blog d = true ->
  creole2html (mkopts blog v s) md (wr_doc d) = (Ok (html_doc blog s d), md).
Proof.
  intros blog v s md d H. destruct d as [|b d].
  - destruct md as [e t l]. destruct blog, v, t; reflexivity.
  - unfold creole2html. cbn [o_blog o_verbose o_strict]. unfold parse. 
    pose proof H as H'. unfold doc_ok in H'. apply andb_true_iff in H' as [H1 _]. rewrite norm_id by (eapply doc_no_cr; exact H1).
    set (c := mkcfg (match v with None => 1%Z | Some v => v end) s (md_env md) false).
    destruct (doc_run c eq_refl blog b d H) as (s' & Hs & E). rewrite E.
    destruct (docst_emit c s' _ (mkest (md_toc md) (md_log md)) Hs) as (root & -> & Er). cbn [init_toc existsb]. fold c. unfold emit. rewrite Er.
    change (use_toc c) with false. cbv iota beta. cbn [toc log]. rewrite raws_html. rewrite strip_solid.
    + destruct md. reflexivity.
    + apply html_doc_solid. discriminate.
    + unfold last_nl. destruct (rev (b :: d)) as [|[] r]; auto.
Qed.
