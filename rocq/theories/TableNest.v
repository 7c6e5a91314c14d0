(** * Tables inside of tables (C102) *)
From Coq Require Import String List Arith NArith ZArith Bool Lia.
From Verif Require Import PyStr PyStrFacts GNames Regex RegexFacts Rules Utils Res HtmlTools HtmlToolsFacts HtmlTok HtmlParser MarkupTable HtmlBase Html2X.
From Verif Require Import Safety TreeFacts EmitFacts Spec2 Spec10 StripRun TokRun CleanRun CleanEmit Spec11 Spec52.
Import ListNotations.
Open Scope N_scope.

(** ** The page is parsed *)
Fixpoint D (n : nat) : dom :=
  match n with O => DText ($ "x") | S m => DElem ($ "table") [] [DElem ($ "tr") [] [DElem ($ "td") [] [D m]]] end.
Lemma D_text : forall n, show_doms [D n] = nested n.
Proof.
  induction n as [|n IH]; [reflexivity|]. unfold show_doms in *. cbn [flat_map] in *. rewrite app_nil_r in *. cbn [D show_dom flat_map show_attrs nested].
  rewrite IH. rewrite !app_nil_r. cbn. rewrite <- !app_assoc. reflexivity.
Qed.
Lemma D_wf : forall n, dom_wf (D n) = true.
Proof. induction n as [|n IH]; [reflexivity|]. cbn [D dom_wf forallb]. rewrite IH. destruct n; reflexivity. Qed.
Lemma D_ok : forall n, dom_ok [] true (D n).
Proof.
  induction n as [|n IH]; [apply ok_text|]. cbn [D].
  repeat first [ exact IH | apply Forall_nil | apply Forall_cons | apply ok_elem; [discriminate|discriminate|discriminate|intro; reflexivity|] ].
Qed.
Lemma nested_dense : forall n, forallb (fun c => negb (is_space c)) (nested n) = true.
Proof. induction n as [|n IH]; [reflexivity|]. cbn [nested]. rewrite !forallb_app. apply andb_true_iff; split; [reflexivity|]. apply andb_true_iff; split; [exact IH | reflexivity]. Qed.
Lemma dense_strip_html : forall s, forallb (fun c => negb (is_space c)) s = true -> strip_html s = s.
Proof.
  intros s H. unfold strip_html. unfold strip at 2. rewrite (strip_by_clean _ s H).
  assert (E : split_on 10 s = [s]).
  { clear -H. induction s as [|c s IH]; [reflexivity|]. cbn [forallb] in H. apply andb_true_iff in H as [H1 H2]. cbn [split_on].
    destruct (N.eqb_spec c 10) as [->|_]; [discriminate|]. rewrite (IH H2). reflexivity. }
  rewrite E. cbn [map join]. unfold strip at 1. rewrite (strip_by_clean _ s H). unfold resub.
  pose proof (scan_partition (List.length s) strip_html_re [] s (le_n _)) as P. rewrite <- P in H. rewrite <- P at 2. clear P E.
  induction (scan strip_html_re 0 [] s) as [|[c|x] l IH]; [reflexivity| |]; cbn [flat_map piece_txt] in *; rewrite forallb_app in H; apply andb_true_iff in H as [H1 H2].
  - rewrite (IH H2). reflexivity.
  - rewrite (IH H2). f_equal. unfold strip_tag. unfold strip. rewrite (strip_by_clean _ _ H1).
    destruct (in_list _ _); [reflexivity|].
    assert (S1 : startswith [32] (mtxt x) = false). { destruct (mtxt x) as [|d t]; [reflexivity|]. cbn [startswith]. destruct (N.eqb_spec 32 d) as [<-|_]; [discriminate H1 | reflexivity]. }
    assert (S2 : endswith [32] (mtxt x) = false).
    { destruct (endswith [32] (mtxt x)) eqn:E; [|reflexivity]. unfold endswith in E. cbn [rev app] in E. pose proof H1 as Q. rewrite forallb_forall in Q.
      destruct (rev (mtxt x)) as [|d t] eqn:R; [discriminate|]. cbn [startswith] in E. apply andb_true_iff in E as [E _]. apply N.eqb_eq in E. subst d.
      assert (In 32 (mtxt x)) by (apply in_rev; rewrite R; left; reflexivity). specialize (Q 32 H). discriminate. }
    rewrite S1, S2. cbn [orb]. destruct (str_eqb _ _); [reflexivity|]. destruct (str_eqb _ _); reflexivity.
Qed.
Lemma nested_no_pre : forall n a b, nested n <> a ++ $ "<pre>" ++ b.
Proof.
  intros n a b E. assert (forallb (fun c => negb (c =? 112)) (nested n) = true) as H.
  { clear. induction n as [|n IH]; [reflexivity|]. cbn [nested]. rewrite !forallb_app. apply andb_true_iff; split; [reflexivity|]. apply andb_true_iff; split; [exact IH | reflexivity]. }
  rewrite E, !forallb_app in H. apply andb_true_iff in H as [_ H]. discriminate.
Qed.
Fixpoint tree (n : nat) : hnode :=
  match n with
  | O => HN ($ "data") (Some ($ "x")) [] None []
  | S m => HN ($ "table") None [] None [HN ($ "tr") None [] None [HN ($ "td") None [] None [tree m]]]
  end.
Lemma D_tree : forall n, dom_tree [] 0 (D n) = [tree n].
Proof. induction n as [|n IH]; [reflexivity|]. cbn [D dom_tree flat_map]. rewrite IH. reflexivity. Qed.
Lemma nested_parse : forall n, parse_html (nested n) = Ok (HN ($ "document") None [] None [tree n]).
Proof.
  intro n. unfold parse_html, feed. rewrite preprocess_plain by (apply nested_no_pre). cbn [bind]. rewrite (dense_strip_html _ (nested_dense n)).
  unfold feed_tokens. rewrite <- D_text. rewrite document_run; [|cbn [forallb]; rewrite D_wf; reflexivity|destruct n; reflexivity].
  destruct (tree_of_dom [] [D n] (Forall_cons _ (D_ok n) (Forall_nil _))) as (h & H1 & H2 & _). rewrite H1. cbn [bind]. rewrite H2. cbn [flat_map].
  rewrite D_tree. reflexivity.
Qed.

(** ** The table that is written *)
Section Nest.
  Variables (ms : methods) (u : unknown) (pre : list str -> est -> str * est) (hp : str) (aw : bool) (markup : mtable -> str) (ct : str -> str).
  Definition fresh_table (rows : list str) : mtable := mkt hp aw [rows] false.
  Fixpoint run (n : nat) : list str * str :=
    match n with O => ([], $ "x") | S m => let c := fst (run m) ++ [ct (snd (run m))] in (c, markup (fresh_table c)) end.
  Definition table_like (m : meth) : Prop := forall ni kids s,
    m ni kids s = bind (kids (set_tbl (new_table hp aw) s)) (fun x => Ok (markup (the_table (snd x)), snd x)).
  Definition cell_like (m : meth) : Prop := forall ni kids s,
    m ni kids s = bind (kids s) (fun x => match tbl (snd x) with None => Exc EAttributeError | Some t => Ok ([], set_tbl (add_td (ct (fst x)) t) (snd x)) end).
  Definition data_like (m : meth) : Prop := forall k a l anc kids s, m (mkn k (Some ($ "x")) a l anc) kids s = Ok ($ "x", s).
  Hypothesis Hpre : forall anc s, subst_data s = [] -> pre anc s = ([], s).
  Variables (mt md mc : meth).
  Hypothesis Ht : find_meth ms ($ "table") = Some mt /\ table_like mt.
  Hypothesis Hr : find_meth ms ($ "tr") = Some tr_emit.
  Hypothesis Hc : find_meth ms ($ "td") = Some mc /\ cell_like mc.
  Hypothesis Hd : find_meth ms ($ "data") = Some md /\ data_like md.
  Lemma nest_run : forall n anc s, subst_data s = [] -> tbl s = Some (fresh_table []) \/ n <> O -> exists s',
    emit_node ms u pre anc (tree n) s = Ok (snd (run n), s') /\ subst_data s' = [] /\ tbl s' = Some (fresh_table (fst (run n))).
  Proof.
    induction n as [|n IH]; intros anc s S T.
    - destruct T as [T|T]; [|congruence]. cbn [tree]. rewrite emit_node_eq, (Hpre anc s S). unfold run_meth. cbn [n_kind]. rewrite (proj1 Hd), (proj2 Hd).
      cbn [bind app]. eexists. split; [reflexivity|]. split; [exact S | exact T].
    - clear T. cbn [tree]. rewrite emit_node_eq, (Hpre anc s S). unfold run_meth at 1. cbn [n_kind]. rewrite (proj1 Ht), (proj2 Ht).
      unfold kids_of at 1. cbn [emit_list]. rewrite emit_node_eq. rewrite Hpre by exact S. unfold run_meth at 1. cbn [n_kind]. rewrite Hr.
      unfold tr_emit at 1. cbn [tbl set_last set_tbl]. unfold kids_of at 1. cbn [emit_list]. rewrite emit_node_eq. rewrite Hpre by exact S.
      unfold run_meth at 1. cbn [n_kind]. rewrite (proj1 Hc), (proj2 Hc). unfold kids_of at 1. cbn [emit_list].
      match goal with |- context [emit_node ms u pre ?a (tree n) ?s0] => destruct (IH a s0) as (s1 & E & S1 & T1); [exact S | left; reflexivity | rewrite E] end.
      cbn [bind fst snd]. rewrite T1. rewrite !app_nil_r. cbn [bind snd fst app].
      eexists. split; [unfold the_table; cbn [tbl set_last set_tbl]; reflexivity|]. split; [exact S1 | reflexivity].
  Qed.
  (** the sizes *)
  Definition size (c : str) : nat := List.length (strip c).
  Definition total (l : list str) : nat := fold_right (fun c n => (size c + n)%nat) O l.
  Lemma total_app : forall a b, total (a ++ b) = (total a + total b)%nat.
  Proof. induction a as [|c a IH]; intro b; [reflexivity|]. cbn [app total fold_right]. fold (total (a ++ b)). rewrite IH. unfold total. lia. Qed.
  Variable Q : str -> Prop.
  Hypothesis Q0 : Q (ct ($ "x")) /\ size (ct ($ "x")) = 1%nat.
  Hypothesis Q1 : forall l, l <> [] -> Forall Q l -> Q (ct (markup (fresh_table l))) /\ (S (total l) <= size (ct (markup (fresh_table l))))%nat.
  Lemma run_size : forall n, Forall Q (fst (run (S n))) /\ fst (run (S n)) <> [] /\ (2 ^ n <= total (fst (run (S n))))%nat.
  Proof.
    induction n as [|n (IH1 & IH2 & IH3)].
    - cbn [run fst snd app]. destruct Q0 as [H1 H2]. split; [constructor; [exact H1 | constructor]|]. split; [discriminate|]. cbn [total fold_right]. rewrite H2. cbn. lia.
    - change (run (S (S n))) with (let c := fst (run (S n)) ++ [ct (snd (run (S n)))] in (c, markup (fresh_table c))). cbv zeta. cbn [fst].
      set (c := fst (run (S n))) in *. assert (E : snd (run (S n)) = markup (fresh_table c)) by reflexivity. rewrite E.
      destruct (Q1 c IH2 IH1) as [H1 H2]. split; [apply Forall_app; split; [exact IH1 | constructor; [exact H1 | constructor]]|].
      split; [destruct c; discriminate|]. rewrite total_app. cbn [total fold_right]. cbn [Nat.pow]. lia.
  Qed.
End Nest.

(** ** Lines and cells *)
Definition edge (c : N) : bool := (c =? 120) || (c =? 124) || (c =? 43).
Definition nice (s : str) : Prop := (exists c t, s = c :: t /\ edge c = true) /\ (exists t d, s = t ++ [d] /\ edge d = true) /\ ~ In 10 s.
Lemma edge_cases : forall c, edge c = true -> c = 120 \/ c = 124 \/ c = 43.
Proof. intros c H. unfold edge in H. rewrite !orb_true_iff, !N.eqb_eq in H. tauto. Qed.
Lemma nice_solid : forall s, nice s -> solid s = true.
Proof.
  intros s ((c & t & E1 & H1) & (t' & d & E2 & H2) & _). apply edge_cases in H1. apply edge_cases in H2.
  eapply solid_intro; [exact E1 | destruct H1 as [->|[->| ->]]; reflexivity | exact E2 | destruct H2 as [->|[->| ->]]; reflexivity].
Qed.
Lemma nice_strip : forall a s b, nice s -> forallb is_space a = true -> forallb is_space b = true -> strip (a ++ s ++ b) = s.
Proof.
  intros a s b H Ha Hb. apply nice_solid, solid_ends in H as (c & r & d & r' & E1 & K1 & E2 & K2). apply strip_around; [exact Ha | exact Hb | exists c, r; auto | exists d, r'; auto].
Qed.
Lemma nice_strip0 : forall s, nice s -> strip s = s.
Proof. intros s H. apply strip_solid, nice_solid, H. Qed.
Lemma split_plain : forall s, ~ In 10 s -> split_on 10 s = [s].
Proof.
  induction s as [|c s IH]; intro H; [reflexivity|]. cbn [split_on]. destruct (N.eqb_spec c 10) as [->|_]; [exfalso; apply H; left; reflexivity|].
  rewrite IH; [reflexivity|]. intro K. apply H. right. exact K.
Qed.
Lemma split_line : forall s t, ~ In 10 s -> split_on 10 (s ++ 10 :: t) = s :: split_on 10 t.
Proof.
  induction s as [|c s IH]; intros t H; [reflexivity|]. cbn [app split_on]. destruct (N.eqb_spec c 10) as [->|_]; [exfalso; apply H; left; reflexivity|].
  rewrite IH; [reflexivity|]. intro K. apply H. right. exact K.
Qed.
Lemma row_plain : forall s, ~ In 10 s -> one_row s = s.
Proof.
  intros s H. unfold one_row. induction s as [|c s IH]; [reflexivity|]. cbn [flat_map]. destruct (N.eqb_spec c 10) as [->|_]; [exfalso; apply H; left; reflexivity|].
  rewrite IH; [reflexivity|]. intro K. apply H. right. exact K.
Qed.
Lemma nice_not_slash : forall s, nice s -> startswith [92] s = false /\ endswith [92] s = false.
Proof.
  intros s ((c & t & E1 & H1) & (t' & d & E2 & H2) & _). apply edge_cases in H1. apply edge_cases in H2. split.
  - rewrite E1. destruct H1 as [->|[->| ->]]; reflexivity.
  - unfold endswith. rewrite E2, rev_app_distr. destruct H2 as [->|[->| ->]]; reflexivity.
Qed.
Lemma escape_tail : forall s b, solid s = true -> forallb is_space b = true -> escape_linebreaks (s ++ b) = escape_linebreaks s.
Proof.
  intros s b H Hb. unfold escape_linebreaks. rewrite (strip_solid s H). apply solid_ends in H as (c & r & d & r' & E1 & K1 & E2 & K2).
  pose proof (strip_around [] s b eq_refl Hb ltac:(exists c, r; auto) ltac:(exists d, r'; auto)) as S. cbn [app] in S. rewrite S. reflexivity.
Qed.
Lemma escape_line : forall s b, nice s -> forallb is_space b = true -> escape_linebreaks (s ++ b) = s.
Proof.
  intros s b H Hb. rewrite escape_tail by (try apply nice_solid; assumption). destruct (nice_not_slash s H) as [S1 S2].
  rewrite escaped; [apply row_plain, H | rewrite split_plain by apply H; cbn [forallb]; rewrite (nice_solid s H); reflexivity | exact S1 | exact S2].
Qed.
Lemma nice_wrap : forall a m b, nice a -> nice b -> ~ In 10 m -> nice (a ++ m ++ b).
Proof.
  intros a m b ((c & t & E1 & H1) & _ & N1) (_ & (t' & d & E2 & H2) & N2) Nm. split; [|split].
  - exists c, (t ++ m ++ b). rewrite E1. split; [reflexivity | exact H1].
  - exists (a ++ m ++ t'), d. rewrite E2, <- !app_assoc. split; [reflexivity | exact H2].
  - rewrite !in_app_iff. tauto.
Qed.
Lemma nice_one : forall c, edge c = true -> nice [c].
Proof.
  intros c H. split; [exists c, []; auto|]. split; [exists [], c; auto|]. intros [E|[]]. subst c. discriminate.
Qed.
Lemma join_In10 : forall sep l, ~ In 10 sep -> Forall (fun s : str => ~ In 10 s) l -> ~ In 10 (join sep l).
Proof.
  intros sep l Hs H K. apply join_In in K as [K|(z & Hz & K)]; [exact (Hs K)|]. rewrite Forall_forall in H. exact (H z Hz K).
Qed.
Definition wide (l : list str) : nat := fold_right (fun c n => (List.length c + n)%nat) O l.
Lemma join_wide : forall sep l, (wide l <= List.length (join sep l))%nat.
Proof.
  intros sep. induction l as [|x l IH]; [cbn; lia|]. destruct l as [|y l]; [cbn; lia|]. rewrite join_cons by discriminate.
  rewrite !app_length. change (wide (x :: y :: l)) with (List.length x + wide (y :: l))%nat. unfold str, char in *. lia.
Qed.
Definition bar (l : list str) : str := [124] ++ join [124] l ++ [124].
Lemma bar_nice : forall l, Forall (fun s : str => ~ In 10 s) l -> nice (bar l).
Proof.
  intros l H. unfold bar. apply nice_wrap; try (apply nice_one; reflexivity). apply join_In10; [intros [E|[]]; discriminate | exact H].
Qed.
Lemma bar_wide : forall l, (S (wide l) <= List.length (bar l))%nat.
Proof. intro l. unfold bar. rewrite !app_length. cbn [List.length]. pose proof (join_wide [124] l). unfold str, char in *. lia. Qed.
Lemma own_width : forall l : list str, map (fun cw : str * nat => ljust (fst cw) (snd cw)) (zip l (row_widths l)) = l.
Proof.
  unfold row_widths. induction l as [|c l IH]; [reflexivity|]. cbn [map zip fst snd]. rewrite IH. f_equal. unfold ljust. rewrite Nat.sub_diag. cbn [repeat]. apply app_nil_r.
Qed.
Lemma one_table_line : forall l : list str, table_line (row_widths l) l = bar l.
Proof. intro l. unfold table_line. rewrite own_width. reflexivity. Qed.
Definition pad (c : str) : str := [32] ++ c ++ [32].
Lemma fmt_nice : forall hp c, nice (strip c) -> (match hp with [] => True | h :: _ => edge h = false end) -> fmt_cell hp c = pad (strip c).
Proof.
  intros hp c ((a & t & E & H) & _) Hh. unfold fmt_cell. rewrite E. destruct hp as [|h hp]; [reflexivity|].
  cbn [truthy startswith andb]. destruct (N.eqb_spec h a) as [->|_]; [congruence|]. reflexivity.
Qed.
Lemma pads : forall hp l, Forall (fun c => nice (strip c)) l -> (match hp with [] => True | h :: _ => edge h = false end) ->
  map (fmt_cell hp) l = map (fun c => pad (strip c)) l.
Proof. intros hp l H Hh. induction H as [|c l Hc _ IH]; [reflexivity|]. cbn [map]. rewrite (fmt_nice hp c Hc Hh), IH. reflexivity. Qed.
Lemma pads_plain : forall l, Forall (fun c => nice (strip c)) l -> Forall (fun s : str => ~ In 10 s) (map (fun c => pad (strip c)) l).
Proof.
  intros l H. induction H as [|c l Hc _ IH]; [constructor|]. cbn [map]. constructor; [|exact IH]. destruct Hc as (_ & _ & Hc).
  unfold pad. rewrite !in_app_iff. intros [[E|[]]|[K|[E|[]]]]; [discriminate | exact (Hc K) | discriminate].
Qed.
Lemma pads_wide : forall l, (total l <= wide (map (fun c => pad (strip c)) l))%nat.
Proof.
  induction l as [|c l IH]; [cbn; lia|]. cbn [map total wide fold_right]. fold (total l). fold (wide (map (fun c => pad (strip c)) l)). unfold size, pad at 1.
  rewrite !app_length. unfold str, char in *. cbn [List.length]. lia.
Qed.
Lemma x_nice : nice ($ "x"). Proof. apply nice_one. reflexivity. Qed.

(** ** The document *)
Lemma doc_run : forall ms u pre hp aw markup ct mt md mc mdoc n,
  (forall anc s, subst_data s = [] -> pre anc s = ([], s)) ->
  find_meth ms ($ "table") = Some mt /\ table_like hp aw markup mt -> find_meth ms ($ "tr") = Some tr_emit ->
  find_meth ms ($ "td") = Some mc /\ cell_like ct mc -> find_meth ms ($ "data") = Some md /\ data_like md ->
  find_meth ms ($ "document") = Some mdoc ->
  (forall ni kids s c s1, kids s = Ok (c, s1) -> subst_data s1 = [] -> exists s2, mdoc ni kids s = Ok (c, s2)) ->
  exists s', emit_node ms u pre [] (HN ($ "document") None [] None [tree (S n)]) e_init = Ok (snd (run hp aw markup ct (S n)), s').
Proof.
  intros ms u pre hp aw markup ct mt md mc mdoc n Hpre Ht Hr Hc Hd Hdoc HD. rewrite emit_node_eq, (Hpre [] e_init eq_refl). unfold run_meth at 1. cbn [n_kind]. rewrite Hdoc.
  assert (K : exists s1, kids_of ms u pre [] ($ "document") None [tree (S n)] e_init = Ok (snd (run hp aw markup ct (S n)), s1) /\ subst_data s1 = []).
  { unfold kids_of. cbn [emit_list].
    match goal with |- context [emit_node ms u pre ?a ?t ?s0] => destruct (nest_run ms u pre hp aw markup ct Hpre mt md mc Ht Hr Hc Hd (S n) a s0) as (s1 & E & S1 & _); [reflexivity | right; discriminate | rewrite E] end.
    cbn [bind]. rewrite app_nil_r. eexists. split; [reflexivity | exact S1]. }
  destruct K as (s1 & K & S1). destruct (HD (mkn ($ "document") None [] None []) _ e_init _ s1 K S1) as (s2 & E2). rewrite E2. cbn [bind app]. eexists. reflexivity.
Qed.
Lemma run_snd : forall hp aw markup ct n, snd (run hp aw markup ct (S n)) = markup (fresh_table hp aw (fst (run hp aw markup ct (S n)))).
Proof. reflexivity. Qed.
Lemma document_like : forall (ni : ninfo) (kids : action) s c s1, kids s = Ok (c, s1) -> subst_data s1 = [] -> exists s2, document_emit ni kids s = Ok (c, s2).
Proof. intros ni kids s c s1 H _. exists s1. exact H. Qed.

(** ** creole *)
Definition c_markup (t : mtable) : str := get_table_markup t ++ [10].
Lemma creole_line : forall l, l <> [] -> Forall nice l -> get_table_markup (fresh_table ($ "= ") true l) = bar (map (fun c => pad (strip c)) l).
Proof.
  intros l _ H. unfold get_table_markup, preformat, fresh_table. cbn [auto_width rows head_prefix map widths fold_left join]. rewrite one_table_line.
  rewrite pads; [reflexivity | | reflexivity]. eapply Forall_impl; [|exact H]. intros a Ha. rewrite nice_strip0; assumption.
Qed.
Lemma nice_strips : forall l, Forall nice l -> Forall (fun c => nice (strip c)) l.
Proof. intros l H. eapply Forall_impl; [|exact H]. intros a Ha. rewrite nice_strip0; assumption. Qed.
Lemma x_cell : nice (escape_linebreaks ($ "x")) /\ size (escape_linebreaks ($ "x")) = 1%nat.
Proof. split; [apply x_nice | reflexivity]. Qed.
Lemma creole_Q1 : forall l, l <> [] -> Forall nice l -> nice (escape_linebreaks (c_markup (fresh_table ($ "= ") true l))) /\ (S (total l) <= size (escape_linebreaks (c_markup (fresh_table ($ "= ") true l))))%nat.
Proof.
  intros l Hl H. unfold c_markup. rewrite creole_line by assumption. pose proof (bar_nice _ (pads_plain l (nice_strips l H))) as N.
  rewrite escape_line by (try exact N; reflexivity). split; [exact N|]. unfold size. rewrite nice_strip0 by exact N.
  eapply Nat.le_trans; [|apply bar_wide]. apply le_n_S, pads_wide.
Qed.
Lemma nested_creole : forall u strict n, exists r, html2creole u strict (nested (S n)) = Ok r /\ (2 ^ n < List.length r)%nat.
Proof.
  intros u strict n. unfold html2creole. rewrite nested_parse. cbn [bind]. unfold emit_creole.
  destruct (doc_run (creole_methods strict) u no_pre ($ "= ") true c_markup escape_linebreaks (table_emit ($ "= ") true) data_emit (cell_emit add_td) document_emit n) as (s' & E);
    try (split; [reflexivity | intros ni kids s; cbv beta delta [table_emit cell_emit]; destruct (kids _) as [[c0 s0]|e]; reflexivity]); try reflexivity; [split; [reflexivity | intros k a lv anc kids s; reflexivity] | exact document_like |].
  rewrite E. cbn [bind]. eexists. split; [reflexivity|]. rewrite run_snd.
  destruct (run_size ($ "= ") true c_markup escape_linebreaks nice x_cell creole_Q1 n) as (Q & NE & SZ).
  set (l := fst (run ($ "= ") true c_markup escape_linebreaks (S n))) in *. unfold c_markup. rewrite creole_line by assumption.
  pose proof (bar_nice _ (pads_plain l (nice_strips l Q))) as N. pose proof (nice_strip [] _ [10] N eq_refl eq_refl) as S1. cbn [app] in S1. rewrite S1.
  pose proof (bar_wide (map (fun c => pad (strip c)) l)). pose proof (pads_wide l). lia.
Qed.

(** ** textile *)
Lemma nice_total : forall l, Forall nice l -> total l = wide l.
Proof.
  intros l H. induction H as [|c l Hc _ IH]; [reflexivity|]. cbn [total wide fold_right]. fold (total l) (wide l). rewrite IH. unfold size. rewrite nice_strip0 by exact Hc. reflexivity.
Qed.
Lemma nice_plain : forall l, Forall nice l -> Forall (fun s : str => ~ In 10 s) l.
Proof. intros l H. eapply Forall_impl; [|exact H]. intros a Ha. apply Ha. Qed.
Lemma textile_Q1 : forall l, l <> [] -> Forall nice l -> nice (escape_linebreaks (c_markup (fresh_table ($ "_. ") false l))) /\ (S (total l) <= size (escape_linebreaks (c_markup (fresh_table ($ "_. ") false l))))%nat.
Proof.
  intros l Hl H. unfold c_markup. change (get_table_markup (fresh_table ($ "_. ") false l)) with (bar l). pose proof (bar_nice _ (nice_plain l H)) as N.
  rewrite escape_line by (try exact N; reflexivity). split; [exact N|]. unfold size. rewrite nice_strip0 by exact N.
  rewrite nice_total by exact H. apply bar_wide.
Qed.
Lemma nested_textile : forall u n, exists r, html2textile u (nested (S n)) = Ok r /\ (2 ^ n < List.length r)%nat.
Proof.
  intros u n. unfold html2textile. rewrite nested_parse. cbn [bind]. unfold emit_textile.
  destruct (doc_run textile_methods u no_pre ($ "_. ") false c_markup escape_linebreaks (table_emit ($ "_. ") false) data_emit (cell_emit add_td) document_emit n) as (s' & E);
    try (split; [reflexivity | intros ni kids s; cbv beta delta [table_emit cell_emit]; destruct (kids _) as [[c0 s0]|e]; reflexivity]); try reflexivity; [split; [reflexivity | intros k a lv anc kids s; reflexivity] | exact document_like |].
  rewrite E. cbn [bind]. eexists. split; [reflexivity|]. rewrite run_snd.
  destruct (run_size ($ "_. ") false c_markup escape_linebreaks nice x_cell textile_Q1 n) as (Q & NE & SZ).
  set (l := fst (run ($ "_. ") false c_markup escape_linebreaks (S n))) in *. unfold c_markup. change (get_table_markup (fresh_table ($ "_. ") false l)) with (bar l).
  pose proof (bar_nice _ (nice_plain l Q)) as N. pose proof (nice_strip [] _ [10] N eq_refl eq_refl) as S1. cbn [app] in S1. rewrite S1.
  pose proof (bar_wide l). rewrite nice_total in SZ by exact Q. lia.
Qed.

(** ** markdown *)
Definition m_markup (t : mtable) : str := [10] ++ get_markdown_table t ++ [10].
Lemma markdown_line : forall l, Forall (fun c => nice (strip c)) l -> get_markdown_table (fresh_table [] true l) = bar (map (fun c => pad (strip c)) l).
Proof.
  intros l H. unfold get_markdown_table, preformat, fresh_table. cbn [has_header rows head_prefix map widths fold_left md_lines Nat.eqb andb app join]. rewrite one_table_line.
  rewrite pads; [reflexivity | exact H | exact I].
Qed.
Lemma markdown_Q1 : forall l, l <> [] -> Forall (fun c => nice (strip c)) l -> nice (strip (m_markup (fresh_table [] true l))) /\ (S (total l) <= size (m_markup (fresh_table [] true l)))%nat.
Proof.
  intros l Hl H. unfold m_markup, size. rewrite markdown_line by exact H. pose proof (bar_nice _ (pads_plain l H)) as N.
  pose proof (nice_strip [10] _ [10] N eq_refl eq_refl) as S1. match type of S1 with ?a = ?b => match goal with |- nice (strip ?x) /\ _ => change (strip x) with a end end.
  rewrite S1. split; [exact N|]. eapply Nat.le_trans; [|apply bar_wide]. apply le_n_S, pads_wide.
Qed.
Lemma nested_markdown : forall u n, exists r, html2markdown u (nested (S n)) = Ok r /\ (2 ^ n < List.length r)%nat.
Proof.
  intros u n. unfold html2markdown. rewrite nested_parse. cbn [bind]. unfold emit_markdown.
  destruct (doc_run markdown_methods u no_pre [] true m_markup (fun c => c) m_table m_data (m_cell add_td) document_emit n) as (s' & E);
    try (split; [reflexivity | intros ni kids s; cbv beta delta [m_table m_cell]; destruct (kids _) as [[c0 s0]|e]; reflexivity]); try reflexivity; [split; [reflexivity | intros k a lv anc kids s; reflexivity] | exact document_like |].
  rewrite E. cbn [bind]. eexists. split; [reflexivity|]. rewrite run_snd.
  destruct (run_size [] true m_markup (fun c => c) (fun c => nice (strip c)) (conj x_nice eq_refl) markdown_Q1 n) as (Q & NE & SZ).
  set (l := fst (run [] true m_markup (fun c => c) (S n))) in *. unfold m_markup. rewrite markdown_line by exact Q.
  pose proof (bar_nice _ (pads_plain l Q)) as N. pose proof (nice_strip [10] _ [10] N eq_refl eq_refl) as S1.
  match type of S1 with ?a = ?b => match goal with |- context [strip ?x] => change (strip x) with a end end. rewrite S1.
  pose proof (bar_wide (map (fun c => pad (strip c)) l)). pose proof (pads_wide l). lia.
Qed.

(** ** rest *)
Definition r_markup (t : mtable) : str := get_rest_table t ++ [10; 10].
Lemma sep_nice : forall ws, nice (rest_sep 45 ws).
Proof.
  intro ws. unfold rest_sep. apply nice_wrap; try (apply nice_one; reflexivity). apply join_In10; [intros [E|[]]; discriminate|].
  apply Forall_forall. intros s Hs. apply in_map_iff in Hs as (w & <- & _). intro K. apply repeat_spec in K. discriminate.
Qed.
Definition three (sp b : str) : str := sp ++ [10] ++ b ++ [10] ++ sp.
Lemma rest_three : forall l, Forall nice l -> exists sp, nice sp /\ get_rest_table (fresh_table [] true l) = three sp (bar (map (fun c => pad (strip c)) l)).
Proof.
  intros l H. unfold get_rest_table, preformat, fresh_table. cbn [has_header rows head_prefix map widths fold_left rest_lines Nat.eqb andb app]. rewrite one_table_line.
  rewrite pads; [|apply nice_strips, H | exact I]. eexists. split; [|unfold three; rewrite join_cons by discriminate; rewrite join_cons by discriminate; cbn [join]; reflexivity]. apply sep_nice.
Qed.
Lemma three_solid : forall sp b, nice sp -> solid (three sp b) = true.
Proof.
  intros sp b ((c & t & E1 & H1) & (t' & d & E2 & H2) & _). apply edge_cases in H1. apply edge_cases in H2.
  apply (solid_intro (three sp b) c (t ++ [10] ++ b ++ [10] ++ sp) d (sp ++ [10] ++ b ++ [10] ++ t')).
  - unfold three. rewrite E1 at 1. reflexivity.
  - destruct H1 as [->|[->| ->]]; reflexivity.
  - unfold three. rewrite E2 at 2. rewrite <- !app_assoc. reflexivity.
  - destruct H2 as [->|[->| ->]]; reflexivity.
Qed.
Lemma three_row : forall sp b, nice sp -> nice b -> escape_linebreaks (three sp b ++ [10; 10]) = sp ++ [92; 92] ++ b ++ [92; 92] ++ sp.
Proof.
  intros sp b H1 H2. rewrite escape_tail by (try apply three_solid; try assumption; reflexivity). rewrite escaped.
  - unfold three, one_row. rewrite !flat_map_app. fold (one_row sp) (one_row b). rewrite (row_plain sp) by apply H1. rewrite (row_plain b) by apply H2. reflexivity.
  - unfold three. cbn [app]. rewrite split_line by apply H1. rewrite split_line by apply H2. rewrite split_plain by apply H1. cbn [forallb]. rewrite !nice_solid by assumption. reflexivity.
  - destruct H1 as ((c & t & E1 & H1) & _). unfold three. rewrite E1. apply edge_cases in H1. destruct H1 as [->|[->| ->]]; reflexivity.
  - destruct H1 as (_ & (t' & d & E1 & H1) & _). unfold three, endswith. rewrite !rev_app_distr. rewrite E1 at 1. rewrite rev_app_distr. apply edge_cases in H1. destruct H1 as [->|[->| ->]]; reflexivity.
Qed.
Lemma rest_Q1 : forall l, l <> [] -> Forall nice l -> nice (escape_linebreaks (r_markup (fresh_table [] true l))) /\ (S (total l) <= size (escape_linebreaks (r_markup (fresh_table [] true l))))%nat.
Proof.
  intros l Hl H. unfold r_markup. destruct (rest_three l H) as (sp & N & E). rewrite E. pose proof (bar_nice _ (pads_plain l (nice_strips l H))) as NB.
  rewrite three_row by assumption. assert (Q : nice (sp ++ [92; 92] ++ bar (map (fun c => pad (strip c)) l) ++ [92; 92] ++ sp)).
  { rewrite !app_assoc. rewrite <- app_assoc with (l := sp). rewrite <- !app_assoc. rewrite (app_assoc [92; 92]), (app_assoc _ [92; 92]). apply nice_wrap; [exact N | exact N|].
    rewrite !in_app_iff. intros [[[E1|[E1|[]]]|K]|[E1|[E1|[]]]]; try discriminate. apply NB in K. exact K. }
  split; [exact Q|]. unfold size. rewrite nice_strip0 by exact Q. rewrite !app_length. pose proof (bar_wide (map (fun c => pad (strip c)) l)). pose proof (pads_wide l). unfold str, char in *. lia.
Qed.
Lemma rstrip_tail : forall s b, solid s = true -> forallb is_space b = true -> rstrip (s ++ b) = s.
Proof.
  intros s b H Hb. apply solid_ends in H as (c & r & d & r' & E1 & K1 & E2 & K2).
  pose proof (strip_around [] s b eq_refl Hb ltac:(exists c, r; auto) ltac:(exists d, r'; auto)) as S. cbn [app] in S. rewrite <- S at 2.
  unfold strip, strip_by, rstrip, lstrip_by. rewrite E1. cbn [app drop_while]. rewrite K1. reflexivity.
Qed.
Lemma nested_rest : forall u n, exists r, html2rest u (nested (S n)) = Ok r /\ (2 ^ n < List.length r)%nat.
Proof.
  intros u n. unfold html2rest. rewrite nested_parse. cbn [bind]. unfold emit_rest.
  destruct (doc_run rest_methods u rest_pre [] true r_markup escape_linebreaks r_table data_emit (cell_emit add_td) r_document n) as (s' & E);
    try (split; [reflexivity | intros ni kids s; cbv beta delta [r_table cell_emit]; destruct (kids _) as [[c0 s0]|e]; reflexivity]); try reflexivity; [| split; [reflexivity | intros k a lv anc kids s; reflexivity] | |].
  - intros anc s H. unfold rest_pre. rewrite H. reflexivity.
  - intros ni kids s c s1 K S1. unfold r_document. rewrite K. cbn [bind]. rewrite S1. eexists. reflexivity.
  - rewrite E. cbn [bind]. eexists. split; [reflexivity|]. rewrite run_snd.
    destruct (run_size [] true r_markup escape_linebreaks nice x_cell rest_Q1 n) as (Q & NE & SZ).
    set (l := fst (run [] true r_markup escape_linebreaks (S n))) in *. unfold r_markup. destruct (rest_three l Q) as (sp & N & E1). rewrite E1.
    pose proof (bar_nice _ (pads_plain l (nice_strips l Q))) as NB. pose proof (three_solid sp (bar (map (fun c => pad (strip c)) l)) N) as T.
    rewrite rstrip_tail by (try exact T; reflexivity). unfold three. rewrite !app_length. pose proof (bar_wide (map (fun c => pad (strip c)) l)). pose proof (pads_wide l). unfold str, char in *. lia.
Qed.

(** ** No polynomial bounds the results *)
Lemma nested_length : forall n, List.length (nested n) = (33 * n + 1)%nat.
Proof. induction n as [|n IH]; [reflexivity|]. cbn [nested]. rewrite !app_length, IH. cbn [List.length]. unfold str, char in *. cbn. lia. Qed.
Lemma beats : forall c k : nat, exists n, (c * (33 * S n + 1) ^ k < 2 ^ n)%nat.
Proof.
  intros c k. set (j := (c + 13 * k)%nat). exists (2 ^ (2 * j))%nat.
  assert (J : forall m, (m < 2 ^ m)%nat) by (intro m; apply Nat.pow_gt_lin_r; lia).
  assert (A : (33 * S (2 ^ (2 * j)) + 1 <= 2 ^ (7 + 2 * j))%nat).
  { rewrite Nat.pow_add_r. change (2 ^ 7)%nat with 128%nat. pose proof (J (2 * j)%nat). lia. }
  assert (B : (c + (7 + 2 * j) * k <= 2 ^ (2 * j))%nat).
  { replace (2 * j)%nat with (j + j)%nat by lia. rewrite Nat.pow_add_r. pose proof (J j) as H. assert (S j * S j <= 2 ^ j * 2 ^ j)%nat by (apply Nat.mul_le_mono; lia).
    assert (c + (7 + (j + j)) * k <= S j * S j)%nat; [|lia]. clear. unfold j. nia. }
  apply Nat.le_lt_trans with (c * 2 ^ ((7 + 2 * j) * k))%nat.
  - apply Nat.mul_le_mono_l. rewrite (Nat.pow_mul_r 2 (7 + 2 * j) k). apply Nat.pow_le_mono_l. exact A.
  - apply Nat.lt_le_trans with (2 ^ c * 2 ^ ((7 + 2 * j) * k))%nat.
    + apply Nat.mul_lt_mono_pos_r; [|apply J]. pose proof (Nat.pow_nonzero 2 ((7 + 2 * j) * k) ltac:(lia)). lia.
    + rewrite <- Nat.pow_add_r. apply Nat.pow_le_mono_r; [lia | exact B].
Qed.
Lemma nested_all : forall u strict n,
  exists c t m r, html2creole u strict (nested (S n)) = Ok c /\ html2textile u (nested (S n)) = Ok t /\ html2markdown u (nested (S n)) = Ok m /\ html2rest u (nested (S n)) = Ok r /\
    (2 ^ n < List.length c /\ 2 ^ n < List.length t /\ 2 ^ n < List.length m /\ 2 ^ n < List.length r)%nat.
Proof.
  intros u strict n. destruct (nested_creole u strict n) as (c & C1 & C2), (nested_textile u n) as (t & T1 & T2), (nested_markdown u n) as (m & M1 & M2), (nested_rest u n) as (r & R1 & R2).
  exists c, t, m, r. auto 10.
Qed.
Lemma nested_size : forall u strict c k, exists html a t m r,
  html2creole u strict html = Ok a /\ html2textile u html = Ok t /\ html2markdown u html = Ok m /\ html2rest u html = Ok r /\
  Forall (fun res => (c * List.length html ^ k < List.length res)%nat) [a; t; m; r].
Proof.
  intros u strict c k. destruct (beats c k) as (n & B). destruct (nested_all u strict n) as (a & t & m & r & E1 & E2 & E3 & E4 & L1 & L2 & L3 & L4).
  exists (nested (S n)), a, t, m, r. rewrite nested_length. repeat split; try assumption. repeat constructor; lia.
Qed.
