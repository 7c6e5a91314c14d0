(** * creole/setup_utils.py: proofs *)
From Coq Require Import String List Arith NArith ZArith Bool Lia.
From Verif Require Import PyStr PyStrFacts Utils Res HtmlEmitter HtmlBase Html2X SetupUtils Spec4 Spec8 NumFacts InlineRun InlineParse.
Import ListNotations.
Open Scope N_scope.

Lemma no_char_char : forall l c s, no_char l (c :: s) = true -> ~ In c l /\ no_char l s = true.
Proof.
  intros l c s H. split; [|unfold no_char in *; cbn [forallb] in H; apply andb_true_iff in H; apply H].
  intro Hi. apply (no_char_In _ _ c H); [left; reflexivity|exact Hi].
Qed.
Lemma universal_id : forall s, no_char [13] s = true -> universal s = s.
Proof.
  induction s as [|c s IH]; intro H; [reflexivity|]. apply no_char_char in H as [Hc H].
  assert (E : universal (c :: s) = c :: universal s).
  { destruct c as [|p]; [reflexivity|]. do 4 (try (destruct p as [p|p|]; try reflexivity)). exfalso. apply Hc. left. reflexivity. }
  rewrite E, IH by exact H. reflexivity.
Qed.
Lemma universal_app : forall s r, no_char [13] s = true -> universal (s ++ r) = s ++ universal r.
Proof.
  induction s as [|c s IH]; intros r H; [reflexivity|]. apply no_char_char in H as [Hc H].
  assert (E : universal ((c :: s) ++ r) = c :: universal (s ++ r)).
  { cbn [app]. destruct c as [|p]; [reflexivity|]. do 4 (try (destruct p as [p|p|]; try reflexivity)). exfalso. apply Hc. left. reflexivity. }
  rewrite E, IH by exact H. reflexivity.
Qed.
Lemma no_char_appb : forall l a b, no_char l (a ++ b) = no_char l a && no_char l b.
Proof. intros. unfold no_char. apply forallb_app. Qed.
Lemma no_char_rev : forall l s, no_char l s = true -> no_char l (rev s) = true.
Proof.
  intros l s H. unfold no_char in *. rewrite forallb_forall in *. intros x Hx. apply H. apply in_rev. exact Hx.
Qed.
(** ** the note *)
Lemma cut_back_step : forall n a b, ~ In 10 a -> cut_back (S n) (a ++ 10 :: b) = cut_back n b.
Proof. intros n a b H. cbn [cut_back]. rewrite split1_at by exact H. reflexivity. Qed.
Lemma rsplit_with_note : forall mtime rest name, no_char [10; 13] mtime = true -> no_char [10; 13] name = true ->
  rsplit_head 4 (with_note mtime rest name) = rest.
Proof.
  intros mtime rest name Hm Hn. unfold rsplit_head, with_note.
  assert (N : ~ In 10 (rev (note mtime name))).
  { rewrite <- in_rev. unfold note. rewrite !in_app_iff. intros [H|[H|[H|[H|H]]]].
    - revert H. vm_compute. intuition discriminate.
    - apply (no_char_In _ _ _ Hn H). left. reflexivity.
    - destruct H as [H|[]]. discriminate.
    - apply (no_char_In _ _ _ Hm H). left. reflexivity.
    - revert H. vm_compute. intuition discriminate. }
  rewrite !rev_app_distr. rewrite <- !app_assoc.
  replace (rev (note mtime name) ++ rev [10; 10] ++ rev ($ "------------") ++ rev [10; 10] ++ rev rest)
    with (rev (note mtime name) ++ 10 :: [] ++ 10 :: ($ "------------") ++ 10 :: [] ++ 10 :: rev rest) by reflexivity.
  rewrite cut_back_step by exact N. rewrite cut_back_step by (intros []). rewrite cut_back_step by (vm_compute; intuition discriminate). rewrite cut_back_step by (intros []).
  cbn [cut_back]. apply rev_involutive.
Qed.
Lemma with_note_clean : forall mtime rest name, no_char [13] rest = true -> no_char [10; 13] mtime = true -> no_char [10; 13] name = true ->
  no_char [13] (with_note mtime rest name) = true.
Proof.
  intros mtime rest name Hr Hm Hn. unfold with_note, note. rewrite !no_char_appb, Hr.
  assert (I : incl [13] [10; 13]) by (intros x [<-|[]]; right; left; reflexivity).
  rewrite (no_char_incl [10; 13] [13] name I Hn), (no_char_incl [10; 13] [13] mtime I Hm). reflexivity.
Qed.
Lemma with_note_ne : forall mtime rest name, truthy (with_note mtime rest name) = true.
Proof. intros. unfold with_note. destruct rest; reflexivity. Qed.
Lemma check_with_note : forall d target mtime rest name, no_char [13] rest = true -> no_char [10; 13] mtime = true -> no_char [10; 13] name = true ->
  d target = Some (with_note mtime rest name) -> check d target rest = SOk tt.
Proof.
  intros d target mtime rest name Hr Hm Hn E. unfold check, read_text. rewrite E. cbn [option_map]. rewrite universal_id by (apply with_note_clean; assumption).
  rewrite with_note_ne. cbn [negb]. rewrite rsplit_with_note by assumption. rewrite (proj2 (str_eqb_eq rest rest) eq_refl). reflexivity.
Qed.
Lemma write_same : forall d n t, write_file d n t n = Some t.
Proof. intros. unfold write_file. rewrite (proj2 (str_eqb_eq n n) eq_refl). reflexivity. Qed.
Lemma write_other : forall d n t m, m <> n -> write_file d n t m = d m.
Proof. intros d n t m H. unfold write_file. rewrite (proj2 (str_eqb_neq m n) H). reflexivity. Qed.
(** ** names *)
Definition stem (name : str) : str :=
  match split1 46 (rev name) with Some (ext, base) => if truthy ext && truthy base then rev base else name | None => name end.
Lemma with_suffix_stem : forall name s, with_suffix name s = stem name ++ s.
Proof. intros. unfold with_suffix, stem. destruct (split1 46 (rev name)) as [[e b]|]; [|reflexivity]. destruct (truthy e && truthy b); reflexivity. Qed.
Lemma html_md : forall name, with_suffix name ($ ".html") <> with_suffix name ($ ".md").
Proof. intros name H. rewrite !with_suffix_stem in H. apply app_inv_head in H. discriminate. Qed.
(** ** update_rst *)
Lemma update_rst_cases : forall renders mtime d name r d', update_rst renders mtime d name = (SOk r, d') ->
  exists rest old, generate_rst renders d name = SOk rest /\ read_text d (with_suffix name ($ ".rst")) = Some old /\ r = changed rest old /\
    d' = if changed rest old then write_file d (with_suffix name ($ ".rst")) (with_note mtime rest name) else d.
Proof.
  intros renders mtime d name r d' H. unfold update_rst in H. destruct (d name); [|discriminate]. destruct (generate_rst renders d name) as [rest|e]; [|discriminate].
  destruct (read_text d (with_suffix name ($ ".rst"))) as [old|]; [|discriminate]. exists rest, old. destruct (changed rest old); injection H as <- <-; auto.
Qed.
Lemma generate_rst_ext : forall renders d d' name, d' name = d name -> generate_rst renders d' name = generate_rst renders d name.
Proof. intros. unfold generate_rst, read_text. rewrite H. reflexivity. Qed.
Lemma lemma_C42 : forall renders mtime d name d' rest,
  update_rst renders mtime d name = (SOk true, d') -> generate_rst renders d name = SOk rest ->
  with_suffix name ($ ".rst") <> name -> no_char [13] rest = true -> no_char [10; 13] mtime = true -> no_char [10; 13] name = true ->
  assert_rst renders d' name = (SOk tt, d').
Proof.
  intros renders mtime d name d' rest H G Ht Hr Hm Hn. apply update_rst_cases in H as (rest' & old & G' & E & Hc & ->). rewrite G in G'. injection G' as <-. rewrite <- Hc.
  unfold assert_rst. rewrite (generate_rst_ext renders d) by (apply write_other; congruence). rewrite G. f_equal.
  apply (check_with_note _ _ mtime rest name Hr Hm Hn). apply write_same.
Qed.
Lemma differ_spec : forall a b, differ a b = false <-> forall i x y, nth_error a i = Some x -> nth_error b i = Some y -> rstrip x = rstrip y.
Proof.
  induction a as [|x a IH]; intros [|y b]; cbn [differ].
  - split; [|reflexivity]. intros _ [|i] ? ?; discriminate.
  - split; [|reflexivity]. intros _ [|i] ? ?; discriminate.
  - split; [|reflexivity]. intros _ [|i] ? ?; discriminate.
  - destruct (str_eqb (rstrip x) (rstrip y)) eqn:E.
    + rewrite IH. apply str_eqb_eq in E. split.
      * intros H [|i] u v Hu Hv; [injection Hu as <-; injection Hv as <-; exact E|exact (H i u v Hu Hv)].
      * intros H i u v Hu Hv. exact (H (S i) u v Hu Hv).
    + split; [discriminate|]. intro H. apply str_eqb_neq in E. exfalso. apply E. exact (H O x y eq_refl eq_refl).
Qed.
(** ** the second update *)
Lemma is_linebreak_10 : is_linebreak 10 = true.
Proof. reflexivity. Qed.
Lemma rstrip_nl : forall a : list char, rstrip (a ++ [10]) = rstrip a.
Proof. intro a. apply (rstrip_app_all is_space a [10]). reflexivity. Qed.
Lemma same_line : forall cur, str_eqb (rstrip (rev cur)) (rstrip (rev (10 :: cur))) = true.
Proof. intro cur. apply str_eqb_eq. symmetry. exact (rstrip_nl (rev cur)). Qed.
Lemma differ_lines : forall s cur Y, only_newlines s = true -> differ (splitlines_go cur s) (file_lines_go cur (s ++ 10 :: Y)) = false.
Proof.
  induction s as [|c s IH]; intros cur Y H.
  - cbn [app splitlines_go file_lines_go]. destruct cur as [|x cur]; [reflexivity|]. change (10 =? 10) with true. cbv iota. cbn [differ].
    match goal with |- (if ?b then _ else _) = _ => replace b with true by (symmetry; exact (same_line (x :: cur))) end. reflexivity.
  - cbn [only_newlines forallb] in H. apply andb_true_iff in H as [Hc H]. cbn [app splitlines_go file_lines_go]. destruct (N.eqb_spec c 10) as [->|Hn].
    + rewrite is_linebreak_10. cbn [differ].
      match goal with |- (if ?b then _ else _) = _ => replace b with true by (symmetry; exact (same_line cur)) end. apply IH. exact H.
    + cbn [orb] in Hc. apply negb_true_iff in Hc. rewrite Hc. apply IH. exact H.
Qed.
Lemma only_newlines_cr : forall s, only_newlines s = true -> no_char [13] s = true.
Proof.
  intros s H. unfold only_newlines, no_char in *. rewrite forallb_forall in *. intros c Hc. specialize (H c Hc). cbn [existsb]. destruct (N.eqb_spec 13 c); [subst c; discriminate|].
  apply negb_true_iff. rewrite orb_false_r. apply N.eqb_neq. auto.
Qed.
Lemma changed_with_note : forall mtime rest name, only_newlines rest = true -> changed rest (universal (with_note mtime rest name)) = false.
Proof.
  intros mtime rest name H. unfold with_note, changed, splitlines, file_lines. rewrite universal_app by (apply only_newlines_cr; exact H).
  apply differ_lines. exact H.
Qed.
Lemma lemma_idempotent : forall renders mtime mtime' d name d' rest,
  update_rst renders mtime d name = (SOk true, d') -> generate_rst renders d name = SOk rest ->
  with_suffix name ($ ".rst") <> name -> only_newlines rest = true ->
  update_rst renders mtime' d' name = (SOk false, d').
Proof.
  intros renders mtime mtime' d name d' rest H G Ht Hr. pose proof H as H0. apply update_rst_cases in H as (rest' & old & G' & E & Hc & Ed). rewrite G in G'. injection G' as <-. rewrite <- Hc in Ed.
  assert (Dn : d' name = d name) by (subst d'; apply write_other; congruence).
  unfold update_rst. rewrite (generate_rst_ext renders d d' name Dn), G, Dn. unfold update_rst in H0. destruct (d name); [|discriminate].
  unfold read_text. rewrite Ed, write_same. cbn [option_map]. rewrite changed_with_note by exact Hr. reflexivity.
Qed.
(** ** the check is sound *)
Lemma split1_some : forall c s a b, split1 c s = Some (a, b) -> s = a ++ c :: b /\ ~ In c a.
Proof.
  induction s as [|x s IH]; intros a b H; [discriminate|]. cbn [split1] in H. destruct (N.eqb_spec x c) as [->|Hn].
  - injection H as <- <-. split; [reflexivity|intros []].
  - destruct (split1 c s) as [[a' b']|]; [|discriminate]. injection H as <- <-. destruct (IH a' b' eq_refl) as [-> Hi]. split; [reflexivity|].
    intros [E|E]; [congruence|contradiction].
Qed.
Lemma cut_back_split : forall n r, exists a, r = a ++ cut_back n r /\ (count_occ N.eq_dec a 10%N <= n)%nat /\ (a = [] \/ exists b, a = b ++ [10]).
Proof.
  induction n as [|n IH]; intro r; [exists []; cbn; auto|]. cbn [cut_back]. destruct (split1 10 r) as [[x y]|] eqn:E.
  - apply split1_some in E as [-> Hx]. destruct (IH y) as (a & E2 & Hn & Ha). exists (x ++ 10 :: a). split; [rewrite E2 at 1; rewrite <- app_assoc; reflexivity|]. split.
    + rewrite count_occ_app. cbn [count_occ]. destruct (N.eq_dec 10 10); [|congruence]. assert (count_occ N.eq_dec x 10 = 0%nat) by (apply count_occ_not_In; exact Hx). lia.
    + right. destruct Ha as [->|(b & ->)]; [exists x; reflexivity|]. exists (x ++ 10 :: b). rewrite <- app_assoc. reflexivity.
  - exists []. cbn. split; [reflexivity|]. split; [lia|auto].
Qed.
Lemma count_occ_rev : forall s, count_occ N.eq_dec (rev s) 10 = count_occ N.eq_dec s 10.
Proof. induction s as [|c s IH]; [reflexivity|]. cbn [rev]. rewrite count_occ_app, IH. cbn [count_occ]. destruct (N.eq_dec c 10); lia. Qed.
Lemma lemma_check_sound : forall renders d name d', assert_rst renders d name = (SOk tt, d') ->
  exists rest content tail, generate_rst renders d name = SOk rest /\ read_text d (with_suffix name ($ ".rst")) = Some content /\ content <> [] /\
    content = rest ++ tail /\ (tail = [] \/ exists t, tail = 10 :: t) /\ (count_occ N.eq_dec tail 10%N <= 4)%nat.
Proof.
  intros renders d name d' H. unfold assert_rst in H. destruct (generate_rst renders d name) as [rest|e] eqn:G; [|discriminate]. injection H as H _. unfold check in H.
  destruct (read_text d (with_suffix name ($ ".rst"))) as [content|]; [|discriminate]. destruct (truthy content) eqn:T; [|discriminate]. cbn [negb] in H.
  destruct (str_eqb rest (rsplit_head 4 content)) eqn:E; [|discriminate]. apply str_eqb_eq in E. unfold rsplit_head in E.
  destruct (cut_back_split 4 (rev content)) as (a & Ea & Ha & Hb). exists rest, content, (rev a). split; [reflexivity|]. split; [reflexivity|]. split; [intros ->; discriminate|]. split.
  - rewrite E, <- rev_app_distr, <- Ea, rev_involutive. reflexivity.
  - split; [|rewrite count_occ_rev; exact Ha]. destruct Hb as [->|(b & ->)]; [left; reflexivity|]. right. rewrite rev_app_distr. eexists. reflexivity.
Qed.
(** ** missing and empty targets *)
Lemma lemma_first : forall renders mtime d name, d (with_suffix name ($ ".rst")) = None \/ d (with_suffix name ($ ".rst")) = Some [] ->
  snd (update_rst renders mtime d name) = d /\ fst (update_rst renders mtime d name) <> SOk true /\ fst (assert_rst renders d name) <> SOk tt.
Proof.
  intros renders mtime d name H. unfold update_rst, assert_rst, check, read_text.
  assert (C : forall r, changed r [] = false) by (intro r; unfold changed, file_lines; cbn [file_lines_go]; destruct (splitlines r); reflexivity).
  destruct H as [H|H]; rewrite H; cbn [option_map]; destruct (d name) as [x|]; destruct (generate_rst renders d name) as [r|e];
    change (universal []) with (@nil N); rewrite ?C; cbn; repeat split; discriminate.
Qed.
(** ** side effects *)
Lemma lemma_rst_effect : forall renders mtime d name, snd (assert_rst renders d name) = d /\
  forall n, n <> with_suffix name ($ ".rst") -> snd (update_rst renders mtime d name) n = d n.
Proof.
  intros renders mtime d name. split.
  - unfold assert_rst. destruct (generate_rst renders d name); reflexivity.
  - intros n Hn. unfold update_rst. destruct (d name); [|reflexivity]. destruct (generate_rst renders d name); [|reflexivity]. destruct (read_text d (with_suffix name ($ ".rst"))); [|reflexivity].
    destruct (changed a s0); [|reflexivity]. cbn [snd]. apply write_other. exact Hn.
Qed.
Lemma lemma_md_effect : forall d name creole h, read_text d name = Some creole -> default_html (strip creole) = Ok h ->
  snd (assert_md d name) (with_suffix name ($ ".html")) = Some h /\
  forall n, n <> with_suffix name ($ ".html") -> snd (assert_md d name) n = d n.
Proof.
  intros d name creole h Hc Hh. unfold assert_md, generate_md. rewrite Hc, Hh. destruct (html2markdown raise_unknown_node h) as [m|e]; cbn [snd]; (split; [apply write_same|intros; apply write_other; assumption]).
Qed.
Lemma lemma_md : forall mtime d name d' m, update_md mtime d name = (SOk true, d') -> fst (generate_md d name) = SOk m ->
  with_suffix name ($ ".md") <> name -> with_suffix name ($ ".html") <> name ->
  no_char [13] m = true -> no_char [10; 13] mtime = true -> no_char [10; 13] name = true ->
  fst (assert_md d' name) = SOk tt /\ forall n, snd (assert_md d' name) n = d' n.
Proof.
  intros mtime d name d' m H G H1 H2 Hr Hm Hn. unfold update_md in H. destruct (d name) as [t|] eqn:Ed; [|discriminate].
  unfold generate_md in G, H. unfold read_text in G, H. rewrite Ed in G, H. cbn [option_map] in G, H. destruct (default_html (strip (universal t))) as [h|e] eqn:Eh; [|discriminate].
  destruct (html2markdown raise_unknown_node h) as [m'|e] eqn:Em; [|discriminate]. cbn [fst] in G. injection G as ->.
  match type of H with context [option_map universal ?x] => destruct x as [old|] end; [|discriminate]. cbn [option_map] in H. destruct (changed m (universal old)); [|discriminate]. injection H as <-.
  set (dh := write_file d (with_suffix name ($ ".html")) h) in *. set (dm := write_file dh (with_suffix name ($ ".md")) (with_note mtime m name)).
  assert (Dn : dm name = Some t) by (unfold dm, dh; rewrite write_other by congruence; rewrite write_other by congruence; exact Ed).
  unfold assert_md, generate_md, read_text. rewrite Dn. cbn [option_map]. rewrite Eh, Em. cbn [fst snd]. split.
  - apply (check_with_note _ _ mtime m name Hr Hm Hn). rewrite write_other by (intro X; symmetry in X; exact (html_md name X)). apply write_same.
  - intro n. destruct (str_eqb n (with_suffix name ($ ".html"))) eqn:En.
    + apply str_eqb_eq in En. subst n. rewrite write_same. unfold dm. rewrite write_other by apply html_md. unfold dh. rewrite write_same. reflexivity.
    + apply write_other. apply str_eqb_neq. exact En.
Qed.
Lemma lemma_long : forall pypi show_exc file,
  (exists e, get_long_description pypi show_exc true file = SErr e) /\
  (exists e, get_long_description pypi show_exc false file =
     SOk ($ "[Error: " ++ show_exc e ++ $ "]" ++ [10] ++ match file with Some t => strip t | None => [] end)).
Proof.
  intros pypi show_exc file. unfold get_long_description. destruct file as [t|]; [|split; eexists; reflexivity].
  destruct (default_html (strip t)) as [h|e]; cbn [bind]; unfold html2rest_emitter_kwargs; split; eexists; reflexivity.
Qed.
(** ** what is written; line ends *)
Lemma lemma_written_text : forall renders mtime d name d', update_rst renders mtime d name = (SOk true, d') ->
  exists rest, generate_rst renders d name = SOk rest /\
    d' (with_suffix name ($ ".rst")) = Some (rest ++ [10; 10] ++ $ "------------" ++ [10; 10] ++
      $ "``Note: this file is generated from " ++ name ++ $ " " ++ mtime ++ $ " with ""python-creole""``") /\
    forall n, n <> with_suffix name ($ ".rst") -> d' n = d n.
Proof.
  intros renders mtime d name d' H. apply update_rst_cases in H as (rest & old & G & E & Hc & ->). exists rest. rewrite <- Hc. split; [exact G|]. split.
  - rewrite write_same. unfold with_note, note. rewrite <- !app_assoc. reflexivity.
  - intros n Hn. apply write_other. exact Hn.
Qed.
Lemma universal_cons : forall c t, c <> 13 -> universal (c :: t) = c :: universal t.
Proof. intros c t H. destruct c as [|p]; [reflexivity|]. do 4 (destruct p as [p|p|]; try reflexivity). congruence. Qed.
Lemma universal_cr : forall t, head_is (N.eqb 10) t = false -> universal (13 :: t) = 10 :: universal t.
Proof. intros [|c t] H; [reflexivity|]. cbn [head_is] in H. cbn [universal]. f_equal. destruct c as [|p]; [reflexivity|]. do 4 (destruct p as [p|p|]; try reflexivity). discriminate H. Qed.
Lemma universal_ends : forall t e, no_char [13] t = true -> e = [13; 10] \/ e = [13] -> universal (with_ends e t) = t.
Proof.
  induction t as [|c t IH]; intros e H He; [reflexivity|]. unfold no_char in H. cbn [forallb] in H. apply andb_true_iff in H as [H1 H2]. unfold with_ends. cbn [flat_map].
  assert (G : universal (with_ends e t) = t) by (apply IH; assumption). unfold with_ends in G. destruct (N.eqb_spec c 10) as [->|Hc].
  - destruct He as [->| ->]; cbn [app].
    + change (10 :: universal (flat_map (fun c => if c =? 10 then [13; 10] else [c]) t) = 10 :: t). rewrite G. reflexivity.
    + rewrite universal_cr. { rewrite G. reflexivity. }
      destruct t as [|a t]; [reflexivity|]. cbn [flat_map]. destruct (N.eqb_spec a 10) as [->|Ha]; [reflexivity|]. cbn [app head_is]. apply N.eqb_neq. congruence.
  - cbn [app]. rewrite universal_cons, G; [reflexivity|]. intros ->. discriminate H1.
Qed.
Lemma lemma_line_ends : forall renders d name t e, no_char [13] t = true -> e = [13; 10] \/ e = [13] ->
  generate_rst renders (write_file d name (with_ends e t)) name = generate_rst renders (write_file d name t) name /\
  fst (generate_md (write_file d name (with_ends e t)) name) = fst (generate_md (write_file d name t) name).
Proof.
  intros renders d name t e H He. unfold generate_rst, generate_md, read_text. rewrite !write_same. cbn [option_map]. rewrite (universal_ends t e H He), (universal_id t H).
  split; [reflexivity|]. destruct (default_html (strip t)) as [h|x]; [|reflexivity]. destruct (html2markdown raise_unknown_node h); reflexivity.
Qed.
Lemma lemma_long_args : forall pypi show_exc argv file,
  let strict := List.length argv = 1%nat \/ exists a, In a [$ "check"; $ "register"; $ "sdist"; $ "bdist"; $ "upload"; $ "--long-description"; $ "--restructuredtext"] /\ In a argv in
  (strict -> exists e, get_long_description_default pypi show_exc argv file = SErr e) /\
  (~ strict -> exists t, get_long_description_default pypi show_exc argv file = SOk t).
Proof.
  intros pypi show_exc argv file strict.
  assert (E : should_raise_errors argv = true <-> strict).
  { unfold should_raise_errors, strict. rewrite orb_true_iff, Nat.eqb_eq, existsb_exists. split; (intros [H|(a & H1 & H2)]; [left; exact H|right; exists a; split; [exact H1|]]).
    - apply existsb_exists in H2 as (b & H2 & H3). apply str_eqb_eq in H3. subst b. exact H2.
    - apply existsb_exists. exists a. split; [exact H2|apply str_eqb_eq; reflexivity]. }
  destruct (lemma_long pypi show_exc file) as [[e L1] [e' L2]]. unfold get_long_description_default. split; intro H.
  - apply E in H. rewrite H. exists e. exact L1.
  - destruct (should_raise_errors argv); [exfalso; apply H, E; reflexivity|]. eexists. exact L2.
Qed.
