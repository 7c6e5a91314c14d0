(** * reStructuredText tools: proofs *)
From Coq Require Import String List Arith NArith ZArith Bool Lia Permutation Sorted.
From Verif Require Import PyStr PyStrFacts Utils Res HtmlTools UrlQuote RestTools Spec9 NumFacts SetupFacts.
Import ListNotations.
Open Scope N_scope.

Lemma in_list_iff : forall l x, in_list l x = true <-> In x l.
Proof.
  intros l x. unfold in_list. rewrite existsb_exists. split.
  - intros (y & Hy & E). apply str_eqb_eq in E. subst. exact Hy.
  - intro H. exists x. split; [exact H|apply str_eqb_eq; reflexivity].
Qed.
(** ** schemes *)
Lemma lower_scheme : forall c, is_scheme_char (lower_c c) = true -> is_scheme_char c = true.
Proof.
  intros c H. unfold lower_c in H. destruct ((65 <=? c) && (c <=? 90)) eqn:E; [|exact H].
  unfold is_scheme_char, is_alpha. rewrite E. rewrite ?orb_true_r. reflexivity.
Qed.
Lemma lower_alpha : forall c, is_alpha (lower_c c) = true -> is_alpha c = true.
Proof.
  intros c H. unfold lower_c in H. destruct ((65 <=? c) && (c <=? 90)) eqn:E; [|exact H]. unfold is_alpha. rewrite E. reflexivity.
Qed.
Definition head_alpha (s : str) : bool := match s with c :: _ => is_alpha c | [] => false end.
Lemma allowed_chars : forall s, In (lower s) allowed_schemes -> forallb is_scheme_char s = true /\ head_alpha s = true.
Proof.
  intros s H.
  assert (G : forallb (fun w => forallb is_scheme_char w && head_alpha w) allowed_schemes = true) by (vm_compute; reflexivity).
  rewrite forallb_forall in G. specialize (G _ H). apply andb_true_iff in G as [G1 G2]. split.
  - rewrite forallb_forall in *. intros c Hc. apply lower_scheme, G1. unfold lower. apply in_map. exact Hc.
  - destruct s as [|c s]; [discriminate|]. cbn in *. apply lower_alpha. exact G2.
Qed.
Lemma scheme_spec : forall v, in_list allowed_schemes (fst (split_scheme v)) = true <-> exists s r, v = s ++ [58] ++ r /\ In (lower s) allowed_schemes.
Proof.
  intro v. rewrite in_list_iff. split.
  - intro H. unfold split_scheme in H. destruct v as [|c v]; [exfalso; revert H; vm_compute; intuition discriminate|].
    destruct (is_alpha c); [|exfalso; revert H; vm_compute; intuition discriminate].
    destruct (split1 58 (c :: v)) as [[s r]|] eqn:E; [|exfalso; revert H; vm_compute; intuition discriminate].
    destruct (forallb is_scheme_char s); [|exfalso; revert H; vm_compute; intuition discriminate].
    exists s, r. split; [|exact H]. apply split1_some in E as [E _]. exact E.
  - intros (s & r & -> & H). destruct (allowed_chars s H) as [H1 H2]. destruct s as [|c s]; [discriminate|]. cbn [head_alpha] in H2.
    unfold split_scheme. cbn [app]. rewrite H2. change (c :: s ++ 58 :: r) with ((c :: s) ++ 58 :: r). rewrite split1_at.
    + rewrite H1. exact H.
    + intro Hi. rewrite forallb_forall in H1. specialize (H1 _ Hi). discriminate H1.
Qed.
Lemma urlparse_scheme : forall u o, urlparse u = Ok o -> u_scheme o = fst (split_scheme (trimmed u)).
Proof.
  intros u o H. unfold urlparse in H.
  replace (filter (fun c => negb ((c =? 9) || (c =? 13) || (c =? 10))) (drop_while (fun c => c <=? 32) u)) with (trimmed u) in H.
  - destruct (split_scheme (trimmed u)) as [sch v]. destruct (split_netloc v) as [[nl w]|e]; [|discriminate]. cbn [bind] in H.
    destruct (cut1 35 w) as [w1 fr]. destruct (cut1 63 w1) as [w2 q]. destruct (if in_list uses_params sch && contains [59] w2 then split_params w2 else (w2, [])) as [pp pr]. injection H as <-. reflexivity.
  - apply filter_ext. intro c. cbn [existsb]. rewrite orb_false_r. rewrite <- orb_assoc. rewrite (orb_comm (c =? 13)). reflexivity.
Qed.
Lemma scheme_allowed : forall u o, urlparse u = Ok o -> (in_list allowed_schemes (u_scheme o) = true <-> allowed u).
Proof. intros u o H. rewrite (urlparse_scheme u o H). apply scheme_spec. Qed.
Lemma split1_In : forall c s a b x, split1 c s = Some (a, b) -> In x b -> In x s.
Proof. intros c s a b x H Hi. apply split1_some in H as [-> _]. apply in_or_app. right. right. exact Hi. Qed.
Lemma contains1 : forall c s, contains [c] s = true -> In c s.
Proof.
  induction s as [|x s IH]; [discriminate|]. cbn [contains startswith]. intro H. rewrite andb_true_r in H. apply orb_true_iff in H as [H|H]; [apply N.eqb_eq in H; left; auto|right; auto].
Qed.
Lemma take_while_In : forall p s (x : N), In x (take_while p s) -> In x s.
Proof. induction s as [|y s IH]; [intros x []|]. cbn [take_while]. intros x H. destruct (p y); [|destruct H]. destruct H as [H|H]; [left; exact H|right; apply IH; exact H]. Qed.
Lemma drop_while_In : forall p s (x : N), In x (drop_while p s) -> In x s.
Proof. induction s as [|y s IH]; [intros x []|]. cbn [drop_while]. intros x H. destruct (p y); [right; apply IH; exact H|exact H]. Qed.
Lemma urlparse_ok : forall u, ~ In 91 u -> ~ In 93 u -> exists o, urlparse u = Ok o.
Proof.
  intros u H1 H2. unfold urlparse. set (v := filter _ _). assert (V : forall x, In x v -> In x u).
  { intros x Hx. unfold v in Hx. apply filter_In in Hx as [Hx _]. exact (drop_while_In _ _ _ Hx). }
  assert (S : forall x, In x (snd (split_scheme v)) -> In x v).
  { intros x. unfold split_scheme. destruct v as [|c w] eqn:Ev; [auto|]. destruct (is_alpha c); [|auto]. destruct (split1 58 (c :: w)) as [[s r]|] eqn:E; [|auto]. destruct (forallb is_scheme_char s); [|auto]. cbn [snd]. intro Hx. eapply split1_In; eassumption. }
  destruct (split_scheme v) as [sch w]. cbn [snd] in S.
  assert (G : exists nl w', split_netloc w = Ok (nl, w')).
  { unfold split_netloc. assert (D : forall t, (forall x, In x t -> In x w) -> xorb (contains [91] (take_while (fun c => negb ((c =? 47) || (c =? 63) || (c =? 35))) t)) (contains [93] (take_while (fun c => negb ((c =? 47) || (c =? 63) || (c =? 35))) t)) = false).
    { intros t Ht. set (h := take_while _ t). assert (Hh : forall x, In x h -> In x u) by (intros x Hx; apply V, S, Ht, (take_while_In _ _ _ Hx)).
      destruct (contains [91] h) eqn:A; [exfalso; apply H1, Hh, contains1, A|]. destruct (contains [93] h) eqn:B; [exfalso; apply H2, Hh, contains1, B|]. reflexivity. }
    repeat match goal with
      | |- context [match ?x with _ => _ end] => is_var x; destruct x
      end; try (eexists; eexists; reflexivity).
    rewrite D by (intros x Hx; right; right; exact Hx). eexists; eexists; reflexivity. }
  destruct G as (nl & w' & ->). cbn [bind]. destruct (cut1 35 w') as [w1 fr]. destruct (cut1 63 w1) as [w2 q].
  destruct (if in_list uses_params sch && contains [59] w2 then split_params w2 else (w2, [])) as [pp pr]. eexists. reflexivity.
Qed.
Lemma lemma_C45_sound : forall nodes, pypi_check nodes = POk -> Forall allowed (links nodes).
Proof.
  induction nodes as [|n t IH]; intro H; [constructor|]. cbn [pypi_check] in H. unfold links. cbn [flat_map]. fold (links t). destruct (r_text n); [exact (IH H)|].
  assert (G : forall u, match urlparse u with Exc e => PExc e | Ok o => if in_list allowed_schemes (u_scheme o) then pypi_check t else PTransform end = POk -> Forall allowed ([u] ++ links t)).
  { intros u G. destruct (urlparse u) as [o|] eqn:E; [|discriminate]. destruct (in_list allowed_schemes (u_scheme o)) eqn:A; [|discriminate]. constructor; [apply (scheme_allowed u o E), A|exact (IH G)]. }
  destruct (r_refuri n) as [u|]; [exact (G u H)|]. destruct (r_uri n) as [u|]; [exact (G u H)|exact (IH H)].
Qed.
Lemma lemma_C45_complete : forall nodes, Forall allowed (links nodes) -> Forall (fun u => ~ In 91 u /\ ~ In 93 u) (links nodes) -> pypi_check nodes = POk.
Proof.
  induction nodes as [|n t IH]; intros H B; [reflexivity|]. cbn [pypi_check]. unfold links in H, B. cbn [flat_map] in H, B. fold (links t) in H, B. destruct (r_text n); [exact (IH H B)|].
  assert (G : forall u, Forall allowed ([u] ++ links t) -> Forall (fun u => ~ In 91 u /\ ~ In 93 u) ([u] ++ links t) -> match urlparse u with Exc e => PExc e | Ok o => if in_list allowed_schemes (u_scheme o) then pypi_check t else PTransform end = POk).
  { intros u G1 G2. inversion G1 as [|? ? A1 A2]; subst. inversion G2 as [|? ? [B1 B2] B3]; subst. destruct (urlparse_ok u B1 B2) as [o E]. rewrite E, (proj2 (scheme_allowed u o E) A1). apply IH; assumption. }
  destruct (r_refuri n) as [u|]; [exact (G u H B)|]. destruct (r_uri n) as [u|]; [exact (G u H B)|exact (IH H B)].
Qed.
(** ** starttag *)
Lemma str_leb_total : forall a b, str_leb a b = false -> str_leb b a = true.
Proof.
  induction a as [|x a IH]; intros [|y b] H; try discriminate; [reflexivity|]. cbn [str_leb] in *. apply orb_false_iff in H as [H1 H2]. apply N.ltb_ge in H1.
  destruct (N.eqb_spec x y) as [->|Hn].
  - cbn [andb] in H2. rewrite (IH b H2), N.eqb_refl. rewrite orb_true_r. reflexivity.
  - rewrite (proj2 (N.ltb_lt y x)) by lia. reflexivity.
Qed.
Lemma ins_attr_perm : forall e l, Permutation (ins_attr e l) (e :: l).
Proof. induction l as [|h l IH]; [reflexivity|]. cbn [ins_attr]. destruct (str_leb (fst e) (fst h)); [reflexivity|]. rewrite IH. apply perm_swap. Qed.
Lemma sort_attrs_perm : forall l, Permutation (sort_attrs l) l.
Proof. induction l as [|e l IH]; [reflexivity|]. cbn [sort_attrs fold_right]. rewrite ins_attr_perm. apply perm_skip. exact IH. Qed.
Lemma ins_attr_sorted : forall e l, LocallySorted by_name l -> LocallySorted by_name (ins_attr e l).
Proof.
  intros e l H. induction H as [|a|a b l H IH Hab]; cbn [ins_attr].
  - constructor.
  - destruct (str_leb (fst e) (fst a)) eqn:E; constructor; try constructor; [exact E|apply str_leb_total; exact E].
  - destruct (str_leb (fst e) (fst a)) eqn:E; [constructor; [constructor; assumption|exact E]|].
    cbn [ins_attr] in IH. destruct (str_leb (fst e) (fst b)) eqn:E2.
    + constructor; [exact IH|apply str_leb_total; exact E].
    + constructor; [exact IH|exact Hab].
Qed.
Lemma sort_attrs_sorted : forall l, LocallySorted by_name (sort_attrs l).
Proof. induction l as [|e l IH]; [constructor|]. cbn [sort_attrs fold_right]. apply ins_attr_sorted. exact IH. Qed.
Lemma str_leb_trans : forall a b c, str_leb a b = true -> str_leb b c = true -> str_leb a c = true.
Proof.
  induction a as [|x a IH]; intros [|y b] [|z c] H1 H2; try discriminate; try reflexivity. cbn [str_leb] in *. apply orb_true_iff in H1, H2. apply orb_true_iff.
  destruct H1 as [H1|H1]; destruct H2 as [H2|H2]; rewrite ?andb_true_iff, ?N.eqb_eq, ?N.ltb_lt in *.
  - left. lia.
  - destruct H2 as [-> _]. left. exact H1.
  - destruct H1 as [-> _]. left. exact H2.
  - destruct H1 as [-> H1], H2 as [-> H2]. right. split; [reflexivity|]. eapply IH; eassumption.
Qed.
Lemma filter_sorted : forall p l, Sorted by_name l -> Sorted by_name (filter p l).
Proof.
  intros p l H. apply Sorted_StronglySorted in H; [|intros a b c; apply str_leb_trans].
  induction H as [|a l H IH Ha]; [constructor|]. cbn [filter]. destruct (p a); [|exact IH]. constructor; [exact IH|].
  destruct (filter p l) as [|b m] eqn:E; constructor. rewrite Forall_forall in Ha. apply Ha. assert (In b (filter p l)) by (rewrite E; left; reflexivity). apply filter_In in H0. apply H0.
Qed.
Lemma lower_lower : forall s, lower (lower s) = lower s.
Proof.
  intro s. unfold lower. rewrite map_map. apply map_ext. intro c. unfold lower_c. destruct ((65 <=? c) && (c <=? 90)) eqn:E; [|rewrite E; reflexivity].
  apply andb_true_iff in E as [E1 E2]. apply N.leb_le in E1, E2. rewrite (proj2 (N.leb_gt (c + 32) 90)) by lia. rewrite andb_false_r. reflexivity.
Qed.
Definition no_none (l : list (str * aval)) : Prop := Forall (fun a => snd a <> ANone) l.
Lemma attr_parts_spec : forall attval l, no_none l -> exists ps, attr_parts attval l = Ok ps /\ concat (map (app [32]) ps) = flat_map (attr_shown attval) (filter shown_attr l).
Proof.
  intros attval l H. induction H as [|[n v] l Hv H IH]; [exists []; auto|]. destruct IH as (ps & E & C). cbn [snd] in Hv. cbn [attr_parts filter]. rewrite E. unfold shown_attr at 1. cbn [fst].
  change (existsb (str_eqb (lower n)) hidden_attrs) with (in_list ignore_attr (lower n)).
  destruct v as [|vs|s]; [congruence| |]; cbn [bind]; destruct (in_list ignore_attr (lower n)); cbn [negb].
  - exists ps. auto.
  - eexists. split; [reflexivity|]. cbn [map concat flat_map]. rewrite C, lower_lower. unfold attr_shown. cbn [fst snd]. rewrite <- !app_assoc. reflexivity.
  - exists ps. auto.
  - eexists. split; [reflexivity|]. cbn [map concat flat_map]. rewrite C, lower_lower. unfold attr_shown. cbn [fst snd]. rewrite <- !app_assoc. reflexivity.
Qed.
Lemma join_concat : forall ps t, join [32] (t :: ps) = t ++ concat (map (app [32]) ps).
Proof.
  induction ps as [|p ps IH]; intro t; [cbn; rewrite app_nil_r; reflexivity|]. change (join [32] (t :: p :: ps)) with (t ++ [32] ++ join [32] (p :: ps)). rewrite IH. cbn [map concat]. rewrite <- !app_assoc. reflexivity.
Qed.
Lemma filter_perm : forall (A : Type) (p : A -> bool) a b, Permutation a b -> Permutation (filter p a) (filter p b).
Proof.
  intros A p a b H. induction H as [|x a b H IH|x y a|a b c H1 IH1 H2 IH2]; cbn [filter].
  - constructor.
  - destruct (p x); [apply perm_skip|]; exact IH.
  - destruct (p x), (p y); try apply perm_swap; reflexivity.
  - etransitivity; eassumption.
Qed.
Lemma lemma_C46 : forall attval tag suffix empty attrs, tag <> $ "div" -> Forall (fun a => snd a <> ANone) attrs ->
  exists shown, Permutation shown (filter shown_attr attrs) /\ Sorted by_name shown /\
    starttag attval tag suffix empty attrs = Ok ($ "<" ++ tag ++ flat_map (attr_shown attval) shown ++ (if empty then $ " /" else []) ++ $ ">" ++ suffix).
Proof.
  intros attval tag suffix empty attrs Ht Hn. exists (filter shown_attr (sort_attrs attrs)). split; [apply filter_perm, sort_attrs_perm|]. split; [apply filter_sorted, Sorted_LocallySorted_iff, sort_attrs_sorted|].
  unfold starttag. destruct (in_list ignore_tags tag) eqn:E; [exfalso; apply in_list_iff in E; destruct E as [E|[]]; congruence|].
  destruct (attr_parts_spec attval (sort_attrs attrs)) as (ps & E2 & C).
  { unfold no_none. rewrite Forall_forall in *. intros x Hx. apply Hn. eapply Permutation_in; [apply sort_attrs_perm|exact Hx]. }
  rewrite E2. cbn [bind]. rewrite join_concat, C. rewrite <- !app_assoc. reflexivity.
Qed.
Lemma attr_parts_none : forall attval l, Exists (fun a => snd a = ANone) l -> attr_parts attval l = Exc EAssertion.
Proof.
  intros attval l H. induction H as [[n v] l H|[n v] l H IH]; cbn [snd] in *; cbn [attr_parts]; [subst; reflexivity|]. rewrite IH. destruct v; reflexivity.
Qed.
Lemma lemma_C46_none : forall attval tag suffix empty attrs, tag <> $ "div" -> Exists (fun a => snd a = ANone) attrs ->
  starttag attval tag suffix empty attrs = Exc EAssertion.
Proof.
  intros attval tag suffix empty attrs Ht He. unfold starttag. destruct (in_list ignore_tags tag) eqn:E; [exfalso; apply in_list_iff in E; destruct E as [E|[]]; congruence|].
  rewrite attr_parts_none; [reflexivity|]. apply Exists_exists in He as (x & Hx & He). apply Exists_exists. exists x. split; [|exact He]. eapply Permutation_in; [apply Permutation_sym, sort_attrs_perm|exact Hx].
Qed.
(** ** diff *)
Lemma diff_go_app : forall a text b, diff_text_go text (a ++ b) = diff_text_go (diff_text_go text a) b.
Proof. induction a as [|l a IH]; intros text b; [reflexivity|]. cbn [app diff_text_go]. apply IH. Qed.
Lemma lemma_diff_ok : forall diff, Forall (fun l => endswith [10] l = true) diff -> diff_text diff = concat diff.
Proof.
  intros diff H. unfold diff_text. assert (G : forall text, diff_text_go text diff = text ++ concat diff); [|apply G].
  induction H as [|l diff Hl H IH]; intro text; [cbn; rewrite app_nil_r; reflexivity|]. cbn [diff_text_go concat]. rewrite Hl. rewrite andb_false_r. rewrite IH, <- app_assoc. reflexivity.
Qed.
Lemma lemma_diff_glued : forall pre line, line <> [] -> endswith [10] line = false ->
  diff_text (pre ++ [line]) = diff_text (pre ++ [line ++ $ "n\ No newline at end of file" ++ [10]]).
Proof.
  intros pre line Hl He. unfold diff_text. rewrite !diff_go_app. generalize (diff_text_go [] pre). intro t. cbn [diff_text_go].
  assert (E : endswith [10] (line ++ $ "n\ No newline at end of file" ++ [10]) = true).
  { unfold endswith. rewrite app_assoc, rev_app_distr. reflexivity. }
  rewrite E, He. rewrite andb_false_r. assert (T : truthy (t ++ line) = true) by (destruct t; [destruct line; [congruence|]|]; reflexivity). rewrite T. cbn [negb andb]. rewrite <- app_assoc. reflexivity.
Qed.
