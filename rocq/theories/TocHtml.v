(** * The html of the table of contents line by line; no [<<] in the html of blocks *)
From Coq Require Import String List Arith NArith ZArith Bool Lia.
From Verif Require Import PyStr PyStrFacts NumFacts InlineRun Utils DocTree HtmlEmitter HtmlSpec EmitterFacts Spec4 Spec5 Spec20 Spec22 Spec23 InlineParse BlockParse TocFacts.
Import ListNotations.
Open Scope N_scope.

Notation h2h := nested_headlines2html.
Lemma h2h_list : forall level l, h2h level (NList l) = tabs level ++ $ "<ul>" ++ [10] ++ flat_map (h2h (S level)) l ++ tabs level ++ $ "</ul>" ++ (if Nat.ltb 0 level then [10] else []).
Proof.
  intros level l. cbn [nested_headlines2html]. unfold tabs. repeat f_equal. 
Qed.
(** what the lists on the stack show (top first), the outermost list left open *)
Fixpoint stack_html (st : list (list nest)) : str :=
  match st with
  | [] => []
  | top :: r => stack_html r ++ match r with [] => [] | _ => line_with (List.length r) ($ "<ul>") end ++ flat_map (h2h (List.length st)) (rev top)
  end.
Lemma seq_end : forall n s, seq s (S n) = seq s n ++ [(s + n)%nat].
Proof. intros. apply seq_S. Qed.
Lemma push_html : forall n st, st <> [] -> stack_html (nest_push n st) = stack_html st ++ opened (List.length st) (List.length st + n).
Proof.
  induction n as [|n IH]; intros st H.
  - unfold opened. replace (List.length st + 0 - List.length st)%nat with 0%nat by lia. cbn [nest_push seq flat_map]. rewrite app_nil_r. reflexivity.
  - cbn [nest_push]. rewrite IH by discriminate. cbn [stack_html rev flat_map]. destruct st as [|top r]; [congruence|]. set (st := top :: r) in *. rewrite app_nil_r. cbn [List.length].
    unfold opened. replace (List.length st + S n - List.length st)%nat with (S n) by lia. replace (S (List.length st) + n - S (List.length st))%nat with n by lia.
    cbn [seq flat_map]. rewrite <- app_assoc. reflexivity.
Qed.
Lemma pop_html : forall n st, (n < List.length st)%nat -> stack_html (nest_pop n st) = stack_html st ++ closed (List.length st) (List.length st - n).
Proof.
  induction n as [|n IH]; intros st H.
  - unfold closed. replace (List.length st - (List.length st - 0))%nat with 0%nat by lia. cbn [nest_pop seq rev flat_map]. rewrite app_nil_r. reflexivity.
  - destruct st as [|a [|b r]]; cbn [List.length] in H; try lia. cbn [nest_pop]. rewrite IH by (cbn [List.length]; lia).
    cbn [List.length]. unfold closed. replace (S (S (List.length r)) - (S (S (List.length r)) - S n))%nat with (S n) by lia.
    replace (S (List.length r) - (S (List.length r) - n))%nat with n by lia. replace (S (S (List.length r)) - S n)%nat with (S (List.length r) - n)%nat by lia.
    rewrite seq_end, rev_app_distr. cbn [rev app flat_map]. rewrite app_assoc. f_equal.
    cbn [stack_html rev]. rewrite flat_map_app. cbn [flat_map]. rewrite app_nil_r. rewrite h2h_list. cbn [List.length]. change (Nat.ltb 0 (S (List.length r))) with true. cbv iota.
    unfold line_with. replace (S (List.length r) - n + n)%nat with (S (List.length r)) by lia. repeat (rewrite <- ?app_assoc; cbn [app]). reflexivity.
Qed.
Lemma add_html : forall t st, st <> [] -> stack_html (nest_add (NLeaf t) st) = stack_html st ++ line_with (List.length st) ($ "<li><a href=""#" ++ t ++ $ """>" ++ t ++ $ "</a></li>").
Proof.
  intros t [|top r] H; [congruence|]. cbn [nest_add stack_html rev]. rewrite flat_map_app. cbn [flat_map]. rewrite app_nil_r. cbn [nested_headlines2html List.length].
  unfold line_with, tabs. repeat (rewrite <- ?app_assoc; cbn [app]). reflexivity.
Qed.
Lemma opened_none : forall d n, (n <= d)%nat -> opened d n = [].
Proof. intros d n H. unfold opened. replace (n - d)%nat with 0%nat by lia. reflexivity. Qed.
Lemma closed_none : forall d n, (d <= n)%nat -> closed d n = [].
Proof. intros d n H. unfold closed. replace (d - n)%nat with 0%nat by lia. reflexivity. Qed.
Lemma step_html : forall st n t, st <> [] -> (1 <= n)%nat -> nest_step st (n, t) <> [] /\ List.length (nest_step st (n, t)) = n /\
  stack_html (nest_step st (n, t)) = stack_html st ++ opened (List.length st) n ++ closed (List.length st) n ++ line_with n ($ "<li><a href=""#" ++ t ++ $ """>" ++ t ++ $ "</a></li>").
Proof.
  intros st n t Hst Hn. destruct (step_outline st n t Hst Hn) as (L1 & _). split; [intro E; rewrite E in L1; cbn in L1; lia|]. split; [exact L1|].
  unfold nest_step in *. set (d := List.length st) in *. assert (Hd : (1 <= d)%nat) by (destruct st; [congruence|cbn in d; lia]).
  destruct (Nat.ltb_spec d n) as [H|H].
  - rewrite add_html, push_html by (assumption || (intro E; apply (f_equal (@List.length _)) in E; rewrite push_len in E; cbn in E; fold d in E; lia)).
    rewrite push_len. fold d. replace (d + (n - d))%nat with n by lia. replace (n - d + d)%nat with n by lia. rewrite (closed_none d n) by lia. cbn [app]. rewrite <- app_assoc. reflexivity.
  - rewrite opened_none by exact H. destruct (Nat.ltb_spec n d) as [H2|H2].
    + rewrite add_html, pop_html by (try (fold d; lia); intro E; apply (f_equal (@List.length _)) in E; rewrite pop_len in E by (fold d; lia); cbn in E; fold d in E; lia).
      rewrite pop_len by (fold d; lia). fold d. replace (d - (d - n))%nat with n by lia. rewrite <- app_assoc. reflexivity.
    + replace n with d by lia. rewrite closed_none by lia. apply add_html. exact Hst.
Qed.
Lemma toc_html_lines : forall l, Forall (fun x => (1 <= fst x)%nat) l -> h2h 0 (NList (flat_list2nest_list l)) = html_toc l.
Proof.
  intros l H. unfold flat_list2nest_list.
  assert (G : forall l st, Forall (fun x => (1 <= fst x)%nat) l -> st <> [] -> 
    exists st', fold_left nest_step l st = st' /\ st' <> [] /\ stack_html st' ++ closed (List.length st') 1 = stack_html st ++ toc_lines (List.length st) l).
  { clear. induction l as [|[n t] l IH]; intros st H Hst; [exists st; auto|]. inversion H as [|? ? H1 H2]; subst.
    destruct (step_html st n t Hst H1) as (A & A2 & B). destruct (IH (nest_step st (n, t)) H2 A) as (st' & E & Hst' & B'). exists st'. split; [exact E|]. split; [exact Hst'|].
    rewrite B', B, A2. cbn [toc_lines]. rewrite <- !app_assoc. reflexivity. }
  destruct (G l [[]] H ltac:(discriminate)) as (st & -> & Hst & E). cbn [stack_html List.length rev flat_map app] in E.
  assert (Hd : (1 <= List.length st)%nat) by (destruct st; [congruence|cbn; lia]).
  pose proof (pop_html (List.length st - 1) st ltac:(lia)) as P. pose proof (pop_len (List.length st - 1) st ltac:(lia)) as L.
  replace (List.length st - (List.length st - 1))%nat with 1%nat in * by lia. rewrite E in P.
  destruct (nest_pop (List.length st - 1) st) as [|top [|? ?]]; cbn [List.length] in L; try lia.
  cbn [stack_html List.length app] in P. rewrite h2h_list. unfold html_toc. rewrite <- P. change (Nat.ltb 0 0) with false. cbv iota. change (tabs 0) with (@nil N). rewrite app_nil_r. reflexivity.
Qed.

(** ** no two [<] in a row *)
Fixpoint single (s : str) : bool :=
  match s with
  | [] => true
  | c :: r => negb ((c =? 60) && (match r with [] => true | d :: _ => d =? 60 end)) && single r
  end.
Lemma single_app : forall a b, single a = true -> single b = true -> single (a ++ b) = true.
Proof.
  induction a as [|c a IH]; intros b Ha Hb; [exact Hb|]. cbn [single app] in *. apply andb_true_iff in Ha as [H1 H2]. rewrite (IH b H2 Hb), andb_true_r.
  destruct a as [|d a]; [|exact H1]. destruct (N.eqb_spec c 60); [discriminate|reflexivity].
Qed.
Lemma single_none : forall s, ~ In 60 s -> single s = true.
Proof.
  induction s as [|c s IH]; intro H; [reflexivity|]. cbn [single]. rewrite IH by (intro X; apply H; right; exact X). destruct (N.eqb_spec c 60) as [->|]; [exfalso; apply H; left; reflexivity|reflexivity].
Qed.
Lemma single_lt : forall c s, c <> 60 -> single (c :: s) = true -> single (60 :: c :: s) = true.
Proof. intros c s H H2. change (single (60 :: c :: s)) with (negb (true && (c =? 60)) && single (c :: s)). rewrite H2. apply N.eqb_neq in H. rewrite H. reflexivity. Qed.
Lemma escape_lt : forall t, ~ In 60 (escape t).
Proof.
  intros t H. rewrite <- entity_esc in H. apply in_flat_map in H as (c & _ & H). unfold entity in H.
  destruct (N.eqb_spec c 38); [cbn in H; intuition discriminate|]. destruct (N.eqb_spec c 60); [cbn in H; intuition discriminate|]. destruct (N.eqb_spec c 62); [cbn in H; intuition discriminate|].
  destruct H as [H|[]]; congruence.
Qed.
Lemma attr_text_lt : forall t, ~ In 60 (attr_text t).
Proof.
  intros t H. apply (attr_escape_safe t 60) in H. intuition congruence.
Qed.
Lemma single_escape : forall t, single (escape t) = true.
Proof. intro t. apply single_none, escape_lt. Qed.
Lemma single_attr : forall t, single (attr_text t) = true.
Proof. intro t. apply single_none, attr_text_lt. Qed.
Lemma single_show_N : forall n, single (show_N n) = true.
Proof. intro n. apply single_none. intro H. apply show_N_In in H. lia. Qed.
Ltac sing := repeat first [assumption | reflexivity | apply single_escape | apply single_attr | apply single_show_N | apply single_app].
Lemma single_tag : forall t, ~ In 60 t -> t <> [] -> single ($ "<" ++ t ++ $ ">") = true /\ single ($ "</" ++ t ++ $ ">") = true.
Proof.
  intros t H Hn. destruct t as [|c t]; [congruence|]. split.
  - change ($ "<" ++ (c :: t) ++ $ ">") with (60 :: c :: t ++ $ ">"). apply single_lt; [intros ->; apply H; left; reflexivity|]. apply single_none. intro X. apply H.
    destruct X as [->|X]; [left; reflexivity|]. apply in_app_or in X as [X|[X|[]]]; [right; exact X|discriminate].
  - change ($ "</" ++ (c :: t) ++ $ ">") with (60 :: 47 :: c :: t ++ $ ">"). apply single_lt; [discriminate|]. apply single_none. intro X. destruct X as [X|X]; [discriminate|]. apply H.
    destruct X as [->|X]; [left; reflexivity|]. apply in_app_or in X as [X|[X|[]]]; [right; exact X|discriminate].
Qed.
Lemma single_elem : forall t c, ~ In 60 t -> t <> [] -> single c = true -> single (elem t c) = true.
Proof.
  intros t c H Hn Hc. destruct (single_tag t H Hn) as (A & B). unfold elem.
  replace ($ "<" ++ t ++ $ ">" ++ c ++ $ "</" ++ t ++ $ ">") with (($ "<" ++ t ++ $ ">") ++ c ++ ($ "</" ++ t ++ $ ">")) by (rewrite <- !app_assoc; reflexivity). sing.
Qed.
Lemma single_flat : forall A (f : A -> str) l, Forall (fun x => single (f x) = true) l -> single (flat_map f l) = true.
Proof. intros A f l H. induction H; [reflexivity|]. cbn [flat_map]. sing. Qed.
Lemma single_flat_all : forall A (f : A -> str) l, (forall x, single (f x) = true) -> single (flat_map f l) = true.
Proof. intros A f l H. apply single_flat. apply Forall_forall. intros x _. apply H. Qed.
Lemma single_img : forall a b c, single c = true -> single (img a b c) = true.
Proof. intros. unfold img. sing. Qed.
Lemma single_tabs : forall n, single (tabs n) = true.
Proof. intro n. apply single_none. intro H. apply repeat_spec in H. discriminate. Qed.
Lemma single_inl : forall strict i b, single b = true -> single (html_inl strict b i) = true.
Proof.
  intros strict. induction i using inl_ind'; intros b Hb; cbn [html_inl]; try (sing; fail).
  - apply single_elem; [destruct f; cbn; intuition discriminate|destruct f; discriminate|]. apply single_flat. revert H. apply Forall_impl. intros x Hx. apply Hx. reflexivity.
  - apply single_elem; [cbn; intuition discriminate|discriminate|sing].
  - unfold html_image. match goal with |- context [match ?s with Some _ => _ | None => _ end] => destruct s as [wh|] end; [destruct strict|]; apply single_img; sing.
  - sing. apply single_flat. revert H. apply Forall_impl. intros x Hx. apply Hx. reflexivity.
Qed.
Lemma single_inls : forall strict l b, single b = true -> single (html_inls strict b l) = true.
Proof. intros strict l b Hb. apply single_flat_all. intro i. apply single_inl. exact Hb. Qed.
Lemma single_lines : forall blog strict l, single (html_lines blog strict l) = true.
Proof.
  intros blog strict. induction l as [|x l IH]; [reflexivity|]. cbn [html_lines]. destruct l as [|y l]; [apply single_inls; reflexivity|].
  apply single_app; [apply single_inls; reflexivity|]. apply single_app; [|exact IH]. destruct (ends_in_backslash x), blog; reflexivity.
Qed.
Lemma single_list_with : forall f level o items, Forall (fun x => single (f x) = true) items -> single (html_list_with f level o items) = true.
Proof.
  intros f level o items H. unfold html_list_with. apply single_app; [apply single_tabs|].
  assert (A : forall X, single X = true -> single ($ "<" ++ list_tag o ++ $ ">" ++ X) = true) by (intros X HX; destruct o; change ($ "<" ++ list_tag true ++ $ ">" ++ X) with ($ "<ol>" ++ X) || change ($ "<" ++ list_tag false ++ $ ">" ++ X) with ($ "<ul>" ++ X); sing).
  apply A. apply single_app; [apply single_flat; exact H|]. apply single_app; [reflexivity|]. apply single_app; [apply single_tabs|]. destruct o; reflexivity.
Qed.
Lemma single_item : forall strict i level, single (html_item strict level i) = true.
Proof.
  intros strict. induction i using litem_ind'; intro level. cbn [html_item]. apply single_app; [reflexivity|]. apply single_app; [apply single_tabs|]. apply single_app; [reflexivity|].
  apply single_app; [apply single_inls; apply single_app; [reflexivity|apply single_tabs]|]. apply single_app; [|reflexivity].
  destruct sub as [|x sub]; [reflexivity|]. apply single_app; [reflexivity|]. apply single_list_with. revert H. apply Forall_impl. intros y Hy. apply Hy.
Qed.
Lemma single_block : forall blog strict b, single (html_block blog strict b) = true.
Proof.
  intros blog strict [lines|n sp0 t cl| |lines|o items|rows]; cbn [html_block].
  - apply single_elem; [cbn; intuition discriminate|discriminate|apply single_lines].
  - apply single_elem; [|discriminate|apply single_escape]. intro H. destruct H as [H|H]; [discriminate|]. unfold show_nat in H. apply show_N_In in H. lia.
  - reflexivity.
  - apply single_elem; [cbn; intuition discriminate|discriminate|apply single_escape].
  - apply single_list_with. apply Forall_forall. intros x _. apply single_item.
  - sing. apply single_flat_all. intro r. unfold html_row. sing. apply single_flat_all. intro c0. unfold html_cell. apply single_app; [reflexivity|]. apply single_app; [|reflexivity]. apply single_elem; [destruct (is_head c0); cbn; intuition discriminate|destruct (is_head c0); discriminate|].
    apply single_inls. reflexivity.
Qed.
Lemma single_tblock : forall blog strict b, single (html_tblock blog strict b) = true.
Proof. intros blog strict b. unfold html_tblock. destruct b; try apply single_block. apply single_app; [reflexivity|]. apply single_app; [sing|]. apply single_app; [reflexivity|]. apply single_app; [apply single_block|reflexivity]. Qed.
(** the tag is replaced where it stands *)
Lemma tag_not_in : forall b Y, b <> [] -> single b = true -> startswith ($ "<p><<toc>></p>") (b ++ $ "<p><<toc>></p>" ++ Y) = false.
Proof.
  intros b Y Hn Hb. destruct (startswith _ _) eqn:E; [|reflexivity]. exfalso. apply startswith_app in E as (z & E).
  change ($ "<p><<toc>></p>" ++ z) with (60 :: 112 :: 62 :: 60 :: 60 :: $ "toc>></p>" ++ z) in E. change ($ "<p><<toc>></p>" ++ Y) with (60 :: 112 :: 62 :: 60 :: 60 :: $ "toc>></p>" ++ Y) in E.
  destruct b as [|b1 b]; [congruence|]. cbn [app] in E. injection E as -> E.
  destruct b as [|b2 b]; [discriminate|]. cbn [app] in E. injection E as -> E.
  destruct b as [|b3 b]; [discriminate|]. cbn [app] in E. injection E as -> E.
  destruct b as [|b4 b]; [discriminate|]. cbn [app] in E. injection E as -> E.
  destruct b as [|b5 b]; [discriminate|]. cbn [app] in E. injection E as -> E. discriminate.
Qed.
Lemma tag_replaced : forall X Y h, single X = true ->
  contains ($ "<p><<toc>></p>") (X ++ $ "<p><<toc>></p>" ++ Y) = true /\ replace1 ($ "<p><<toc>></p>") h (X ++ $ "<p><<toc>></p>" ++ Y) = X ++ h ++ Y.
Proof.
  intros X Y h. induction X as [|c X IH]; intro H.
  - split; reflexivity.
  - pose proof (tag_not_in (c :: X) Y ltac:(discriminate) H) as N. cbn [single] in H. apply andb_true_iff in H as [_ H]. destruct (IH H) as (A & B). cbn [app] in *. split.
    + cbn [contains]. rewrite A. apply orb_true_r.
    + cbn [replace1]. cbn [app] in N. rewrite N, B. reflexivity.
Qed.
