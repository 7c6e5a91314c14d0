(** * The lines of texts and files *)
From Coq Require Import String List Arith NArith ZArith Bool Lia.
From Verif Require Import PyStr PyStrFacts Utils Res HtmlEmitter HtmlBase Html2X SetupUtils Spec4 Spec48 SetupFacts.
Import ListNotations.
Open Scope N_scope.

Lemma break_ends : forall c, is_linebreak c = existsb (N.eqb c) line_ends.
Proof.
  intro c. apply eq_true_iff_eq. rewrite existsb_exists. unfold is_linebreak, line_ends. rewrite !orb_true_iff, !andb_true_iff, !N.leb_le, !N.eqb_eq. split.
  - intro H. exists c. split; [|apply N.eqb_refl]. cbn [In].
    assert (c = 10 \/ c = 11 \/ c = 12 \/ c = 13 \/ c = 28 \/ c = 29 \/ c = 30 \/ c = 133 \/ c = 8232 \/ c = 8233) by lia. intuition.
  - intros (x & H & E). apply N.eqb_eq in E. subst x. cbn [In] in H. lia.
Qed.
Lemma go_over : forall l cur s, no_char line_ends l = true -> splitlines_go cur (l ++ s) = splitlines_go (rev l ++ cur) s.
Proof.
  induction l as [|c l IH]; intros cur s H; [reflexivity|]. unfold no_char in H. cbn [forallb] in H. apply andb_true_iff in H as [H1 H].
  cbn [app splitlines_go]. rewrite break_ends. apply negb_true_iff in H1. rewrite H1. rewrite (IH (c :: cur) s H). cbn [rev]. rewrite <- app_assoc. reflexivity.
Qed.
Lemma go_end : forall c t cur, In c line_ends -> ~ (c = 13 /\ exists t', t = 10 :: t') -> splitlines_go cur (c :: t) = rev cur :: splitlines_go [] t.
Proof.
  intros c t cur H N. cbn [splitlines_go]. rewrite break_ends. replace (existsb (N.eqb c) line_ends) with true by (symmetry; apply existsb_exists; exists c; split; [exact H|apply N.eqb_refl]).
  destruct (N.eq_dec c 13) as [->|E].
  - destruct t as [|d t]; [reflexivity|]. destruct (N.eq_dec d 10) as [->|E]; [exfalso; apply N; split; [reflexivity|exists t; reflexivity]|].
    destruct d as [|[d|[[[d|d|]|[d|d|]|]|[[d|d|]|[d|d|]|]|]|]]; try reflexivity; exfalso; apply E; reflexivity.
  - cbn [In line_ends] in H. destruct H as [<-|[<-|[<-|[<-|[<-|[<-|[<-|[<-|[<-|[<-|[]]]]]]]]]]]; try reflexivity. exfalso. apply E. reflexivity.
Qed.
Lemma lines_of_fun : forall s ls, lines_of s ls <-> splitlines s = ls.
Proof.
  intros s ls. split.
  - induction 1 as [|l Hn H|l s r H Hs IH|l c s r H Hc Hx Hs IH]; unfold splitlines in *.
    + reflexivity.
    + rewrite <- (app_nil_r l) at 1. rewrite go_over by exact H. rewrite app_nil_r. cbn [splitlines_go]. rewrite rev_involutive. destruct (rev l) eqn:E; [|reflexivity].
      apply (f_equal (@rev N)) in E. rewrite rev_involutive in E. contradiction.
    + rewrite go_over by exact H. rewrite app_nil_r. change (splitlines_go (rev l) (13 :: 10 :: s)) with (rev (rev l) :: splitlines_go [] s). rewrite rev_involutive, IH. reflexivity.
    + rewrite go_over by exact H. rewrite app_nil_r, go_end by assumption. rewrite rev_involutive, IH. reflexivity.
  - intros <-. assert (G : forall n s, (List.length s <= n)%nat -> lines_of s (splitlines s)).
    { clear. intro n. induction n as [|n IH]; intros s Hn; [destruct s; [apply lo_end|cbn [List.length] in Hn; lia]|].
      assert (A : no_char line_ends s = true \/ exists l c t, s = l ++ c :: t /\ no_char line_ends l = true /\ In c line_ends).
      { clear. induction s as [|c s IH]; [left; reflexivity|]. destruct (existsb (N.eqb c) line_ends) eqn:E.
        - right. exists [], c, s. apply existsb_exists in E as (x & Hx & Ex). apply N.eqb_eq in Ex. subst x. auto.
        - destruct IH as [H|(l & d & t & -> & H & Hd)].
          + left. unfold no_char in *. cbn [forallb]. rewrite E, H. reflexivity.
          + right. exists (c :: l), d, t. split; [reflexivity|]. split; [|exact Hd]. unfold no_char in *. cbn [forallb]. rewrite E, H. reflexivity. }
      destruct A as [A|(l & c & t & -> & A & Hc)].
      - destruct s as [|c s]; [apply lo_end|]. replace (splitlines (c :: s)) with [c :: s]; [apply lo_last; [discriminate|exact A]|].
        unfold splitlines. pose proof (go_over (c :: s) [] [] A) as E. rewrite !app_nil_r in E. rewrite E. cbn [splitlines_go]. rewrite rev_involutive.
        destruct (rev (c :: s)) eqn:R; [|reflexivity]. apply (f_equal (@rev N)) in R. rewrite rev_involutive in R. discriminate.
      - rewrite app_length in Hn. cbn [List.length] in Hn.
        assert (D : (c = 13 /\ exists t', t = 10 :: t') \/ ~ (c = 13 /\ exists t', t = 10 :: t')).
        { destruct (N.eq_dec c 13) as [->|E]; [|right; intros [? _]; contradiction]. destruct t as [|d t]; [right; intros [_ (t' & ?)]; discriminate|].
          destruct (N.eq_dec d 10) as [->|E]; [left; split; [reflexivity|exists t; reflexivity]|right; intros [_ (t' & H)]; injection H as ? _; contradiction]. }
        unfold splitlines. rewrite go_over by exact A. rewrite app_nil_r. destruct D as [[-> (t' & ->)]|D].
        + change (splitlines_go (rev l) (13 :: 10 :: t')) with (rev (rev l) :: splitlines_go [] t'). rewrite rev_involutive. apply lo_crlf; [exact A|]. apply IH. cbn [List.length] in Hn. lia.
        + rewrite go_end by assumption. rewrite rev_involutive. apply lo_line; [exact A|exact Hc|exact D|]. apply IH. lia. }
    exact (G _ s (le_n _)).
Qed.
Lemma file_over : forall l cur s, no_char [10] l = true -> file_lines_go cur (l ++ s) = file_lines_go (rev l ++ cur) s.
Proof.
  induction l as [|c l IH]; intros cur s H; [reflexivity|]. unfold no_char in H. cbn [forallb existsb] in H. apply andb_true_iff in H as [H1 H].
  rewrite orb_false_r in H1. apply negb_true_iff in H1. cbn [app file_lines_go]. rewrite H1. rewrite (IH (c :: cur) s H). cbn [rev]. rewrite <- app_assoc. reflexivity.
Qed.
Lemma read_lines_fun : forall s ls, read_lines_of s ls <-> file_lines s = ls.
Proof.
  intros s ls. split.
  - induction 1 as [|l Hn H|l s r H Hs IH]; unfold file_lines in *.
    + reflexivity.
    + rewrite <- (app_nil_r l) at 1. rewrite file_over by exact H. rewrite app_nil_r. cbn [file_lines_go]. rewrite rev_involutive. destruct (rev l) eqn:E; [|reflexivity].
      apply (f_equal (@rev N)) in E. rewrite rev_involutive in E. contradiction.
    + rewrite file_over by exact H. rewrite app_nil_r. change (file_lines_go (rev l) (10 :: s)) with ((rev (rev l) ++ [10]) :: file_lines_go [] s). rewrite rev_involutive, IH. reflexivity.
  - intros <-. assert (G : forall n s, (List.length s <= n)%nat -> read_lines_of s (file_lines s)).
    { clear. intro n. induction n as [|n IH]; intros s Hn; [destruct s; [apply rl_end|cbn [List.length] in Hn; lia]|].
      assert (A : no_char [10] s = true \/ exists l t, s = l ++ 10 :: t /\ no_char [10] l = true).
      { clear. induction s as [|c s IH]; [left; reflexivity|]. destruct (N.eq_dec c 10) as [->|E]; [right; exists [], s; auto|]. apply N.eqb_neq in E.
        destruct IH as [H|(l & t & -> & H)].
        - left. change (no_char [10] (c :: s)) with (negb ((c =? 10) || false) && no_char [10] s). rewrite E, H. reflexivity.
        - right. exists (c :: l), t. split; [reflexivity|]. change (no_char [10] (c :: l)) with (negb ((c =? 10) || false) && no_char [10] l). rewrite E, H. reflexivity. }
      destruct A as [A|(l & t & -> & A)].
      - destruct s as [|c s]; [apply rl_end|]. replace (file_lines (c :: s)) with [c :: s]; [apply rl_last; [discriminate|exact A]|].
        unfold file_lines. pose proof (file_over (c :: s) [] [] A) as E. rewrite !app_nil_r in E. rewrite E. cbn [file_lines_go]. rewrite rev_involutive.
        destruct (rev (c :: s)) eqn:R; [|reflexivity]. apply (f_equal (@rev N)) in R. rewrite rev_involutive in R. discriminate.
      - rewrite app_length in Hn. cbn [List.length] in Hn. unfold file_lines. rewrite file_over by exact A. rewrite app_nil_r.
        change (file_lines_go (rev l) (10 :: t)) with ((rev (rev l) ++ [10]) :: file_lines_go [] t). rewrite rev_involutive. apply rl_line; [exact A|]. apply IH. lia. }
    exact (G _ s (le_n _)).
Qed.
Lemma agree_differ : forall new old, changed new old = false <-> lines_agree new old.
Proof.
  intros new old. unfold changed. rewrite differ_spec. split.
  - intro H. exists (splitlines new), (file_lines old). split; [apply lines_of_fun; reflexivity|]. split; [apply read_lines_fun; reflexivity|exact H].
  - intros (ls & ls' & H1 & H2 & H). apply lines_of_fun in H1. apply read_lines_fun in H2. subst. exact H.
Qed.
Lemma lemma_C42_not_written : forall renders mtime d name rest old,
  d name <> None -> generate_rst renders d name = SOk rest -> read_text d (with_suffix name ($ ".rst")) = Some old ->
  (update_rst renders mtime d name = (SOk false, d) <-> lines_agree rest old).
Proof.
  intros renders mtime d name rest old Hd G E. rewrite <- agree_differ. unfold update_rst. destruct (d name); [|contradiction]. rewrite G, E.
  destruct (changed rest old); split; intro H; try reflexivity; discriminate.
Qed.
Lemma lemma_C42_not_written_md : forall mtime d name m d' old,
  d name <> None -> generate_md d name = (SOk m, d') -> read_text d (with_suffix name ($ ".md")) = Some old ->
  (update_md mtime d name = (SOk false, d') <-> lines_agree m old).
Proof.
  intros mtime d name m d' old Hd G E. rewrite <- agree_differ. unfold update_md. destruct (d name); [|contradiction]. rewrite G.
  assert (E' : read_text d' (with_suffix name ($ ".md")) = Some old).
  { rewrite <- E. unfold generate_md in G. destruct (read_text d name) as [c|]; [|discriminate]. destruct (default_html (strip c)) as [h|]; [|discriminate].
    destruct (html2markdown raise_unknown_node h); [|discriminate]. injection G as _ <-. unfold read_text. rewrite write_other; [reflexivity|]. intro H. symmetry in H. exact (html_md name H). }
  rewrite E'. destruct (changed m old); split; intro H; try reflexivity; discriminate.
Qed.
Lemma lines_once : forall s ls ls', lines_of s ls -> lines_of s ls' -> ls = ls'.
Proof. intros s ls ls' H H'. apply lines_of_fun in H. apply lines_of_fun in H'. congruence. Qed.
Lemma read_lines_once : forall s ls ls', read_lines_of s ls -> read_lines_of s ls' -> ls = ls'.
Proof. intros s ls ls' H H'. apply read_lines_fun in H. apply read_lines_fun in H'. congruence. Qed.
