(** * Creole documents with any blank lines between their blocks: back to creole *)
From Coq Require Import String List Arith NArith ZArith Bool Lia.
From Verif Require Import PyStr PyStrFacts Utils Res HtmlEmitter Spec2 Spec4 Spec5 HtmlTok HtmlBase Html2X Spec10 Spec11 Spec12 Spec26 Spec27 Spec33 Spec34 Spec36 PreDoc TableDoc TableTrip LayoutDoc.
Import ListNotations.
Open Scope N_scope.

Lemma nls_blank : forall p k, Spec26.blank (block_end p ++ repeat 10 k).
Proof. intros p k. unfold Spec26.blank. rewrite forallb_app. apply andb_true_iff. split; [destruct p as [[]|]; reflexivity|]. induction k as [|k IH]; [reflexivity|exact IH]. Qed.
Lemma nls_end : forall p k, is_list_part p = false \/ k <> 0%nat -> exists w, block_end p ++ repeat 10 k = w ++ [10].
Proof.
  intros p k H. destruct k as [|k].
  - destruct H as [H|H]; [|congruence]. exists []. destruct p as [[]|]; try discriminate H; reflexivity.
  - exists (block_end p ++ repeat 10 k). rewrite <- app_assoc. f_equal. change [10] with (repeat 10 1). rewrite <- repeat_app. f_equal. lia.
Qed.
Lemma shown_some : forall ls, ls <> [] -> shown_lines false ls <> 0%nat.
Proof. intros [|[|c l] [|l2 ls]] H; [congruence|discriminate|unfold shown_lines; lia|unfold shown_lines; lia|unfold shown_lines; lia]. Qed.
Lemma code_part : forall p, tpart_ok p = true -> is_pre (to_hpart (bare_block p)) = is_code_part p.
Proof. intros [[]|] H; try discriminate H; reflexivity. Qed.
Lemma layout_fits : forall s d, fdoc_ok d = true -> tidy (blocks_in d) = true -> code_apart d = true -> pfits (map to_hpart (blocks_in d)) (html_fdoc s d).
Proof.
  intro s. induction d as [|[p ls] d IH]; intros O C A; [reflexivity|]. unfold blocks_in in *. cbn [map fst] in *. cbn [tidy] in C. rewrite !andb_true_iff in C. destruct C as [[C1 C2] C3].
  destruct (tidy_hpart s (bare_block p) C1) as (_ & _ & B3). destruct d as [|[q ls2] d].
  - cbn [map html_fdoc pfits]. exists (html_tpart s p), [], []. split; [rewrite app_nil_r; reflexivity|]. split; [exact B3|]. split; [reflexivity|]. split; [reflexivity|]. split; [discriminate|]. split; [congruence|reflexivity].
  - destruct (fdoc_ok_cons _ _ _ _ _ O) as (O1 & O2 & O3 & O4).
    assert (O5 : tpart_ok q = true) by (cbn [fdoc_ok] in O4; rewrite !andb_true_iff in O4; tauto).
    change (code_apart ((p, ls) :: (q, ls2) :: d)) with (negb (is_list_part p && is_code_part q && Nat.eqb (List.length ls) 0) && code_apart ((q, ls2) :: d)) in A. apply andb_true_iff in A as [A1 A2].
    rewrite html_fdoc_cons. exists (html_tpart s p), (block_end p ++ repeat 10 (shown_lines (is_table p) ls)), (html_fdoc s ((q, ls2) :: d)). split; [rewrite <- !app_assoc; reflexivity|]. split; [exact B3|]. split; [apply nls_blank|]. split; [discriminate|].
    split; [|split; [|exact (IH O4 C3 A2)]].
    + intro N. cbn [map fst pre_next] in N. rewrite (code_part q O5) in N. apply nls_end. destruct (is_list_part p) eqn:L; [right|left; reflexivity]. rewrite N in A1. cbn [andb] in A1. apply negb_true_iff in A1.
      destruct p as [[]|]; try discriminate L. cbn [is_table]. apply shown_some. destruct ls; [discriminate A1|discriminate].
    + intros N _. assert (L : is_list_part p = false) by (destruct p as [[]|]; try discriminate N; reflexivity). destruct (nls_end p (shown_lines (is_table p) ls) (or_introl L)) as (w & ->). apply in_or_app. right. left. reflexivity.
Qed.
Theorem layout_back : forall v s md u strict lead d, forallb blank_line lead = true -> fdoc_ok d = true -> tidy (blocks_in d) = true -> countable (map to_hpart (blocks_in d)) -> code_apart d = true ->
  exists html, creole2html (mkopts true v s) md (wr_lines lead ++ wr_fdoc d) = (Ok html, md) /\ html2creole u strict html = Ok (wr_tdoc (laid (blocks_in d))).
Proof.
  intros v s md u strict lead d H1 H2 H3 H4 H5. exists (html_fdoc s d). split; [apply fdoc_spec; assumption|]. apply to_creole; [exact H3|exact H4|].
  exists [], (html_fdoc s d), []. split; [rewrite app_nil_r; reflexivity|]. split; [reflexivity|]. split; [reflexivity|]. apply layout_fits; assumption.
Qed.
