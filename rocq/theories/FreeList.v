(** * Lists whose items start with any sequence of bullets: the proofs behind Spec39.v *)
From Coq Require Import String List Arith NArith ZArith Bool Lia.
From Verif Require Import PyStr PyStrFacts GNames Regex Rules RegexFacts RegexRun Utils DocTree CreoleParser ParserFacts
  Res HtmlEmitter EmitterFacts HtmlToolsFacts Spec4 Spec5 InlineRun InlineParse BlockRun BlockHits TableHits BlockParse DocParse Spec39.
Import ListNotations.
Open Scope N_scope.

Section Free.
  Variable c : cfg.
  Hypothesis no_toc : use_toc c = false.
  Notation doc_h := (mkn KDocument None).
  Notation showns := (showns c).

  (** an open list: kind, depth, the items that are complete, the content of the open item *)
  Record entry := mke { e_o : bool; e_l : nat; e_lch : list node; e_ch : list node }.
  Definition e_key (e : entry) : bool * nat := (e_o e, e_l e).
  Definition e_frames (e : entry) : list frame := [(item_h (e_l e), e_ch e); (list_h (e_l e) (e_o e), e_lch e)].
  Definition frames (dch : list node) (es : list entry) : list frame := flat_map e_frames es ++ [(doc_h, dch)].
  (** [out] is what is written up to the end of the open item *)
  Fixpoint opn (dch : list node) (es : list entry) (out : str) : Prop :=
    match es with
    | [] => showns doc_h (rev dch) out
    | e :: r => exists out0 lw w, opn dch r out0 /\ showns (list_h (e_l e) (e_o e)) (rev (e_lch e)) lw /\ showns (item_h (e_l e)) (rev (e_ch e)) w /\
        nobreak (e_ch e) /\
        out = out0 ++ match r with [] => [] | _ => [10] end ++ start_list (e_key e) ++ lw ++ [10] ++ tabs (S (e_l e)) ++ $ "<li>" ++ w
    end.

  Lemma close_shown : forall h e lw w, showns (list_h (e_l e) (e_o e)) (rev (e_lch e)) lw -> showns (item_h (e_l e)) (rev (e_ch e)) w ->
    shown c h (Nd (list_h (e_l e) (e_o e)) (rev (Nd (item_h (e_l e)) (rev (e_ch e)) :: e_lch e)))
      ((if kind_beq (hk h) KDocument then [] else [10]) ++ start_list (e_key e) ++ lw ++ [10] ++ tabs (S (e_l e)) ++ $ "<li>" ++ w ++ end_list (e_key e)).
  Proof.
    intros h [o l lch ch] lw w H1 H2. cbn [e_o e_l e_lch e_ch e_key] in *. unfold start_list, end_list. cbn [fst snd].
    pose proof (shown_list c h l o (rev (Nd (item_h l) (rev ch) :: lch)) (lw ++ [10] ++ tabs (S l) ++ $ "<li>" ++ w ++ $ "</li>")) as A.
    assert (B : showns (list_h l o) (rev (Nd (item_h l) (rev ch) :: lch)) (lw ++ [10] ++ tabs (S l) ++ $ "<li>" ++ w ++ $ "</li>")).
    { cbn [rev]. apply showns_snoc; [exact H1|]. apply shown_item. exact H2. }
    specialize (A B). match goal with A : shown _ _ _ ?x |- shown _ _ _ ?y => replace y with x; [exact A|] end.
    repeat rewrite <- app_assoc. reflexivity.
  Qed.
  (** the innermost list ends *)
  Lemma close_one : forall dch e es out, opn dch (e :: es) out -> es <> [] -> exists e2 r, es = e2 :: r /\ 
    let e2' := mke (e_o e2) (e_l e2) (e_lch e2) (Nd (list_h (e_l e) (e_o e)) (rev (Nd (item_h (e_l e)) (rev (e_ch e)) :: e_lch e)) :: e_ch e2) in
    pop_n 2 (frames dch (e :: es)) = frames dch (e2' :: r) /\ opn dch (e2' :: r) (out ++ end_list (e_key e)).
  Proof.
    intros dch e [|e2 r] out H Hn; [congruence|]. exists e2, r. split; [reflexivity|]. cbv zeta. split; [reflexivity|].
    destruct H as (out0 & lw & w & H0 & H1 & H2 & _ & ->). destruct H0 as (out1 & lw1 & w1 & G0 & G1 & G2 & _ & ->).
    pose proof (close_shown (item_h (e_l e2)) e lw w H1 H2) as K. change (kind_beq (hk (item_h (e_l e2))) KDocument) with false in K. cbv iota in K.
    eexists out1, lw1, _. cbn [e_o e_l e_lch e_ch]. split; [exact G0|]. split; [exact G1|]. split; [cbn [rev]; apply showns_snoc; [exact G2|exact K]|].
    split; [destruct (e_o e); discriminate|].
    unfold e_key. cbn [e_o e_l]. repeat rewrite <- app_assoc. reflexivity.
  Qed.
  Lemma close_last : forall dch e out, opn dch [e] out -> exists dch',
    pop_n 2 (frames dch [e]) = frames dch' [] /\ nobreak dch' /\ opn dch' [] (out ++ end_list (e_key e)).
  Proof.
    intros dch e out (out0 & lw & w & H0 & H1 & H2 & _ & ->). eexists. split; [reflexivity|].
    split; [destruct (e_o e); discriminate|].
    cbn [opn rev]. pose proof (close_shown doc_h e lw w H1 H2) as K. cbn [opn] in H0.
    pose proof (showns_snoc c doc_h (rev dch) _ out0 _ H0 K) as F.
    match goal with F : InlineParse.showns _ _ _ ?x |- InlineParse.showns _ _ _ ?y => replace y with x; [exact F|] end.
    cbn [hk mkn kind_beq]. repeat (rewrite <- ?app_assoc; cbn [app]). reflexivity.
  Qed.
  Lemma close_n : forall n dch es out, opn dch es out -> (n < List.length es)%nat -> exists es',
    pop_n (2 * n) (frames dch es) = frames dch es' /\ opn dch es' (out ++ flat_map end_list (firstn n (map e_key es))) /\
    map e_key es' = skipn n (map e_key es).
  Proof.
    induction n as [|n IH]; intros dch es out H L.
    - exists es. split; [reflexivity|]. cbn [firstn flat_map skipn]. rewrite app_nil_r. auto.
    - destruct es as [|e es]; [cbn [List.length] in L; lia|]. assert (Hn : es <> []) by (destruct es; [cbn [List.length] in L; lia|discriminate]).
      destruct (close_one dch e es out H Hn) as (e2 & r & -> & P1 & P2). set (e2' := mke _ _ _ _) in *.
      destruct (IH dch (e2' :: r) _ P2 ltac:(cbn [List.length] in *; lia)) as (es' & Q1 & Q2 & Q3).
      exists es'. replace (2 * S n)%nat with (2 + 2 * n)%nat by lia. rewrite pop_n_add, P1, Q1. split; [reflexivity|].
      assert (EM : map e_key (e2' :: r) = map e_key (e2 :: r)) by reflexivity. rewrite EM in Q2, Q3. cbn [map firstn skipn flat_map]. split; [|exact Q3].
      rewrite app_assoc. exact Q2.
  Qed.

  (** the search for the list an item joins *)
  Lemma find_free : forall dch o l es n, 
    match joins o l (map e_key es) with
    | Some k => (k < List.length es)%nat /\ find_list l n (frames dch es) = Some ((n + 2 * k + 1)%nat, list_h l o)
    | None => exists n' h, find_list l n (frames dch es) = Some (n', h) /\ kind_beq (hk h) (list_kind o) = false
    end.
  Proof.
    intros dch o l. induction es as [|[o1 l1 lch ch] es IH]; intro n.
    - exists n, doc_h. split; [reflexivity|]. destruct o; reflexivity.
    - cbn [map joins e_key e_o e_l]. unfold frames. cbn [flat_map e_frames app e_o e_l e_lch e_ch].
      assert (F : forall n, find_list l n ((item_h l1, ch) :: (list_h l1 o1, lch) :: frames dch es) =
        if Nat.eqb l1 l then Some (S n, list_h l1 o1) else find_list l (S (S n)) (frames dch es)).
      { intro n0. cbn [find_list]. change (kind_in (hk (item_h l1)) list_kinds) with false. change (kind_in (hk (item_h l1)) [KDocument]) with false. cbn [andb orb].
        unfold list_h at 1 2 3. cbn [hk hlevel mkl]. assert (kind_in (list_kind o1) list_kinds = true) as -> by (destruct o1; reflexivity).
        assert (kind_in (list_kind o1) [KDocument] = false) as -> by (destruct o1; reflexivity). cbn [andb]. rewrite orb_false_r. reflexivity. }
      fold (frames dch es). rewrite F. destruct (Nat.eqb_spec l1 l) as [->|N].
      + destruct (Bool.eqb_spec o1 o) as [->|M].
        * split; [cbn [List.length]; lia|]. f_equal. f_equal. lia.
        * exists (S n), (list_h l o1). split; [reflexivity|]. destruct o1, o; (reflexivity || congruence).
      + specialize (IH (S (S n))). destruct (joins o l (map e_key es)) as [k|].
        * destruct IH as [A B]. split; [cbn [List.length]; lia|]. rewrite B. f_equal. f_equal. lia.
        * exact IH.
  Qed.

  (** one line *)
  Definition mark_of (x : lline) : list_line := (l_bullets x, wr_inls (l_text x)).
  Lemma fine_facts : forall x, line_fine x = true -> List.length (l_bullets x) = S (l_depth x) /\
    last_is (N.eqb (list_mark (l_numbered x))) (l_bullets x) = true /\ item_text_ok (l_text x) = true /\ list_line_ok (mark_of x).
  Proof.
    intros [bs t] H. unfold line_fine, l_depth, l_numbered, mark_of in *. cbn [l_bullets l_text] in *. rewrite !andb_true_iff in H. destruct H as [[H1 H2] H3].
    split; [destruct bs; [discriminate|cbn [List.length]; lia]|]. split; [|split; [exact H3|]].
    - assert (N : bs <> []) by (destruct bs; discriminate). destruct (exists_last N) as (v & d & ->). rewrite forallb_app in H2. apply andb_true_iff in H2 as [_ H2]. cbn [forallb] in H2.
      rewrite andb_true_r in H2. unfold last_is. rewrite rev_app_distr. cbn [rev app head_is]. unfold bullet in H2. apply orb_true_iff in H2 as [H2|H2]; apply N.eqb_eq in H2; subst d; reflexivity.
    - unfold item_text_ok in H3. rewrite !andb_true_iff in H3. unfold list_line_ok. cbn [fst snd]. split; [exact H2|]. split; [destruct bs; discriminate|]. tauto.
  Qed.
  Lemma frames_top : forall dch e es, frames dch (e :: es) = (item_h (e_l e), e_ch e) :: (list_h (e_l e) (e_o e), e_lch e) :: frames dch es.
  Proof. reflexivity. Qed.
  Lemma item_any : forall x p s1 s2 l o bullets t, List.length bullets = S l -> last_is (N.eqb (list_mark o)) bullets = true ->
    x = item_ms p (bullets, t) -> forall n h n2 h2, 
    find_list l 0 (stk s1) = Some (n, h) -> find_list l 0 (stk s2) = Some (n2, h2) -> kind_beq (hk h2) (list_kind o) = true ->
    (if kind_beq (hk h) (list_kind o) then set_stk (pop_n n (stk s1)) s1 else open_ (list_h l o) (upto [KListItem; KDocument] s1)) = set_stk (pop_n n2 (stk s2)) s2 ->
    item_repl x s1 = item_repl x s2.
  Proof.
    intros x p s1 s2 l o bullets t Hlen Hlast -> n h n2 h2 F1 F2 K E. unfold item_repl.
    rewrite !(need_some G_item_head _ _ _ bullets) by reflexivity. rewrite !(need_some G_item_text _ _ _ t) by reflexivity.
    unfold last_is in Hlast. destruct (rev bullets) as [|d r]; [discriminate|]. cbn [head_is] in Hlast. apply N.eqb_eq in Hlast. subst d.
    rewrite mark_kind. rewrite Hlen. replace (S l - 1)%nat with l by lia. rewrite F1, F2, K. unfold list_h in E. rewrite <- E. destruct (kind_beq (hk h) (list_kind o)); reflexivity.
  Qed.
  Definition st (dch : list node) (es : list entry) : ps := mkps (frames dch es) false [] false.
  Lemma line_open : forall x p dch es out, line_fine x = true -> es <> [] -> opn dch es out -> exists es' out',
    item_repl (item_ms p (mark_of x)) (st dch es) = st dch es' /\ es' <> [] /\ opn dch es' out' /\
    (forall r, out ++ html_rest (strict c) (map e_key es) (x :: r) = out' ++ html_rest (strict c) (map e_key es') r).
  Proof.
    intros x p dch es out Hx Hn Ho. destruct (fine_facts x Hx) as (Hlen & Hlast & Ht & _). set (o := l_numbered x) in *. set (l := l_depth x) in *.
    pose proof (find_free dch o l es 0) as F. destruct (joins o l (map e_key es)) as [k|] eqn:J.
    - destruct F as [Hk F]. destruct (close_n k dch es out Ho Hk) as (es' & P1 & P2 & P3).
      assert (J0 : joins o l (map e_key es') = Some O).
      { rewrite P3. clear -J. revert k J. induction (map e_key es) as [|[o1 l1] q IH]; intros k J; [discriminate|]. cbn [joins] in J.
        destruct (Nat.eqb l1 l) eqn:E1.
        - destruct (Bool.eqb o1 o) eqn:E2; [|discriminate]. injection J as <-. cbn [skipn joins]. rewrite E1, E2. reflexivity.
        - destruct (joins o l q) as [k'|] eqn:J'; [|discriminate]. injection J as <-. cbn [skipn]. apply IH. reflexivity. }
      pose proof (find_free dch o l es' 0) as F'. rewrite J0 in F'. destruct F' as [Hk' F'].
      assert (R : item_repl (item_ms p (mark_of x)) (st dch es) = item_repl (item_ms p (mark_of x)) (st dch es')).
      { apply (item_any _ p (st dch es) (st dch es') l o (l_bullets x) (wr_inls (l_text x)) Hlen Hlast eq_refl _ _ _ _ F F'); [destruct o; reflexivity|].
        assert (kind_beq (hk (list_h l o)) (list_kind o) = true) as -> by (destruct o; reflexivity). unfold st, set_stk. cbn [stk txt used perr]. f_equal.
        replace (0 + 2 * k + 1)%nat with (2 * k + 1)%nat by lia. rewrite pop_n_add, P1. reflexivity. }
      destruct es' as [|[o2 l2 lch ch] es']; [cbn [List.length] in Hk'; lia|]. cbn [map joins e_key e_o e_l] in J0.
      destruct (Nat.eqb_spec l2 l) as [->|]; [|destruct (joins o l (map e_key es')); discriminate]. destruct (Bool.eqb_spec o2 o) as [->|]; [|discriminate].
      destruct P2 as (out0 & lw & w & G0 & G1 & G2 & G3 & EO). cbn [e_o e_l e_lch e_ch] in *.
      assert (A : at_list c l o (frames dch es') (lw ++ [10] ++ tabs (S l) ++ $ "<li>" ++ w ++ $ "</li>") (st dch (mke o l lch ch :: es'))).
      { exists [(item_h l, ch)], lch, (Nd (item_h l) (rev ch) :: lch). split; [reflexivity|]. split; [exact G3|].
        split; [constructor; [|constructor]; split; [split; discriminate|discriminate]|]. split; [reflexivity|]. cbn [rev]. apply showns_snoc; [exact G1|]. apply shown_item. exact G2. }
      destruct (item_open c (l_bullets x) (l_text x) l o _ _ _ p Hlen Hlast Ht A) as (ch' & lch' & E & Hso & S1 & S2).
      exists (mke o l lch' ch' :: es'). eexists. split; [etransitivity; [exact R|exact E]|]. split; [discriminate|]. split.
      + exists out0. eexists. eexists. cbn [e_o e_l e_lch e_ch]. split; [exact G0|]. split; [exact S2|]. split; [exact S1|]. split; [apply solid_nobreak; exact Hso|reflexivity].
      + intro r. cbn [html_rest]. fold o l. rewrite J. rewrite app_assoc, EO. rewrite <- P3. cbn [map]. unfold e_key at 2 4. cbn [e_o e_l]. unfold start_item, e_key. cbn [e_o e_l].
        repeat rewrite <- app_assoc. reflexivity.
    - destruct F as (n' & h & F & Hh). destruct es as [|e es]; [congruence|].
      assert (A : at_list c l o (frames dch (e :: es)) [] (mkps ((list_h l o, []) :: frames dch (e :: es)) false [] false)).
      { exists [], [], []. repeat split; try constructor. }
      assert (R : item_repl (item_ms p (mark_of x)) (st dch (e :: es)) = item_repl (item_ms p (mark_of x)) (mkps ((list_h l o, []) :: frames dch (e :: es)) false [] false)).
      { pose proof (find_inner l o (frames dch (e :: es)) [] 0%nat [] (Forall_nil _)) as F2.
        apply (item_any _ p (st dch (e :: es)) (mkps ((list_h l o, []) :: frames dch (e :: es)) false [] false) l o (l_bullets x) (wr_inls (l_text x)) Hlen Hlast eq_refl _ _ _ _ F F2); [destruct o; reflexivity|]. rewrite Hh.
        destruct Ho as (_ & _ & _ & _ & _ & _ & Hb & _). unfold upto, st. rewrite frames_top. rewrite cleanup_nobreak by exact Hb. reflexivity. }
      destruct (item_open c (l_bullets x) (l_text x) l o _ _ _ p Hlen Hlast Ht A) as (ch' & lch' & E & Hso & S1 & S2).
      exists (mke o l lch' ch' :: e :: es). eexists. split; [etransitivity; [exact R|exact E]|]. split; [discriminate|]. split.
      + exists out. eexists. eexists. cbn [e_o e_l e_lch e_ch]. split; [exact Ho|]. split; [exact S2|]. split; [exact S1|]. split; [apply solid_nobreak; exact Hso|reflexivity].
      + intro r. cbn [html_rest]. fold o l. rewrite J. cbn [map]. unfold start_item, e_key. cbn [e_o e_l app].
        repeat (rewrite <- ?app_assoc; cbn [app]). reflexivity.
  Qed.
  Lemma lines_open : forall ls dch es out, forallb line_fine ls = true -> es <> [] -> opn dch es out -> exists es' out',
    steps (map mark_of ls) (st dch es) = st dch es' /\ es' <> [] /\ opn dch es' out' /\
    out ++ html_rest (strict c) (map e_key es) ls = out' ++ flat_map end_list (map e_key es').
  Proof.
    induction ls as [|x ls IH]; intros dch es out Hok Hn Ho.
    - exists es, out. split; [reflexivity|]. auto.
    - cbn [forallb] in Hok. apply andb_true_iff in Hok as [Hx Hok]. destruct (line_open x [] dch es out Hx Hn Ho) as (es1 & out1 & E & N1 & O1 & Eq).
      destruct (IH dch es1 out1 Hok N1 O1) as (es2 & out2 & E2 & N2 & O2 & Eq2). exists es2, out2. cbn [map]. rewrite steps_cons by reflexivity. rewrite E, E2.
      split; [reflexivity|]. split; [exact N2|]. split; [exact O2|]. rewrite Eq, Eq2. reflexivity.
  Qed.
  Lemma close_all : forall es dch out, es <> [] -> opn dch es out -> exists dch',
    pop_n (2 * List.length es) (frames dch es) = [(doc_h, dch')] /\ nobreak dch' /\ showns doc_h (rev dch') (out ++ flat_map end_list (map e_key es)).
  Proof.
    intros es dch out Hn Ho. assert (L : (List.length es - 1 < List.length es)%nat) by (destruct es; [congruence|cbn [List.length]; lia]).
    destruct (close_n _ dch es out Ho L) as (es' & P1 & P2 & P3).
    assert (L' : List.length es' = 1%nat). { rewrite <- (map_length e_key), P3, skipn_length, map_length. lia. }
    destruct es' as [|e [|]]; try discriminate. destruct (close_last dch e _ P2) as (dch' & Q1 & Q2 & Q3). exists dch'.
    replace (2 * List.length es)%nat with (2 * (List.length es - 1) + 2)%nat by lia. rewrite pop_n_add, P1, Q1. split; [reflexivity|]. split; [exact Q2|].
    cbn [opn] in Q3. cbn [map] in P3. rewrite <- (firstn_skipn (List.length es - 1) (map e_key es)) at 1. rewrite flat_map_app, <- P3. cbn [flat_map]. rewrite app_nil_r, app_assoc. exact Q3.
  Qed.
  Lemma frames_length : forall dch es, List.length (frames dch es) = S (2 * List.length es).
  Proof. intros dch es. unfold frames. rewrite app_length. cbn [List.length]. induction es as [|e es IH]; [reflexivity|]. cbn [flat_map]. rewrite app_length. cbn [List.length e_frames] in *. lia. Qed.
  Lemma free_open : forall p x ls s out, lead p -> free_ok (x :: ls) = true -> atdoc c s out ->
    openst c (list_repl (mkm (p ++ list_text (mark_of x) (map mark_of ls)) [(G_list, p ++ list_text (mark_of x) (map mark_of ls))]) s) (out ++ html_free (strict c) (x :: ls)).
  Proof.
    intros p x ls s out Hp Hok (dch & -> & Hd & Sh). pose proof Hok as Hok'. cbn [free_ok forallb] in Hok. rewrite !andb_true_iff in Hok. destruct Hok as [Hlen1 [Hx Hls]].
    destruct (fine_facts x Hx) as (Hlen & Hlast & Ht & Hl). apply Nat.eqb_eq in Hlen1.
    assert (Hls' : Forall list_line_ok (map mark_of ls)).
    { apply Forall_forall. intros y Hy. apply in_map_iff in Hy as (z & <- & Hz). rewrite forallb_forall in Hls. apply (fine_facts z (Hls z Hz)). }
    unfold list_repl. rewrite (need_some G_list _ _ _ (p ++ list_text (mark_of x) (map mark_of ls))) by reflexivity.
    change (finditer item_re ?t) with (mts (scan item_re 0 [] t)). unfold list_text. rewrite app_assoc.
    rewrite items_scan by (assumption || reflexivity). rewrite items_steps by reflexivity. rewrite steps_cons by reflexivity.
    set (o := l_numbered x) in *. set (l := l_depth x) in *.
    assert (A : at_list c l o [(doc_h, dch)] [] (mkps ((list_h l o, []) :: [(doc_h, dch)]) false [] false)).
    { exists [], [], []. repeat split; try constructor. }
    rewrite (item_fresh (item_ms [] (mark_of x)) (l_bullets x) (wr_inls (l_text x)) l o doc_h dch []) by
      (reflexivity || assumption || (right; reflexivity) || (intros k n _; exists n; reflexivity)).
    destruct (item_open c (l_bullets x) (l_text x) l o _ _ _ [] Hlen Hlast Ht A) as (ch' & lch' & E & Hso & S1 & S2). 
    assert (E' : item_repl (item_ms [] (mark_of x)) (mkps ((list_h l o, []) :: [(doc_h, dch)]) false [] false) = mkps ((item_h l, ch') :: (list_h l o, lch') :: [(doc_h, dch)]) false [] false) by exact E.
    rewrite E'.
    change (mkps ((item_h l, ch') :: (list_h l o, lch') :: [(doc_h, dch)]) false [] false) with (st dch [mke o l lch' ch']).
    destruct (lines_open ls dch [mke o l lch' ch'] (out ++ start_list (o, l) ++ start_item (strict c) l (l_text x)) Hls ltac:(discriminate)) as (es & out' & E2 & Hn & Ho & Eq).
    { exists out. eexists. eexists. cbn [e_o e_l e_lch e_ch]. split; [exact Sh|]. split; [exact S2|]. split; [exact S1|]. split; [apply solid_nobreak; exact Hso|]. reflexivity. }
    rewrite E2. destruct (close_all es dch out' Hn Ho) as (dch' & C1 & C2 & C3).
    pose proof (frames_length dch es) as FL.
    destruct es as [|e es]; [congruence|]. exists (item_h (e_l e)), (e_ch e), ((list_h (e_l e) (e_o e), e_lch e) :: frames dch es), dch'.
    split; [reflexivity|]. split; [destruct Ho as (_ & _ & _ & _ & _ & _ & Hb & _); exact Hb|]. split; [|split; [|split; [exact C2|]]].
    - change ((item_h (e_l e), e_ch e) :: (list_h (e_l e) (e_o e), e_lch e) :: frames dch es) with (frames dch (e :: es)). unfold frames. rewrite removelast_last.
      intros f Hf. apply in_flat_map in Hf as (e0 & _ & [<-|[<-|[]]]); split; cbn [fst]; try discriminate; unfold list_h; cbn [hk mkl]; destruct (e_o e0); discriminate.
    - rewrite frames_top in FL. rewrite frames_top in C1. cbn [List.length] in FL, C1 |- *. etransitivity; [|exact C1]. f_equal. unfold frame in *. lia.
    - cbn [html_free]. fold o l. rewrite <- Eq in C3. cbn [map e_key e_o e_l] in C3. rewrite <- !app_assoc in C3. exact C3.
  Qed.
  Lemma free_text : forall x ls, wr_free (x :: ls) = list_text (mark_of x) (map mark_of ls).
  Proof. intros x ls. unfold wr_free. transitivity (lines_text (map line_of (mark_of x :: map mark_of ls))); [|apply bullets_text]. f_equal. cbn [map]. rewrite map_map. reflexivity. Qed.
  Lemma free_cases : forall ls, free_ok ls = true -> exists x r, ls = x :: r /\ List.length (fst (mark_of x)) = 1%nat /\ list_line_ok (mark_of x) /\ Forall list_line_ok (map mark_of r).
  Proof.
    intros [|x r] H; [discriminate|]. exists x, r. cbn [free_ok forallb] in H. rewrite !andb_true_iff in H. destruct H as [H1 [H2 H3]]. apply Nat.eqb_eq in H1.
    split; [reflexivity|]. split; [exact H1|]. split; [apply (fine_facts x H2)|]. apply Forall_forall. intros y Hy. apply in_map_iff in Hy as (z & <- & Hz). rewrite forallb_forall in H3. apply (fine_facts z (H3 z Hz)).
  Qed.
  Lemma free_no_line : forall x ls T b, list_line_ok (mark_of x) -> m r_line (mk b (([] ++ list_text (mark_of x) ls) ++ T) []) fin = None.
  Proof.
    intros [[|d w] v] ls T b (H1 & H2 & _); [contradiction|]. cbn [fst forallb mark_of l_bullets] in H1. apply andb_true_iff in H1 as [H1 _]. unfold bullet in H1. 
    apply line_no. right. unfold list_text, line_of, mark_of. cbn [fst l_bullets app]. apply orb_true_iff in H1 as [H|H]; apply N.eqb_eq in H; subst d; reflexivity.
  Qed.
  Lemma free_first : forall blog ls, free_ok ls = true -> first_ok c blog (html_free (strict c) ls) (wr_free ls).
  Proof.
    intros blog ls0 Hok T s out b HT Hs Hb. destruct (free_cases ls0 Hok) as (x & ls & -> & Hlen & Hl & Hls).
    rewrite free_text. destruct (list_head (mark_of x) (map mark_of ls) T Hl) as (A1 & A2).
    assert (Hne : list_text (mark_of x) (map mark_of ls) <> []) by (unfold list_text, line_of; destruct (fst (mark_of x)); discriminate).
    assert (Hm : m (block_re blog) (mk b (list_text (mark_of x) (map mark_of ls) ++ T) []) fin = Some (mk (rev (list_text (mark_of x) (map mark_of ls)) ++ b) T [(G_list, list_text (mark_of x) (map mark_of ls))])).
    { apply (list_m_free blog [] (mark_of x) (map mark_of ls) T b fin); try assumption; try reflexivity; [left; reflexivity|apply tail2_tail; exact HT|apply tail2_no_more; exact HT|].
      apply free_no_line. exact Hl. }
    rewrite (mts_hit _ _ _ _ _ Hne Hm). rewrite rest_scan by (exact HT || (apply list_bol; assumption)).
    rewrite (run_cons blog _ _ _ G_list) by (try (eapply atdoc_perr; exact Hs); destruct blog; reflexivity).
    eexists. split; [|reflexivity]. cbn [block_handler]. apply openst_docst. apply (free_open [] x ls s out (or_introl eq_refl) Hok Hs).
  Qed.
  Lemma free_next : forall blog ls, free_ok ls = true -> next_ok c blog (html_free (strict c) ls) (wr_free ls).
  Proof.
    intros blog ls0 Hok T s out b HT Hs Hb. destruct (free_cases ls0 Hok) as (x & ls & -> & Hlen & Hl & Hls).
    rewrite free_text. destruct (list_head (mark_of x) (map mark_of ls) T Hl) as (A1 & A2).
    rewrite (mts_adv blog b (list_text (mark_of x) (map mark_of ls)) T [(G_list, [10] ++ list_text (mark_of x) (map mark_of ls))] A1 A2 Hb).
    - rewrite rest_scan; [|exact HT|cbn [rev]; rewrite <- app_assoc; apply list_bol; assumption].
      match goal with |- context [run blog (line_m :: ?ms) s] => destruct (run_line c blog ms s out Hs) as (s1 & Hs1 & ->) end.
      rewrite (run_cons blog _ _ _ G_list) by (try (eapply atdoc_perr; exact Hs1); destruct blog; reflexivity).
      eexists. split; [|reflexivity]. cbn [block_handler]. rewrite app_assoc. apply openst_docst. apply (free_open [10] x ls s1 (out ++ [10]) (or_intror eq_refl) Hok Hs1).
    - apply (list_m_free blog [10] (mark_of x) (map mark_of ls) T b); try assumption; try reflexivity; [right; reflexivity|apply tail2_tail; exact HT|apply tail2_no_more; exact HT| |].
      + exact (gap_line_adv (list_text (mark_of x) (map mark_of ls) ++ T) b A1 A2).
      + apply (fadv_hit (10 :: list_text (mark_of x) (map mark_of ls)) T). discriminate.
  Qed.

  (** ** documents *)
  Definition fraw (blog : bool) (b : fblock) : str := match b with FBlock b => html_raw blog (strict c) b | FList ls => html_free (strict c) ls end.
  Lemma fblock_first : forall blog b, fblock_ok blog b = true -> first_ok c blog (fraw blog b) (wr_fblock b).
  Proof. intros blog [b|ls] H; [exact (block_first c no_toc blog b H)|exact (free_first blog ls H)]. Qed.
  Lemma fblock_next : forall blog b, fblock_ok blog b = true -> f_after_blank blog b = true -> next_ok c blog (fraw blog b) (wr_fblock b).
  Proof. intros blog [b|ls] H Ha; [exact (block_next c no_toc blog b H Ha)|exact (free_next blog ls H)]. Qed.
  Lemma fblock_head : forall blog b, fblock_ok blog b = true -> truthy (wr_fblock b) = true /\ head_is is_space (wr_fblock b) = false.
  Proof.
    intros blog [b|ls] H; [exact (block_head blog b H)|]. cbn [wr_fblock]. destruct (free_cases ls H) as (x & r & -> & _ & Hl & _). rewrite free_text.
    destruct (list_head (mark_of x) (map mark_of r) [] Hl) as (A & B). rewrite app_nil_r in A, B. auto.
  Qed.
  Definition fafter (d : list fblock) : str := match d with [] => [] | _ => [10; 10] ++ wr_fdoc d end.
  Lemma wr_fdoc_cons : forall b d, wr_fdoc (b :: d) = wr_fblock b ++ fafter d.
  Proof. intros b [|b2 d]; [cbn [wr_fdoc fafter]; rewrite app_nil_r; reflexivity|reflexivity]. Qed.
  Lemma fafter_tail2 : forall blog d, forallb (fblock_ok blog) d = true -> tail2 (fafter d) = true.
  Proof.
    intros blog d H. destruct d as [|b d]; [reflexivity|]. cbn [forallb] in H. apply andb_true_iff in H as [H _]. destruct (fblock_head blog b H) as (A & B).
    unfold fafter. rewrite wr_fdoc_cons. destruct (head_app is_space (wr_fblock b) (fafter d) A) as (G1 & G2). cbn [tail2 app]. rewrite G1, G2, B. reflexivity.
  Qed.
  Definition fraws (blog : bool) (d : list fblock) : str := flat_map (fun b => [10] ++ fraw blog b) d.
  Lemma fdocs_run : forall blog d, forallb (fblock_ok blog) d = true -> forallb (f_after_blank blog) d = true -> forall b s out, docst c s out ->
    exists s', docst c s' (out ++ fraws blog d) /\ run blog (rest_ms blog b (fafter d)) s = s'.
  Proof.
    intros blog d. induction d as [|b d IH]; intros Hok Ha b0 s out Hs.
    - exists s. cbn [fafter rest_ms fraws flat_map]. rewrite app_nil_r. auto.
    - cbn [forallb] in Hok, Ha. apply andb_true_iff in Hok as [H1 H2], Ha as [A1 A2]. pose proof (fafter_tail2 blog d H2) as HT.
      destruct (fblock_next blog b H1 A1 (fafter d) s out (10 :: b0) HT Hs eq_refl) as (s1 & Hs1 & E1).
      destruct (IH H2 A2 (rev (10 :: wr_fblock b) ++ 10 :: b0) s1 _ Hs1) as (s2 & Hs2 & E2). exists s2. split.
      + unfold fraws. cbn [flat_map]. fold (fraws blog d). rewrite <- !app_assoc in Hs2. rewrite <- !app_assoc. exact Hs2.
      + rewrite <- E2, <- E1. unfold fafter at 1. cbn [rest_ms app]. rewrite wr_fdoc_cons. reflexivity.
  Qed.
  Lemma fdoc_run : forall blog b d, fdoc_ok blog (b :: d) = true ->
    exists s', docst c s' (fraw blog b ++ fraws blog d) /\ parse_block blog (wr_fdoc (b :: d)) init_ps = s'.
  Proof.
    intros blog b d H. unfold fdoc_ok in H. cbn [forallb tl] in H. apply andb_true_iff in H as [H A2]. apply andb_true_iff in H as [H1 H2].
    assert (Hi : atdoc c init_ps []) by (exists []; split; [reflexivity|]; split; [exact I|apply showns_nil]).
    destruct (fblock_first blog b H1 (fafter d) init_ps [] [] (fafter_tail2 blog d H2) Hi eq_refl) as (s1 & Hs1 & E1).
    destruct (fdocs_run blog d H2 A2 (rev (wr_fblock b) ++ []) s1 _ Hs1) as (s2 & Hs2 & E2). exists s2. split; [exact Hs2|].
    rewrite <- E2, <- E1, wr_fdoc_cons. reflexivity.
  Qed.
End Free.

Lemma end_gt : forall (w v : str), last_is is_space (w ++ v ++ $ ">") = false.
Proof. intros w v. unfold last_is. rewrite !rev_app_distr. reflexivity. Qed.
Lemma rest_ends : forall s ls open, open <> [] -> exists v, html_rest s open ls = v ++ $ ">".
Proof.
  intros s. induction ls as [|x ls IH]; intros open Hn; cbn [html_rest].
  - destruct (exists_last Hn) as (q & e & ->). rewrite flat_map_app. cbn [flat_map]. rewrite app_nil_r. unfold end_list. rewrite !app_assoc. eexists. reflexivity.
  - destruct (joins (l_numbered x) (l_depth x) open) as [n|] eqn:J.
    + assert (K : skipn n open <> []).
      { clear -J. revert n J. induction open as [|[o d] r IH]; intros n J; [discriminate|]. cbn [joins] in J. destruct (Nat.eqb d (l_depth x)).
        - destruct (Bool.eqb o (l_numbered x)); [|discriminate]. injection J as <-. discriminate.
        - destruct (joins (l_numbered x) (l_depth x) r) as [k|]; [|discriminate]. injection J as <-. cbn [skipn]. apply IH. reflexivity. }
      destruct (IH _ K) as (v & ->). rewrite !app_assoc. eexists. reflexivity.
    + destruct (IH ((l_numbered x, l_depth x) :: open) ltac:(discriminate)) as (v & ->). rewrite !app_assoc. eexists. reflexivity.
Qed.
Lemma html_fblock_solid : forall blog s b, fblock_ok blog b = true -> solid_text (html_fblock blog s b).
Proof.
  intros blog s [b|[|x ls]] H; [apply html_block_solid|discriminate|]. cbn [html_fblock html_free].
  cbn [fblock_ok free_ok] in H. apply andb_true_iff in H as [H _]. apply Nat.eqb_eq in H. unfold l_depth. rewrite H. cbn [Nat.sub].
  destruct (rest_ends s ls [(l_numbered x, 0%nat)] ltac:(discriminate)) as (v & ->). unfold start_list. cbn [fst snd tabs repeat app].
  split; [reflexivity|]. split; [|reflexivity]. rewrite app_assoc. match goal with |- last_is _ (60 :: ?a ++ ?b ++ ?c ++ ?d) = _ => change (60 :: a ++ b ++ c ++ d) with ((60 :: a) ++ b ++ c ++ d) | _ => idtac end.
  unfold last_is. cbn [rev]. rewrite ?rev_app_distr. cbn [rev]. rewrite ?rev_app_distr. cbn [rev app]. reflexivity.
Qed.
Lemma html_fdoc_cons : forall blog s b b2 d, html_fdoc blog s (b :: b2 :: d) = html_fblock blog s b ++ fgap b ++ html_fdoc blog s (b2 :: d).
Proof. reflexivity. Qed.
Lemma html_fdoc_solid : forall blog s d, d <> [] -> forallb (fblock_ok blog) d = true -> solid_text (html_fdoc blog s d).
Proof.
  intros blog s. induction d as [|b d IH]; intros H Hok; [congruence|]. cbn [forallb] in Hok. apply andb_true_iff in Hok as [Hb Hok]. destruct (html_fblock_solid blog s b Hb) as (A & B & C). destruct d as [|b2 d]; [exact (conj A (conj B C))|].
  destruct (IH ltac:(discriminate) Hok) as (D & E & F). rewrite html_fdoc_cons. destruct (head_app is_space (html_fblock blog s b) (fgap b ++ html_fdoc blog s (b2 :: d)) C) as (G1 & G2).
  split; [rewrite G1; exact A|]. split; [|exact G2]. rewrite app_assoc. rewrite last_is_suffix; [exact E|]. destruct (html_fdoc blog s (b2 :: d)); discriminate.
Qed.
Definition flast_nl (d : list fblock) : str := match rev d with FBlock (BList _ _) :: _ | FList _ :: _ => [] | _ => [10] end.
Lemma fraws_html : forall c blog d b, fraw c blog b ++ fraws c blog d = html_fdoc blog (strict c) (b :: d) ++ flast_nl (b :: d).
Proof.
  intros c blog. induction d as [|b2 d IH]; intro b.
  - unfold fraws. cbn [flat_map html_fdoc]. rewrite app_nil_r. unfold flast_nl. cbn [rev app]. destruct b as [b|ls]; [destruct b; reflexivity|cbn [fraw html_fblock]; rewrite app_nil_r; reflexivity].
  - unfold fraws. cbn [flat_map]. fold (fraws c blog d). rewrite <- app_assoc, IH. rewrite html_fdoc_cons. rewrite <- !app_assoc.
    assert (flast_nl (b :: b2 :: d) = flast_nl (b2 :: d)) as ->.
    { unfold flast_nl. cbn [rev]. destruct (rev d); reflexivity. }
    destruct b as [b|ls]; [|reflexivity]. cbn [fraw html_fblock fgap]. unfold html_raw. rewrite <- app_assoc. f_equal. destruct b; reflexivity.
Qed.
Lemma fdoc_no_cr : forall blog d, forallb (fblock_ok blog) d = true -> ~ In 13 (wr_fdoc d).
Proof.
  intros blog. induction d as [|b d IH]; intro H; [intros []|]. cbn [forallb] in H. apply andb_true_iff in H as [H1 H2]. rewrite wr_fdoc_cons.
  intro K. apply in_app_or in K as [K|K].
  - destruct b as [b|ls]; [exact (block_no_cr blog b H1 K)|]. cbn [fblock_ok wr_fblock] in *. destruct (free_cases ls H1) as (x & r & -> & _ & Hl & Hr).
    revert K. unfold wr_free. apply no_cr_lines. apply Forall_forall. intros w Hw. apply in_map_iff in Hw as (y & <- & Hy).
    assert (A : list_line_ok (mark_of y)). { destruct Hy as [<-|Hy]; [exact Hl|]. rewrite Forall_forall in Hr. apply Hr. apply in_map. exact Hy. }
    destruct A as (A1 & _ & _ & A4). cbn [mark_of fst snd] in A1, A4. unfold wr_line. intro K. apply in_app_or in K as [K|[K|K]]; [|discriminate|exact (no_cr _ A4 K)].
    rewrite forallb_forall in A1. specialize (A1 _ K). discriminate.
  - destruct d as [|b2 d]; [destruct K|]. unfold fafter in K. apply in_app_or in K as [[K|[K|[]]]|K]; [discriminate|discriminate|exact (IH H2 K)].
Qed.

Theorem free_document_spec : forall blog v s md d, fdoc_ok blog d = true ->
  creole2html (mkopts blog v s) md (wr_fdoc d) = (Ok (html_fdoc blog s d), md).
Proof.
  intros blog v s md d H. destruct d as [|b d].
  - destruct md as [e t l]. destruct blog, v, t; reflexivity.
  - unfold creole2html. cbn [o_blog o_verbose o_strict]. unfold parse. 
    pose proof H as H'. unfold fdoc_ok in H'. apply andb_true_iff in H' as [H1 _]. rewrite norm_id by (eapply fdoc_no_cr; exact H1).
    set (c := mkcfg (match v with None => 1%Z | Some v => v end) s (md_env md) false).
    destruct (fdoc_run c eq_refl blog b d H) as (s' & Hs & E). rewrite E.
    destruct (docst_emit c s' _ (mkest (md_toc md) (md_log md)) Hs) as (root & -> & Er). cbn [init_toc existsb]. fold c. unfold emit. rewrite Er.
    change (use_toc c) with false. cbv iota beta. cbn [toc log]. rewrite fraws_html. rewrite strip_solid.
    + destruct md. reflexivity.
    + apply html_fdoc_solid; [discriminate|exact H1].
    + unfold flast_nl. destruct (rev (b :: d)) as [|[[]|] r]; auto.
Qed.
