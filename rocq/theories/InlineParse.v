(** * Unambiguous inline text: what the parser builds and what is shown *)
From Coq Require Import String List Arith NArith ZArith Bool Lia.
From Verif Require Import PyStr PyStrFacts GNames Regex Rules RegexFacts RegexRun Utils DocTree CreoleParser ParserFacts
  HtmlEmitter EmitterFacts Spec50 Spec4 HtmlToolsFacts NumFacts NumeralFacts InlineRun UrlRun.
Import ListNotations.
Open Scope N_scope.

Lemma inl_ind' : forall P : inl -> Prop,
  (forall w, P (IText w)) -> (forall d, P (IEsc d)) -> (forall f body, Forall P body -> P (IFace f body)) ->
  (forall t, P (ICode t)) -> (forall a t, P (ILink a t)) -> (forall a t s, P (IImage a t s)) -> (forall u, P (IUrl u)) ->
  P IBreak -> (forall a body, Forall P body -> P (IRich a body)) -> forall i, P i.
Proof.
  intros P H1 H2 H3 H4 H5 H6 H7 H8 H9. fix IH 1. intros [w|d|f body|t|a t|a t s|u| |a body].
  - apply H1.
  - apply H2.
  - apply H3. revert body. fix IHl 1. intros [|x l]; [constructor|]. constructor; [apply IH|apply IHl].
  - apply H4.
  - apply H5.
  - apply H6.
  - apply H7.
  - exact H8.
  - apply H9. revert body. fix IHl 1. intros [|x l]; [constructor|]. constructor; [apply IH|apply IHl].
Qed.

(** ** what is shown *)
Section Shown.
  Variable c : cfg.

  (** [n] is shown as [w], whatever the state of the emitter *)
  Definition shown (h : hdr) (n : node) (w : str) : Prop := forall st, emit_node c h n st = (Ok w, st).
  Definition showns (h : hdr) (l : list node) (w : str) : Prop := forall st, emit_children c h l st = (Ok w, st).

  Lemma showns_nil : forall h, showns h [] [].
  Proof. intros h st. reflexivity. Qed.
  Lemma emit_snoc : forall h n v, shown h n v ->
    forall a st u st', emit_children c h a st = (Ok u, st') -> emit_children c h (a ++ [n]) st = (Ok (u ++ v), st').
  Proof.
    intros h n v Hn. induction a as [|x a IH]; intros st u st' H.
    - cbn [emit_children] in H. injection H as <- <-. cbn [app emit_children]. rewrite Hn. rewrite app_nil_r. reflexivity.
    - cbn [app emit_children] in *. destruct (emit_node c h x st) as [[y|e] s1]; [|discriminate].
      destruct (emit_children c h a s1) as [[z|e] s2] eqn:E; [|discriminate]. injection H as <- <-.
      rewrite (IH _ _ _ E). rewrite app_assoc. reflexivity.
  Qed.
  Lemma showns_snoc : forall h a n u v, showns h a u -> shown h n v -> showns h (a ++ [n]) (u ++ v).
  Proof. intros h a n u v Ha Hn st. apply emit_snoc; [exact Hn|]. apply Ha. Qed.
  Lemma emit_last : forall h n n' v,
    (forall st x s', emit_node c h n st = (Ok x, s') -> emit_node c h n' st = (Ok (x ++ v), s')) ->
    forall a st u st', emit_children c h (a ++ [n]) st = (Ok u, st') -> emit_children c h (a ++ [n']) st = (Ok (u ++ v), st').
  Proof.
    intros h n n' v Hn. induction a as [|x a IH]; intros st u st' H.
    - cbn [app emit_children] in *. destruct (emit_node c h n st) as [[y|e] s1] eqn:E; [|discriminate]. injection H as <- <-.
      rewrite (Hn _ _ _ E). rewrite !app_nil_r. reflexivity.
    - cbn [app emit_children] in *. destruct (emit_node c h x st) as [[y|e] s1]; [|discriminate].
      destruct (emit_children c h (a ++ [n]) s1) as [[z|e] s2] eqn:E; [|discriminate]. injection H as <- <-.
      rewrite (IH _ _ _ E). rewrite app_assoc. reflexivity.
  Qed.
  Lemma shown_text : forall h w, shown h (Nd (mkn KText (Some w)) []) (escape w).
  Proof. intros h w st. rewrite emit_node_eq. reflexivity. Qed.

  (** more nodes: whatever the first ones show, [w] is shown after it *)
  Definition grows (h : hdr) (ch ch' : list node) (w : str) : Prop :=
    forall st out st1, emit_children c h (rev ch) st = (Ok out, st1) -> emit_children c h (rev ch') st = (Ok (out ++ w), st1).
  Lemma grows_showns : forall h ch ch' w, grows h ch ch' w -> forall out, showns h (rev ch) out -> showns h (rev ch') (out ++ w).
  Proof. intros h ch ch' w H out Ho st. apply H, Ho. Qed.

  (** the nodes end with something that is not a line break *)
  Definition solid (ch : list node) : Prop := exists n r, ch = n :: r /\ nkind n <> KBreak.

  (** [F] only adds nodes to the current node, and they are shown as [w] ([brk]: the last one is a line break) *)
  Definition adds (h : hdr) (F : ps -> ps) (w : str) (brk : bool) : Prop :=
    forall ch up t u, (t = true -> top_text ch) ->
      exists ch' t', F (mkps ((h, ch) :: up) t u false) = mkps ((h, ch') :: up) t' u false /\
        (t' = true -> top_text ch') /\ (brk = false -> solid ch') /\ grows h ch ch' w.

  Lemma adds_comp : forall h F G v w b b', adds h F v b -> adds h G w b' -> adds h (fun s => G (F s)) (v ++ w) b'.
  Proof.
    intros h F G v w b b' HF HG ch up t u Ht. destruct (HF ch up t u Ht) as (ch1 & t1 & E1 & H1 & _ & S1).
    destruct (HG ch1 up t1 u H1) as (ch2 & t2 & E2 & H2 & B2 & S2). exists ch2, t2. rewrite E1. split; [exact E2|].
    split; [exact H2|]. split; [exact B2|]. intros st out st1 Ho. rewrite app_assoc. apply S2, S1, Ho.
  Qed.
  Lemma adds_ext : forall h F G w b, (forall s, F s = G s) -> adds h F w b -> adds h G w b.
  Proof.
    intros h F G w b E HF ch up t u Ht. destruct (HF ch up t u Ht) as (ch1 & t1 & E1 & H). exists ch1, t1.
    rewrite <- E. split; assumption.
  Qed.
  Lemma adds_id : forall h, adds h (fun s => s) [] true.
  Proof.
    intros h ch up t u Ht. exists ch, t. split; [reflexivity|]. split; [exact Ht|]. split; [discriminate|].
    intros st out st1 Ho. rewrite app_nil_r. exact Ho.
  Qed.
  (** one more node *)
  Lemma adds_node : forall h n w, shown h n w ->
    adds h (fun s => set_txt false (append_child n s)) w (kind_beq (nkind n) KBreak).
  Proof.
    intros h n w Hn ch up t u Ht. exists (n :: ch), false. split; [reflexivity|]. split; [discriminate|]. split.
    - intro Hb. exists n, ch. split; [reflexivity|]. intro E. rewrite E in Hb. discriminate.
    - intros st out st1 Ho. cbn [rev]. apply emit_snoc; assumption.
  Qed.
  Lemma adds_text : forall h w, adds h (add_text w) (escape w) false.
  Proof.
    intros h w ch up t u Ht. unfold add_text. cbn [txt]. destruct t.
    - destruct (Ht eq_refl) as (th & x & r & -> & Hk & Hc). cbn [stk]. rewrite Hc. do 2 eexists. split; [reflexivity|].
      split; [|split].
      + intros _. do 3 eexists. split; [reflexivity|]. split; [exact Hk|reflexivity].
      + intros _. do 2 eexists. split; [reflexivity|]. cbn [nkind hk]. rewrite Hk. discriminate.
      + intros st out st1 Ho. cbn [rev] in *. eapply emit_last; [|apply Ho].
        intros st0 y s' H. rewrite emit_node_eq in *. cbn [hk hcontent]. rewrite Hk, Hc in *. cbv zeta in *.
        injection H as <- <-. rewrite escape_app. reflexivity.
    - exists (Nd (mkn KText (Some w)) [] :: ch), true. split; [reflexivity|]. split; [|split].
      + intros _. do 3 eexists. split; [reflexivity|]. split; reflexivity.
      + intros _. do 2 eexists. split; [reflexivity|]. discriminate.
      + intros st out st1 Ho. cbn [rev]. apply emit_snoc; [apply shown_text|exact Ho].
  Qed.

  (** ** the link text: no images and no breaks in it *)
  Lemma link_char : forall b d t, is_dot d = true -> startswith [123; 123] (d :: t) = false -> startswith [92; 92] (d :: t) = false ->
    m link_re (mk b (d :: t) []) fin = Some (mk (d :: b) t [(G_char, [d])]).
  Proof.
    intros b d t Hd H1 H2. unfold link_re, alts. rewrite !m_alt. rewrite image_no by exact H1. rewrite linebreak_no by exact H2.
    cbn [orelse]. unfold r_char, dot. rewrite m_grp, m_chr, Hd. unfold fin. cbn [bef rest caps].
    f_equal. f_equal. f_equal. f_equal. exact (firstn_grp [d] t).
  Qed.
  Lemma link_chars : forall x b, forallb is_dot x = true -> contains [123; 123] x = false -> contains [92; 92] x = false ->
    scan link_re 0 b x = map (fun d => inr (mkm [d] [(G_char, [d])])) x.
  Proof.
    induction x as [|d x IH]; intros b Hd H1 H2; [rewrite scan_end, at_pos_miss; reflexivity|].
    cbn [forallb] in Hd. apply andb_true_iff in Hd as [Hd Hx]. cbn [contains] in H1, H2. apply orb_false_iff in H1 as [H1 H1'], H2 as [H2 H2'].
    change (d :: x) with ([d] ++ x) at 1. rewrite (scan_hit _ _ [d] x [(G_char, [d])]); [|discriminate|apply (link_char b d x); assumption].
    cbn [map]. rewrite IH by assumption. reflexivity.
  Qed.
  Lemma link_text_adds : forall h x, forallb is_dot x = true -> contains [123; 123] x = false -> contains [92; 92] x = false -> x <> [] ->
    adds h (fun s => fold_left (replace_ link_groups link_text_handler) (finditer link_re x) s) (escape x) false.
  Proof.
    intros h x Hd H1 H2 Hn. unfold finditer. rewrite link_chars by assumption.
    replace (flat_map _ (map _ x)) with (map (fun d => mkm [d] [(G_char, [d])]) x).
    2:{ clear. induction x as [|d x IH]; [reflexivity|]. cbn [map flat_map app]. rewrite IH. reflexivity. }
    clear Hd H1 H2. revert Hn. induction x as [|d x IH]; intro Hn; [congruence|].
    assert (S : forall s, perr s = false -> replace_ link_groups link_text_handler s (mkm [d] [(G_char, [d])]) = add_text [d] s).
    { intros s Hs. unfold replace_. rewrite Hs. reflexivity. }
    assert (A : adds h (fun s => replace_ link_groups link_text_handler s (mkm [d] [(G_char, [d])])) (escape [d]) false).
    { intros ch up t u Ht. rewrite S by reflexivity. apply adds_text. exact Ht. }
    change (d :: x) with ([d] ++ x). rewrite escape_app. destruct x as [|e x].
    - cbn [app map fold_left]. change (escape []) with ([] : str). rewrite app_nil_r. exact A.
    - rewrite map_app. cbn [map app fold_left]. exact (adds_comp h _ _ _ _ false false A (IH ltac:(discriminate))).
  Qed.

  (** ** typefaces *)
  Definition face_kind (f : face) : kind :=
    match f with Bold => KStrong | Italic => KEmphasis | Mono => KMonospace | Under => KUnderline
               | Sup => KSuperscript | Sub => KSubscript | Small => KSmall | Del => KDelete end.
  Lemma mark_adds : forall h f gt x v pi w, group gt x = Some v ->
    adds (mkn (face_kind f) None) (pi v) w false ->
    adds h (inline_mark pi (face_kind f) gt x) (elem (face_tag f) w) false.
  Proof.
    intros h f gt x v pi w Hv HP ch up t u Ht. unfold inline_mark. unfold open_, set_stk, set_txt. cbn [stk txt used perr].
    rewrite (need_some _ _ _ _ _ Hv).
    destruct (HP [] ((h, ch) :: up) false u) as (ch1 & t1 & E & _ & B & Sh); [discriminate|]. rewrite E.
    destruct (B eq_refl) as (n & r & -> & Hn).
    destruct (upto_mark (face_kind f) (n :: r) ((h, ch) :: up) (mkps ((mkn (face_kind f) None, n :: r) :: (h, ch) :: up) t1 u false) eq_refl) as (ch2 & E2 & [->|(n' & Ec & Hb)]).
    2:{ injection Ec as <- <-. contradiction. }
    rewrite E2. unfold set_stk. cbn [stk txt used perr pop1].
    exists (Nd (mkn (face_kind f) None) (rev (n :: r)) :: ch), false. split; [reflexivity|]. split; [discriminate|]. split.
    - intros _. do 2 eexists. split; [reflexivity|]. destruct f; discriminate.
    - intros st0 out st1 Ho. change (rev (?y :: ch)) with (rev ch ++ [y]). apply emit_snoc; [|exact Ho].
      pose proof (grows_showns _ _ _ _ Sh [] (showns_nil _)) as Sh'. clear Sh. rename Sh' into Sh. intro st. cbn [app] in Sh.
      assert (E3 : emit_node c h (Nd (mkn (face_kind f) None) (rev (n :: r))) st =
        wrap (tag (face_tag f)) (emit_children c (mkn (face_kind f) None) (rev (n :: r)) st)) by (rewrite emit_node_eq; destruct f; reflexivity).
      rewrite E3, (Sh st). reflexivity.
  Qed.

  (** ** one inline element *)
  Definition run (ms : list mtch) (s : ps) : ps := fold_left (replace_ inline_groups (inline_handler parse_inline)) ms s.
  Definition parses (h : hdr) (b : str) (i : inl) (t : str) : Prop := exists ms,
    scan inline_re 0 b (wr_inl i ++ t) = map inr ms ++ scan inline_re 0 (rev (wr_inl i) ++ b) t /\
    adds h (run ms) (html_inl (strict c) (break_emit h) i) (is_break i).

  Lemma run_one : forall h x g w b, first_group inline_groups x = Some g -> adds h (inline_handler parse_inline g x) w b ->
    adds h (run [x]) w b.
  Proof.
    intros h x g w b Hg HA ch up t u Ht. unfold run. cbn [fold_left]. unfold replace_. cbn [perr]. rewrite Hg. apply HA. exact Ht.
  Qed.
  Lemma parses_one : forall h b i t cs g, wr_inl i <> [] ->
    m inline_re (mk b (wr_inl i ++ t) []) fin = Some (mk (rev (wr_inl i) ++ b) t cs) ->
    first_group inline_groups (mkm (wr_inl i) cs) = Some g ->
    adds h (inline_handler parse_inline g (mkm (wr_inl i) cs)) (html_inl (strict c) (break_emit h) i) (is_break i) ->
    parses h b i t.
  Proof.
    intros h b i t cs g Hn Hm Hg HA. exists [mkm (wr_inl i) cs]. split.
    - rewrite (scan_hit _ _ _ _ cs Hn Hm). reflexivity.
    - eapply run_one; eassumption.
  Qed.

  Lemma parses_text : forall h w b t, w <> [] -> literals b w t = true -> parses h b (IText w) t.
  Proof.
    intros h w b t Hn Hl. exists (map (fun d => mkm [d] [(G_char, [d])]) w). cbn [wr_inl]. split.
    - clear Hn. revert b Hl. induction w as [|d w IH]; intros b Hl; [reflexivity|].
      cbn [literals] in Hl. apply andb_true_iff in Hl as [Hd Hl]. cbn [app map].
      change (d :: w ++ t) with ([d] ++ (w ++ t)).
      rewrite (scan_hit _ _ [d] (w ++ t) [(G_char, [d])]); [|discriminate|exact (char_hit b d (w ++ t) Hd)].
      f_equal. cbn [rev app]. rewrite IH by exact Hl. rewrite <- app_assoc. reflexivity.
    - cbn [html_inl is_break]. clear Hl. revert Hn. induction w as [|d w IH]; intro Hn; [congruence|].
      assert (A : adds h (run [mkm [d] [(G_char, [d])]]) (escape [d]) false).
      { eapply run_one; [reflexivity|]. eapply adds_ext; [|apply adds_text]. reflexivity. }
      change (d :: w) with ([d] ++ w). rewrite escape_app. destruct w as [|e w].
      + cbn [app map]. change (escape []) with ([] : str). rewrite app_nil_r. exact A.
      + rewrite map_app. cbn [map app]. exact (adds_comp h _ _ _ _ false false A (IH ltac:(discriminate))).
  Qed.
  Lemma parses_esc : forall h d b t, is_space d = false -> d <> 126 -> url_here b (126 :: d :: t) = false -> parses h b (IEsc d) t.
  Proof.
    intros h d b t H1 H2 H3. eapply (parses_one h b (IEsc d) t); [discriminate|exact (esc_hit b d t H1 H2 H3)|reflexivity|].
    eapply adds_ext; [|apply adds_text]. reflexivity.
  Qed.
  Lemma parses_break : forall h b t, parses h b IBreak t.
  Proof.
    intros h b t. eapply (parses_one h b IBreak t); [discriminate|exact (break_hit b t)|reflexivity|].
    eapply adds_ext; [|apply (adds_node h (Nd (mkn KBreak None) []))].
    - reflexivity.
    - intro st. rewrite emit_node_eq. reflexivity.
  Qed.
  Lemma parses_code : forall h x b t, no_char [10] x = true -> only_end ($ "}}}") x = true -> parses h b (ICode x) t.
  Proof.
    intros h x b t H1 H2. eapply (parses_one h b (ICode x) t).
    - discriminate.
    - cbn [wr_inl]. repeat rewrite <- app_assoc. exact (code_hit x b t H1 H2).
    - reflexivity.
    - eapply adds_ext; [|apply (adds_node h (Nd (mkn KPreInline (Some x)) []))].
      + reflexivity.
      + intro st. rewrite emit_node_eq. reflexivity.
  Qed.
  Lemma parses_url : forall h u b t, inl_ok b (IUrl u) t = true -> parses h b (IUrl u) t.
  Proof.
    intros h u b t H. cbn [inl_ok] in H. rewrite !andb_true_iff in H. destruct H as [[[H1 H2] H3] H4].
    apply existsb_exists in H2 as (p & Hp & H2). apply andb_true_iff in H2 as [H2 H5]. apply startswith_app in H2 as (r & ->).
    rewrite skipn_app, app_length in H5. cbn [List.length] in H5.
    rewrite skipn_all2 in H5 by (rewrite app_length; cbn [List.length L]; cbn; lia).
    replace (List.length p + 3 - _)%nat with 0%nat in H5 by (cbn; lia). cbn [skipn app] in H5.
    rewrite forallb_app in H3. apply andb_true_iff in H3 as [_ H3].
    rewrite <- app_assoc in *. eapply (parses_one h b (IUrl (p ++ $ "://" ++ r)) t).
    - cbn [wr_inl]. destruct p; discriminate.
    - cbn [wr_inl]. apply url_hit; try assumption. intros ->. discriminate.
    - reflexivity.
    - eapply adds_ext; [|apply (adds_node h (Nd (mkn KLink (Some (p ++ $ "://" ++ r))) [Nd (mkn KText (Some (p ++ $ "://" ++ r))) []]))].
      + reflexivity.
      + intro st. rewrite emit_node_eq. cbn [html_inl]. cbn [hk hcontent mkn emit_children]. rewrite emit_node_eq.
        cbn [hk hcontent mkn wrap]. rewrite app_nil_r. reflexivity.
  Qed.

  Lemma trimmed_strip : forall x, trimmed x = true -> strip x = x.
  Proof.
    intros x H. unfold trimmed in H. rewrite !andb_true_iff, !negb_true_iff in H. destruct H as [[H1 H2] H3].
    destruct x as [|d x]; [reflexivity|]. cbn [head_is] in H1. unfold last_is in H2.
    destruct (rev (d :: x)) as [|e y] eqn:E; [apply (f_equal (@rev _)) in E; rewrite rev_involutive in E; discriminate|].
    cbn [head_is] in H2. apply (f_equal (@rev _)) in E. rewrite rev_involutive in E. cbn [rev] in E.
    destruct (rev y) as [|d' z] eqn:Ey.
    - cbn [app] in E. injection E as -> ->. unfold strip, strip_by, lstrip_by. rewrite drop_while_none by exact H1.
      exact (rstrip_keep is_space [] e H1).
    - cbn [app] in E. injection E as -> ->. apply strip_by_id; assumption.
  Qed.
  Lemma link_adds : forall h x target text,
    group G_link_target x = Some target -> group0 G_link_text x = or_else text [] ->
    opt_ok (fun x => trimmed x && no_char [10; 93] x && negb (contains [123; 123] x) && negb (contains [92; 92] x)) text = true ->
    adds h (link_repl x) ($ "<a href=""" ++ attr_text target ++ $ """>" ++ escape (or_else text target) ++ $ "</a>") false.
  Proof.
    intros h x target text Ht Hx Ho ch up t u Htt. unfold link_repl. rewrite (need_some _ _ _ _ _ Ht). rewrite Hx.
    unfold open_, set_stk, set_txt. cbn [stk txt used perr].
    assert (E : exists ch1 t1, fold_left (replace_ link_groups link_text_handler) (finditer link_re (strip (or_else text [])))
        (mkps ((mkn KLink (Some target), []) :: (h, ch) :: up) false u false) =
        mkps ((mkn KLink (Some target), ch1) :: (h, ch) :: up) t1 u false /\
        shown h (Nd (mkn KLink (Some target)) (rev ch1)) ($ "<a href=""" ++ attr_text target ++ $ """>" ++ escape (or_else text target) ++ $ "</a>")).
    { destruct text as [v|]; cbn [or_else opt_ok] in *.
      - rewrite !andb_true_iff, !negb_true_iff in Ho. destruct Ho as [[[H1 H2] H3] H4].
        rewrite trimmed_strip by exact H1.
        assert (Hv : v <> []) by (intros ->; discriminate H1).
        apply (no_char_dot [10; 93]) in H2; [|left; reflexivity].
        destruct (link_text_adds (mkn KLink (Some target)) v H2 H3 H4 Hv [] ((h, ch) :: up) false u) as (ch1 & t1 & E & _ & B & Sh); [discriminate|].
        exists ch1, t1. split; [exact E|]. intro st. rewrite emit_node_eq. cbn [hk hcontent mkn].
        destruct (B eq_refl) as (n & r & -> & _). pose proof (grows_showns _ _ _ _ Sh [] (showns_nil _) st) as Sh'. clear Sh. rename Sh' into Sh. cbn [app] in Sh.
        destruct (rev (n :: r)) as [|y l] eqn:Er; [apply (f_equal (@List.length _)) in Er; rewrite rev_length in Er; discriminate|].
        rewrite Sh. reflexivity.
      - exists [], false. split; [reflexivity|]. intro st. rewrite emit_node_eq. reflexivity. }
    destruct E as (ch1 & t1 & E & Sh). rewrite E.
    rewrite (pop_to_top (mkn KLink (Some target)) ch1 h ch up) by reflexivity.
    exists (Nd (mkn KLink (Some target)) (rev ch1) :: ch), false. split; [reflexivity|]. split; [discriminate|]. split.
    - intros _. do 2 eexists. split; [reflexivity|discriminate].
    - intros st out st1 Hout. change (rev (?y :: ch)) with (rev ch ++ [y]). apply emit_snoc; assumption.
  Qed.
  Lemma parses_link : forall h target text b t, inl_ok b (ILink target text) t = true -> parses h b (ILink target text) t.
  Proof.
    intros h target text b t H. cbn [inl_ok] in H. rewrite !andb_true_iff in H. destruct H as [[[H1 H2] H3] H4].
    apply negb_true_iff in H3.
    eapply (parses_one h b (ILink target text) t).
    - discriminate.
    - apply link_hit; try assumption. destruct text as [v|]; [|reflexivity]. cbn [opt_ok] in *.
      rewrite !andb_true_iff in H4. destruct H4 as [[[-> ->] _] _]. reflexivity.
    - reflexivity.
    - apply (link_adds h _ target text); [destruct text; reflexivity|destruct text; reflexivity|exact H4].
  Qed.

  (** ** images *)
  Lemma attr_escape_app : forall a b, attr_escape (a ++ b) = attr_escape a ++ attr_escape b.
  Proof. intros. unfold attr_escape. rewrite escape_app, !replace_single, flat_map_app. reflexivity. Qed.
  Lemma attr_escape_In : forall x d, In d (attr_escape x) -> In d x \/ In d ($ "&amp;&lt;&gt;&quot").
  Proof.
    intros x d H. unfold attr_escape in H. rewrite replace_single, escape_esc in H. unfold esc in H.
    apply in_flat_map in H as (e & He & Hd). apply in_flat_map in He as (y & Hy & He).
    unfold esc_char in He. unfold sub1 in Hd.
    destruct (N.eqb_spec 34 e) as [<-|Hne].
    - right. cbn in Hd |- *. intuition.
    - destruct Hd as [<-|[]]. destruct (y =? 38); [|destruct (y =? 60); [|destruct (y =? 62)]]; cbn in He |- *; intuition (subst; auto).
  Qed.
  Lemma attr_escape_bar_no : forall x, ~ In 124 x -> ~ In 124 (attr_escape x).
  Proof. intros x H Hi. apply attr_escape_In in Hi as [Hi|Hi]; [contradiction|]. cbn in Hi. intuition discriminate. Qed.
  Lemma attr_escape_digits : forall x, forallb (fun d => (48 <=? d) && (d <=? 57) || (d =? 120)) x = true -> attr_escape x = x.
  Proof.
    intros x H. unfold attr_escape. rewrite escape_esc. unfold esc. rewrite replace_single.
    rewrite (flat_map_id esc_char), flat_map_id; [reflexivity| |].
    - intros d Hd. rewrite forallb_forall in H. apply H in Hd. unfold sub1. destruct (N.eqb_spec 34 d) as [<-|]; [discriminate|reflexivity].
    - intros d Hd. rewrite forallb_forall in H. apply H in Hd. unfold esc_char.
      destruct (N.eqb_spec d 38) as [->|]; [discriminate|]. destruct (N.eqb_spec d 60) as [->|]; [discriminate|].
      destruct (N.eqb_spec d 62) as [->|]; [discriminate|]. reflexivity.
  Qed.
  Lemma size_digits : forall wh, forallb (fun d => (48 <=? d) && (d <=? 57) || (d =? 120)) (size_text wh) = true.
  Proof.
    intro wh. unfold size_text. rewrite !forallb_app.
    assert (G : forall n, forallb (fun d => (48 <=? d) && (d <=? 57) || (d =? 120)) (show_N n) = true).
    { intro n. pose proof (show_N_digits n) as D. rewrite forallb_forall in *. intros d Hd. rewrite D by exact Hd. reflexivity. }
    rewrite !G. reflexivity.
  Qed.
  Lemma no_char_incl : forall cs cs' x, incl cs' cs -> no_char cs x = true -> no_char cs' x = true.
  Proof.
    intros cs cs' x Hi H. unfold no_char in *. rewrite forallb_forall in *. intros d Hd. specialize (H d Hd).
    apply negb_true_iff in H. apply negb_true_iff. rewrite <- not_true_iff_false in *. intro E. apply H.
    apply existsb_exists in E as (y & Hy & E). apply existsb_exists. exists y. split; [apply Hi; exact Hy|exact E].
  Qed.
  Lemma show_N_last : forall n, last_is is_space (show_N n) = false.
  Proof.
    intro n. unfold last_is. destruct (rev (show_N n)) as [|d r] eqn:E; [reflexivity|]. cbn [head_is].
    pose proof (show_N_space n) as H. rewrite forallb_forall in H. apply negb_true_iff, H. apply (in_rev (show_N n)). unfold str, char in *. rewrite E. left. reflexivity.
  Qed.
  Lemma sized_trimmed : forall v wh, trimmed v = true -> trimmed (v ++ $ "|" ++ size_text wh) = true.
  Proof.
    intros v wh H. unfold trimmed in *. rewrite !andb_true_iff, !negb_true_iff in *. destruct H as [[H1 H2] H3].
    destruct v as [|d v]; [discriminate|]. repeat split; [exact H1|].
    unfold size_text, last_is. rewrite !rev_app_distr, <- !app_assoc. pose proof (show_N_last (snd wh)) as L. unfold last_is in L.
    destruct (rev (show_N (snd wh))) as [|e r] eqn:E; [|exact L].
    apply (f_equal (@rev _)) in E. rewrite rev_involutive in E. exfalso. exact (show_N_ne _ E).
  Qed.
  Lemma sized_nochar : forall v wh, no_char [10; 125] v = true -> no_char [10; 125] (v ++ $ "|" ++ size_text wh) = true.
  Proof.
    intros v wh H. unfold no_char. rewrite !forallb_app. apply andb_true_iff. split.
    - exact H.
    - apply andb_true_iff. split; [reflexivity|]. pose proof (size_digits wh) as D. rewrite forallb_forall in *. intros d Hd.
      specialize (D d Hd). destruct (N.eqb_spec d 10) as [->|H1]; [discriminate|]. destruct (N.eqb_spec d 125) as [->|H2]; [discriminate|].
      cbn [existsb]. rewrite (proj2 (N.eqb_neq d 10) H1), (proj2 (N.eqb_neq d 125) H2). reflexivity.
  Qed.
  Lemma bar_size_trimmed : forall wh, trimmed ($ "|" ++ size_text wh) = true.
  Proof.
    intro wh. unfold trimmed. rewrite !andb_true_iff, !negb_true_iff. repeat split.
    unfold size_text, last_is. rewrite !rev_app_distr, <- !app_assoc. pose proof (show_N_last (snd wh)) as L. unfold last_is in L.
    destruct (rev (show_N (snd wh))) as [|e r] eqn:E; [|exact L].
    apply (f_equal (@rev _)) in E. rewrite rev_involutive in E. exfalso. exact (show_N_ne _ E).
  Qed.
  Lemma bar_size_nochar : forall wh, no_char [10; 125] ($ "|" ++ size_text wh) = true.
  Proof. intro wh. exact (sized_nochar [] wh eq_refl). Qed.
  Lemma after_bar_split : forall x, match after_bar x with None => ~ In 124 x | Some r => exists v, x = v ++ 124 :: r /\ ~ In 124 v end.
  Proof.
    induction x as [|d x IH]; [intros []|]. cbn [after_bar]. destruct (N.eqb_spec d 124) as [->|Hd].
    - exists []. split; [reflexivity|intros []].
    - destruct (after_bar x) as [r|].
      + destruct IH as (v & -> & Hv). exists (d :: v). split; [reflexivity|]. intros [E|Hi]; [congruence|exact (Hv Hi)].
      + intros [E|Hi]; [congruence|exact (IH Hi)].
  Qed.
  Lemma no_bar_no_size : forall x, ~ In 124 x -> no_size x = true.
  Proof.
    intros x H. unfold no_size. pose proof (after_bar_split x) as S. destruct (after_bar x) as [r|]; [|reflexivity].
    destruct S as (v & -> & _). exfalso. apply H. apply in_elt.
  Qed.
  Lemma attr_escape_clean : forall x, no_char [34; 38; 60; 62] x = true -> attr_escape x = x.
  Proof.
    intros x H. unfold attr_escape. rewrite escape_esc. unfold esc. rewrite replace_single.
    assert (K : forall d, In d x -> d <> 34 /\ d <> 38 /\ d <> 60 /\ d <> 62).
    { intros d Hd. pose proof (no_char_In _ _ _ H Hd) as Q. cbn [In] in Q. repeat split; intros ->; apply Q; tauto. }
    rewrite (flat_map_id esc_char), flat_map_id; [reflexivity| |].
    - intros d Hd. destruct (K d Hd) as (A & _). unfold sub1. destruct (N.eqb_spec 34 d) as [<-|]; [contradiction|reflexivity].
    - intros d Hd. destruct (K d Hd) as (_ & A & B & C). unfold esc_char. rewrite (proj2 (N.eqb_neq d 38) A), (proj2 (N.eqb_neq d 60) B), (proj2 (N.eqb_neq d 62) C). reflexivity.
  Qed.
  Lemma attr_escape_amp : forall x d, In d x -> In d [34; 38; 60; 62] -> In 38 (attr_escape x).
  Proof.
    intros x d Hi Hd. apply in_split in Hi as (a & b & ->). change (a ++ d :: b) with (a ++ [d] ++ b). rewrite !attr_escape_app. apply in_app_iff. right. apply in_app_iff. left.
    cbn [In] in Hd. destruct Hd as [<-|[<-|[<-|[<-|[]]]]]; left; reflexivity.
  Qed.
  (** a part that is no number stays one *)
  Lemma escaped_numeral : forall w, numeral (strip w) = false -> py_int (strip (attr_escape w)) = None.
  Proof.
    intros w H. destruct (no_char [34; 38; 60; 62] w) eqn:E.
    - rewrite attr_escape_clean by exact E. rewrite numeral_int in H. destruct (py_int (strip w)); [discriminate|reflexivity].
    - assert (I : exists d, In d w /\ In d [34; 38; 60; 62]).
      { clear H. induction w as [|d w IH]; [discriminate|]. unfold no_char in E. cbn [forallb] in E. apply andb_false_iff in E as [E|E].
        - apply negb_false_iff, existsb_exists in E as (y & Hy & E). apply N.eqb_eq in E. subst y. exists d. split; [left; reflexivity|exact Hy].
        - destruct (IH E) as (y & H1 & H2). exists y. split; [right; exact H1|exact H2]. }
      destruct I as (d & H1 & H2). pose proof (attr_escape_amp w d H1 H2) as A. apply (strange 38); try discriminate; try reflexivity. apply strip_by_In; [exact A|reflexivity].
  Qed.
  Lemma at_x_split : forall r, match at_x r with None => ~ In 120 r | Some (w, h) => r = w ++ 120 :: h /\ ~ In 120 w end.
  Proof.
    induction r as [|d r IH]; [intros []|]. cbn [at_x]. destruct (N.eqb_spec d 120) as [->|Hd].
    - split; [reflexivity|intros []].
    - destruct (at_x r) as [[w h]|].
      + destruct IH as [-> Hw]. split; [reflexivity|]. intros [E|Hi]; [congruence|exact (Hw Hi)].
      + intros [E|Hi]; [congruence|exact (IH Hi)].
  Qed.
  Lemma attr_escape_x_no : forall x, ~ In 120 x -> ~ In 120 (attr_escape x).
  Proof. intros x H Hi. apply attr_escape_In in Hi as [Hi|Hi]; [contradiction|]. cbn in Hi. intuition discriminate. Qed.
  Lemma no_size_none : forall target x, no_size x = true -> image_sized target (attr_escape x) = None.
  Proof.
    intros target x H. unfold no_size in H. pose proof (after_bar_split x) as S. unfold image_sized. destruct (after_bar x) as [r|].
    - destruct S as (v & -> & Hv). rewrite attr_escape_app. change (attr_escape (124 :: r)) with (attr_escape ([124] ++ r)).
      rewrite attr_escape_app. change (attr_escape [124]) with [124]. cbn [app]. rewrite split1_at by (apply attr_escape_bar_no; exact Hv).
      pose proof (at_x_split r) as X. destruct (at_x r) as [[w h]|].
      + destruct X as [-> Hw]. change (w ++ 120 :: h) with (w ++ [120] ++ h). rewrite !attr_escape_app. change (attr_escape [120]) with [120]. cbn [app].
        rewrite split1_at by (apply attr_escape_x_no; exact Hw). apply negb_true_iff, andb_false_iff in H as [H|H]; rewrite (escaped_numeral _ H); [reflexivity|].
        destruct (py_int (strip (attr_escape w))); reflexivity.
      + rewrite split1_no; [reflexivity|]. apply attr_escape_x_no. exact X.
    - rewrite split1_no; [reflexivity|]. apply attr_escape_bar_no. exact S.
  Qed.
  Lemma image_shown : forall h target title size b t, inl_ok b (IImage target title size) t = true ->
    shown h (Nd (mkn KImage (Some target)) [Nd (mkn KText (Some (or_else (image_text title size) target))) []])
          (html_image (strict c) target title size).
  Proof.
    intros h target title size b t H st. cbn [inl_ok] in H. rewrite !andb_true_iff in H. destruct H as [[[[H1 H2] H3] H4] H5].
    rewrite emit_node_eq. cbn [hk hcontent mkn]. f_equal. f_equal. unfold image_emit. cbn [get_text hcontent mkn].
    assert (B : forall v, no_char [124] v = true -> ~ In 124 v).
    { intros v Hv Hi. apply (no_char_In _ _ _ Hv Hi). cbn; auto. }
    unfold html_image, img.
    destruct size as [wh|].
    - apply andb_true_iff in H5 as [H5 H7]. apply andb_true_iff in H5 as [H5 H6]. destruct title as [v|].
      2:{ apply N.leb_le in H6, H7. cbn [image_text or_else]. destruct (strict c); [repeat rewrite <- app_assoc; reflexivity|].
        change (attr_escape ($ "|" ++ size_text wh)) with (124 :: attr_escape (size_text wh)).
        rewrite (attr_escape_digits (size_text wh)) by apply size_digits. unfold image_sized.
        pose proof (split1_at 124 [] (size_text wh) ltac:(intros [])) as S1. match type of S1 with ?x = ?y => match goal with |- context [split1 124 ?z] => change (split1 124 z) with x end end. rewrite S1. cbn [truthy].
        unfold size_text. change (show_N (fst wh) ++ $ "x" ++ show_N (snd wh)) with (show_N (fst wh) ++ 120 :: show_N (snd wh)).
        rewrite split1_at by (intro Hi; apply show_N_In in Hi; lia).
        rewrite !show_N_strip, !py_int_show by assumption. rewrite !show_Z_N.
        assert (T : attr_text target = target) by exact (attr_escape_clean target H5). change (attr_escape target) with (attr_text target). rewrite T. repeat rewrite <- app_assoc. reflexivity. }
      cbn [opt_ok image_text or_else] in *. apply andb_true_iff in H4 as [H4 H8]. apply N.leb_le in H6, H7.
      clear H8. rename H5 into H8.
      destruct (strict c); [repeat rewrite <- app_assoc; reflexivity|].
      rewrite attr_escape_app. change (attr_escape ($ "|" ++ size_text wh)) with (124 :: attr_escape (size_text wh)).
      rewrite (attr_escape_digits (size_text wh)) by apply size_digits. unfold image_sized.
      rewrite split1_at by (apply attr_escape_bar_no, B; exact H8).
      unfold size_text. change (show_N (fst wh) ++ $ "x" ++ show_N (snd wh)) with (show_N (fst wh) ++ 120 :: show_N (snd wh)).
      rewrite split1_at by (intro Hi; apply show_N_In in Hi; lia).
      rewrite !show_N_strip, !py_int_show by assumption. rewrite !show_Z_N.
      assert (T : truthy (attr_escape v) = true).
      { destruct v as [|d v]; [discriminate H4|]. unfold attr_escape. rewrite escape_esc, replace_single. cbn [esc flat_map]. unfold esc_char.
        destruct (d =? 38); [reflexivity|]. destruct (d =? 60); [reflexivity|]. destruct (d =? 62); [reflexivity|].
        cbn [app flat_map]. unfold sub1 at 1. destruct (34 =? d); reflexivity. }
      rewrite T. unfold attr_text, attr_escape. repeat rewrite <- app_assoc. reflexivity.
    - assert (E : or_else (image_text title None) target = or_else title target) by (destruct title; reflexivity). rewrite E.
      rewrite no_size_none; [destruct (strict c); repeat rewrite <- app_assoc; reflexivity|].
      destruct title as [v|]; cbn [or_else opt_ok] in *; [exact H5|]. apply no_bar_no_size. intro Hi. apply (no_char_In _ _ _ H2 Hi). cbn; auto.
  Qed.
  Lemma parses_image : forall h target title size b t, inl_ok b (IImage target title size) t = true ->
    parses h b (IImage target title size) t.
  Proof.
    intros h target title size b t H. pose proof (image_shown h _ _ _ _ _ H) as Sh.
    cbn [inl_ok] in H. rewrite !andb_true_iff in H. destruct H as [[[[H1 H2] H3] H4] H5].
    assert (HT : opt_ok (fun x => trimmed x && no_char [10; 125] x) (image_text title size) = true).
    { destruct title as [v|], size as [wh|]; cbn [image_text opt_ok] in *; try reflexivity; try (apply andb_true_iff in H4 as [H4 H8]).
      - rewrite sized_trimmed, sized_nochar by assumption. reflexivity.
      - rewrite H4. exact H8.
      - rewrite bar_size_trimmed, bar_size_nochar. reflexivity. }
    apply negb_true_iff in H3. pose proof H1 as H1'. unfold trimmed in H1. rewrite !andb_true_iff, !negb_true_iff in H1. destruct H1 as [[T1 T2] T3].
    eapply (parses_one h b (IImage target title size) t _ G_image).
    - discriminate.
    - apply image_hit; assumption.
    - destruct (image_text title size); reflexivity.
    - change (is_break (IImage target title size)) with (kind_beq (nkind (Nd (mkn KImage (Some target)) [Nd (mkn KText (Some (or_else (image_text title size) target))) []])) KBreak).
      eapply adds_ext; [|apply adds_node; exact Sh].
      intro s. cbn [inline_handler]. unfold image_repl.
      rewrite (need_some G_image_target _ s _ target) by (destruct (image_text title size); reflexivity).
      rewrite (trimmed_strip target) by exact H1'. f_equal. f_equal. f_equal. f_equal. f_equal. f_equal.
      destruct (image_text title size) as [v|] eqn:E; cbn [opt_ok] in *.
      + apply andb_true_iff in HT as [HT _]. cbn [app group0]. change (group0 G_image_text _) with v. rewrite trimmed_strip by exact HT.
        destruct v; [discriminate|]. reflexivity.
      + reflexivity.
  Qed.

  (** ** links with images and line breaks in their text *)
  Definition lrun (ms : list mtch) (s : ps) : ps := fold_left (replace_ link_groups link_text_handler) ms s.
  Fixpoint rich_ok (l : list inl) : bool :=
    match l with
    | [] => true
    | x :: r =>
      match x with
      | IText w => truthy w && calm w (flat_map wr_inl r)
      | IImage _ _ _ => inl_ok [] x []
      | IBreak => true
      | _ => false
      end && rich_ok r
    end.
  Lemma lrun_one : forall h x g w b, first_group link_groups x = Some g -> adds h (link_text_handler g x) w b -> adds h (lrun [x]) w b.
  Proof. intros h x g w b Hg HA ch up t u Ht. unfold lrun. cbn [fold_left]. unfold replace_. cbn [perr]. rewrite Hg. apply HA. exact Ht. Qed.
  Lemma link_image : forall target text b t,
    truthy target = true -> no_char [10; 124; 125] target = true -> last_is is_space target = false ->
    opt_ok (fun x => trimmed x && no_char [10; 125] x) text = true ->
    let w := $ "{{" ++ target ++ with_bar text ++ $ "}}" in
    m link_re (mk b (w ++ t) []) fin =
    Some (mk (rev w ++ b) t ((G_image, w) :: match text with None => [] | Some x => [(G_image_text, x)] end ++ [(G_image_target, target)])).
  Proof.
    intros target text b t H1 H2 H3 H4. cbv zeta. unfold link_re, alts. rewrite m_alt. apply orelse_some.
    pose proof (bracket_hit G_image G_image_target G_image_text 123 125 eq_refl ltac:(discriminate) target text b t [] H1 H2 H3 H4) as Q.
    cbv zeta in Q. rewrite app_nil_r in Q. exact Q.
  Qed.
  Lemma link_break : forall b t, m link_re (mk b ([92; 92] ++ t) []) fin = Some (mk ([92; 92] ++ b) t [(G_linebreak, [92; 92])]).
  Proof.
    intros b t. unfold link_re, alts. rewrite !m_alt. rewrite image_no by reflexivity. cbn [orelse]. apply orelse_some.
    unfold r_linebreak. rewrite m_grp. rewrite m_lit. unfold fin. cbn [bef rest caps rev app]. f_equal. f_equal. f_equal. f_equal. exact (firstn_grp [92; 92] t).
  Qed.
  Lemma rich_one : forall h x r b, no_char [10] (wr_inl x) = true ->
    match x with IText w => truthy w && calm w (flat_map wr_inl r) | IImage _ _ _ => inl_ok [] x [] | IBreak => true | _ => false end = true ->
    exists ms, scan link_re 0 b (wr_inl x ++ flat_map wr_inl r) = map inr ms ++ scan link_re 0 (rev (wr_inl x) ++ b) (flat_map wr_inl r) /\
      adds h (lrun ms) (html_inl (strict c) (break_emit h) x) (is_break x).
  Proof.
    intros h x r b N H. destruct x as [w|d|f body|t|a t|target title size|u| |a body]; try discriminate H.
    - apply andb_true_iff in H as [T Q]. exists (map (fun d => mkm [d] [(G_char, [d])]) w). cbn [wr_inl] in *. generalize dependent (flat_map wr_inl r). intros t Q. split.
      + clear T. revert b. induction w as [|d w IH]; intro b; [reflexivity|]. cbn [calm] in Q. apply andb_true_iff in Q as [Q Q3]. apply andb_true_iff in Q as [Q1 Q2]. apply negb_true_iff in Q1, Q2.
        apply (no_char_dot [10]) in N; [|left; reflexivity]. cbn [forallb] in N. apply andb_true_iff in N as [N1 N2].
        cbn [app map]. change (d :: w ++ t) with ([d] ++ (w ++ t)).
        rewrite (scan_hit _ _ [d] (w ++ t) [(G_char, [d])]); [|discriminate|exact (link_char b d (w ++ t) N1 Q1 Q2)].
        f_equal. cbn [rev app]. rewrite IH; [rewrite <- app_assoc; reflexivity| |exact Q3].
        unfold no_char. rewrite forallb_forall in N2 |- *. intros e He. specialize (N2 e He). unfold is_dot in N2. cbn [existsb]. rewrite orb_false_r. exact N2.
      + cbn [html_inl is_break]. clear N Q. revert T. induction w as [|d w IH]; intro T; [discriminate|].
        assert (A : adds h (lrun [mkm [d] [(G_char, [d])]]) (escape [d]) false).
        { eapply lrun_one; [reflexivity|]. eapply adds_ext; [|apply adds_text]. reflexivity. }
        change (d :: w) with ([d] ++ w). rewrite escape_app. destruct w as [|e w].
        * cbn [app map]. change (escape []) with ([] : str). rewrite app_nil_r. exact A.
        * rewrite map_app. cbn [map app]. exact (adds_comp h _ _ _ _ false false A (IH eq_refl)).
    - pose proof (image_shown h _ _ _ _ _ H) as Sh.
      cbn [inl_ok] in H. rewrite !andb_true_iff in H. destruct H as [[[[H1 H2] H3] H4] H5].
      assert (HT : opt_ok (fun x => trimmed x && no_char [10; 125] x) (image_text title size) = true).
      { destruct title as [v|], size as [wh|]; cbn [image_text opt_ok] in *; try reflexivity; try (apply andb_true_iff in H4 as [H4 H8]).
        - rewrite sized_trimmed, sized_nochar by assumption. reflexivity.
        - rewrite H4. exact H8.
        - rewrite bar_size_trimmed, bar_size_nochar. reflexivity. }
      pose proof H1 as H1'. unfold trimmed in H1. rewrite !andb_true_iff, !negb_true_iff in H1. destruct H1 as [[T1 T2] T3].
      eexists [_]. split.
      + cbn [wr_inl]. erewrite scan_hit; [reflexivity|discriminate|apply link_image; assumption].
      + change (is_break (IImage target title size)) with (kind_beq (nkind (Nd (mkn KImage (Some target)) [Nd (mkn KText (Some (or_else (image_text title size) target))) []])) KBreak).
        eapply (lrun_one h _ G_image); [destruct (image_text title size); reflexivity|].
        eapply adds_ext; [|apply adds_node; exact Sh].
        intro s. cbn [link_text_handler]. unfold image_repl.
        rewrite (need_some G_image_target _ s _ target) by (destruct (image_text title size); reflexivity).
        rewrite (trimmed_strip target) by exact H1'. f_equal. f_equal. f_equal. f_equal. f_equal. f_equal.
        destruct (image_text title size) as [v|] eqn:E; cbn [opt_ok] in *.
        * apply andb_true_iff in HT as [HT _]. cbn [app group0]. change (group0 G_image_text _) with v. rewrite trimmed_strip by exact HT.
          destruct v; [discriminate|]. reflexivity.
        * reflexivity.
    - eexists [_]. split.
      + cbn [wr_inl]. erewrite scan_hit; [reflexivity|discriminate|apply link_break].
      + eapply (lrun_one h _ G_linebreak); [reflexivity|]. eapply adds_ext; [|apply (adds_node h (Nd (mkn KBreak None) []))].
        * reflexivity.
        * intro st. rewrite emit_node_eq. reflexivity.
  Qed.
  Definition last_break (l : list inl) : bool := match rev l with i :: _ => is_break i | [] => true end.
  Lemma link_end : forall b, scan link_re 0 b [] = [].
  Proof.
    intro b. rewrite scan_end, at_pos_miss; [reflexivity|]. apply m_none. intros s' H.
    apply (nonnull_consuming link_re eq_refl) in H. cbn in H. lia.
  Qed.
  Lemma rich_scan : forall l h b, no_char [10] (flat_map wr_inl l) = true -> rich_ok l = true ->
    exists ms, scan link_re 0 b (flat_map wr_inl l) = map inr ms /\ adds h (lrun ms) (html_inls (strict c) (break_emit h) l) (last_break l).
  Proof.
    induction l as [|x l IH]; intros h b N H.
    - exists []. split; [apply link_end|apply adds_id].
    - cbn [rich_ok] in H. apply andb_true_iff in H as [H1 H2]. cbn [flat_map] in N. unfold no_char in N. rewrite forallb_app in N. apply andb_true_iff in N as [N1 N2].
      destruct (rich_one h x l b N1 H1) as (ms1 & E1 & A1). destruct (IH h (rev (wr_inl x) ++ b) N2 H2) as (ms2 & E2 & A2).
      exists (ms1 ++ ms2). split.
      + cbn [flat_map]. rewrite map_app. etransitivity; [exact E1|]. f_equal. exact E2.
      + assert (E : forall s, lrun (ms1 ++ ms2) s = lrun ms2 (lrun ms1 s)) by (intro s; unfold lrun; apply fold_left_app).
        cbn [html_inls flat_map]. destruct l as [|y l].
        * cbn [flat_map] in E2. rewrite link_end in E2. cbn [map] in E2. destruct ms2; [|discriminate]. rewrite !app_nil_r. exact A1.
        * eapply adds_ext; [intro s; symmetry; apply E|].
          replace (last_break (x :: y :: l)) with (last_break (y :: l)).
          -- eapply adds_comp; [exact A1|exact A2].
          -- unfold last_break. cbn [rev]. destruct (rev l ++ [y]) as [|z r] eqn:Er; [destruct (rev l); discriminate|]. reflexivity.
  Qed.
  Lemma rich_go : forall l, (fix go (l : list inl) : bool :=
       match l with
       | [] => true
       | x :: r =>
         match x with
         | IText w => truthy w && calm w (flat_map wr_inl r)
         | IImage _ _ _ => inl_ok [] x []
         | IBreak => true
         | _ => false
         end && go r
       end) l = rich_ok l.
  Proof. induction l as [|x l IH]; [reflexivity|]. cbn [rich_ok]. rewrite IH. reflexivity. Qed.
  Lemma rich_facts : forall b target body t, inl_ok b (IRich target body) t = true ->
    truthy target = true /\ no_char [10; 124; 93] target = true /\ last_is is_space target = false /\
    trimmed (flat_map wr_inl body) = true /\ no_char [10; 93] (flat_map wr_inl body) = true /\ ends_in_break body = false /\ rich_ok body = true.
  Proof.
    intros b target body t H. cbn [inl_ok] in H. rewrite rich_go in H. rewrite !andb_true_iff, !negb_true_iff in H. tauto.
  Qed.
  Lemma parses_rich : forall h target body b t, inl_ok b (IRich target body) t = true -> parses h b (IRich target body) t.
  Proof.
    intros h target body b t H. apply rich_facts in H as (H1 & H2 & H3 & H4 & H5 & H6 & H7).
    assert (L : last_break body = false).
    { unfold ends_in_break in H6. unfold last_break. destruct (rev body) eqn:E; [|exact H6].
      apply (f_equal (@rev _)) in E. rewrite rev_involutive in E. subst body. discriminate H4. }
    eapply (parses_one h b (IRich target body) t).
    - discriminate.
    - apply (link_hit target (Some (flat_map wr_inl body))); try assumption. cbn [opt_ok]. rewrite H4, H5. reflexivity.
    - reflexivity.
    - intros ch up t0 u Htt. cbn [inline_handler is_break]. unfold link_repl. rewrite (need_some G_link_target _ _ _ target) by reflexivity.
      change (group0 G_link_text _) with (flat_map wr_inl body). rewrite trimmed_strip by exact H4.
      unfold open_, set_stk, set_txt. cbn [stk txt used perr].
      destruct (rich_scan body (mkn KLink (Some target)) [] (no_char_incl [10; 93] [10] _ ltac:(intros e [<-|[]]; left; reflexivity) H5) H7) as (ms & E & A). rewrite L in A.
      assert (F : forall s, fold_left (replace_ link_groups link_text_handler) (finditer link_re (flat_map wr_inl body)) s = lrun ms s).
      { intro s. unfold finditer. rewrite E. unfold lrun. f_equal. clear. induction ms as [|x ms IH]; [reflexivity|]. cbn [map flat_map app]. rewrite <- IH at 2. reflexivity. }
      rewrite F. destruct (A [] ((h, ch) :: up) false u) as (ch1 & t1 & E1 & _ & B & Sh); [discriminate|]. rewrite E1.
      rewrite (pop_to_top (mkn KLink (Some target)) ch1 h ch up) by reflexivity.
      exists (Nd (mkn KLink (Some target)) (rev ch1) :: ch), false. split; [reflexivity|]. split; [discriminate|]. split.
      + intros _. do 2 eexists. split; [reflexivity|discriminate].
      + intros st out st1 Hout. change (rev (?y :: ch)) with (rev ch ++ [y]). apply emit_snoc; [|exact Hout].
        intro st2. rewrite emit_node_eq. cbn [hk hcontent mkn].
        destruct (B eq_refl) as (n & r & -> & _). pose proof (grows_showns _ _ _ _ Sh [] (showns_nil _) st2) as Sh'. clear Sh. rename Sh' into Sh. cbn [app] in Sh.
        destruct (rev (n :: r)) as [|y l] eqn:Er; [apply (f_equal (@List.length _)) in Er; rewrite rev_length in Er; discriminate|].
        rewrite Sh. reflexivity.
  Qed.

  (** ** a list of inline elements *)
  Lemma inline_end : forall b, scan inline_re 0 b [] = [].
  Proof.
    intro b. rewrite scan_end, at_pos_miss; [reflexivity|]. apply m_none. intros s' H.
    apply (nonnull_consuming inline_re eq_refl) in H. cbn in H. lia.
  Qed.
  Lemma list_parses : forall l h, Forall (fun x => forall h b t, inl_ok b x t = true -> parses h b x t) l ->
    forall b, inls_ok b l = true ->
    exists ms, scan inline_re 0 b (wr_inls l) = map inr ms /\ adds h (run ms) (html_inls (strict c) (break_emit h) l) (last_break l).
  Proof.
    induction l as [|x l IH]; intros h HF b Hok.
    - exists []. split; [|apply adds_id]. cbn [wr_inls flat_map map]. apply inline_end.
    - apply Forall_cons_iff in HF as [Hx HF]. cbn [inls_ok] in Hok. apply andb_true_iff in Hok as [H1 H2].
      destruct (Hx h _ _ H1) as (ms1 & E1 & A1). destruct (IH h HF _ H2) as (ms2 & E2 & A2).
      exists (ms1 ++ ms2). split.
      + cbn [wr_inls flat_map]. rewrite map_app. etransitivity; [exact E1|]. f_equal. exact E2.
      + assert (E : forall s, run (ms1 ++ ms2) s = run ms2 (run ms1 s)) by (intro s; unfold run; apply fold_left_app).
        cbn [html_inls flat_map]. destruct l as [|y l].
        * cbn [wr_inls flat_map] in E2. rewrite inline_end in E2.
          cbn [map] in E2. destruct ms2; [|discriminate]. rewrite !app_nil_r. exact A1.
        * eapply adds_ext; [intro s; symmetry; apply E|]. 
          replace (last_break (x :: y :: l)) with (last_break (y :: l)).
          -- eapply adds_comp; [exact A1|exact A2].
          -- unfold last_break. cbn [rev]. destruct (rev l ++ [y]) as [|z r] eqn:Er; [destruct (rev l); discriminate|]. reflexivity.
  Qed.
  Lemma list_parse_inline : forall l h, Forall (fun x => forall h b t, inl_ok b x t = true -> parses h b x t) l ->
    inls_ok [] l = true -> adds h (parse_inline (wr_inls l)) (html_inls (strict c) (break_emit h) l) (last_break l).
  Proof.
    intros l h HF Hok. destruct (list_parses l h HF [] Hok) as (ms & E & A). eapply adds_ext; [|exact A].
    intro s. rewrite parse_inline_fuel. unfold finditer. rewrite E. unfold run. f_equal.
    clear. induction ms as [|x ms IH]; [reflexivity|]. cbn [map flat_map app]. rewrite <- IH. reflexivity.
  Qed.
  Lemma go_inls_ok : forall l b, (fix go (b : str) (l : list inl) : bool :=
       match l with
       | [] => true
       | x :: r => inl_ok b x (flat_map wr_inl r) && go (rev (wr_inl x) ++ b) r
       end) b l = inls_ok b l.
  Proof. induction l as [|x l IH]; intro b; [reflexivity|]. cbn [inls_ok]. rewrite IH. reflexivity. Qed.
  Theorem inl_parses : forall i h b t, inl_ok b i t = true -> parses h b i t.
  Proof.
    induction i as [w|d|f body IH|x|target text|target title size|u| |target body IH] using inl_ind'; intros h b t H.
    - cbn [inl_ok] in H. apply andb_true_iff in H as [H1 H2]. apply parses_text; [destruct w; discriminate|exact H2].
    - cbn [inl_ok] in H. rewrite !andb_true_iff, !negb_true_iff in H. destruct H as [[H1 H2] H3].
      apply parses_esc; [exact H1|apply N.eqb_neq; exact H2|exact H3].
    - cbn [inl_ok] in H. rewrite go_inls_ok in H. rewrite !andb_true_iff in H. destruct H as [[[[H1 H2] H3] H4] H5].
      apply negb_true_iff in H3.
      eapply (parses_one h b (IFace f body) t _ (fst (face_groups f))).
      + cbn [wr_inl]. discriminate.
      + cbn [wr_inl]. replace (([face_mark f; face_mark f] ++ flat_map wr_inl body ++ [face_mark f; face_mark f]) ++ t)
          with ([face_mark f; face_mark f] ++ flat_map wr_inl body ++ [face_mark f; face_mark f] ++ t)
          by (repeat rewrite <- app_assoc; reflexivity).
        apply face_hit; assumption.
      + destruct f; reflexivity.
      + assert (L : last_break body = false).
        { unfold ends_in_break in H3. unfold last_break. destruct (rev body) eqn:E; [|exact H3].
          apply (f_equal (@rev _)) in E. rewrite rev_involutive in E. subst body. discriminate H1. }
        pose proof (list_parse_inline body (mkn (face_kind f) None) IH H5) as A. rewrite L in A.
        set (xm := mkm _ _).
        pose proof (mark_adds h f (snd (face_groups f)) xm (flat_map wr_inl body) parse_inline (html_inls (strict c) (break_emit (mkn (face_kind f) None)) body)) as M.
        eapply adds_ext; [|].
        2:{ replace (html_inl (strict c) (break_emit h) (IFace f body)) with
              (elem (face_tag f) (html_inls (strict c) (break_emit (mkn (face_kind f) None)) body)) by (destruct f; reflexivity).
            apply M; [destruct f; reflexivity|exact A]. }
        intro s. destruct f; reflexivity.
    - cbn [inl_ok] in H. apply andb_true_iff in H as [H1 H2]. apply parses_code; assumption.
    - apply parses_link; assumption.
    - apply parses_image; assumption.
    - apply parses_url; assumption.
    - apply parses_break.
    - apply parses_rich; assumption.
  Qed.
  Theorem inls_parse : forall l h, inls_ok [] l = true ->
    adds h (parse_inline (wr_inls l)) (html_inls (strict c) (break_emit h) l) (last_break l).
  Proof.
    intros l h H. apply list_parse_inline; [|exact H]. apply Forall_forall. intros x _ h' b t. apply inl_parses.
  Qed.
End Shown.
