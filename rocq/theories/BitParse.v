(** * Paragraphs with macros in their lines: what the parser builds and what is shown *)
From Coq Require Import String List Arith NArith ZArith Bool Lia.
From Verif Require Import PyStr PyStrFacts GNames Regex Rules RegexFacts RegexRun Utils DocTree CreoleParser ParserFacts
  HtmlEmitter EmitterFacts HtmlToolsFacts Spec4 Spec5 Spec7 Spec20 Spec22 DictFacts InlineRun InlineParse BlockRun BlockHits BlockParse MacroHit TagHit.
Import ListNotations.
Open Scope N_scope.
Notation par_h := (mkn KParagraph None).
Notation inrun := InlineParse.run.

(** what a macro is called with *)
Definition kw_for (r : request) : pydict :=
  match string2dict (raw_args (rq_args r)) with
  | Some d => dict_set ($ "text") (match rq_text r with Some t => VStr (strip t) | None => VNone end) d
  | None => []
  end.
Definition notoc (u : list str) : Prop := Forall (fun n => n <> $ "toc") u.

Lemma andthen_assoc : forall a b c l, andthen (andthen a b) c l = andthen a (andthen b c) l.
Proof.
  intros a b c l. unfold andthen. destruct (a l) as [[x l1]|]; [|reflexivity]. destruct (b l1) as [[y l2]|]; [|reflexivity].
  destruct (c l2) as [[z l3]|]; [|reflexivity]. rewrite app_assoc. reflexivity.
Qed.
Lemma andthen_nil : forall a l, andthen (done []) a l = a l.
Proof. intros a l. unfold andthen, done. destruct (a l) as [[x l1]|]; reflexivity. Qed.
Lemma andthen_nil_r : forall a l, andthen a (done []) l = a l.
Proof. intros a l. unfold andthen, done. destruct (a l) as [[x l1]|]; [rewrite app_nil_r|]; reflexivity. Qed.
Lemma andthen_ext : forall a a' b b' l, (forall l, a l = a' l) -> (forall l, b l = b' l) -> andthen a b l = andthen a' b' l.
Proof. intros a a' b b' l H1 H2. unfold andthen. rewrite H1. destruct (a' l) as [[x l1]|]; [|reflexivity]. rewrite H2. reflexivity. Qed.

Section Bits.
  Variable c : cfg.
  Notation say_bit := (say_bit (strict c) (verbose c) (env c) kw_for).
  Notation say_bits := (say_bits (strict c) (verbose c) (env c) kw_for).

  Definition ggrows (h : hdr) (ch ch' : list node) (f : say) : Prop := forall st out st1 x l,
    emit_children c h (rev ch) st = (Ok out, st1) -> f (log st1) = Some (x, l) -> emit_children c h (rev ch') st = (Ok (out ++ x), mkest (toc st1) l).
  Definition gadds (h : hdr) (F : ps -> ps) (f : say) (brk : bool) : Prop :=
    forall ch up t u, (t = true -> top_text ch) -> notoc u ->
      exists ch' t' u', F (mkps ((h, ch) :: up) t u false) = mkps ((h, ch') :: up) t' u' false /\
        (t' = true -> top_text ch') /\ (brk = false -> solid ch') /\ notoc u' /\ ggrows h ch ch' f.
  Lemma adds_gadds : forall h F w b, adds c h F w b -> gadds h F (done w) b.
  Proof.
    intros h F w b H ch up t u Ht Hu. destruct (H ch up t u Ht) as (ch' & t' & E & H1 & H2 & H3). exists ch', t', u. repeat (split; [assumption|]).
    intros st out st1 x l Ho Hf. unfold done in Hf. injection Hf as <- <-. destruct st1 as [a l1]. cbn [toc log]. apply H3. exact Ho.
  Qed.
  Lemma gadds_comp : forall h F G v w b b', gadds h F v b -> gadds h G w b' -> gadds h (fun s => G (F s)) (andthen v w) b'.
  Proof.
    intros h F G v w b b' HF HG ch up t u Ht Hu. destruct (HF ch up t u Ht Hu) as (ch1 & t1 & u1 & E1 & H1 & _ & U1 & S1).
    destruct (HG ch1 up t1 u1 H1 U1) as (ch2 & t2 & u2 & E2 & H2 & B2 & U2 & S2). exists ch2, t2, u2. rewrite E1. repeat (split; [assumption|]).
    intros st out st1 x l Ho Hf. unfold andthen in Hf. destruct (v (log st1)) as [[y l1]|] eqn:V; [|discriminate]. destruct (w l1) as [[z l2]|] eqn:W; [|discriminate]. injection Hf as <- <-.
    pose proof (S1 st out st1 y l1 Ho V) as P. rewrite app_assoc. exact (S2 st (out ++ y) (mkest (toc st1) l1) z l2 P W).
  Qed.
  Lemma gadds_ext : forall h F G f g b, (forall s, F s = G s) -> (forall l, f l = g l) -> gadds h F f b -> gadds h G g b.
  Proof.
    intros h F G f g b E Ef HF ch up t u Ht Hu. destruct (HF ch up t u Ht Hu) as (ch1 & t1 & u1 & E1 & H1 & H2 & H3 & H4). exists ch1, t1, u1.
    rewrite <- E. repeat (split; [assumption|]). intros st out st1 x l Ho Hf. rewrite <- Ef in Hf. eapply H4; eassumption.
  Qed.
  Lemma asked : forall h nl kd content name args kw st x l, kind_beq kd KMacroBlock = negb (is_nil nl) -> nl = [] \/ nl = [10] -> kd = KMacroBlock \/ kd = KMacroInline ->
    name <> $ "toc" -> (exists d, string2dict args = Some d /\ kw = dict_set ($ "text") (match content with Some t => VStr t | None => VNone end) d) ->
    ask (verbose c) (env c) nl name kw (log st) = Some (x, l) ->
    emit_node c h (Nd (mkh kd content 0 name args) []) st = (Ok x, mkest (toc st) l).
  Proof.
    intros h nl kd content name args kw [t0 l0] x l Hkd Hnl Hkk Hn (d & Ed & ->) Ha. rewrite emit_node_eq. cbv zeta. cbn [hk].
    assert (E : match kd with KMacroBlock | KMacroInline => macro_emit c (mkh kd content 0 name args) (mkest t0 l0) | _ => (Ok [], mkest t0 l0) end = (Ok x, mkest t0 l)).
    2:{ destruct Hkk as [-> | ->]; exact E. }
    assert (E : macro_emit c (mkh kd content 0 name args) (mkest t0 l0) = (Ok x, mkest t0 l)).
    2:{ destruct Hkk as [-> | ->]; exact E. }
    unfold macro_emit. cbn [hmargs hmname hcontent hk]. rewrite Ed. cbv zeta.
    assert (str_eqb name ($ "toc") = false) as -> by (apply str_eqb_neq; exact Hn). cbv iota. rewrite Hkd. cbn [toc log] in *.
    unfold ask in Ha. destruct (u_has (env c) name).
    - destruct (u_call (env c) l0 name _); try discriminate; try (injection Ha as <- <-; reflexivity).
      + injection Ha as <- <-. destruct Hnl as [-> | ->]; cbn [is_nil negb]; [rewrite app_nil_r|]; reflexivity.
      + destruct (2 <? verbose c)%Z; [discriminate|]. injection Ha as <- <-. reflexivity.
    - injection Ha as <- <-. reflexivity.
  Qed.
  Lemma ggrows_node : forall h n ch f, (forall st x l, f (log st) = Some (x, l) -> emit_node c h n st = (Ok x, mkest (toc st) l)) -> ggrows h ch (n :: ch) f.
  Proof.
    intros h n ch f H st out st1 x l Ho Hf. cbn [rev]. rewrite emit_children_app, Ho. cbn [emit_children]. rewrite (H st1 x l Hf). rewrite app_nil_r. reflexivity.
  Qed.
  Lemma gadds_macro : forall h name args content (sargs : str) kw, name <> $ "toc" -> strip args = sargs ->
    (exists d, string2dict sargs = Some d /\ kw = dict_set ($ "text") (match option_map strip content with Some t => VStr t | None => VNone end) d) ->
    gadds h (add_macro KMacroInline name args content) (ask (verbose c) (env c) [] name kw) false.
  Proof.
    intros h name args content sargs kw Hn Hs Hd ch up t u Ht Hu. unfold add_macro. rewrite Hs.
    exists (Nd (mkh KMacroInline (option_map strip content) 0 name sargs) [] :: ch), false, (u ++ [name]). split; [reflexivity|]. split; [discriminate|].
    split; [intros _; do 2 eexists; split; [reflexivity|discriminate]|]. split; [apply Forall_app; split; [exact Hu|constructor; [exact Hn|constructor]]|].
    apply ggrows_node. intros st x l Ha. eapply (asked h []); [reflexivity|left; reflexivity|right; reflexivity|exact Hn|exact Hd|exact Ha].
  Qed.

  (** ** one part of a line *)
  Definition gparses (h : hdr) (b : str) (x : bit) (t : str) : Prop := exists ms,
    scan inline_re 0 b (wr_bit x ++ t) = map inr ms ++ scan inline_re 0 (rev (wr_bit x) ++ b) t /\
    gadds h (inrun ms) (say_bit x) (is_break_bit x).
  Lemma grun_one : forall h x g f b, first_group inline_groups x = Some g -> gadds h (inline_handler parse_inline g x) f b -> gadds h (inrun [x]) f b.
  Proof.
    intros h x g f b Hg HA ch up t u Ht Hu. unfold InlineParse.run. cbn [fold_left]. unfold replace_. cbn [perr]. rewrite Hg. apply HA; assumption.
  Qed.
  Lemma kw_for_ok : forall r a, string2dict (raw_args (rq_args r)) = Some a ->
    kw_for r = dict_set ($ "text") (match option_map strip (rq_text r) with Some t => VStr t | None => VNone end) a.
  Proof. intros r a E. unfold kw_for. rewrite E. destruct (rq_text r); reflexivity. Qed.
  Lemma raw_dict : forall l, forallb arg_ok l = true -> exists d, string2dict (raw_args l) = Some d.
  Proof. intros l H. destruct (lemma_C58 l H) as (d & Ed & _). exists d. rewrite <- Ed. destruct l; reflexivity. Qed.
  Lemma strip_spaced : forall a, args_fine a -> strip (spaced a) = a.
  Proof.
    intros a [->|(H & _)]; [reflexivity|]. destruct a as [|d a]; [reflexivity|]. cbn [spaced]. rewrite <- (trimmed_strip (d :: a) H) at 2. reflexivity.
  Qed.
  Lemma raw_macro : forall m, macro_args m = raw_args (mc_args m).
  Proof. intro m. unfold macro_args, raw_args. destruct (mc_args m); reflexivity. Qed.
  Lemma bit_parses : forall x b t, bit_ok b x t = true -> gparses par_h b x t.
  Proof.
    intros [i|g|m] b t H; cbn [bit_ok] in H.
    - destruct (inl_parses c i par_h b t H) as (ms & E & A). exists ms. split; [exact E|]. apply adds_gadds. exact A.
    - apply andb_true_iff in H as [H1 H2]. apply negb_true_iff in H2. destruct (tag_parts g H1) as (N1 & N2 & N3 & N4 & N5 & N6 & E).
      exists [mkm (wr_tag g) (tag_caps g)]. split.
      + cbn [wr_bit]. rewrite (scan_hit _ _ _ _ (tag_caps g)); [reflexivity|rewrite E; discriminate|apply tag_run; assumption].
      + eapply grun_one; [reflexivity|]. destruct (raw_dict _ N5) as (d & Ed).
        eapply gadds_ext; [| |apply (gadds_macro par_h (tg_name g) (spaced (raw_args (tg_args g))) None (raw_args (tg_args g)) (kw_for (of_tag g)) N3 (strip_spaced _ N4))]; [reflexivity|reflexivity|].
        exists d. split; [exact Ed|]. apply (kw_for_ok (of_tag g)). exact Ed.
    - apply andb_true_iff in H as [H1 H2]. destruct (macro_parts m H1) as (N1 & N2 & N3 & N4 & N5 & N6 & N7 & E).
      exists [mkm (wr_macro m) (around_caps m)]. split.
      + cbn [wr_bit]. rewrite (scan_hit _ _ _ _ (around_caps m)); [reflexivity|rewrite E; discriminate|apply around_run; assumption].
      + eapply grun_one; [reflexivity|]. destruct (raw_dict _ N5) as (d & Ed).
        eapply gadds_ext; [| |apply (gadds_macro par_h (mc_name m) (macro_args m) (Some (mc_text m)) (macro_args m) (kw_for (of_macro m)) N3)]; [reflexivity|reflexivity| |].
        * destruct N4 as [->|(X & _)]; [reflexivity|]. apply trimmed_strip. exact X.
        * exists d. split; [rewrite raw_macro; exact Ed|]. apply (kw_for_ok (of_macro m)). exact Ed.
  Qed.

  (** ** a line *)
  Definition last_brk (l : list bit) : bool := match rev l with i :: _ => is_break_bit i | [] => true end.
  Lemma bits_parses : forall l b, bits_ok b l = true ->
    exists ms, scan inline_re 0 b (wr_bits l) = map inr ms /\ gadds par_h (inrun ms) (say_bits l) (last_brk l).
  Proof.
    induction l as [|x l IH]; intros b Hok.
    - exists []. split; [apply inline_end|]. apply adds_gadds, adds_id.
    - cbn [bits_ok] in Hok. apply andb_true_iff in Hok as [H1 H2]. destruct (bit_parses x b _ H1) as (ms1 & E1 & A1). destruct (IH _ H2) as (ms2 & E2 & A2).
      exists (ms1 ++ ms2). split.
      + cbn [wr_bits flat_map]. rewrite map_app. etransitivity; [exact E1|]. f_equal. exact E2.
      + assert (E : forall s, inrun ms2 (inrun ms1 s) = inrun (ms1 ++ ms2) s) by (intro s; unfold InlineParse.run; symmetry; apply fold_left_app).
        cbn [Spec22.say_bits]. destruct l as [|y l].
        * cbn [wr_bits flat_map] in E2. rewrite inline_end in E2. cbn [map] in E2. destruct ms2; [|discriminate]. rewrite app_nil_r.
          eapply gadds_ext; [reflexivity| |exact A1]. intro l0. symmetry. apply andthen_nil_r.
        * eapply gadds_ext; [exact E|reflexivity|].
          replace (last_brk (x :: y :: l)) with (last_brk (y :: l)).
          -- eapply gadds_comp; [exact A1|exact A2].
          -- unfold last_brk. cbn [rev]. destruct (rev l ++ [y]) as [|z r] eqn:Er; [destruct (rev l); discriminate|]. reflexivity.
  Qed.
  Lemma bits_parse : forall l, bits_ok [] l = true -> gadds par_h (parse_inline (wr_bits l)) (say_bits l) (last_brk l).
  Proof.
    intros l Hok. destruct (bits_parses l [] Hok) as (ms & E & A). eapply gadds_ext; [|reflexivity|exact A].
    intro s. rewrite parse_inline_fuel. unfold finditer. rewrite E. unfold InlineParse.run. f_equal.
    clear. induction ms as [|x ms IH]; [reflexivity|]. cbn [map flat_map app]. rewrite <- IH. reflexivity.
  Qed.
  Lemma bits_ok_before : forall l b1 b2, same_before b1 b2 -> bits_ok b1 l = bits_ok b2 l.
  Proof.
    induction l as [|i l IH]; intros b1 b2 H; [reflexivity|]. cbn [bits_ok].
    rewrite (IH (rev (wr_bit i) ++ b1) (rev (wr_bit i) ++ b2)) by (apply same_before_app; exact H). f_equal.
    destruct i; cbn [bit_ok]; try reflexivity. apply inl_ok_before. exact H.
  Qed.
  Lemma bspace_ok : forall l, bits_ok [] l = true -> bits_ok [] (Plain (IText [32]) :: l) = true.
  Proof.
    intros l H. cbn [bits_ok bit_ok inl_ok wr_bit wr_inl rev app truthy is_nil negb andb literals]. rewrite (bits_ok_before l [32] []) by (split; reflexivity). rewrite H, !andb_true_r.
    unfold literal, url_here. rewrite url_start_head by reflexivity. reflexivity.
  Qed.

  (** ** the lines of a paragraph *)
  Definition tells (h : hdr) (ch : list node) (F : say) : Prop := forall t0 l0 x l1,
    F l0 = Some (x, l1) -> emit_children c h (rev ch) (mkest t0 l0) = (Ok x, mkest t0 l1).
  Lemma tells_grows : forall h ch ch' F f, tells h ch F -> ggrows h ch ch' f -> tells h ch' (andthen F f).
  Proof.
    intros h ch ch' F f H1 H2 t0 l0 x l1 E. unfold andthen in E. destruct (F l0) as [[a l]|] eqn:EF; [|discriminate]. destruct (f l) as [[b l2]|] eqn:Ef; [|discriminate]. injection E as <- <-.
    exact (H2 (mkest t0 l0) a (mkest t0 l) b l2 (H1 t0 l0 a l EF) Ef).
  Qed.
  Lemma tells_ext : forall h ch F G, (forall l, F l = G l) -> tells h ch F -> tells h ch G.
  Proof. intros h ch F G E H t0 l0 x l1 HG. apply H. rewrite E. exact HG. Qed.
  Lemma tells_node : forall h ch F n w, tells h ch F -> shown c h n w -> tells h (n :: ch) (andthen F (done w)).
  Proof.
    intros h ch F n w H Hn. apply (tells_grows h ch); [exact H|]. apply ggrows_node. intros [t0 l0] x l E. unfold done in E. injection E as <- <-. apply Hn.
  Qed.
  Definition gpar (dch ch : list node) (u : list str) : ps := mkps [(par_h, ch); (mkn KDocument None, dch)] false u false.
  Definition gstart (dch ch : list node) (u : list str) (s : ps) : Prop := s = gpar dch ch u \/ ch = [] /\ s = mkps [(mkn KDocument None, dch)] false u false.
  Lemma gtext_open : forall x dch ch u s, gstart dch ch u s -> text_repl x s = text_repl x (gpar dch ch u).
  Proof. intros x dch ch u s [->|[-> ->]]; reflexivity. Qed.
  Lemma gtext_step : forall x dch ch u s F l (p : bool), gstart dch ch u s -> notoc u -> bits_ok [] l = true ->
    group G_text x = Some (wr_bits l) -> p = truthy (group0 G_space x) && negb (is_nil ch) -> tells par_h ch F ->
    exists ch' u', text_repl x s = gpar dch (if truthy (group0 G_break x) then Nd (mkn KBreak (Some [])) [] :: ch' else ch') u' /\ notoc u' /\
      (last_brk l = false -> solid ch') /\ tells par_h ch' (andthen F (andthen (done (if p then [32] else [])) (say_bits l))).
  Proof.
    intros x dch ch u s F l p Hs Hu Hl Hx Hp Sh. rewrite (gtext_open x dch ch u s Hs).
    replace (text_repl x (gpar dch ch u)) with (need G_text x (gpar dch ch u) (fun text =>
      let s := parse_inline (if truthy (group0 G_space x) && negb (is_nil ch) then 32 :: text else text) (gpar dch ch u) in
      set_txt false (if truthy (group0 G_break x) && kind_in (cur_kind s) [KParagraph; KEmphasis; KStrong; KPreInline]
                     then append_child (Nd (mkn KBreak (Some [])) []) s else s))) by reflexivity.
    rewrite (need_some _ _ _ _ _ Hx). cbv zeta. rewrite <- Hp.
    assert (A : gadds par_h (parse_inline (if p then 32 :: wr_bits l else wr_bits l)) (andthen (done (if p then [32] else [])) (say_bits l)) (last_brk l)).
    { destruct p.
      - assert (E : last_brk (Plain (IText [32]) :: l) = (if is_nil l then false else last_brk l)).
        { unfold last_brk. cbn [rev]. destruct l as [|i l]; [reflexivity|]. cbn [is_nil]. destruct (rev (i :: l)) eqn:R; [|reflexivity].
          apply (f_equal (@rev _)) in R. rewrite rev_involutive in R. discriminate. }
        pose proof (bits_parse (Plain (IText [32]) :: l) (bspace_ok l Hl)) as A. rewrite E in A. destruct l as [|i l]; [|exact A].
        cbn [is_nil] in A. intros c0 u0 t0 uu Ht Huu. destruct (A c0 u0 t0 uu Ht Huu) as (c1 & t1 & u1 & E1 & E2 & E3 & E4). exists c1, t1, u1. split; [exact E1|]. split; [exact E2|]. split; [auto|exact E4].
      - eapply gadds_ext; [reflexivity| |apply (bits_parse l Hl)]. intro l0. symmetry. apply andthen_nil. }
    destruct (A ch [(mkn KDocument None, dch)] false u ltac:(discriminate) Hu) as (ch' & t' & u' & E1 & E2 & E3 & E5 & E4).
    unfold gpar in *. exists ch', u'. rewrite E1. split; [|split; [exact E5|split; [exact E3|apply (tells_grows _ _ _ _ _ Sh E4)]]].
    change (kind_in (cur_kind (mkps ((par_h, ch') :: [(mkn KDocument None, dch)]) t' u' false)) [KParagraph; KEmphasis; KStrong; KPreInline]) with true.
    rewrite andb_true_r. destruct (truthy (group0 G_break x)); reflexivity.
  Qed.
  Lemma bline_facts : forall l t, bline_ok l t = true -> tail t = true -> truthy (wr_bits l) = true /\ no_char [10; 13] (wr_bits l) = true /\ start_no (wr_bits l) /\
    (forall b k, m r_macro_block (mk b (wr_bits l ++ t) []) k = None) /\ bits_ok [] l = true.
  Proof.
    intros l t H HT. unfold bline_ok in H. rewrite !andb_true_iff in H. destruct H as [[[H1 H2] H3] H4]. split; [exact H1|]. split; [exact H2|].
    assert (N : negb (block_start (wr_bits l)) = true -> start_no (wr_bits l) /\ forall b k, m r_macro_block (mk b (wr_bits l ++ t) []) k = None).
    { intro Hb. apply negb_true_iff in Hb. split; [apply block_start_no; exact Hb|]. intros b k. apply plain_no_macro; assumption. }
    destruct l as [|x r]; [discriminate|]. destruct x as [i|g|m].
    - destruct (N H3) as (S1 & S2). split; [exact S1|]. split; [exact S2|exact H4].
    - cbn [start_ok] in H3. apply negb_true_iff in H3. pose proof H4 as H4'. cbn [bits_ok bit_ok] in H4. apply andb_true_iff in H4 as [H4 _]. apply andb_true_iff in H4 as [H4 _].
      destruct (tag_parts g H4) as (_ & _ & _ & _ & _ & _ & Ew). split; [|split; [|exact H4']].
      + cbn [wr_bits flat_map wr_bit]. rewrite Ew. repeat split; reflexivity.
      + intros b k. change (wr_bits (Tag g :: r)) with (wr_tag g ++ wr_bits r). rewrite <- app_assoc. apply unclosed; [discriminate|discriminate|exact H4|exact H3].
    - destruct (N H3) as (S1 & S2). split; [exact S1|]. split; [exact S2|exact H4].
  Qed.
  Lemma bits_solid : forall l t, bline_ok l t = true -> bits_end_in_break l = false -> last_brk l = false.
  Proof.
    intros l t H1 H2. unfold last_brk, bits_end_in_break in *. destruct (rev l) as [|i r] eqn:R; [|exact H2].
    apply (f_equal (@rev _)) in R. rewrite rev_involutive in R. subst l. discriminate H1.
  Qed.
  Lemma break_backslash2 : forall l, bits_end_in_break l = true -> bits_backslash l = true.
  Proof.
    intros l H. unfold bits_end_in_break in H. destruct (rev l) as [|i r] eqn:R; [discriminate|]. apply (f_equal (@rev _)) in R. rewrite rev_involutive in R. cbn [rev] in R. subst l.
    destruct i as [i|g|m]; try discriminate. destruct i; try discriminate. unfold bits_backslash, wr_bits. rewrite flat_map_app. cbn [flat_map wr_bit wr_inl app]. unfold last_is. rewrite rev_app_distr. reflexivity.
  Qed.
  Notation say_lines blog := (say_lines blog (strict c) (verbose c) (env c) kw_for).
  Notation run := BlockParse.run.
  Lemma gpara_run : forall blog lines T, blines_ok lines T = true -> tail2 T = true ->
    forall p b dch ch u s F, notoc u -> tells par_h ch F -> gstart dch ch u s ->
    p = [] \/ blog = false /\ p = [10] /\ bol b = false /\ head_is (N.eqb 92) b = false /\ solid ch ->
    exists ch' u', run blog (mts (scan (block_re blog) 0 b ((p ++ lines_text (map wr_bits lines)) ++ T))) s =
                run blog (rest_ms blog (rev (p ++ lines_text (map wr_bits lines)) ++ b) T) (gpar dch ch' u') /\
      solid ch' /\ notoc u' /\ tells par_h ch' (andthen F (andthen (done (if truthy p then [32] else [])) (say_lines blog lines))).
  Proof.
    intros blog. induction lines as [|l lines IH]; intros T Hok HT p b dch ch u s F Hu Sh Hs Hp; [discriminate|].
    set (R0 := match lines with [] => T | _ => 10 :: lines_text (map wr_bits lines) ++ T end).
    assert (Hl : bline_ok l R0 = true).
    { cbn [blines_ok] in Hok. destruct lines as [|l2 lines]; apply andb_true_iff in Hok as [X _]; exact X. }
    assert (HR0 : tail R0 = true) by (unfold R0; destruct lines; [apply tail2_tail; exact HT|reflexivity]).
    destruct (bline_facts l R0 Hl HR0) as (L1 & L2 & L3 & L7 & L4).
    assert (L5 : head_is is_space (wr_bits l) = false) by (destruct L3 as (X & _); exact X).
    pose proof (truthy_ne _ L1) as L6.
    assert (PE : perr s = false) by (destruct Hs as [->|[_ ->]]; reflexivity).
    assert (One : (blog = true -> bits_backslash l = true \/ match R0 with 10 :: t' => head_is (N.eqb 10) t' | _ => true end = true) ->
      exists ch' u', run blog (mts (scan (block_re blog) 0 b ((p ++ wr_bits l) ++ R0))) s =
        run blog (mts (scan (block_re blog) 0 (rev (p ++ wr_bits l) ++ b) R0)) (gpar dch ch' u') /\ notoc u' /\ (last_brk l = false -> solid ch') /\
        tells par_h ch' (andthen F (andthen (done (if truthy p then [32] else [])) (say_bits l)))).
    { intros HB. destruct Hp as [->|(-> & -> & Hb1 & Hb2 & Hso)].
      - cbn [app]. assert (Hm : m (block_re blog) (mk b (wr_bits l ++ R0) []) fin = Some (mk (rev (wr_bits l) ++ b) R0 [(G_text, wr_bits l)])).
        { destruct blog; [apply blog_line_gen; auto|apply wiki_line_gen; auto]. }
        rewrite (mts_hit _ _ _ _ _ L6 Hm). rewrite (run_cons blog _ _ _ G_text) by (assumption || (destruct blog; reflexivity)). cbn [block_handler].
        destruct (gtext_step (mkm (wr_bits l) [(G_text, wr_bits l)]) dch ch u s F l false Hs Hu L4 eq_refl eq_refl Sh) as (ch' & u' & E1 & E0 & E2 & E3).
        exists ch', u'. rewrite E1. repeat split; assumption.
      - assert (Hm := wiki_line_more (wr_bits l) R0 b L1 L2 L5 HR0 Hb1 Hb2).
        change ([10] ++ wr_bits l) with (10 :: wr_bits l). rewrite (mts_hit _ _ (10 :: wr_bits l) R0 _ ltac:(discriminate) Hm).
        rewrite (run_cons false _ _ _ G_space) by (assumption || reflexivity). cbn [block_handler].
        destruct Hso as (nd & r & -> & Hnd).
        destruct (gtext_step (mkm (10 :: wr_bits l) [(G_text, wr_bits l); (G_space, [10])]) dch (nd :: r) u s F l true Hs Hu L4 eq_refl eq_refl Sh) as (ch' & u' & E1 & E0 & E2 & E3).
        exists ch', u'. rewrite E1. repeat split; assumption. }
    assert (Hbl : bol (rev (p ++ wr_bits l) ++ b) = false).
    { rewrite bol_app by (destruct p; [exact L6|discriminate]). rewrite rev_app_distr, bol_app; [|exact L6].
      apply bol_last; [exact L6|]. eapply no_char_last; [exact L2|left; reflexivity]. }
    destruct lines as [|l2 lines].
    - unfold R0 in *. clear R0. cbn [map lines_text]. destruct One as (ch' & u' & E1 & E0 & E2 & E3).
      { intros _. right. destruct (tail2_cases T HT) as [->|(X & -> & _)]; reflexivity. }
      exists ch', u'. rewrite E1, rest_scan by assumption. split; [reflexivity|]. split; [|split; [exact E0|exact E3]]. apply E2. eapply bits_solid; [exact Hl|].
      cbn [blines_ok] in Hok. apply andb_true_iff in Hok as [_ Hok]. apply negb_true_iff. exact Hok.
    - assert (Hok' : blines_ok (l2 :: lines) T = true) by (cbn [blines_ok] in Hok; apply andb_true_iff in Hok as [_ X]; exact X).
      specialize (IH T Hok' HT).
      assert (Ew : lines_text (map wr_bits (l :: l2 :: lines)) = wr_bits l ++ [10] ++ lines_text (map wr_bits (l2 :: lines))) by reflexivity.
      rewrite Ew. set (W := lines_text (map wr_bits (l2 :: lines))) in *.
      assert (Eh : forall x, say_lines blog (l :: l2 :: lines) x = andthen (say_bits l) (andthen (done (if bits_backslash l then [] else if blog then br else [32])) (say_lines blog (l2 :: lines))) x) by reflexivity.
      assert (Ef : rev (p ++ wr_bits l ++ [10] ++ W) ++ b = rev W ++ 10 :: rev (p ++ wr_bits l) ++ b).
      { repeat (rewrite ?rev_app_distr, <- ?app_assoc; cbn [rev app]). reflexivity. }
      change R0 with (10 :: W ++ T) in *. clear R0.
      destruct (bits_backslash l) eqn:Eb.
      + destruct One as (ch1 & u1 & E1 & E0 & E2 & E3); [intros _; left; reflexivity|].
        replace ((p ++ wr_bits l ++ [10] ++ W) ++ T) with ((p ++ wr_bits l) ++ 10 :: W ++ T) by (rewrite <- !app_assoc; reflexivity).
        rewrite E1. rewrite scan_miss.
        2:{ apply newline_no; [exact Hbl|]. right. left. unfold bits_backslash in Eb. rewrite rev_app_distr, <- app_assoc. rewrite last_is_head by exact L6. exact Eb. }
        change (mts (Datatypes.inl 10 :: ?x)) with (mts x).
        destruct (IH [] (10 :: rev (p ++ wr_bits l) ++ b) dch ch1 u1 (gpar dch ch1 u1) _ E0 E3 (or_introl eq_refl) (or_introl eq_refl)) as (ch2 & u2 & F1 & F2 & F0 & F3).
        exists ch2, u2. cbn [app] in F1. cbn [app] in Ef |- *. rewrite F1, Ef. split; [reflexivity|]. split; [exact F2|]. split; [exact F0|].
        revert F3. apply tells_ext. intro x. change (truthy []) with false. cbv iota. rewrite !andthen_assoc. apply andthen_ext; [reflexivity|]. intro y. rewrite !andthen_assoc. apply andthen_ext; [reflexivity|]. intro z. rewrite Eh. reflexivity.
      + assert (Hne : last_brk l = false).
        { eapply bits_solid; [exact Hl|]. destruct (bits_end_in_break l) eqn:X; [|reflexivity]. apply break_backslash2 in X. congruence. }
        destruct blog.
        * destruct Hp as [->|(X & _)]; [|discriminate]. cbn [app truthy is_nil negb]. unfold bits_backslash in Eb.
          assert (HW : blank (W ++ T) = false).
          { assert (X : exists R2, bline_ok l2 R2 = true /\ tail R2 = true).
            { cbn [blines_ok] in Hok'. destruct lines as [|l3 lines]; apply andb_true_iff in Hok' as [X _]; [exists T; split; [exact X|apply tail2_tail; exact HT]|eexists; split; [exact X|reflexivity]]. }
            destruct X as (R2 & Hl2 & HR2). destruct (bline_facts l2 R2 Hl2 HR2) as (M1 & M2 & (M3 & _) & _).
            destruct (wr_bits l2) as [|d v] eqn:R; [discriminate|].
            assert (X : exists Y, lines_text ((d :: v) :: map wr_bits lines) = d :: Y) by (destruct lines; eexists; reflexivity).
            destruct X as (Y & X). replace W with ((d :: Y)) by (unfold W; cbn [map]; rewrite R; symmetry; exact X). apply blank_line_no; [reflexivity|]. exact M3. }
          pose proof (blog_line_break_gen (wr_bits l) (W ++ T) b L1 L2 L3 (L7 b) Eb HW) as Hm.
          replace ((wr_bits l ++ 10 :: W) ++ T) with ((wr_bits l ++ [10]) ++ W ++ T) by (rewrite <- !app_assoc; reflexivity).
          assert (Hne2 : wr_bits l ++ [10] <> []) by (destruct (wr_bits l); discriminate).
          rewrite (mts_hit _ _ _ _ _ Hne2 Hm).
          rewrite (run_cons true _ _ _ G_text) by (assumption || reflexivity). cbn [block_handler].
          destruct (gtext_step (mkm (wr_bits l ++ [10]) [(G_break, [10]); (G_text, wr_bits l)]) dch ch u s F l false Hs Hu L4 eq_refl eq_refl Sh) as (ch1 & u1 & E1 & E0 & E2 & E3).
          rewrite E1. change (truthy (group0 G_break _)) with true. cbv iota.
          pose proof (tells_node par_h ch1 _ (Nd (mkn KBreak (Some [])) []) br E3 (shown_break c (Some []))) as E4.
          destruct (IH [] (rev (wr_bits l ++ [10]) ++ b) dch _ u1 _ _ E0 E4 (or_introl eq_refl) (or_introl eq_refl)) as (ch2 & u2 & F1 & F2 & F0 & F3).
          exists ch2, u2. cbn [app] in F1. rewrite F1. split; [|split; [exact F2|split; [exact F0|]]].
          -- cbn [app] in Ef. rewrite Ef. rewrite rev_app_distr. reflexivity.
          -- revert F3. apply tells_ext. intro x. rewrite !andthen_assoc. apply andthen_ext; [reflexivity|]. intro y. rewrite !andthen_assoc. apply andthen_ext; [reflexivity|]. intro z. rewrite Eh.
             apply andthen_ext; [reflexivity|]. intro z1. apply andthen_ext; [reflexivity|]. intro z2. apply andthen_nil.
        * destruct One as (ch1 & u1 & E1 & E0 & E2 & E3); [discriminate|].
          replace ((p ++ wr_bits l ++ [10] ++ W) ++ T) with ((p ++ wr_bits l) ++ 10 :: W ++ T) by (rewrite <- !app_assoc; reflexivity).
          rewrite E1.
          destruct (IH [10] (rev (p ++ wr_bits l) ++ b) dch ch1 u1 (gpar dch ch1 u1) _ E0 E3 (or_introl eq_refl)) as (ch2 & u2 & F1 & F2 & F0 & F3).
          { right. repeat split; [exact Hbl| |apply E2; exact Hne]. rewrite rev_app_distr, <- app_assoc. rewrite last_is_head by exact L6. exact Eb. }
          exists ch2, u2. cbn [app] in F1. cbn [app]. rewrite F1. split; [|split; [exact F2|split; [exact F0|]]].
          -- cbn [app] in Ef. rewrite Ef. cbn [rev]. rewrite <- app_assoc. reflexivity.
          -- revert F3. apply tells_ext. intro x. rewrite !andthen_assoc. apply andthen_ext; [reflexivity|]. intro y. rewrite !andthen_assoc. apply andthen_ext; [reflexivity|]. intro z. rewrite Eh. reflexivity.
  Qed.
End Bits.
