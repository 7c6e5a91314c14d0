(** * From html to creole with the macro html, and back *)
From Coq Require Import String List Arith NArith ZArith Bool Lia.
From Verif Require Import PyStr PyStrFacts Utils Res HtmlTools HtmlToolsFacts HtmlTok HtmlParser HtmlBase Html2X HtmlEmitter.
From Verif Require Import Spec2 Spec4 Spec5 Spec7 Spec10 Spec11 Spec12 Spec20 Spec22 ExampleMacros ExampleFacts PartDoc DocParse CleanRun CleanDoc Spec24 CleanEmit MaskFacts InlineRun InlineParse RoundTrip Spec25.
Import ListNotations.
Open Scope N_scope.

(** ** documents without unknown tags *)
Lemma known_inl : forall w b i, only_tags (map fst xfaces) i = true -> w_inl w b i = cre_inl b i.
Proof.
  intros w b. assert (F : forall l, Forall (fun i => only_tags (map fst xfaces) i = true -> w_inl w b i = cre_inl b i) l -> forallb (only_tags (map fst xfaces)) l = true -> flat_map (w_inl w b) l = flat_map (cre_inl b) l).
  { induction 1 as [|x l Hx Hl IH]; intro O; [reflexivity|]. cbn [forallb] in O. apply andb_true_iff in O as [O1 O2]. cbn [flat_map]. rewrite (Hx O1), (IH O2). reflexivity. }
  induction i as [t|e|t a body IH|h body IH|src title alt|] using xinl_ind'; intro O; try reflexivity.
  - cbn [only_tags] in O. apply andb_true_iff in O as [O1 O2]. cbn [w_inl cre_inl]. unfold marked. rewrite O1. cbv zeta. rewrite (F body IH O2). reflexivity.
  - cbn [only_tags] in O. cbn [w_inl cre_inl]. cbv zeta. rewrite (F body IH O). reflexivity.
Qed.
Lemma known_inls : forall w b l, forallb (only_tags (map fst xfaces)) l = true -> w_inls w b l = cre_inls b l.
Proof. intros w b l O. unfold w_inls, cre_inls. induction l as [|x l IH]; [reflexivity|]. cbn [forallb] in O. apply andb_true_iff in O as [O1 O2]. cbn [flat_map]. rewrite (known_inl w b x O1), (IH O2). reflexivity. Qed.
Lemma known_fine : forall w f b i, only_tags (map fst xfaces) i = true -> w_fine w f b i = true.
Proof.
  intros w f b. assert (F : forall l, Forall (fun i => only_tags (map fst xfaces) i = true -> w_fine w f b i = true) l -> forallb (only_tags (map fst xfaces)) l = true -> forallb (w_fine w f b) l = true).
  { induction 1 as [|x l Hx Hl IH]; intro O; [reflexivity|]. cbn [forallb] in *. apply andb_true_iff in O as [O1 O2]. rewrite (Hx O1), (IH O2). reflexivity. }
  induction i as [t|e|t a body IH|h body IH|src title alt|] using xinl_ind'; intro O; try reflexivity.
  - cbn [only_tags] in O. apply andb_true_iff in O as [O1 O2]. cbn [w_fine]. cbv zeta. rewrite (F body IH O2). unfold marked. rewrite O1. reflexivity.
  - cbn [only_tags] in O. cbn [w_fine]. exact (F body IH O).
Qed.
Lemma known_fines : forall w f b l, forallb (only_tags (map fst xfaces)) l = true -> forallb (w_fine w f b) l = true.
Proof. intros w f b l O. induction l as [|x l IH]; [reflexivity|]. cbn [forallb] in *. apply andb_true_iff in O as [O1 O2]. rewrite (known_fine w f b x O1), (IH O2). reflexivity. Qed.
Lemma known_text : forall w f b l, text_ok b l = true -> w_text_ok w f b l = true /\ w_inls w b l = cre_inls b l.
Proof. intros w f b l H. unfold text_ok, w_text_ok in *. rewrite !andb_true_iff in H. destruct H as [[H1 H2] H3]. rewrite H1, (known_fines w f b l H2), (known_inls w b l H2), H3. auto. Qed.
Lemma known_item : forall w f i, xitem_ok i = true -> w_item_ok w f i = true /\ forall bl, w_item w bl i = cre_item bl i.
Proof.
  intros w f. induction i as [t o sub IH] using xitem_ind'. cbn [xitem_ok w_item_ok w_item cre_item]. intro C. apply andb_true_iff in C as [C1 C2].
  destruct (known_text w f _ t C1) as [T1 T2]. rewrite T1, T2. cbn [andb]. induction IH as [|x l Hx Hl IHl]; [auto|]. cbn [forallb flat_map] in *. apply andb_true_iff in C2 as [C2 C3]. destruct (Hx C2) as [X1 X2]. destruct (IHl C3) as [I1 I2].
  rewrite X1. split; [exact I1|]. intro bl. f_equal. rewrite X2. f_equal. specialize (I2 bl). injection I2. auto.
Qed.
Definition no_table (b : xblock) : Prop := match b with XTable _ => False | _ => True end.
Lemma known_block : forall w f b, no_table b -> xblock_ok b = true -> w_block_ok w f b = true /\ w_block w b = cre_block b.
Proof.
  intros w f b T C. destruct b as [l|n l| |o items|ws]; cbn [xblock_ok w_block_ok w_block cre_block] in *.
  - apply known_text. exact C.
  - apply andb_true_iff in C as [C0 C]. destruct (known_text w f _ l C) as [T1 T2]. rewrite C0, T1, T2. auto.
  - auto.
  - apply andb_true_iff in C as [C0 C]. rewrite C0. cbn [andb]. clear C0 T. assert (E : forallb (w_item_ok w f) items = true /\ forall bl, flat_map (w_item w bl) items = flat_map (cre_item bl) items).
    { induction items as [|x l IH]; [auto|]. cbn [forallb flat_map] in *. apply andb_true_iff in C as [C1 C2]. destruct (known_item w f x C1) as [X1 X2]. destruct (IH C2) as [I1 I2]. rewrite X1, I1. split; [reflexivity|]. intro bl. rewrite X2, I2. reflexivity. }
    destruct E as [E1 E2]. rewrite E1, E2. auto.
  - destruct T.
Qed.

(** ** lines *)
Lemma plain_ok_text : forall brk s i r r', texty i = false -> neat_inl brk s i r = true -> neat_inl brk s i r' = true.
Proof. intros brk s i r r' T N. destruct i; try discriminate T; exact N. Qed.
Lemma bits_ok_app : forall a b c, bits_ok c (a ++ b) = true -> bits_ok (rev (wr_bits a) ++ c) b = true.
Proof.
  induction a as [|x a IH]; intros b c H; [exact H|]. cbn [app bits_ok] in H. apply andb_true_iff in H as [_ H]. apply IH in H. unfold wr_bits in *. cbn [flat_map]. rewrite rev_app_distr, <- app_assoc. exact H.
Qed.
Lemma head_ok : forall x r b, bits_ok b (rich_bits (RPlain x) ++ r) = true -> exists t, inl_ok b x t = true.
Proof. intros x r b H. cbn [rich_bits app bits_ok bit_ok] in H. apply andb_true_iff in H as [H _]. eauto. Qed.
Lemma rich_next_to : forall l s b, bits_ok b (flat_map rich_bits l) = true -> rich_neats s l = true ->
  next_side (flat_map rich_x l) = rich_next l /\ (rich_text l = false -> next_text (flat_map rich_x l) = false).
Proof.
  intros l s b O N. destruct l as [|x l]; [split; reflexivity|]. cbn [rich_neats flat_map] in *. apply andb_true_iff in N as [N _]. destruct x as [i|t a body]; [|split; reflexivity].
  destruct (head_ok _ _ _ O) as (t & OI). destruct (texty i) eqn:T.
  - destruct i as [w| | | | | | | |]; try discriminate T. cbn [inl_ok] in OI. apply andb_true_iff in OI as [OI _]. cbn [rich_x to_x rich_next rich_beside beside rich_text]. split; [apply refs_next; destruct w; discriminate|discriminate].
  - assert (NI : neat_inl false s i [] = true) by (destruct i; try discriminate T; exact N). destruct (inl_alone i _ _ _ (okay_one _ _ _ OI) NI T) as (y & E & S & XT & _). cbn [rich_x]. rewrite E.
    cbn [app next_side rich_next rich_beside]. split; [exact S|]. intros _. destruct y; try reflexivity. discriminate XT.
Qed.
Lemma rich_clean : forall l s b, bits_ok b (flat_map rich_bits l) = true -> rich_neats s l = true -> clean_inls s (flat_map rich_x l) = true.
Proof.
  induction l as [|x l IH]; intros s b O N; [reflexivity|]. cbn [rich_neats flat_map] in *. apply andb_true_iff in N as [N1 N2]. pose proof (bits_ok_app _ _ _ O) as O2.
  specialize (IH _ _ O2 N2). destruct (rich_next_to l _ _ O2 N2) as [NS NT]. destruct x as [i|t a body].
  - destruct (head_ok _ _ _ O) as (t & OI). cbn [rich_x rich_beside] in *. destruct (texty i) eqn:T.
    + destruct i as [w| | | | | | | |]; try discriminate T. cbn [inl_ok] in OI. apply andb_true_iff in OI as [O0 O1]. cbn [rich_neat] in N1. apply andb_true_iff in N1 as [N1 N3]. apply andb_true_iff in N1 as [N0 N1].
      apply negb_true_iff in N3. cbn [to_x]. eapply refs_clean; [apply Nat.le_refl|destruct w; discriminate|eapply literals_no10; exact O1|exact N0|rewrite NS; exact N1|exact (NT N3)|exact IH].
    + assert (NI : neat_inl false s i [] = true) by (destruct i; try discriminate T; exact N1). destruct (inl_alone i _ _ _ (okay_one _ _ _ OI) NI T) as (y & E & S & XT & C). rewrite E. cbn [app clean_inls]. rewrite C, S. exact IH.
  - cbn [rich_neat] in N1. rewrite !andb_true_iff in N1. destruct N1 as [[[[[[N1 _] _] N4] _] N6] N7]. cbn [rich_x app clean_inls]. rewrite clean_face, N1, N4, (inls_clean body _ _ _ N6 N7). exact IH.
Qed.
Lemma wr_plain : forall l, wr_bits (map Plain l) = wr_inls l.
Proof. intro l. unfold wr_bits, wr_inls. induction l as [|x l IH]; [reflexivity|]. cbn [map flat_map wr_bit]. rewrite IH. reflexivity. Qed.
Lemma masked_bits : forall t a body, masked ($ "html") t a (wr_inls body) = wr_bits (rich_bits (RElem t a body)) \/ (body <> [] /\ wr_inls body = []).
Proof.
  intros t a body. destruct body as [|x body].
  - left. unfold masked, in_macro, rich_bits, raw, wr_bits, empty_tag. cbn [wr_inls flat_map wr_bit wr_macro mc_name mc_args mc_text]. rewrite app_nil_r. unfold wr_macro. cbn [mc_name mc_args mc_text]. reflexivity.
  - destruct (wr_inls (x :: body)) as [|c w] eqn:E; [right; split; [discriminate|reflexivity]|left]. unfold masked. unfold rich_bits, raw.
    change (wr_bits (Around (mkmc ($ "html") [] (start_tag t a)) :: map Plain (x :: body) ++ [Around (mkmc ($ "html") [] (end_tag t))]))
      with (wr_macro (mkmc ($ "html") [] (start_tag t a)) ++ wr_bits (map Plain (x :: body) ++ [Around (mkmc ($ "html") [] (end_tag t))])).
    assert (A : forall p q, wr_bits (p ++ q) = wr_bits p ++ wr_bits q) by (intros; apply flat_map_app). rewrite A, wr_plain, E.
    change (wr_bits [Around (mkmc ($ "html") [] (end_tag t))]) with (wr_macro (mkmc ($ "html") [] (end_tag t)) ++ []). rewrite app_nil_r. reflexivity.
Qed.
Lemma inls_some : forall l b s, inls_ok b l = true -> neat_inls false s l = true -> l <> [] -> wr_inls l <> [].
Proof.
  intros [|i l] b s O NN N; [congruence|]. cbn [inls_ok neat_inls] in *. apply andb_true_iff in O as [O _]. apply andb_true_iff in NN as [NN _]. unfold wr_inls. cbn [flat_map]. intro E. apply app_eq_nil in E as [E _].
  destruct i as [w|d|f body|x|target text|target title size|v| |target body]; cbn [wr_inl inl_ok] in *; try discriminate E; try discriminate O.
  - subst w. discriminate O.
  - discriminate NN.
Qed.

Lemma rich_creole : forall l s b, bits_ok b (flat_map rich_bits l) = true -> rich_neats s l = true ->
  w_inls (masked ($ "html")) [10] (flat_map rich_x l) = wr_bits (flat_map rich_bits l) /\ forallb (w_fine (masked ($ "html")) any_text [10]) (flat_map rich_x l) = true.
Proof.
  assert (A : forall p q, wr_bits (p ++ q) = wr_bits p ++ wr_bits q) by (intros; apply flat_map_app).
  assert (A2 : forall p q, w_inls (masked ($ "html")) [10] (p ++ q) = w_inls (masked ($ "html")) [10] p ++ w_inls (masked ($ "html")) [10] q) by (intros; apply flat_map_app).
  induction l as [|x l IH]; intros s b O N; [split; reflexivity|]. cbn [rich_neats flat_map] in *. apply andb_true_iff in N as [N1 N2]. pose proof (bits_ok_app _ _ _ O) as O2.
  destruct (IH _ _ O2 N2) as [I1 I2]. rewrite A, A2, I1, forallb_app, I2, andb_true_r. assert (E : w_inls (masked ($ "html")) [10] (rich_x x) = wr_bits (rich_bits x) /\ forallb (w_fine (masked ($ "html")) any_text [10]) (rich_x x) = true);
    [|destruct E as [E1 E2]; rewrite E1, E2; auto]. destruct x as [i|t a body].
  - destruct (head_ok _ _ _ O) as (t & OI). cbn [rich_x]. rewrite known_inls by apply to_x_tags. split; [|apply known_fines, to_x_tags].
    assert (R : wr_bits (rich_bits (RPlain i)) = wr_inl i) by (unfold wr_bits; cbn [rich_bits flat_map wr_bit]; apply app_nil_r). rewrite R.
    destruct (texty i) eqn:T; [destruct i; try discriminate T; apply refs_cre|]. eapply (to_x_cre i false [10] s []); [exact (okay_one _ _ _ OI)|destruct i; try discriminate T; exact N1|discriminate].
  - cbn [rich_neat] in N1. rewrite !andb_true_iff, !negb_true_iff in N1. destruct N1 as [[[[[[N1 M1] M2] N4] AF] N6] N7]. cbn [rich_x forallb]. unfold w_inls. cbn [flat_map w_inl w_fine]. cbv zeta. rewrite M1, M2, app_nil_r.
    change (flat_map (w_inl (masked ($ "html")) [10]) (to_xs body)) with (w_inls (masked ($ "html")) [10] (to_xs body)).
    rewrite (known_inls _ _ _ (to_xs_tags body)), (to_xs_cre body false [10] Inner [] ltac:(discriminate) N6 N7). unfold any_text. rewrite AF, (known_fines _ _ _ _ (to_xs_tags body)). split; [|reflexivity].
    destruct (masked_bits t a body) as [E|[E1 E2]]; [exact E|]. exfalso. exact (inls_some body [] _ N6 N7 E1 E2).
Qed.
Definition rline_fine (l : list rich) : Prop := rline_neat l = true /\ bits_ok [] (flat_map rich_bits l) = true.
Lemma rlines_clean : forall ls, Forall rline_fine ls -> clean_inls Edge (rich_xlines ls) = true.
Proof.
  induction 1 as [|x ls [N O] Hl IH]; [reflexivity|]. unfold rline_neat in N. apply andb_true_iff in N as [N _]. apply andb_true_iff in N as [N _]. pose proof (rich_clean x Edge [] O N) as C. destruct ls as [|y ls]; [exact C|].
  change (rich_xlines (x :: y :: ls)) with (flat_map rich_x x ++ XBreak :: rich_xlines (y :: ls)). apply clean_app; [exact C|reflexivity|reflexivity|]. cbn [clean_inls clean_inl side_of andb]. exact IH.
Qed.
Lemma rlines_creole : forall ls, Forall rline_fine ls -> w_inls (masked ($ "html")) [10] (rich_xlines ls) = lines_text (map wr_bits (map (flat_map rich_bits) ls)) /\ forallb (w_fine (masked ($ "html")) any_text [10]) (rich_xlines ls) = true.
Proof.
  induction 1 as [|x ls [N O] Hl IH]; [split; reflexivity|]. unfold rline_neat in N. apply andb_true_iff in N as [N _]. apply andb_true_iff in N as [N _]. destruct (rich_creole x Edge [] O N) as [C1 C2]. destruct ls as [|y ls]; [split; assumption|].
  change (rich_xlines (x :: y :: ls)) with (flat_map rich_x x ++ XBreak :: rich_xlines (y :: ls)). destruct IH as [I1 I2]. rewrite forallb_app, C2. split; [|exact I2].
  change (lines_text (map wr_bits (map (flat_map rich_bits) (x :: y :: ls)))) with (wr_bits (flat_map rich_bits x) ++ [10] ++ lines_text (map wr_bits (map (flat_map rich_bits) (y :: ls)))).
  rewrite <- I1, <- C1. unfold w_inls. rewrite flat_map_app. reflexivity.
Qed.
Lemma rpart_bits : forall blog p t, part_ok blog (rpart_creole p) t = true -> match p with RPara ls => (forall l, In l ls -> bits_ok [] (flat_map rich_bits l) = true) /\ ls <> [] | _ => True end.
Proof.
  intros blog p t H. destruct p as [b|ls]; [exact I|]. cbn [rpart_creole part_ok] in H. split; [|destruct ls; discriminate]. revert t H. induction ls as [|x ls IH]; intros t H l I; [destruct I|].
  destruct ls as [|y ls].
  - cbn [map blines_ok] in H. apply andb_true_iff in H as [H _]. unfold bline_ok in H. apply andb_true_iff in H as [_ H]. destruct I as [<-|[]]. exact H.
  - change (map (flat_map rich_bits) (x :: y :: ls)) with (flat_map rich_bits x :: map (flat_map rich_bits) (y :: ls)) in H.
    change (blines_ok (flat_map rich_bits x :: map (flat_map rich_bits) (y :: ls)) t) with (bline_ok (flat_map rich_bits x) ([10] ++ lines_text (map wr_bits (map (flat_map rich_bits) (y :: ls))) ++ t) && blines_ok (map (flat_map rich_bits) (y :: ls)) t) in H.
    apply andb_true_iff in H as [H1 H2]. destruct I as [<-|I]; [unfold bline_ok in H1; apply andb_true_iff in H1 as [_ H1]; exact H1|]. exact (IH t H2 l I).
Qed.
Lemma rpart_fine : forall blog p t, part_ok blog (rpart_creole p) t = true -> rpart_neat blog p = true ->
  w_block_ok (masked ($ "html")) any_text (rpart_x p) = true /\ w_block (masked ($ "html")) (rpart_x p) = wr_part (rpart_creole p).
Proof.
  intros blog p t O N. pose proof (rpart_bits blog p t O) as B. destruct p as [b|ls]; cbn [rpart_x rpart_creole wr_part rpart_neat part_ok] in *.
  - destruct (block_fine blog false b O N) as (B1 & B2 & _). rewrite <- B2. apply known_block; [|exact B1]. destruct b; try discriminate N; exact I.
  - apply andb_true_iff in N as [N _]. destruct B as [B NE]. assert (F : Forall rline_fine ls) by (apply Forall_forall; intros x Hx; rewrite forallb_forall in N; split; auto).
    destruct (rlines_creole ls F) as [C1 C2]. cbn [w_block_ok w_block]. split; [|exact C1]. unfold w_text_ok. rewrite (rlines_clean ls F), C2, C1. cbn [andb].
    assert (LT : forall l, lines_text l = join [10] l) by (clear; induction l as [|x l IH]; [reflexivity|]; destruct l as [|y l]; [reflexivity|]; cbn [lines_text join] in *; rewrite IH; reflexivity).
    rewrite LT. apply join_solid; [|destruct ls; [congruence|discriminate]]. rewrite forallb_forall. intros x Hx. rewrite map_map in Hx. apply in_map_iff in Hx as (l & <- & Hl). rewrite forallb_forall in N.
    specialize (N l Hl). unfold rline_neat in N. apply andb_true_iff in N as [N _]. apply andb_true_iff in N as [_ N]. apply trimmed_ends in N. tauto.
Qed.
Lemma rdoc_fine : forall blog first d, parts_ok_from blog first (map rpart_creole d) = true -> rdoc_neat blog d = true ->
  w_doc_ok (masked ($ "html")) any_text (map rpart_x d) = true /\ w_doc (masked ($ "html")) (map rpart_x d) = wr_parts (map rpart_creole d).
Proof.
  intros blog first d. revert first. induction d as [|p d IH]; intros first O N; [split; reflexivity|]. cbn [map parts_ok_from rdoc_neat] in *. apply andb_true_iff in O as [O O3]. apply andb_true_iff in O as [O1 _].
  apply andb_true_iff in N as [N N3]. apply andb_true_iff in N as [N1 N2]. destruct (rpart_fine blog p _ O1 N1) as [B1 B2]. destruct (IH _ O3 N3) as [I1 I2]. unfold w_doc_ok in *. cbn [forallb]. rewrite B1. split; [exact I1|].
  destruct d as [|q d].
  - cbn [map w_doc wr_parts]. rewrite B2, !app_nil_r. reflexivity.
  - change (wr_parts (rpart_creole p :: map rpart_creole (q :: d))) with (wr_part (rpart_creole p) ++ [10; 10] ++ wr_parts (map rpart_creole (q :: d))). rewrite <- I2, <- B2.
    change (w_doc (masked ($ "html")) (rpart_x p :: map rpart_x (q :: d))) with (w_block (masked ($ "html")) (rpart_x p) ++ x_gap (rpart_x p) (rpart_x q) ++ w_doc (masked ($ "html")) (map rpart_x (q :: d))).
    f_equal. f_equal. destruct p as [b|ls]; destruct q as [c|ls']; cbn [rpart_x rpart_neat rich_follow] in *; try reflexivity; [destruct b; try discriminate N1; destruct c; try discriminate N2; reflexivity|destruct b; try discriminate N1; reflexivity].
Qed.

(** ** and back *)
Section Back.
Variables (blog strict : bool) (v : Z) (kw : request -> pydict).
Hypothesis KW : forall s, request_means (mkreq ($ "html") [] (Some s)) (kw (mkreq ($ "html") [] (Some s))).
Notation says f t := (forall l, exists l', f l = Some (t, l')).
Lemma says_then : forall f g x y, says f x -> says g y -> says (andthen f g) (x ++ y).
Proof. intros f g x y F G l. destruct (F l) as (l1 & E1). destruct (G l1) as (l2 & E2). exists l2. unfold andthen. rewrite E1, E2. reflexivity. Qed.
Lemma says_raw : forall s, strip s = s -> says (say_bit strict v example_env kw (raw s)) s.
Proof.
  intros s S l. unfold say_bit, raw, of_macro, ask. cbn [mc_name mc_args mc_text]. destruct (KW s) as [Ht Hk]. cbn [rq_text rq_args] in *. rewrite S in Ht.
  change (u_has example_env ($ "html")) with true. change (u_call example_env l ($ "html") ?k) with (html_macro k). cbv iota. unfold html_macro. rewrite unexpected_none.
  - rewrite Ht. eexists. rewrite app_nil_r. reflexivity.
  - intros k Hx. cbn [existsb] in Hx. rewrite orb_false_r in Hx. apply (Hk k). apply str_eqb_neq. exact Hx.
Qed.
Lemma angle_strip : forall x, strip ($ "<" ++ x ++ $ ">") = $ "<" ++ x ++ $ ">".
Proof. intro x. apply trimmed_strip, solid_trimmed. apply (angle x []). reflexivity. Qed.
Lemma say_bits_app : forall a b l, say_bits strict v example_env kw (a ++ b) l = andthen (say_bits strict v example_env kw a) (say_bits strict v example_env kw b) l.
Proof.
  induction a as [|c a IH]; intros b l.
  - cbn [app say_bits]. unfold andthen, done. destruct (say_bits strict v example_env kw b l) as [[x l1]|]; reflexivity.
  - cbn [app say_bits]. unfold andthen in *. destruct (say_bit strict v example_env kw c l) as [[x1 l1]|]; [|reflexivity]. rewrite IH.
    destruct (say_bits strict v example_env kw a l1) as [[x2 l2]|]; [|reflexivity]. destruct (say_bits strict v example_env kw b l2) as [[x3 l3]|]; [|reflexivity]. rewrite app_assoc. reflexivity.
Qed.
Lemma says_app : forall a b x y, says (say_bits strict v example_env kw a) x -> says (say_bits strict v example_env kw b) y -> says (say_bits strict v example_env kw (a ++ b)) (x ++ y).
Proof. intros a b x y A B l. rewrite say_bits_app. apply says_then; assumption. Qed.
Lemma says_one : forall b x, says (say_bit strict v example_env kw b) x -> says (say_bits strict v example_env kw [b]) x.
Proof. intros b x H. cbn [say_bits]. rewrite <- (app_nil_r x). apply says_then; [exact H|]. intro l. exists l. reflexivity. Qed.
Lemma says_plain : forall i, says (say_bit strict v example_env kw (Plain i)) (html_inl strict br i).
Proof. intros i l. exists l. reflexivity. Qed.
Lemma says_plains : forall body, says (say_bits strict v example_env kw (map Plain body)) (html_inls strict br body).
Proof.
  induction body as [|x body IH]; [intro l; exists l; reflexivity|]. cbn [map say_bits]. unfold html_inls in *. cbn [flat_map]. apply says_then; [apply says_plain|exact IH].
Qed.
Lemma says_rich : forall x, says (say_bits strict v example_env kw (rich_bits x)) (rich_html strict x).
Proof.
  intros [i|t a [|y body]]; cbn [rich_bits rich_html].
  - apply says_one, says_plain.
  - apply says_one, says_raw. unfold empty_tag. rewrite !app_assoc. change ($ " />") with ($ " /" ++ $ ">"). rewrite !app_assoc. rewrite <- !(app_assoc ($ "<")). apply angle_strip.
  - change (raw (start_tag t a) :: map Plain (y :: body) ++ [raw (end_tag t)]) with ([raw (start_tag t a)] ++ map Plain (y :: body) ++ [raw (end_tag t)]). apply says_app; [|apply says_app; [apply says_plains|]].
    + apply says_one, says_raw. unfold start_tag. rewrite (app_assoc t). apply angle_strip.
    + apply says_one, says_raw. unfold end_tag. change ($ "</" ++ t ++ $ ">") with ($ "<" ++ (47 :: t) ++ $ ">"). apply angle_strip.
Qed.
Lemma says_riches : forall x, says (say_bits strict v example_env kw (flat_map rich_bits x)) (flat_map (rich_html strict) x).
Proof. induction x as [|y x IH]; [intro l; exists l; reflexivity|]. cbn [flat_map]. apply says_app; [apply says_rich|exact IH]. Qed.
Lemma says_lines : forall ls, forallb rline_neat ls = true -> blog || Nat.eqb (List.length ls) 1 = true ->
  says (say_lines blog strict v example_env kw (map (flat_map rich_bits) ls)) (rich_lines strict ls).
Proof.
  induction ls as [|x ls IH]; intros N B; [intro l; exists l; reflexivity|]. cbn [forallb] in N. apply andb_true_iff in N as [N1 N2]. destruct ls as [|y ls]; [apply says_riches|].
  assert (BT : blog = true) by (destruct blog; [reflexivity|discriminate B]). change (rich_lines strict (x :: y :: ls)) with (flat_map (rich_html strict) x ++ br ++ rich_lines strict (y :: ls)).
  change (say_lines blog strict v example_env kw (map (flat_map rich_bits) (x :: y :: ls))) with
    (andthen (say_bits strict v example_env kw (flat_map rich_bits x)) (andthen (done (if bits_backslash (flat_map rich_bits x) then [] else if blog then br else [32])) (say_lines blog strict v example_env kw (map (flat_map rich_bits) (y :: ls))))).
  apply says_then; [apply says_riches|]. apply says_then; [|apply IH; [exact N2|rewrite BT; reflexivity]]. unfold rline_neat in N1. apply andb_true_iff in N1 as [_ N1]. apply negb_true_iff in N1. rewrite N1, BT. intro l. exists l. reflexivity.
Qed.
Definition rend (p : rpart) : str := match p with RBlock b => line_end b | RPara _ => [10] end.
Lemma says_rpart : forall p, rpart_neat blog p = true -> says (say_part blog strict v example_env kw (rpart_creole p)) (rpart_html blog strict p ++ rend p).
Proof.
  intros [b|ls] N; cbn [rpart_creole say_part rpart_html rend rpart_neat] in *; [intro l; exists l; reflexivity|]. apply andb_true_iff in N as [N1 N2].
  assert (E : elem ($ "p") (rich_lines strict ls) ++ [10] = $ "<p>" ++ rich_lines strict ls ++ $ "</p>" ++ [10]) by (unfold elem; rewrite <- !app_assoc; reflexivity). rewrite E.
  apply says_then; [intro l; exists l; reflexivity|]. apply says_then; [apply says_lines; assumption|]. intro l. exists l. reflexivity.
Qed.
Lemma says_rdoc : forall d, rdoc_neat blog d = true -> says (say_parts blog strict v example_env kw (map rpart_creole d)) (rdoc_html blog strict d ++ match rev d with p :: _ => rend p | [] => [] end).
Proof.
  induction d as [|p d IH]; intro N; [intro l; exists l; reflexivity|]. cbn [rdoc_neat] in N. apply andb_true_iff in N as [N N3]. apply andb_true_iff in N as [N1 _]. destruct d as [|q d]; [exact (says_rpart p N1)|].
  change (rdoc_html blog strict (p :: q :: d)) with (rpart_html blog strict p ++ rgap p ++ rdoc_html blog strict (q :: d)).
  assert (R : match rev (p :: q :: d) with x :: _ => rend x | [] => [] end = match rev (q :: d) with x :: _ => rend x | [] => [] end) by (cbn [rev]; destruct (rev d); reflexivity). rewrite R.
  change (say_parts blog strict v example_env kw (map rpart_creole (p :: q :: d))) with (andthen (say_part blog strict v example_env kw (rpart_creole p)) (andthen (done [10]) (say_parts blog strict v example_env kw (map rpart_creole (q :: d))))).
  assert (G : rgap p = rend p ++ [10]) by (destruct p as [[]|]; reflexivity). rewrite G. rewrite <- !app_assoc. rewrite app_assoc. apply says_then; [apply says_rpart; exact N1|]. apply says_then; [intro l; exists l; reflexivity|exact (IH N3)].
Qed.
End Back.
Lemma rdoc_solid : forall blog s d, d <> [] -> solid_text (rdoc_html blog s d).
Proof.
  intros blog s. assert (P : forall p, solid_text (rpart_html blog s p)) by (intros [b|ls]; [apply html_block_solid|apply elem_solid]).
  induction d as [|p d IH]; intro H; [congruence|]. destruct (P p) as (A & B & C). destruct d as [|q d]; [exact (conj A (conj B C))|].
  destruct (IH ltac:(discriminate)) as (D & E & F). change (rdoc_html blog s (p :: q :: d)) with (rpart_html blog s p ++ rgap p ++ rdoc_html blog s (q :: d)).
  destruct (head_app is_space (rpart_html blog s p) (rgap p ++ rdoc_html blog s (q :: d)) C) as (G1 & G2).
  split; [rewrite G1; exact A|]. split; [|exact G2]. rewrite app_assoc. rewrite last_is_suffix; [exact E|]. destruct (rdoc_html blog s (q :: d)); discriminate.
Qed.
Theorem rich_trip : forall blog v s strict d html, rdoc_ok blog d = true -> written (map rpart_x d) html ->
  html2creole use_html_macro strict html = Ok (wr_parts (map rpart_creole d)) /\ fst (creole2html (mkopts blog v s) example_md (wr_parts (map rpart_creole d))) = Ok (rdoc_html blog s d).
Proof.
  intros blog v s strict d html O W. unfold rdoc_ok in O. apply andb_true_iff in O as [N O]. destruct (rdoc_fine blog true d O N) as [F1 F2]. split; [rewrite <- F2; apply html_creole; assumption|].
  destruct d as [|p d]; [destruct blog, v; reflexivity|].
  destruct (says_rdoc blog s (match v with None => 1%Z | Some v => v end) BitParse.kw_for (fun t => kw_means (mkreq ($ "html") [] (Some t)) eq_refl) (p :: d) N []) as (l & E).
  rewrite (parts_for blog _ O v s example_md _ l E). cbn [fst]. f_equal. apply DocParse.strip_solid; [apply rdoc_solid; discriminate|].
  destruct (rev (p :: d)) as [|[[]|] r]; auto.
Qed.

(** ** and to creole once more *)
Lemma ordered_attrs : forall a, in_order (map fst a) = true -> by_name a = a.
Proof.
  induction a as [|x a IH]; intro H; [reflexivity|]. unfold by_name in *. cbn [map in_order fold_right] in *. destruct a as [|y a]; [reflexivity|]. cbn [map] in H, IH.
  apply andb_true_iff in H as [H1 H2]. rewrite (IH H2). cbn [put_attr]. rewrite H1. reflexivity.
Qed.
Lemma steady_value : forall v, plain_value v = true -> no_char [38; 60; 62] v = true -> flat_map attr_entity v = v.
Proof.
  induction v as [|c v IH]; intros P N; [reflexivity|]. unfold plain_value, no_char in *. cbn [forallb flat_map] in *. apply andb_true_iff in P as [P1 P2]. apply andb_true_iff in N as [N1 N2].
  rewrite (IH P2 N2). apply andb_true_iff in P1 as [_ P1]. cbn [existsb] in N1. unfold attr_entity.
  destruct (N.eqb_spec c 38) as [->|]; [discriminate N1|]. destruct (N.eqb_spec c 60) as [->|]; [discriminate N1|]. destruct (N.eqb_spec c 62) as [->|]; [discriminate N1|].
  destruct (N.eqb_spec c 34) as [->|]; [discriminate P1|]. reflexivity.
Qed.
Lemma steady_start : forall t a, attrs_fine a = true -> in_order (map fst a) = true -> forallb steady_attr a = true -> start_tag t a = part_src (Open t a).
Proof.
  intros t a F O V. unfold start_tag, attrs_text. rewrite (ordered_attrs a O). cbn [part_src]. f_equal. f_equal. f_equal. clear O. unfold attrs_fine in F. apply andb_true_iff in F as [_ F].
  unfold show_attrs. induction a as [|[n [u|z|b|]] a IH]; [reflexivity|..]; cbn [forallb snd] in F, V; try discriminate F. apply andb_true_iff in F as [F1 F2]. apply andb_true_iff in V as [V1 V2]. cbn [flat_map fst snd attr_value value_of].
  rewrite (steady_value u F1 V1), (IH F2 V2). reflexivity.
Qed.
Lemma tm_body : forall body, (fix go (s : side) (l : list xinl) : list part := match l with [] => [] | x :: r => tm_inl s x ++ go (side_of x) r end) Inner body = tm_inls Inner body.
Proof. generalize Inner. intros s body. revert s. induction body as [|x l IH]; intro s; [reflexivity|]. cbn [tm_inls]. rewrite IH. reflexivity. Qed.
Lemma rich_fits : forall strict l s s' b, forallb rich_steady l = true -> bits_ok b (flat_map rich_bits l) = true -> rich_neats s' l = true ->
  fits (tm_inls s (flat_map rich_x l)) (flat_map (rich_html strict) l).
Proof.
  intros strict. induction l as [|x l IH]; intros s s' b S O N; [reflexivity|]. cbn [forallb flat_map rich_neats] in *. apply andb_true_iff in S as [S1 S2]. apply andb_true_iff in N as [N1 N2].
  pose proof (bits_ok_app _ _ _ O) as O2. rewrite tm_inls_app. apply fits_app; [|eapply IH; eassumption]. destruct x as [i|t a body].
  - destruct (head_ok i _ _ O) as (t & O1). cbn [rich_x rich_html]. destruct (texty i) eqn:T.
    + destruct i; try discriminate T. exact (refs_src _ s).
    + eapply (to_x_fits strict i false s [10] s' []); [reflexivity|exact (okay_one _ _ _ O1)|]. destruct i; try discriminate T; exact N1.
  - cbn [rich_steady rich_neat] in S1, N1. apply andb_true_iff in S1 as [S1 S3]. apply andb_true_iff in S1 as [S0 S1]. apply andb_true_iff in N1 as [N1 NB]. apply andb_true_iff in N1 as [N1 OB]. apply andb_true_iff in N1 as [_ AF].
    assert (E : rich_html strict (RElem t a body) = part_src (Open t a) ++ html_inls strict br body ++ part_src (Close t)) by (destruct body; [discriminate S0|]; cbn [rich_html]; rewrite (steady_start t a AF S1 S3); reflexivity).
    rewrite E. cbn [rich_x tm_inls tm_inl]. rewrite app_nil_r, tm_body. apply fits_part; [discriminate|]. apply fits_app; [|apply fits_one; discriminate].
    exact (to_xs_fits strict body false [10] Inner Inner [] eq_refl OB NB).
Qed.
Lemma rlines_fits : forall strict ls s, Forall rline_fine ls -> forallb (forallb rich_steady) ls = true -> fits (tm_inls s (rich_xlines ls)) (rich_lines strict ls).
Proof.
  intros strict ls s F. revert s. induction F as [|x ls [Hx Ox] Hl IH]; intros s S; [reflexivity|]. cbn [forallb] in S. apply andb_true_iff in S as [S1 S2].
  unfold rline_neat in Hx. apply andb_true_iff in Hx as [Hx _]. apply andb_true_iff in Hx as [Hx _]. pose proof (fun s => rich_fits strict x s Edge [] S1 Ox Hx) as C. destruct ls as [|y ls]; [exact (C s)|].
  change (rich_xlines (x :: y :: ls)) with (flat_map rich_x x ++ XBreak :: rich_xlines (y :: ls)). change (rich_lines strict (x :: y :: ls)) with (flat_map (rich_html strict) x ++ br ++ rich_lines strict (y :: ls)).
  rewrite tm_inls_app. apply fits_app; [apply C|]. cbn [tm_inls tm_inl side_of]. rewrite <- app_assoc. apply fits_wsl. cbn [app]. unfold br. rewrite <- app_assoc.
  apply (fits_part (Single ($ "br") [])); [discriminate|]. apply fits_ws; [reflexivity|]. apply IH. exact S2.
Qed.
Lemma rpart_written : forall blog strict p t, part_ok blog (rpart_creole p) t = true -> rpart_neat blog p = true -> rpart_steady p = true -> fits (tm_block (rpart_x p)) (rpart_html blog strict p).
Proof.
  intros blog strict p t O N S. pose proof (rpart_bits blog p t O) as B. destruct p as [b|ls]; cbn [rpart_x rpart_creole rpart_html rpart_neat part_ok rpart_steady] in *.
  - destruct (block_fine blog strict b O N) as (_ & _ & B3). exact B3.
  - apply andb_true_iff in N as [N _]. destruct B as [B NE]. assert (F : Forall rline_fine ls) by (apply Forall_forall; intros x Hx; rewrite forallb_forall in N; split; auto).
    cbn [tm_block]. rewrite elem_eq. unfold tm_elem. apply fits_part; [discriminate|]. apply fits_ws0. apply fits_app; [|apply fits_one; discriminate]. unfold tm_text. rewrite <- (app_nil_r (rich_lines _ _)).
    apply fits_app; [apply rlines_fits; assumption|]. destruct (last_side Edge (rich_xlines ls)); try reflexivity; apply fits_ws0; reflexivity.
Qed.
Lemma rdoc_written : forall blog strict first d, parts_ok_from blog first (map rpart_creole d) = true -> rdoc_neat blog d = true -> rdoc_steady d = true -> written (map rpart_x d) (rdoc_html blog strict d).
Proof.
  intros blog strict first d O N S. unfold written, tm_doc. apply fits_ws0. revert first O. induction d as [|p d IH]; intros first O; [reflexivity|]. unfold rdoc_steady in *. cbn [map parts_ok_from rdoc_neat forallb flat_map] in *.
  apply andb_true_iff in O as [O O3]. apply andb_true_iff in O as [O1 _]. apply andb_true_iff in N as [N N3]. apply andb_true_iff in N as [N1 N2]. apply andb_true_iff in S as [S1 S2].
  pose proof (rpart_written blog strict p _ O1 N1 S1) as E. specialize (IH N3 S2 _ O3). destruct d as [|q d].
  - cbn [map flat_map rdoc_html]. rewrite app_nil_r, <- (app_nil_r (rpart_html _ _ _)). apply fits_app; [exact E|apply fits_ws0; reflexivity].
  - change (rdoc_html blog strict (p :: q :: d)) with (rpart_html blog strict p ++ rgap p ++ rdoc_html blog strict (q :: d)). rewrite <- app_assoc. apply fits_app; [exact E|].
    apply (fits_ws _ (rgap p)); [destruct p as [b|]; [destruct b|]; reflexivity|exact IH].
Qed.
Theorem rich_again : forall blog v s strict d, rdoc_ok blog d = true -> rdoc_steady d = true ->
  exists html, fst (creole2html (mkopts blog v s) example_md (wr_parts (map rpart_creole d))) = Ok html /\ html2creole use_html_macro strict html = Ok (wr_parts (map rpart_creole d)).
Proof.
  intros blog v s strict d O S. pose proof O as O'. unfold rdoc_ok in O. apply andb_true_iff in O as [N O]. pose proof (rdoc_written blog s true d O N S) as W. exists (rdoc_html blog s d).
  destruct (rich_trip blog v s strict d _ O' W) as (E1 & E2). split; assumption.
Qed.
