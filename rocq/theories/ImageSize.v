(** * An image on a line of its own, with any size that [int()] reads (C15) *)
From Coq Require Import String List Arith NArith ZArith Bool Lia.
From Verif Require Import PyStr PyStrFacts GNames Regex Rules RegexFacts RegexRun Utils DocTree CreoleParser ParserFacts
  Res HtmlEmitter EmitterFacts HtmlToolsFacts NumFacts NumeralFacts Spec50 Spec54 Spec4 Spec5 InlineRun InlineParse BlockRun BlockHits TableHits BlockParse DocParse P4_Lemmas.
Import ListNotations.
Open Scope N_scope.

Section Image.
  Variables (blog s : bool) (src x : str).
  Hypothesis (S1 : trimmed src = true) (S2 : no_char [10; 13; 124; 125] src = true) (S3 : head_is (N.eqb 123) src = false).
  Hypothesis (X1 : trimmed x = true) (X2 : no_char [10; 13; 125] x = true).
  Let w := $ "{{" ++ src ++ with_bar (Some x) ++ $ "}}".
  Let nd := Nd (mkn KImage (Some src)) [Nd (mkn KText (Some x)) []].

  Lemma img_hit : m inline_re (mk [] (w ++ []) []) fin = Some (mk (rev w ++ []) [] ((G_image, w) :: [(G_image_text, x)] ++ [(G_image_target, src)])).
  Proof.
    unfold trimmed in S1. rewrite !andb_true_iff, !negb_true_iff in S1. destruct S1 as [[T1 T2] T3].
    apply (image_hit src (Some x) [] []); try assumption.
    - apply (no_char_sub [10; 13; 124; 125]); [exact S2|reflexivity].
    - cbn [opt_ok]. rewrite X1. apply (no_char_sub [10; 13; 125]); [exact X2|reflexivity].
  Qed.
  Lemma img_inline : forall st, parse_inline w st = replace_ inline_groups (inline_handler parse_inline) st (mkm w ((G_image, w) :: [(G_image_text, x)] ++ [(G_image_target, src)])).
  Proof.
    intro st. rewrite parse_inline_fuel. unfold finditer. rewrite <- (app_nil_r w) at 1.
    assert (NE : w <> []) by (unfold w; discriminate).
    rewrite (scan_hit _ _ _ _ _ NE img_hit). rewrite inline_end. reflexivity.
  Qed.
  Lemma img_node : forall st, perr st = false -> parse_inline w st = set_txt false (append_child nd st).
  Proof.
    intros st Hp. rewrite img_inline. unfold replace_. rewrite Hp.
    change (first_group inline_groups _) with (Some G_image). cbv iota. cbn [inline_handler]. unfold image_repl.
    rewrite (need_some G_image_target _ st _ src) by reflexivity. rewrite (trimmed_strip src S1).
    change (group0 G_image_text _) with x. rewrite (trimmed_strip x X1).
    unfold trimmed in X1. rewrite !andb_true_iff in X1. rewrite (proj2 X1). reflexivity.
  Qed.
  Lemma w_line : no_char [10; 13] w = true.
  Proof.
    unfold w. cbn [with_bar]. rewrite !no_char_app, (no_char_sub [10; 13; 124; 125] [10; 13] src), (no_char_sub [10; 13; 125] [10; 13] x) by (assumption || reflexivity). reflexivity.
  Qed.
  Lemma w_start : block_start w = false.
  Proof.
    unfold w. destruct src as [|d r]; [discriminate|]. cbn [head_is] in S3. unfold block_start.
    change ($ "{{" ++ ?y) with (123 :: 123 :: y). cbn [head_is startswith app]. change ($ "{{{") with [123; 123; 123]. cbn [startswith].
    rewrite S3. reflexivity.
  Qed.
  Lemma img_block : parse_block blog w init_ps = mkps [(mkn KParagraph None, [nd]); (mkn KDocument None, [])] false [] false.
  Proof.
    assert (Hm : m (block_re blog) (mk [] (w ++ []) []) fin = Some (mk (rev w ++ []) [] [(G_text, w)])).
    { destruct blog; [apply blog_line|apply wiki_line]; auto using w_line, w_start. }
    assert (NE : w <> []) by (unfold w; discriminate).
    unfold parse_block, finditer. rewrite <- (app_nil_r w) at 1. rewrite (scan_hit _ _ _ _ _ NE Hm).
    rewrite scan_end, at_pos_miss.
    2:{ apply end_no. unfold w. rewrite !rev_app_distr, <- !app_assoc. reflexivity. }
    cbn [map flat_map app fold_left]. unfold replace_. change (perr init_ps) with false. cbv iota.
    replace (first_group (block_groups blog) (mkm w [(G_text, w)])) with (Some G_text) by (destruct blog; reflexivity). cbn [block_handler].
    unfold text_repl. change (kind_in (cur_kind init_ps) [KTable; KTableRow; KBulletList; KNumberList]) with false. cbv iota.
    change (kind_in (cur_kind init_ps) [KDocument]) with true. cbv iota.
    rewrite (need_some G_text _ _ _ w) by reflexivity. change (truthy (group0 G_space _)) with false. cbn [andb]. cbv iota.
    rewrite img_node by reflexivity. reflexivity.
  Qed.
End Image.

Lemma lone_image : forall blog v s md src x, trimmed src = true -> no_char [10; 13; 124; 125] src = true -> head_is (N.eqb 123) src = false ->
  trimmed x = true -> no_char [10; 13; 125] x = true ->
  creole2html (mkopts blog v s) md ($ "{{" ++ src ++ with_bar (Some x) ++ $ "}}") =
  (Ok ($ "<p>" ++ (match (if s then None else image_sized src (attr_escape x)) with
                   | Some r => r
                   | None => $ "<img src=""" ++ attr_escape src ++ $ """ title=""" ++ attr_escape x ++ $ """ alt=""" ++ attr_escape x ++ $ """ />"
                   end) ++ $ "</p>"), md).
Proof.
  intros blog v s md src x S1 S2 S3 X1 X2. unfold creole2html. cbn [o_blog o_verbose o_strict]. unfold parse.
  rewrite norm_id by (apply no_cr, w_line; assumption). rewrite img_block by assumption.
  set (c := mkcfg (match v with None => 1%Z | Some v => v end) s (md_env md) false).
  match goal with |- _ = (Ok ($ "<p>" ++ ?y ++ _), _) => set (r := y) end.
  assert (Sh : shown c (mkn KParagraph None) (Nd (mkn KImage (Some src)) [Nd (mkn KText (Some x)) []]) r).
  { intro st. rewrite emit_node_eq. reflexivity. }
  assert (D : docst c (in_par [] [Nd (mkn KImage (Some src)) [Nd (mkn KText (Some x)) []]]) ([] ++ elem ($ "p") r ++ [10])).
  { apply par_docst; [eexists; eexists; split; [reflexivity|discriminate]| |apply showns_nil]. exact (showns_snoc c _ [] _ [] r (showns_nil c _) Sh). }
  destruct (docst_emit c _ _ (mkest (md_toc md) (md_log md)) D) as (root & E & Er). unfold in_par in E. rewrite E.
  cbn [init_toc existsb]. fold c. unfold emit. rewrite Er. change (use_toc c) with false. cbv iota beta. cbn [toc log app].
  rewrite strip_solid; [|apply elem_solid|auto]. destruct md. reflexivity.
Qed.

Lemma number_clean : forall w z d, number (strip w) z -> In d [120; 34; 38; 60; 62] -> ~ In d w.
Proof.
  intros w z d Z Hd Hi. apply number_iff in Z. rewrite (strange d) in Z; [discriminate| | | | | |].
  - apply strip_by_In; [exact Hi|]. cbn [In] in Hd. repeat (destruct Hd as [<-|Hd]; [reflexivity|]). destruct Hd.
  - cbn [In] in Hd. repeat (destruct Hd as [<-|Hd]; [reflexivity|]). destruct Hd.
  - intros ->. cbn [In] in Hd. intuition discriminate.
  - intros ->. cbn [In] in Hd. intuition discriminate.
  - intros ->. cbn [In] in Hd. intuition discriminate.
  - cbn [In] in Hd. repeat (destruct Hd as [<-|Hd]; [reflexivity|]). destruct Hd.
Qed.
Lemma number_escape : forall w z, number (strip w) z -> attr_escape w = w.
Proof.
  intros w z Z. apply attr_escape_clean. unfold no_char. apply forallb_forall. intros d Hd. apply negb_true_iff.
  destruct (existsb (N.eqb d) [34; 38; 60; 62]) eqn:E; [|reflexivity]. exfalso. apply existsb_exists in E as (y & Hy & E). apply N.eqb_eq in E. subst y.
  apply (number_clean w z d Z); [right; exact Hy|exact Hd].
Qed.
Lemma sized_image : forall src title ws hs zw zh, trimmed title = true -> no_char [124] title = true ->
  number (strip ws) zw -> number (strip hs) zh ->
  image_sized src (attr_escape (title ++ $ "|" ++ ws ++ $ "x" ++ hs)) =
  Some ($ "<img src=""" ++ attr_escape src ++ $ """ title=""" ++ attr_escape title ++ $ """ alt=""" ++ attr_escape title ++
        $ """ width=""" ++ show_Z zw ++ $ """ height=""" ++ show_Z zh ++ $ """ />").
Proof.
  intros src title ws hs zw zh T B Zw Zh. rewrite !attr_escape_app, (number_escape ws zw Zw), (number_escape hs zh Zh).
  change (attr_escape ($ "|")) with [124]. change (attr_escape ($ "x")) with [120]. cbn [app]. unfold image_sized.
  rewrite split1_at by (apply attr_escape_bar_no; intro Hi; apply (no_char_In _ _ _ B Hi); left; reflexivity).
  rewrite split1_at by (apply (number_clean ws zw 120 Zw); left; reflexivity).
  apply number_iff in Zw, Zh. rewrite Zw, Zh.
  assert (Tr : truthy (attr_escape title) = true).
  { destruct title as [|d t]; [discriminate T|]. unfold attr_escape. rewrite escape_esc, replace_single. cbn [esc flat_map]. unfold esc_char.
    destruct (d =? 38); [reflexivity|]. destruct (d =? 60); [reflexivity|]. destruct (d =? 62); [reflexivity|].
    cbn [app flat_map]. unfold sub1 at 1. destruct (34 =? d); reflexivity. }
  rewrite Tr. reflexivity.
Qed.
Lemma number_ne : forall z, ~ number [] z.
Proof. intros z Z. apply number_iff in Z. discriminate. Qed.
Lemma lone_sized : forall blog v s md src title ws hs zw zh, trimmed src = true -> no_char ($ "|}" ++ [10; 13]) src = true -> head_is (N.eqb 123) src = false ->
  trimmed title = true -> no_char ($ "}" ++ [10; 13]) title = true -> no_char ($ "|") title = true ->
  number (strip ws) zw -> number (strip hs) zh -> no_char [10; 13] ws = true -> no_char [10; 13] hs = true -> last_is is_space hs = false ->
  creole2html (mkopts blog v s) md ($ "{{" ++ src ++ $ "|" ++ title ++ $ "|" ++ ws ++ $ "x" ++ hs ++ $ "}}") =
  (Ok ($ "<p>" ++ (if s then $ "<img src=""" ++ attr_text src ++ $ """ title=""" ++ attr_text (title ++ $ "|" ++ ws ++ $ "x" ++ hs) ++ $ """ alt=""" ++ attr_text (title ++ $ "|" ++ ws ++ $ "x" ++ hs) ++ $ """" ++ [] ++ $ " />"
     else $ "<img src=""" ++ attr_text src ++ $ """ title=""" ++ attr_text title ++ $ """ alt=""" ++ attr_text title ++ $ """" ++ ($ " width=""" ++ show_Z zw ++ $ """ height=""" ++ show_Z zh ++ $ """") ++ $ " />") ++ $ "</p>"), md).
Proof.
  intros blog v s md src title ws hs zw zh S1 S2 S3 T1 T2 T3 Zw Zh W H La.
  assert (B : forall y z, number (strip y) z -> no_char [10; 13] y = true -> no_char [10; 13; 125] y = true).
  { intros y z Z Hy. unfold no_char in *. rewrite forallb_forall in *. intros d Hd. specialize (Hy d Hd). rewrite negb_true_iff in *. cbn [existsb] in *.
    rewrite !orb_false_iff in *. repeat split; try tauto. destruct (N.eqb_spec d 125) as [->|]; [|reflexivity]. exfalso. apply number_iff in Z.
    rewrite (strange 125) in Z; [discriminate| |reflexivity|discriminate|discriminate|discriminate|reflexivity]. apply strip_by_In; [exact Hd|reflexivity]. }
  pose proof (lone_image blog v s md src (title ++ $ "|" ++ ws ++ $ "x" ++ hs) S1) as K.
  cbn [with_bar] in K. rewrite <- !app_assoc in K. refine (eq_trans (K _ S3 _ _) _); clear K.
  - apply (no_char_sub ($ "|}" ++ [10; 13])); [exact S2|reflexivity].
  - unfold trimmed in *. rewrite !andb_true_iff, !negb_true_iff in *. destruct T1 as [[A1 A2] A3]. destruct title as [|d t]; [discriminate|]. repeat split; [exact A1|].
    unfold last_is in *. rewrite !rev_app_distr, <- !app_assoc. destruct (rev hs) as [|e r] eqn:E; [|exact La].
    apply (f_equal (@rev _)) in E. rewrite rev_involutive in E. cbn in E. subst hs. exfalso. exact (number_ne _ Zh).
  - rewrite !no_char_app, (no_char_sub ($ "}" ++ [10; 13]) [10; 13; 125] title T2 eq_refl), (B ws zw Zw W), (B hs zh Zh H). reflexivity.
  - destruct s; [repeat rewrite <- app_assoc; reflexivity|]. rewrite (sized_image src title ws hs zw zh T1 T3 Zw Zh). repeat rewrite <- app_assoc. reflexivity.
Qed.

(** ** the numbers are shown in decimal notation *)
Lemma digits_head : forall f n acc, n <> 0 -> (N.to_nat (N.size n) < f)%nat -> exists d r, digits_go f n acc = d :: r /\ d <> 48.
Proof.
  induction f as [|f IH]; intros n acc Hn H; [lia|]. cbn [digits_go]. destruct (N.ltb_spec n 10) as [Lt|Lt]; [eexists; eexists; split; [reflexivity|lia]|].
  assert (0 < n / 10) by (apply N.div_str_pos; lia). apply IH; [lia|].
  rewrite !N.size_log2 in * by lia. assert (N.log2 (n / 10) < N.log2 n); [|lia].
  apply N.log2_lt_pow2; [lia|]. assert (n < 2 ^ N.succ (N.log2 n)) by (apply N.log2_spec; lia).
  rewrite N.pow_succ_r' in *. apply N.div_lt_upper_bound; lia.
Qed.
Lemma value_digits : forall t a, fold_left (fun a d => a * 10 + d) (map (fun c => c - 48) t) a = fold_left (fun a c => a * 10 + (c - 48)) t a.
Proof. induction t as [|c t IH]; intro a; [reflexivity|]. cbn [map fold_left]. apply IH. Qed.
Lemma show_N_decimal : forall n, exists l, l <> [] /\ (forall d, In d l -> d <= 9) /\ (hd 1 l = 0 -> l = [0]) /\ value l = n /\ show_N n = map (fun d => 48 + d) l.
Proof.
  intro n. exists (map (fun c => c - 48) (show_N n)). repeat split.
  - intro E. apply map_eq_nil in E. exact (show_N_ne n E).
  - intros d Hd. apply in_map_iff in Hd as (c & <- & Hc). apply show_N_In in Hc. lia.
  - intro H. destruct (N.eq_dec n 0) as [->|Hn]; [reflexivity|]. exfalso.
    destruct (digits_head (S (N.to_nat (N.size n))) n [] Hn ltac:(lia)) as (d & r & E & Hd). fold (show_N n) in E.
    pose proof (show_N_In n d ltac:(rewrite E; left; reflexivity)). rewrite E in H. cbn [map hd] in H. lia.
  - unfold value. rewrite value_digits. exact (dec_value_show n).
  - rewrite map_map. symmetry. rewrite <- (map_id (show_N n)) at 2. apply map_ext_in. intros c Hc. apply show_N_In in Hc. lia.
Qed.
Lemma show_Z_decimal : forall z, decimal_of (show_Z z) z.
Proof.
  intros [|p|p]; cbn [show_Z].
  - exists [0]. repeat split; try discriminate. intros d [<-|[]]. discriminate.
  - destruct (show_N_decimal (Npos p)) as (l & A & B & C & D & E). exists l. rewrite D, E. repeat split; assumption.
  - destruct (show_N_decimal (Npos p)) as (l & A & B & C & D & E). exists l. rewrite D, E. repeat split; assumption.
Qed.

(** ** an empty title *)
Lemma sized_untitled : forall src ws hs zw zh, number (strip ws) zw -> number (strip hs) zh ->
  image_sized src (attr_escape ($ "|" ++ ws ++ $ "x" ++ hs)) =
  Some ($ "<img src=""" ++ attr_escape src ++ $ """ title=""" ++ src ++ $ """ alt=""" ++ src ++
        $ """ width=""" ++ show_Z zw ++ $ """ height=""" ++ show_Z zh ++ $ """ />").
Proof.
  intros src ws hs zw zh Zw Zh. rewrite !attr_escape_app, (number_escape ws zw Zw), (number_escape hs zh Zh).
  change (attr_escape ($ "|")) with [124]. change (attr_escape ($ "x")) with [120]. cbn [app]. unfold image_sized.
  pose proof (split1_at 124 [] (ws ++ 120 :: hs) ltac:(intros [])) as S1. match type of S1 with ?x = ?y => match goal with |- context [split1 124 ?z] => change (split1 124 z) with x end end. rewrite S1. cbn [truthy].
  rewrite split1_at by (apply (number_clean ws zw 120 Zw); left; reflexivity).
  apply number_iff in Zw, Zh. rewrite Zw, Zh. reflexivity.
Qed.
Lemma number_line : forall y z, number (strip y) z -> no_char [10; 13] y = true -> no_char [10; 13; 125] y = true.
Proof.
  intros y z Z Hy. unfold no_char in *. rewrite forallb_forall in *. intros d Hd. specialize (Hy d Hd). rewrite negb_true_iff in *. cbn [existsb] in *.
  rewrite !orb_false_iff in *. repeat split; try tauto. destruct (N.eqb_spec d 125) as [->|]; [|reflexivity]. exfalso. apply number_iff in Z.
  rewrite (strange 125) in Z; [discriminate| |reflexivity|discriminate|discriminate|discriminate|reflexivity]. apply strip_by_In; [exact Hd|reflexivity].
Qed.
Lemma lone_untitled : forall blog v md src ws hs zw zh, trimmed src = true -> no_char ($ "|}" ++ [10; 13]) src = true -> head_is (N.eqb 123) src = false ->
  number (strip ws) zw -> number (strip hs) zh -> no_char [10; 13] ws = true -> no_char [10; 13] hs = true -> last_is is_space hs = false ->
  creole2html (mkopts blog v false) md ($ "{{" ++ src ++ $ "||" ++ ws ++ $ "x" ++ hs ++ $ "}}") =
  (Ok ($ "<p><img src=""" ++ attr_text src ++ $ """ title=""" ++ src ++ $ """ alt=""" ++ src ++ $ """ width=""" ++ show_Z zw ++ $ """ height=""" ++ show_Z zh ++ $ """ /></p>"), md).
Proof.
  intros blog v md src ws hs zw zh S1 S2 S3 Zw Zh W H La.
  pose proof (lone_image blog v false md src ($ "|" ++ ws ++ $ "x" ++ hs) S1) as K.
  cbn [with_bar] in K. rewrite <- !app_assoc in K. refine (eq_trans (K _ S3 _ _) _); clear K.
  - apply (no_char_sub ($ "|}" ++ [10; 13])); [exact S2|reflexivity].
  - unfold trimmed in *. rewrite !andb_true_iff, !negb_true_iff. repeat split.
    unfold last_is in *. rewrite !rev_app_distr, <- !app_assoc. destruct (rev hs) as [|e r] eqn:E; [|exact La].
    apply (f_equal (@rev _)) in E. rewrite rev_involutive in E. cbn in E. subst hs. exfalso. exact (number_ne _ Zh).
  - rewrite !no_char_app, (number_line ws zw Zw W), (number_line hs zh Zh H). reflexivity.
  - rewrite (sized_untitled src ws hs zw zh Zw Zh). repeat rewrite <- app_assoc. reflexivity.
Qed.
