(** * What documents with code blocks become in markdown *)
From Coq Require Import String List Arith NArith ZArith Bool Lia.
From Verif Require Import PyStr PyStrFacts GNames Regex RegexFacts RegexRun Rules Utils Res Entities HtmlTools HtmlToolsFacts HtmlTok HtmlTokFacts.
From Verif Require Import UrlQuote HtmlParser Safety HtmlBase Html2X Spec2 TreeFacts Spec10 TokRun StripRun Spec11 CleanRun CleanDoc Spec18 Spec26 Spec28 PreRun EmitFacts.
From Verif Require InlineRun BlockRun BlockHits CleanEmit CleanGen MarkdownEmit PreDoc.
Import ListNotations.
Open Scope N_scope.

(** ** the code element *)
Definition ent_dom (e : ent) : dom := match e with Text t => DText t | Dec n => DChar n | Hex n => DChar (120 :: n) | Named n => DEnt n end.
Lemma ent_show : forall l, flat_map show_dom (map ent_dom l) = pre_src l.
Proof. unfold pre_src. induction l as [|e l IH]; [reflexivity|]. cbn [map flat_map]. rewrite IH. f_equal. destruct e; reflexivity. Qed.
Lemma class_get : forall k a, forallb attr_ok a = true ->
  dict_get k (attr_dict a) = match last_value k a with VNone => None | v => Some v end.
Proof.
  intros k a H. unfold attr_dict.
  assert (G : forall (f : str -> pyval) ks, dict_get k (map (fun x => (x, f x)) ks) = if existsb (str_eqb k) ks then Some (f k) else None).
  { intros f ks. induction ks as [|x ks IH]; [reflexivity|]. cbn [map dict_get existsb]. destruct (str_eqb k x) eqn:E; [apply str_eqb_eq in E; subst x; reflexivity|exact IH]. }
  rewrite G. assert (M : existsb (str_eqb k) (once [] (map fst a)) = existsb (str_eqb k) (map fst a)).
  { apply Bool.eq_true_iff_eq. rewrite !existsb_exists. split; intros (x & I & E); exists x; (split; [|exact E]); [apply once_In in I; tauto|apply once_In; split; [exact I|intros []]]. }
  rewrite M. unfold last_value. assert (K : forall a v0, forallb attr_ok a = true ->
    fold_left (fun v (kv : str * pyval) => if str_eqb (fst kv) k then snd kv else v) a v0 = v0 /\ existsb (str_eqb k) (map fst a) = false \/
    (exists s, fold_left (fun v (kv : str * pyval) => if str_eqb (fst kv) k then snd kv else v) a v0 = VStr s) /\ (existsb (str_eqb k) (map fst a) = true \/ exists s, v0 = VStr s)).
  { clear. induction a as [|[n v] a IH]; intros v0 H; [left; auto|]. cbn [forallb] in H. apply andb_true_iff in H as [H1 H2]. cbn [fold_left map existsb fst snd].
    unfold attr_ok in H1. cbn [fst snd] in H1. apply andb_true_iff in H1 as [_ H1]. destruct v as [s| | |]; try discriminate H1.
    assert (SY : str_eqb k n = str_eqb n k).
    { destruct (str_eqb n k) eqn:E; [apply str_eqb_eq in E; subst; apply str_eqb_refl|]. apply str_eqb_neq in E. apply str_eqb_neq. congruence. }
    rewrite SY. destruct (str_eqb n k); cbn [orb].
    - right. destruct (IH (VStr s) H2) as [[E _]|[E _]]; [split; [exists s; exact E|auto]|split; [exact E|auto]].
    - destruct (IH v0 H2) as [[E1 E2]|[E1 E2]]; [left; auto|right; auto]. }
  destruct (K a VNone H) as [[-> ->]|[(s & ->) [->|(s' & X)]]]; [reflexivity|reflexivity|discriminate X].
Qed.
Lemma dash_cut : forall v, startswith ($ "language-") v = true -> snd (cut1 45 v) = skipn 9 v.
Proof. intros v H. apply startswith_spec in H as (y & ->). reflexivity. Qed.
Lemma no_ref : forall t, ~ In 38 t -> replace_all t = Ok t.
Proof.
  intros t H. replace t with (flat_map write [Text t]) at 1 by (cbn [flat_map write]; rewrite app_nil_r; reflexivity).
  rewrite replace_all_spec by (constructor; [exact H|constructor]). cbn [meant_all meant]. rewrite app_nil_r. reflexivity.
Qed.
Lemma range_no : forall (p : N -> bool) t, p 38 = false -> forallb p t = true -> ~ In 38 t.
Proof. intros p t H F I. rewrite forallb_forall in F. specialize (F 38 I). congruence. Qed.
Lemma shown_decoded : forall l, Forall ent_ok l -> replace_all (code_shown l) = Ok (code_shown l).
Proof.
  intros [|e l] F; [reflexivity|]. inversion_clear F. apply no_ref. destruct e as [t|n|n|n]; cbn [code_shown ent_ok] in *.
  - exact H.
  - destruct H as (_ & H & _). exact (range_no decimal n eq_refl H).
  - destruct H as (_ & H). intros [X|X]; [discriminate X|]. exact (range_no hexdigit n eq_refl H X).
  - destruct H as (_ & H). exact (range_no Spec2.letter n eq_refl H).
Qed.
Lemma no_angle : forall a b : str, ~ In 60 (a ++ b) -> ~ In 60 a /\ ~ In 60 b.
Proof. intros a b H. split; intro I; apply H; apply in_or_app; auto. Qed.
Lemma same_letter : forall c, Spec2.letter c = letter c.
Proof. intro c. unfold Spec2.letter, letter. apply orb_comm. Qed.
Lemma pieces_wf : forall l, Forall ent_ok l -> pieces_ok l = true -> ~ In 60 (pre_src l) -> forallb dom_wf (map ent_dom l) = true /\ apart (map ent_dom l) = true.
Proof.
  induction l as [|e l IH]; intros F P N; [split; reflexivity|]. inversion_clear F. unfold pre_src in N. cbn [flat_map] in N. apply no_angle in N as [N1 N2].
  assert (P' : pieces_ok l = true). { destruct e as [[|c t]| | |]; cbn [pieces_ok] in P; try exact P; try discriminate P. destruct l as [|[]]; try exact P; discriminate P. }
  destruct (IH H0 P' N2) as [I1 I2]. cbn [map forallb]. rewrite I1, andb_true_r. split.
  - destruct e as [t|n|n|n]; cbn [ent_dom dom_wf ent_ok write pieces_ok] in *.
    + destruct t as [|c t]; [discriminate P|]. cbn [is_nil negb andb]. apply forallb_forall. intros x I. apply negb_true_iff. apply orb_false_iff. split; apply N.eqb_neq; intros ->; contradiction.
    + destruct H as (H1 & H2 & _). apply orb_true_iff. left. unfold all_digits. destruct n; [congruence|]. exact H2.
    + destruct H as (H1 & H2). apply orb_true_iff. right. unfold all_digits. destruct n; [congruence|]. exact H2.
    + destruct H as (H1 & H2). destruct n as [|c n]; [congruence|]. cbn [forallb] in H2. apply andb_true_iff in H2 as [H2 H3]. apply andb_true_iff. split; [rewrite <- same_letter; exact H2|].
      eapply forallb_impl; [|exact H3]. intros x X. rewrite <- same_letter, X. reflexivity.
  - destruct e as [[|c t]| | |]; cbn [ent_dom]; try exact I2; [discriminate P|]. destruct l as [|[]]; try exact I2; discriminate P.
Qed.
Lemma code_block : forall a l, code_ok a l -> m_code_block (code_src a l) = Ok ([10] ++ fenced (language a ++ code_shown l) ++ [10]).
Proof.
  intros a l (A & NE & F & P & N60). unfold m_code_block, feed_raw.
  assert (E : code_src a l = show_doms [DElem ($ "code") a (map ent_dom l)]).
  { unfold show_doms. cbn [flat_map show_dom]. rewrite app_nil_r. unfold code_src. rewrite ent_show. cbn [L app]. rewrite <- ?app_assoc. reflexivity. }
  assert (ST : strip (code_src a l) = code_src a l).
  { pose proof (strip_around [] (code_src a l) [] eq_refl eq_refl) as S. cbn [app] in S. rewrite app_nil_r in S. apply S.
    - exists 60. eexists. split; reflexivity.
    - exists 62, ($ "<code" ++ show_attrs a ++ $ ">" ++ pre_src l ++ $ "</code"). split; [|reflexivity]. unfold code_src. rewrite <- !app_assoc. reflexivity. }
  rewrite ST, E. unfold feed_tokens. destruct (pieces_wf l F P N60) as [W1 W2]. rewrite document_run.
  - destruct (tree_of_dom [] [DElem ($ "code") a (map ent_dom l)]) as (h & H1 & H2 & _).
    { constructor; [|constructor]. apply ok_elem; try reflexivity; try discriminate. apply Forall_forall. intros d I. apply in_map_iff in I as ([] & <- & _); constructor. }
    rewrite H1. cbn [bind]. rewrite H2. cbn [flat_map app h_children].
    change (dom_tree [] 0 (DElem ($ "code") a (map ent_dom l))) with [HN ($ "code") None (attr_dict a) None (flat_map (dom_tree [] 0) (map ent_dom l))].
    cbn [app h_children h_attrs]. destruct l as [|e l]; [congruence|]. cbn [map flat_map].
    assert (D : dom_tree [] 0 (ent_dom e) = [HN (h_kind (hd (HN [] None [] None []) (dom_tree [] 0 (ent_dom e)))) (Some (code_shown (e :: l))) [] None []]) by (destruct e; reflexivity).
    rewrite D. cbn [app h_content]. rewrite (shown_decoded (e :: l) F). cbn [bind]. rewrite (class_get _ a A). unfold language.
    destruct (last_value ($ "class") a) as [v|z|b|]; try (unfold fenced; cbn [app]; rewrite <- ?app_assoc; reflexivity).
    destruct (startswith ($ "language-") v) eqn:SW; [rewrite (dash_cut v SW)|]; unfold fenced; cbn [app]; rewrite <- ?app_assoc; reflexivity.
  - cbn [forallb]. rewrite andb_true_r. cbn [dom_wf]. rewrite A, W1, W2. reflexivity.
  - reflexivity.
Qed.

(** ** cutting them out *)
Lemma piece_misses : forall (t y : str), t <> [] -> ~ In 60 t -> (forall r, t <> 112 :: r) -> forall a z, 60 :: t = a ++ z -> z <> [] -> startswith ($ "<pre>") (z ++ y) = false.
Proof.
  intros t y NE N H a z E Hz. destruct a as [|c a]; cbn [app] in E.
  - subst z. destruct t as [|c t]; [congruence|]. cbn [app startswith L]. change (60 =? 60) with true. cbn [andb]. replace (112 =? c) with false; [reflexivity|].
    symmetry. apply N.eqb_neq. intros <-. exact (H t eq_refl).
  - injection E as _ E. destruct z as [|d z]; [congruence|]. cbn [app startswith L]. replace (60 =? d) with false; [reflexivity|]. symmetry. apply N.eqb_neq. intros <-.
    apply N. rewrite E. apply in_or_app. right. left. reflexivity.
Qed.
Lemma attrs_no60 : forall a, forallb attr_ok a = true -> ~ In 60 (show_attrs a).
Proof.
  induction a as [|[n v] a IH]; intros H I; [destruct I|]. cbn [forallb] in H. apply andb_true_iff in H as [H1 H2]. unfold show_attrs in I. cbn [flat_map fst snd] in I.
  unfold attr_ok in H1. cbn [fst snd] in H1. apply andb_true_iff in H1 as [H1 _]. apply name_ok_chars in H1 as [H1 _].
  rewrite !in_app_iff in I. 
  assert (E1 : ~ In 60 n). { intro X. rewrite forallb_forall in H1. specialize (H1 60 X). discriminate H1. }
  assert (E2 : ~ In 60 (flat_map attr_entity (value_of v))).
  { generalize (value_of v). clear. induction s as [|c s IH]; [intros []|]. cbn [flat_map]. rewrite in_app_iff. intros [X|X]; [|exact (IH X)]. revert X. unfold attr_entity.
    destruct (c =? 38); [cbn; intuition discriminate|]. destruct (c =? 60) eqn:E; [cbn; intuition discriminate|]. destruct (c =? 62); [cbn; intuition discriminate|]. destruct (c =? 34); [cbn; intuition discriminate|].
    intros [X|[]]. subst c. discriminate E. }
  specialize (IH H2). unfold show_attrs in IH. cbn [In L] in I. intuition discriminate.
Qed.
Lemma space_no60 : forall w : str, forallb is_space w = true -> ~ In 60 w.
Proof. intros w H I. rewrite forallb_forall in H. specialize (H 60 I). discriminate H. Qed.

(** the content of a [pre] part: it starts on the line of the tag, and [<pre>] is not in it *)
Definition content (p : kpart) : str := match p with KBlock _ => [] | KCode a l => code_src a l | KLine l => pre_src l end.
Definition cut_ok (p : kpart) : Prop := match p with KBlock b => shape_block b = true | KCode a l => code_ok a l | KLine l => pre_ok l end.
Definition is_cut (p : kpart) : bool := match p with KBlock _ => false | _ => true end.
Lemma content_line : forall p, is_cut p = true -> cut_ok p -> forallb is_space (first_line (content p)) = false.
Proof. intros [b|a l|l] K H; [discriminate K|reflexivity|]. destruct H as (_ & _ & _ & H). exact H. Qed.
Lemma content_shape : forall p, is_cut p = true -> cut_ok p -> exists t x, ~ In 60 t /\ content p = t ++ x /\
  (x = [] \/ t = [] /\ exists t1, ~ In 60 t1 /\ x = 60 :: 99 :: t1 ++ $ "</code>").
Proof.
  intros [b|a l|l] K H; [discriminate K| |].
  - destruct H as (H1 & _ & _ & _ & H2). exists [], (code_src a l). split; [intros []|]. split; [reflexivity|]. right. split; [reflexivity|].
    exists ($ "ode" ++ show_attrs a ++ $ ">" ++ pre_src l). split; [|unfold code_src; cbn [L app]; rewrite <- !app_assoc; reflexivity].
    rewrite !in_app_iff. pose proof (attrs_no60 a H1). cbn [In L]. intuition discriminate.
  - destruct H as (_ & _ & H & _). exists (pre_src l), []. rewrite app_nil_r. split; [exact H|]. auto.
Qed.
(** inside it [</pre>] does not occur *)
Lemma content_open : forall p y, is_cut p = true -> cut_ok p -> forall a z, content p = a ++ z -> z <> [] -> startswith ($ "</pre>") (z ++ y) = false.
Proof.
  intros p y K H a z E Hz. destruct (content_shape p K H) as (t & x & N & EC & SH). destruct z as [|c z]; [congruence|]. cbn [app startswith L].
  destruct (N.eqb_spec 60 c) as [<-|]; [|reflexivity]. cbn [andb]. destruct SH as [->|(-> & t1 & N1 & ->)].
  - exfalso. apply N. rewrite <- (app_nil_r t), <- EC, E. apply in_or_app. right. left. reflexivity.
  - cbn [app] in EC. rewrite EC in E. destruct a as [|a0 a]; cbn [app] in E; [injection E as <-; reflexivity|]. injection E as _ E.
    change (99 :: t1 ++ $ "</code>") with ((99 :: t1) ++ $ "</code>") in E.
    destruct (Nat.le_gt_cases (List.length a) (List.length t1)) as [LE|GT].
    + exfalso. assert (X : nth_error ((99 :: t1) ++ $ "</code>") (List.length a) = nth_error (a ++ 60 :: z) (List.length a)) by (rewrite E; reflexivity).
      rewrite nth_error_app1 in X by (cbn [List.length]; lia). rewrite nth_error_app2, Nat.sub_diag in X by lia. cbn [nth_error] in X. apply nth_error_In in X. destruct X as [X|X]; [discriminate X|contradiction].
    + assert (X : skipn (S (List.length t1)) ((99 :: t1) ++ $ "</code>") = skipn (S (List.length t1)) (a ++ 60 :: z)) by (rewrite E; reflexivity).
      change (S (List.length t1)) with (List.length (99 :: t1)) in X at 1. rewrite skipn_app_exact in X. rewrite skipn_app in X. replace (S (List.length t1) - List.length a)%nat with 0%nat in X by lia. change (skipn 0 (60 :: z)) with (60 :: z) in X.
      destruct (skipn (S (List.length t1)) a) as [|b0 b]; cbn [app L] in X.
      * injection X as <-. reflexivity.
      * injection X as _ X. exfalso. assert (I : In 60 (47 :: $ "code>")) by (cbn [L]; rewrite X; apply in_or_app; right; left; reflexivity). cbn in I. intuition discriminate.
Qed.
Definition misses (x : str) : Prop := forall y a z, x = a ++ z -> z <> [] -> startswith ($ "<pre>") (z ++ y) = false.
Lemma misses_plain : forall x, ~ In 60 x -> misses x.
Proof.
  intros x N y a z E Hz. destruct z as [|d z]; [congruence|]. cbn [app startswith L]. replace (60 =? d) with false; [reflexivity|]. symmetry. apply N.eqb_neq. intros <-.
  apply N. rewrite E. apply in_or_app. right. left. reflexivity.
Qed.
Lemma misses_piece : forall t, t <> [] -> ~ In 60 t -> (forall r, t <> 112 :: r) -> misses (60 :: t).
Proof. intros t H1 H2 H3 y a z E Hz. exact (piece_misses t y H1 H2 H3 a z E Hz). Qed.
Lemma misses_app : forall x1 x2, misses x1 -> misses x2 -> misses (x1 ++ x2).
Proof.
  intros x1 x2 M1 M2 y a z E Hz. destruct (Nat.le_gt_cases (List.length x1) (List.length a)) as [LE|GT].
  - assert (A : a = x1 ++ skipn (List.length x1) a).
    { rewrite <- (firstn_skipn (List.length x1) a) at 1. f_equal. transitivity (firstn (List.length x1) (a ++ z)); [rewrite firstn_app; replace (List.length x1 - List.length a)%nat with 0%nat by lia; rewrite app_nil_r; reflexivity|].
      rewrite <- E, firstn_app, Nat.sub_diag, firstn_all, app_nil_r. reflexivity. }
    rewrite A, <- app_assoc in E. apply app_inv_head in E. exact (M2 y _ z E Hz).
  - assert (A : x1 = a ++ skipn (List.length a) x1).
    { rewrite <- (firstn_skipn (List.length a) x1) at 1. f_equal. transitivity (firstn (List.length a) (x1 ++ x2)); [rewrite firstn_app; replace (List.length a - List.length x1)%nat with 0%nat by lia; rewrite app_nil_r; reflexivity|].
      rewrite E, firstn_app, Nat.sub_diag, firstn_all, app_nil_r. reflexivity. }
    assert (Z : skipn (List.length a) x1 <> []). { intro X. rewrite X, app_nil_r in A. subst x1. lia. }
    rewrite A, <- app_assoc in E. apply app_inv_head in E. subst z. rewrite <- app_assoc. exact (M1 _ a _ A Z).
Qed.
Lemma cut_tail : forall p w, is_cut p = true -> cut_ok p -> blank w -> misses ($ "pre>" ++ content p ++ $ "</pre>" ++ w).
Proof.
  intros p w K H W. destruct (content_shape p K H) as (t & x & N & -> & SH). apply space_no60 in W.
  apply misses_app; [apply misses_plain; cbn; intuition discriminate|]. apply misses_app.
  - destruct SH as [->|(-> & t1 & N1 & ->)]; [rewrite app_nil_r; apply misses_plain; exact N|]. cbn [app].
    change (60 :: 99 :: t1 ++ $ "</code>") with ((60 :: 99 :: t1) ++ $ "</code>"). apply misses_app.
    + apply misses_piece; [discriminate|intros [X|X]; [discriminate X|contradiction]|intros r X; discriminate X].
    + apply (misses_piece ($ "/code>")); [discriminate|cbn; intuition discriminate|intros r X; discriminate X].
  - apply (misses_piece ($ "/pre>" ++ w)); [discriminate| |intros r X; discriminate X]. cbn [app L In]. intuition discriminate.
Qed.
Lemma block_re_miss : forall b c r, forallb is_space (first_line c) = false -> m pre_block_re (mk b ($ "<pre>" ++ c ++ r) []) (fun s => Some s) = None.
Proof.
  intros b c r H. unfold pre_block_re, seqs. rewrite m_seq, BlockRun.m_bol. destruct (BlockRun.bol b); [|reflexivity]. rewrite m_seq, m_lit, m_seq. unfold sps, sp. apply InlineRun.star_none.
  intros z y E Hz. rewrite m_seq, BlockRun.m_eol, (line_stops c z y r H Hz E). reflexivity.
Qed.
Lemma block_re_other : forall b x, startswith ($ "<pre>") x = false -> m pre_block_re (mk b x []) (fun s => Some s) = None.
Proof. intros b x H. unfold pre_block_re, seqs. rewrite m_seq. apply m_none. intros s' M. apply bol_inv in M. subst s'. rewrite m_seq, m_lit_none; [reflexivity|exact H]. Qed.
Lemma no_block_cut : forall d s b, Forall cut_ok d -> kfits d s -> scan pre_block_re 0 b s = map Datatypes.inl s.
Proof.
  induction d as [|p d IH]; intros s b FN F.
  - cbn [kfits] in F. subst s. cbn [scan]. rewrite at_pos_miss; [reflexivity|]. apply block_re_other. reflexivity.
  - inversion_clear FN. cbn [kfits] in F. destruct F as (u & w & v & -> & Hu & Hw & H1 & Hv). rewrite app_assoc, scan_pass, (IH v _ H0 Hv), <- map_app; [reflexivity|].
    intros a z E Hz. destruct (is_cut p) eqn:K.
    + assert (EU : u = in_pre (content p)) by (destruct p; [discriminate K|exact Hu..]). clear Hu. subst u. unfold in_pre in E. rewrite <- !app_assoc in E. destruct a as [|c a].
      * cbn [app rev] in E. subst z. cbn [rev app]. rewrite <- app_assoc. apply block_re_miss. apply content_line; assumption.
      * apply block_re_other. apply (cut_tail p w K H Hw v a z); [|exact Hz]. cbn [app L] in E. injection E as _ E. exact E.
    + destruct p as [x| |]; try discriminate K. apply block_re_other. eapply block_no_pre; eassumption.
Qed.

(** the document with the contents cut out *)
Definition cut_src (n : nat) : str := part_src (Single ($ "inlinedata") (cut_attrs n)).
Definition after (p : kpart) (n : nat) : nat := if is_cut p then S n else n.
Fixpoint kcut (n : nat) (d : list kpart) (s : str) : Prop :=
  match d with
  | [] => s = []
  | p :: r => exists u w v, s = u ++ w ++ v /\ match p with KBlock b => fits (tm_block b) u | _ => u = cut_src n end /\ blank w /\ (r = [] -> w = []) /\ kcut (after p n) r v
  end.
Definition kdata (d : list kpart) : list str := flat_map (fun p => if is_cut p then [content p] else []) d.
Lemma inline_hit : forall b p y, is_cut p = true -> cut_ok p ->
  m pre_inline_re (mk b (in_pre (content p) ++ y) []) (fun s => Some s) = Some (mk (rev (in_pre (content p)) ++ b) y [(G_html_pre_inline, content p)]).
Proof.
  intros b p y K H. unfold in_pre. rewrite <- !app_assoc. unfold pre_inline_re, seqs. rewrite m_seq, m_lit, m_seq, m_grp. unfold c1 at 1, dot at 1. rewrite BlockHits.star_alt_chr. apply lazy_until.
  - apply forallb_forall. intros c _. destruct (N.eqb_spec c 10); [subst c; reflexivity|]. apply orb_true_iff. right. apply negb_true_iff. apply N.eqb_neq. auto.
  - cbn [bef rest caps]. rewrite InlineRun.firstn_grp. rewrite <- (app_nil_r ($ "</pre>")), <- app_assoc. rewrite m_lit. cbn [app].
    f_equal. f_equal. repeat (rewrite ?rev_app_distr, <- ?app_assoc; cbn [rev app]). reflexivity.
  - intros x1 x2 E Hx. cbn [bef rest caps]. rewrite m_lit_none; [reflexivity|]. eapply content_open; eassumption.
Qed.
Lemma cut_inlines : forall d s b bd, Forall cut_ok d -> kfits d s ->
  exists s', sub_go cut_inline (scan pre_inline_re 0 b s) bd = Ok (s', bd ++ kdata d) /\ kcut (List.length bd) d s'.
Proof.
  assert (OTHER : forall b x, startswith ($ "<pre>") x = false -> m pre_inline_re (mk b x []) (fun s => Some s) = None).
  { intros b x H. unfold pre_inline_re, seqs. rewrite m_seq, m_lit_none; [reflexivity|exact H]. }
  induction d as [|p d IH]; intros s b bd FN F.
  - cbn [kfits] in F. subst s. exists []. split; [|reflexivity]. cbn [scan]. rewrite at_pos_miss by (apply OTHER; reflexivity).
    cbn [map app sub_go]. unfold kdata. cbn [flat_map]. rewrite app_nil_r. reflexivity.
  - inversion_clear FN. cbn [kfits] in F. destruct F as (u & w & v & -> & Hu & Hw & H1 & Hv). destruct (is_cut p) eqn:K.
    + assert (EU : u = in_pre (content p)) by (destruct p; [discriminate K|exact Hu..]). clear Hu. subst u.
      rewrite (scan_hit _ _ _ _ [(G_html_pre_inline, content p)]); [|discriminate|apply inline_hit; assumption].
      rewrite scan_pass.
      * destruct (IH v (rev w ++ rev (in_pre (content p)) ++ b) (bd ++ [content p]) H0 Hv) as (s' & S1 & S2). exists (cut_src (List.length bd) ++ w ++ s'). split.
        -- cbn [sub_go]. unfold cut_inline at 1. cbn [bind]. change (group0 G_html_pre_inline (mkm ?x [(G_html_pre_inline, ?c)])) with c. unfold pre_cut.
           pose proof (sub_pass _ cut_inline w _ _ _ _ S1) as S3. match goal with |- bind ?x ?k = _ => refine (eq_trans (f_equal (fun z => bind z k) S3) _) end. cbn [bind].
           f_equal. f_equal; [|unfold kdata; cbn [flat_map]; rewrite K, <- app_assoc; reflexivity]. f_equal.
           pose proof (show_cut false (List.length bd)) as SC. cbn [show_dom placeholder] in SC. unfold cut_src. cbn [part_src]. exact SC.
        -- cbn [kcut]. exists (cut_src (List.length bd)), w, s'. split; [reflexivity|]. split; [destruct p; [discriminate K|reflexivity..]|]. split; [exact Hw|]. split; [exact H1|].
           unfold after. rewrite K. rewrite app_length in S2. cbn [List.length] in S2. rewrite Nat.add_1_r in S2. exact S2.
      * intros a z E Hz. apply OTHER. exact (misses_plain w (space_no60 w Hw) v a z E Hz).
    + destruct p as [x| |]; try discriminate K. rewrite app_assoc, scan_pass.
      * destruct (IH v (rev (u ++ w) ++ b) bd H0 Hv) as (s' & S1 & S2). exists ((u ++ w) ++ s'). split.
        -- replace (bd ++ kdata (KBlock x :: d)) with (bd ++ kdata d) by reflexivity. apply sub_pass. exact S1.
        -- cbn [kcut]. exists u, w, s'. split; [rewrite app_assoc; reflexivity|]. split; [exact Hu|]. split; [exact Hw|]. split; [exact H1|exact S2].
      * intros a z E Hz. apply OTHER. eapply block_no_pre; eassumption.
Qed.

(** ** white space *)
Lemma squash_app : forall x y c seen p, is_space c = false -> squash seen p ((x ++ [c]) ++ y) = squash seen p (x ++ [c]) ++ squash true [] y.
Proof.
  induction x as [|d x IH]; intros y c seen p H; cbn [app squash].
  - rewrite H, <- app_assoc. reflexivity.
  - destruct (is_space d); [apply IH; exact H|]. rewrite IH by exact H. rewrite <- app_assoc. reflexivity.
Qed.
Lemma squash_gap : forall w y, blank w -> squash true [] (w ++ 60 :: y) = conv w ++ squash true [] (60 :: y).
Proof. intros w y H. rewrite squash_spaces by exact H. reflexivity. Qed.
Lemma conv_blank : forall w, blank w -> blank (conv w).
Proof.
  intros w H. unfold conv. destruct (existsb (N.eqb 10) w); [|exact H]. generalize (count_occ N.eq_dec w 10). intro n. unfold blank. induction n as [|n IHn]; [reflexivity|]. cbn [repeat forallb]. rewrite IHn. reflexivity.
Qed.
Lemma squeeze_join : forall ps st c n a w c2 n2 a2 r, blank w ->
  squeeze st ((ps ++ [Tg c n a]) ++ map Ch w ++ Tg c2 n2 a2 :: r) = squeeze st ((ps ++ [Tg c n a]) ++ map Ch w) ++ squeeze (Run []) (Tg c2 n2 a2 :: r).
Proof.
  assert (B : forall w p c n a l c2 n2 a2 r, blank w -> squeeze (Tagged p c n a l) (map Ch w ++ Tg c2 n2 a2 :: r) = squeeze (Tagged p c n a l) (map Ch w) ++ squeeze (Run []) (Tg c2 n2 a2 :: r)).
  { induction w as [|d w IH]; intros p c n a l c2 n2 a2 r H; [reflexivity|]. unfold blank in *. cbn [forallb] in H. apply andb_true_iff in H as [H1 H2]. cbn [map app squeeze]. rewrite H1. apply IH. exact H2. }
  induction ps as [|x ps IH]; intros st c n a w c2 n2 a2 r H.
  - cbn [app squeeze]. destruct st; [apply B; exact H|]. rewrite B by exact H. rewrite <- app_assoc. reflexivity.
  - cbn [app squeeze]. destruct x as [d|c' n' a'].
    + destruct (is_space d); [apply IH; exact H|]. rewrite IH by exact H. rewrite <- (app_assoc (flush st)). reflexivity.
    + destruct st; [apply IH; exact H|]. rewrite IH by exact H. match goal with |- ?x ++ _ = _ => rewrite <- (app_assoc x) end. reflexivity.
Qed.
Lemma spell_join : forall l ps l' ps', spell l ps -> spell l' ps' -> spell (l ++ l') (ps ++ ps').
Proof. intros l ps l' ps' S S'. induction S; [exact S'| |]; cbn [app]; rewrite <- app_assoc; constructor; assumption. Qed.
Lemma spell_last : forall l p ps, is_tag p = true -> spell (l ++ [p]) ps -> exists ps0 c n a, ps = ps0 ++ [Tg c n a].
Proof.
  induction l as [|x l IH]; intros p ps T S; cbn [app] in S; inversion S; subst.
  - discriminate T.
  - inversion H3; subst. destruct p as [t v|t|t v|w|]; try discriminate T; cbn [pcs]; exists []; do 3 eexists; reflexivity.
  - destruct (IH p ps0 T H3) as (q & c & n & a & ->). exists (map Ch w ++ q), c, n, a. rewrite app_assoc. reflexivity.
  - destruct (IH p ps0 T H3) as (q & c & n & a & ->). exists (pcs x ++ q), c, n, a. rewrite app_assoc. reflexivity.
Qed.
Lemma spell_first : forall p l ps, is_tag p = true -> spell (p :: l) ps -> exists c n a r, ps = Tg c n a :: r.
Proof. intros p l ps T S. inversion S; subst; [discriminate T|]. destruct p as [t v|t|t v|w|]; try discriminate T; cbn [pcs app]; do 4 eexists; reflexivity. Qed.
Lemma block_start : forall b, exists p l, tm_block b = p :: l /\ is_tag p = true.
Proof. intros [l|n l| |o l|l]; do 2 eexists; split; reflexivity. Qed.

(** what is left of one part and the white space after it *)
Inductive kd : nat -> list kpart -> list dom -> Prop :=
| kd_nil n : kd n [] []
| kd_block n b r ds : kd n r ds -> kd n (KBlock b :: r) (b2d b :: ds)
| kd_cut n p r sp ds : is_cut p = true -> sp = [] \/ sp = [DText [32]] -> kd (S n) r ds -> kd n (p :: r) (DCut false n :: sp ++ ds).
Lemma cut_fine : forall n, tag_name ($ "inlinedata") && forallb attr_fine (cut_attrs n) = true.
Proof.
  intro n. apply andb_true_iff. split; [reflexivity|]. unfold cut_attrs. cbn [forallb]. change (attr_fine ($ "type", VStr ($ "pre"))) with true. unfold attr_fine. cbn [fst snd value_of].
  change (attr_ok ($ "id", VStr (show_nat n))) with true. cbn [andb]. rewrite andb_true_r. unfold one_line. eapply forallb_impl; [|apply show_nat_digits]. intros c Hc. unfold dec in Hc.
  destruct (N.eqb_spec c 10); [subst c; discriminate Hc|reflexivity].
Qed.
(** the pieces of one part: they start and end with a tag *)
Lemma unit_pieces : forall p n u, cut_ok p -> match p with KBlock b => fits (tm_block b) u | _ => u = cut_src n end ->
  exists ps0 c nm a c' nm' a' r', squash true [] u = pcs_src (ps0 ++ [Tg c nm a]) /\ ps0 ++ [Tg c nm a] = Tg c' nm' a' :: r' /\ Forall pc_fine (ps0 ++ [Tg c nm a]) /\
  forall w, blank w -> squeeze (Run []) ((ps0 ++ [Tg c nm a]) ++ map Ch w) =
    match p with KBlock b => show_dom (b2d b) | _ => show_dom (DCut false n) ++ (if endswith [32] w then [32] else []) end.
Proof.
  intros p n u K U. destruct (is_cut p) eqn:C.
  - assert (EU : u = cut_src n) by (destruct p; [discriminate C|exact U..]). clear U. subst u.
    pose proof (cut_fine n) as CF. pose proof CF as CF'. apply andb_true_iff in CF' as [CF1 CF2].
    exists [], false, ($ "inlinedata"), (show_attrs (cut_attrs n) ++ $ " /"). do 4 eexists. cbn [app]. split; [|split; [reflexivity|split]].
    + pose proof (tag_solid (Single ($ "inlinedata") (cut_attrs n)) true [] [] CF) as T. rewrite app_nil_r in T. change (conv []) with (@nil N) in T. cbn [app squash] in T. rewrite app_nil_r in T.
      unfold cut_src. rewrite T. pose proof (pcs_part (Single ($ "inlinedata") (cut_attrs n))) as PP. cbn [pcs] in PP. rewrite PP. reflexivity.
    + constructor; [|constructor]. cbn [pc_fine]. apply single_fine; assumption.
    + intros w W. assert (G : forall w l, blank w -> squeeze (Tagged [] false ($ "inlinedata") (show_attrs (cut_attrs n) ++ $ " /") l) (map Ch w) = tag_out [] false ($ "inlinedata") (show_attrs (cut_attrs n) ++ $ " /") (l ++ w)).
      { clear. induction w as [|d w IH]; intros l H; [rewrite app_nil_r; reflexivity|]. unfold blank in *. cbn [forallb] in H. apply andb_true_iff in H as [H1 H2]. cbn [map squeeze]. rewrite H1, IH by exact H2. rewrite <- app_assoc. reflexivity. }
      change (squeeze (Run []) (Tg false ($ "inlinedata") (show_attrs (cut_attrs n) ++ $ " /") :: map Ch w)) with (squeeze (Tagged [] false ($ "inlinedata") (show_attrs (cut_attrs n) ++ $ " /") []) (map Ch w)).
      rewrite (G w [] W). cbn [app]. unfold tag_out. change (in_list BLOCK_TAGS ($ "inlinedata")) with false. cbv iota zeta. destruct (single_fine ($ "inlinedata") (cut_attrs n) CF1 CF2) as [_ SF]. rewrite SF. change (startswith [32] []) with false.
      assert (SD : tag_src false ($ "inlinedata") (show_attrs (cut_attrs n) ++ $ " /") = show_dom (DCut false n)).
      { rewrite show_cut. pose proof (pcs_part (Single ($ "inlinedata") (cut_attrs n))) as PP. cbn [pcs] in PP. unfold pcs_src in PP. cbn [flat_map pc_src] in PP. rewrite app_nil_r in PP. rewrite PP. reflexivity. }
      rewrite SD. destruct p; [discriminate C| |]; destruct (endswith [32] w); rewrite ?app_nil_r; reflexivity.
  - destruct p as [b| |]; try discriminate C. cbn [cut_ok] in K. destruct (block_ends b) as (l & q & EB & TQ). destruct (block_start b) as (q' & l' & EB' & TQ').
    assert (T1 : tq QBlock (tm_block b) = true) by (rewrite <- (app_nil_r (tm_block b)); apply block_tq; [exact K|reflexivity|reflexivity]).
    assert (T2 : tq (QText []) (tm_block b ++ [Ws]) = true) by (apply block_tq; [exact K|reflexivity|reflexivity]).
    destruct (squash_parts (tm_block b) QBlock false [] u T1 U eq_refl) as (g & ps & S1 & S2 & S3). cbn [gq] in S3. destruct S3 as [_ S3]. rewrite (S3 eq_refl) in S2. cbn [app] in S2.
    pose proof S1 as S1'. rewrite EB in S1'. destruct (spell_last l q ps TQ S1') as (ps0 & c & nm & a & EP). pose proof S1 as S1''. rewrite EB' in S1''. destruct (spell_first q' l' ps TQ' S1'') as (c' & nm' & a' & r' & EF).
    exists ps0, c, nm, a, c', nm', a', r'. rewrite <- EP. split; [|split; [exact EF|split]].
    + rewrite <- S2. destruct (block_first b u U) as (x & ->). reflexivity.
    + exact (parts_fine _ _ _ T1 S1).
    + intros w W. assert (SP : spell (tm_block b ++ [Ws]) (ps ++ map Ch w)).
      { apply spell_join; [exact S1|]. rewrite <- (app_nil_r (map Ch w)). apply sp_ws; [exact W|constructor]. }
      rewrite (squeeze_parts _ _ (QText []) (Run []) [] T2 SP); [|cbn [rel]; auto]. cbn [app]. rewrite flat_map_app. cbn [flat_map part_src]. rewrite !app_nil_r. fold (srcs (tm_block b)). apply block_src.
Qed.
Lemma kcut_first : forall d n s, kcut n d s -> d <> [] -> exists T, s = 60 :: T.
Proof.
  intros [|p d] n s F N; [congruence|]. cbn [kcut] in F. destruct F as (u & w & v & -> & Hu & _). destruct p as [b| |].
  - destruct (block_first b u Hu) as (x & ->). eexists. reflexivity.
  - subst u. eexists. reflexivity.
  - subst u. eexists. reflexivity.
Qed.
Lemma strip_kcut : forall d n s, Forall cut_ok d -> kcut n d s ->
  exists ps ds, squash true [] s = pcs_src ps /\ Forall pc_fine ps /\ (d = [] -> ps = []) /\ (d <> [] -> exists c nm a r, ps = Tg c nm a :: r) /\ kd n d ds /\ squeeze (Run []) ps = show_doms ds.
Proof.
  induction d as [|p d IH]; intros n s FN F.
  - cbn [kcut] in F. subst s. exists [], []. split; [reflexivity|]. split; [constructor|]. split; [reflexivity|]. split; [congruence|]. split; [constructor|reflexivity].
  - inversion_clear FN. cbn [kcut] in F. destruct F as (u & w & v & -> & Hu & Hw & H1 & Hv). destruct (IH _ v H0 Hv) as (ps2 & ds2 & Q1 & Q2 & Q3 & Q4 & Q5 & Q6).
    destruct (unit_pieces p n u H Hu) as (ps0 & c & nm & a & c' & nm' & a' & r' & U1 & U2 & U3 & U4).
    assert (LU : exists x, u = x ++ [62]).
    { destruct p as [b| |]; [exact (block_last b u Hu)| |]; subst u; unfold cut_src; cbn [part_src]; exists ($ "<" ++ $ "inlinedata" ++ show_attrs (cut_attrs n) ++ $ " /"); rewrite <- !app_assoc; reflexivity. }
    assert (SQ : squash true [] (u ++ w ++ v) = pcs_src (ps0 ++ [Tg c nm a]) ++ conv w ++ pcs_src ps2).
    { destruct LU as (x & ->). etransitivity; [exact (squash_app x (w ++ v) 62 true [] eq_refl)|]. f_equal; [exact U1|]. destruct d as [|q d].
      - rewrite (H1 eq_refl). cbn [kcut] in Hv. subst v. rewrite (Q3 eq_refl). reflexivity.
      - destruct (kcut_first _ _ _ Hv ltac:(discriminate)) as (T & ->). rewrite (squash_gap w T Hw), Q1. reflexivity. }
    assert (PW : forall w, pcs_src (map Ch w) = w) by (induction w0 as [|x w0 IHw]; [reflexivity|]; cbn [map]; unfold pcs_src in *; cbn [flat_map pc_src app]; rewrite IHw; reflexivity).
    pose proof (conv_blank w Hw) as CB.
    assert (SQZ : squeeze (Run []) ((ps0 ++ [Tg c nm a]) ++ map Ch (conv w) ++ ps2) = squeeze (Run []) ((ps0 ++ [Tg c nm a]) ++ map Ch (conv w)) ++ show_doms ds2).
    { destruct d as [|q d].
      - rewrite (Q3 eq_refl) in *. inversion Q5; subst. unfold show_doms. cbn [flat_map]. rewrite !app_nil_r. reflexivity.
      - destruct (Q4 ltac:(discriminate)) as (c2 & n2 & a2 & r2 & ->). rewrite squeeze_join by exact CB. rewrite Q6. reflexivity. }
    rewrite (U4 _ CB) in SQZ. exists ((ps0 ++ [Tg c nm a]) ++ map Ch (conv w) ++ ps2). 
    assert (FINE : Forall pc_fine ((ps0 ++ [Tg c nm a]) ++ map Ch (conv w) ++ ps2)).
    { apply Forall_app. split; [exact U3|]. apply Forall_app. split; [|exact Q2]. apply space_no60 in CB. clear -CB. induction (conv w) as [|x y IH]; [constructor|]. constructor; [cbn [pc_fine]; intros ->; apply CB; left; reflexivity|]. apply IH. intro I. apply CB. right. exact I. }
    destruct (is_cut p) eqn:K.
    + exists (DCut false n :: (if endswith [32] (conv w) then [DText [32]] else []) ++ ds2). split; [rewrite SQ, !pcs_app, PW; reflexivity|]. split; [exact FINE|]. split; [discriminate|]. split; [intros _; rewrite U2; cbn [app]; do 4 eexists; reflexivity|]. split.
      * apply kd_cut; [exact K|destruct (endswith [32] (conv w)); auto|]. unfold after in Q5. rewrite K in Q5. exact Q5.
      * rewrite SQZ. destruct p; [discriminate K| |]; unfold show_doms; cbn [flat_map]; rewrite flat_map_app; destruct (endswith [32] (conv w)); cbn [flat_map show_dom]; rewrite <- ?app_assoc; reflexivity.
    + destruct p as [b| |]; try discriminate K. exists (b2d b :: ds2). split; [rewrite SQ, !pcs_app, PW; reflexivity|]. split; [exact FINE|]. split; [discriminate|]. split; [intros _; rewrite U2; cbn [app]; do 4 eexists; reflexivity|]. split.
      * apply kd_block. exact Q5.
      * rewrite SQZ. reflexivity.
Qed.
Lemma kfits_ends : forall d s, kfits d s -> d <> [] -> exists y, s = y ++ [62].
Proof.
  induction d as [|p d IH]; intros s F N; [congruence|]. cbn [kfits] in F. destruct F as (u & w & v & -> & Hu & _ & H1 & Hv). destruct d as [|q d].
  - rewrite (H1 eq_refl). cbn [kfits] in Hv. subst v. rewrite !app_nil_r. destruct p as [b|a l|l]; [eapply block_last; exact Hu| |]; subst u; unfold in_pre.
    + exists ($ "<pre>" ++ code_src a l ++ $ "</pre"). rewrite <- !app_assoc. reflexivity.
    + exists ($ "<pre>" ++ pre_src l ++ $ "</pre"). rewrite <- !app_assoc. reflexivity.
  - destruct (IH v Hv ltac:(discriminate)) as (y & ->). exists (u ++ w ++ y). rewrite <- !app_assoc. reflexivity.
Qed.
Lemma kfits_first : forall d s, kfits d s -> d <> [] -> exists T, s = 60 :: T.
Proof.
  intros [|p d] s F N; [congruence|]. cbn [kfits] in F. destruct F as (u & w & v & -> & Hu & _). destruct p as [b|a l|l].
  - destruct (block_first b u Hu) as (x & ->). eexists. reflexivity.
  - subst u. eexists. reflexivity.
  - subst u. eexists. reflexivity.
Qed.
Lemma preprocess_codes : forall d html, d <> [] -> Forall cut_ok d -> kwritten d html -> exists ds, kd 0 d ds /\ preprocess html = Ok (show_doms ds, kdata d).
Proof.
  intros d html N FN (w & s & w' & -> & Hw & Hw' & F). unfold preprocess.
  destruct (kfits_first d s F N) as (x & E1). destruct (kfits_ends d s F N) as (y & E2).
  assert (ST : strip (w ++ s ++ w') = s).
  { apply strip_around; [exact Hw|exact Hw'|exists 60, x; split; [exact E1|reflexivity]|]. exists 62, y. split; [exact E2|reflexivity]. }
  rewrite ST. unfold resub_st at 1. rewrite (no_block_cut d s [] FN F), sub_nothing. cbn [bind].
  destruct (cut_inlines d s [] [] FN F) as (s' & S1 & S2). cbn [List.length] in S2. destruct (strip_kcut d 0%nat s' FN S2) as (ps & ds & Q1 & Q2 & _ & _ & Q5 & Q6).
  exists ds. split; [exact Q5|]. unfold resub_st. match goal with |- bind ?x ?k = _ => refine (eq_trans (f_equal (fun z => bind z k) S1) _) end. cbn [bind app].
  f_equal. f_equal. rewrite strip_html_eq. destruct (kcut_first d 0%nat s' S2 N) as (T & ET).
  assert (SQ : squash false [] s' = squash true [] s') by (rewrite ET; reflexivity). rewrite SQ, Q1.
  change (pcs_src ps) with (held (Run []) ++ pcs_src ps). rewrite rsub_squeeze; [exact Q6|exact Q2|reflexivity].
Qed.
Lemma kd_wf : forall n d ds, kd n d ds -> Forall cut_ok d -> forallb dom_wf ds = true /\ apart ds = true /\ match ds with DText _ :: _ => False | _ => True end.
Proof.
  intros n d ds H. induction H as [n|n b r ds H IH|n p r sp ds K SP H IH]; intro F; [repeat split|inversion_clear F..].
  - destruct (IH H1) as (I1 & I2 & I3). cbn [forallb]. rewrite (b_wf b H0), I1. split; [reflexivity|]. split; [|destruct b; exact I].
    apply apart_step; [|exact I2]. intros y q _. destruct b; exact I.
  - destruct (IH H1) as (I1 & I2 & I3). split; [|split; [|exact I]].
    + cbn [forallb]. rewrite forallb_app, I1. destruct SP as [->| ->]; reflexivity.
    + destruct SP as [->| ->]; cbn [app]; (apply apart_step; [intros y q _; exact I|]); [exact I2|]. destruct ds as [|[]]; try exact I2; contradiction.
Qed.
Definition kdata_ok (bd : list str) (n : nat) (d : list kpart) : Prop := exists pb, bd = pb ++ kdata d /\ n = List.length pb.
(** the trees and what markdown writes for them *)
Section Markdown.
Variable (url : str -> str) (u : unknown).
Local Notation EL := (emit_list markdown_methods u no_pre).
Fixpoint kraw (d : list kpart) : str :=
  match d with
  | [] => []
  | p :: r => (match p with KBlock b => MarkdownEmit.bpre b | _ => [10] end) ++ md_ktext url p ++ [10] ++ kraw r
  end.
Lemma raw_kdoc : forall r p, exists a b, forallb is_space a = true /\ forallb is_space b = true /\ kraw (p :: r) = a ++ md_kdoc url (p :: r) ++ b /\ a = match p with KBlock b => MarkdownEmit.bpre b | _ => [10] end.
Proof.
  induction r as [|q r IH]; intro p.
  - exists (match p with KBlock b => MarkdownEmit.bpre b | _ => [10] end), [10]. split; [destruct p as [[]| |]; reflexivity|]. split; [reflexivity|]. split; [|reflexivity]. cbn [kraw md_kdoc]. rewrite !app_nil_r. reflexivity.
  - destruct (IH q) as (a & b & A & B & E & EA). exists (match p with KBlock b => MarkdownEmit.bpre b | _ => [10] end), b. split; [destruct p as [[]| |]; reflexivity|]. split; [exact B|]. split; [|reflexivity].
    change (kraw (p :: q :: r)) with ((match p with KBlock b => MarkdownEmit.bpre b | _ => [10] end) ++ md_ktext url p ++ [10] ++ kraw (q :: r)). rewrite E.
    change (md_kdoc url (p :: q :: r)) with (md_ktext url p ++ md_kgap q ++ md_kdoc url (q :: r)).
    assert (G : md_kgap q = [10] ++ a) by (rewrite EA; destruct q as [[]| |]; reflexivity). rewrite G, <- !app_assoc. reflexivity.
Qed.
Lemma fenced_solid : forall t, solid (fenced t) = true.
Proof. intro t. unfold fenced. apply PreDoc.wrap_solid; [exists 96, ($ "``"); split; reflexivity|exists 96, ($ "``"); split; reflexivity]. Qed.
Lemma kdoc_solid : forall d, Forall (kpart_ok (md_block_ok url)) d -> d <> [] -> solid (md_kdoc url d) = true.
Proof.
  induction d as [|p d IH]; intros C NE; [congruence|]. inversion_clear C. rename H into C1. rename H0 into C2.
  assert (S1 : solid (md_ktext url p) = true) by (destruct p as [b| |]; [apply MarkdownEmit.block_solid; exact C1|apply fenced_solid..]).
  destruct d as [|q d]; [cbn [md_kdoc app]; rewrite !app_nil_r; exact S1|].
  change (md_kdoc url (p :: q :: d)) with (md_ktext url p ++ md_kgap q ++ md_kdoc url (q :: d)). pose proof (IH C2 ltac:(discriminate)) as S2.
  apply CleanEmit.solid_ends in S1 as (c1 & r1 & d1 & r1' & E1 & K1 & E2 & K2). apply CleanEmit.solid_ends in S2 as (c2 & r2 & d2 & r2' & F1 & L1 & F2 & L2).
  eapply (CleanEmit.solid_intro _ c1 (r1 ++ md_kgap q ++ md_kdoc url (q :: d)) d2 (md_ktext url p ++ md_kgap q ++ r2')); [rewrite E1; reflexivity|exact K1|rewrite F2, <- !app_assoc; reflexivity|exact L2].
Qed.
Lemma cut_written : forall p s, is_cut p = true -> kpart_ok (md_block_ok url) p -> forall anc kids,
  m_inlinedata_pre (mkn ($ "inlinedata_pre") (Some (content p)) [] None anc) kids s = Ok ([10] ++ md_ktext url p ++ [10], s).
Proof.
  intros p s K H anc kids. unfold m_inlinedata_pre. cbn [n_content]. destruct p as [b|a l|l]; [discriminate K| |]; cbn [content md_ktext kpart_ok] in *.
  - assert (E : endswith ($ "</code>") (code_src a l) = true). { unfold code_src, endswith. rewrite !app_assoc, rev_app_distr. reflexivity. }
    rewrite E, (code_block a l H). reflexivity.
  - assert (E : endswith ($ "</code>") (pre_src l) = false).
    { destruct (endswith ($ "</code>") (pre_src l)) eqn:E; [|reflexivity]. exfalso. unfold endswith in E. apply startswith_spec in E as (t & E). destruct H as (_ & _ & N & _). apply N.
      apply in_rev. rewrite E. apply in_or_app. left. cbn. tauto. }
    rewrite E. destruct H as (F & (t & T) & _). unfold pre_text. rewrite T. unfold pre_src. rewrite (replace_all_spec l F), T. cbn [bind]. unfold fenced. cbn [app]. rewrite <- ?app_assoc. reflexivity.
Qed.
Lemma kd_run : forall n d ds, kd n d ds -> forall bd, kdata_ok bd n d -> Forall (kpart_ok (md_block_ok url)) d ->
  (forall i, (i < n + List.length d)%nat -> N.of_nat (List.length (show_nat i)) <= 4300) -> (forall b, In b (kblocks d) -> MarkdownEmit.quotable url (tg_block b)) ->
  Forall (dom_ok bd true) ds /\ forall anc s, exists s', EL anc (flat_map (dom_tree bd 0) ds) s = Ok (kraw d, s').
Proof.
  intros n d ds H. induction H as [n|n b r ds H IH|n p r sp ds K SP H IH]; intros bd (pb & EB & EN) F C Q.
  - split; [constructor|]. intros anc s. exists s. reflexivity.
  - inversion_clear F. destruct (ok_more bd true _ (b_ok b (MarkdownEmit.md_block_shape url b H0))) as [K1 K2].
    destruct (IH bd) as [I1 I2]; [exists pb; split; [exact EB|exact EN]|exact H1|intros i Hi; apply C; cbn [List.length]; lia|intros c Hc; apply Q; unfold kblocks; cbn [flat_map]; apply in_or_app; right; exact Hc|].
    split; [constructor; assumption|]. intros anc s. cbn [flat_map]. rewrite K2, PreDoc.el_app_gen.
    destruct (MarkdownEmit.block_run url u b anc s H0) as (s1 & E1); [apply Q; left; reflexivity|].
    rewrite E1. cbn [bind]. destruct (I2 anc s1) as (s2 & E2). rewrite E2. cbn [bind kraw md_ktext]. exists s2. rewrite <- !app_assoc. reflexivity.
  - inversion_clear F. unfold kdata in EB. cbn [flat_map] in EB. rewrite K in EB. fold (kdata r) in EB. cbn [app] in EB.
    destruct (IH bd) as [I1 I2]; [exists (pb ++ [content p]); split; [rewrite EB, <- app_assoc; reflexivity|rewrite app_length; cbn [List.length]; lia]|exact H1|intros i Hi; apply C; cbn [List.length]; lia
                                 |intros c Hc; apply Q; unfold kblocks; cbn [flat_map]; apply in_or_app; right; exact Hc|].
    assert (LN : nth n bd [] = content p). { rewrite EB, EN. rewrite app_nth2 by lia. rewrite Nat.sub_diag. reflexivity. }
    split.
    + constructor; [apply ok_cut; [rewrite EB, app_length; cbn [List.length]; lia|apply C; cbn [List.length]; lia]|]. apply Forall_app. split; [|exact I1]. destruct SP as [->| ->]; repeat constructor.
    + intros anc s. cbn [flat_map]. rewrite PreDoc.el_app_gen. change (dom_tree bd 0 (DCut false n)) with [HN ($ "inlinedata_pre") (Some (nth n bd [])) [] None []]. rewrite LN.
      assert (E1 : EL anc [HN ($ "inlinedata_pre") (Some (content p)) [] None []] s = Ok ([10] ++ md_ktext url p ++ [10], set_last ($ "inlinedata_pre", Some (content p)) s)).
      { cbn [emit_list]. rewrite emit_node_eq. unfold no_pre at 1. unfold run_meth. cbn [n_kind]. change (find_meth markdown_methods ($ "inlinedata_pre")) with (Some m_inlinedata_pre). cbv iota. rewrite (cut_written p s K H0). cbn [bind app]. rewrite ?app_nil_r. reflexivity. }
      rewrite E1. cbn [bind]. set (s1 := set_last ($ "inlinedata_pre", Some (content p)) s).
      assert (E2 : exists s2, EL anc (flat_map (dom_tree bd 0) (sp ++ ds)) s1 = Ok (kraw r, s2)).
      { destruct SP as [->| ->]; [exact (I2 anc s1)|]. cbn [app flat_map]. rewrite PreDoc.el_app_gen. change (dom_tree bd 0 (DText [32])) with [HN ($ "data") (Some [32]) [] None []].
        assert (E3 : EL anc [HN ($ "data") (Some [32]) [] None []] s1 = Ok ([], set_last ($ "data", Some [32]) s1)).
        { cbn [emit_list]. rewrite emit_node_eq. unfold no_pre at 1. unfold run_meth. cbn [n_kind]. change (find_meth markdown_methods ($ "data")) with (Some m_data). reflexivity. }
        rewrite E3. cbn [bind]. destruct (I2 anc (set_last ($ "data", Some [32]) s1)) as (s2 & E2). rewrite E2. exists s2. reflexivity. }
      destruct E2 as (s2 & E2). rewrite E2. cbn [bind]. exists s2. destruct p; [discriminate K| |]; cbn [kraw]; rewrite <- !app_assoc; reflexivity.
Qed.
Theorem codes_markdown : forall d html, Forall (kpart_ok (md_block_ok url)) d -> addresses url (kblocks d) -> kcountable d -> kwritten d html -> html2markdown u html = Ok (md_kdoc url d).
Proof.
  intros d html P A C W. destruct d as [|p0 d0] eqn:ED.
  - destruct W as (w & s & w' & -> & Hw & Hw' & F). cbn [kfits] in F. subst s.
    refine (PreDoc.parts_markdown url u [] ([] ++ w ++ w') _ _ _ _).
    + constructor.
    + intros h [].
    + intros i Hi. cbn in Hi. lia.
    + exists w, [], w'. repeat split; assumption.
  - assert (N : d <> []) by (rewrite ED; discriminate). rewrite <- ED in *. clear ED p0 d0.
    assert (FN : Forall cut_ok d). { eapply Forall_impl; [|exact P]. intros [b| |] K; [exact (MarkdownEmit.md_block_shape url b K)|exact K..]. }
    destruct (preprocess_codes d html N FN W) as (ds & KD & PP). unfold html2markdown, parse_html, feed. rewrite PP. cbn [bind]. unfold feed_tokens.
    destruct (kd_wf _ _ _ KD FN) as (W1 & W2 & _).
    destruct (kd_run _ _ _ KD (kdata d)) as [D1 D2]; [exists []; split; reflexivity|exact P|exact C| |].
    { intros b Ib h Ih. apply (MarkdownEmit.addresses_quotable url _ A h). unfold targets. apply in_flat_map. exists b. split; assumption. }
    rewrite (document_run ds W1 W2). destruct (tree_of_dom (kdata d) ds D1) as (h & H1 & H2 & _). rewrite H1. cbn [bind]. rewrite H2. unfold emit_markdown.
    rewrite (CleanGen.en_run u markdown_methods ($ "document") document_emit) by reflexivity. unfold CleanGen.node_run, document_emit, kids_of.
    destruct (D2 [$ "document"] (set_last ($ "document", None) e_init)) as (s1 & E).
    match goal with |- context [emit_list ?x ?y ?z ?k ?ch ?t] => replace (emit_list x y z k ch t) with (Ok (kraw d, s1)) by (symmetry; exact E) end. cbn [bind]. f_equal.
    destruct d as [|p r]; [congruence|]. destruct (raw_kdoc r p) as (a & b & Ha & Hb & ER & _). rewrite ER.
    pose proof (kdoc_solid (p :: r) P ltac:(discriminate)) as SO. apply CleanEmit.solid_ends in SO as (c1 & r1 & d1 & r1' & E1 & K1 & E2 & K2).
    apply strip_around; [exact Ha|exact Hb|exists c1, r1; auto|exists d1, r1'; auto].
Qed.
End Markdown.
Lemma full_plain : forall url d, forallb plain_code d = true -> md_kdoc url d = md_full url d.
Proof.
  intros url d. induction d as [|p d IH]; intro H; [reflexivity|]. cbn [forallb] in H. apply andb_true_iff in H as [H1 H2]. cbn [md_kdoc md_full]. rewrite (IH H2). f_equal.
  destruct p as [b|a l|l]; try reflexivity. destruct l as [|[t| | |] [|]]; try discriminate H1. cbn [md_ktext md_full_text code_shown]. unfold pre_text. cbn [meant_all meant]. rewrite app_nil_r. reflexivity.
Qed.
Theorem codes_full : forall url u d html, forallb plain_code d = true -> Forall (kpart_ok (md_block_ok url)) d -> addresses url (kblocks d) -> kcountable d -> kwritten d html ->
  html2markdown u html = Ok (md_full url d).
Proof. intros url u d html PL P A C W. rewrite <- (full_plain url d PL). apply codes_markdown; assumption. Qed.
Theorem codes_tail_lost : forall (url : str -> str) u a t l html html', code_ok a (Text t :: l) -> kwritten [KCode a (Text t :: l)] html -> kwritten [KCode a [Text t]] html' ->
  html2markdown u html = html2markdown u html'.
Proof.
  intros url u a t l html html' K W W'.
  assert (C : forall p : kpart, kcountable [p]). { intros p i Hi. cbn [List.length] in Hi. assert (i = 0)%nat by lia. subst i. vm_compute. discriminate. }
  assert (K' : code_ok a [Text t]).
  { destruct K as (A & _ & F & P & N). inversion_clear F. split; [exact A|]. split; [discriminate|]. split; [constructor; [exact H|constructor]|]. split; [cbn [pieces_ok] in *; destruct t; [discriminate P|reflexivity]|].
    intro I. apply N. unfold pre_src in *. cbn [flat_map write] in *. rewrite app_nil_r in I. apply in_or_app. left. exact I. }
  rewrite (codes_markdown url u [KCode a (Text t :: l)] html), (codes_markdown url u [KCode a [Text t]] html').
  - reflexivity.
  - constructor; [exact K'|constructor].
  - intros h [].
  - apply C.
  - exact W'.
  - constructor; [exact K|constructor].
  - intros h [].
  - apply C.
  - exact W.
Qed.
Lemma absent : forall c s, existsb (N.eqb c) s = false -> ~ In c s.
Proof. intros c s E I. assert (X : existsb (N.eqb c) s = true) by (apply existsb_exists; exists c; split; [exact I|apply N.eqb_refl]). congruence. Qed.
