(** * Paragraphs, blocks and documents: the lemmas behind P4_Documents.v *)
From Coq Require Import String List Arith NArith ZArith Bool Lia.
From Verif Require Import PyStr PyStrFacts Utils DocTree Res HtmlEmitter Spec4 Spec5 Spec6 InlineRun InlineParse BlockRun BlockParse DocParse.
Import ListNotations.
Open Scope N_scope.

(** ** One block *)
Lemma one_block : forall blog v s md b, block_ok blog b = true ->
  creole2html (mkopts blog v s) md (wr_block b) = (Ok (html_block blog s b), md).
Proof.
  intros blog v s md b H. apply (document_spec blog v s md [b]). unfold doc_ok. cbn [forallb tl]. rewrite H. reflexivity.
Qed.
Lemma one_line : forall blog v s md l, line_ok l = true -> ends_in_break l = false ->
  creole2html (mkopts blog v s) md (wr_inls l) = (Ok ($ "<p>" ++ html_inls s br l ++ $ "</p>"), md).
Proof.
  intros blog v s md l H1 H2. apply (one_block blog v s md (BPara [l])). cbn [block_ok forallb]. unfold last_ok. cbn [rev app]. rewrite H1, H2. reflexivity.
Qed.

(** ** Plain text *)
Lemma plain_tail : forall d w, plain_text (d :: w) = true -> plain_text w = true.
Proof.
  intros d w H. unfold plain_text in *. rewrite !andb_true_iff, !negb_true_iff in *. destruct H as [[H1 H2] H3].
  cbn [no_char forallb doubled contains] in *. apply andb_true_iff in H1 as [_ H1]. apply orb_false_iff in H2 as [_ H2].
  apply orb_false_iff in H3 as [_ H3]. auto.
Qed.
Lemma contains_at : forall pat a b, contains pat (a ++ pat ++ b) = true.
Proof.
  intros pat. induction a as [|d a IH]; intro b.
  - cbn [app]. assert (S : startswith pat (pat ++ b) = true) by (apply startswith_app; exists b; reflexivity).
    destruct (pat ++ b); cbn [contains]; rewrite S; reflexivity.
  - cbn [app contains]. rewrite IH, orb_true_r. reflexivity.
Qed.
Lemma startswith_stop : forall p w t, (t = [] \/ exists d t', t = d :: t' /\ ~ In d p) -> startswith p (w ++ t) = startswith p w.
Proof.
  induction p as [|x p IH]; intros w t H; [destruct w, t; reflexivity|]. destruct w as [|y w].
  - destruct H as [->|(d & t' & -> & H)]; [reflexivity|]. cbn [app startswith]. destruct (N.eqb_spec x d) as [->|]; [exfalso; apply H; left; reflexivity|reflexivity].
  - cbn [app startswith]. rewrite IH; [reflexivity|]. destruct H as [->|(d & t' & -> & H)]; [auto|]. right. exists d, t'. split; [reflexivity|]. intro K. apply H. right. exact K.
Qed.
Lemma plain_url : forall w t, (t = [] \/ exists d t', t = d :: t' /\ (d = 123 \/ d = 91)) -> plain_text w = true -> url_start (w ++ t) = false.
Proof.
  intros w t Ht H. unfold url_start. apply not_true_iff_false. intro E. apply existsb_exists in E as (p & Hp & E).
  rewrite startswith_stop in E.
  - apply startswith_app in E as (r & ->). unfold plain_text in H. rewrite <- app_assoc, contains_at in H. rewrite andb_false_r in H. discriminate.
  - destruct Ht as [->|(d & t' & -> & Hd)]; [auto|]. right. exists d, t'. split; [reflexivity|].
    intro Hi. clear E H. cbn in Hp. destruct Hd as [-> | ->];
      repeat (destruct Hp as [<-|Hp]; [cbn in Hi; intuition discriminate|]); destruct Hp.
Qed.
Lemma plain_literals : forall w b t, plain_text w = true ->
  (t = [] \/ exists d t', t = d :: t' /\ (d = 123 \/ d = 91) /\ last_is (N.eqb d) w = false) -> literals b w t = true.
Proof.
  induction w as [|x w IH]; intros b t H Ht; [reflexivity|]. cbn [literals]. rewrite IH; [|eapply plain_tail; exact H|].
  2:{ destruct Ht as [->|(d & t' & -> & Hd & L)]; [auto|]. right. exists d, t'. split; [reflexivity|split; [exact Hd|]].
      unfold last_is in *. cbn [rev] in L. destruct (rev w) as [|e r]; [reflexivity|exact L]. }
  rewrite andb_true_r. unfold literal, url_here.
  assert (U : url_start (x :: w ++ t) = false).
  { apply (plain_url (x :: w)); [|exact H]. destruct Ht as [->|(d & t' & -> & Hd & _)]; [auto|]. right. exists d, t'. auto. }
  rewrite U. unfold plain_text in H. rewrite !andb_true_iff, !negb_true_iff in H. destruct H as [[H1 H2] _].
  cbn [no_char forallb existsb] in H1. apply andb_true_iff in H1 as [H1 _]. rewrite negb_true_iff, !orb_false_iff in H1. destruct H1 as (Hx10 & _ & Hx126 & _).
  rewrite Hx10, Hx126. assert (Z : match x :: w ++ t with 126 :: t' => url_start t' | _ => false end = false).
  { apply N.eqb_neq in Hx126. destruct x as [|p]; [reflexivity|]. do 7 (destruct p as [p|p|]; try reflexivity). contradiction. }
  rewrite Z. cbn [orb]. rewrite andb_false_r. cbn [negb andb].
  assert (D : existsb (N.eqb x) doubles && head_is (N.eqb x) (w ++ t) = false).
  { cbn [doubled] in H2. apply orb_false_iff in H2 as [H2 _]. destruct w as [|y w]; [|exact H2].
    destruct Ht as [->|(d & t' & -> & _ & L)]; [apply andb_false_r|]. cbn [app head_is]. unfold last_is in L. cbn [rev app head_is] in L.
    rewrite N.eqb_sym, L. apply andb_false_r. }
  rewrite D. reflexivity.
Qed.
Definition opt_text (w : str) : list inl := match w with [] => [] | _ => [IText w] end.
Lemma opt_text_wr : forall w, wr_inls (opt_text w) = w.
Proof. intros [|x w]; [reflexivity|]. unfold wr_inls. cbn [opt_text flat_map wr_inl]. apply app_nil_r. Qed.
Lemma opt_text_html : forall s b w, html_inls s b (opt_text w) = escape w.
Proof. intros s b [|x w]; [reflexivity|]. unfold html_inls. cbn [opt_text flat_map html_inl]. apply app_nil_r. Qed.
Lemma wr_inls_app : forall a b, wr_inls (a ++ b) = wr_inls a ++ wr_inls b.
Proof. intros. apply flat_map_app. Qed.
Lemma html_inls_app : forall s b x y, html_inls s b (x ++ y) = html_inls s b x ++ html_inls s b y.
Proof. intros. apply flat_map_app. Qed.
Lemma inls_ok_opt : forall b w r, (w <> [] -> literals b w (wr_inls r) = true) -> inls_ok b (opt_text w ++ r) = inls_ok (rev w ++ b) r.
Proof.
  intros b [|x w] r H; [reflexivity|]. change (opt_text (x :: w) ++ r) with (IText (x :: w) :: r). cbn [inls_ok inl_ok]. rewrite H by discriminate. reflexivity.
Qed.
Lemma no_char_sub : forall cs cs' w, no_char cs w = true -> forallb (fun x => existsb (N.eqb x) cs) cs' = true -> no_char cs' w = true.
Proof.
  intros cs cs' w H S. apply (no_char_incl cs); [|exact H]. intros x Hx. rewrite forallb_forall in S. apply S in Hx.
  apply existsb_exists in Hx as (y & Hy & E). apply N.eqb_eq in E. subst. exact Hy.
Qed.
Lemma no_char_app : forall cs a b, no_char cs (a ++ b) = no_char cs a && no_char cs b.
Proof. intros. apply forallb_app. Qed.
(** plain text, one element, plain text *)
Lemma around_line : forall blog v s md d rest i a z, wr_inl i = d :: rest -> d = 123 \/ d = 91 -> around_ok d a z = true ->
  (forall b t, inl_ok b i t = true) -> no_char [10; 13] (wr_inl i) = true -> is_break i = false ->
  block_start (a ++ wr_inl i ++ z) = false ->
  creole2html (mkopts blog v s) md (a ++ wr_inl i ++ z) = (Ok ($ "<p>" ++ escape a ++ html_inl s br i ++ escape z ++ $ "</p>"), md).
Proof.
  intros blog v s md d rest i a z Hw Hd Ha Hi Hn Hb Hs.
  unfold around_ok in Ha. rewrite !andb_true_iff, negb_true_iff in Ha. destruct Ha as [[Ha Hz] Hl].
  assert (W : wr_inls (opt_text a ++ i :: opt_text z) = a ++ wr_inl i ++ z).
  { rewrite wr_inls_app, opt_text_wr. unfold wr_inls. cbn [flat_map]. fold (wr_inls (opt_text z)). rewrite opt_text_wr. reflexivity. }
  rewrite <- W. rewrite one_line.
  - rewrite html_inls_app, opt_text_html. unfold html_inls. cbn [flat_map]. fold (html_inls s br (opt_text z)). rewrite opt_text_html, <- !app_assoc. reflexivity.
  - unfold line_ok. rewrite W, Hs. cbn [negb]. rewrite andb_true_r. rewrite !andb_true_iff.
    assert (P : forall w, plain_text w = true -> no_char [10; 13] w = true).
    { intros w Hp. unfold plain_text in Hp. rewrite !andb_true_iff in Hp. destruct Hp as [[Hp _] _]. apply (no_char_sub [10; 13; 126]); [exact Hp|reflexivity]. }
    repeat split.
    + rewrite Hw. destruct a; reflexivity.
    + rewrite !no_char_app, (P a Ha), (P z Hz), Hn. reflexivity.
    + rewrite inls_ok_opt.
      * cbn [inls_ok]. rewrite Hi. destruct z as [|x z]; [reflexivity|]. cbn [opt_text inls_ok inl_ok]. rewrite plain_literals; [reflexivity|exact Hz|auto].
      * intros _. apply plain_literals; [exact Ha|]. right. exists d, (rest ++ z). split; [|auto].
        unfold wr_inls. cbn [flat_map]. fold (wr_inls (opt_text z)). rewrite opt_text_wr, Hw. reflexivity.
  - unfold ends_in_break. rewrite rev_app_distr. cbn [rev]. destruct z; cbn [opt_text rev app]; [exact Hb|reflexivity].
Qed.

(** ** C06 *)
Lemma plain_line_start : forall w, plain_line w = true -> block_start w = false.
Proof.
  intros w H. unfold plain_line, plain_text in H. rewrite !andb_true_iff, !negb_true_iff in H. destruct H as [[[[H0 [[H1 H2] _]] H3] H4] _].
  unfold block_start. rewrite H3. destruct w as [|x w]; [discriminate|]. cbn [head_is existsb doubled] in *.
  change (existsb (N.eqb x) ($ "=|*#")) with ((x =? 61) || ((x =? 124) || ((x =? 42) || ((x =? 35) || false)))) in H4.
  rewrite !orb_false_iff in H4. destruct H4 as (A & B & C & D & _). apply orb_false_iff in H2 as [H2 _].
  rewrite (N.eqb_sym 61 x), (N.eqb_sym 124 x), A, B. unfold bullet. rewrite C, D. cbn [orb andb]. rewrite orb_false_r.
  change ($ "<<") with [60; 60]. change ($ "----") with [45; 45; 45; 45]. change ($ "{{{") with [123; 123; 123].
  cbn [startswith]. destruct w as [|y w]; [rewrite !andb_false_r; reflexivity|]. cbn [startswith].
  assert (Q : forall k, In k doubles -> (k =? x) && (k =? y) = false).
  { intros k Hk. destruct (N.eqb_spec k x) as [<-|]; [|reflexivity]. destruct (N.eqb_spec k y) as [<-|]; [|reflexivity]. exfalso.
    cbn [head_is] in H2. rewrite N.eqb_refl, andb_true_r in H2. apply not_true_iff_false in H2. apply H2. apply existsb_exists. exists k. rewrite N.eqb_refl. auto. }
  rewrite !andb_assoc. rewrite (Q 60), (Q 45), (Q 123) by (cbn; auto 12). reflexivity.
Qed.
Lemma plain_line_ok : forall w, plain_line w = true -> line_ok [IText w] = true /\ ends_in_backslash [IText w] = false.
Proof.
  intros w H. pose proof (plain_line_start w H) as B. unfold line_ok, ends_in_backslash. replace (wr_inls [IText w]) with w by (symmetry; apply app_nil_r).
  rewrite B. unfold plain_line in H. rewrite !andb_true_iff, !negb_true_iff in H. destruct H as [[[[H0 H1] _] _] H5].
  split; [|exact H5]. rewrite H0. cbn [inls_ok inl_ok]. rewrite H0. rewrite plain_literals by auto.
  unfold plain_text in H1. rewrite !andb_true_iff in H1. destruct H1 as [[H1 _] _]. rewrite (no_char_sub [10; 13; 126] [10; 13]) by (exact H1 || reflexivity). reflexivity.
Qed.
Lemma lemma_C06 : forall blog v s md lines, lines <> [] -> forallb plain_line lines = true ->
  creole2html (mkopts blog v s) md (lines_text lines) = (Ok ($ "<p>" ++ shown_lines blog lines ++ $ "</p>"), md).
Proof.
  intros blog v s md lines Hne H.
  assert (W : wr_block (BPara (map (fun w => [IText w]) lines)) = lines_text lines).
  { cbn [wr_block]. f_equal. rewrite map_map. rewrite <- (map_id lines) at 2. apply map_ext. intro w. apply app_nil_r. }
  assert (L : html_lines blog s (map (fun w => [IText w]) lines) = shown_lines blog lines).
  { clear W Hne. induction lines as [|x [|y r] IH]; [reflexivity|apply app_nil_r|]. cbn [map] in *.
    change (shown_lines blog (x :: y :: r)) with (escape x ++ (if blog then $ "<br />" ++ [10] else $ " ") ++ shown_lines blog (y :: r)).
    match goal with |- html_lines ?b ?q (?a :: ?t) = _ =>
      change (html_lines b q (a :: t)) with (html_inls q br a ++ (if ends_in_backslash a then [] else if b then br else [32]) ++ html_lines b q t) end.
    cbn [forallb] in H. apply andb_true_iff in H as [Hx H]. rewrite (proj2 (plain_line_ok x Hx)). rewrite IH by exact H.
    unfold html_inls. cbn [flat_map html_inl]. rewrite app_nil_r. destruct blog; reflexivity. }
  rewrite <- W. rewrite one_block; [cbn [html_block]; rewrite L; unfold elem; reflexivity|].
  cbn [block_ok]. apply andb_true_iff. split.
  - rewrite forallb_forall in *. intros l Hl. apply in_map_iff in Hl as (w & <- & Hw). apply plain_line_ok, H, Hw.
  - unfold last_ok. rewrite <- map_rev. destruct (rev lines) eqn:E; [|reflexivity].
    apply (f_equal (@rev _)) in E. rewrite rev_involutive in E. contradiction.
Qed.

(** ** C07 *)
Definition tilde_inl (x : N) : inl := if is_space x then IText [x] else IEsc x.
Lemma tilded_wr : forall w, wr_inls (map tilde_inl w) = tilded w.
Proof.
  intro w. unfold wr_inls, tilded. rewrite flat_map_concat_map, map_map, <- flat_map_concat_map. apply flat_map_ext.
  intro x. unfold tilde_inl. destruct (is_space x); reflexivity.
Qed.
Lemma tilded_head : forall w, tilded w = [] \/ exists x t, tilded w = x :: t /\ (x = 126 \/ is_space x = true).
Proof. intros [|x w]; [auto|]. right. unfold tilded. cbn [flat_map]. destruct (is_space x) eqn:E; eexists; eexists; split; reflexivity || auto. Qed.
Lemma second_url : forall x t, (t = [] \/ exists y r, t = y :: r /\ (y = 126 \/ is_space y = true)) -> url_start (x :: t) = false.
Proof.
  intros x t H. unfold url_start. apply not_true_iff_false. intro E. apply existsb_exists in E as (p & Hp & E).
  assert (G : forall q, (exists p0 p1 pr, q = p0 :: p1 :: pr /\ p1 <> 126 /\ is_space p1 = false) -> startswith (q ++ $ "://") (x :: t) = false).
  { intros q (p0 & p1 & pr & -> & N1 & N2). cbn [app startswith]. destruct H as [->|(y & r & -> & Hy)]; [apply andb_false_r|].
    cbn [startswith]. destruct (N.eqb_spec p1 y) as [->|]; [|rewrite andb_false_l, andb_false_r; reflexivity]. exfalso. destruct Hy; congruence. }
  rewrite G in E; [discriminate|]. clear E G. unfold protocols in Hp. cbn [In] in Hp.
  repeat (destruct Hp as [<-|Hp]; [eexists; eexists; eexists; split; [reflexivity|split; [discriminate|reflexivity]]|]). destruct Hp.
Qed.
Lemma space_single : forall x t b, is_space x = true -> x <> 10 -> literal b x t = true.
Proof.
  intros x t b H Hx. unfold literal.
  assert (D : existsb (N.eqb x) doubles = false).
  { apply not_true_iff_false. intro E. apply existsb_exists in E as (y & Hy & E). apply N.eqb_eq in E. subst y.
    cbn in Hy. repeat (destruct Hy as [<-|Hy]; [discriminate H|]). destruct Hy. }
  assert (T : x =? 126 = false) by (apply N.eqb_neq; intros ->; discriminate H).
  rewrite D, T, (proj2 (N.eqb_neq x 10) Hx). cbn [andb negb]. rewrite andb_true_r. unfold url_here.
  assert (U : url_start (x :: t) = false).
  { unfold url_start. apply not_true_iff_false. intro E. apply existsb_exists in E as (p & Hp & E).
    assert (G : forall q, (exists k r, q = k :: r /\ is_space k = false) -> startswith (q ++ $ "://") (x :: t) = false).
    { intros q (k & r & -> & Hk). cbn [app startswith]. destruct (N.eqb_spec k x) as [->|]; [congruence|reflexivity]. }
    rewrite G in E; [discriminate|]. clear E G. unfold protocols in Hp. cbn [In] in Hp.
    repeat (destruct Hp as [<-|Hp]; [eexists; eexists; split; reflexivity|]). destruct Hp. }
  apply N.eqb_neq in T. match goal with |- context [url_start ?z] => replace (url_start z) with false by (symmetry; exact U) end.
  assert (Z : match x :: t with 126 :: t' => url_start t' | _ => false end = false).
  { destruct x as [|p]; [reflexivity|]. do 7 (destruct p as [p|p|]; try reflexivity). contradiction. }
  rewrite Z. rewrite andb_false_r. reflexivity.
Qed.
Lemma tilded_ok : forall w b, no_char [10; 13; 126] w = true -> inls_ok b (map tilde_inl w) = true.
Proof.
  induction w as [|x w IH]; intros b H; [reflexivity|]. cbn [map inls_ok]. cbn [no_char forallb existsb] in H.
  apply andb_true_iff in H as [Hx H]. rewrite IH by exact H. rewrite andb_true_r. rewrite negb_true_iff, !orb_false_iff in Hx. destruct Hx as (H10 & H13 & H126 & _).
  rewrite tilded_wr. unfold tilde_inl. destruct (is_space x) eqn:E.
  - cbn [inl_ok truthy literals app]. rewrite space_single; [reflexivity|exact E|apply N.eqb_neq; exact H10].
  - cbn [inl_ok]. rewrite E, H126. cbn [negb andb]. unfold url_here.
    assert (U : url_start (126 :: x :: tilded w) = false) by reflexivity. rewrite U.
    rewrite second_url by apply tilded_head. rewrite andb_false_r. reflexivity.
Qed.
Lemma tilded_html : forall s b w, html_inls s b (map tilde_inl w) = escape w.
Proof.
  intros s b. induction w as [|x w IH]; [reflexivity|]. unfold html_inls in *. cbn [map flat_map]. rewrite IH.
  replace (html_inl s b (tilde_inl x)) with (escape [x]) by (unfold tilde_inl; destruct (is_space x); reflexivity).
  rewrite <- escape_app. reflexivity.
Qed.
Lemma lemma_C07 : forall blog v s md w, truthy w = true -> no_char [10; 13; 126] w = true -> head_is is_space w = false ->
  creole2html (mkopts blog v s) md (tilded w) = (Ok ($ "<p>" ++ escape w ++ $ "</p>"), md).
Proof.
  intros blog v s md w H1 H2 H3. rewrite <- tilded_wr. rewrite one_line; [rewrite tilded_html; reflexivity| |].
  - unfold line_ok. rewrite tilded_ok by exact H2. rewrite tilded_wr. destruct w as [|x w]; [discriminate|]. cbn [head_is] in H3.
    unfold tilded. cbn [flat_map]. rewrite H3. cbn [app truthy block_start head_is negb]. rewrite andb_true_r.
    unfold block_start. cbn [head_is]. rewrite andb_true_r. fold (tilded w). unfold no_char. cbn [forallb existsb].
    cbn [no_char forallb existsb] in H2.
    apply andb_true_iff in H2 as [Hx H2]. rewrite negb_true_iff, !orb_false_iff in Hx. destruct Hx as (X1 & X2 & _). rewrite X1, X2. cbn [orb negb andb].
    cbn [truthy]. change ((126 =? 10) || ((126 =? 13) || false)) with false. cbn [negb andb].
    change (truthy (126 :: x :: tilded w)) with true. cbn [andb]. rewrite forallb_forall in *. intros y Hy. unfold tilded in Hy. apply in_flat_map in Hy as (z & Hz & Hy). specialize (H2 z Hz).
    rewrite negb_true_iff, !orb_false_iff in H2. destruct H2 as (Z1 & Z2 & _).
    destruct (is_space z); [destruct Hy as [<-|[]]; rewrite Z1, Z2; reflexivity|]. destruct Hy as [<-|[<-|[]]]; [reflexivity|rewrite Z1, Z2; reflexivity].
  - unfold ends_in_break. rewrite <- map_rev. destruct (rev w); [reflexivity|]. cbn [map]. unfold tilde_inl. destruct (is_space _); reflexivity.
Qed.

(** ** C08 *)
Lemma typeface_chars : forall i around, typeface_ok around i = true ->
  truthy (wr_inl i) = true /\ no_char [10; 13; 58] (wr_inl i) = true /\
  (forall f, existsb (face_eqb f) around = true -> ~ In (face_mark f) (wr_inl i)).
Proof.
  induction i as [w|d|f body IH|x|a x|a x sz|u| |a body IH] using inl_ind'; intros around H; try discriminate.
  - cbn [typeface_ok] in H. apply andb_true_iff in H as [H1 H2]. cbn [wr_inl]. split; [exact H1|]. split; [apply (no_char_sub marks); [exact H2|reflexivity]|].
    intros f _ Hi. apply (no_char_In marks w (face_mark f) H2); [exact Hi|]. destruct f; cbn; auto 20.
  - cbn [typeface_ok] in H. rewrite !andb_true_iff, negb_true_iff in H. destruct H as [[H1 H2] H3].
    cbn [wr_inl]. split; [reflexivity|].
    assert (B : no_char [10; 13; 58] (flat_map wr_inl body) = true /\
                (forall g, existsb (face_eqb g) (f :: around) = true -> ~ In (face_mark g) (flat_map wr_inl body))).
    { clear H1 H2. induction body as [|y body IHb]; [split; [reflexivity|intros g _ []]|]. inversion IH as [|? ? P Q]; subst.
      cbn [forallb] in H3. apply andb_true_iff in H3 as [H3 H4]. destruct (P _ H3) as (_ & C1 & C2). destruct (IHb Q H4) as [D1 D2].
      cbn [flat_map]. rewrite no_char_app, C1, D1. split; [reflexivity|]. intros g Hg Hi. apply in_app_iff in Hi as [Hi|Hi]; [exact (C2 g Hg Hi)|exact (D2 g Hg Hi)]. }
    destruct B as [B1 B2]. rewrite !no_char_app, B1. split; [destruct f; reflexivity|].
    intros g Hg Hi. assert (N : face_mark g <> face_mark f).
    { intro E. assert (existsb (face_eqb f) around = true); [|congruence]. apply existsb_exists in Hg as (h & Hh & Eh). apply existsb_exists. exists h.
      split; [exact Hh|]. unfold face_eqb in *. congruence. }
    rewrite !in_app_iff in Hi. destruct Hi as [Hi|[Hi|Hi]].
    + cbn in Hi. intuition congruence.
    + apply (B2 g); [|exact Hi]. cbn [existsb]. rewrite Hg. apply orb_true_r.
    + cbn in Hi. intuition congruence.
Qed.
Lemma only_end_free : forall m t, ~ In m t -> only_end [m; m] t = true.
Proof.
  induction t as [|x t IH]; intro H; [reflexivity|]. cbn [only_end]. rewrite IH by (intro; apply H; right; assumption).
  cbn [app startswith]. destruct (N.eqb_spec m x) as [->|]; [exfalso; apply H; left; reflexivity|reflexivity].
Qed.
Lemma only_end_colon_free : forall t p, ~ In 47 t -> ~ In 58 (p :: t) -> only_end_colon p t = true.
Proof.
  induction t as [|x t IH]; intros p H1 H2; cbn [only_end_colon].
  - destruct (N.eqb_spec p 58) as [->|]; [exfalso; apply H2; left; reflexivity|reflexivity].
  - rewrite IH; [|intro; apply H1; right; assumption|intro; apply H2; right; assumption].
    cbn [app startswith]. destruct (N.eqb_spec 47 x) as [<-|]; [exfalso; apply H1; left; reflexivity|]. cbn [andb negb]. rewrite orb_true_r. reflexivity.
Qed.
Lemma no_colon_url : forall t, ~ In 58 t -> url_start t = false.
Proof.
  intros t H. unfold url_start. apply not_true_iff_false. intro E. apply existsb_exists in E as (p & _ & E).
  apply startswith_app in E as (r & ->). apply H. rewrite !in_app_iff. left. right. left. reflexivity.
Qed.
Lemma marks_literals : forall w b t, no_char marks w = true -> ~ In 58 t -> literals b w t = true.
Proof.
  induction w as [|x w IH]; intros b t H Ht; [reflexivity|]. cbn [literals]. unfold no_char in H. cbn [forallb] in H. apply andb_true_iff in H as [Hx H].
  rewrite IH by assumption. rewrite andb_true_r. apply negb_true_iff in Hx.
  assert (Hm : forall k, In k marks -> x <> k).
  { intros k Hk ->. apply not_true_iff_false in Hx. apply Hx. apply existsb_exists. exists k. rewrite N.eqb_refl. auto. }
  unfold literal. assert (D : existsb (N.eqb x) doubles = false).
  { apply not_true_iff_false. intro E. apply existsb_exists in E as (y & Hy & E). apply N.eqb_eq in E. subst y.
    apply (Hm x); [|reflexivity]. unfold doubles, marks in *. cbn in Hy |- *. intuition. }
  rewrite D. cbn [andb negb]. assert (X126 : x <> 126) by (apply Hm; cbn; auto 20). assert (X10 : x <> 10) by (apply Hm; cbn; auto 20).
  assert (X58 : x <> 58) by (apply Hm; cbn; auto 20).
  rewrite (proj2 (N.eqb_neq x 126) X126), (proj2 (N.eqb_neq x 10) X10). cbn [andb negb]. unfold url_here.
  rewrite no_colon_url.
  - assert (Z : match x :: w ++ t with 126 :: t' => url_start t' | _ => false end = false).
    { destruct x as [|p]; [reflexivity|]. do 7 (destruct p as [p|p|]; try reflexivity). contradiction. }
    rewrite Z. rewrite andb_false_r. reflexivity.
  - intros [E|Hi]; [congruence|]. apply in_app_iff in Hi as [Hi|Hi]; [|contradiction].
    apply (no_char_In marks w 58 H Hi). cbn; auto 20.
Qed.
Lemma no_char_not : forall cs w x, no_char cs w = true -> In x cs -> ~ In x w.
Proof. intros cs w x H Hx Hi. exact (no_char_In cs w x H Hi Hx). Qed.
Lemma typeface_list_58 : forall around l, forallb (typeface_ok around) l = true -> no_char [10; 13; 58] (flat_map wr_inl l) = true.
Proof.
  intros around. induction l as [|x l IH]; intro H; [reflexivity|]. cbn [forallb flat_map] in *. apply andb_true_iff in H as [H1 H2].
  rewrite no_char_app, IH by exact H2. destruct (typeface_chars _ _ H1) as (_ & -> & _). reflexivity.
Qed.
Lemma typeface_inl_ok : forall i around, typeface_ok around i = true -> forall b t, ~ In 58 b -> ~ In 58 t -> inl_ok b i t = true.
Proof.
  induction i as [w|d|f body IH|x|a x|a x sz|u| |a body IH] using inl_ind'; intros around H b t Hb Ht; try discriminate.
  - cbn [typeface_ok] in H. apply andb_true_iff in H as [H1 H2]. cbn [inl_ok]. rewrite H1, marks_literals by assumption. reflexivity.
  - pose proof H as H'. cbn [typeface_ok] in H. rewrite !andb_true_iff, negb_true_iff in H. destruct H as [[H1 H2] H3].
    pose proof (typeface_list_58 _ _ H3) as C. cbn [inl_ok].
    assert (F : ~ In (face_mark f) (flat_map wr_inl body)).
    { intro Hi. apply in_flat_map in Hi as (y & Hy & Hi). rewrite forallb_forall in H3. apply H3 in Hy. destruct (typeface_chars _ _ Hy) as (_ & _ & K).
      apply (K f); [|exact Hi]. cbn [existsb]. unfold face_eqb. rewrite N.eqb_refl. reflexivity. }
    assert (T : truthy (flat_map wr_inl body) = true).
    { destruct body as [|y r]; [discriminate|]. cbn [forallb flat_map] in *. apply andb_true_iff in H3 as [H3 _]. destruct (typeface_chars _ _ H3) as (K & _).
      destruct (wr_inl y); [discriminate|reflexivity]. }
    rewrite !andb_true_iff. repeat split.
    + unfold face_ends. destruct (flat_map wr_inl body) as [|y r] eqn:E; [discriminate|].
      assert (F' : ~ In (face_mark f) r) by (intro; apply F; right; assumption).
      destruct f; try (apply only_end_free; exact F'). apply only_end_colon_free; [exact F'|]. apply (no_char_not _ _ 58 C). cbn; auto.
    + apply (no_char_sub [10; 13; 58]); [exact C|reflexivity].
    + unfold ends_in_break. destruct (rev body) as [|y r] eqn:E; [reflexivity|]. assert (Hy : In y body) by (apply in_rev; rewrite E; left; reflexivity).
      rewrite forallb_forall in H3. apply H3 in Hy. destruct y; try reflexivity; discriminate.
    + destruct f; try reflexivity. destruct b as [|y b]; [reflexivity|]. cbn [head_is]. destruct (N.eqb_spec 58 y) as [<-|]; [exfalso; apply Hb; left; reflexivity|reflexivity].
    + assert (G : forall l b, Forall (fun i => forall around, typeface_ok around i = true -> forall b t, ~ In 58 b -> ~ In 58 t -> inl_ok b i t = true) l ->
         forallb (typeface_ok (f :: around)) l = true -> ~ In 58 b ->
         (fix go (b : str) (l : list inl) : bool := match l with [] => true | x :: r => inl_ok b x (flat_map wr_inl r) && go (rev (wr_inl x) ++ b) r end) b l = true).
      { induction l as [|y r IHl]; intros b0 Hl Hf Hb0; [reflexivity|]. inversion Hl as [|? ? P Q]; subst. cbn [forallb] in Hf. apply andb_true_iff in Hf as [Hy Hr].
        rewrite (P _ Hy); [|exact Hb0|apply (no_char_not _ _ 58 (typeface_list_58 _ _ Hr)); cbn; auto]. apply IHl; [exact Q|exact Hr|].
        intro Hi. apply in_app_iff in Hi as [Hi|Hi]; [|contradiction]. apply in_rev in Hi. destruct (typeface_chars _ _ Hy) as (_ & K & _).
        apply (no_char_not _ _ 58 K); [cbn; auto|exact Hi]. }
      apply (G body []); [exact IH|exact H3|intros []].
Qed.
Lemma typeface_inls_ok : forall l b, forallb (typeface_ok []) l = true -> ~ In 58 b -> inls_ok b l = true.
Proof.
  induction l as [|x l IH]; intros b H Hb; [reflexivity|]. cbn [forallb] in H. apply andb_true_iff in H as [H1 H2]. cbn [inls_ok].
  rewrite (typeface_inl_ok _ _ H1); [|exact Hb|apply (no_char_not _ _ 58 (typeface_list_58 _ _ H2)); cbn; auto]. apply IH; [exact H2|].
  intro Hi. apply in_app_iff in Hi as [Hi|Hi]; [|contradiction]. apply in_rev in Hi. destruct (typeface_chars _ _ H1) as (_ & K & _).
  apply (no_char_not _ _ 58 K); [cbn; auto|exact Hi].
Qed.
Lemma lemma_C08 : forall blog v s md l, l <> [] -> forallb (typeface_ok []) l = true -> block_start (wr_inls l) = false ->
  creole2html (mkopts blog v s) md (wr_inls l) = (Ok ($ "<p>" ++ html_inls s br l ++ $ "</p>"), md).
Proof.
  intros blog v s md l Hne H Hs. apply one_line.
  - unfold line_ok. rewrite Hs. rewrite typeface_inls_ok by (exact H || intros []). rewrite (no_char_sub [10; 13; 58] [10; 13]); [|exact (typeface_list_58 _ _ H)|reflexivity].
    destruct l as [|x l]; [contradiction|]. cbn [forallb] in H. apply andb_true_iff in H as [H _]. destruct (typeface_chars _ _ H) as (K & _).
    unfold wr_inls. cbn [flat_map]. destruct (wr_inl x); [discriminate|reflexivity].
  - unfold ends_in_break. destruct (rev l) as [|y r] eqn:E; [reflexivity|]. assert (Hy : In y l) by (apply in_rev; rewrite E; left; reflexivity).
    rewrite forallb_forall in H. apply H in Hy. destruct y; try reflexivity; discriminate.
Qed.

(** ** C09 *)
Lemma lemma_C09 : forall blog v s md a t z, around_ok 123 a z = true -> no_char [10; 13] t = true -> only_end ($ "}}}") t = true ->
  head_is is_space a = false -> block_start (a ++ $ "{{{" ++ t ++ $ "}}}" ++ z) = false ->
  creole2html (mkopts blog v s) md (a ++ $ "{{{" ++ t ++ $ "}}}" ++ z) =
  (Ok ($ "<p>" ++ escape a ++ $ "<code>" ++ escape t ++ $ "</code>" ++ escape z ++ $ "</p>"), md).
Proof.
  intros blog v s md a t z H1 H2 H3 H4 H5. pose proof (around_line blog v s md 123 ($ "{{" ++ t ++ $ "}}}") (ICode t) a z eq_refl (or_introl eq_refl) H1) as K.
  cbn [inl_ok wr_inl] in K. rewrite <- !app_assoc in K. rewrite K.
  - cbn [html_inl]. unfold elem. rewrite <- !app_assoc. reflexivity.
  - intros b0 t0. rewrite (no_char_sub [10; 13] [10]), H3 by (exact H2 || reflexivity). reflexivity.
  - rewrite !no_char_app, H2. reflexivity.
  - reflexivity.
  - exact H5.
Qed.

(** ** C10, C12 *)
Lemma lemma_C10 : forall blog v s md lines,
  forallb (fun l => no_char [10; 13] l && negb (startswith ($ "}}}") l) && negb (contains ($ "~}}}") l)) lines = true ->
  (exists l r, lines = l :: r /\ forallb is_space l = false) ->
  creole2html (mkopts blog v s) md ($ "{{{" ++ [10] ++ lines_text lines ++ [10] ++ $ "}}}") =
  (Ok ($ "<pre>" ++ [10] ++ escape (lines_text lines) ++ [10] ++ $ "</pre>"), md).
Proof.
  intros blog v s md lines H (l & r & -> & Hl).
  assert (A : forall (q : list str) e, q <> [] -> lines_text (q ++ [e]) = lines_text q ++ [10] ++ e).
  { induction q as [|x [|y q] IH]; intros e Hq; [contradiction|reflexivity|]. 
    change (lines_text ((x :: y :: q) ++ [e])) with (x ++ [10] ++ lines_text ((y :: q) ++ [e])).
    change (lines_text (x :: y :: q)) with (x ++ [10] ++ lines_text (y :: q)).
    rewrite IH by discriminate. rewrite <- !app_assoc. reflexivity. }
  assert (B : forall e (q : list str), q <> [] -> lines_text (e :: q) = e ++ [10] ++ lines_text q) by (intros e [|y q] Hq; [contradiction|reflexivity]).
  assert (N : forall e : str, (l :: r) ++ [e] <> []) by (intros e; discriminate). assert (M : l :: r <> []) by discriminate.
  assert (E1 : wr_block (BCode (l :: r)) = $ "{{{" ++ [10] ++ lines_text (l :: r) ++ [10] ++ $ "}}}").
  { exact (eq_trans (B ($ "{{{") _ (N ($ "}}}"))) (f_equal (fun u => $ "{{{" ++ [10] ++ u) (A (l :: r) ($ "}}}") M))). }
  assert (E2 : lines_text ([] :: (l :: r) ++ [[]]) = [10] ++ lines_text (l :: r) ++ [10]).
  { exact (eq_trans (B [] _ (N [])) (f_equal (fun u => [10] ++ u) (A (l :: r) [] M))). }
  rewrite <- E1. rewrite one_block.
  - cbn [html_block]. rewrite E2. unfold elem. rewrite !escape_app. change (escape [10]) with [10]. rewrite <- !app_assoc. reflexivity.
  - cbn [block_ok]. rewrite H, Hl. reflexivity.
Qed.
Lemma lemma_C12 : forall blog v s md n sp t closing, (1 <= n)%nat -> forallb (fun c => (c =? 32) || (c =? 9)) sp = true ->
  trimmed t = true -> no_char [10; 13] t = true -> head_is (N.eqb 61) t = false -> last_is (N.eqb 61) t = false ->
  forallb (fun c => (c =? 61) || (c =? 32)) closing = true ->
  creole2html (mkopts blog v s) md (repeat 61 n ++ sp ++ t ++ closing) =
  (Ok ($ "<h" ++ show_nat n ++ $ ">" ++ escape t ++ $ "</h" ++ show_nat n ++ $ ">"), md).
Proof.
  intros blog v s md n sp t closing H1 H2 H3 H4 H5 H6 H7. pose proof (one_block blog v s md (BHead n sp t closing)) as K.
  cbn [wr_block html_block block_ok] in K. rewrite H2, H3, H4, H5, H6, H7 in K. rewrite K; [unfold elem; rewrite <- !app_assoc; reflexivity|].
  destruct n; [lia|reflexivity].
Qed.

(** ** C14, C15 *)
Lemma lemma_C14 : forall blog v s md a target text z, around_ok 91 a z = true ->
  truthy target = true -> no_char ($ "|]" ++ [10; 13]) target = true -> last_is is_space target = false ->
  opt_ok (fun x => trimmed x && no_char ($ "]" ++ [10; 13]) x && negb (contains ($ "{{") x) && negb (contains [92; 92] x)) text = true ->
  block_start (a ++ ($ "[[" ++ target ++ with_bar text ++ $ "]]") ++ z) = false ->
  creole2html (mkopts blog v s) md (a ++ ($ "[[" ++ target ++ with_bar text ++ $ "]]") ++ z) =
  (Ok ($ "<p>" ++ escape a ++ ($ "<a href=""" ++ attr_text target ++ $ """>" ++ escape (or_else text target) ++ $ "</a>") ++ escape z ++ $ "</p>"), md).
Proof.
  intros blog v s md a target text z H1 H2 H3 H4 H5 H6.
  apply (around_line blog v s md 91 ($ "[" ++ target ++ with_bar text ++ $ "]]") (ILink target text) a z eq_refl (or_intror eq_refl) H1).
  - intros b0 t0. cbn [inl_ok]. rewrite H2, H4, (no_char_sub ($ "|]" ++ [10; 13]) [10; 124; 93]) by (exact H3 || reflexivity). cbn [andb negb].
    destruct text as [x|]; [|reflexivity]. cbn [opt_ok] in *. rewrite !andb_true_iff in H5. destruct H5 as [[[A B] C] D]. rewrite A, D.
    change ($ "{{") with [123; 123] in C. rewrite C. rewrite (no_char_sub ($ "]" ++ [10; 13]) [10; 93]) by (exact B || reflexivity). reflexivity.
  - cbn [wr_inl]. rewrite !no_char_app. rewrite (no_char_sub ($ "|]" ++ [10; 13]) [10; 13] target) by (exact H3 || reflexivity).
    destruct text as [x|]; [|reflexivity]. cbn [opt_ok with_bar] in *. rewrite !andb_true_iff in H5. destruct H5 as [[[A B] C] D].
    rewrite no_char_app. rewrite (no_char_sub ($ "]" ++ [10; 13]) [10; 13] x) by (exact B || reflexivity). reflexivity.
  - reflexivity.
  - exact H6.
Qed.
Lemma image_line : forall blog v s md a target title size z, around_ok 123 a z = true ->
  trimmed target = true -> no_char ($ "|}" ++ [10; 13]) target = true -> head_is (N.eqb 123) target = false ->
  opt_ok (fun x => trimmed x && no_char ($ "}" ++ [10; 13]) x) title = true ->
  match size with
  | Some wh => match title with None => no_char [34; 38; 60; 62] target = true | Some x => no_char [124] x = true end /\
               (N.of_nat (List.length (show_N (fst wh))) <= 4300) /\ (N.of_nat (List.length (show_N (snd wh))) <= 4300)
  | None => opt_ok no_size title = true
  end ->
  block_start (a ++ ($ "{{" ++ target ++ with_bar (image_text title size) ++ $ "}}") ++ z) = false ->
  creole2html (mkopts blog v s) md (a ++ ($ "{{" ++ target ++ with_bar (image_text title size) ++ $ "}}") ++ z) =
  (Ok ($ "<p>" ++ escape a ++ html_image s target title size ++ escape z ++ $ "</p>"), md).
Proof.
  intros blog v s md a target title size z H1 H2 H3 H4 H5 H6 H7.
  apply (around_line blog v s md 123 ($ "{" ++ target ++ with_bar (image_text title size) ++ $ "}}") (IImage target title size) a z eq_refl (or_introl eq_refl) H1).
  - intros b0 t0. cbn [inl_ok]. rewrite H2, H4, (no_char_sub ($ "|}" ++ [10; 13]) [10; 124; 125]) by (exact H3 || reflexivity). cbn [andb negb].
    assert (O : opt_ok (fun x => trimmed x && no_char [10; 125] x) title = true).
    { destruct title as [x|]; [|reflexivity]. cbn [opt_ok] in *. rewrite !andb_true_iff in H5. destruct H5 as [A B]. rewrite A.
      rewrite (no_char_sub ($ "}" ++ [10; 13]) [10; 125]) by (exact B || reflexivity). reflexivity. }
    rewrite O. destruct size as [wh|]; [|exact H6]. destruct H6 as (A & B & C). destruct title as [x|].
    + rewrite A, (proj2 (N.leb_le _ _) B), (proj2 (N.leb_le _ _) C). reflexivity.
    + rewrite A, (proj2 (N.leb_le _ _) B), (proj2 (N.leb_le _ _) C). reflexivity.
  - cbn [wr_inl]. rewrite !no_char_app. rewrite (no_char_sub ($ "|}" ++ [10; 13]) [10; 13] target) by (exact H3 || reflexivity).
    assert (T : opt_ok (no_char [10; 13]) title = true).
    { destruct title as [x|]; [|reflexivity]. cbn [opt_ok] in *. rewrite !andb_true_iff in H5. destruct H5 as [A B].
      apply (no_char_sub ($ "}" ++ [10; 13]) [10; 13]); exact B || reflexivity. }
    assert (S : forall wh, no_char [10; 13] (size_text wh) = true).
    { intro wh. pose proof (size_digits wh) as D. unfold no_char. rewrite forallb_forall in *. intros x Hx. specialize (D x Hx). cbn [existsb].
      destruct (N.eqb_spec x 10) as [->|]; [discriminate|]. destruct (N.eqb_spec x 13) as [->|]; [discriminate|]. reflexivity. }
    destruct title as [x|], size as [wh|]; cbn [image_text with_bar opt_ok] in *; rewrite ?no_char_app, ?T, ?S; reflexivity.
  - reflexivity.
  - exact H7.
Qed.
