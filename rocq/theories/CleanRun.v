(** * strip_html and the preprocessing on clean documents *)
From Coq Require Import String List Arith NArith ZArith Bool Lia.
From Verif Require Import PyStr PyStrFacts GNames Regex RegexFacts RegexRun Rules Utils Res Entities HtmlTools HtmlToolsFacts HtmlTok HtmlTokFacts.
From Verif Require Import HtmlParser Safety Spec2 TreeFacts Spec10 TokRun StripRun Spec11.
Import ListNotations.
Open Scope N_scope.

(** ** parts as pieces *)
Definition pcs (p : part) : list pc :=
  match p with
  | Open t a => [Tg false t (show_attrs a)]
  | Close t => [Tg true t []]
  | Single t a => [Tg false t (show_attrs a ++ $ " /")]
  | Txt s => map Ch s
  | Ws => []
  end.
Lemma chars_src : forall s, pcs_src (map Ch s) = s.
Proof. unfold pcs_src. induction s as [|c s IH]; [reflexivity|]. cbn [map flat_map pc_src app]. rewrite IH. reflexivity. Qed.
Lemma pcs_app : forall a b, pcs_src (a ++ b) = pcs_src a ++ pcs_src b.
Proof. intros. unfold pcs_src. apply flat_map_app. Qed.
Lemma pcs_part : forall p, pcs_src (pcs p) = part_src p.
Proof.
  intros [t a|t|t a|s|]; cbn [pcs part_src]; try reflexivity; try apply chars_src; unfold pcs_src, tag_src; cbn [flat_map pc_src]; rewrite app_nil_r;
    unfold tag_src; cbn [app L]; rewrite <- ?app_assoc; reflexivity.
Qed.
(** pieces of the parts, with some white space for each [Ws] *)
Inductive spell : list part -> list pc -> Prop :=
| sp_nil : spell [] []
| sp_ws w r ps : forallb is_space w = true -> spell r ps -> spell (Ws :: r) (map Ch w ++ ps)
| sp_part p r ps : p <> Ws -> spell r ps -> spell (p :: r) (pcs p ++ ps).
Lemma fits_spell : forall t s, fits t s -> exists ps, spell t ps /\ pcs_src ps = s.
Proof.
  induction t as [|p t IH]; intros s H.
  - cbn in H. subst. exists []. split; [constructor|reflexivity].
  - assert (K : p = Ws \/ p <> Ws /\ exists u, s = part_src p ++ u /\ fits t u).
    { destruct p; cbn [fits] in H; try (right; split; [discriminate|exact H]). left. reflexivity. }
    destruct K as [->|(Hp & u & -> & Hu)].
    + cbn [fits] in H. destruct H as (w & u & Hw & -> & Hu). destruct (IH u Hu) as (ps & H1 & H2). exists (map Ch w ++ ps).
      split; [constructor; assumption|]. rewrite pcs_app, chars_src, H2. reflexivity.
    + destruct (IH u Hu) as (ps & H1 & H2). exists (pcs p ++ ps). split; [constructor; assumption|]. rewrite pcs_app, pcs_part, H2. reflexivity.
Qed.

(** ** which sequences of parts are left alone *)
Inductive q := QGap | QText (p : str) | QBlock | QStart | QEnd | QEndSp.
Definition blk (t : str) : bool := in_list BLOCK_TAGS t.
Definition before_block (s : q) : bool := match s with QText p => is_nil p | _ => true end.
Definition before_open (s : q) : bool := match s with QGap => false | QText p => is_nil p || str_eqb p [32] | _ => true end.
Definition before_close (s : q) : bool := match s with QGap => false | QText p => is_nil p | _ => true end.
Definition tag_name (t : str) : bool := name_ok t && negb (str_eqb t ($ "pre")).
Definition attr_fine (nv : str * pyval) : bool := attr_ok nv && one_line (value_of (snd nv)).
Fixpoint tq (s : q) (t : list part) : bool :=
  match t with
  | [] => match s with QBlock | QEnd => true | _ => false end
  | Ws :: r => match s with QGap => tq QGap r | QBlock => tq QBlock r | QText [] => tq QGap r | _ => false end
  | Txt w :: r =>
    negb (is_nil w) && forallb (fun c => negb ((c =? 60) || (c =? 10))) w &&
    match s with
    | QGap => false
    | QText p => tq (QText (if forallb is_space w then p ++ w else trail w)) r
    | QBlock | QStart | QEndSp => is_nil (lead w) && tq (QText (trail w)) r
    | QEnd => if is_nil (lead w) then tq (QText (trail w)) r
              else if str_eqb w [32] then tq QEndSp r else str_eqb (lead w) [32] && negb (forallb is_space w) && tq (QText (trail w)) r
    end
  | Open t a :: r => tag_name t && forallb attr_fine a && (if blk t then before_block s && tq QBlock r else before_open s && tq QStart r)
  | Close t :: r => tag_name t && (if blk t then before_block s && tq QBlock r else before_close s && tq QEnd r)
  | Single t a :: r => tag_name t && forallb attr_fine a && (if blk t then before_block s && tq QBlock r else before_open s && tq QEnd r)
  end.

(** ** tags *)
Lemma name_fine : forall t, name_ok t = true -> t <> [] /\ forallb (fun c => negb ((c =? 32) || (c =? 62))) t = true /\ stop (N.eqb 47) t /\
  one_line t = true /\ stop is_space t.
Proof.
  intros t H. pose proof H as H'. apply name_ok_chars in H as [H Hne]. split; [exact Hne|]. split; [|split; [|split]].
  - eapply forallb_impl; [|exact H]. intros c Hc. apply name_char_range in Hc. cls.
  - destruct t as [|c t]; [congruence|]. cbn [stop]. cbn [forallb] in H. apply andb_true_iff in H as [H _]. apply name_char_range in H. apply N.eqb_neq. lia.
  - unfold one_line. eapply forallb_impl; [|exact H]. intros c Hc. apply name_char_range in Hc. cls.
  - destruct t as [|c t]; [congruence|]. cbn [stop]. cbn [name_ok] in H'. apply andb_true_iff in H' as [H' _]. apply lower_letter_range in H'.
    clear H. cbv beta delta [is_space]. destruct (c <? 128) eqn:E; cls.
Qed.
Lemma attrs_fine : forall a, forallb attr_fine a = true -> (show_attrs a = [] \/ exists t, show_attrs a = 32 :: t) /\
  forallb (fun c => negb ((c =? 10) || (c =? 62))) (show_attrs a) = true.
Proof.
  intros a H. split.
  - destruct a as [|[n v] a]; [left; reflexivity|right]. unfold show_attrs. cbn [flat_map]. eexists. reflexivity.
  - induction a as [|[n v] a IH]; [reflexivity|]. cbn [forallb] in H. apply andb_true_iff in H as [H1 H2]. unfold show_attrs. cbn [flat_map fst snd].
    unfold attr_fine, attr_ok in H1. cbn [fst snd] in H1. apply andb_true_iff in H1 as [H1 H3]. apply andb_true_iff in H1 as [H1 H4].
    apply name_ok_chars in H1 as [H1 _]. rewrite !forallb_app. unfold show_attrs in IH. rewrite (IH H2).
    assert (E1 : forallb (fun c => negb ((c =? 10) || (c =? 62))) n = true).
    { eapply forallb_impl; [|exact H1]. intros c Hc. apply name_char_range in Hc. cls. }
    rewrite E1. assert (E2 : forallb (fun c => negb ((c =? 10) || (c =? 62))) (flat_map attr_entity (value_of v)) = true).
    { unfold one_line in H3. revert H3. generalize (value_of v). clear. induction s as [|c s IH]; intro H; [reflexivity|]. cbn [forallb] in H. apply andb_true_iff in H as [Hc H].
      cbn [flat_map]. rewrite forallb_app, (IH H), andb_true_r. unfold attr_entity.
      destruct (c =? 38); [reflexivity|]. destruct (c =? 60); [reflexivity|]. destruct (c =? 62) eqn:E; [reflexivity|]. destruct (c =? 34); [reflexivity|].
      cbn [forallb]. rewrite E. apply negb_true_iff in Hc. rewrite Hc. reflexivity. }
    rewrite E2. reflexivity.
Qed.
Lemma tag_name_ok : forall t, tag_name t = true -> name_ok t = true /\ t <> $ "pre".
Proof. intros t H. unfold tag_name in H. apply andb_true_iff in H as [H1 H2]. split; [exact H1|]. apply negb_true_iff in H2. apply str_eqb_neq. exact H2. Qed.
Lemma open_fine : forall t a, tag_name t = true -> forallb attr_fine a = true -> tag_fine false t (show_attrs a) /\ endswith [47] (show_attrs a) = false.
Proof.
  intros t a H1 H2. apply tag_name_ok in H1 as [H1 _]. apply name_fine in H1 as (N1 & N2 & N3 & _). pose proof (attrs_fine a H2) as [A1 A2]. split.
  - repeat split; auto.
  - destruct a as [|nv a] using rev_ind; [reflexivity|]. unfold show_attrs. rewrite flat_map_app. cbn [flat_map]. rewrite app_nil_r. unfold endswith. rewrite !rev_app_distr. reflexivity.
Qed.
Lemma close_fine : forall t, tag_name t = true -> tag_fine true t [].
Proof.
  intros t H1. apply tag_name_ok in H1 as [H1 _]. apply name_fine in H1 as (N1 & N2 & N3 & _). repeat split; auto.
Qed.
Lemma single_fine : forall t a, tag_name t = true -> forallb attr_fine a = true -> tag_fine false t (show_attrs a ++ $ " /") /\ endswith [47] (show_attrs a ++ $ " /") = true.
Proof.
  intros t a H1 H2. apply tag_name_ok in H1 as [H1 _]. apply name_fine in H1 as (N1 & N2 & N3 & _). pose proof (attrs_fine a H2) as [A1 A2]. split.
  - repeat split; auto.
    + right. destruct A1 as [->|(u & ->)]; eexists; reflexivity.
    + rewrite forallb_app, A2. reflexivity.
  - unfold endswith. rewrite rev_app_distr. reflexivity.
Qed.

(** ** texts *)
Lemma text_cases : forall w : str, forallb is_space w = true /\ trail w = w /\ lead w = w \/
  forallb is_space w = false /\ exists (x : str) (c : N), w = x ++ c :: trail w /\ is_space c = false /\ forallb is_space (trail w) = true.
Proof.
  intro w. destruct (forallb is_space w) eqn:E.
  - left. split; [reflexivity|]. assert (K : forall u : str, forallb is_space u = true -> take_while is_space u = u).
    { induction u as [|c u IH]; intro H; [reflexivity|]. cbn [forallb] in H. apply andb_true_iff in H as [Hc H]. cbn [take_while]. rewrite Hc, (IH H). reflexivity. }
    unfold trail, lead. rewrite (K w E). rewrite K; [rewrite rev_involutive; auto|].
    apply forallb_forall. intros x I. apply in_rev in I. rewrite forallb_forall in E. exact (E x I).
  - right. split; [reflexivity|]. unfold trail.
    assert (K : forall u : str, forallb is_space u = false -> exists c y, u = take_while is_space u ++ c :: y /\ is_space c = false /\ forallb is_space (take_while is_space u) = true).
    { induction u as [|c u IH]; intro H; [discriminate|]. cbn [forallb] in H. cbn [take_while]. destruct (is_space c) eqn:Ec.
      - destruct (IH H) as (d & y & E1 & E2 & E3). exists d, y. split; [cbn [app]; rewrite <- E1; reflexivity|]. split; [exact E2|]. cbn [forallb]. rewrite Ec. exact E3.
      - exists c, u. auto. }
    assert (E' : forallb is_space (rev w) = false).
    { destruct (forallb is_space (rev w)) eqn:X; [|reflexivity]. rewrite <- E. symmetry. apply forallb_forall. intros x I. apply in_rev in I. rewrite forallb_forall in X. exact (X x I). }
    destruct (K _ E') as (c & y & E1 & E2 & E3). exists (rev y), c. split; [|split; [exact E2|]].
    + rewrite <- (rev_involutive w) at 1. rewrite E1 at 1. rewrite rev_app_distr. cbn [rev]. rewrite <- app_assoc. reflexivity.
    + apply forallb_forall. intros x I. apply in_rev in I. rewrite forallb_forall in E3. exact (E3 x I).
Qed.
Lemma lead_nil : forall w : str, w <> [] -> is_nil (lead w) = true -> exists c r, w = c :: r /\ is_space c = false.
Proof.
  intros [|c w] H E; [congruence|]. exists c, w. split; [reflexivity|]. unfold lead in E. cbn [take_while] in E. destruct (is_space c); [discriminate|reflexivity].
Qed.
Lemma lead_sp : forall w : str, str_eqb (lead w) [32] = true -> forallb is_space w = false -> exists c r, w = 32 :: c :: r /\ is_space c = false.
Proof.
  intros [|c w] E H; [discriminate|]. apply str_eqb_eq in E. unfold lead in E. cbn [take_while] in E. destruct (is_space c) eqn:Ec; [|discriminate].
  injection E as -> E. destruct w as [|d w]; [discriminate|]. cbn [take_while] in E. destruct (is_space d) eqn:Ed; [discriminate|]. exists d, w. auto.
Qed.
Definition nonl (s : str) : bool := forallb (fun c => negb (c =? 10)) s.
Lemma conv_id : forall p : str, nonl p = true -> conv p = p.
Proof.
  intros p H. unfold conv. replace (existsb (N.eqb 10) p) with false; [reflexivity|]. symmetry. induction p as [|c p IH]; [reflexivity|].
  cbn [nonl forallb] in H. apply andb_true_iff in H as [H1 H2]. cbn [existsb]. rewrite (IH H2), orb_false_r. apply negb_true_iff in H1. rewrite N.eqb_sym. exact H1.
Qed.
Lemma squash_text : forall (x p : str) (c : N) (r : str), nonl x = true -> nonl p = true -> is_space c = false ->
  squash true p (x ++ c :: r) = p ++ x ++ c :: squash true [] r.
Proof.
  induction x as [|d x IH]; intros p c r Hx Hp Hc.
  - cbn [app squash]. rewrite Hc, conv_id by exact Hp. reflexivity.
  - cbn [nonl forallb] in Hx. apply andb_true_iff in Hx as [Hd Hx]. cbn [app squash]. destruct (is_space d).
    + rewrite IH; [rewrite <- app_assoc; reflexivity|exact Hx| |exact Hc]. unfold nonl. rewrite forallb_app. apply andb_true_iff. split; [exact Hp|]. cbn [forallb]. rewrite Hd. reflexivity.
    + rewrite IH by (try reflexivity; assumption). rewrite conv_id by exact Hp. reflexivity.
Qed.
Lemma squash_solid : forall seen (p : str) (d : N) (x : str) (c : N) (r : str), is_space d = false -> nonl x = true -> is_space c = false ->
  squash seen p (d :: x ++ c :: r) = (if seen then conv p else []) ++ d :: x ++ c :: squash true [] r.
Proof. intros. cbn [squash]. rewrite H. rewrite squash_text by (try reflexivity; assumption). reflexivity. Qed.
Lemma nonl_app : forall a b, nonl (a ++ b) = nonl a && nonl b. Proof. intros. apply forallb_app. Qed.

Definition rq (s : q) (seen : bool) (p : str) : Prop :=
  match s with
  | QGap | QBlock => forallb is_space p = true
  | QText p' => seen = true /\ p = p' /\ forallb is_space p = true /\ nonl p = true
  | QStart | QEnd => seen = true /\ p = []
  | QEndSp => seen = true /\ p = [32]
  end.
Definition gq (s : q) (g p : str) : Prop :=
  match s with QGap | QBlock => forallb is_space g = true /\ (p = [] -> g = []) | _ => g = p end.
(** ** the tag sources *)
Lemma tag_solid : forall p seen g u, match p with Open t a | Single t a => tag_name t && forallb attr_fine a = true | Close t => tag_name t = true | _ => False end ->
  squash seen g (part_src p ++ u) = (if seen then conv g else []) ++ part_src p ++ squash true [] u.
Proof.
  intros p seen g u H.
  assert (E : exists x, part_src p = 60 :: x ++ [62] /\ nonl x = true).
  { assert (A : forall a, forallb attr_fine a = true -> nonl (show_attrs a) = true).
    { intros a Ha. apply attrs_fine in Ha as [_ Ha]. eapply forallb_impl; [|exact Ha]. intros c Hc. cbv beta in Hc. destruct (c =? 10); [discriminate Hc|reflexivity]. }
    destruct p as [t a|t|t a|s|]; try contradiction; cbn [part_src].
    - apply andb_true_iff in H as [H1 H2]. apply tag_name_ok in H1 as [H1 _]. apply name_fine in H1 as (_ & _ & _ & H1 & _).
      exists (t ++ show_attrs a). split; [cbn [app L]; rewrite <- app_assoc; reflexivity|]. rewrite nonl_app. unfold nonl at 1. unfold one_line in H1. rewrite H1. apply A. exact H2.
    - apply tag_name_ok in H as [H1 _]. apply name_fine in H1 as (_ & _ & _ & H1 & _).
      exists (47 :: t). split; [reflexivity|]. exact H1.
    - apply andb_true_iff in H as [H1 H2]. apply tag_name_ok in H1 as [H1 _]. apply name_fine in H1 as (_ & _ & _ & H1 & _).
      exists (t ++ show_attrs a ++ $ " /"). split; [cbn [app L]; rewrite <- !app_assoc; reflexivity|]. rewrite !nonl_app. unfold nonl at 1. unfold one_line in H1. rewrite H1, (A _ H2). reflexivity. }
  destruct E as (x & E & Hx). rewrite E. cbn [app]. rewrite <- app_assoc. cbn [app]. rewrite squash_solid by (try reflexivity; exact Hx).
  cbn [app]. rewrite <- !app_assoc. reflexivity.
Qed.
Definition is_tag (p : part) : bool := match p with Open _ _ | Close _ | Single _ _ => true | _ => false end.
Definition next_q (p : part) : q :=
  match p with Open t _ => if blk t then QBlock else QStart | Close t | Single t _ => if blk t then QBlock else QEnd | _ => QGap end.
Lemma tq_tag : forall p s r, is_tag p = true -> tq s (p :: r) = true ->
  match p with Open t a | Single t a => tag_name t && forallb attr_fine a = true | Close t => tag_name t = true | _ => False end /\ tq (next_q p) r = true.
Proof.
  intros p s r H1 H2. destruct p as [t a|t|t a|w|]; try discriminate H1; cbn [tq next_q] in H2 |- *.
  - apply andb_true_iff in H2 as [H2 H3]. split; [exact H2|]. destruct (blk t); apply andb_true_iff in H3 as [_ H3]; exact H3.
  - apply andb_true_iff in H2 as [H2 H3]. split; [exact H2|]. destruct (blk t); apply andb_true_iff in H3 as [_ H3]; exact H3.
  - apply andb_true_iff in H2 as [H2 H3]. split; [exact H2|]. destruct (blk t); apply andb_true_iff in H3 as [_ H3]; exact H3.
Qed.
Lemma fits_cons : forall p t s, p <> Ws -> fits (p :: t) s -> exists u, s = part_src p ++ u /\ fits t u.
Proof. intros p t s H F. destruct p; try exact F. congruence. Qed.
Lemma text_of : forall w, forallb (fun c => negb ((c =? 60) || (c =? 10))) w = true -> nonl w = true.
Proof. intros w H. eapply forallb_impl; [|exact H]. intros c Hc. cbv beta in Hc. destruct (c =? 10); [rewrite orb_true_r in Hc; discriminate Hc|reflexivity]. Qed.

Lemma squash_parts : forall t s seen p x, tq s t = true -> fits t x -> rq s seen p ->
  exists g ps, spell t ps /\ squash seen p x = g ++ pcs_src ps /\ gq s g p.
Proof.
  induction t as [|a t IH]; intros s seen p x T F R.
  - cbn [fits] in F. subst x. exists [], []. split; [constructor|]. split; [reflexivity|]. destruct s; try discriminate T; cbn [gq]; [auto|]. destruct R as [_ R]. symmetry. exact R.
  - destruct (is_tag a) eqn:Et.
    + destruct (tq_tag a s t Et T) as [G T']. destruct (fits_cons a t x) as (u & -> & Fu); [intros ->; discriminate Et|exact F|].
      rewrite tag_solid by exact G. destruct (IH (next_q a) true [] u T' Fu) as (g & ps & S1 & S2 & S3).
      { destruct a as [n v|n|n v|w|]; try discriminate Et; cbn [next_q]; destruct (blk n); cbn [rq]; auto. }
      assert (g = []). { destruct (next_q a) eqn:E; cbn [gq] in S3; try exact S3; destruct S3 as [_ S3]; auto. }
      subst g. exists (if seen then conv p else []), (pcs a ++ ps). split; [constructor; [intros ->; discriminate Et|exact S1]|].
      split; [rewrite pcs_app, pcs_part, S2; reflexivity|].
      assert (CV : forallb is_space p = true -> forallb is_space (if seen then conv p else []) = true /\ (p = [] -> (if seen then conv p else []) = [])).
      { intro Hp. destruct seen; [|auto]. split; [|intros ->; reflexivity]. unfold conv. destruct (existsb (N.eqb 10) p); [|exact Hp].
        generalize (count_occ N.eq_dec p 10). intro n. induction n as [|n IHn]; [reflexivity|]. cbn [repeat forallb]. rewrite IHn. reflexivity. }
      destruct s; cbn [rq gq] in *; try (apply CV; exact R).
      * destruct R as (-> & -> & _ & R). apply conv_id. exact R.
      * destruct R as (-> & ->). reflexivity.
      * destruct R as (-> & ->). reflexivity.
      * destruct R as (-> & ->). reflexivity.
    + destruct a as [n v|n|n v|w|]; try discriminate Et.
      * (* text *)
        destruct (fits_cons (Txt w) t x) as (u & -> & Fu); [discriminate|exact F|]. cbn [part_src]. cbn [tq] in T.
        apply andb_true_iff in T as [T1 T]. apply andb_true_iff in T1 as [Hne Hw]. apply negb_true_iff in Hne. pose proof (text_of w Hw) as Hnl.
        assert (Wne : w <> []) by (intros ->; discriminate Hne).
        (* text ending in a run *)
        assert (GO : forall y c, w = y ++ c :: trail w -> is_space c = false -> forallb is_space (trail w) = true -> tq (QText (trail w)) t = true ->
                 exists ps, spell t ps /\ squash true [] (trail w ++ u) = trail w ++ pcs_src ps).
        { intros y c E1 E2 E3 E4. rewrite squash_spaces by exact E3. cbn [app].
          destruct (IH (QText (trail w)) true (trail w) u E4 Fu) as (g & ps & S1 & S2 & S3).
          - cbn [rq]. repeat split; auto. rewrite E1, nonl_app in Hnl. apply andb_true_iff in Hnl as [_ Hnl]. cbn [nonl forallb] in Hnl. apply andb_true_iff in Hnl as [_ Hnl]. exact Hnl.
          - cbn [gq] in S3. subst g. exists ps. auto. }
        assert (FROM : seen = true -> nonl p = true -> forallb is_space w = false -> tq (QText (trail w)) t = true ->
                 exists ps, spell t ps /\ squash seen p (w ++ u) = p ++ w ++ pcs_src ps).
        { intros -> Hp E0 E4. destruct (text_cases w) as [(E & _)|(_ & y & c & E1 & E2 & E3)]; [congruence|].
          destruct (GO y c E1 E2 E3 E4) as (ps & S1 & S2). exists ps. split; [exact S1|]. rewrite E1 at 1. rewrite <- app_assoc. cbn [app].
          rewrite squash_text, S2; [|rewrite E1, nonl_app in Hnl; apply andb_true_iff in Hnl as [Hnl _]; exact Hnl|exact Hp|exact E2].
          assert (E5 : w ++ pcs_src ps = y ++ c :: trail w ++ pcs_src ps) by (etransitivity; [exact (f_equal (fun z => z ++ pcs_src ps) E1)|rewrite <- app_assoc; reflexivity]).
          rewrite E5. reflexivity. }
        assert (HEAD : is_nil (lead w) = true -> tq (QText (trail w)) t = true -> exists ps, spell t ps /\ squash seen p (w ++ u) = (if seen then conv p else []) ++ w ++ pcs_src ps).
        { intros L E4. destruct (lead_nil w Wne L) as (d & r & Ew & Hd). destruct (text_cases w) as [(E & _)|(E0 & _)]; [rewrite Ew in E; cbn [forallb] in E; rewrite Hd in E; discriminate E|].
          assert (SH : squash seen p (w ++ u) = (if seen then conv p else []) ++ squash true [] (w ++ u)).
          { rewrite Ew. cbn [app squash]. rewrite Hd. reflexivity. }
          rewrite SH. clear FROM. destruct (text_cases w) as [(E & _)|(_ & y & c & E1 & E2 & E3)]; [congruence|].
          destruct (GO y c E1 E2 E3 E4) as (ps & S1 & S2). exists ps. split; [exact S1|]. rewrite E1 at 1. rewrite <- app_assoc. cbn [app].
          rewrite squash_text, S2; [|rewrite E1, nonl_app in Hnl; apply andb_true_iff in Hnl as [Hnl _]; exact Hnl|reflexivity|exact E2].
          assert (E5 : w ++ pcs_src ps = y ++ c :: trail w ++ pcs_src ps) by (etransitivity; [exact (f_equal (fun z => z ++ pcs_src ps) E1)|rewrite <- app_assoc; reflexivity]).
          rewrite E5. reflexivity. }
        assert (FIN : forall ps g, spell t ps -> squash seen p (w ++ u) = g ++ w ++ pcs_src ps -> gq s g p ->
                 exists g ps, spell (Txt w :: t) ps /\ squash seen p (w ++ u) = g ++ pcs_src ps /\ gq s g p).
        { intros ps g S1 S2 S3. exists g, (pcs (Txt w) ++ ps). split; [constructor; [discriminate|exact S1]|]. split; [|exact S3].
          rewrite pcs_app, pcs_part, S2. reflexivity. }
        destruct s as [|p'| | | |].
        -- discriminate T.
        -- destruct R as (-> & -> & R1 & R2). destruct (forallb is_space w) eqn:Esp.
           ++ destruct (IH (QText (p' ++ w)) true (p' ++ w) u T Fu) as (g & ps & S1 & S2 & S3).
              { cbn [rq]. repeat split; auto; [rewrite forallb_app; apply andb_true_iff; split; assumption|rewrite nonl_app; apply andb_true_iff; split; assumption]. }
              cbn [gq] in S3. subst g. apply (FIN ps p' S1); [|reflexivity]. rewrite squash_spaces by exact Esp. rewrite S2, <- app_assoc. reflexivity.
           ++ destruct (FROM eq_refl R2 eq_refl T) as (ps & S1 & S2). apply (FIN ps p' S1 S2). reflexivity.
        -- apply andb_true_iff in T as [T1 T]. destruct (HEAD T1 T) as (ps & S1 & S2). apply (FIN ps _ S1 S2). cbn [gq rq] in *.
           destruct seen; [|auto]. split; [|intros ->; reflexivity]. unfold conv. destruct (existsb (N.eqb 10) p); [|exact R].
           generalize (count_occ N.eq_dec p 10). intro n. induction n as [|n IHn]; [reflexivity|]. cbn [repeat forallb]. rewrite IHn. reflexivity.
        -- apply andb_true_iff in T as [T1 T]. destruct (HEAD T1 T) as (ps & S1 & S2). apply (FIN ps _ S1 S2). cbn [gq rq] in *. destruct R as (-> & ->). reflexivity.
        -- destruct (is_nil (lead w)) eqn:EL.
           ++ destruct (HEAD eq_refl T) as (ps & S1 & S2). apply (FIN ps _ S1 S2). cbn [gq rq] in *. destruct R as (-> & ->). reflexivity.
           ++ destruct R as (-> & ->). destruct (str_eqb w [32]) eqn:E32.
              ** apply str_eqb_eq in E32. subst w. destruct (IH QEndSp true [32] u T Fu) as (g & ps & S1 & S2 & S3); [cbn [rq]; auto|].
                 cbn [gq] in S3. subst g. apply (FIN ps [] S1); [|reflexivity]. cbn [app squash]. change (is_space 32) with true. cbv iota. cbn [app]. exact S2.
              ** apply andb_true_iff in T as [T1 T]. apply andb_true_iff in T1 as [_ T1]. apply negb_true_iff in T1.
                 destruct (FROM eq_refl eq_refl T1 T) as (ps & S1 & S2). apply (FIN ps _ S1 S2). reflexivity.
        -- apply andb_true_iff in T as [T1 T]. destruct (HEAD T1 T) as (ps & S1 & S2). apply (FIN ps _ S1 S2). cbn [gq rq] in *. destruct R as (-> & ->). reflexivity.
      * (* white space *)
        cbn [fits] in F. destruct F as (w & u & Hw & -> & Fu). rewrite squash_spaces by exact Hw. cbn [tq] in T.
        assert (K : forall s', (s' = QGap \/ s' = QBlock) -> tq s' t = true -> forallb is_space p = true -> exists ps, spell (Ws :: t) ps /\ squash seen (p ++ w) u = pcs_src ps).
        { intros s' Hs T' Hp. destruct (IH s' seen (p ++ w) u T' Fu) as (g & ps & S1 & S2 & S3).
          - assert (forallb is_space (p ++ w) = true) by (rewrite forallb_app; apply andb_true_iff; split; assumption). destruct Hs as [->| ->]; assumption.
          - exists (map Ch g ++ ps). split; [constructor; [|exact S1]; destruct Hs as [->| ->]; apply S3|]. rewrite pcs_app, chars_src. exact S2. }
        destruct s as [|p'| | | |]; try discriminate T.
        -- destruct (K QGap (or_introl eq_refl) T R) as (ps & S1 & S2). exists [], ps. split; [exact S1|]. split; [exact S2|]. cbn [gq]. auto.
        -- destruct p' as [|c p']; [|discriminate T]. destruct R as (-> & -> & _). destruct (K QGap (or_introl eq_refl) T eq_refl) as (ps & S1 & S2).
           exists [], ps. split; [exact S1|]. split; [exact S2|]. reflexivity.
        -- destruct (K QBlock (or_intror eq_refl) T R) as (ps & S1 & S2). exists [], ps. split; [exact S1|]. split; [exact S2|]. cbn [gq]. auto.
Qed.

(** ** what strip_html leaves *)
Definition rel (s : q) (st : sst) (v : str) : Prop :=
  match s with
  | QGap => exists p, st = Run p /\ v = []
  | QText p => st = Run p /\ v = p
  | QBlock => exists p c n a l, st = Tagged p c n a l /\ blk n = true /\ v = tag_src c n a
  | QStart => exists p n a, st = Tagged p false n a [] /\ blk n = false /\ endswith [47] a = false /\ (p = [] \/ p = [32]) /\ v = p ++ tag_src false n a
  | QEnd => exists p c n a, st = Tagged p c n a [] /\ blk n = false /\ (c = true /\ p = [] \/ c = false /\ endswith [47] a = true /\ (p = [] \/ p = [32])) /\
                            v = p ++ tag_src c n a
  | QEndSp => exists p c n a, st = Tagged p c n a [32] /\ blk n = false /\ (c = true /\ p = [] \/ c = false /\ endswith [47] a = true /\ (p = [] \/ p = [32])) /\
                              v = p ++ tag_src c n a ++ [32]
  end.
Lemma flush_rel : forall s st v, rel s st v -> s <> QGap -> flush st = v.
Proof.
  intros s st v R N. destruct s; cbn [rel] in R.
  - congruence.
  - destruct R as (-> & ->). reflexivity.
  - destruct R as (p & c & n & a & l & -> & B & ->). cbn [flush]. unfold tag_out. unfold blk in B. rewrite B. reflexivity.
  - destruct R as (p & n & a & -> & B & E & P & ->). cbn [flush]. unfold tag_out. unfold blk in B. rewrite B, E. destruct P as [->| ->]; reflexivity.
  - destruct R as (p & c & n & a & -> & B & P & ->). cbn [flush]. unfold tag_out. unfold blk in B. rewrite B.
    destruct P as [(-> & ->)|(-> & -> & [->| ->])]; reflexivity.
  - destruct R as (p & c & n & a & -> & B & P & ->). cbn [flush]. unfold tag_out. unfold blk in B. rewrite B.
    destruct P as [(-> & ->)|(-> & -> & [->| ->])]; cbn; reflexivity.
Qed.
Lemma sq_run : forall (w p : str) ps, forallb is_space w = true -> squeeze (Run p) (map Ch w ++ ps) = squeeze (Run (p ++ w)) ps.
Proof.
  induction w as [|c w IH]; intros p ps H; [rewrite app_nil_r; reflexivity|]. cbn [forallb] in H. apply andb_true_iff in H as [Hc H].
  cbn [map app squeeze]. rewrite Hc, IH by exact H. rewrite <- app_assoc. reflexivity.
Qed.
Lemma sq_tagged : forall (w p : str) c n a l ps, forallb is_space w = true -> squeeze (Tagged p c n a l) (map Ch w ++ ps) = squeeze (Tagged p c n a (l ++ w)) ps.
Proof.
  induction w as [|d w IH]; intros p c n a l ps H; [rewrite app_nil_r; reflexivity|]. cbn [forallb] in H. apply andb_true_iff in H as [Hc H].
  cbn [map app squeeze]. rewrite Hc, IH by exact H. rewrite <- app_assoc. reflexivity.
Qed.
Lemma sq_text : forall (x p : str) (c : N) (tr : str) ps, is_space c = false -> forallb is_space tr = true ->
  squeeze (Run p) (map Ch (x ++ c :: tr) ++ ps) = p ++ x ++ c :: squeeze (Run tr) ps.
Proof.
  induction x as [|d x IH]; intros p c tr ps Hc Ht.
  - cbn [app map squeeze]. rewrite Hc, sq_run by exact Ht. reflexivity.
  - cbn [app map squeeze]. destruct (is_space d); rewrite IH by assumption; cbn [flush]; rewrite <- ?app_assoc; reflexivity.
Qed.
Lemma sq_word : forall (w p : str) ps, forallb is_space w = false -> squeeze (Run p) (map Ch w ++ ps) = p ++ (firstn (List.length w - List.length (trail w)) w) ++ squeeze (Run (trail w)) ps /\
  firstn (List.length w - List.length (trail w)) w ++ trail w = w.
Proof.
  intros w p ps H. destruct (text_cases w) as [(E & _)|(_ & x & c & E1 & E2 & E3)]; [congruence|].
  assert (F : firstn (List.length w - List.length (trail w)) w = x ++ [c]).
  { assert (E4 : w = (x ++ [c]) ++ trail w) by (rewrite <- app_assoc; exact E1). 
    assert (L : (List.length w - List.length (trail w) = List.length (x ++ [c]))%nat).
    { apply (f_equal (@List.length N)) in E4. rewrite app_length in E4. unfold str, char in *. lia. }
    rewrite L. etransitivity; [exact (f_equal (firstn (List.length (x ++ [c]))) E4)|]. rewrite firstn_app, Nat.sub_diag, firstn_all. apply app_nil_r. }
  rewrite F. split.
  - rewrite E1 at 1. rewrite sq_text by assumption. rewrite <- app_assoc. reflexivity.
  - rewrite <- app_assoc. symmetry. exact E1.
Qed.
Lemma sq_first : forall st (c : N) (r : str) ps, is_space c = false -> squeeze st (map Ch (c :: r) ++ ps) = flush st ++ squeeze (Run []) (map Ch (c :: r) ++ ps).
Proof. intros. cbn [map app squeeze]. rewrite H. reflexivity. Qed.

Lemma squeeze_parts : forall t ps s st v, tq s t = true -> spell t ps -> rel s st v -> squeeze st ps = v ++ flat_map part_src t.
Proof.
  induction t as [|a t IH]; intros ps s st v T S R.
  - inversion S; subst. cbn [squeeze flat_map]. rewrite app_nil_r. apply (flush_rel s); [exact R|]. intros ->. discriminate T.
  - destruct (is_tag a) eqn:Et.
    + pose proof (tq_tag a s t Et T) as [G T'].
      assert (S' : exists ps', ps = pcs a ++ ps' /\ spell t ps') by (inversion S; subst; [discriminate Et|eauto]).
      destruct S' as (ps' & -> & S'). cbn [flat_map].
      assert (PC : exists c n m, pcs a = [Tg c n m] /\ part_src a = tag_src c n m /\
        (forall p, (blk n = false -> (p = [] \/ p = [32] /\ before_close (QText p) = false /\ c = false) ) -> rel (next_q a) (Tagged p c n m []) ((if blk n then [] else p) ++ tag_src c n m)) /\
        (blk n = true -> before_block s = true) /\ (blk n = false -> if c then before_close s = true else before_open s = true)).
      { pose proof (pcs_part a) as PP. destruct a as [n v0|n|n v0|w|]; try discriminate Et; cbn [pcs] in *; unfold pcs_src in PP; cbn [flat_map pc_src] in PP; rewrite app_nil_r in PP;
        cbn [tq] in T; do 3 eexists; (split; [reflexivity|]); (split; [symmetry; exact PP|]).
        - apply andb_true_iff in G as [G1 G2]. destruct (open_fine n v0 G1 G2) as [_ OE]. split.
          + intros p Hp. cbn [next_q]. destruct (blk n) eqn:B; cbn [rel].
            * do 5 eexists. split; [reflexivity|]. split; [exact B|]. reflexivity.
            * do 3 eexists. split; [reflexivity|]. split; [exact B|]. split; [exact OE|]. split; [destruct (Hp eq_refl) as [->|(-> & _)]; auto|reflexivity].
          + apply andb_true_iff in T as [_ T]. split; intro B; rewrite B in T; apply andb_true_iff in T as [T _]; exact T.
        - split.
          + intros p Hp. cbn [next_q]. destruct (blk n) eqn:B; cbn [rel].
            * do 5 eexists. split; [reflexivity|]. split; [exact B|]. reflexivity.
            * do 4 eexists. split; [reflexivity|]. split; [exact B|]. split; [|reflexivity]. left. split; [reflexivity|]. destruct (Hp eq_refl) as [->|(-> & _ & X)]; [auto|discriminate X].
          + apply andb_true_iff in T as [_ T]. split; intro B; rewrite B in T; apply andb_true_iff in T as [T _]; exact T.
        - apply andb_true_iff in G as [G1 G2]. destruct (single_fine n v0 G1 G2) as [_ OE]. split.
          + intros p Hp. cbn [next_q]. destruct (blk n) eqn:B; cbn [rel].
            * do 5 eexists. split; [reflexivity|]. split; [exact B|]. reflexivity.
            * do 4 eexists. split; [reflexivity|]. split; [exact B|]. split; [|reflexivity]. right. split; [reflexivity|]. split; [exact OE|]. destruct (Hp eq_refl) as [->|(-> & _)]; auto.
          + apply andb_true_iff in T as [_ T]. split; intro B; rewrite B in T; apply andb_true_iff in T as [T _]; exact T. }
      destruct PC as (c & n & m & P1 & P2 & P3 & P4 & P5). rewrite P1, P2. cbn [app].
      assert (TAGD : (exists p c' n' a' l, st = Tagged p c' n' a' l) -> s <> QGap -> squeeze st (Tg c n m :: ps') = v ++ tag_src c n m ++ flat_map part_src t).
      { intros (p & c' & n' & a' & l & Est) Hs. pose proof (flush_rel s st v R Hs) as FL. subst st. cbn [squeeze]. rewrite FL. f_equal.
        rewrite (IH ps' _ _ _ T' S' (P3 [] (fun _ => or_introl eq_refl))). destruct (blk n); reflexivity. }
      destruct s as [|p| | | |]; cbn [rel] in R.
      * destruct R as (p & -> & ->). cbn [squeeze app]. assert (B : blk n = true) by (destruct (blk n); [reflexivity|]; specialize (P5 eq_refl); destruct c; discriminate P5).
        rewrite (IH ps' _ _ _ T' S' (P3 p ltac:(intro; congruence))). rewrite B. reflexivity.
      * destruct R as (-> & ->). cbn [squeeze]. destruct (blk n) eqn:B.
        -- specialize (P4 eq_refl). cbn [before_block] in P4. destruct p; [|discriminate P4]. rewrite (IH ps' _ _ _ T' S' (P3 [] ltac:(intro; congruence))). reflexivity.
        -- specialize (P5 eq_refl).
           assert (PP : p = [] \/ p = [32] /\ before_close (QText p) = false /\ c = false).
           { destruct c; cbn [before_close before_open] in P5; [destruct p; [auto|discriminate P5]|]. destruct p as [|x p]; [auto|]. right. cbn [is_nil orb] in P5. apply str_eqb_eq in P5. rewrite P5. auto. }
           rewrite (IH ps' _ _ _ T' S' (P3 p (fun _ => PP))). rewrite <- app_assoc. reflexivity.
      * apply TAGD; [|discriminate]. destruct R as (p & c' & n' & a' & l & -> & _). eauto 6.
      * apply TAGD; [|discriminate]. destruct R as (p & n' & a' & -> & _). eauto 6.
      * apply TAGD; [|discriminate]. destruct R as (p & c' & n' & a' & -> & _). eauto 6.
      * apply TAGD; [|discriminate]. destruct R as (p & c' & n' & a' & -> & _). eauto 6.
    + destruct a as [n v0|n|n v0|w|]; try discriminate Et.
      * assert (S' : exists ps', ps = map Ch w ++ ps' /\ spell t ps') by (inversion S; subst; eauto).
        destruct S' as (ps' & -> & S'). cbn [flat_map part_src]. cbn [tq] in T. apply andb_true_iff in T as [T1 T]. apply andb_true_iff in T1 as [Hne _].
        apply negb_true_iff in Hne. assert (Wne : w <> []) by (intros ->; discriminate Hne).
        assert (WORD : forall p, forallb is_space w = false -> tq (QText (trail w)) t = true -> squeeze (Run p) (map Ch w ++ ps') = p ++ w ++ flat_map part_src t).
        { intros p E0 T'. destruct (sq_word w p ps' E0) as [E1 E2]. rewrite E1. rewrite (IH ps' _ _ (trail w) T' S') by (split; reflexivity).
          rewrite (app_assoc (firstn _ w)), E2. reflexivity. }
        assert (HEAD : is_nil (lead w) = true -> tq (QText (trail w)) t = true -> s <> QGap -> squeeze st (map Ch w ++ ps') = v ++ w ++ flat_map part_src t).
        { intros L T' Hs. destruct (lead_nil w Wne L) as (d & r & Ew & Hd).
          assert (E0 : forallb is_space w = false) by (rewrite Ew; cbn [forallb]; rewrite Hd; reflexivity).
          pose proof (WORD [] E0 T') as W. cbn [app] in W. rewrite <- (flush_rel s st v R Hs), <- W. rewrite Ew. apply sq_first. exact Hd. }
        destruct s as [|p| | | |].
        -- discriminate T.
        -- destruct R as (-> & ->). destruct (forallb is_space w) eqn:E.
           ++ rewrite sq_run by exact E. rewrite (IH ps' _ _ (p ++ w) T S') by (split; reflexivity). rewrite <- app_assoc. reflexivity.
           ++ apply WORD; [reflexivity|exact T].
        -- apply andb_true_iff in T as [T1 T]. apply HEAD; [exact T1|exact T|discriminate].
        -- apply andb_true_iff in T as [T1 T]. apply HEAD; [exact T1|exact T|discriminate].
        -- destruct (is_nil (lead w)) eqn:EL; [apply HEAD; [reflexivity|exact T|discriminate]|].
           pose proof R as R0. destruct R as (p & c & n & a & -> & B & P & ->). destruct (str_eqb w [32]) eqn:E32.
           ++ apply str_eqb_eq in E32. subst w. rewrite sq_tagged by reflexivity. cbn [app].
              rewrite (IH ps' QEndSp _ (p ++ tag_src c n a ++ [32]) T S').
              ** rewrite <- !app_assoc. reflexivity.
              ** cbn [rel]. exists p, c, n, a. auto.
           ++ apply andb_true_iff in T as [T1 T]. apply andb_true_iff in T1 as [T1 T2]. apply negb_true_iff in T2.
              destruct (lead_sp w T1 T2) as (d & r & Ew & Hd).
              assert (W : squeeze (Tagged p c n a []) (map Ch w ++ ps') = (p ++ tag_src c n a ++ [32]) ++ squeeze (Run []) (map Ch (d :: r) ++ ps')).
              { rewrite Ew. change (32 :: d :: r) with ([32] ++ d :: r). rewrite map_app, <- app_assoc, sq_tagged by reflexivity. rewrite sq_first by exact Hd. f_equal.
                apply (flush_rel QEndSp); [|discriminate]. cbn [rel app]. exists p, c, n, a. auto. }
              rewrite W. assert (E0 : forallb is_space (d :: r) = false) by (cbn [forallb]; rewrite Hd; reflexivity).
              assert (TR : trail w = trail (d :: r)).
              { destruct (text_cases (d :: r)) as [(X & _)|(_ & x & e & E1 & E2 & E3)]; [congruence|]. rewrite Ew. unfold trail.
                cbn [rev]. assert (KK : forall u : str, forallb is_space (u ++ [d]) = false -> take_while is_space ((u ++ [d]) ++ [32]) = take_while is_space (u ++ [d])).
                { induction u as [|y u IHu]; intro H; cbn [app take_while]; [rewrite Hd; reflexivity|]. cbn [app forallb] in H. destruct (is_space y); [|reflexivity]. f_equal. apply IHu. exact H. }
                f_equal. apply KK. rewrite forallb_app. cbn [forallb]. rewrite Hd, andb_false_r. reflexivity. }
              destruct (sq_word (d :: r) [] ps' E0) as [E1 E2]. rewrite E1. rewrite TR in T. rewrite (IH ps' _ _ (trail (d :: r)) T S') by (split; reflexivity).
              cbn [app]. rewrite (app_assoc (firstn _ (d :: r))), E2, Ew. rewrite <- !app_assoc. cbn [app]. reflexivity.
        -- apply andb_true_iff in T as [T1 T]. apply HEAD; [exact T1|exact T|discriminate].
      * assert (S' : exists w ps', ps = map Ch w ++ ps' /\ forallb is_space w = true /\ spell t ps') by (inversion S; subst; [eauto|congruence]).
        destruct S' as (w & ps' & -> & Hw & S'). cbn [flat_map part_src app]. cbn [tq] in T.
        destruct s as [|p| | | |]; try discriminate T; cbn [rel] in R.
        -- destruct R as (p & -> & ->). rewrite sq_run by exact Hw. apply (IH ps' QGap); [exact T|exact S'|]. exists (p ++ w). auto.
        -- destruct p as [|c p]; [|discriminate T]. destruct R as (-> & ->). rewrite sq_run by exact Hw. apply (IH ps' QGap); [exact T|exact S'|]. exists w. auto.
        -- destruct R as (p & c & n & a & l & -> & B & ->). rewrite sq_tagged by exact Hw. apply (IH ps' QBlock); [exact T|exact S'|]. exists p, c, n, a, (l ++ w). auto.
Qed.
Lemma parts_fine : forall t ps s, tq s t = true -> spell t ps -> Forall pc_fine ps.
Proof.
  assert (CH : forall w : str, forallb (fun c => negb (c =? 60)) w = true -> Forall pc_fine (map Ch w)).
  { induction w as [|c w IH]; intro H; [constructor|]. cbn [forallb] in H. apply andb_true_iff in H as [Hc H]. constructor; [|apply IH; exact H].
    cbn [pc_fine]. apply negb_true_iff in Hc. apply N.eqb_neq. exact Hc. }
  assert (SP : forall w : str, forallb is_space w = true -> forallb (fun c => negb (c =? 60)) w = true).
  { intros w H. eapply forallb_impl; [|exact H]. intros c Hc. destruct (N.eqb_spec c 60); [subst c; discriminate Hc|reflexivity]. }
  induction t as [|a t IH]; intros ps s T S; inversion S; subst; [constructor| |].
  - apply Forall_app. split; [apply CH, SP; assumption|]. cbn [tq] in T. destruct s as [|[|c p]| | | |]; try discriminate T; eapply IH; eassumption.
  - apply Forall_app. destruct (is_tag a) eqn:Et.
    + destruct (tq_tag a s t Et T) as [G T']. split; [|eapply IH; eassumption].
      destruct a as [n v|n|n v|w|]; try discriminate Et; cbn [pcs]; (constructor; [|constructor]); cbn [pc_fine].
      * apply andb_true_iff in G as [G1 G2]. apply open_fine; assumption.
      * apply close_fine. exact G.
      * apply andb_true_iff in G as [G1 G2]. apply single_fine; assumption.
    + destruct a as [n v|n|n v|w|]; try discriminate Et; [|congruence]. cbn [tq] in T. apply andb_true_iff in T as [T1 T]. apply andb_true_iff in T1 as [_ T1].
      split.
      * cbn [pcs]. apply CH. eapply forallb_impl; [|exact T1]. intros c Hc. cbv beta in Hc. destruct (c =? 60); [discriminate Hc|reflexivity].
      * destruct s as [|p| | | |]; try discriminate T.
        -- eapply IH; eassumption.
        -- apply andb_true_iff in T as [_ T]. eapply IH; eassumption.
        -- apply andb_true_iff in T as [_ T]. eapply IH; eassumption.
        -- destruct (is_nil (lead w)); [eapply IH; eassumption|]. destruct (str_eqb w [32]); [eapply IH; eassumption|]. apply andb_true_iff in T as [_ T]. eapply IH; eassumption.
        -- apply andb_true_iff in T as [_ T]. eapply IH; eassumption.
Qed.
Theorem strip_html_parts : forall t s, tq QGap t = true -> fits t s -> strip_html s = flat_map part_src t.
Proof.
  intros t s T F. rewrite strip_html_eq. destruct (squash_parts t QGap false [] s T F eq_refl) as (g & ps & S1 & S2 & S3).
  cbn [gq] in S3. destruct S3 as [_ S3]. rewrite (S3 eq_refl) in S2. cbn [app] in S2. rewrite S2.
  change (pcs_src ps) with (held (Run []) ++ pcs_src ps). rewrite rsub_squeeze; [|eapply parts_fine; eassumption|reflexivity].
  rewrite (squeeze_parts t ps QGap (Run []) [] T S1); [reflexivity|]. cbn [rel]. exists []. auto.
Qed.
(** strip_html starts by removing white space at the ends *)
Lemma strip_html_strip : forall s, strip_html (strip s) = strip_html s.
Proof.
  intro s. unfold strip_html. replace (strip (strip s)) with (strip s); [reflexivity|]. symmetry.
  destruct (strip s) as [|c r] eqn:E; [reflexivity|]. pose proof (strip_by_head is_space s c r E) as H1.
  rewrite strip_head by exact H1.
  destruct (rev (c :: r)) as [|y z] eqn:ER; [apply (f_equal (@List.length N)) in ER; rewrite rev_length in ER; discriminate|].
  assert (Hy : is_space y = false) by (eapply (strip_by_last is_space s y z); unfold strip in E; rewrite E; exact ER).
  assert (E2 : c :: r = rev z ++ [y]) by (rewrite <- (rev_involutive (c :: r)), ER; reflexivity).
  assert (K : rstrip (c :: r) = c :: r) by (rewrite E2; apply rstrip_keep; exact Hy).
  unfold rstrip in *. cbn [rstrip_by] in K. destruct (rstrip_by is_space r); [rewrite H1 in K|]; exact K.
Qed.

(** ** nothing is cut out without <pre> *)
Lemma skip60 : forall x r a b : str, forallb (fun c => negb (c =? 60)) x = true -> x ++ r = a ++ 60 :: b -> exists a', a = x ++ a' /\ r = a' ++ 60 :: b.
Proof.
  induction x as [|c x IH]; intros r a b H E; [exists a; auto|]. cbn [forallb] in H. apply andb_true_iff in H as [Hc H]. destruct a as [|d a].
  - cbn [app] in E. injection E as -> _. discriminate Hc.
  - cbn [app] in E. injection E as -> E. destruct (IH r a b H E) as (a' & -> & ->). exists a'. auto.
Qed.
Lemma attrs60 : forall a, forallb attr_fine a = true -> forallb (fun c => negb (c =? 60)) (show_attrs a) = true.
Proof.
  induction a as [|[n v] a IH]; intro H; [reflexivity|]. cbn [forallb] in H. apply andb_true_iff in H as [H1 H2]. unfold show_attrs. cbn [flat_map fst snd].
  unfold attr_fine, attr_ok in H1. cbn [fst snd] in H1. apply andb_true_iff in H1 as [H1 _]. apply andb_true_iff in H1 as [H1 _].
  apply name_ok_chars in H1 as [H1 _]. rewrite !forallb_app. unfold show_attrs in IH. rewrite (IH H2).
  assert (E1 : forallb (fun c => negb (c =? 60)) n = true).
  { eapply forallb_impl; [|exact H1]. intros c Hc. apply name_char_range in Hc. cls. }
  rewrite E1. assert (E2 : forallb (fun c => negb (c =? 60)) (flat_map attr_entity (value_of v)) = true).
  { generalize (value_of v). clear. induction s as [|c s IH]; [reflexivity|]. cbn [flat_map]. rewrite forallb_app, IH, andb_true_r. unfold attr_entity.
    destruct (c =? 38); [reflexivity|]. destruct (c =? 60) eqn:E; [reflexivity|]. destruct (c =? 62); [reflexivity|]. destruct (c =? 34); [reflexivity|].
    cbn [forallb]. rewrite E. reflexivity. }
  rewrite E2. reflexivity.
Qed.
Lemma never_pre : forall t s x a b, tq s t = true -> fits t x -> x <> a ++ $ "<pre>" ++ b.
Proof.
  induction t as [|p t IH]; intros s x a b T F E; [cbn [fits] in F; subst x; destruct a; discriminate E|].
  destruct (is_tag p) eqn:Et.
  - destruct (tq_tag p s t Et T) as [G T']. destruct (fits_cons p t x) as (u & -> & Fu); [intros ->; discriminate Et|exact F|].
    assert (SH : exists y, part_src p = 60 :: y /\ forallb (fun c => negb (c =? 60)) y = true /\ forall r, y ++ u <> $ "pre>" ++ r).
    { assert (N60 : forall n, name_ok n = true -> forallb (fun c => negb (c =? 60)) n = true).
      { intros n H. apply name_ok_chars in H as [H _]. eapply forallb_impl; [|exact H]. intros c Hc. apply name_char_range in Hc. cls. }
      assert (PRE : forall n m r, tag_name n = true -> (exists m', m = 32 :: m' \/ m = 62 :: m') -> n ++ m <> $ "pre>" ++ r).
      { intros n m r H Hm EE. apply tag_name_ok in H as [H1 H2]. apply name_ok_chars in H1 as [H1 H3].
        assert (HH : forall c m', (c = 32 \/ c = 62) -> n ++ c :: m' = $ "pre>" ++ r -> False).
        { intros c m' Hc E0.
          destruct n as [|n1 n]; [congruence|]. cbn [app L] in E0. injection E0 as -> E0.
          destruct n as [|n2 n]; [cbn [app] in E0; injection E0 as E0 _; destruct Hc; subst c; discriminate|]. cbn [app] in E0. injection E0 as -> E0.
          destruct n as [|n3 n]; [cbn [app] in E0; injection E0 as E0 _; destruct Hc; subst c; discriminate|]. cbn [app] in E0. injection E0 as -> E0.
          destruct n as [|n4 n]; [apply H2; reflexivity|]. cbn [app] in E0. injection E0 as -> E0.
          cbn [forallb] in H1. apply andb_true_iff in H1 as [_ H1]. apply andb_true_iff in H1 as [_ H1]. apply andb_true_iff in H1 as [_ H1]. apply andb_true_iff in H1 as [H1 _]. discriminate H1. }
        destruct Hm as (m' & [->| ->]); eapply HH; try exact EE; auto. }
      destruct p as [n v|n|n v|w|]; try discriminate Et; cbn [part_src].
      - apply andb_true_iff in G as [G1 G2]. pose proof (tag_name_ok _ G1) as [G3 _]. exists (n ++ show_attrs v ++ [62]). split; [reflexivity|]. split.
        + rewrite !forallb_app, (N60 n G3), (attrs60 v G2). reflexivity.
        + intro r. rewrite <- app_assoc. apply PRE; [exact G1|]. destruct (attrs_fine v G2) as [[->|(y & ->)] _]; eexists; [right|left]; reflexivity.
      - exists (47 :: n ++ [62]). split; [reflexivity|]. pose proof (tag_name_ok _ G) as [G3 _]. split.
        + cbn [forallb]. rewrite forallb_app, (N60 n G3). reflexivity.
        + intros r X. discriminate X.
      - apply andb_true_iff in G as [G1 G2]. pose proof (tag_name_ok _ G1) as [G3 _]. exists (n ++ show_attrs v ++ $ " />"). split; [reflexivity|]. split.
        + rewrite !forallb_app, (N60 n G3), (attrs60 v G2). reflexivity.
        + intro r. rewrite <- app_assoc. apply PRE; [exact G1|]. destruct (attrs_fine v G2) as [[->|(y & ->)] _]; eexists; left; reflexivity. }
    destruct SH as (y & Ey & Hy & NP). rewrite Ey in E. destruct a as [|c a].
    + cbn [app L] in E. injection E as E. exact (NP b E).
    + cbn [app] in E. injection E as _ E. cbn [app L] in E. destruct (skip60 y u a (112 :: 114 :: 101 :: 62 :: b) Hy E) as (a' & -> & E'). exact (IH _ u a' b T' Fu E').
  - destruct p as [n v|n|n v|w|]; try discriminate Et.
    + destruct (fits_cons (Txt w) t x) as (u & -> & Fu); [discriminate|exact F|]. cbn [part_src] in E. cbn [tq] in T. apply andb_true_iff in T as [T1 T]. apply andb_true_iff in T1 as [_ T1].
      destruct (skip60 w u a (112 :: 114 :: 101 :: 62 :: b)) as (a' & -> & E').
      { eapply forallb_impl; [|exact T1]. intros c Hc. cbv beta in Hc. destruct (c =? 60); [discriminate Hc|reflexivity]. }
      { exact E. }
      destruct s as [|p| | | |]; try discriminate T.
      * exact (IH _ u a' b T Fu E').
      * apply andb_true_iff in T as [_ T]. exact (IH _ u a' b T Fu E').
      * apply andb_true_iff in T as [_ T]. exact (IH _ u a' b T Fu E').
      * destruct (is_nil (lead w)); [exact (IH _ u a' b T Fu E')|]. destruct (str_eqb w [32]); [exact (IH _ u a' b T Fu E')|]. apply andb_true_iff in T as [_ T]. exact (IH _ u a' b T Fu E').
      * apply andb_true_iff in T as [_ T]. exact (IH _ u a' b T Fu E').
    + cbn [fits] in F. destruct F as (w & u & Hw & -> & Fu).
      destruct (skip60 w u a (112 :: 114 :: 101 :: 62 :: b)) as (a' & -> & E').
      { eapply forallb_impl; [|exact Hw]. intros c Hc. destruct (N.eqb_spec c 60); [subst c; discriminate Hc|reflexivity]. }
      { exact E. }
      cbn [tq] in T. destruct s as [|[|c p]| | | |]; try discriminate T; exact (IH _ u a' b T Fu E').
Qed.
Lemma scan_nothing : forall r s b, (forall a z, s = a ++ z -> m r (mk (rev a ++ b) z []) (fun s => Some s) = None) -> scan r 0 b s = map Datatypes.inl s.
Proof.
  induction s as [|c s IH]; intros b H.
  - cbn [scan map]. rewrite at_pos_miss; [reflexivity|]. exact (H [] [] eq_refl).
  - rewrite scan_miss; [|exact (H [] (c :: s) eq_refl)]. cbn [map]. f_equal. apply IH. intros a z E. specialize (H (c :: a) z). cbn [rev app] in H. rewrite <- app_assoc in H. apply H. rewrite E. reflexivity.
Qed.
Lemma sub_nothing : forall (S : Type) (f : mtch -> S -> res (str * S)) s st, sub_go f (map Datatypes.inl s) st = Ok (s, st).
Proof. intros S f s st. induction s as [|c s IH]; [reflexivity|]. cbn [map sub_go]. rewrite IH. reflexivity. Qed.
Theorem preprocess_plain : forall s, (forall a b, s <> a ++ $ "<pre>" ++ b) -> preprocess s = Ok (strip_html s, []).
Proof.
  intros s H. unfold preprocess.
  assert (H' : forall a z, strip s = a ++ z -> startswith ($ "<pre>") z = false).
  { intros a z E. destruct (startswith ($ "<pre>") z) eqn:X; [|reflexivity]. apply startswith_spec in X as (y & ->).
    destruct (strip_split is_space s) as (l & r & ES & _ & _). fold (strip s) in ES. rewrite E in ES. exfalso. apply (H (l ++ a) (y ++ r)). rewrite ES, <- !app_assoc. reflexivity. }
  unfold resub_st. rewrite scan_nothing.
  - rewrite sub_nothing. cbn [bind]. rewrite scan_nothing.
    + rewrite sub_nothing. cbn [bind]. rewrite strip_html_strip. reflexivity.
    + intros a z E. unfold pre_inline_re, seqs. rewrite m_seq, m_lit_none; [reflexivity|]. exact (H' a z E).
  - intros a z E. unfold pre_block_re, seqs. rewrite m_seq.
    apply m_none. intros s' M. apply bol_inv in M. subst s'. rewrite m_seq, m_lit_none; [reflexivity|]. exact (H' a z E).
Qed.
