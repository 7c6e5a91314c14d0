(** * Parsing the clean documents of Spec11.v *)
From Coq Require Import String List Arith NArith ZArith Bool Lia.
From Verif Require Import PyStr PyStrFacts GNames Regex RegexFacts RegexRun Rules Utils Res Entities HtmlTools HtmlToolsFacts HtmlTok HtmlTokFacts.
From Verif Require Import HtmlParser Spec2 TreeFacts Spec10 TokRun StripRun Spec11 CleanRun.
Import ListNotations.
Open Scope N_scope.

Section xinl_induction.
  Variable P : xinl -> Prop.
  Hypothesis H1 : forall w, P (XText w).
  Hypothesis H2 : forall e, P (XRef e).
  Hypothesis H3 : forall t a body, Forall P body -> P (XFace t a body).
  Hypothesis H4 : forall h body, Forall P body -> P (XLink h body).
  Hypothesis H5 : forall s t a, P (XImage s t a).
  Hypothesis H6 : P XBreak.
  Fixpoint xinl_ind' (i : xinl) : P i :=
    let all := fix all (l : list xinl) : Forall P l := match l with [] => Forall_nil P | x :: r => Forall_cons x (xinl_ind' x) (all r) end in
    match i with
    | XText w => H1 w | XRef e => H2 e
    | XFace t a body => H3 t a body (all body)
    | XLink h body => H4 h body (all body)
    | XImage s t a => H5 s t a
    | XBreak => H6
    end.
End xinl_induction.
Section xitem_induction.
  Variable P : xitem -> Prop.
  Hypothesis H : forall t o sub, Forall P sub -> P (XI t o sub).
  Fixpoint xitem_ind' (i : xitem) : P i :=
    match i with
    | XI t o sub => H t o sub ((fix all (l : list xitem) : Forall P l := match l with [] => Forall_nil P | x :: r => Forall_cons x (xitem_ind' x) (all r) end) sub)
    end.
End xitem_induction.

(** ** the templates are left alone by strip_html *)
Definition compat (before : side) (r : list xinl) (s : q) : Prop :=
  match before with
  | Edge => s = QBlock
  | Inner => s = QStart
  | Elem => s = QEnd
  | More => (exists p, s = QText p /\ side_ok (next_side r) p = true /\ (next_text r = true -> p = [])) \/
            (s = QEndSp /\ side_ok (next_side r) [32] = true /\ next_text r = false)
  end.
Lemma inline_parts : forall t, inline_tag t = true -> name_ok t = true /\ is_heading t = false /\ in_names block_elements t = false /\
  (forall k, In k [$ "script"; $ "style"; $ "tbody"; $ "img"; $ "a"; $ "data"; $ "entityref"; $ "charref"; $ "document"; $ "headline"] -> str_eqb t k = false).
Proof.
  intros t H. unfold inline_tag, in_names in H. rewrite existsb_app, negb_orb, !andb_true_iff, !negb_true_iff in H. destruct H as [[H1 H2] [H3 H4]].
  split; [exact H1|]. split; [exact H2|]. split; [exact H3|]. intros k I. destruct (str_eqb t k) eqn:E; [|reflexivity].
  rewrite <- H4. symmetry. apply existsb_exists. exists k. split; assumption.
Qed.
Lemma not_named : forall l t k, in_names l t = false -> in_names l k = true -> str_eqb t k = false.
Proof. intros l t k H I. destruct (str_eqb t k) eqn:E; [|reflexivity]. apply str_eqb_eq in E. subst k. congruence. Qed.
Lemma face_tag : forall t, inline_tag t = true -> tag_name t = true /\ blk t = false.
Proof.
  intros t H. destruct (inline_parts t H) as (H1 & _ & H3 & _). unfold tag_name. rewrite H1, (not_named _ t ($ "pre") H3 eq_refl). split; [reflexivity|exact H3].
Qed.
Lemma plain_fine : forall a, forallb plain_attr a = true -> forallb attr_fine a = true /\ forallb attr_ok a = true.
Proof.
  intros a H. rewrite !forallb_forall. rewrite forallb_forall in H. split; intros nv I; specialize (H nv I); unfold plain_attr in H; apply andb_true_iff in H as [H1 H2]; [|exact H1].
  unfold attr_fine. rewrite H1. destruct (snd nv); try discriminate H2. exact H2.
Qed.
Lemma ref_text : forall e, ref_ok e = true -> negb (is_nil (write e)) = true /\ forallb (fun c => negb ((c =? 60) || (c =? 10))) (write e) = true /\
  is_nil (lead (write e)) = true /\ trail (write e) = [] /\ forallb is_space (write e) = false.
Proof.
  intros e H. assert (K : exists x, write e = 38 :: x ++ [59] /\ forallb (fun c => negb ((c =? 60) || (c =? 10))) x = true).
  { unfold ref_ok in H. apply andb_true_iff in H as [H _]. assert (D : forall c, dec c = true -> negb ((c =? 60) || (c =? 10)) = true).
    { intros c Hc. destruct (N.eqb_spec c 60); [subst c; discriminate Hc|]. destruct (N.eqb_spec c 10); [subst c; discriminate Hc|reflexivity]. }
    assert (X : forall c, hexadecimal c = true -> negb ((c =? 60) || (c =? 10)) = true).
    { intros c Hc. destruct (N.eqb_spec c 60); [subst c; discriminate Hc|]. destruct (N.eqb_spec c 10); [subst c; discriminate Hc|reflexivity]. }
    assert (Lt : forall c, letter c = true -> negb ((c =? 60) || (c =? 10)) = true).
    { intros c Hc. destruct (N.eqb_spec c 60); [subst c; discriminate Hc|]. destruct (N.eqb_spec c 10); [subst c; discriminate Hc|reflexivity]. }
    destruct e as [t|d|d|n]; cbn [write].
    - discriminate H.
    - exists (35 :: d). split; [reflexivity|]. apply andb_true_iff in H as [H _]. unfold all_digits in H. apply andb_true_iff in H as [_ H]. cbn [forallb].
      eapply forallb_impl; [|exact H]. exact D.
    - exists (35 :: 120 :: d). split; [reflexivity|]. unfold all_digits in H. apply andb_true_iff in H as [_ H]. cbn [forallb].
      eapply forallb_impl; [|exact H]. exact X.
    - exists n. split; [reflexivity|]. destruct n as [|c n]; [discriminate H|]. apply andb_true_iff in H as [Hc H]. cbn [forallb].
      rewrite (Lt c Hc). eapply forallb_impl; [|exact H]. intros d Hd. apply orb_true_iff in Hd as [Hd|Hd]; auto. }
  destruct K as (x & -> & Hx). split; [reflexivity|]. split; [cbn [forallb]; rewrite forallb_app, Hx; reflexivity|]. split; [reflexivity|]. split; [|reflexivity].
  unfold trail. cbn [rev]. rewrite rev_app_distr. reflexivity.
Qed.
Lemma inls_fold : forall s l, (fix go (s : side) (l : list xinl) : list part := match l with [] => [] | x :: r => tm_inl s x ++ go (side_of x) r end) s l = tm_inls s l.
Proof. intros s l. revert s. induction l as [|x l IH]; intro s; [reflexivity|]. cbn [tm_inls]. rewrite IH. reflexivity. Qed.
Lemma clean_fold : forall s l, (fix go (s : side) (l : list xinl) : bool := match l with [] => true | x :: r => clean_inl s x r && go (side_of x) r end) s l = clean_inls s l.
Proof. intros s l. revert s. induction l as [|x l IH]; intro s; [reflexivity|]. cbn [clean_inls]. rewrite IH. reflexivity. Qed.
Lemma tm_face : forall s t a body, tm_inl s (XFace t a body) = Open t a :: tm_inls Inner body ++ [Close t]. Proof. intros. cbn [tm_inl]. rewrite inls_fold. reflexivity. Qed.
Lemma tm_link : forall s h body, tm_inl s (XLink h body) = Open ($ "a") [($ "href", VStr h)] :: tm_inls Inner body ++ [Close ($ "a")].
Proof. intros. cbn [tm_inl]. rewrite inls_fold. reflexivity. Qed.
Lemma clean_face : forall s t a body r, clean_inl s (XFace t a body) r = inline_tag t && forallb plain_attr a && clean_inls Inner body.
Proof. intros. cbn [clean_inl]. rewrite clean_fold. reflexivity. Qed.
Lemma clean_link : forall s h body r, clean_inl s (XLink h body) r = one_line h && clean_inls Inner body.
Proof. intros. cbn [clean_inl]. rewrite clean_fold. reflexivity. Qed.

Definition inl_spec (i : xinl) : Prop := forall before rest st parts, clean_inl before i rest = true -> compat before (i :: rest) st ->
  (forall st', compat (side_of i) rest st' -> tq st' parts = true) -> tq st (tm_inl before i ++ parts) = true.
Lemma inls_tq_of : forall l, Forall inl_spec l -> forall s st parts, clean_inls s l = true -> compat s l st ->
  (forall st', compat (last_side s l) [] st' -> tq st' parts = true) -> tq st (tm_inls s l ++ parts) = true.
Proof.
  induction 1 as [|i l Hi Hl IH]; intros s st parts C K F.
  - cbn [tm_inls app]. apply F. exact K.
  - cbn [clean_inls] in C. apply andb_true_iff in C as [C1 C2]. cbn [tm_inls last_side] in *. rewrite <- app_assoc.
    apply (Hi s l st); [exact C1|exact K|]. intros st' K'. apply IH; [exact C2|exact K'|exact F].
Qed.
Lemma open_ok : forall before i rest st, side_of i = Elem -> compat before (i :: rest) st -> before_open st = true.
Proof.
  intros before i rest st E K. destruct before; cbn [compat] in K; try (subst st; reflexivity).
  destruct K as [(p & -> & K & _)|(-> & _)]; [|reflexivity]. cbn [next_side] in K. rewrite E in K. cbn [before_open]. exact K.
Qed.
Lemma close_ok : forall s st, compat s [] st -> before_close st = true.
Proof.
  intros s st K. destruct s; cbn [compat] in K; try (subst st; reflexivity).
  destruct K as [(p & -> & K & _)|(-> & _)]; [|reflexivity]. exact K.
Qed.
Lemma inl_tq : forall i, inl_spec i.
Proof.
  induction i as [w|e|t a body IH|h body IH|src title alt|] using xinl_ind'; intros before rest st parts C K F.
  - cbn [clean_inl] in C. apply andb_true_iff in C as [C C5]. apply andb_true_iff in C as [C C4]. apply andb_true_iff in C as [C C3]. apply andb_true_iff in C as [C1 C2].
    cbn [tm_inl app tq side_of]. rewrite C1.
    assert (E : forallb (fun c => negb ((c =? 60) || (c =? 10))) w = true).
    { eapply forallb_impl; [|exact C2]. intros c Hc. cbv beta in Hc. destruct (c =? 60), (c =? 10); try discriminate Hc; try reflexivity. rewrite orb_true_r in Hc. discriminate Hc. }
    rewrite E. cbn [andb]. apply negb_true_iff in C5.
    assert (FT : tq (QText (trail w)) parts = true). { apply F. cbn [compat side_of]. left. exists (trail w). split; [reflexivity|]. split; [exact C4|]. intro X. congruence. }
    destruct before; cbn [compat side_ok] in *.
    + subst st. rewrite C3. exact FT.
    + subst st. rewrite C3. exact FT.
    + subst st. destruct (is_nil (lead w)) eqn:EL; [exact FT|]. cbn [orb] in C3. destruct (str_eqb w [32]) eqn:E32.
      * apply F. right. split; [reflexivity|]. apply str_eqb_eq in E32. subst w. split; [exact C4|exact C5].
      * rewrite C3, FT, andb_true_r. cbn [andb]. destruct (text_cases w) as [(_ & _ & EE)|(-> & _)]; [|reflexivity]. rewrite EE in C3. congruence.
    + destruct K as [(p & -> & _ & K)|(_ & _ & K)]; [|discriminate K]. rewrite (K eq_refl). cbn [app].
      destruct (text_cases w) as [(-> & EE & _)|(-> & _)]; [|exact FT]. rewrite EE in FT. exact FT.
  - cbn [clean_inl] in C. destruct (ref_text e C) as (E1 & E2 & E3 & E4 & E5). cbn [tm_inl app tq]. rewrite E1, E2, E3, E4, E5. cbn [andb].
    assert (FT : tq (QText []) parts = true). { apply F. left. exists []. split; [reflexivity|]. split; [|reflexivity]. destruct (next_side rest); reflexivity. }
    destruct before; cbn [compat] in K; try (subst st; exact FT). destruct K as [(p & -> & _)|(-> & _)]; exact FT.
  - rewrite clean_face in C. apply andb_true_iff in C as [C1 C2]. apply andb_true_iff in C1 as [C1 CA]. destruct (face_tag t C1) as [T1 T2]. destruct (plain_fine a CA) as [A1 _]. rewrite tm_face. cbn [app tq]. rewrite T1, T2, A1.
    rewrite (open_ok before (XFace t a body) rest st eq_refl K). cbn [andb]. rewrite <- app_assoc. apply inls_tq_of; [exact IH|exact C2|reflexivity|].
    intros st' K'. cbn [app tq]. rewrite T1, T2, (close_ok _ _ K'). cbn [andb]. apply F. reflexivity.
  - rewrite clean_link in C. apply andb_true_iff in C as [C1 C2]. rewrite tm_link. cbn [app tq].
    assert (A : tag_name ($ "a") = true) by reflexivity. assert (B : blk ($ "a") = false) by reflexivity. rewrite A, B.
    rewrite (open_ok before (XLink h body) rest st eq_refl K).
    assert (AF : forallb attr_fine [($ "href", VStr h)] = true).
    { cbn [forallb]. unfold attr_fine. cbn [fst snd value_of]. rewrite C1. reflexivity. }
    rewrite AF. cbn [andb]. rewrite <- app_assoc. apply inls_tq_of; [exact IH|exact C2|reflexivity|].
    intros st' K'. cbn [app tq]. rewrite A, B, (close_ok _ _ K'). cbn [andb]. apply F. reflexivity.
  - cbn [clean_inl] in C. apply andb_true_iff in C as [C C4]. apply andb_true_iff in C as [C C3]. apply andb_true_iff in C as [C1 C2]. cbn [tm_inl app tq].
    assert (A : tag_name ($ "img") = true) by reflexivity. assert (B : blk ($ "img") = false) by reflexivity. rewrite A, B, (open_ok before (XImage src title alt) rest st eq_refl K).
    assert (AF : forallb attr_fine (img_attrs src title alt) = true).
    { unfold img_attrs. cbn [forallb]. unfold attr_fine. cbn [fst snd value_of]. rewrite C1, C2, C3. reflexivity. }
    rewrite AF. cbn [andb]. apply F. reflexivity.
  - cbn [tm_inl]. assert (A : tag_name ($ "br") = true) by reflexivity. assert (B : blk ($ "br") = true) by reflexivity.
    assert (FB : forall st', before_block st' = true -> tq st' ([Single ($ "br") []; Ws] ++ parts) = true).
    { intros st' Hb. cbn [app tq]. rewrite A, B, Hb. cbn [forallb andb]. apply F. reflexivity. }
    rewrite <- app_assoc. destruct before; cbn [ws_after app compat] in *.
    + subst st. cbn [tq]. apply FB. reflexivity.
    + subst st. apply FB. reflexivity.
    + subst st. apply FB. reflexivity.
    + destruct K as [(p & -> & K & _)|(_ & K & _)]; [|discriminate K]. cbn [next_side side_of side_ok] in K. destruct p; [|discriminate K]. cbn [tq]. apply FB. reflexivity.
Qed.
Lemma inls_tq : forall l s st parts, clean_inls s l = true -> compat s l st ->
  (forall st', compat (last_side s l) [] st' -> tq st' parts = true) -> tq st (tm_inls s l ++ parts) = true.
Proof. intros l. apply inls_tq_of. apply Forall_forall. intros i _. apply inl_tq. Qed.
(** from inside a block element to the tag after the text *)
Lemma text_tq : forall l p parts, clean_inls Edge l = true -> is_tag p = true -> (forall st, before_block st = true -> tq st (p :: parts) = true) -> tq QBlock (tm_text l ++ p :: parts) = true.
Proof.
  intros l p parts C Hp F. unfold tm_text. rewrite <- app_assoc. apply inls_tq; [exact C|reflexivity|]. intros st K. destruct (last_side Edge l) eqn:E; cbn [compat ws_after app] in *.
  - subst st. cbn [tq]. apply F. reflexivity.
  - subst st. apply F. reflexivity.
  - subst st. apply F. reflexivity.
  - destruct K as [(x & -> & K & _)|(_ & K & _)]; [|discriminate K]. cbn [next_side side_ok] in K. destruct x; [|discriminate K]. cbn [tq]. apply F. reflexivity.
Qed.
Definition btag (t : str) : bool := tag_name t && blk t.
Lemma block_open : forall t st r, btag t = true -> before_block st = true -> tq QBlock r = true -> tq st (Open t [] :: Ws :: r) = true.
Proof. intros t st r B S R. unfold btag in B. apply andb_true_iff in B as [B1 B2]. cbn [tq]. rewrite B1, B2, S. exact R. Qed.
Lemma block_close : forall t st r, btag t = true -> before_block st = true -> tq QBlock r = true -> tq st (Close t :: r) = true.
Proof. intros t st r B S R. unfold btag in B. apply andb_true_iff in B as [B1 B2]. cbn [tq]. rewrite B1, B2, S. exact R. Qed.
Lemma elem_tq : forall t st c r, btag t = true -> before_block st = true -> (forall p r', is_tag p = true -> (forall st', before_block st' = true -> tq st' (p :: r') = true) -> tq QBlock (c ++ p :: r') = true) ->
  tq QBlock r = true -> tq st (tm_elem t c ++ r) = true.
Proof.
  intros t st c r B S C R. unfold tm_elem. cbn [app]. apply block_open; [exact B|exact S|]. rewrite <- app_assoc. cbn [app]. apply C; [reflexivity|].
  intros st' S'. apply block_close; assumption.
Qed.
Lemma list_btag : forall o, btag (xlist_tag o) = true. Proof. intros []; reflexivity. Qed.
(** elements one after the other, with white space between *)
Lemma seq_tq : forall (A : Type) (f : A -> list part) (ok : A -> bool), (forall x r, ok x = true -> tq QBlock r = true -> tq QBlock (f x ++ r) = true) ->
  forall l r, forallb ok l = true -> tq QBlock r = true -> tq QBlock (flat_map f l ++ r) = true.
Proof.
  intros A f ok H. induction l as [|x l IH]; intros r K R; [exact R|]. cbn [forallb] in K. apply andb_true_iff in K as [K1 K2]. cbn [flat_map]. rewrite <- app_assoc.
  apply H; [exact K1|]. apply IH; assumption.
Qed.
Lemma item_tq : forall i r, shape_item i = true -> tq QBlock r = true -> tq QBlock (tm_item i ++ r) = true.
Proof.
  induction i as [t o sub IH] using xitem_ind'. intros r C R. cbn [shape_item] in C. apply andb_true_iff in C as [C1 C2].
  cbn [tm_item]. rewrite <- app_assoc. apply elem_tq; [reflexivity|reflexivity| |exact R]. intros p r' Hp F.
  destruct sub as [|x sub].
  - rewrite app_nil_r. apply text_tq; assumption.
  - rewrite <- !app_assoc. unfold tm_elem at 1. cbn [app]. apply text_tq; [exact C1|reflexivity|]. intros st S. apply block_open; [apply list_btag|exact S|].
    rewrite <- !app_assoc. cbn [app].
    assert (Q : forall l, Forall (fun i => forall r, shape_item i = true -> tq QBlock r = true -> tq QBlock (tm_item i ++ r) = true) l -> forallb shape_item l = true ->
       forall r, tq QBlock r = true -> tq QBlock (flat_map tm_item l ++ r) = true).
    { induction 1 as [|y l Hy Hl IHl]; intros K r0 R0; [exact R0|]. cbn [forallb] in K. apply andb_true_iff in K as [K1 K2]. cbn [flat_map]. rewrite <- app_assoc.
      apply Hy; [exact K1|]. apply IHl; assumption. }
    apply Q; [exact IH|exact C2|]. apply block_close; [apply list_btag|reflexivity|]. cbn [tq]. apply F. reflexivity.
Qed.
Lemma cell_tq : forall c r, shape_cell c = true -> tq QBlock r = true -> tq QBlock (tm_cell c ++ r) = true.
Proof.
  intros [h l] r C R. unfold shape_cell in C. cbn [snd] in C.
  unfold tm_cell. cbn [fst snd]. rewrite <- app_assoc. apply elem_tq; [destruct h; reflexivity|reflexivity| |exact R]. intros p r' Hp F. apply text_tq; assumption.
Qed.
Lemma row_tq : forall w r, forallb shape_cell w = true -> tq QBlock r = true -> tq QBlock (tm_row w ++ r) = true.
Proof.
  intros w r C R. unfold tm_row. rewrite <- app_assoc. apply elem_tq; [reflexivity|reflexivity| |exact R]. intros p r' Hp F.
  apply (seq_tq _ tm_cell shape_cell cell_tq); [exact C|]. apply F. reflexivity.
Qed.
Lemma head_btag : forall n, (1 <= n <= 6)%nat -> btag ($ "h" ++ show_nat n) = true.
Proof. intros n H. do 7 (destruct n as [|n]; [first [lia|reflexivity]|]). lia. Qed.
Lemma block_tq : forall b st r, shape_block b = true -> before_block st = true -> tq QBlock r = true -> tq st (tm_block b ++ r) = true.
Proof.
  intros b st r C S R. destruct b as [l|n l| |o items|rows]; cbn [tm_block shape_block] in *.
  - apply elem_tq; [reflexivity|exact S| |exact R]. intros p r' Hp F. apply text_tq; assumption.
  - apply andb_true_iff in C as [C0 C]. apply andb_true_iff in C0 as [L1 L2]. apply Nat.leb_le in L1, L2.
    apply elem_tq; [apply head_btag; lia|exact S| |exact R]. intros p r' Hp F. apply text_tq; assumption.
  - cbn [app tq]. assert (A : tag_name ($ "hr") = true) by reflexivity. assert (B : blk ($ "hr") = true) by reflexivity. rewrite A, B, S. exact R.
  - apply elem_tq; [apply list_btag|exact S| |exact R]. intros p r' Hp F.
    apply (seq_tq _ tm_item shape_item item_tq); [exact C|]. apply F. reflexivity.
  - apply elem_tq; [reflexivity|exact S| |exact R]. intros p r' Hp F.
    apply (seq_tq _ tm_row (forallb shape_cell) row_tq); [exact C|apply F; reflexivity].
Qed.
Lemma doc_tq : forall d, shape_doc d = true -> d <> [] -> tq QGap (tm_doc d) = true.
Proof.
  intros [|b d] C N; [congruence|]. unfold shape_doc in C. cbn [forallb] in C. apply andb_true_iff in C as [C1 C2]. unfold tm_doc. cbn [flat_map tq].
  rewrite <- app_assoc. apply block_tq; [exact C1|reflexivity|]. cbn [app tq]. rewrite <- (app_nil_r (flat_map _ d)).
  apply (seq_tq _ (fun b => tm_block b ++ [Ws]) shape_block); [|exact C2|reflexivity].
  intros x r K R. rewrite <- app_assoc. apply block_tq; [exact K|reflexivity|]. exact R.
Qed.

(** ** as html elements *)
Fixpoint x2d (i : xinl) : dom :=
  match i with
  | XText w => DText w
  | XRef e => match e with Text t => DText t | Dec d => DChar d | Hex d => DChar (120 :: d) | Named n => DEnt n end
  | XFace t a body => DElem t a (map x2d body)
  | XLink h body => DElem ($ "a") [($ "href", VStr h)] (map x2d body)
  | XImage src title alt => DSelf ($ "img") (img_attrs src title alt)
  | XBreak => DSelf ($ "br") []
  end.
Fixpoint i2d (i : xitem) : dom :=
  match i with
  | XI t o sub => DElem ($ "li") [] (map x2d t ++ match sub with [] => [] | _ => [DElem (xlist_tag o) [] (map i2d sub)] end)
  end.
Definition c2d (c : bool * list xinl) : dom := DElem (if fst c then $ "th" else $ "td") [] (map x2d (snd c)).
Definition b2d (b : xblock) : dom :=
  match b with
  | XPara l => DElem ($ "p") [] (map x2d l)
  | XHead n l => DElem ($ "h" ++ show_nat n) [] (map x2d l)
  | XRule => DSelf ($ "hr") []
  | XList o items => DElem (xlist_tag o) [] (map i2d items)
  | XTable rows => DElem ($ "table") [] (map (fun r => DElem ($ "tr") [] (map c2d r)) rows)
  end.
Definition srcs (l : list part) : str := flat_map part_src l.
Lemma srcs_app : forall a b, srcs (a ++ b) = srcs a ++ srcs b. Proof. intros. apply flat_map_app. Qed.
Lemma srcs_ws : forall s, srcs (ws_after s) = []. Proof. intros []; reflexivity. Qed.
Lemma show_map : forall (A : Type) (f : A -> dom) l, show_doms (map f l) = flat_map (fun x => show_dom (f x)) l.
Proof. intros A f l. unfold show_doms. induction l as [|x l IH]; [reflexivity|]. cbn [map flat_map]. rewrite IH. reflexivity. Qed.
Lemma x2d_src : forall i s, srcs (tm_inl s i) = show_dom (x2d i).
Proof.
  assert (F : forall l, Forall (fun i => forall s, srcs (tm_inl s i) = show_dom (x2d i)) l -> forall s, srcs (tm_inls s l) = flat_map show_dom (map x2d l)).
  { induction 1 as [|x l Hx Hl IH]; intro s; [reflexivity|]. cbn [tm_inls map flat_map]. rewrite srcs_app, Hx, IH. reflexivity. }
  induction i as [w|e|t a body IH|h body IH|src title alt|] using xinl_ind'; intro s.
  - cbn. apply app_nil_r.
  - cbn [tm_inl]. unfold srcs. cbn [flat_map part_src]. rewrite app_nil_r. destruct e; reflexivity.
  - rewrite tm_face. cbn [x2d show_dom]. unfold srcs. cbn [flat_map part_src]. rewrite flat_map_app. fold (srcs (tm_inls Inner body)). rewrite (F body IH Inner).
    cbn [flat_map part_src]. rewrite app_nil_r, <- !app_assoc. reflexivity.
  - rewrite tm_link. cbn [x2d show_dom]. unfold srcs. cbn [flat_map part_src]. rewrite flat_map_app. fold (srcs (tm_inls Inner body)). rewrite (F body IH Inner).
    cbn [flat_map part_src]. rewrite app_nil_r, <- !app_assoc. reflexivity.
  - cbn [tm_inl]. unfold srcs. cbn [flat_map part_src x2d show_dom]. rewrite app_nil_r. reflexivity.
  - cbn [tm_inl]. rewrite srcs_app, srcs_ws. reflexivity.
Qed.
Lemma inls_src : forall l s, srcs (tm_inls s l) = show_doms (map x2d l).
Proof. induction l as [|x l IH]; intro s; [reflexivity|]. cbn [tm_inls map]. unfold show_doms. cbn [flat_map]. rewrite srcs_app, x2d_src, IH. reflexivity. Qed.
Lemma text_src : forall l, srcs (tm_text l) = show_doms (map x2d l).
Proof. intro l. unfold tm_text. rewrite srcs_app, srcs_ws, app_nil_r. apply inls_src. Qed.
Lemma elem_src : forall t c, srcs (tm_elem t c) = $ "<" ++ t ++ $ ">" ++ srcs c ++ $ "</" ++ t ++ $ ">".
Proof. intros. unfold tm_elem, srcs. cbn [flat_map part_src app]. rewrite flat_map_app. cbn [flat_map part_src]. rewrite app_nil_r. unfold show_attrs. cbn [flat_map app]. rewrite <- !app_assoc. reflexivity. Qed.
Lemma dom_src : forall t ks, show_dom (DElem t [] ks) = $ "<" ++ t ++ $ ">" ++ show_doms ks ++ $ "</" ++ t ++ $ ">".
Proof. reflexivity. Qed.
Lemma srcs_flat : forall (A : Type) (f : A -> list part) (g : A -> dom) l, Forall (fun x => srcs (f x) = show_dom (g x)) l -> srcs (flat_map f l) = show_doms (map g l).
Proof. intros A f g l. induction 1 as [|x l Hx Hl IH]; [reflexivity|]. cbn [flat_map map]. unfold show_doms. cbn [flat_map]. rewrite srcs_app, Hx, IH. reflexivity. Qed.
Lemma item_src : forall i, srcs (tm_item i) = show_dom (i2d i).
Proof.
  induction i as [t o sub IH] using xitem_ind'. cbn [tm_item i2d]. rewrite srcs_app. change (srcs [Ws]) with (@nil N). rewrite app_nil_r, elem_src, dom_src, srcs_app, text_src.
  destruct sub as [|x sub].
  - rewrite app_nil_r. change (srcs []) with (@nil N). rewrite app_nil_r. reflexivity.
  - rewrite srcs_app. change (srcs [Ws]) with (@nil N). rewrite app_nil_r, elem_src, (srcs_flat _ tm_item i2d (x :: sub) IH).
    unfold show_doms at 3. rewrite flat_map_app. cbn [flat_map]. rewrite app_nil_r, dom_src. reflexivity.
Qed.
Lemma block_src : forall b, srcs (tm_block b) = show_dom (b2d b).
Proof.
  intros [l|n l| |o items|rows]; cbn [tm_block b2d]; try (rewrite elem_src, dom_src).
  - rewrite text_src. reflexivity.
  - rewrite text_src. reflexivity.
  - reflexivity.
  - rewrite (srcs_flat _ tm_item i2d) by (apply Forall_forall; intros; apply item_src). reflexivity.
  - rewrite (srcs_flat _ tm_row (fun r => DElem ($ "tr") [] (map c2d r))); [reflexivity|]. apply Forall_forall. intros r _. unfold tm_row. rewrite srcs_app.
    change (srcs [Ws]) with (@nil N). rewrite app_nil_r, elem_src, dom_src, (srcs_flat _ tm_cell c2d); [reflexivity|]. apply Forall_forall. intros c _.
    unfold tm_cell, c2d. rewrite srcs_app. change (srcs [Ws]) with (@nil N). rewrite app_nil_r, elem_src, dom_src, text_src. reflexivity.
Qed.
Lemma doc_src : forall d, srcs (tm_doc d) = show_doms (map b2d d).
Proof.
  intro d. unfold tm_doc. change (srcs (Ws :: ?x)) with (srcs x). apply srcs_flat. apply Forall_forall. intros b _. rewrite srcs_app. change (srcs [Ws]) with (@nil N).
  rewrite app_nil_r. apply block_src.
Qed.

(** ** well formed *)
Lemma tag_face_ok : forall t, inline_tag t = true -> tag_ok t = true /\ t <> $ "tbody" /\ t <> $ "br" /\ t <> $ "img" /\ in_names block_elements t = false.
Proof.
  intros t H. destruct (inline_parts t H) as (H1 & _ & H3 & H4). assert (N : forall k, str_eqb t k = false -> t <> k) by (intros k E ->; rewrite str_eqb_refl in E; discriminate E).
  split; [unfold tag_ok; rewrite H1, !H4 by (cbn; tauto); reflexivity|]. split; [apply N, H4; cbn; tauto|]. split; [apply N, (not_named _ _ _ H3); reflexivity|].
  split; [apply N, H4; cbn; tauto|exact H3].
Qed.
Definition x_text (i : xinl) : bool := match i with XText _ => true | _ => false end.
Lemma apart_step : forall x l, (forall y r, l = y :: r -> match x, y with DText _, DText _ => False | _, _ => True end) -> apart l = true -> apart (x :: l) = true.
Proof. intros x l H A. destruct x; try exact A. destruct l as [|y l]; [reflexivity|]. specialize (H y l eq_refl). destruct y; try exact A. destruct H. Qed.
Lemma x2d_text : forall i, match x2d i with DText _ => x_text i = true \/ exists t, i = XRef (Text t) | _ => True end.
Proof. intros [w|[t|d|d|n]|t a b|h b|s t a|]; cbn; eauto. Qed.
Lemma x_apart : forall l s r, clean_inls s l = true -> (forall t k, r <> DText t :: k) -> apart r = true -> apart (map x2d l ++ r) = true.
Proof.
  induction l as [|i l IH]; intros s r C Hr A; [exact A|]. cbn [clean_inls] in C. apply andb_true_iff in C as [C1 C2]. cbn [map app]. apply apart_step; [|eapply IH; eassumption].
  intros y k E. pose proof (x2d_text i) as T. destruct (x2d i) eqn:EX; try exact I. destruct T as [T|(t & ->)]; [|discriminate C1].
  destruct i as [w|e|t at' b|h b|sx t a|]; try discriminate T. cbn [clean_inl] in C1. apply andb_true_iff in C1 as [_ C1]. apply negb_true_iff in C1.
  destruct y; try exact I. destruct l as [|j l].
  - cbn [map app] in E. exact (Hr _ _ E).
  - cbn [map app] in E. injection E as E _. pose proof (x2d_text j) as T2. rewrite E in T2. destruct T2 as [T2|(t2 & ->)].
    + destruct j; try discriminate T2. discriminate C1.
    + cbn [clean_inls] in C2. apply andb_true_iff in C2 as [C2 _]. discriminate C2.
Qed.
Lemma x_apart0 : forall l s, clean_inls s l = true -> apart (map x2d l) = true.
Proof. intros l s C. rewrite <- (app_nil_r (map x2d l)). eapply x_apart; [exact C|discriminate|reflexivity]. Qed.
Lemma x_wf : forall i s r, clean_inl s i r = true -> dom_wf (x2d i) = true.
Proof.
  assert (F : forall l, Forall (fun i => forall s r, clean_inl s i r = true -> dom_wf (x2d i) = true) l -> forall s, clean_inls s l = true -> forallb dom_wf (map x2d l) = true).
  { induction 1 as [|x l Hx Hl IH]; intros s C; [reflexivity|]. cbn [clean_inls] in C. apply andb_true_iff in C as [C1 C2]. cbn [map forallb]. rewrite (Hx _ _ C1), (IH _ C2). reflexivity. }
  induction i as [w|e|t a body IH|h body IH|src title alt|] using xinl_ind'; intros s r C.
  - cbn [clean_inl] in C. cbn [x2d dom_wf]. apply andb_true_iff in C as [C _]. apply andb_true_iff in C as [C _]. apply andb_true_iff in C as [C _]. apply andb_true_iff in C as [C1 C2].
    rewrite C1. cbn [andb]. eapply forallb_impl; [|exact C2]. intros c Hc. cbv beta in Hc. destruct ((c =? 60) || (c =? 38)); [discriminate Hc|reflexivity].
  - cbn [clean_inl] in C. unfold ref_ok in C. apply andb_true_iff in C as [C _]. destruct e as [t|d|d|n]; cbn [x2d dom_wf].
    + discriminate C.
    + apply andb_true_iff in C as [C _]. rewrite C. reflexivity.
    + cbn. cbn in C. rewrite C. reflexivity.
    + exact C.
  - rewrite clean_face in C. apply andb_true_iff in C as [C1 C2]. apply andb_true_iff in C1 as [C1 CA]. destruct (tag_face_ok t C1) as (T & _). cbn [x2d dom_wf]. rewrite T, (proj2 (plain_fine a CA)), (F body IH _ C2), (x_apart0 body _ C2). reflexivity.
  - rewrite clean_link in C. apply andb_true_iff in C as [C1 C2]. cbn [x2d dom_wf]. rewrite (F body IH _ C2), (x_apart0 body _ C2). reflexivity.
  - reflexivity.
  - reflexivity.
Qed.
Lemma xs_wf : forall l s, clean_inls s l = true -> forallb dom_wf (map x2d l) = true.
Proof. induction l as [|x l IH]; intros s C; [reflexivity|]. cbn [clean_inls] in C. apply andb_true_iff in C as [C1 C2]. cbn [map forallb]. rewrite (x_wf _ _ _ C1), (IH _ C2). reflexivity. Qed.
Lemma wf_elem : forall t ks, tag_ok t = true -> forallb dom_wf ks = true -> apart ks = true -> dom_wf (DElem t [] ks) = true.
Proof. intros t ks H1 H2 H3. cbn [dom_wf]. rewrite H1, H2, H3. reflexivity. Qed.
Lemma apart_elems : forall (A : Type) (f : A -> dom) l, (forall x t, f x <> DText t) -> apart (map f l) = true.
Proof. intros A f l H. induction l as [|x l IH]; [reflexivity|]. cbn [map]. apply apart_step; [|exact IH]. intros y r _. specialize (H x). destruct (f x); try exact I. exfalso. eapply H. reflexivity. Qed.
Lemma list_tag_ok : forall o, tag_ok (xlist_tag o) = true. Proof. intros []; reflexivity. Qed.
Lemma i_wf : forall i, shape_item i = true -> dom_wf (i2d i) = true.
Proof.
  induction i as [t o sub IH] using xitem_ind'. intro C. cbn [shape_item] in C. apply andb_true_iff in C as [C1 C2].
  cbn [i2d]. apply wf_elem; [reflexivity| |].
  - rewrite forallb_app, (xs_wf _ _ C1). destruct sub as [|x sub]; [reflexivity|]. cbn [forallb]. rewrite wf_elem; [reflexivity|apply list_tag_ok| |].
    + revert IH C2. generalize (x :: sub). intros l IH C2. induction IH as [|y l Hy Hl IHl]; [reflexivity|]. cbn [forallb map] in *. apply andb_true_iff in C2 as [C2 C3]. rewrite (Hy C2), (IHl C3). reflexivity.
    + apply apart_elems. intros [? ? ?] ?. discriminate.
  - eapply x_apart; [exact C1| |]; destruct sub; try discriminate; reflexivity.
Qed.
Lemma map_wf : forall (A : Type) (f : A -> dom) (ok : A -> bool) l, (forall x, ok x = true -> dom_wf (f x) = true) -> forallb ok l = true -> forallb dom_wf (map f l) = true.
Proof. intros A f ok l H. induction l as [|x l IH]; intro C; [reflexivity|]. cbn [forallb map] in *. apply andb_true_iff in C as [C1 C2]. rewrite (H x C1), (IH C2). reflexivity. Qed.
Lemma head_tag_ok : forall n, (1 <= n <= 6)%nat -> tag_ok ($ "h" ++ show_nat n) = true.
Proof. intros n H. do 7 (destruct n as [|n]; [first [lia|reflexivity]|]). lia. Qed.
Lemma b_wf : forall b, shape_block b = true -> dom_wf (b2d b) = true.
Proof.
  intros b C. destruct b as [l|n l| |o items|rows]; cbn [b2d].
  - cbn [shape_block] in C. apply wf_elem; [reflexivity|eapply xs_wf; exact C|eapply x_apart0; exact C].
  - cbn [shape_block] in C. apply andb_true_iff in C as [C0 C]. apply andb_true_iff in C0 as [L1 L2]. apply Nat.leb_le in L1, L2.
    apply wf_elem; [apply head_tag_ok; lia|eapply xs_wf; exact C|eapply x_apart0; exact C].
  - reflexivity.
  - cbn [shape_block] in C. apply wf_elem; [apply list_tag_ok|eapply map_wf; [apply i_wf|exact C]|]. apply apart_elems. intros [? ? ?] ?. discriminate.
  - cbn [shape_block] in C. apply wf_elem; [reflexivity| |apply apart_elems; discriminate]. eapply map_wf; [|exact C]. intros r Hr. apply wf_elem; [reflexivity| |apply apart_elems; discriminate].
    eapply map_wf; [|exact Hr]. intros c Hc. unfold shape_cell in Hc. unfold c2d. apply wf_elem; [destruct (fst c); reflexivity|eapply xs_wf; exact Hc|eapply x_apart0; exact Hc].
Qed.
(** ** balanced *)
Lemma x_ok : forall i s r b, clean_inl s i r = true -> dom_ok [] b (x2d i).
Proof.
  assert (F : forall l, Forall (fun i => forall s r b, clean_inl s i r = true -> dom_ok [] b (x2d i)) l -> forall s b, clean_inls s l = true -> Forall (dom_ok [] b) (map x2d l)).
  { induction 1 as [|x l Hx Hl IH]; intros s b C; [constructor|]. cbn [clean_inls] in C. apply andb_true_iff in C as [C1 C2]. cbn [map]. constructor; [eapply Hx; exact C1|eapply IH; exact C2]. }
  induction i as [w|e|t a body IH|h body IH|src title alt|] using xinl_ind'; intros s r b C.
  - constructor.
  - destruct e; constructor.
  - rewrite clean_face in C. apply andb_true_iff in C as [C1 C2]. apply andb_true_iff in C1 as [C1 CA]. destruct (tag_face_ok t C1) as (_ & T1 & T2 & T3 & T4). cbn [x2d]. apply ok_elem; try assumption; [congruence|].
    eapply F; [exact IH|exact C2].
  - rewrite clean_link in C. apply andb_true_iff in C as [C1 C2]. cbn [x2d]. apply ok_elem; try discriminate. eapply F; [exact IH|exact C2].
  - constructor; discriminate.
  - constructor; discriminate.
Qed.
Lemma xs_ok : forall l s b, clean_inls s l = true -> Forall (dom_ok [] b) (map x2d l).
Proof. induction l as [|x l IH]; intros s b C; [constructor|]. cbn [clean_inls] in C. apply andb_true_iff in C as [C1 C2]. cbn [map]. constructor; [eapply x_ok; exact C1|eapply IH; exact C2]. Qed.
Lemma ok_block : forall t ks, is_block t = true -> t <> $ "tbody" -> t <> $ "br" -> t <> $ "img" -> Forall (dom_ok [] true) ks -> dom_ok [] true (DElem t [] ks).
Proof. intros t ks B T1 T2 T3 K. apply ok_elem; try assumption; [reflexivity|]. rewrite B. exact K. Qed.
Lemma ok_list : forall o ks, Forall (dom_ok [] true) ks -> dom_ok [] true (DElem (xlist_tag o) [] ks).
Proof. intros o ks K. apply ok_block; [destruct o; reflexivity|destruct o; discriminate|destruct o; discriminate|destruct o; discriminate|exact K]. Qed.
Lemma i_ok : forall i, shape_item i = true -> dom_ok [] true (i2d i).
Proof.
  induction i as [t o sub IH] using xitem_ind'. intro C. cbn [shape_item] in C. apply andb_true_iff in C as [C1 C2].
  cbn [i2d]. apply ok_block; [reflexivity|discriminate|discriminate|discriminate|]. apply Forall_app. split; [eapply xs_ok; exact C1|].
  destruct sub as [|x sub]; [constructor|]. constructor; [|constructor]. apply ok_list. revert IH C2. generalize (x :: sub). intros l IH C2.
  induction IH as [|y l Hy Hl IHl]; [constructor|]. cbn [forallb map] in *. apply andb_true_iff in C2 as [C2 C3]. constructor; auto.
Qed.
Lemma map_ok : forall (A : Type) (f : A -> dom) (ok : A -> bool) l, (forall x, ok x = true -> dom_ok [] true (f x)) -> forallb ok l = true -> Forall (dom_ok [] true) (map f l).
Proof. intros A f ok l H. induction l as [|x l IH]; intro C; [constructor|]. cbn [forallb map] in *. apply andb_true_iff in C as [C1 C2]. constructor; auto. Qed.
Lemma head_block : forall n, (1 <= n <= 6)%nat -> $ "h" ++ show_nat n <> $ "tbody" /\ $ "h" ++ show_nat n <> $ "br" /\ $ "h" ++ show_nat n <> $ "img".
Proof. intros n H. do 7 (destruct n as [|n]; [first [lia|(split; [|split]; vm_compute; discriminate)]|]). lia. Qed.
Lemma b_ok : forall b, shape_block b = true -> dom_ok [] true (b2d b).
Proof.
  intros b C. destruct b as [l|n l| |o items|rows]; cbn [b2d].
  - cbn [shape_block] in C. apply ok_block; try discriminate; [reflexivity|eapply xs_ok; exact C].
  - cbn [shape_block] in C. apply andb_true_iff in C as [C0 C]. apply andb_true_iff in C0 as [L1 L2]. apply Nat.leb_le in L1, L2.
    destruct (head_block n) as (H2 & H3 & H4); [lia|]. apply ok_elem; try assumption; [reflexivity|]. eapply xs_ok; exact C.
  - constructor; discriminate.
  - cbn [shape_block] in C. apply ok_list. eapply map_ok; [apply i_ok|exact C].
  - cbn [shape_block] in C. apply ok_block; try discriminate; [reflexivity|]. eapply map_ok; [|exact C]. intros r Hr. apply ok_block; try discriminate; [reflexivity|].
    eapply map_ok; [|exact Hr]. intros c Hc. unfold shape_cell in Hc. unfold c2d. apply ok_block; [destruct (fst c); reflexivity|destruct (fst c); discriminate|destruct (fst c); discriminate|destruct (fst c); discriminate|]. eapply xs_ok; exact Hc.
Qed.
Theorem clean_tree : forall d html, shape_doc d = true -> written d html ->
  parse_html html = Ok (HN ($ "document") None [] None (flat_map (dom_tree [] 0) (map b2d d))).
Proof.
  intros d html C W. unfold parse_html, feed. destruct d as [|b0 d0] eqn:ED.
  - cbn in W. destruct W as (w & u & Hw & -> & ->). rewrite app_nil_r. rewrite preprocess_plain.
    + rewrite strip_html_eq, squash_end by exact Hw. reflexivity.
    + intros a b E. rewrite E, forallb_app in Hw. apply andb_true_iff in Hw as [_ Hw]. discriminate Hw.
  - assert (N : d <> []) by (rewrite ED; discriminate). rewrite <- ED in *. clear ED b0 d0. pose proof (doc_tq d C N) as T. rewrite preprocess_plain by (intros a b; eapply never_pre; eassumption).
    cbn [bind]. rewrite (strip_html_parts _ _ T W). fold (srcs (tm_doc d)). rewrite doc_src. unfold feed_tokens. rewrite document_run.
    + destruct (tree_of_dom [] (map b2d d)) as (h & H1 & H2 & _); [eapply map_ok; [apply b_ok|exact C]|]. rewrite H1. cbn [bind]. rewrite H2. reflexivity.
    + eapply map_wf; [apply b_wf|exact C].
    + apply apart_elems. intros [] ?; discriminate.
Qed.
