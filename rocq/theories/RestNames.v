(** * Which clean documents html2rest refuses (for C67) *)
From Coq Require Import String List Arith NArith ZArith Bool Lia.
From Verif Require Import PyStr Utils Res PyStrFacts HtmlTok Spec2 Spec10 Spec11 CleanDoc Spec19 RestEmit.
Import ListNotations.
Open Scope N_scope.

Lemma seen_some : forall t l h, seen t l = Some h -> In (t, h) l.
Proof.
  unfold seen. intros t l h H. destruct (List.find _ l) as [[t' h']|] eqn:E; [|discriminate H]. injection H as <-. apply find_some in E as [I E]. cbn in E. apply str_eqb_eq in E. subst t'. exact I.
Qed.
Lemma seen_none : forall t l h, seen t l = None -> ~ In (t, h) l.
Proof.
  unfold seen. intros t l h H I. destruct (List.find _ l) eqn:E; [discriminate H|]. apply (find_none _ _ E) in I. cbn in I. rewrite str_eqb_refl in I. discriminate I.
Qed.
Definition holds (n : notes) (ls is : list (str * str)) : Prop :=
  (forall p, In p (no_links n) <-> In p ls) /\ (forall p, In p (no_images n) <-> In p is).
Definition tracks {A : Type} (f : notes -> option (A * notes)) (ls is : list (str * str)) : Prop :=
  forall n L I, holds n L I -> agree L -> agree I ->
  match f n with
  | Some (_, n') => holds n' (L ++ ls) (I ++ is) /\ agree (L ++ ls) /\ agree (I ++ is)
  | None => ~ (agree (L ++ ls) /\ agree (I ++ is))
  end.
Lemma agree_l : forall a b, agree (a ++ b) -> agree a.
Proof. intros a b H t h h' I1 I2. apply (H t); apply in_or_app; left; assumption. Qed.
Lemma tracks_seq : forall (A B : Type) (f : notes -> option (A * notes)) (g : A -> notes -> option (B * notes)) l1 i1 l2 i2,
  tracks f l1 i1 -> (forall n a n', f n = Some (a, n') -> tracks (g a) l2 i2) -> tracks (fun n => in_seq (f n) g) (l1 ++ l2) (i1 ++ i2).
Proof.
  intros A B f g l1 i1 l2 i2 F G n L I H AL AI. specialize (F n L I H AL AI). specialize (G n). rewrite !app_assoc. destruct (f n) as [[a n1]|]; cbn [in_seq].
  - destruct F as (H1 & A1 & A2). specialize (G a n1 eq_refl n1 (L ++ l1) (I ++ i1) H1 A1 A2). destruct (g a n1) as [[b n2]|]; exact G.
  - intros [X Y]. apply F. split; [exact (agree_l _ _ X)|exact (agree_l _ _ Y)].
Qed.
Lemma tracks_ret : forall (A : Type) (f : notes -> option (A * notes)), (forall n, exists a, f n = Some (a, n)) -> tracks f [] [].
Proof. intros A f H n L I Hn AL AI. destruct (H n) as [a ->]. rewrite !app_nil_r. auto. Qed.
Lemma tracks_map : forall (A B : Type) (f : notes -> option (A * notes)) (g : A -> B) l i, tracks f l i -> tracks (fun n => in_seq (f n) (fun a n1 => Some (g a, n1))) l i.
Proof. intros A B f g l i H. rewrite <- (app_nil_r l), <- (app_nil_r i). apply tracks_seq; [exact H|]. intros n a n' _. apply tracks_ret. intro m. eexists. reflexivity. Qed.
Lemma tracks_all : forall (A B : Type) (f : A -> notes -> option (list B * notes)) (pl pi : A -> list (str * str)) l,
  (forall x, In x l -> tracks (f x) (pl x) (pi x)) -> tracks (rst_all f l) (flat_map pl l) (flat_map pi l).
Proof.
  intros A B f pl pi l. induction l as [|x l IH]; intro H; [apply tracks_ret; intro n; eexists; reflexivity|]. cbn [flat_map].
  change (rst_all f (x :: l)) with (fun n => in_seq (f x n) (fun a n1 => in_seq (rst_all f l n1) (fun b n2 => Some (a ++ b, n2)))). apply tracks_seq; [apply H; left; reflexivity|].
  intros n a n' _. apply tracks_map with (g := fun b => a ++ b). apply IH. intros y I. apply H. right. exact I.
Qed.
Lemma agree_add : forall L t h, agree L -> (forall h', ~ In (t, h') L) -> agree (L ++ [(t, h)]).
Proof.
  intros L t h A N t' h1 h2 I1 I2. apply in_app_or in I1, I2. destruct I1 as [I1|[I1|[]]], I2 as [I2|[I2|[]]].
  - exact (A _ _ _ I1 I2).
  - injection I2 as <- <-. destruct (N _ I1).
  - injection I1 as <- <-. destruct (N _ I2).
  - congruence.
Qed.
Lemma agree_same : forall L t h, In (t, h) L -> agree L -> agree (L ++ [(t, h)]).
Proof. intros L t h I A t' h1 h2 I1 I2. apply in_app_or in I1, I2. apply (A t'); [destruct I1 as [I1|[I1|[]]]|destruct I2 as [I2|[I2|[]]]]; try assumption; congruence. Qed.
Lemma in_same : forall (L : list (str * str)) p q, In p L -> (In q (L ++ [p]) <-> In q L).
Proof. intros L p q I. rewrite in_app_iff. split; [intros [H|[<-|[]]]; assumption|auto]. Qed.
Lemma in_more : forall (M L : list (str * str)) p, (forall q, In q M <-> In q L) -> forall q, In q (M ++ [p]) <-> In q (L ++ [p]).
Proof. intros M L p H q. rewrite !in_app_iff, H. reflexivity. Qed.
Lemma tracks_link : forall cell t h, tracks (rst_link cell t h) [(t, h)] [].
Proof.
  intros cell t h n L I [H1 H2] AL AI. rewrite app_nil_r. unfold rst_link. destruct (seen t (no_links n)) as [h'|] eqn:E.
  - apply seen_some in E. apply H1 in E. destruct (str_eqb h' h) eqn:EQ.
    + apply str_eqb_eq in EQ. subst h'. split; [|split; [apply agree_same; assumption|exact AI]]. split; [|exact H2]. intro p. rewrite in_same by exact E. apply H1.
    + intros [X _]. apply str_eqb_neq in EQ. apply EQ. apply (X t); apply in_or_app; [left; exact E|right; left; reflexivity].
  - assert (NI : forall h', ~ In (t, h') L) by (intros h' I'; apply H1 in I'; exact (seen_none _ _ _ E I')).
    destruct cell; (split; [split; [apply in_more; exact H1|exact H2]|split; [apply agree_add; assumption|exact AI]]).
Qed.
Lemma tracks_image : forall t h, tracks (rst_image t h) [] [(t, h)].
Proof.
  intros t h n L I [H1 H2] AL AI. rewrite app_nil_r. unfold rst_image. destruct (seen t (no_images n)) as [h'|] eqn:E.
  - apply seen_some in E. apply H2 in E. destruct (str_eqb h' h) eqn:EQ.
    + apply str_eqb_eq in EQ. subst h'. split; [|split; [exact AL|apply agree_same; assumption]]. split; [exact H1|]. intro p. rewrite in_same by exact E. apply H2.
    + intros [_ X]. apply str_eqb_neq in EQ. apply EQ. apply (X t); apply in_or_app; [left; exact E|right; left; reflexivity].
  - assert (NI : forall h', ~ In (t, h') I) by (intros h' I'; apply H2 in I'; exact (seen_none _ _ _ E I')).
    split; [split; [exact H1|apply in_more; exact H2]|split; [exact AL|apply agree_add; assumption]].
Qed.
(** without links the text is the same wherever it stands *)
Lemma look_same : forall i cell n t n', linkless i = true -> rst_inl cell i n = Some (t, n') -> t = rst_look i.
Proof.
  assert (F : forall l, Forall (fun i => forall cell n t n', linkless i = true -> rst_inl cell i n = Some (t, n') -> t = rst_look i) l ->
    forall cell n t n', forallb linkless l = true -> rst_all (rst_inl cell) l n = Some (t, n') -> t = flat_map rst_look l).
  { induction 1 as [|x l Hx Hl IH]; intros cell n t n' M E; [injection E as <- <-; reflexivity|]. cbn [forallb] in M. apply andb_true_iff in M as [M1 M2]. rewrite rst_all_cons in E.
    destruct (rst_inl cell x n) as [[a n1]|] eqn:E1; [|discriminate E]. cbn [in_seq] in E. destruct (rst_all (rst_inl cell) l n1) as [[b n2]|] eqn:E2; [|discriminate E]. cbn [in_seq] in E. injection E as <- <-.
    cbn [flat_map]. rewrite (Hx _ _ _ _ M1 E1), (IH _ _ _ _ M2 E2). reflexivity. }
  induction i as [w|e|tg at0 body IH|h body IH|src title alt|] using xinl_ind'; intros cell n t n' M E; try discriminate M; cbn [rst_inl rst_look linkless] in *; try (injection E as <- <-; reflexivity).
  - destruct (rst_all (rst_inl cell) body n) as [[b n1]|] eqn:E1; [|discriminate E]. cbn [in_seq] in E. injection E as <- <-. rewrite (F body IH _ _ _ _ M E1). reflexivity.
  - unfold rst_image in E. destruct (seen _ (no_images n)) as [h'|]; [destruct (str_eqb h' src); [|discriminate E]|]; injection E as <- <-; reflexivity.
Qed.
Lemma looks_same : forall l cell n t n', forallb linkless l = true -> rst_all (rst_inl cell) l n = Some (t, n') -> t = flat_map rst_look l.
Proof.
  induction l as [|x l IH]; intros cell n t n' M E; [injection E as <- <-; reflexivity|]. cbn [forallb] in M. apply andb_true_iff in M as [M1 M2]. rewrite rst_all_cons in E.
  destruct (rst_inl cell x n) as [[a n1]|] eqn:E1; [|discriminate E]. cbn [in_seq] in E. destruct (rst_all (rst_inl cell) l n1) as [[b n2]|] eqn:E2; [|discriminate E]. cbn [in_seq] in E. injection E as <- <-.
  cbn [flat_map]. rewrite (look_same _ _ _ _ _ M1 E1), (IH _ _ _ _ M2 E2). reflexivity.
Qed.
Lemma linkless_pairs : forall i, linkless i = true -> link_pairs i = [] /\ plain_link i = true.
Proof.
  induction i as [w|e|tg at0 body IH|h body IH|src title alt|] using xinl_ind'; intro M; try discriminate M; try (split; reflexivity). cbn [linkless link_pairs plain_link] in *.
  induction IH as [|x l Hx Hl IHl]; [split; reflexivity|]. cbn [forallb flat_map] in *. apply andb_true_iff in M as [M1 M2]. destruct (Hx M1) as [-> ->]. destruct (IHl M2) as [-> ->]. split; reflexivity.
Qed.
Lemma linkless_all : forall l, forallb linkless l = true -> flat_map link_pairs l = [] /\ forallb plain_link l = true.
Proof. induction l as [|x l IH]; intro M; [split; reflexivity|]. cbn [forallb flat_map] in *. apply andb_true_iff in M as [M1 M2]. destruct (linkless_pairs x M1) as [-> ->]. destruct (IH M2) as [-> ->]. split; reflexivity. Qed.
Lemma tracks_inl : forall i cell, plain_link i = true -> tracks (rst_inl cell i) (link_pairs i) (image_pairs i).
Proof.
  assert (F : forall l, Forall (fun i => forall cell, plain_link i = true -> tracks (rst_inl cell i) (link_pairs i) (image_pairs i)) l ->
    forall cell, forallb plain_link l = true -> tracks (rst_all (rst_inl cell) l) (flat_map link_pairs l) (flat_map image_pairs l)).
  { intros l H cell M. apply tracks_all. intros x I. rewrite Forall_forall in H. rewrite forallb_forall in M. apply H; [exact I|apply M; exact I]. }
  induction i as [w|e|tg at0 body IH|h body IH|src title alt|] using xinl_ind'; intros cell M; cbn [link_pairs image_pairs plain_link] in *; try (apply tracks_ret; intro n; eexists; reflexivity).
  - exact (tracks_map _ _ _ (fun t => rst_mark tg ++ t ++ rst_mark tg) _ _ (F body IH cell M)).
  - destruct (linkless_all body M) as [P1 P2]. pose proof (F body IH cell P2) as T. rewrite P1 in T. rewrite <- (app_nil_r (flat_map image_pairs body)).
    apply (tracks_seq _ _ (rst_all (rst_inl cell) body) (fun t n1 => rst_link cell t h n1) [] _ [(flat_map rst_look body, h)] []); [exact T|].
    intros n t n' E. rewrite (looks_same _ _ _ _ _ M E). apply tracks_link.
  - apply tracks_image.
Qed.
Lemma tracks_inls : forall l cell, forallb plain_link l = true -> tracks (rst_inls cell l) (flat_map link_pairs l) (flat_map image_pairs l).
Proof. intros l cell M. apply tracks_all. intros x I. rewrite forallb_forall in M. apply tracks_inl. apply M. exact I. Qed.
Lemma tracks_item : forall i k o, forallb plain_link (item_inls i) = true -> tracks (rst_item k o i) (flat_map link_pairs (item_inls i)) (flat_map image_pairs (item_inls i)).
Proof.
  induction i as [t o' sub IH] using xitem_ind'. intros k o M. cbn [item_inls] in *. rewrite forallb_app in M. apply andb_true_iff in M as [M1 M2]. rewrite !flat_map_app.
  apply (tracks_seq _ _ (rst_inls false t) (fun text n1 => in_seq (rst_all (rst_item (S k) o') sub n1) (fun rest n2 =>
    Some ((flat_map (fun _ => $ "    ") (repeat tt k) ++ (if o then $ "#. " else $ "* ") ++ text) :: rest, n2)))); [apply tracks_inls; exact M1|].
  intros n text n' _. apply tracks_map with (g := fun rest => (flat_map (fun _ => $ "    ") (repeat tt k) ++ (if o then $ "#. " else $ "* ") ++ text) :: rest).
  clear - IH M2. assert (E : forall p : xinl -> list (str * str), flat_map p (flat_map item_inls sub) = flat_map (fun i => flat_map p (item_inls i)) sub).
  { clear. intro p. induction sub as [|x sub IH]; [reflexivity|]. cbn [flat_map]. rewrite flat_map_app, IH. reflexivity. }
  rewrite !E. apply tracks_all. intros x I. rewrite Forall_forall in IH. apply IH; [exact I|]. rewrite forallb_forall in *. intros y Iy. apply M2. apply in_flat_map. exists x. auto.
Qed.
Lemma flat_flat : forall (A B C : Type) (f : A -> list B) (p : B -> list C) l, flat_map p (flat_map f l) = flat_map (fun x => flat_map p (f x)) l.
Proof. intros A B C f p l. induction l as [|x l IH]; [reflexivity|]. cbn [flat_map]. rewrite flat_map_app, IH. reflexivity. Qed.
Lemma tracks_block : forall b, forallb plain_link (block_inls b) = true -> tracks (rst_block b) (flat_map link_pairs (block_inls b)) (flat_map image_pairs (block_inls b)).
Proof.
  intros b M. destruct b as [l|h l| |o items|ws]; cbn [block_inls] in *.
  - apply tracks_inls. exact M.
  - pose proof (tracks_map _ _ _ (fun t : str => (if snd (title_line h) then repeat (fst (title_line h)) (List.length t) ++ [10] else []) ++ t ++ [10] ++ repeat (fst (title_line h)) (List.length t)) _ _ (tracks_inls l false M)) as T.
    intros n L I H AL AI. specialize (T n L I H AL AI). cbn [rst_block]. destruct (title_line h) as [c over]. exact T.
  - apply tracks_ret. intro n. eexists. reflexivity.
  - apply tracks_map with (g := spaced). rewrite !flat_flat. apply tracks_all. intros x I. apply tracks_item. rewrite forallb_forall in *. intros y Iy. apply M. apply in_flat_map. exists x. auto.
  - apply tracks_map with (g := fun cells => x_lines (rst_grid (existsb (existsb fst) ws) (match ws with r :: _ => List.length r | [] => 0%nat end) cells)). rewrite !flat_flat. apply tracks_all. intros r0 I.
    apply (tracks_map _ _ (rst_all rst_cell r0) (fun cells => [cells])). rewrite !flat_flat. apply tracks_all. intros c Ic.
    apply (tracks_map _ _ (rst_inls true (snd c)) (fun t => [match t with [] => [] | _ => $ " " ++ t ++ $ " " end])). apply tracks_inls. rewrite forallb_forall in *. intros y Iy. apply M. apply in_flat_map. exists r0. split; [exact I|]. apply in_flat_map. exists c. auto.
Qed.
Lemma tracks_doc : forall d n L I, forallb plain_link (doc_inls d) = true -> holds n L I -> agree L -> agree I ->
  (rst_chunks d n <> None <-> agree (L ++ flat_map link_pairs (doc_inls d)) /\ agree (I ++ flat_map image_pairs (doc_inls d))).
Proof.
  induction d as [|b d IH]; intros n L I M H AL AI.
  - cbn. rewrite !app_nil_r. split; [auto|discriminate].
  - unfold doc_inls in *. cbn [flat_map rst_chunks] in *. rewrite forallb_app in M. apply andb_true_iff in M as [M1 M2]. rewrite !flat_map_app, !app_assoc. pose proof (tracks_block b M1 n L I H AL AI) as T.
    destruct (rst_block b n) as [[t n1]|].
    + destruct T as (H1 & A1 & A2). specialize (IH (snd (rst_notes n1)) (L ++ flat_map link_pairs (block_inls b)) (I ++ flat_map image_pairs (block_inls b)) M2 H1 A1 A2). rewrite <- IH.
      destruct (rst_notes n1) as [ds n2]. cbn [snd]. destruct (rst_chunks d n2); split; intro X; first [discriminate|congruence].
    + split; [congruence|]. intros [X Y]. destruct T. split; [exact (agree_l _ _ X)|exact (agree_l _ _ Y)].
Qed.
Theorem rest_refused : forall d, forallb plain_link (doc_inls d) = true ->
  ((exists t, rst_doc d = Some t) <-> agree (flat_map link_pairs (doc_inls d)) /\ agree (flat_map image_pairs (doc_inls d))).
Proof.
  intros d M. rewrite <- (tracks_doc d no_notes [] [] M).
  - unfold rst_doc. destruct (rst_chunks d no_notes) as [ts|]; cbn [option_map]; split; intro H; [discriminate|eexists; reflexivity|destruct H as [t H]; discriminate H|congruence].
  - split; intro p; reflexivity.
  - intros t h h' [].
  - intros t h h' [].
Qed.
