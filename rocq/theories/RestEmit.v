(** * What html2rest makes of the clean documents *)
From Coq Require Import String List Arith NArith ZArith Bool Lia.
From Verif Require Import PyStr PyStrFacts Utils Res Entities HtmlTools HtmlToolsFacts HtmlTok HtmlParser MarkupTable TableFacts HtmlBase Html2X EmitFacts.
From Verif Require Import Spec2 TreeFacts Spec10 StripRun Spec11 CleanRun CleanDoc CleanEmit CleanGen MarkdownEmit Spec19.
Import ListNotations.
Open Scope N_scope.

(** ** looking alike: the same ends, and not more lines *)
Definition alike (a b : str) : Prop := hd_error a = hd_error b /\ hd_error (rev a) = hd_error (rev b) /\ (one_line b = true -> one_line a = true).
Lemma alike_refl : forall a, alike a a. Proof. intro a. unfold alike. auto. Qed.
Lemma alike_nil : forall a b, alike a b -> a = [] <-> b = [].
Proof. intros a b (H & _ & _). destruct a, b; cbn in H; split; congruence. Qed.
Lemma alike_app : forall a b c d, alike a b -> alike c d -> alike (a ++ c) (b ++ d).
Proof.
  intros a b c d H1 H2. pose proof (alike_nil _ _ H1) as N1. pose proof (alike_nil _ _ H2) as N2. destruct H1 as (A1 & A2 & A3), H2 as (B1 & B2 & B3). split; [|split].
  - destruct a, b; cbn in *; try congruence.
  - rewrite !rev_app_distr. destruct (rev c) as [|x c'] eqn:E1, (rev d) as [|y d'] eqn:E2; cbn in *; congruence.
  - rewrite !one_line_app, !andb_true_iff. tauto.
Qed.
Lemma alike_solid : forall a b, alike a b -> solid b = true -> solid a = true.
Proof.
  intros a b (H1 & H2 & _) H. unfold solid in *. destruct a as [|x a], b as [|y b]; cbn [hd_error] in H1; try discriminate H1; [discriminate H|]. injection H1 as H1. subst y.
  destruct (rev (x :: a)), (rev (x :: b)); cbn [hd_error] in H2; congruence.
Qed.
Lemma starts_hd : forall c t, startswith [c] t = match hd_error t with Some d => c =? d | None => false end.
Proof. intros c [|d t]; [reflexivity|]. cbn. apply andb_true_r. Qed.
Lemma ends_hd : forall c t, endswith [c] t = match hd_error (rev t) with Some d => c =? d | None => false end.
Proof. intros c t. unfold endswith. cbn [rev app]. apply starts_hd. Qed.
Lemma alike_word : forall a b, alike a b -> rst_word b = true -> rst_word a = true.
Proof.
  intros a b A W. unfold rst_word in *. rewrite !andb_true_iff in *. destruct W as [[[W1 W2] W3] W4]. rewrite (alike_solid a b A W1). destruct A as (A1 & A2 & A3). rewrite starts_hd, ends_hd, A1, A2, <- starts_hd, <- ends_hd, (A3 W2). auto.
Qed.

Lemma alike_link : forall c d x y, (one_line y = true -> one_line x = true) -> alike (c :: x ++ [d]) (c :: y ++ [d]).
Proof.
  intros c d x y H. split; [reflexivity|]. split; [cbn [rev]; rewrite !rev_app_distr; reflexivity|]. change (c :: x ++ [d]) with ([c] ++ x ++ [d]). change (c :: y ++ [d]) with ([c] ++ y ++ [d]).
  rewrite !one_line_app, !andb_true_iff. tauto.
Qed.
(** ** the notes *)
Definition vs (p : str * str) : str * pyval := (fst p, VStr (snd p)).
Definition rok (s : est) (n : notes) : Prop := used_links s = map vs (no_links n) /\ used_images s = map vs (no_images n) /\ subst_data s = no_defs n /\ inner_list s = [].
Lemma seen_get : forall t l, dict_get t (map vs l) = option_map VStr (seen t l).
Proof. intros t l. unfold seen. induction l as [|[a b] l IH]; [reflexivity|]. cbn [map vs dict_get fst snd List.find]. destruct (str_eqb t a); [reflexivity|exact IH]. Qed.
Lemma seen_set : forall t h l, seen t l = None -> dict_set t (VStr h) (map vs l) = map vs (l ++ [(t, h)]).
Proof.
  intros t h l. unfold seen. induction l as [|[a b] l IH]; intro H; [reflexivity|]. cbn [map vs dict_set fst snd List.find app] in *. destruct (str_eqb t a); [discriminate H|]. rewrite IH by exact H. reflexivity.
Qed.
Lemma get_old_seen : forall l t h, get_old (map vs l) t (VStr h) =
  match seen t l with Some h' => if str_eqb h' h then Ok (Some (VStr h'), map vs l) else Exc ESubstitution | None => Ok (None, map vs (l ++ [(t, h)])) end.
Proof.
  intros l t h. unfold get_old. rewrite seen_get. destruct (seen t l) as [h'|] eqn:E; cbn [option_map]; [cbn [pyval_eqb]; reflexivity|]. rewrite (seen_set t h l E). reflexivity.
Qed.
Lemma rok_last : forall l s n, rok s n -> rok (set_last l s) n. Proof. intros l s n H. exact H. Qed.
Definition frame (a b : est) : Prop := tbl b = tbl a /\ list_markup b = list_markup a.
Lemma frame_refl : forall a, frame a a. Proof. intro a. split; reflexivity. Qed.
Lemma frame_trans : forall a b c, frame a b -> frame b c -> frame a c. Proof. intros a b c [A1 A2] [B1 B2]. split; congruence. Qed.
Lemma frame_last : forall l a b, frame a b -> frame a (set_last l b). Proof. intros l a b H. exact H. Qed.
Lemma frame_last' : forall l a b, frame (set_last l a) b -> frame a b. Proof. intros l a b H. exact H. Qed.

(** the body of an inline element *)
Definition insides (cell : bool) : list xinl -> notes -> option (str * notes) := rst_inls cell.
Lemma rst_face_eq : forall cell t a body n, rst_inl cell (XFace t a body) n = in_seq (rst_inls cell body n) (fun text n1 => Some (rst_mark t ++ text ++ rst_mark t, n1)).
Proof. reflexivity. Qed.
Lemma rst_link_eq : forall cell h body n, rst_inl cell (XLink h body) n = in_seq (rst_inls cell body n) (fun text n1 => rst_link cell text h n1).
Proof. reflexivity. Qed.
Lemma rst_item_eq : forall depth ordered t o sub n, rst_item depth ordered (XI t o sub) n =
  in_seq (rst_inls false t n) (fun text n1 => in_seq (rst_all (rst_item (S depth) o) sub n1) (fun rest n2 =>
    Some ((flat_map (fun _ => $ "    ") (repeat tt depth) ++ (if ordered then $ "#. " else $ "* ") ++ text) :: rest, n2))).
Proof. reflexivity. Qed.
Lemma inl_alike : forall i cell n t n', rst_inl cell i n = Some (t, n') -> alike t (rst_look i).
Proof.
  assert (F : forall l, Forall (fun i => forall cell n t n', rst_inl cell i n = Some (t, n') -> alike t (rst_look i)) l ->
    forall cell n t n', rst_inls cell l n = Some (t, n') -> alike t (flat_map rst_look l)).
  { induction 1 as [|x l Hx Hl IH]; intros cell n t n' E.
    - injection E as <- <-. apply alike_refl.
    - unfold rst_inls in *. cbn [rst_all] in E. destruct (rst_inl cell x n) as [[a n1]|] eqn:E1; [|discriminate E]. cbn [in_seq] in E. destruct (rst_all (rst_inl cell) l n1) as [[b n2]|] eqn:E2; [|discriminate E].
      cbn [in_seq] in E. injection E as <- <-. cbn [flat_map]. apply alike_app; [exact (Hx _ _ _ _ E1)|exact (IH _ _ _ _ E2)]. }
  induction i as [w|e|tg at0 body IH|h body IH|src title alt|] using xinl_ind'; intros cell n t n' E.
  - injection E as <- <-. apply alike_refl.
  - injection E as <- <-. apply alike_refl.
  - rewrite rst_face_eq in E. destruct (rst_inls cell body n) as [[a n1]|] eqn:E1; [|discriminate E]. cbn [in_seq] in E. injection E as <- <-. cbn [rst_look].
    apply alike_app; [apply alike_refl|]. apply alike_app; [exact (F body IH _ _ _ _ E1)|apply alike_refl].
  - rewrite rst_link_eq in E. destruct (rst_inls cell body n) as [[a n1]|] eqn:E1; [|discriminate E]. cbn [in_seq] in E. apply (F body IH) in E1. cbn [rst_look].
    assert (K : alike ($ "`" ++ a ++ $ "`_") ($ "`" ++ flat_map rst_look body ++ $ " <" ++ h ++ $ ">`_") /\ alike ($ "`" ++ a ++ $ " <" ++ h ++ $ ">`_") ($ "`" ++ flat_map rst_look body ++ $ " <" ++ h ++ $ ">`_")).
    { split; [|apply alike_app; [apply alike_refl|]; apply alike_app; [exact E1|apply alike_refl]]. destruct E1 as (_ & _ & E1).
      replace ($ "`" ++ a ++ $ "`_") with (96 :: (a ++ $ "`") ++ [95]) by (cbn [L app]; rewrite <- app_assoc; reflexivity).
      replace ($ "`" ++ flat_map rst_look body ++ $ " <" ++ h ++ $ ">`_") with (96 :: (flat_map rst_look body ++ $ " <" ++ h ++ $ ">`") ++ [95]) by (cbn [L app]; rewrite <- !app_assoc; cbn [app]; rewrite <- !app_assoc; reflexivity).
      apply alike_link. rewrite !one_line_app, !andb_true_iff. intros (H & _). split; [exact (E1 H)|reflexivity]. }
    unfold rst_link in E. destruct (seen a (no_links n1)) as [h'|]; [destruct (str_eqb h' h); [|discriminate E]; injection E as <- <-; apply K|]. destruct cell; injection E as <- <-; apply K.
  - unfold rst_inl, rst_image in E. cbn [rst_look]. destruct (seen _ (no_images n)) as [s'|]; [destruct (str_eqb s' src); [|discriminate E]|]; injection E as <- <-; apply alike_refl.
  - injection E as <- <-. apply alike_refl.
Qed.

Lemma inls_alike : forall l cell n t n', rst_inls cell l n = Some (t, n') -> alike t (flat_map rst_look l).
Proof.
  induction l as [|x l IH]; intros cell n t n' E.
  - injection E as <- <-. apply alike_refl.
  - unfold rst_inls in *. cbn [rst_all] in E. destruct (rst_inl cell x n) as [[a n1]|] eqn:E1; [|discriminate E]. cbn [in_seq] in E. destruct (rst_all (rst_inl cell) l n1) as [[b n2]|] eqn:E2; [|discriminate E].
    cbn [in_seq] in E. injection E as <- <-. cbn [flat_map]. apply alike_app; [exact (inl_alike _ _ _ _ _ E1)|exact (IH _ _ _ _ E2)].
Qed.

Section Emission.
Variable u : unknown.
Notation EL := (emit_list rest_methods u rest_pre).
Notation EN := (emit_node rest_methods u rest_pre).
Definition deep (anc : list str) : Prop := match anc with _ :: _ :: _ => True | _ => False end.
Definition in_cell (anc : list str) : bool := existsb (in_list [$ "th"; $ "td"]) anc.
Lemma pre_deep : forall anc s, deep anc -> rest_pre anc s = ([], s).
Proof. intros [|a [|b anc]] s H; try contradiction. unfold rest_pre. destruct (subst_data s); reflexivity. Qed.
Lemma el_app : forall anc a b s, EL anc (a ++ b) s = do (r, s1) <- EL anc a s; do (r', s2) <- EL anc b s1; Ok (r ++ r', s2).
Proof.
  intros anc a b. induction a as [|x a IH]; intro s.
  - cbn [app emit_list bind]. destruct (EL anc b s) as [[r s1]|e]; reflexivity.
  - cbn [app emit_list]. destruct (EN anc x s) as [[r s1]|e]; [|reflexivity]. cbn [bind]. rewrite IH.
    destruct (EL anc a s1) as [[r2 s2]|e]; [|reflexivity]. cbn [bind]. destruct (EL anc b s2) as [[r3 s3]|e]; [|reflexivity]. cbn [bind]. rewrite <- app_assoc. reflexivity.
Qed.
Lemma el_one : forall anc x s, EL anc [x] s = do (r, s1) <- EN anc x s; Ok (r, s1).
Proof. intros. cbn [emit_list]. destruct (EN anc x s) as [[r s1]|e]; [|reflexivity]. cbn [bind]. rewrite app_nil_r. reflexivity. Qed.
Definition node_run (k : str) (f : meth) (a : pydict) (l : option Z) (c : option str) (ch : list hnode) (anc : list str) (s : est) : res (str * est) :=
  do (r, s2) <- f (mkn k c a l anc) (kids_of rest_methods u rest_pre anc k c ch) s; Ok (r, set_last (k, c) s2).
Lemma en_run : forall k f a l c ch anc s, find_meth rest_methods k = Some f -> EN anc (HN k c a l ch) s =
  do (r, s2) <- node_run k f a l c ch anc (snd (rest_pre anc s)); Ok (fst (rest_pre anc s) ++ r, s2).
Proof.
  intros k f a l c ch anc s H. rewrite emit_node_eq. destruct (rest_pre anc s) as [p s1]. unfold run_meth, node_run. cbn [n_kind fst snd]. rewrite H. destruct (f _ _ s1) as [[r s2]|e]; reflexivity.
Qed.
Lemma el_deep : forall k f a l c ch anc s, find_meth rest_methods k = Some f -> deep anc -> EL anc [HN k c a l ch] s = node_run k f a l c ch anc s.
Proof.
  intros k f a l c ch anc s M D. rewrite el_one, (en_run k f) by exact M. rewrite (pre_deep anc s D). cbn [fst snd]. destruct (node_run k f a l c ch anc s) as [[r s1]|e]; reflexivity.
Qed.

(** ** inline *)
Definition told (x : option (str * notes)) (r : res (str * est)) (s : est) : Prop :=
  match x with Some (b, n') => exists s', r = Ok (b, s') /\ rok s' n' /\ frame s s' | None => r = Exc ESubstitution end.
Definition tells (h : list hnode) (f : bool -> notes -> option (str * notes)) : Prop :=
  forall anc s n, deep anc -> rok s n -> told (f (in_cell anc) n) (EL anc h s) s.
Lemma tells_app : forall a b f g, tells a f -> tells b g -> tells (a ++ b) (fun c n => in_seq (f c n) (fun x n1 => in_seq (g c n1) (fun y n2 => Some (x ++ y, n2)))).
Proof.
  intros a b f g Ha Hb anc s n D R. rewrite el_app. specialize (Ha anc s n D R). destruct (f (in_cell anc) n) as [[x n1]|]; cbn [in_seq told] in *; [|rewrite Ha; reflexivity].
  destruct Ha as (s1 & E1 & R1 & F1). rewrite E1. cbn [bind]. specialize (Hb anc s1 n1 D R1). destruct (g (in_cell anc) n1) as [[y n2]|]; cbn [in_seq told] in *; [|rewrite Hb; reflexivity].
  destruct Hb as (s2 & E2 & R2 & F2). rewrite E2. cbn [bind]. exists s2. split; [reflexivity|]. split; [exact R2|exact (frame_trans _ _ _ F1 F2)].
Qed.
Lemma tells_leaf : forall k f c a l g, find_meth rest_methods k = Some f -> (forall anc kids s n, rok s n -> told (g (in_cell anc) n) (f (mkn k c a l anc) kids s) s) -> tells [HN k c a l []] g.
Proof.
  intros k f c a l g M F anc s n D R. rewrite (el_deep k f) by assumption. unfold node_run. specialize (F anc (kids_of rest_methods u rest_pre anc k c []) s n R).
  destruct (g (in_cell anc) n) as [[b n']|]; cbn [told] in *; [|rewrite F; reflexivity]. destruct F as (s1 & E & R1 & F1). rewrite E. cbn [bind]. exists (set_last (k, c) s1). split; [reflexivity|]. split; assumption.
Qed.
Lemma in_cell_cons : forall t anc, in_list [$ "th"; $ "td"] t = false -> in_cell (t :: anc) = in_cell anc.
Proof. intros t anc H. unfold in_cell. cbn [existsb]. rewrite H. reflexivity. Qed.
(** an element whose method makes [h] of its text *)
Lemma tells_body : forall t f a ch g h, find_meth rest_methods t = Some f -> in_list [$ "th"; $ "td"] t = false ->
  (forall kids anc s, f (mkn t None a None anc) kids s = do (r, s1) <- kids s; h anc r s1) ->
  tells ch g -> forall k : bool -> str -> notes -> option (str * notes),
  (forall anc r s n, (exists c n0, g c n0 = Some (r, n)) -> rok s n -> told (k (in_cell anc) r n) (h anc r s) s) ->
  tells [HN t None a None ch] (fun c n => in_seq (g c n) (k c)).
Proof.
  intros t f a ch g h M T F B k H anc s n D R. rewrite (el_deep t f) by assumption. unfold node_run. rewrite F. unfold kids_of.
  assert (D' : deep (t :: anc)) by (destruct anc as [|x [|y anc]]; [contradiction|exact I|exact I]).
  specialize (B (t :: anc) (set_last (t, None) s) n D' R). rewrite (in_cell_cons t anc T) in B. destruct (g (in_cell anc) n) as [[b n1]|] eqn:G; cbn [in_seq told] in *.
  - destruct B as (s1 & E & R1 & F1). match goal with |- context [emit_list ?x ?y ?z ?w ch ?v] => replace (emit_list x y z w ch v) with (Ok (b, s1)) by (symmetry; exact E) end. cbn [bind].
    specialize (H anc b s1 n1 (ex_intro _ _ (ex_intro _ _ G)) R1). destruct (k (in_cell anc) b n1) as [[r n2]|]; cbn [told] in *; [|rewrite H; reflexivity].
    destruct H as (s2 & E2 & R2 & F2). rewrite E2. cbn [bind]. exists (set_last (t, None) s2). split; [reflexivity|]. split; [exact R2|exact (frame_trans _ _ _ F1 F2)].
  - match goal with |- context [emit_list ?x ?y ?z ?w ch ?v] => replace (emit_list x y z w ch v) with (@Exc (str * est) ESubstitution) by (symmetry; exact B) end. reflexivity.
Qed.
Lemma rst_face_tag : forall t, existsb (str_eqb t) (map fst rst_faces) = true -> str_eqb t ($ "code") = false ->
  exists f, find_meth rest_methods t = Some f /\ in_list [$ "th"; $ "td"] t = false /\ forall a kids anc s, f (mkn t None a None anc) kids s = do (r, s1) <- kids s; Ok (rst_mark t ++ r ++ rst_mark t, s1).
Proof.
  intros t H NC. apply existsb_exists in H as (k & I & E). apply str_eqb_eq in E. subst k. cbn [rst_faces map fst In] in I.
  repeat (destruct I as [I|I]; [subst t; first [discriminate NC|eexists; split; [reflexivity|split; [reflexivity|intros a kids anc s; first [reflexivity|unfold r_small; destruct (kids s) as [[r s1]|e]; [|reflexivity]; cbn [bind]; change (rst_mark ($ "small")) with (@nil N); rewrite app_nil_r; reflexivity]]]]|]). destruct I.
Qed.
Lemma ref_tells : forall e ll, ref_ok e = true -> tells (dom_tree [] ll (x2d (XRef e))) (fun _ n => Some (match meant e with Ok s => s | Exc _ => [] end, n)).
Proof.
  intros e ll H. destruct (ref_leaf e ll H) as (k & f & c & E & K & F). rewrite E. apply (tells_leaf _ f); [destruct K as [[-> ->]|[-> ->]]; reflexivity|].
  intros anc kids s n R. rewrite F. exists s. split; [reflexivity|]. split; [exact R|apply frame_refl].
Qed.

Notation OT := (only_tags (map fst rst_faces)).
Lemma word_parts : forall t, rst_word t = true -> solid t = true /\ one_line t = true /\ startswith [92] t = false /\ endswith [92] t = false.
Proof. intros t H. unfold rst_word in H. rewrite !andb_true_iff, !negb_true_iff in H. tauto. Qed.
Lemma word_escape : forall t, rst_word t = true -> escape_linebreaks t = t.
Proof.
  intros t H. apply word_parts in H as (H1 & H2 & H3 & H4). rewrite escaped; [apply one_row_id; exact H2| |exact H3|exact H4]. rewrite (one_line_split t H2). cbn [forallb]. rewrite H1. reflexivity.
Qed.
Lemma told_ok : forall b n s s', rok s' n -> frame s s' -> told (Some (b, n)) (Ok (b, s')) s.
Proof. intros b n s s' R F. exists s'. auto. Qed.
Lemma attr_some : forall h h' : str, solid h = true -> str_eqb h' h = true -> attr_true (Some (VStr h')) = true.
Proof. intros h h' H E. apply str_eqb_eq in E. subst h'. destruct h; [discriminate H|reflexivity]. Qed.
Definition link_step (h : str) (anc : list str) (text : str) (s : est) : res (str * est) :=
    (do (old, links) <- get_old (used_links s) text (VStr h);
     let s2 := set_links links s in
     let ref := $ "`" ++ text ++ $ "`_" in
     if in_cell anc then
       Ok (ref, if attr_true old then s2 else set_subst (subst_data s2 ++ [$ ".. _" ++ text ++ $ ": " ++ show_attr (VStr h)]) s2)
     else if attr_true old then Ok (ref, s2)
     else Ok ($ "`" ++ text ++ $ " <" ++ show_attr (VStr h) ++ $ ">`_", s2)).
Lemma link_told : forall h anc text s n, solid h = true -> rok s n -> told (rst_link (in_cell anc) text h n) (link_step h anc text s) s.
Proof.
  intros h anc text s n H (R1 & R2 & R3 & R4). unfold link_step, rst_link. rewrite R1, get_old_seen. destruct (seen text (no_links n)) as [h'|] eqn:E.
  - destruct (str_eqb h' h) eqn:E2; [|reflexivity]. cbn [bind]. cbv zeta. rewrite (attr_some h h' H E2). destruct (in_cell anc); apply told_ok; try apply frame_refl; repeat split; assumption.
  - cbn [bind]. cbv zeta. cbn [attr_true]. destruct (in_cell anc); apply told_ok; try apply frame_refl; repeat split; try assumption. cbn. rewrite R3. reflexivity.
Qed.
Lemma img_told : forall src text s n, solid src = true -> rok s n ->
  told (rst_image text src n)
    (do (old, images) <- get_old (used_images s) text (VStr src);
     let s2 := set_images images s in
     Ok ($ "|" ++ text ++ $ "|", if attr_true old then s2 else set_subst (subst_data s2 ++ [$ ".. |" ++ text ++ $ "| image:: " ++ src]) s2)) s.
Proof.
  intros h text s n H (R1 & R2 & R3 & R4). unfold rst_image. rewrite R2, get_old_seen. destruct (seen text (no_images n)) as [h'|] eqn:E.
  - destruct (str_eqb h' h) eqn:E2; [|reflexivity]. cbn [bind]. cbv zeta. rewrite (attr_some h h' H E2). apply told_ok; try apply frame_refl; repeat split; assumption.
  - cbn [bind]. cbv zeta. cbn [attr_true]. apply told_ok; try apply frame_refl; repeat split; try assumption. cbn. rewrite R3. reflexivity.
Qed.
Lemma inl_tells : forall i sd r ll, clean_inl sd i r = true -> OT i = true -> rst_fine i = true -> tells (dom_tree [] ll (x2d i)) (fun c => rst_inl c i).
Proof.
  assert (F : forall l, Forall (fun i => forall sd r ll, clean_inl sd i r = true -> OT i = true -> rst_fine i = true -> tells (dom_tree [] ll (x2d i)) (fun c => rst_inl c i)) l ->
     forall sd ll, clean_inls sd l = true -> forallb OT l = true -> forallb rst_fine l = true -> tells (flat_map (dom_tree [] ll) (map x2d l)) (fun c => rst_inls c l)).
  { induction 1 as [|x l Hx Hl IH]; intros sd ll C O M.
    - intros anc s n D R. apply told_ok; [exact R|apply frame_refl].
    - cbn [forallb] in O, M. apply andb_true_iff in O as [O1 O2]. apply andb_true_iff in M as [M1 M2]. cbn [clean_inls] in C. apply andb_true_iff in C as [C1 C2].
      cbn [map flat_map]. apply (tells_app _ _ (fun c => rst_inl c x) (fun c => rst_inls c l)); [eapply Hx; eassumption|eapply IH; eassumption]. }
  induction i as [w|e|t a body IH|h body IH|src title alt|] using xinl_ind'; intros sd r ll C O M.
  - cbn [x2d dom_tree]. apply (tells_leaf _ data_emit); [reflexivity|]. intros anc kids s n R. apply told_ok; [exact R|apply frame_refl].
  - apply ref_tells. exact C.
  - rewrite clean_face in C. apply andb_true_iff in C as [C1 C2]. apply andb_true_iff in C1 as [C1 CA]. destruct (face_kind t C1) as (K1 & K2 & K3 & K4). cbn [x2d dom_tree]. rewrite K1, K2, K3, K4.
    cbn [only_tags] in O. apply andb_true_iff in O as [O1 O2]. cbn [rst_fine] in M. apply andb_true_iff in M as [M1 M2]. pose proof (F body IH Inner ll C2 O2 M1) as B.
    destruct (str_eqb t ($ "code")) eqn:TC.
    + apply str_eqb_eq in TC. subst t. cbn [negb orb] in M2.
      apply (tells_body ($ "code") r_code (attr_dict a) _ (fun c => rst_inls c body) (fun _ text s1 => Ok ($ "``" ++ escape_linebreaks text ++ $ "``", s1))) with (k := fun _ text n1 => Some (rst_mark ($ "code") ++ text ++ rst_mark ($ "code"), n1)); [reflexivity|reflexivity| |exact B|].
      * intros kids anc s. unfold r_code, content_emit. destruct (kids s) as [[x s1]|e]; reflexivity.
      * intros anc x s n (c & n0 & E) R. apply inls_alike in E. rewrite (word_escape x (alike_word _ _ E M2)). apply told_ok; [exact R|apply frame_refl].
    + destruct (rst_face_tag t O1 TC) as (f & E1 & E2 & E3).
      apply (tells_body t f (attr_dict a) _ (fun c => rst_inls c body) (fun _ text s1 => Ok (rst_mark t ++ text ++ rst_mark t, s1))) with (k := fun _ text n1 => Some (rst_mark t ++ text ++ rst_mark t, n1)); [exact E1|exact E2|exact (E3 (attr_dict a))|exact B|].
      intros anc x s n _ R. apply told_ok; [exact R|apply frame_refl].
  - rewrite clean_link in C. apply andb_true_iff in C as [C1 C2]. cbn [x2d dom_tree]. cbn [rst_fine] in M. apply andb_true_iff in M as [M1 M2].
    apply (tells_body ($ "a") r_a _ _ (fun c => rst_inls c body) (link_step h)) with (k := fun c text n1 => rst_link c text h n1); [reflexivity|reflexivity| |eapply F; [exact IH|exact C2|exact O|exact M2]|].
    + intros kids anc s. unfold r_a. destruct (kids s) as [[x s1]|e]; [|reflexivity]. cbn [bind]. unfold attr. cbn [n_attrs]. match goal with |- context [dict_get ($ "href") ?x] => change (dict_get ($ "href") x) with (Some (VStr h)) end. cbn [bind]. unfold should_substitute. reflexivity.
    + intros anc x s n _ R. apply link_told; assumption.
  - cbn [x2d dom_tree rst_inl]. apply (tells_leaf _ r_img); [reflexivity|]. intros anc kids s n R. unfold r_img, img_parts, img_attrs.
    match goal with |- context [attr_dict ?x] => change (attr_dict x) with x end. unfold attr. cbn [n_attrs].
    match goal with |- context [dict_get ($ "src") ?x] => change (dict_get ($ "src") x) with (Some (VStr src)) end. cbn [bind].
    cbn [clean_inl] in C. apply andb_true_iff in C as [_ C]. apply negb_true_iff in C. rewrite C. unfold attr_len. cbn [n_attrs].
    match goal with |- context [dict_get ($ "alt") ?x] => change (dict_get ($ "alt") x) with (Some (VStr alt)) end.
    match goal with |- context [dict_get ($ "title") ?x] => change (dict_get ($ "title") x) with (Some (VStr title)) end. cbn [bind].
    match goal with |- context [get_old _ ?t _] => replace t with (image_title src title alt) end; [apply img_told; assumption|].
    unfold image_title. destruct (if (List.length title <? List.length alt)%nat then alt else title); reflexivity.
  - cbn [x2d dom_tree]. apply (tells_leaf _ br_emit); [reflexivity|]. intros anc kids s n R. unfold br_emit. destruct R as (R1 & R2 & R3 & R4). rewrite R4. apply told_ok; [repeat split; assumption|apply frame_refl].
Qed.
Lemma rst_clean_parts : forall l, rst_clean l = true -> clean_inls Edge l = true /\ forallb OT l = true /\ forallb rst_fine l = true.
Proof. intros l H. unfold rst_clean in H. rewrite !andb_true_iff in H. tauto. Qed.
Lemma inls_tells : forall l ll, rst_clean l = true -> tells (flat_map (dom_tree [] ll) (map x2d l)) (fun c => rst_inls c l).
Proof.
  intros l ll C. apply rst_clean_parts in C as (C & O & M). revert C O M. generalize Edge. induction l as [|x l IH]; intros sd C O M.
  - intros anc s n D R. apply told_ok; [exact R|apply frame_refl].
  - cbn [forallb] in O, M. apply andb_true_iff in O as [O1 O2]. apply andb_true_iff in M as [M1 M2]. cbn [clean_inls] in C. apply andb_true_iff in C as [C1 C2].
    cbn [map flat_map]. apply (tells_app _ _ (fun c => rst_inl c x) (fun c => rst_inls c l)); [eapply inl_tells; eassumption|eapply IH; eassumption].
Qed.

(** ** lists *)
Definition nel (s : str) : list str := filter truthy (split_on 10 s).
Lemma split_break : forall x y : str, split_on 10 (x ++ 10 :: y) = split_on 10 x ++ split_on 10 y.
Proof.
  induction x as [|c x IH]; intro y; cbn [app split_on].
  - change (10 =? 10) with true. cbv iota. reflexivity.
  - destruct (c =? 10); [rewrite IH; reflexivity|]. rewrite IH. pose proof (split_on_nonempty 10 x). destruct (split_on 10 x); [congruence|]. reflexivity.
Qed.
Lemma nel_break : forall x y : str, nel (x ++ 10 :: y) = nel x ++ nel y.
Proof. intros x y. unfold nel. rewrite split_break, filter_app. reflexivity. Qed.
Lemma nel_nl : forall y : str, nel (10 :: y) = nel y.
Proof. intro y. exact (nel_break [] y). Qed.
Lemma nel_end : forall x : str, nel (x ++ [10]) = nel x.
Proof. intro x. rewrite nel_break. apply app_nil_r. Qed.
Lemma nel_ends : forall (b x : str), forallb (in_str [10]) b = true -> nel (x ++ b) = nel x.
Proof.
  induction b as [|c b IH] using rev_ind; intros x H; [rewrite app_nil_r; reflexivity|]. rewrite forallb_app in H. apply andb_true_iff in H as [H1 H2]. cbn [forallb in_str existsb] in H2. rewrite orb_false_r, andb_true_r in H2. apply N.eqb_eq in H2. subst c.
  rewrite app_assoc, nel_end. apply IH. exact H1.
Qed.
Lemma nel_line : forall l : str, one_line l = true -> l <> [] -> nel l = [l].
Proof. intros l H NE. unfold nel. rewrite (one_line_split l H). cbn [filter]. destruct l; [congruence|reflexivity]. Qed.
Definition blk (c : str) (ls : list str) : Prop := c = [] /\ ls = [] \/ exists m, c = 10 :: m ++ [10] /\ nel c = ls /\ ls <> [].
Lemma blk_nel : forall c ls, blk c ls -> nel c = ls.
Proof. intros c ls [[-> ->]|(m & _ & E & _)]; [reflexivity|exact E]. Qed.
Lemma blk_app : forall a b x y, blk a x -> blk b y -> blk (a ++ b) (x ++ y).
Proof.
  intros a b x y [[-> ->]|(m & -> & E & NE)] B; [exact B|]. destruct B as [[-> ->]|(m' & -> & E' & NE')]; [rewrite !app_nil_r; right; exists m; auto|].
  right. exists (m ++ [10; 10] ++ m'). split; [cbn [app]; rewrite <- !app_assoc; reflexivity|]. split; [|destruct x; [congruence|discriminate]].
  replace ((10 :: m ++ [10]) ++ 10 :: m' ++ [10]) with ((10 :: m) ++ 10 :: (10 :: m' ++ [10])) by (cbn [app]; rewrite <- !app_assoc; reflexivity). rewrite nel_break, E'. f_equal.
  rewrite <- E. change (10 :: m ++ [10]) with ((10 :: m) ++ [10]). rewrite nel_end. reflexivity.
Qed.
Lemma strip_item : forall t c ls, solid t = true -> one_line t = true -> blk c ls ->
  exists y, strip_chars [10] (t ++ c) = t ++ y /\ (y = [] \/ exists y', y = 10 :: y') /\ nel y = ls.
Proof.
  intros t c ls SO OL B. unfold strip_chars, strip_by, lstrip_by. apply solid_ends in SO as (a & r & d & r' & E1 & S1 & E2 & S2).
  assert (Na : in_str [10] a = false). { unfold in_str. cbn [existsb]. rewrite orb_false_r. apply N.eqb_neq. intros ->. discriminate S1. }
  assert (Nd : in_str [10] d = false). { unfold in_str. cbn [existsb]. rewrite orb_false_r. apply N.eqb_neq. intros ->. discriminate S2. }
  assert (DW : drop_while (in_str [10]) (t ++ c) = t ++ c) by (rewrite E1; cbn [app]; apply drop_while_none; exact Na). rewrite DW.
  destruct B as [[-> ->]|(m & -> & E & NE)].
  - exists []. rewrite app_nil_r. split; [|auto]. rewrite E2. apply rstrip_keep. exact Nd.
  - set (c := 10 :: m ++ [10]) in *. destruct (rstrip_split (in_str [10]) c) as (tl & EC & TL).
    assert (NEr : rstrip_by (in_str [10]) c <> []). { intro Z. rewrite Z in EC. cbn [app] in EC. rewrite EC in E. apply NE. rewrite <- E. exact (nel_ends tl [] TL). }
    destruct (exists_last NEr) as (q & z & EZ).
    assert (Nz : in_str [10] z = false) by (apply (rstrip_last (in_str [10]) c z (rev q)); rewrite EZ, rev_app_distr; reflexivity).
    exists (rstrip_by (in_str [10]) c). split; [|split].
    + rewrite EC at 1. rewrite app_assoc, rstrip_app_all by exact TL. rewrite EZ, app_assoc. apply rstrip_keep. exact Nz.
    + right. destruct (rstrip_by (in_str [10]) c) as [|x y']; [congruence|]. exists y'. unfold c in EC. cbn [app] in EC. injection EC as <- _. reflexivity.
    + rewrite <- E. rewrite EC at 2. rewrite nel_ends by exact TL. reflexivity.
Qed.
Lemma li_blk : forall p t c ls, one_line p = true -> solid t = true -> one_line t = true -> blk c ls -> blk (10 :: (p ++ strip_chars [10] (t ++ c)) ++ [10]) ((p ++ t) :: ls).
Proof.
  intros p t c ls OP SO OT B. destruct (strip_item t c ls SO OT B) as (y & E & Y & NY). rewrite E. right. exists (p ++ t ++ y). split; [reflexivity|]. split; [|discriminate].
  change (10 :: (p ++ t ++ y) ++ [10]) with ((10 :: p ++ t ++ y) ++ [10]). rewrite nel_end, nel_nl.
  assert (NE : p ++ t <> []) by (destruct p; [destruct t; discriminate|discriminate]). assert (OPT : one_line (p ++ t) = true) by (rewrite one_line_app, OP, OT; reflexivity).
  rewrite app_assoc. destruct Y as [->|(y' & ->)].
  - cbn in NY. subst ls. rewrite app_nil_r. apply nel_line; assumption.
  - rewrite nel_break, (nel_line _ OPT NE). rewrite nel_nl in NY. rewrite NY. reflexivity.
Qed.
Definition bullet (o : bool) : str := if o then $ "#." else $ "*".
Definition indent (k : nat) : str := flat_map (fun _ : unit => $ "    ") (repeat tt k).
Lemma times_indent : forall k, times ($ "    ") (Z.of_nat (S k) - 1) = indent k.
Proof.
  intro k. unfold times. replace (Z.to_nat (Z.of_nat (S k) - 1)) with k by lia. unfold indent. induction k as [|k IH]; [reflexivity|]. cbn [repeat_str repeat flat_map]. rewrite IH. reflexivity.
Qed.
Lemma indent_line : forall k, one_line (indent k) = true.
Proof. intro k. unfold indent. induction k as [|k IH]; [reflexivity|]. cbn [repeat flat_map]. rewrite one_line_app, IH. reflexivity. Qed.
Lemma list_meth : forall o, find_meth rest_methods (xlist_tag o) = Some (r_list (bullet o)). Proof. intros []; reflexivity. Qed.
Definition lines_told (x : option (list str * notes)) (r : res (str * est)) (s : est) : Prop :=
  match x with Some (ls, n') => exists c s', r = Ok (c, s') /\ blk c ls /\ rok s' n' /\ frame s s' | None => r = Exc ESubstitution end.
Definition item_spec (i : xitem) : Prop := forall o k anc s n, rst_item_ok o i = true -> deep anc -> in_cell anc = false -> rok s n -> list_markup s = bullet o ->
  lines_told (rst_item k o i n) (EL anc (dom_tree [] (Z.of_nat (S k)) (i2d i)) s) s.
Lemma items_of : forall l, Forall item_spec l -> forall o k anc s n, forallb (rst_item_ok o) l = true -> deep anc -> in_cell anc = false -> rok s n -> list_markup s = bullet o ->
  lines_told (rst_all (rst_item k o) l n) (EL anc (flat_map (dom_tree [] (Z.of_nat (S k))) (map i2d l)) s) s.
Proof.
  induction 1 as [|x l Hx Hl IH]; intros o k anc s n C D IC R LM.
  - exists [], s. split; [reflexivity|]. split; [left; auto|]. split; [exact R|apply frame_refl].
  - cbn [forallb] in C. apply andb_true_iff in C as [C1 C2]. cbn [map flat_map rst_all]. rewrite el_app. specialize (Hx o k anc s n C1 D IC R LM).
    destruct (rst_item k o x n) as [[a n1]|]; cbn [in_seq lines_told] in *; [|rewrite Hx; reflexivity]. destruct Hx as (c1 & s1 & E1 & B1 & R1 & F1). rewrite E1. cbn [bind].
    specialize (IH o k anc s1 n1 C2 D IC R1). destruct F1 as [F1 F1']. rewrite F1' in IH. specialize (IH LM).
    match type of IH with lines_told ?x _ _ => match goal with |- context [in_seq ?y _] => change y with x end end.
    destruct (rst_all (rst_item k o) l n1) as [[b n2]|]; cbn [in_seq lines_told] in *; [|rewrite IH; reflexivity]. destruct IH as (c2 & s2 & E2 & B2 & R2 & F2). rewrite E2. cbn [bind].
    exists (c1 ++ c2), s2. split; [reflexivity|]. split; [apply blk_app; assumption|]. split; [exact R2|]. apply (frame_trans s s1 s2); [split; assumption|exact F2].
Qed.
Lemma rst_line_parts : forall l, rst_line_ok l = true -> rst_clean l = true /\ solid (flat_map rst_look l) = true /\ one_line (flat_map rst_look l) = true.
Proof. intros l H. unfold rst_line_ok, rst_text_ok in H. rewrite !andb_true_iff in H. tauto. Qed.
Lemma deep_cons : forall k anc, deep anc -> deep (k :: anc).
Proof. intros k [|a [|b anc]] H; try contradiction; exact I. Qed.
Lemma item_tells : forall i, item_spec i.
Proof.
  induction i as [t o' sub IH] using xitem_ind'. intros o k anc s n C D IC R LM. cbn [rst_item_ok] in C. apply andb_true_iff in C as [C1 C2]. apply rst_line_parts in C1 as (C1 & SO & OL).
  cbn [i2d]. rewrite li_tree, (el_deep ($ "li") r_li) by (reflexivity || exact D). unfold node_run, r_li, kids_of. rewrite rst_item_eq.
  assert (DL : deep ($ "li" :: anc)) by (apply deep_cons; exact D). assert (IL : in_cell ($ "li" :: anc) = false) by exact IC.
  rewrite flat_map_app.
  match goal with |- context [emit_list ?x ?y ?z ?w (?p ++ ?q) ?v] => replace (emit_list x y z w (p ++ q) v) with (do (r, s1) <- EL ($ "li" :: anc) p v; do (r', s2) <- EL ($ "li" :: anc) q s1; Ok (r ++ r', s2)) by (symmetry; apply el_app) end.
  pose proof (inls_tells t (Z.of_nat (S k)) C1 ($ "li" :: anc) (set_last ($ "li", None) s) n DL R) as T. rewrite IL in T.
  destruct (rst_inls false t n) as [[text n1]|] eqn:ET; cbn [in_seq told lines_told] in *.
  2: { match goal with |- context [emit_list ?x ?y ?z ?w ?p ?v] => replace (emit_list x y z w p v) with (@Exc (str * est) ESubstitution) by (symmetry; exact T) end. reflexivity. }
  destruct T as (s1 & E1 & R1 & [F1 F1']).
  match goal with |- context [emit_list ?x ?y ?z ?w ?p (set_last ?a s)] => replace (emit_list x y z w p (set_last a s)) with (Ok (text, s1)) by (symmetry; exact E1) end. cbn [bind].
  apply inls_alike in ET. assert (SO' : solid text = true) by exact (alike_solid _ _ ET SO). assert (OL' : one_line text = true) by (destruct ET as (_ & _ & ET); exact (ET OL)).
  assert (S2 : lines_told (rst_all (rst_item (S k) o') sub n1) (EL ($ "li" :: anc) (flat_map (dom_tree [] (Z.of_nat (S k))) match sub with [] => [] | _ :: _ => [DElem (xlist_tag o') [] (map i2d sub)] end) s1) s1).
  { destruct sub as [|x sub].
    - exists [], s1. split; [reflexivity|]. split; [left; auto|]. split; [exact R1|apply frame_refl].
    - apply orb_true_iff in C2 as [C2|C2]; [discriminate C2|]. apply andb_true_iff in C2 as [C2 C3]. apply Bool.eqb_prop in C2. subst o'.
      cbn [flat_map]. rewrite app_nil_r, list_tree. replace (Z.of_nat (S k) + 1)%Z with (Z.of_nat (S (S k))) by lia.
      rewrite (el_deep (xlist_tag o) _ _ _ _ _ _ _ (list_meth o) DL). unfold node_run, r_list, kids_of. cbn [n_level].
      assert (DL2 : deep (xlist_tag o :: $ "li" :: anc)) by (apply deep_cons; exact DL). assert (IL2 : in_cell (xlist_tag o :: $ "li" :: anc) = false) by (destruct o; exact IC).
      pose proof (items_of (x :: sub) IH o (S k) (xlist_tag o :: $ "li" :: anc) (set_last (xlist_tag o, None) (set_markup (bullet o) s1)) n1 C3 DL2 IL2 R1 eq_refl) as X.
      destruct (rst_all (rst_item (S k) o) (x :: sub) n1) as [[ls n2]|]; cbn [lines_told] in *.
      + destruct X as (c & s2 & E2 & B2 & R2 & [F2 F2']). match goal with |- context [emit_list ?x ?y ?z ?w ?p ?v] => replace (emit_list x y z w p v) with (Ok (c, s2)) by (symmetry; exact E2) end. cbn [bind].
        exists c, (set_last (xlist_tag o, None) s2). split; [|split; [exact B2|split; [exact R2|]]].
        * assert (G : (2 <= Z.of_nat (S (S k)))%Z) by lia. destruct (Z.of_nat (S (S k))) as [|[p|p|]|p]; try reflexivity; lia.
        * split; [exact F2|]. cbn in F2'. cbn. rewrite F2', F1'. cbn. symmetry. exact LM.
      + match goal with |- context [emit_list ?x ?y ?z ?w ?p ?v] => replace (emit_list x y z w p v) with (@Exc (str * est) ESubstitution) by (symmetry; exact X) end. reflexivity. }
  destruct (rst_all (rst_item (S k) o') sub n1) as [[ls n2]|]; cbn [in_seq lines_told] in *.
  2: { match goal with |- context [emit_list ?x ?y ?z ?w ?p ?v] => replace (emit_list x y z w p v) with (@Exc (str * est) ESubstitution) by (symmetry; exact S2) end. reflexivity. }
  destruct S2 as (c & s2 & E2 & B2 & R2 & [F2 F2']).
  match goal with |- context [emit_list ?x ?y ?z ?w ?p ?v] => replace (emit_list x y z w p v) with (Ok (c, s2)) by (symmetry; exact E2) end. cbn [bind]. unfold level_of. cbn [n_level bind].
  eexists. eexists. split; [reflexivity|]. assert (LM2 : list_markup s2 = bullet o) by (rewrite F2', F1'; exact LM).
  split; [|split; [exact R2|split; [cbn; rewrite F2, F1; reflexivity|cbn; rewrite LM2; symmetry; exact LM]]].
  rewrite times_indent, LM2.
  replace ([10] ++ indent k ++ bullet o ++ [32] ++ strip_chars [10] (text ++ c) ++ [10]) with (10 :: ((indent k ++ bullet o ++ [32]) ++ strip_chars [10] (text ++ c)) ++ [10]) by (cbn [app]; rewrite <- !app_assoc; reflexivity).
  replace (flat_map (fun _ : unit => $ "    ") (repeat tt k) ++ (if o then $ "#. " else $ "* ") ++ text) with ((indent k ++ bullet o ++ [32]) ++ text) by (unfold indent, bullet; rewrite <- !app_assoc; destruct o; reflexivity).
  apply li_blk; [rewrite !one_line_app, indent_line; destruct o; reflexivity|exact SO'|exact OL'|exact B2].
Qed.
Lemma items_tell : forall l o k anc s n, forallb (rst_item_ok o) l = true -> deep anc -> in_cell anc = false -> rok s n -> list_markup s = bullet o ->
  lines_told (rst_all (rst_item k o) l n) (EL anc (flat_map (dom_tree [] (Z.of_nat (S k))) (map i2d l)) s) s.
Proof. intros l. apply items_of. apply Forall_forall. intros i _. apply item_tells. Qed.
Lemma spaced_join : forall l, spaced l = join [10; 10] l.
Proof. induction l as [|x l IH]; [reflexivity|]. destruct l as [|y l]; [reflexivity|]. rewrite join_cons by discriminate. rewrite <- IH. reflexivity. Qed.
Lemma nel_strip : forall c, map (strip_chars [10]) (nel c) = nel c.
Proof.
  intro c. rewrite <- (map_id (nel c)) at 2. apply map_ext_in. intros x I. unfold nel in I. apply filter_In in I as [I _]. unfold strip_chars. apply strip_by_clean. rewrite forallb_forall. intros d Id.
  destruct (split_on_In 10 c x d I Id) as [_ ND]. unfold in_str. cbn [existsb]. rewrite orb_false_r. apply negb_true_iff. apply N.eqb_neq. exact ND.
Qed.

(** ** tables *)
Lemma in_seq_nil : forall (A B : Type) (f : A -> notes -> option (list B * notes)) n, rst_all f [] n = Some ([], n). Proof. reflexivity. Qed.
Lemma rst_all_cons : forall (A B : Type) (f : A -> notes -> option (list B * notes)) x l n,
  rst_all f (x :: l) n = in_seq (f x n) (fun a n1 => in_seq (rst_all f l n1) (fun b n2 => Some (a ++ b, n2))).
Proof. reflexivity. Qed.
Definition fmt (t : str) : str := fmt_cell [] t.
Definition cells_told (x : option (list str * notes)) (res : res (str * est)) (s : est) (t : mtable) (rs : list (list str)) (r : list str) (hd : bool) : Prop :=
  match x with
  | Some (cs, n') => exists s' t' raw, res = Ok ([], s') /\ rok s' n' /\ tbl s' = Some t' /\ rows t' = rs ++ [r ++ raw] /\ map fmt raw = cs /\ head_prefix t' = [] /\ has_header t' = has_header t || hd
  | None => res = Exc ESubstitution
  end.
Lemma cell_told : forall c ll anc s t rs r n, rst_cell_ok c = true -> deep anc -> rok s n -> tbl s = Some t -> rows t = rs ++ [r] -> head_prefix t = [] ->
  cells_told (rst_cell c n) (EL anc (dom_tree [] ll (c2d c)) s) s t rs r (fst c).
Proof.
  intros [h l] ll anc s t rs r n C D R T RO HP. unfold rst_cell_ok in C. cbn [snd] in C. apply andb_true_iff in C as [C W]. unfold c2d, rst_cell. cbn [fst snd].
  set (k := if h then $ "th" else $ "td").
  assert (TR : dom_tree [] ll (DElem k [] (map x2d l)) = [HN k None [] None (flat_map (dom_tree [] ll) (map x2d l))]) by (destruct h; reflexivity).
  assert (M : find_meth rest_methods k = Some (cell_emit (if h then add_th else add_td))) by (destruct h; reflexivity).
  match goal with |- context [dom_tree [] ll ?x] => change (dom_tree [] ll x) with (dom_tree [] ll (DElem k [] (map x2d l))) end.
  rewrite TR, (el_deep _ _ _ _ _ _ _ _ M D). unfold node_run, cell_emit, kids_of.
  pose proof (inls_tells l ll C (k :: anc) (set_last (k, None) s) n (deep_cons k anc D) R) as B.
  assert (IC : in_cell (k :: anc) = true) by (destruct h; reflexivity). rewrite IC in B.
  destruct (rst_inls true l n) as [[b n1]|] eqn:E; cbn [in_seq told cells_told] in *.
  2: { match goal with |- context [emit_list ?x ?y ?z ?w ?ch ?v] => replace (emit_list x y z w ch v) with (@Exc (str * est) ESubstitution) by (symmetry; exact B) end. reflexivity. }
  destruct B as (s1 & E1 & R1 & [F1 _]). match goal with |- context [emit_list ?x ?y ?z ?w ?ch ?v] => replace (emit_list x y z w ch v) with (Ok (b, s1)) by (symmetry; exact E1) end. cbn [bind].
  assert (T1 : tbl s1 = Some t) by (rewrite F1; exact T). rewrite T1. cbn [bind].
  eexists. exists ((if h then add_th else add_td) (escape_linebreaks b) t), [escape_linebreaks b]. split; [reflexivity|]. split; [exact R1|]. split; [reflexivity|].
  assert (FM : fmt (escape_linebreaks b) = match b with [] => [] | _ :: _ => $ " " ++ b ++ $ " " end).
  { apply inls_alike in E. apply orb_true_iff in W as [W|W].
    - assert (b = []) by (apply (alike_nil _ _ E); destruct (flat_map rst_look l); [reflexivity|discriminate W]). subst b. reflexivity.
    - pose proof (alike_word _ _ E W) as W'. rewrite (word_escape b W'). apply word_parts in W' as (W' & _). unfold fmt, fmt_cell. rewrite (strip_solid _ W'). destruct b; reflexivity. }
  cbn [map]. rewrite FM. destruct h; unfold add_th, add_td; cbn [rows head_prefix auto_width has_header]; rewrite RO, append_last_snoc, ?HP, ?orb_true_r, ?orb_false_r; auto 10.
Qed.
Lemma cells_tell : forall w ll anc s t rs r n, forallb rst_cell_ok w = true -> deep anc -> rok s n -> tbl s = Some t -> rows t = rs ++ [r] -> head_prefix t = [] ->
  cells_told (rst_all rst_cell w n) (EL anc (flat_map (dom_tree [] ll) (map c2d w)) s) s t rs r (existsb fst w).
Proof.
  induction w as [|c w IH]; intros ll anc s t rs r n C D R T RO HP.
  - exists s, t, []. cbn [existsb map]. rewrite app_nil_r, orb_false_r. repeat split; auto; apply R.
  - cbn [forallb] in C. apply andb_true_iff in C as [C1 C2]. cbn [map flat_map]. rewrite el_app, rst_all_cons.
    pose proof (cell_told c ll anc s t rs r n C1 D R T RO HP) as H1. destruct (rst_cell c n) as [[a n1]|]; cbn [in_seq cells_told] in *; [|rewrite H1; reflexivity].
    destruct H1 as (s1 & t1 & raw1 & E1 & R1 & T1 & RO1 & M1 & P1 & H1). rewrite E1. cbn [bind].
    pose proof (IH ll anc s1 t1 rs (r ++ raw1) n1 C2 D R1 T1 RO1 P1) as H2. destruct (rst_all rst_cell w n1) as [[b n2]|]; cbn [in_seq cells_told] in *; [|rewrite H2; reflexivity].
    destruct H2 as (s2 & t2 & raw2 & E2 & R2 & T2 & RO2 & M2 & P2 & H2). rewrite E2. cbn [bind app].
    exists s2, t2, (raw1 ++ raw2). split; [reflexivity|]. split; [exact R2|]. split; [exact T2|]. split; [rewrite RO2, app_assoc; reflexivity|]. split; [rewrite map_app, M1, M2; reflexivity|]. split; [exact P2|].
    rewrite H2, H1. cbn [existsb]. rewrite orb_assoc. reflexivity.
Qed.
Definition rows_told (x : option (list (list str) * notes)) (res : res (str * est)) (s : est) (t : mtable) (hd : bool) : Prop :=
  match x with
  | Some (cs, n') => exists s' t' raw, res = Ok ([], s') /\ rok s' n' /\ tbl s' = Some t' /\ rows t' = rows t ++ raw /\ map (map fmt) raw = cs /\ head_prefix t' = [] /\ has_header t' = has_header t || hd
  | None => res = Exc ESubstitution
  end.
Lemma rows_tell : forall ws ll anc s t n, forallb (forallb rst_cell_ok) ws = true -> deep anc -> rok s n -> tbl s = Some t -> head_prefix t = [] ->
  rows_told (rst_all rst_row ws n) (EL anc (flat_map (dom_tree [] ll) (map (fun r => DElem ($ "tr") [] (map c2d r)) ws)) s) s t (existsb (existsb fst) ws).
Proof.
  induction ws as [|w ws IH]; intros ll anc s t n C D R T HP.
  - exists s, t, []. cbn [existsb map]. rewrite app_nil_r, orb_false_r. repeat split; auto; apply R.
  - cbn [forallb] in C. apply andb_true_iff in C as [C1 C2]. cbn [map flat_map]. rewrite rst_all_cons. unfold rst_row at 1.
    change (dom_tree [] ll (DElem ($ "tr") [] (map c2d w))) with [HN ($ "tr") None [] None (flat_map (dom_tree [] ll) (map c2d w))].
    rewrite el_app, (el_deep ($ "tr") tr_emit) by (reflexivity || exact D). unfold node_run, tr_emit at 1. rewrite T. unfold kids_of.
    pose proof (cells_tell w ll ($ "tr" :: anc) (set_last ($ "tr", None) (set_tbl (add_tr t) s)) (add_tr t) (rows t) [] n C1 (deep_cons _ _ D) R eq_refl eq_refl HP) as H1.
    destruct (rst_all rst_cell w n) as [[a n1]|]; cbn [in_seq cells_told rows_told] in *.
    2: { match goal with |- context [emit_list ?x ?y ?z ?k ?ch ?v] => replace (emit_list x y z k ch v) with (@Exc (str * est) ESubstitution) by (symmetry; exact H1) end. reflexivity. }
    destruct H1 as (s1 & t1 & raw1 & E1 & R1 & T1 & RO1 & M1 & P1 & H1).
    match goal with |- context [emit_list ?x ?y ?z ?k ?ch ?v] => replace (emit_list x y z k ch v) with (Ok (@nil N, s1)) by (symmetry; exact E1) end. cbn [bind].
    pose proof (IH ll anc (set_last ($ "tr", None) s1) t1 n1 C2 D R1 T1 P1) as H2. destruct (rst_all rst_row ws n1) as [[b n2]|]; cbn [in_seq rows_told] in *.
    2: { match goal with |- context [emit_list ?x ?y ?z ?k ?ch ?v] => replace (emit_list x y z k ch v) with (@Exc (str * est) ESubstitution) by (symmetry; exact H2) end. reflexivity. }
    destruct H2 as (s2 & t2 & raw2 & E2 & R2 & T2 & RO2 & M2 & P2 & H2).
    match goal with |- context [emit_list ?x ?y ?z ?k ?ch ?v] => replace (emit_list x y z k ch v) with (Ok (@nil N, s2)) by (symmetry; exact E2) end. cbn [bind app].
    exists s2, t2, (raw1 :: raw2). split; [reflexivity|]. split; [exact R2|]. split; [exact T2|]. split; [rewrite RO2, RO1, <- app_assoc; reflexivity|]. split; [cbn [map]; rewrite M1, M2; reflexivity|]. split; [exact P2|].
    rewrite H2, H1. cbn [existsb add_tr has_header]. rewrite orb_assoc. reflexivity.
Qed.
End Emission.

Lemma cells_length : forall w n cs n', rst_all rst_cell w n = Some (cs, n') -> List.length cs = List.length w.
Proof.
  induction w as [|c w IH]; intros n cs n' E; [injection E as <- <-; reflexivity|]. rewrite rst_all_cons in E. unfold rst_cell at 1 in E. destruct (rst_inls true (snd c) n) as [[t n1]|]; [|discriminate E]. cbn [in_seq] in E.
  destruct (rst_all rst_cell w n1) as [[b n2]|] eqn:E2; [|discriminate E]. cbn [in_seq] in E. injection E as <- <-. cbn [app List.length]. rewrite (IH _ _ _ E2). reflexivity.
Qed.
Lemma rows_length : forall ws n cs n' k, rst_all rst_row ws n = Some (cs, n') -> (forall w, In w ws -> List.length w = k) -> List.length cs = List.length ws /\ forall x, In x cs -> List.length x = k.
Proof.
  induction ws as [|w ws IH]; intros n cs n' k E H; [injection E as <- <-; split; [reflexivity|intros x []]|]. rewrite rst_all_cons in E. unfold rst_row at 1 in E. destruct (rst_all rst_cell w n) as [[t n1]|] eqn:E1; [|discriminate E]. cbn [in_seq] in E.
  destruct (rst_all rst_row ws n1) as [[b n2]|] eqn:E2; [|discriminate E]. cbn [in_seq] in E. injection E as <- <-. destruct (IH _ _ _ k E2) as [L1 L2]; [intros w' I; apply H; right; exact I|]. cbn [app List.length]. split; [rewrite L1; reflexivity|].
  intros x [<-|I]; [|exact (L2 x I)]. rewrite (cells_length _ _ _ _ E1). apply H. left. reflexivity.
Qed.
Lemma rect : forall ws, rst_block_ok (XTable ws) = true -> exists r ws', ws = r :: ws' /\ r <> [] /\ (forall w, In w ws -> List.length w = List.length r) /\ forallb (forallb rst_cell_ok) ws = true.
Proof.
  intros [|r ws] C; [discriminate C|]. cbn [rst_block_ok] in C. apply andb_true_iff in C as [C1 C2]. exists r, ws. split; [reflexivity|]. split; [destruct r; discriminate|].
  split; [|eapply forallb_impl; [|exact C2]; intros x Hx; apply andb_true_iff in Hx as [_ Hx]; exact Hx].
  intros w I. rewrite forallb_forall in C2. specialize (C2 w I). apply andb_true_iff in C2 as [C2 _]. apply Nat.eqb_eq. exact C2.
Qed.
Lemma border_line : forall c cells n j, rest_sep c (map (col_width cells) (seq j (S n))) = rst_border c cells j (S n).
Proof.
  intros c cells n. unfold rest_sep. induction n as [|n IH]; intro j.
  - cbn [seq map join rst_border]. rewrite <- ?app_assoc. reflexivity.
  - change (rst_border c cells j (S (S n))) with ($ "+" ++ repeat c (col_width cells j) ++ rst_border c cells (S j) (S n)). rewrite <- IH.
    change (seq j (S (S n))) with (j :: seq (S j) (S n)). cbn [map]. rewrite (join_cons ($ "+")) by discriminate. rewrite <- !app_assoc. reflexivity.
Qed.
Lemma rest_lines_later : forall ws cells hdr k, (2 <= k)%nat -> rest_lines hdr k ws cells = flat_map (fun r => [rest_sep 45 ws; table_line ws r]) cells.
Proof. intros ws cells hdr. induction cells as [|r cells IH]; intros k H; [reflexivity|]. cbn [rest_lines flat_map app]. destruct (Nat.eqb_spec k 1); [lia|]. cbn [andb]. rewrite IH by lia. reflexivity. Qed.
Lemma table_text : forall ws t raw cells n n', rst_block_ok (XTable ws) = true -> rst_all rst_row ws n = Some (cells, n') -> rows t = raw -> map (map fmt) raw = cells -> head_prefix t = [] -> has_header t = existsb (existsb fst) ws ->
  get_rest_table t = x_lines (rst_grid (existsb (existsb fst) ws) (match ws with r :: _ => List.length r | [] => 0%nat end) cells).
Proof.
  intros ws t raw cells n n' C E R M HP HH. unfold get_rest_table, preformat. rewrite R, HP, HH. change (map (map (fmt_cell [])) raw) with (map (map fmt) raw). rewrite M. rewrite x_lines_join.
  destruct (rect ws C) as (r & ws' & EW & NE & L & _). destruct (rows_length _ _ _ _ _ E L) as [LC LR].
  assert (NC : cells <> []) by (intros ->; rewrite EW in LC; discriminate LC).
  rewrite (widths_eq cells (List.length r) NC LR).
  assert (ML : match ws with r :: _ => List.length r | [] => 0%nat end = List.length r) by (rewrite EW; reflexivity). rewrite ML.
  assert (TL : forall x, In x cells -> table_line (map (col_width cells) (seq 0 (List.length r))) x = pad_row cells 0 x).
  { intros x I. rewrite <- (LR x I). apply pad_line. intros ->. apply LR in I. destruct r; [congruence|discriminate I]. }
  assert (BL : forall c, rest_sep c (map (col_width cells) (seq 0 (List.length r))) = rst_border c cells 0 (List.length r)).
  { intro c. destruct r as [|x r']; [congruence|]. cbn [List.length]. apply border_line. }
  f_equal. revert TL BL. generalize (map (col_width cells) (seq 0 (List.length r))). intros W TL BL. unfold rst_grid. 
  destruct cells as [|c1 [|c2 cs]] eqn:EC; [congruence| |]; rewrite <- EC in *.
  - rewrite EC at 1. cbn [rest_lines]. change (Nat.eqb 0 1) with false. cbn [andb app]. rewrite !BL, TL by (rewrite EC; left; reflexivity). reflexivity.
  - rewrite EC at 1. cbn [rest_lines]. change (Nat.eqb 0 1) with false. change (Nat.eqb 1 1) with true. cbn [andb app]. rewrite rest_lines_later by apply Nat.le_refl. rewrite !BL, !TL by (rewrite EC; auto using in_eq, in_cons).
    do 2 f_equal. f_equal; [destruct (existsb (existsb fst) ws); reflexivity|]. f_equal. f_equal. 
    assert (SUB : forall x, In x cs -> In x cells) by (intros x I; rewrite EC; right; right; exact I). clear -SUB TL. induction cs as [|x cs IH]; [reflexivity|]. cbn [flat_map]. rewrite (TL x) by (apply SUB; left; reflexivity). rewrite IH by (intros y I; apply SUB; right; exact I). reflexivity.
Qed.

(** ** blocks *)
Definition cat (l : list str) : str := flat_map (fun t => t ++ [10; 10]) l.
Section Blocks.
Variable u : unknown.
Local Notation EL := (emit_list rest_methods u rest_pre).
Local Notation DOC := [$ "document"].
Lemma deep_doc : forall k, deep (k :: DOC). Proof. intro k. exact I. Qed.
Definition block_told (x : option (str * notes)) (r : res (str * est)) : Prop :=
  match x with Some (t, n') => exists s', r = Ok (t ++ [10; 10], s') /\ rok s' n' | None => r = Exc ESubstitution end.
(** the tree of a block is a node with a method *)
Lemma block_tells : forall b s n, rst_block_ok b = true -> rok s n ->
  exists k f a l c ch, dom_tree [] 0 (b2d b) = [HN k c a l ch] /\ find_meth rest_methods k = Some f /\ block_told (rst_block b n) (node_run u k f a l c ch DOC s).
Proof.
  intros b s n C R. destruct b as [l|h l| |o items|ws]; cbn [b2d].
  - exists ($ "p"), p_emit, [], None, None, (flat_map (dom_tree [] 0) (map x2d l)). split; [reflexivity|]. split; [reflexivity|]. cbn [rst_block_ok] in C. unfold rst_text_ok in C. apply andb_true_iff in C as [C _].
    unfold node_run, p_emit, kids_of. pose proof (inls_tells u l 0%Z C ($ "p" :: DOC) (set_last ($ "p", None) s) n I R) as B. cbn [rst_block]. change (in_cell ($ "p" :: DOC)) with false in B.
    destruct (rst_inls false l n) as [[t n1]|]; cbn [told block_told] in *.
    + destruct B as (s1 & E & R1 & _). match goal with |- context [emit_list ?x ?y ?z ?k ?ch ?v] => replace (emit_list x y z k ch v) with (Ok (t, s1)) by (symmetry; exact E) end. cbn [bind]. eexists. split; [reflexivity|exact R1].
    + match goal with |- context [emit_list ?x ?y ?z ?k ?ch ?v] => replace (emit_list x y z k ch v) with (@Exc (str * est) ESubstitution) by (symmetry; exact B) end. reflexivity.
  - cbn [rst_block_ok] in C. apply andb_true_iff in C as [C0 C]. apply andb_true_iff in C0 as [L1 L2]. apply Nat.leb_le in L1, L2. apply rst_line_parts in C as (C & _).
    pose proof (head_tree h (map x2d l) (conj L1 L2)) as HT.
    exists ($ "headline"), r_headline, [], (Some (Z.of_nat h)), None, (flat_map (dom_tree [] 0) (map x2d l)). split; [exact HT|]. split; [reflexivity|].
    unfold node_run, r_headline, kids_of. pose proof (inls_tells u l 0%Z C ($ "headline" :: DOC) (set_last ($ "headline", None) s) n I R) as B. cbn [rst_block]. change (in_cell ($ "headline" :: DOC)) with false in B.
    destruct (rst_inls false l n) as [[t n1]|]; cbn [told block_told in_seq] in *.
    + destruct B as (s1 & E & R1 & _). match goal with |- context [emit_list ?x ?y ?z ?k ?ch ?v] => replace (emit_list x y z k ch v) with (Ok (t, s1)) by (symmetry; exact E) end. cbn [bind]. unfold level_of. cbn [n_level bind].
      do 7 (destruct h as [|h]; [first [lia|cbn -[repeat]; eexists; split; [do 2 f_equal; cbn [app]; rewrite <- ?app_assoc; cbn [app]; rewrite <- ?app_assoc; reflexivity|exact R1]]|]). lia.
    + match goal with |- context [emit_list ?x ?y ?z ?k ?ch ?v] => replace (emit_list x y z k ch v) with (@Exc (str * est) ESubstitution) by (symmetry; exact B) end. cbn [bind]. destruct (title_line h). reflexivity.
  - exists ($ "hr"), (const_emit ($ "----" ++ [10; 10])), [], None, None, []. split; [reflexivity|]. split; [reflexivity|]. eexists. split; [reflexivity|exact R].
  - cbn [rst_block_ok] in C. apply andb_true_iff in C as [NE C].
    exists (xlist_tag o), (r_list (bullet o)), [], (Some 1%Z), None, (flat_map (dom_tree [] 1) (map i2d items)). split; [apply (list_tree o 0%Z)|]. split; [apply list_meth|].
    unfold node_run, r_list, kids_of. cbn [n_level rst_block].
    assert (IC : in_cell (xlist_tag o :: DOC) = false) by (destruct o; reflexivity).
    pose proof (items_tell u items o 0%nat (xlist_tag o :: DOC) (set_last (xlist_tag o, None) (set_markup (bullet o) s)) n C I IC R eq_refl) as B. change (Z.of_nat 1) with 1%Z in B.
    destruct (rst_all (rst_item 0 o) items n) as [[ls n1]|]; cbn [in_seq lines_told block_told] in *.
    + destruct B as (c & s1 & E & B & R1 & _). match goal with |- context [emit_list ?x ?y ?z ?k ?ch ?v] => replace (emit_list x y z k ch v) with (Ok (c, s1)) by (symmetry; exact E) end. cbn [bind].
      eexists. split; [change (filter truthy (split_on 10 c)) with (nel c); rewrite nel_strip, (blk_nel _ _ B), spaced_join; reflexivity|exact R1].
    + match goal with |- context [emit_list ?x ?y ?z ?k ?ch ?v] => replace (emit_list x y z k ch v) with (@Exc (str * est) ESubstitution) by (symmetry; exact B) end. reflexivity.
  - destruct (rect ws C) as (r0 & ws' & EW & NE & _ & CC).
    exists ($ "table"), r_table, [], None, None, (flat_map (dom_tree [] 0) (map (fun w => DElem ($ "tr") [] (map c2d w)) ws)). split; [reflexivity|]. split; [reflexivity|].
    unfold node_run, r_table, kids_of. cbn [rst_block].
    pose proof (rows_tell u ws 0%Z ($ "table" :: DOC) (set_last ($ "table", None) (set_tbl (new_table [] true) s)) (new_table [] true) n CC I R eq_refl eq_refl) as B.
    destruct (rst_all rst_row ws n) as [[cells n1]|] eqn:E; cbn [in_seq rows_told block_told] in *.
    + destruct B as (s1 & t1 & raw & E1 & R1 & T1 & RO1 & M1 & P1 & H1). match goal with |- context [emit_list ?x ?y ?z ?k ?ch ?v] => replace (emit_list x y z k ch v) with (Ok (@nil N, s1)) by (symmetry; exact E1) end. cbn [bind].
      eexists. split; [unfold the_table; rewrite T1, (table_text ws t1 raw cells n n1 C E RO1 M1 P1 H1); reflexivity|exact R1].
    + match goal with |- context [emit_list ?x ?y ?z ?k ?ch ?v] => replace (emit_list x y z k ch v) with (@Exc (str * est) ESubstitution) by (symmetry; exact B) end. reflexivity.
Qed.
Lemma pre_doc : forall s n, rok s n -> fst (rest_pre DOC s) = cat (fst (rst_notes n)) /\ rok (snd (rest_pre DOC s)) (snd (rst_notes n)).
Proof.
  intros s n (R1 & R2 & R3 & R4). unfold rest_pre, rst_notes. rewrite R3. destruct (no_defs n) as [|d ds] eqn:E; cbn [fst snd].
  - split; [reflexivity|]. repeat split; assumption.
  - unfold get_block_data. rewrite R3. cbn [fst snd]. split; [unfold cat; cbn [flat_map]; rewrite app_nil_r, x_lines_join; reflexivity|]. repeat split; assumption.
Qed.
Lemma doc_tells : forall d s n, rst_doc_ok d = true -> rok s n ->
  match rst_chunks d (snd (rst_notes n)) with
  | Some ts => exists x s' n', EL DOC (flat_map (dom_tree [] 0) (map b2d d)) s = Ok (x, s') /\ rok s' n' /\ x ++ cat (fst (rst_notes n')) = cat (fst (rst_notes n) ++ ts) /\
                 (x = [] /\ n' = n \/ exists y, x = y ++ [10; 10])
  | None => EL DOC (flat_map (dom_tree [] 0) (map b2d d)) s = Exc ESubstitution
  end.
Proof.
  induction d as [|b d IH]; intros s n C R.
  - exists [], s, n. split; [reflexivity|]. split; [exact R|]. split; [rewrite app_nil_r; reflexivity|auto].
  - unfold rst_doc_ok in *. cbn [forallb] in C. apply andb_true_iff in C as [C1 C2]. cbn [map flat_map rst_chunks]. rewrite el_app. destruct (pre_doc s n R) as [P1 P2].
    destruct (block_tells b (snd (rest_pre DOC s)) (snd (rst_notes n)) C1 P2) as (k & f & a & l & c & ch & ET & M & B). rewrite ET, el_one, (en_run u k f) by exact M.
    destruct (rst_block b (snd (rst_notes n))) as [[t n1]|]; cbn [block_told] in B; [|rewrite B; reflexivity]. destruct B as (s1 & E1 & R1). rewrite E1, P1. cbn [bind].
    specialize (IH s1 n1 C2 R1). destruct (rst_notes n1) as [ds n2] eqn:EN. cbn [fst snd] in IH. destruct (rst_chunks d n2) as [ts|]; [|rewrite IH; reflexivity].
    destruct IH as (x & s2 & n3 & E2 & R2 & EX & EY). rewrite E2. cbn [bind]. eexists. exists s2, n3. split; [reflexivity|]. split; [exact R2|]. split.
    + rewrite <- !app_assoc, EX. unfold cat. rewrite !flat_map_app. cbn [flat_map]. rewrite !flat_map_app, <- !app_assoc. reflexivity.
    + right. destruct EY as [[-> ->]|(y & ->)]; [exists (cat (fst (rst_notes n)) ++ t); rewrite app_nil_r, <- app_assoc; reflexivity|].
      exists ((cat (fst (rst_notes n)) ++ t ++ [10; 10]) ++ y). rewrite <- !app_assoc. reflexivity.
Qed.
End Blocks.

(** ** the last character *)
Definition good (n : notes) : Prop := forallb ends (no_defs n) = true.
Definition keeps {A : Type} (f : notes -> option (A * notes)) : Prop := forall n a n', good n -> f n = Some (a, n') -> good n'.
Lemma keeps_all : forall (A B : Type) (f : A -> notes -> option (list B * notes)) l, (forall x, In x l -> keeps (f x)) -> keeps (rst_all f l).
Proof.
  intros A B f l. induction l as [|x l IH]; intros H n a n' G E; [injection E as <- <-; exact G|]. rewrite rst_all_cons in E. destruct (f x n) as [[b n1]|] eqn:E1; [|discriminate E]. cbn [in_seq] in E.
  destruct (rst_all f l n1) as [[b2 n2]|] eqn:E2; [|discriminate E]. cbn [in_seq] in E. injection E as <- <-. eapply IH; [intros y I; apply H; right; exact I| |exact E2]. eapply H; [left; reflexivity|exact G|exact E1].
Qed.
Lemma ends_app : forall a b, solid b = true -> ends (a ++ b) = true.
Proof. intros a b H. apply solid_ends in H as (c & r & d & r' & E1 & S1 & E2 & S2). unfold ends. rewrite E2, app_assoc, rev_app_distr. cbn [rev app]. rewrite S2. reflexivity. Qed.
Lemma solid_end : forall b, solid b = true -> ends b = true.
Proof. intros b H. exact (ends_app [] b H). Qed.
Lemma good_add : forall n x l i, good n -> ends x = true -> good (mkno l i (no_defs n ++ [x])).
Proof. intros n x l i G E. unfold good in *. cbn [no_defs]. rewrite forallb_app, G. cbn [forallb]. rewrite E. reflexivity. Qed.
Lemma keeps_inl : forall i cell, rst_fine i = true -> keeps (rst_inl cell i).
Proof.
  assert (F : forall l, Forall (fun i => forall cell, rst_fine i = true -> keeps (rst_inl cell i)) l -> forall cell, forallb rst_fine l = true -> keeps (rst_inls cell l)).
  { intros l H cell M. apply keeps_all. intros x I. rewrite Forall_forall in H. rewrite forallb_forall in M. apply H; [exact I|apply M; exact I]. }
  induction i as [w|e|tg at0 body IH|h body IH|src title alt|] using xinl_ind'; intros cell M n a n' G E; try (injection E as <- <-; exact G).
  - rewrite rst_face_eq in E. cbn [rst_fine] in M. apply andb_true_iff in M as [M _]. destruct (rst_inls cell body n) as [[b n1]|] eqn:E1; [|discriminate E]. injection E as <- <-. exact (F body IH cell M n b n1 G E1).
  - rewrite rst_link_eq in E. cbn [rst_fine] in M. apply andb_true_iff in M as [M0 M]. destruct (rst_inls cell body n) as [[b n1]|] eqn:E1; [|discriminate E]. cbn [in_seq] in E. pose proof (F body IH cell M n b n1 G E1) as G1. unfold rst_link in E.
    destruct (seen b (no_links n1)) as [h'|]; [destruct (str_eqb h' h); [|discriminate E]; injection E as <- <-; exact G1|]. destruct cell; injection E as <- <-; [|exact G1].
    refine (good_add n1 ($ ".. _" ++ b ++ $ ": " ++ h) _ _ G1 _). rewrite !app_assoc. apply ends_app. exact M0.
  - cbn [rst_inl] in E. cbn [rst_fine] in M. unfold rst_image in E. destruct (seen _ (no_images n)) as [h'|]; [destruct (str_eqb h' src); [|discriminate E]; injection E as <- <-; exact G|]. injection E as <- <-.
    refine (good_add n ($ ".. |" ++ image_title src title alt ++ $ "| image:: " ++ src) _ _ G _). rewrite !app_assoc. apply ends_app. exact M.
Qed.
Lemma keeps_inls : forall l cell, rst_clean l = true -> keeps (rst_inls cell l).
Proof. intros l cell C. apply rst_clean_parts in C as (_ & _ & M). apply keeps_all. intros x I. apply keeps_inl. rewrite forallb_forall in M. apply M. exact I. Qed.
Lemma item_ends : forall i k o n ls n', rst_item_ok o i = true -> good n -> rst_item k o i n = Some (ls, n') -> good n' /\ forallb ends ls = true /\ ls <> [].
Proof.
  induction i as [t o' sub IH] using xitem_ind'. intros k o n ls n' C G E. rewrite rst_item_eq in E. cbn [rst_item_ok] in C. apply andb_true_iff in C as [C1 C2]. apply rst_line_parts in C1 as (C1 & SO & _).
  destruct (rst_inls false t n) as [[text n1]|] eqn:E1; [|discriminate E]. cbn [in_seq] in E. pose proof (keeps_inls t false C1 n text n1 G E1) as G1. apply inls_alike in E1.
  assert (X : forall sub, Forall (fun i => forall k o n ls n', rst_item_ok o i = true -> good n -> rst_item k o i n = Some (ls, n') -> good n' /\ forallb ends ls = true /\ ls <> []) sub ->
    (sub = [] \/ o' = o /\ forallb (rst_item_ok o) sub = true) -> forall n1 rest n2, good n1 -> rst_all (rst_item (S k) o') sub n1 = Some (rest, n2) -> good n2 /\ forallb ends rest = true).
  { clear. induction 1 as [|x sub Hx Hs IHs]; intros D n1 rest n2 G1 E2; [injection E2 as <- <-; auto|]. destruct D as [D|[-> D]]; [discriminate D|]. cbn [forallb] in D. apply andb_true_iff in D as [D1 D2].
    rewrite rst_all_cons in E2. destruct (rst_item (S k) o x n1) as [[a m1]|] eqn:E1; [|discriminate E2]. cbn [in_seq] in E2. destruct (rst_all (rst_item (S k) o) sub m1) as [[b m2]|] eqn:E3; [|discriminate E2]. cbn [in_seq] in E2. injection E2 as <- <-.
    destruct (Hx _ _ _ _ _ D1 G1 E1) as (A1 & A2 & _). destruct (IHs (or_intror (conj eq_refl D2)) _ _ _ A1 E3) as (B1 & B2). split; [exact B1|]. rewrite forallb_app, A2, B2. reflexivity. }
  destruct (rst_all (rst_item (S k) o') sub n1) as [[rest n2]|] eqn:E2; [|discriminate E]. cbn [in_seq] in E. injection E as <- <-.
  destruct (X sub IH) with (n1 := n1) (rest := rest) (n2 := n2) as [G2 ER]; [|exact G1|exact E2|].
  { destruct sub as [|x sub]; [left; reflexivity|right]. cbn [is_nil orb] in C2. apply andb_true_iff in C2 as [C2 C3]. apply Bool.eqb_prop in C2. auto. }
  split; [exact G2|]. split; [|discriminate]. cbn [forallb]. rewrite ER, andb_true_r. rewrite app_assoc. apply ends_app. exact (alike_solid _ _ E1 SO).
Qed.
Lemma spaced_ends : forall l, forallb ends l = true -> l <> [] -> ends (spaced l) = true.
Proof.
  induction l as [|x l IH]; intros H NE; [congruence|]. cbn [forallb] in H. apply andb_true_iff in H as [H1 H2]. destruct l as [|y l]; [exact H1|].
  change (spaced (x :: y :: l)) with (x ++ [10; 10] ++ spaced (y :: l)). specialize (IH H2). pose proof (IH ltac:(discriminate)) as E. unfold ends in *. rewrite !rev_app_distr. destruct (rev (spaced (y :: l))) as [|d r]; [discriminate E|]. exact E.
Qed.
Lemma x_lines_ends : forall l, forallb ends l = true -> l <> [] -> ends (x_lines l) = true.
Proof.
  induction l as [|x l IH]; intros H NE; [congruence|]. cbn [forallb] in H. apply andb_true_iff in H as [H1 H2]. destruct l as [|y l]; [exact H1|].
  change (x_lines (x :: y :: l)) with (x ++ [10] ++ x_lines (y :: l)). specialize (IH H2). pose proof (IH ltac:(discriminate)) as E. unfold ends in *. rewrite !rev_app_distr. destruct (rev (x_lines (y :: l))) as [|d r]; [discriminate E|]. exact E.
Qed.
Lemma x_lines_last : forall l b, ends b = true -> ends (x_lines (l ++ [b])) = true.
Proof.
  induction l as [|x l IH]; intros b H; [exact H|]. specialize (IH b H). cbn [app]. assert (exists y r, l ++ [b] = y :: r) as (y & r & E) by (destruct l; eexists; eexists; reflexivity). rewrite E in *.
  change (x_lines (x :: y :: r)) with (x ++ [10] ++ x_lines (y :: r)). unfold ends in *. rewrite !rev_app_distr. destruct (rev (x_lines (y :: r))) as [|d r']; [discriminate IH|]. exact IH.
Qed.
Lemma border_ends : forall c cells k j, ends (rst_border c cells j k) = true.
Proof. intros c cells k. induction k as [|k IH]; intro j; [reflexivity|]. cbn [rst_border]. specialize (IH (S j)). unfold ends in *. rewrite !rev_app_distr. destruct (rev (rst_border c cells (S j) k)) as [|d r]; [discriminate IH|]. exact IH. Qed.
Lemma ends_tail : forall a b, ends b = true -> ends (a ++ b) = true.
Proof. intros a b H. unfold ends in *. rewrite rev_app_distr. destruct (rev b) as [|d r']; [discriminate H|]. exact H. Qed.
Lemma ends_repeat : forall (c : N) m, is_space c = false -> ends (repeat c (S m)) = true.
Proof.
  intros c m H. induction m as [|m IH]; [unfold ends; cbn [repeat rev app]; rewrite H; reflexivity|]. change (repeat c (S (S m))) with ([c] ++ repeat c (S m)). apply ends_tail. exact IH.
Qed.
Lemma keeps_rows : forall ws, forallb (forallb rst_cell_ok) ws = true -> keeps (rst_all rst_row ws).
Proof.
  intros ws C. apply keeps_all. intros w I n a n' G E. rewrite forallb_forall in C. specialize (C w I). unfold rst_row in E. destruct (rst_all rst_cell w n) as [[b n1]|] eqn:E1; [|discriminate E]. injection E as <- <-.
  refine (keeps_all _ _ rst_cell w _ n b n1 G E1). intros c Ic m x m' Gm Em. rewrite forallb_forall in C. specialize (C c Ic). unfold rst_cell_ok in C. apply andb_true_iff in C as [C _]. unfold rst_cell in Em.
  destruct (rst_inls true (snd c) m) as [[y m1]|] eqn:E2; [|discriminate Em]. injection Em as <- <-. exact (keeps_inls _ _ C _ _ _ Gm E2).
Qed.
Lemma block_ends : forall b n t n', rst_block_ok b = true -> good n -> rst_block b n = Some (t, n') -> good n' /\ ends t = true.
Proof.
  intros b n t n' C G E. destruct b as [l|h l| |o items|ws]; cbn [rst_block rst_block_ok] in *.
  - unfold rst_text_ok in C. apply andb_true_iff in C as [C SO]. split; [exact (keeps_inls _ _ C _ _ _ G E)|]. apply inls_alike in E. apply solid_end. exact (alike_solid _ _ E SO).
  - apply andb_true_iff in C as [C0 C]. apply rst_line_parts in C as (C & SO & _). destruct (rst_inls false l n) as [[x n1]|] eqn:E1; [|discriminate E]. cbn [in_seq] in E.
    pose proof (keeps_inls _ _ C _ _ _ G E1) as G1. apply inls_alike in E1. pose proof (alike_solid _ _ E1 SO) as SX. destruct (title_line h) as [c over] eqn:TL. injection E as <- <-. split; [exact G1|].
    assert (NC : is_space c = false) by (do 6 (destruct h as [|h]; [injection TL as <- <-; reflexivity|]); injection TL as <- <-; reflexivity).
    destruct x as [|x0 x]; [discriminate SX|]. do 2 apply ends_tail. refine (ends_tail [10] _ _). apply ends_repeat. exact NC.
  - injection E as <- <-. auto.
  - apply andb_true_iff in C as [NE C]. destruct (rst_all (rst_item 0 o) items n) as [[ls n1]|] eqn:E1; [|discriminate E]. cbn [in_seq] in E. injection E as <- <-.
    assert (X : forall items n ls n1, forallb (rst_item_ok o) items = true -> good n -> rst_all (rst_item 0 o) items n = Some (ls, n1) -> good n1 /\ forallb ends ls = true /\ (items <> [] -> ls <> [])).
    { clear. induction items as [|x items IH]; intros n ls n1 C G E; [injection E as <- <-; repeat split; auto|]. cbn [forallb] in C. apply andb_true_iff in C as [C1 C2]. rewrite rst_all_cons in E. destruct (rst_item 0 o x n) as [[a m1]|] eqn:E1; [|discriminate E]. cbn [in_seq] in E.
      destruct (rst_all (rst_item 0 o) items m1) as [[b m2]|] eqn:E2; [|discriminate E]. cbn [in_seq] in E. injection E as <- <-. destruct (item_ends _ _ _ _ _ _ C1 G E1) as (A1 & A2 & A3). destruct (IH _ _ _ C2 A1 E2) as (B1 & B2 & _).
      split; [exact B1|]. split; [rewrite forallb_app, A2, B2; reflexivity|]. intros _. destruct a; [congruence|discriminate]. }
    destruct (X items n ls n1 C G E1) as (G1 & EL' & NL). split; [exact G1|]. apply spaced_ends; [exact EL'|]. apply NL. destruct items; [discriminate NE|discriminate].
  - destruct (rect ws C) as (r & ws' & EW & _ & _ & CC). destruct (rst_all rst_row ws n) as [[cells n1]|] eqn:E1; [|discriminate E]. cbn [in_seq] in E. injection E as <- <-. split; [exact (keeps_rows ws CC _ _ _ G E1)|].
    unfold rst_grid. destruct cells as [|c1 cs]; [apply (x_lines_last []); apply border_ends|]. rewrite app_assoc. apply x_lines_last. apply border_ends.
Qed.
Lemma notes_ends : forall n, good n -> forallb ends (fst (rst_notes n)) = true /\ good (snd (rst_notes n)).
Proof.
  intros n G. unfold rst_notes. cbn [fst snd]. split; [|reflexivity]. unfold good in G. destruct (no_defs n) as [|d ds]; [reflexivity|]. cbn [forallb]. rewrite andb_true_r. apply x_lines_ends; [exact G|discriminate].
Qed.
Lemma chunks_ends : forall d n ts, rst_doc_ok d = true -> good n -> rst_chunks d n = Some ts -> forallb ends ts = true.
Proof.
  induction d as [|b d IH]; intros n ts C G E; [injection E as <-; reflexivity|]. unfold rst_doc_ok in *. cbn [forallb] in C. apply andb_true_iff in C as [C1 C2]. cbn [rst_chunks] in E.
  destruct (rst_block b n) as [[t n1]|] eqn:E1; [|discriminate E]. destruct (block_ends b n t n1 C1 G E1) as [G1 ET]. destruct (notes_ends n1 G1) as [EN G2]. destruct (rst_notes n1) as [ds n2]. cbn [fst snd] in *.
  destruct (rst_chunks d n2) as [ts'|] eqn:E2; [|discriminate E]. injection E as <-. cbn [forallb]. rewrite forallb_app, ET, EN, (IH n2 ts' C2 G2 E2). reflexivity.
Qed.
Lemma cat_spaced : forall ts, ts <> [] -> cat ts = spaced ts ++ [10; 10].
Proof.
  induction ts as [|x ts IH]; intro NE; [congruence|]. destruct ts as [|y ts]; [cbn; rewrite app_nil_r; reflexivity|]. unfold cat in *. cbn [flat_map] in *. rewrite IH by discriminate.
  change (spaced (x :: y :: ts)) with (x ++ [10; 10] ++ spaced (y :: ts)). rewrite <- !app_assoc. reflexivity.
Qed.
Lemma rstrip_cat : forall ts, forallb ends ts = true -> rstrip (cat ts) = spaced ts.
Proof.
  intros ts H. destruct ts as [|x ts]; [reflexivity|]. rewrite cat_spaced by discriminate. unfold rstrip. rewrite rstrip_app_all by reflexivity. pose proof (spaced_ends (x :: ts) H ltac:(discriminate)) as E. unfold ends in E.
  destruct (rev (spaced (x :: ts))) as [|d r] eqn:R; [discriminate E|]. apply negb_true_iff in E. rewrite <- (rev_involutive (spaced (x :: ts))), R. cbn [rev]. apply rstrip_keep. exact E.
Qed.

(** ** documents *)
Lemma rst_text_shape : forall l, rst_clean l = true -> clean_inls Edge l = true. Proof. intros l H. apply rst_clean_parts in H. apply H. Qed.
Lemma rst_item_shape : forall i o, rst_item_ok o i = true -> shape_item i = true.
Proof.
  induction i as [t o' sub IH] using xitem_ind'. intro o. cbn [rst_item_ok shape_item]. intro C. apply andb_true_iff in C as [C1 C2]. apply rst_line_parts in C1 as [C1 _]. rewrite (rst_text_shape t C1). cbn [andb].
  destruct sub as [|x0 sub0]; [reflexivity|]. cbn [is_nil orb] in C2. apply andb_true_iff in C2 as [_ C2]. revert C2. generalize (x0 :: sub0), IH. clear. intros l IH. induction IH as [|x l Hx Hl IHl]; intro C2; [reflexivity|]. cbn [forallb] in *. apply andb_true_iff in C2 as [C2 C3]. rewrite (Hx o C2). apply IHl. exact C3.
Qed.
Lemma rst_block_shape : forall b, rst_block_ok b = true -> shape_block b = true.
Proof.
  intros b C. destruct b as [l|n l| |o items|ws]; cbn [shape_block].
  - cbn [rst_block_ok] in C. unfold rst_text_ok in C. apply andb_true_iff in C as [C _]. apply rst_text_shape. exact C.
  - cbn [rst_block_ok] in C. apply andb_true_iff in C as [C0 C]. apply rst_line_parts in C as [C _]. rewrite C0, (rst_text_shape l C). reflexivity.
  - reflexivity.
  - cbn [rst_block_ok] in C. apply andb_true_iff in C as [_ C]. eapply forallb_impl; [|exact C]. intro i. apply rst_item_shape.
  - destruct (rect ws C) as (r & ws' & _ & _ & _ & CC). eapply forallb_impl; [|exact CC]. intros r' Hr. eapply forallb_impl; [|exact Hr]. intros c Hc. unfold rst_cell_ok in Hc. apply andb_true_iff in Hc as [Hc _]. apply rst_text_shape. exact Hc.
Qed.
Theorem clean_rest : forall u d html, rst_doc_ok d = true -> written d html ->
  html2rest u html = match rst_doc d with Some t => Ok t | None => Exc ESubstitution end.
Proof.
  intros u d html C W. unfold html2rest. assert (SH : shape_doc d = true) by (eapply forallb_impl; [|exact C]; apply rst_block_shape). rewrite (clean_tree d html SH W). cbn [bind]. unfold emit_rest.
  rewrite (en_run u ($ "document") r_document) by reflexivity. change (rest_pre [] e_init) with (@nil N, e_init). cbn [fst snd]. unfold node_run, r_document, kids_of.
  pose proof (doc_tells u d (set_last ($ "document", None) e_init) no_notes C) as D. change (snd (rst_notes no_notes)) with no_notes in D. specialize (D (conj eq_refl (conj eq_refl (conj eq_refl eq_refl)))).
  unfold rst_doc. pose proof (chunks_ends d no_notes) as CE. destruct (rst_chunks d no_notes) as [ts|]; cbn [option_map].
  2: { match goal with |- context [emit_list ?x ?y ?z ?k ?ch ?v] => replace (emit_list x y z k ch v) with (@Exc (str * est) ESubstitution) by (symmetry; exact D) end. reflexivity. }
  destruct D as (w & s' & n' & E & (R1 & R2 & R3 & R4) & EX & EY). match goal with |- context [emit_list ?x ?y ?z ?k ?ch ?v] => replace (emit_list x y z k ch v) with (Ok (w, s')) by (symmetry; exact E) end. cbn [bind].
  specialize (CE ts C eq_refl eq_refl). change (fst (rst_notes no_notes) ++ ts) with ts in EX. rewrite R3. unfold rst_notes in EX. cbn [fst] in EX. destruct (no_defs n') as [|d0 ds] eqn:ND.
  - cbn [bind app]. unfold cat in EX at 1. cbn [flat_map] in EX. rewrite app_nil_r in EX. rewrite EX, (rstrip_cat ts CE). reflexivity.
  - destruct EY as [[-> ->]|(y & EY)]; [discriminate ND|].
    assert (EW : endswith [10; 10] w = true). { rewrite EY. unfold endswith. rewrite rev_app_distr. reflexivity. }
    rewrite EW. unfold get_block_data. rewrite R3. cbn [bind app]. unfold cat in EX at 1. cbn [flat_map] in EX. rewrite app_nil_r, x_lines_join in EX. rewrite EX, (rstrip_cat ts CE). reflexivity.
Qed.
