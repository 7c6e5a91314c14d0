(** * What the attributes of links and images mean *)
From Coq Require Import String List Arith NArith ZArith Bool Lia.
From Verif Require Import PyStr PyStrFacts Utils Res DictFacts HtmlTools HtmlTok HtmlTokFacts HtmlParser Safety Spec2 TreeFacts Spec10 TokRun TagTok StripRun Spec11 CleanRun CleanDoc Spec17 AddressFacts Spec29 Spelling UrlQuote HtmlBase Html2X SpellDoc Spec31 Soup AttrSoup Spec32.
From Verif Require EmitFacts CleanEmit.
Import ListNotations.
Open Scope N_scope.

(** ** trees *)
Lemma nn_eq : forall n n', nn (fun _ => None) n n' -> n = n'.
Proof.
  intro n. induction n as [k c a l ch IH] using EmitFacts.hnode_ind'. intros n' N. inversion N as [? ? ? a' ? ? ch' K F]; subst. cbn [keeps] in K. subst a'. f_equal.
  clear N. revert ch' F. induction IH as [|x ch X _ IHl]; intros ch' F; inversion F as [|? x' ? ? Y F']; subst; [reflexivity|]. f_equal; auto.
Qed.
Lemma soup_parse : forall ps html html', soup ps html -> soup ps html' -> parse_html html = parse_html html'.
Proof.
  intros ps html html' S S'. destruct (parts_near (fun _ => None) ps ps html html' (same_parts_refl _ ps) S S') as (l & l' & N & <- & <-).
  pose proof (feed_nn (fun _ => None) (conj eq_refl eq_refl) l l' N) as R. destruct (parse_html (pcs_src l)) as [x|e], (parse_html (pcs_src l')) as [x'|e']; cbn [rr] in R; try contradiction; [|subst; reflexivity].
  rewrite (nn_eq x x' R). reflexivity.
Qed.
(** pieces that strip_html leaves alone *)
Lemma settled_tree : forall tk l ds, near tk l l -> szp (Run []) (sqp false [] l) = l -> pcs_src l = show_doms ds -> forallb dom_wf ds = true -> apart ds = true ->
  parse_html (pcs_src l) = (do h <- handle_all (flat_map dom_toks ds) (h_init []); Ok (root_of (cur h))).
Proof.
  intros tk l ds N Z E W A. pose proof (near_never_pre tk l l N) as [P _]. unfold parse_html, feed. rewrite preprocess_plain by assumption. cbn [bind].
  assert (S : strip_html (pcs_src l) = pcs_src l).
  { pose proof (sqp_near tk l l false [] N eq_refl) as Q. pose proof (near_fine _ _ _ Q) as [[F _] _]. pose proof (near_fine _ _ _ N) as [_ [M _]].
    rewrite strip_html_eq, squash_pcs by assumption. change (pcs_src (sqp false [] l)) with (held (Run []) ++ pcs_src (sqp false [] l)). rewrite rsub_squeeze; [|exact F|reflexivity]. rewrite squeeze_pcs, Z. reflexivity. }
  rewrite S, E. unfold feed_tokens. rewrite document_run by assumption. reflexivity.
Qed.
Lemma image_tree : forall a html, forallb attr_plain a = true -> image_html a html ->
  parse_html html = Ok (HN ($ "document") None [] None [HN ($ "img") None (dict_of a) None []]).
Proof.
  intros a html A H. assert (PP : part_plain (Single ($ "img") a)) by (split; [reflexivity|exact A]).
  assert (S : soup [Single ($ "img") a] html) by (exists html, []; repeat split; [exact A|exact H|symmetry; apply app_nil_r]).
  assert (PL : Forall part_plain [Single ($ "img") a]) by (constructor; [exact PP|constructor]).
  pose proof (soup_plain _ PL) as S0. rewrite (soup_parse _ _ _ S S0). destruct (parts_near (fun _ => None) _ _ _ _ (same_parts_refl _ [Single ($ "img") a]) S0 S0) as (l & l' & N & E & _).
  assert (AO : forallb attr_ok a = true) by (apply fine_ok; exact A).
  pose (l0 := [Tg false ($ "img") (show_attrs a ++ $ " /")]).
  assert (N0 : near (tkr (fun _ => None)) l0 l0).
  { destruct (part_tagged (Single ($ "img") a) _ PP (part_src_written _ PP) eq_refl) as (n & x & G & Ex).
    assert (GA : good (show_attrs a ++ $ " /")).
    { destruct (good_written a _ (show_written a AO) A) as [G0 _]. destruct (good_app (show_attrs a) 1 G0) as [X1 X2]. change ($ " /") with (gap 1 ++ [47]). rewrite app_assoc. split; [|rewrite forallb_app, X2; reflexivity].
      destruct X1 as [X1|(u & ->)]; [destruct (show_attrs a); discriminate X1|right; eexists; reflexivity]. }
    destruct (good_fine false ($ "img") _ eq_refl GA) as (F1 & F2 & F3).
    apply near_tg; [|constructor]. constructor; try assumption; try reflexivity; try discriminate. exists (TStartEnd ($ "img") a), (TStartEnd ($ "img") a). split; [constructor|]. split; intro y; apply self_one; try assumption; reflexivity. }
  assert (E0 : pcs_src l0 = show_doms [DSelf ($ "img") a]).
  { unfold l0. rewrite one_pc, self_src. unfold show_doms. cbn [flat_map]. rewrite app_nil_r. reflexivity. }
  assert (E1 : flat_map part_src [Single ($ "img") a] = pcs_src l0).
  { unfold l0. rewrite one_pc. cbn [flat_map part_src]. rewrite app_nil_r. unfold tag_src. cbn [app]. rewrite <- ?app_assoc. reflexivity. }
  rewrite E1, (settled_tree _ l0 [DSelf ($ "img") a] N0); [reflexivity| |exact E0| |reflexivity].
  - unfold l0. cbn [sqp szp flushp app map]. unfold tag_outp. cbv zeta. change ($ " /") with ([32] ++ [47]). rewrite app_assoc, end47. reflexivity.
  - cbn [forallb dom_wf]. rewrite AO. reflexivity.
Qed.
Lemma word_parts : forall w, word w = true -> w <> [] /\ forallb inked w = true /\ forallb (fun c => negb ((c =? 60) || (c =? 38))) w = true.
Proof.
  intros w H. unfold word in H. apply andb_true_iff in H as [H1 H2]. split; [destruct w; [discriminate|discriminate]|].
  split; (eapply forallb_impl; [|exact H2]); intros c Hc; unfold word_char, inked in *; destruct (is_space c), (c =? 60), (c =? 38); try discriminate Hc; reflexivity.
Qed.
Lemma words_cons : forall w w2 ws, words (w :: w2 :: ws) = w ++ 32 :: words (w2 :: ws).
Proof. reflexivity. Qed.
Lemma words_sqp : forall ws p l, ws <> [] -> forallb word ws = true -> sqp true p (map Ch (words ws) ++ l) = map Ch (conv p) ++ map Ch (words ws) ++ sqp true [] l.
Proof.
  induction ws as [|w ws IH]; intros p l N H; [congruence|]. cbn [forallb] in H. apply andb_true_iff in H as [H1 H2]. destruct (word_parts w H1) as (W1 & W2 & _). destruct ws as [|w2 ws].
  - change (words [w]) with w. rewrite sqp_solid by assumption. reflexivity.
  - rewrite words_cons, map_app, <- app_assoc. rewrite sqp_solid by assumption. rewrite <- !app_assoc. do 2 f_equal. cbn [map app sqp]. change (is_space 32) with true. cbv iota. rewrite IH by (try discriminate; assumption). reflexivity.
Qed.
Lemma words_szp : forall ws s l, ws <> [] -> forallb word ws = true -> szp s (map Ch (words ws) ++ l) = flushp s ++ map Ch (words ws) ++ szp (Run []) l.
Proof.
  induction ws as [|w ws IH]; intros s l N H; [congruence|]. cbn [forallb] in H. apply andb_true_iff in H as [H1 H2]. destruct (word_parts w H1) as (W1 & W2 & _). destruct ws as [|w2 ws].
  - change (words [w]) with w. rewrite szp_solid by assumption. reflexivity.
  - rewrite words_cons, map_app, <- app_assoc. rewrite szp_solid by assumption. rewrite <- !app_assoc. do 2 f_equal. cbn [map app szp]. change (is_space 32) with true. cbv iota. rewrite IH by (try discriminate; assumption). reflexivity.
Qed.
Lemma words_plain : forall ws, forallb word ws = true -> forallb (fun c => negb ((c =? 60) || (c =? 38))) (words ws) = true.
Proof.
  induction ws as [|w ws IH]; intro H; [reflexivity|]. cbn [forallb] in H. apply andb_true_iff in H as [H1 H2]. destruct (word_parts w H1) as (_ & _ & W3). destruct ws as [|w2 ws]; [exact W3|].
  rewrite words_cons, forallb_app, W3. cbn [forallb]. exact (IH H2).
Qed.
Lemma words_solid : forall ws, ws <> [] -> forallb word ws = true -> solid (words ws) = true.
Proof.
  intros ws N H.
  assert (A : exists c r, words ws = c :: r /\ is_space c = false).
  { destruct ws as [|w ws]; [congruence|]. cbn [forallb] in H. apply andb_true_iff in H as [H1 _]. destruct (word_parts w H1) as (W1 & W2 & _). destruct w as [|c w]; [congruence|].
    cbn [forallb] in W2. apply andb_true_iff in W2 as [W2 _]. unfold inked in W2. apply negb_true_iff, orb_false_iff in W2 as [W2 _]. destruct ws; [exists c, w; split; [reflexivity|exact W2]|]. rewrite words_cons. eexists c, _. split; [reflexivity|exact W2]. }
  assert (B : exists c r, words ws = r ++ [c] /\ is_space c = false).
  { clear A. induction ws as [|w ws IH]; [congruence|]. cbn [forallb] in H. apply andb_true_iff in H as [H1 H2]. destruct ws as [|w2 ws].
    - destruct (word_parts w H1) as (W1 & W2 & _). destruct (exists_last W1) as (r & c & E). subst w. exists c, r. split; [reflexivity|]. rewrite forallb_app in W2. apply andb_true_iff in W2 as [_ W2]. cbn [forallb] in W2. apply andb_true_iff in W2 as [W2 _].
      unfold inked in W2. apply negb_true_iff, orb_false_iff in W2 as [W2 _]. exact W2.
    - destruct IH as (c & r & E & C); [discriminate|exact H2|]. exists c, (w ++ 32 :: r). split; [|exact C]. rewrite words_cons, E, <- app_assoc. reflexivity. }
  destruct A as (c & r & A1 & A2). destruct B as (d & r' & B1 & B2). eapply CleanEmit.solid_intro; eassumption.
Qed.
Lemma link_tree : forall a ws html, forallb attr_plain a = true -> ws <> [] -> forallb word ws = true -> link_html a ws html ->
  parse_html html = Ok (HN ($ "document") None [] None [HN ($ "a") None (dict_of a) None [HN ($ "data") (Some (words ws)) [] None []]]).
Proof.
  intros a ws html A NE WS (x & y & X & Y & ->). pose (ps := [Open ($ "a") a; Txt (words ws); Close ($ "a")]).
  assert (P1 : part_plain (Open ($ "a") a)) by (split; [reflexivity|exact A]).
  assert (P2 : part_plain (Txt (words ws))) by (apply readable_plain, words_plain, WS).
  assert (P3 : part_plain (Close ($ "a"))) by reflexivity.
  assert (S : soup ps (x ++ words ws ++ y)).
  { exists x, (words ws ++ y). split; [exact P1|]. split; [exact X|]. split; [reflexivity|]. exists (words ws), y. split; [exact P2|]. split; [constructor|]. split; [reflexivity|].
    exists y, []. split; [exact P3|]. split; [exact Y|]. split; [symmetry; apply app_nil_r|reflexivity]. }
  assert (PL : Forall part_plain ps) by (repeat (constructor; [assumption|]); constructor).
  pose proof (soup_plain _ PL) as S0. rewrite (soup_parse _ _ _ S S0).
  assert (AO : forallb attr_ok a = true) by (apply fine_ok; exact A).
  pose (l0 := Tg false ($ "a") (show_attrs a) :: map Ch (words ws) ++ [Tg true ($ "a") []]).
  assert (TK : forall s, tkr (fun _ => None) s s) by (intro; constructor).
  destruct (good_written a _ (show_written a AO) A) as [GA _].
  assert (N0 : near (tkr (fun _ => None)) l0 l0).
  { destruct (good_fine false ($ "a") _ eq_refl GA) as (F1 & F2 & F3).
    destruct (good_fine true ($ "a") [] eq_refl (conj (or_introl eq_refl) eq_refl)) as (F4 & F5 & F6).
    apply near_tg.
    - constructor; try assumption; try reflexivity; try discriminate. exists (TStart ($ "a") a), (TStart ($ "a") a). split; [apply TK|]. split; intro z; apply void_one; try assumption; reflexivity.
    - apply near_app; [apply readable_near; exact P2|]. apply near_tg; [|constructor]. constructor; try assumption; try reflexivity; try discriminate.
      exists (TEnd ($ "a")), (TEnd ($ "a")). split; [apply TK|]. split; intro z; apply end_one; reflexivity. }
  assert (E0 : pcs_src l0 = show_doms [DElem ($ "a") a [DText (words ws)]]).
  { unfold l0. change (Tg false ($ "a") (show_attrs a) :: map Ch (words ws) ++ [Tg true ($ "a") []]) with ([Tg false ($ "a") (show_attrs a)] ++ map Ch (words ws) ++ [Tg true ($ "a") []]).
    rewrite !pcs_app, !one_pc, chars_src. unfold show_doms. cbn [flat_map show_dom]. unfold tag_src. cbn [app]. rewrite ?app_nil_r, <- ?app_assoc. reflexivity. }
  assert (E1 : flat_map part_src ps = pcs_src l0).
  { unfold l0. change (Tg false ($ "a") (show_attrs a) :: map Ch (words ws) ++ [Tg true ($ "a") []]) with ([Tg false ($ "a") (show_attrs a)] ++ map Ch (words ws) ++ [Tg true ($ "a") []]).
    rewrite !pcs_app, !one_pc, chars_src. unfold ps. cbn [flat_map part_src]. unfold tag_src. cbn [app]. rewrite ?app_nil_r, <- ?app_assoc. reflexivity. }
  rewrite E1, (settled_tree _ l0 [DElem ($ "a") a [DText (words ws)]] N0); [reflexivity| |exact E0| |reflexivity].
  - unfold l0. cbn [sqp]. rewrite words_sqp by assumption. cbn [map app sqp szp]. change (conv []) with ([] : str). cbn [map app szp]. rewrite words_szp by assumption. cbn [flushp szp]. unfold tag_outp. cbv zeta. cbn [startswith orb app].
    change (in_list BLOCK_TAGS ($ "a")) with false. change (endswith [32] []) with false. cbn [startswith orb app]. destruct (endswith [47] (show_attrs a)); reflexivity.
  - cbn [forallb dom_wf apart]. rewrite AO. pose proof (words_solid ws NE WS) as SO. pose proof (words_plain ws WS) as PW.
    assert (NI : is_nil (words ws) = false) by (destruct (words ws); [discriminate SO|reflexivity]). rewrite NI. rewrite PW. reflexivity.
Qed.

(** ** attributes *)
Lemma value_cases : forall k a, forallb attr_ok a = true ->
  (last_value k a = VNone /\ dict_get k (dict_of a) = None) \/ (exists v, last_value k a = VStr v /\ dict_get k (dict_of a) = Some (VStr v)).
Proof.
  intros k a A. assert (D : dict_get k (dict_of a) = match last_value k a with VNone => None | v => Some v end).
  { unfold dict_of, last_value. rewrite get_last by (try assumption; exact Logic.I). reflexivity. }
  assert (C : forall b v0, forallb attr_ok b = true -> match v0 with VStr _ | VNone => True | _ => False end ->
    match fold_left (fun v (kv : str * pyval) => if str_eqb (fst kv) k then snd kv else v) b v0 with VStr _ | VNone => True | _ => False end).
  { induction b as [|[k0 w] b IH]; intros v0 B V; [exact V|]. cbn [forallb] in B. apply andb_true_iff in B as [B1 B2]. cbn [fold_left fst snd]. apply IH; [exact B2|]. destruct (str_eqb k0 k); [|exact V].
    unfold attr_ok in B1. cbn [fst snd] in B1. apply andb_true_iff in B1 as [_ B1]. destruct w; try discriminate; exact Logic.I. }
  specialize (C a VNone A Logic.I). fold (last_value k a) in C. destruct (last_value k a) as [v|z|b|]; try contradiction; [right; exists v|left]; split; try reflexivity; exact D.
Qed.
Lemma absent_none : forall k a, absent k a -> last_value k a = VNone.
Proof.
  intros k a H. unfold last_value. generalize VNone. induction a as [|[k0 w] a IH]; intro v; [reflexivity|]. cbn [fold_left fst snd]. destruct (str_eqb k0 k) eqn:E.
  - apply str_eqb_eq in E. subst. exfalso. apply (H w). left. reflexivity.
  - apply IH. intros w' I. apply (H w'). right. exact I.
Qed.
Lemma source_get : forall k a s, forallb attr_ok a = true -> source k a s -> dict_get k (dict_of a) = Some (VStr s).
Proof. intros k a s A H. destruct (value_cases k a A) as [[E _]|(v & E & G)]; unfold source in H; rewrite E in H; [discriminate|]. injection H as ->. exact G. Qed.
Lemma absent_get : forall k a, forallb attr_ok a = true -> absent k a -> dict_get k (dict_of a) = None.
Proof. intros k a A H. apply absent_none in H. destruct (value_cases k a A) as [[E G]|(v & E & G)]; [exact G|congruence]. Qed.
Lemma len_given : forall k a kind lv anc, forallb attr_ok a = true -> attr_len k (mkn kind None (dict_of a) lv anc) = Ok (given k a).
Proof. intros k a kind lv anc A. unfold attr_len, given. cbn [n_attrs]. destruct (value_cases k a A) as [[-> ->]|(v & -> & ->)]; reflexivity. Qed.
Lemma true_given : forall k a, forallb attr_ok a = true -> attr_true (dict_get k (dict_of a)) = negb (is_nil (given k a)).
Proof. intros k a A. unfold given. destruct (value_cases k a A) as [[-> ->]|(v & -> & ->)]; [reflexivity|]. destruct v; reflexivity. Qed.
Lemma shown_given : forall k a, forallb attr_ok a = true -> is_nil (given k a) = false -> (match dict_get k (dict_of a) with Some v => show_attr v | None => $ "None" end) = given k a.
Proof. intros k a A. unfold given. destruct (value_cases k a A) as [[-> ->]|(v & -> & ->)]; [discriminate|reflexivity]. Qed.

(** the file name *)
Lemma basename_file : forall s, file_of s (basename s).
Proof.
  intro s. unfold basename, file_of. split.
  - intro I. apply in_rev in I. assert (T : forall l : str, ~ In 47 (take_while (fun c => negb (c =? 47)) l)).
    { induction l as [|c l IH]; [intros []|]. cbn [take_while]. destruct (N.eqb_spec c 47); cbn [negb]; [intros []|]. intros [X|X]; [congruence|exact (IH X)]. }
    exact (T _ I).
  - destruct (seg_split (rev s)) as (w & E & W). exists (rev w). split.
    + rewrite <- rev_app_distr, <- E. symmetry. apply rev_involutive.
    + destruct w as [|c w]; [left; reflexivity|]. right. exists (rev w). subst c. reflexivity.
Qed.
Lemma file_unique : forall s f f', file_of s f -> file_of s f' -> f = f'.
Proof.
  intros s f f' (N & d & E & D) (N' & d' & E' & D').
  assert (K : forall x y : str, ~ In 47 x -> ~ In 47 y -> forall p q, (p = [] \/ exists p', p = p' ++ [47]) -> (q = [] \/ exists q', q = q' ++ [47]) -> p ++ x = q ++ y -> x = y).
  { intros x y Nx Ny p q P Q H. assert (R : rev x ++ rev p = rev y ++ rev q) by (rewrite <- !rev_app_distr; f_equal; exact H).
    assert (Nx' : ~ In 47 (rev x)) by (rewrite <- in_rev; exact Nx). assert (Ny' : ~ In 47 (rev y)) by (rewrite <- in_rev; exact Ny).
    assert (P' : match rev p with [] => True | c :: _ => c = 47 end) by (destruct P as [->|(p' & ->)]; [exact Logic.I|rewrite rev_app_distr; reflexivity]).
    assert (Q' : match rev q with [] => True | c :: _ => c = 47 end) by (destruct Q as [->|(q' & ->)]; [exact Logic.I|rewrite rev_app_distr; reflexivity]).
    rewrite <- (rev_involutive x), <- (rev_involutive y). f_equal. clear - R Nx' Ny' P' Q'. revert R Nx' Ny'. generalize (rev x) (rev y). induction l as [|c l IH]; intros [|c' l'] R Nx Ny; cbn [app] in R.
    - reflexivity.
    - rewrite R in P'. subst. exfalso. apply Ny. left. reflexivity.
    - rewrite <- R in Q'. subst. exfalso. apply Nx. left. reflexivity.
    - injection R as <- R. f_equal. apply IH; [exact R| |]; intro I; [apply Nx|apply Ny]; right; exact I. }
  apply (K f f' N N' d d' D D'). congruence.
Qed.
Definition img_text (a : attrs) (src : str) : str :=
  let t := if (List.length (given ($ "title") a) <? List.length (given ($ "alt") a))%nat then given ($ "alt") a else given ($ "title") a in if truthy t then t else basename src.
Lemma img_text_eq : forall a src t, image_text a src t -> t = img_text a src.
Proof.
  intros a src t (H1 & H2 & H3). unfold img_text. cbv zeta in *. destruct (Nat.ltb_spec (List.length (given ($ "title") a)) (List.length (given ($ "alt") a))) as [B|B].
  - rewrite (H2 B). destruct (given ($ "alt") a) eqn:E; [cbn in B; lia|reflexivity].
  - destruct (given ($ "title") a) as [|c r] eqn:E; cbn [truthy].
    + assert (E2 : given ($ "alt") a = []) by (destruct (given ($ "alt") a); [reflexivity|cbn in B; lia]). apply (file_unique src); [apply H1; [reflexivity|exact E2]|apply basename_file].
    + apply H3; [exact B|discriminate].
Qed.
Theorem image_text_ex : forall a src, image_text a src (img_text a src).
Proof.
  intros a src. unfold image_text, img_text. cbv zeta. split; [|split].
  - intros E1 E2. rewrite E1, E2. cbn. apply basename_file.
  - intro B. destruct (Nat.ltb_spec (List.length (given ($ "title") a)) (List.length (given ($ "alt") a))) as [_|B']; [|lia]. destruct (given ($ "alt") a); [cbn in B; lia|reflexivity].
  - intros B NE. destruct (Nat.ltb_spec (List.length (given ($ "title") a)) (List.length (given ($ "alt") a))) as [B'|_]; [lia|]. destruct (given ($ "title") a); [congruence|reflexivity].
Qed.
Lemma place_data : forall src, in_place src <-> str_eqb (take_while (fun c => negb (c =? 58)) src) ($ "data") = true.
Proof.
  intro src. split.
  - intros [->|(r & ->)]; reflexivity.
  - intro H. apply str_eqb_eq in H. assert (E : exists w, src = take_while (fun c => negb (c =? 58)) src ++ w /\ match w with [] => True | c :: _ => c = 58 end).
    { clear H. induction src as [|c p (w & E & W)]; [exists []; split; [reflexivity|exact Logic.I]|]. cbn [take_while]. destruct (N.eqb_spec c 58).
      - subst c. exists (58 :: p). split; reflexivity.
      - cbn [negb]. exists w. split; [cbn [app]; rewrite <- E; reflexivity|exact W]. }
    destruct E as (w & E & W). rewrite H in E. destruct w as [|c w]; [left; rewrite E; reflexivity|]. subst c. right. exists w. rewrite E. reflexivity.
Qed.
Lemma parts_image : forall a src lv anc, forallb attr_ok a = true -> source ($ "src") a src -> ~ in_place src ->
  img_parts (mkn ($ "img") None (dict_of a) lv anc) = Ok (Some (src, img_text a src)).
Proof.
  intros a src lv anc A S NP. unfold img_parts, attr. cbn [n_attrs]. rewrite (source_get _ _ _ A S). cbn [bind]. destruct (str_eqb (take_while (fun c => negb (c =? 58)) src) ($ "data")) eqn:E; [exfalso; apply NP, place_data, E|].
  rewrite !len_given by exact A. reflexivity.
Qed.
Lemma parts_place : forall a src lv anc, forallb attr_ok a = true -> source ($ "src") a src -> in_place src -> img_parts (mkn ($ "img") None (dict_of a) lv anc) = Ok None.
Proof. intros a src lv anc A S NP. unfold img_parts, attr. cbn [n_attrs]. rewrite (source_get _ _ _ A S). cbn [bind]. apply place_data in NP. rewrite NP. reflexivity. Qed.
Lemma parts_none : forall a lv anc, forallb attr_ok a = true -> absent ($ "src") a -> img_parts (mkn ($ "img") None (dict_of a) lv anc) = Exc EKeyError.
Proof. intros a lv anc A S. unfold img_parts, attr. cbn [n_attrs]. rewrite (absent_get _ _ A S). reflexivity. Qed.

(** ** results *)
Definition top (ms : methods) (u : unknown) (f : meth) (k : str) (d : pydict) (ch : list hnode) : res (str * est) :=
  f (mkn k None d None [$ "document"]) (EmitFacts.kids_of ms u no_pre [$ "document"] k None ch) (set_last ($ "document", None) e_init).
Lemma doc_one : forall ms u k d ch f, find_meth ms ($ "document") = Some document_emit -> find_meth ms k = Some f ->
  (do (r, _) <- emit_node ms u no_pre [] (HN ($ "document") None [] None [HN k None d None ch]) e_init; Ok (strip r)) = (do (r, _) <- top ms u f k d ch; Ok (strip r)).
Proof.
  intros ms u k d ch f D F. rewrite EmitFacts.emit_node_eq. unfold no_pre at 1. unfold run_meth. cbn [n_kind]. rewrite D. unfold document_emit, EmitFacts.kids_of. cbn [EmitFacts.emit_list].
  rewrite EmitFacts.emit_node_eq. unfold no_pre at 1. unfold run_meth. cbn [n_kind]. rewrite F. unfold top. destruct (f _ _ _) as [[r s]|e]; cbn [bind app]; [|reflexivity]. rewrite app_nil_r. reflexivity.
Qed.
Definition text_kid (w : str) : list hnode := [HN ($ "data") (Some w) [] None []].
Lemma kid_text : forall ms u w s, find_meth ms ($ "data") = Some data_emit -> exists s', EmitFacts.kids_of ms u no_pre [$ "document"] ($ "a") None (text_kid w) s = Ok (w, s') /\ used_links s' = used_links s /\ subst_data s' = subst_data s.
Proof.
  intros ms u w s D. unfold EmitFacts.kids_of, text_kid. cbn [EmitFacts.emit_list]. rewrite EmitFacts.emit_node_eq. unfold no_pre at 1. unfold run_meth. cbn [n_kind]. rewrite D. unfold data_emit. cbn [n_content bind app].
  eexists. rewrite app_nil_r. repeat split; reflexivity.
Qed.
Lemma kid_text_m : forall u w s, w <> [32] -> exists s', EmitFacts.kids_of markdown_methods u no_pre [$ "document"] ($ "a") None (text_kid w) s = Ok (w, s').
Proof.
  intros u w s N. unfold EmitFacts.kids_of, text_kid. cbn [EmitFacts.emit_list]. rewrite EmitFacts.emit_node_eq. unfold no_pre at 1. unfold run_meth. cbn [n_kind]. change (find_meth markdown_methods ($ "data")) with (Some m_data). unfold m_data. cbn [n_content].
  assert (str_eqb w [32] = false) as -> by (apply str_eqb_neq; exact N). cbn [bind app]. eexists. rewrite app_nil_r. reflexivity.
Qed.
Lemma solid_wrap : forall c (m : str) d, is_space c = false -> is_space d = false -> solid (c :: m ++ [d]) = true.
Proof. intros c m d C D. eapply CleanEmit.solid_intro; [reflexivity|exact C| |exact D]. change (c :: m ++ [d]) with ((c :: m) ++ [d]). reflexivity. Qed.

Theorem creole_image : forall u strict a src t html, forallb attr_plain a = true -> image_html a html -> source ($ "src") a src -> ~ in_place src -> image_text a src t ->
  html2creole u strict html = Ok ($ "{{" ++ src ++ $ "|" ++ t ++ image_size strict a ++ $ "}}").
Proof.
  intros u strict a src t html A H S NP T. assert (AO : forallb attr_ok a = true) by (apply fine_ok; exact A). apply img_text_eq in T. subst t.
  unfold html2creole, emit_creole. rewrite (image_tree a html A H). cbn [bind]. rewrite (doc_one _ u _ _ _ (c_img strict)) by reflexivity.
  unfold top, c_img. rewrite (parts_image a src _ _ AO S NP). cbn [bind n_attrs]. rewrite !true_given by exact AO.
  match goal with |- Ok (strip ?x) = _ => replace x with ($ "{{" ++ src ++ $ "|" ++ img_text a src ++ image_size strict a ++ $ "}}") end.
  - f_equal. apply CleanEmit.strip_solid. match goal with |- solid ?x = true => replace x with (123 :: ([123] ++ src ++ $ "|" ++ img_text a src ++ image_size strict a ++ [125]) ++ [125]) end; [apply solid_wrap; reflexivity|].
    cbn [app]. rewrite <- ?app_assoc. cbn [app]. rewrite <- ?app_assoc. reflexivity.
  - do 4 f_equal. unfold image_size. destruct strict; [reflexivity|]. cbn [negb orb andb]. destruct (is_nil (given ($ "width") a)) eqn:E1; [rewrite andb_false_r; reflexivity|]. destruct (is_nil (given ($ "height") a)) eqn:E2; [reflexivity|].
    cbn [negb orb andb]. rewrite !shown_given by assumption. rewrite <- !app_assoc. reflexivity.
Qed.
Theorem textile_image : forall u a src t html, forallb attr_plain a = true -> image_html a html -> source ($ "src") a src -> ~ in_place src -> image_text a src t ->
  html2textile u html = Ok ($ "!" ++ src ++ $ "(" ++ t ++ $ ")!").
Proof.
  intros u a src t html A H S NP T. assert (AO : forallb attr_ok a = true) by (apply fine_ok; exact A). apply img_text_eq in T. subst t.
  unfold html2textile, emit_textile. rewrite (image_tree a html A H). cbn [bind]. rewrite (doc_one _ u _ _ _ t_img) by reflexivity.
  unfold top, t_img. rewrite (parts_image a src _ _ AO S NP). cbn [bind]. f_equal. apply CleanEmit.strip_solid.
  match goal with |- solid ?x = true => replace x with (33 :: (src ++ $ "(" ++ img_text a src ++ [41]) ++ [33]) end; [apply solid_wrap; reflexivity|]. cbn [app]. rewrite <- ?app_assoc. cbn [app]. rewrite <- ?app_assoc. reflexivity.
Qed.
Theorem markdown_image : forall u a ad html, forallb attr_plain a = true -> image_html a html -> addr_ok ad = true -> source ($ "src") a (show_addr ad) ->
  html2markdown u html = Ok ($ "![" ++ given ($ "alt") a ++ $ "](" ++ show_addr (quoted ad) ++ (if is_nil (given ($ "alt") a) then [] else quote_title (given ($ "title") a)) ++ $ ")").
Proof.
  intros u a ad html A H AD S. assert (AO : forallb attr_ok a = true) by (apply fine_ok; exact A).
  unfold html2markdown, emit_markdown. rewrite (image_tree a html A H). cbn [bind]. rewrite (doc_one _ u _ _ _ m_img) by reflexivity.
  unfold top, m_img, attr. cbn [n_attrs]. rewrite (source_get _ _ _ AO S). cbn [bind]. rewrite (quote_addr ad AD). cbn [bind]. rewrite true_given by exact AO.
  assert (AL : (match dict_get ($ "alt") (dict_of a) with Some v => v | None => VStr [] end) = VStr (given ($ "alt") a)) by (unfold given; destruct (value_cases ($ "alt") a AO) as [[-> ->]|(v & -> & ->)]; reflexivity).
  rewrite AL. change (show_attr (VStr (given ($ "alt") a))) with (given ($ "alt") a).
  assert (AT : attr_true (Some (VStr (given ($ "alt") a))) = negb (is_nil (given ($ "alt") a))) by (destruct (given ($ "alt") a); reflexivity). rewrite AT.
  match goal with |- Ok (strip ?x) = Ok ?y => replace x with y end.
  - f_equal. apply CleanEmit.strip_solid. match goal with |- solid ($ "![" ++ ?p ++ $ "](" ++ ?q ++ ?r ++ $ ")") = true => change (solid (33 :: ([91] ++ p ++ $ "](" ++ q ++ r ++ [41])) = true); rewrite !app_assoc end. apply solid_wrap; reflexivity.
  - do 4 f_equal. f_equal. unfold quote_title. destruct (is_nil (given ($ "alt") a)); [rewrite andb_false_r; reflexivity|]. rewrite andb_true_r. destruct (is_nil (given ($ "title") a)) eqn:E; [reflexivity|]. cbn [negb]. unfold given in *. destruct (value_cases ($ "title") a AO) as [[K ->]|(v & K & ->)]; rewrite K in *; [discriminate|reflexivity].
Qed.

(** images without a place or without a source *)
Theorem image_in_place : forall u strict a src html, forallb attr_plain a = true -> image_html a html -> source ($ "src") a src -> in_place src ->
  html2creole u strict html = Ok [] /\ html2textile u html = Ok [] /\ html2rest u html = Ok [].
Proof.
  intros u strict a src html A H S NP. assert (AO : forallb attr_ok a = true) by (apply fine_ok; exact A). unfold html2creole, emit_creole, html2textile, emit_textile, html2rest, emit_rest. rewrite (image_tree a html A H). cbn [bind].
  rewrite (doc_one _ u _ _ _ (c_img strict)) by reflexivity. rewrite (doc_one _ u _ _ _ t_img) by reflexivity. unfold top, c_img, t_img. rewrite !(parts_place a src _ _ AO S NP). split; [reflexivity|]. split; [reflexivity|].
  rewrite EmitFacts.emit_node_eq. cbn [rest_pre e_init subst_data]. unfold run_meth. cbn [n_kind]. change (find_meth rest_methods ($ "document")) with (Some r_document). unfold r_document, EmitFacts.kids_of. cbn [EmitFacts.emit_list].
  rewrite EmitFacts.emit_node_eq. cbn [rest_pre e_init subst_data set_last]. unfold run_meth. cbn [n_kind]. change (find_meth rest_methods ($ "img")) with (Some r_img). unfold r_img. rewrite !(parts_place a src _ _ AO S NP). reflexivity.
Qed.
Theorem image_no_source : forall u strict a html, forallb attr_plain a = true -> image_html a html -> absent ($ "src") a ->
  html2creole u strict html = Exc EKeyError /\ html2textile u html = Exc EKeyError /\ html2markdown u html = Exc EKeyError /\ html2rest u html = Exc EKeyError.
Proof.
  intros u strict a html A H S. assert (AO : forallb attr_ok a = true) by (apply fine_ok; exact A). unfold html2creole, emit_creole, html2textile, emit_textile, html2rest, emit_rest, html2markdown, emit_markdown. rewrite (image_tree a html A H). cbn [bind].
  rewrite (doc_one _ u _ _ _ (c_img strict)) by reflexivity. rewrite (doc_one _ u _ _ _ t_img) by reflexivity. rewrite (doc_one _ u _ _ _ m_img) by reflexivity. unfold top, c_img, t_img, m_img. rewrite !(parts_none a _ _ AO S). split; [reflexivity|]. split; [reflexivity|]. split.
  - unfold attr. cbn [n_attrs]. rewrite (absent_get _ _ AO S). reflexivity.
  - rewrite EmitFacts.emit_node_eq. cbn [rest_pre e_init subst_data]. unfold run_meth. cbn [n_kind]. change (find_meth rest_methods ($ "document")) with (Some r_document). unfold r_document, EmitFacts.kids_of. cbn [EmitFacts.emit_list].
    rewrite EmitFacts.emit_node_eq. cbn [rest_pre e_init subst_data set_last]. unfold run_meth. cbn [n_kind]. change (find_meth rest_methods ($ "img")) with (Some r_img). unfold r_img. rewrite !(parts_none a _ _ AO S). reflexivity.
Qed.
Lemma rstrip_tail : forall (x : str) c w, is_space c = false -> forallb is_space w = true -> rstrip ((x ++ [c]) ++ w) = x ++ [c].
Proof.
  intros x c w C W. unfold rstrip. etransitivity; [apply rstrip_app_all; exact W|apply rstrip_keep; exact C].
Qed.
Theorem rest_image : forall u a src t html, forallb attr_plain a = true -> image_html a html -> source ($ "src") a src -> ~ in_place src -> image_text a src t -> tight src ->
  html2rest u html = Ok ($ "|" ++ t ++ $ "|" ++ [10; 10] ++ $ ".. |" ++ t ++ $ "| image:: " ++ src).
Proof.
  intros u a src t html A H S NP T (r & c & E & C). assert (AO : forallb attr_ok a = true) by (apply fine_ok; exact A). apply img_text_eq in T. subst t.
  unfold html2rest, emit_rest. rewrite (image_tree a html A H). cbn [bind].
  rewrite EmitFacts.emit_node_eq. cbn [rest_pre e_init subst_data]. unfold run_meth. cbn [n_kind]. change (find_meth rest_methods ($ "document")) with (Some r_document). unfold r_document, EmitFacts.kids_of. cbn [EmitFacts.emit_list].
  rewrite EmitFacts.emit_node_eq. cbn [rest_pre e_init subst_data set_last]. unfold run_meth. cbn [n_kind]. change (find_meth rest_methods ($ "img")) with (Some r_img). unfold r_img. rewrite !(parts_image a src _ _ AO S NP). cbn [bind].
  unfold get_old. cbn [used_images set_last e_init dict_get bind attr_true set_images set_subst subst_data app].
  assert (EW : forall x : str, endswith [10; 10] (124 :: (x ++ [124]) ++ []) = false).
  { intro x. rewrite app_nil_r. change (124 :: x ++ [124]) with ((124 :: x) ++ [124]). unfold endswith. rewrite rev_app_distr. reflexivity. }
  rewrite EW. unfold get_block_data. cbn [subst_data set_subst join set_last bind app]. rewrite app_nil_r. f_equal. subst src.
  match goal with |- rstrip ?x = ?y => replace x with (((124 :: img_text a (r ++ [c]) ++ [124; 10; 10] ++ $ ".. |" ++ img_text a (r ++ [c]) ++ $ "| image:: " ++ r) ++ [c]) ++ [10; 10]) end.
  - rewrite rstrip_tail by (try exact C; reflexivity). cbn [app]. rewrite <- ?app_assoc. cbn [app]. rewrite <- ?app_assoc. cbn [app]. rewrite <- ?app_assoc. reflexivity.
  - cbn [app]. rewrite <- ?app_assoc. cbn [app]. rewrite <- ?app_assoc. cbn [app]. rewrite <- ?app_assoc. reflexivity.
Qed.

(** ** links *)
Theorem creole_link : forall u strict a ws html, forallb attr_plain a = true -> ws <> [] -> forallb word ws = true -> link_html a ws html ->
  (forall h, source ($ "href") a h -> html2creole u strict html = Ok (if str_eqb (words ws) h then $ "[[" ++ h ++ $ "]]" else $ "[[" ++ h ++ $ "|" ++ words ws ++ $ "]]")) /\
  (absent ($ "href") a -> html2creole u strict html = Ok (words ws)).
Proof.
  intros u strict a ws html A NE WS H. assert (AO : forallb attr_ok a = true) by (apply fine_ok; exact A).
  unfold html2creole, emit_creole. rewrite (link_tree a ws html A NE WS H). cbn [bind]. fold (text_kid (words ws)). rewrite (doc_one _ u _ _ _ c_a) by reflexivity. unfold top, c_a.
  destruct (kid_text (creole_methods strict) u (words ws) (set_last ($ "document", None) e_init) eq_refl) as (s' & K & _). rewrite K. cbn [bind n_attrs]. split.
  - intros h S. rewrite (source_get _ _ _ AO S). f_equal. cbn [show_attr]. destruct (str_eqb (words ws) h); apply CleanEmit.strip_solid.
    + match goal with |- solid ?x = true => replace x with (91 :: ([91] ++ h ++ [93]) ++ [93]) end; [apply solid_wrap; reflexivity|]. cbn [app]. rewrite <- ?app_assoc. reflexivity.
    + match goal with |- solid ?x = true => replace x with (91 :: ([91] ++ h ++ $ "|" ++ words ws ++ [93]) ++ [93]) end; [apply solid_wrap; reflexivity|]. cbn [app]. rewrite <- ?app_assoc. cbn [app]. rewrite <- ?app_assoc. reflexivity.
  - intro S. rewrite (absent_get _ _ AO S). f_equal. apply CleanEmit.strip_solid, words_solid; assumption.
Qed.
Theorem textile_link : forall u a ws html, forallb attr_plain a = true -> ws <> [] -> forallb word ws = true -> link_html a ws html ->
  (forall h, source ($ "href") a h -> tight h -> html2textile u html = Ok ($ """" ++ words ws ++ $ """:" ++ h)) /\
  (absent ($ "href") a -> html2textile u html = Exc EKeyError).
Proof.
  intros u a ws html A NE WS H. assert (AO : forallb attr_ok a = true) by (apply fine_ok; exact A).
  unfold html2textile, emit_textile. rewrite (link_tree a ws html A NE WS H). cbn [bind]. fold (text_kid (words ws)). rewrite (doc_one _ u _ _ _ t_a) by reflexivity. unfold top, t_a, attr.
  destruct (kid_text textile_methods u (words ws) (set_last ($ "document", None) e_init) eq_refl) as (s' & K & _). rewrite K. cbn [bind n_attrs]. split.
  - intros h S (r & c & E & C). rewrite (source_get _ _ _ AO S). cbn [bind]. f_equal. cbn [show_attr]. apply CleanEmit.strip_solid. subst h.
    match goal with |- solid ?x = true => replace x with (34 :: (words ws ++ $ """:" ++ r) ++ [c]) end; [apply solid_wrap; [reflexivity|exact C]|]. cbn [app]. rewrite <- ?app_assoc. cbn [app]. rewrite <- ?app_assoc. reflexivity.
  - intro S. rewrite (absent_get _ _ AO S). reflexivity.
Qed.
Theorem markdown_link : forall u a ws html, forallb attr_plain a = true -> ws <> [] -> forallb word ws = true -> link_html a ws html ->
  (forall ad, addr_ok ad = true -> source ($ "href") a (show_addr ad) ->
    html2markdown u html = Ok ($ "[" ++ words ws ++ $ "](" ++ show_addr (quoted ad) ++ quote_title (given ($ "title") a) ++ $ ")")) /\
  (absent ($ "href") a -> html2markdown u html = Exc EKeyError).
Proof.
  intros u a ws html A NE WS H. assert (AO : forallb attr_ok a = true) by (apply fine_ok; exact A).
  unfold html2markdown, emit_markdown. rewrite (link_tree a ws html A NE WS H). cbn [bind]. fold (text_kid (words ws)). rewrite (doc_one _ u _ _ _ m_a) by reflexivity. unfold top, m_a, attr.
  destruct (kid_text_m u (words ws) (set_last ($ "document", None) e_init)) as (s' & K). { intro E. pose proof (words_solid ws NE WS) as SO. rewrite E in SO. discriminate SO. } rewrite K. cbn [bind n_attrs]. split.
  - intros ad AD S. rewrite (source_get _ _ _ AO S). cbn [bind]. rewrite (quote_addr ad AD). cbn [bind]. rewrite true_given by exact AO.
    match goal with |- Ok (strip ?x) = Ok ?y => replace x with y end.
    + f_equal. apply CleanEmit.strip_solid. match goal with |- solid ($ "[" ++ ?p ++ $ "](" ++ ?q ++ ?r ++ $ ")") = true => change (solid (91 :: (p ++ $ "](" ++ q ++ r ++ [41])) = true); rewrite !app_assoc end. apply solid_wrap; reflexivity.
    + do 5 f_equal. unfold quote_title. destruct (is_nil (given ($ "title") a)) eqn:E; [reflexivity|]. cbn [negb]. unfold given in *. destruct (value_cases ($ "title") a AO) as [[X ->]|(v & X & ->)]; rewrite X in *; [discriminate|reflexivity].
  - intro S. rewrite (absent_get _ _ AO S). reflexivity.
Qed.
Theorem rest_link : forall u a ws html, forallb attr_plain a = true -> ws <> [] -> forallb word ws = true -> link_html a ws html ->
  (forall h, source ($ "href") a h -> html2rest u html = Ok ($ "`" ++ words ws ++ $ " <" ++ h ++ $ ">`_")) /\
  (absent ($ "href") a -> html2rest u html = Exc EKeyError).
Proof.
  intros u a ws html A NE WS H. assert (AO : forallb attr_ok a = true) by (apply fine_ok; exact A).
  unfold html2rest, emit_rest. rewrite (link_tree a ws html A NE WS H). cbn [bind].
  rewrite EmitFacts.emit_node_eq. cbn [rest_pre e_init subst_data]. unfold run_meth. cbn [n_kind]. change (find_meth rest_methods ($ "document")) with (Some r_document). unfold r_document, EmitFacts.kids_of. cbn [EmitFacts.emit_list].
  rewrite EmitFacts.emit_node_eq. cbn [rest_pre e_init subst_data set_last]. unfold run_meth. cbn [n_kind]. change (find_meth rest_methods ($ "a")) with (Some r_a). unfold r_a, EmitFacts.kids_of. cbn [EmitFacts.emit_list].
  rewrite EmitFacts.emit_node_eq. cbn [rest_pre e_init subst_data set_last]. unfold run_meth. cbn [n_kind]. change (find_meth rest_methods ($ "data")) with (Some data_emit). unfold data_emit. cbn [n_content bind app]. rewrite app_nil_r. unfold attr. cbn [n_attrs]. split.
  - intros h S. rewrite (source_get _ _ _ AO S). cbn [bind]. unfold get_old. cbn [used_links set_last e_init dict_get bind attr_true set_links should_substitute n_anc existsb]. change (in_list [$ "th"; $ "td"] ($ "document")) with false. cbn [orb bind subst_data set_links set_last e_init app show_attr]. rewrite app_nil_r. f_equal.
    match goal with |- rstrip ?x = ?y => replace x with (((96 :: words ws ++ $ " <" ++ h ++ $ ">`") ++ [95]) ++ []) end.
    + rewrite rstrip_tail by reflexivity. cbn [app]. rewrite <- ?app_assoc. cbn [app]. rewrite <- ?app_assoc. reflexivity.
    + rewrite app_nil_r. cbn [app]. rewrite <- ?app_assoc. cbn [app]. rewrite <- ?app_assoc. reflexivity.
  - intro S. rewrite (absent_get _ _ AO S). reflexivity.
Qed.
