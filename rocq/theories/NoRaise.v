(** * The converters return a result for sound documents *)
From Coq Require Import String List Arith NArith ZArith Bool Lia.
From Verif Require Import PyStr PyStrFacts Utils Res HtmlTools HtmlToolsFacts HtmlTok HtmlParser MarkupTable UrlQuote HtmlBase Html2X.
From Verif Require Import Safety TreeFacts EmitFacts Spec14 Spec15.
Import ListNotations.
Open Scope N_scope.

(** the exceptions that remain possible *)
Definition may (f : format) (e : exc) : Prop := match f with Rest => e = ESubstitution | _ => False end.
Definition has_tbl (s : est) : Prop := tbl s <> None.
Definition fine (f : format) (s : est) (x : res (str * est)) : Prop :=
  match x with Ok (_, s') => has_tbl s -> has_tbl s' | Exc e => may f e end.
Definition up (anc : list str) : str := match anc with k :: _ => k | [] => [] end.
Definition safe (f : format) (km : str * meth) : Prop := forall c a l anc inside kids s,
  (if in_list text_kinds (fst km) then sound_text f (fst km) c
   else sound_element f inside (up anc) (fst km) a l) = true ->
  (inside = true -> has_tbl s) ->
  (in_list (text_kinds ++ void_kinds) (fst km) = false -> forall s0,
     ((inside || str_eqb (fst km) ($ "table")) = true -> has_tbl s0) -> fine f s0 (kids s0)) ->
  fine f s (snd km (mkn (fst km) c a l anc) kids s).

(** ** Methods that look at their children first *)
Lemma fine_bind : forall f s x g, fine f s x ->
  (forall r s', x = Ok (r, s') -> (has_tbl s -> has_tbl s') -> fine f s (g (r, s'))) -> fine f s (bind x g).
Proof.
  intros f s x g Hx Hg. destruct x as [[r s']|e]; cbn [bind]; [|exact Hx]. apply Hg; [reflexivity | exact Hx].
Qed.
Lemma fine_ok : forall f s (r : str) (s' : est), (has_tbl s -> has_tbl s') -> fine f s (Ok (r, s')).
Proof. intros f s r s' H. exact H. Qed.
Lemma fine_eq : forall f s s0 x, tbl s0 = tbl s -> fine f s0 x -> fine f s x.
Proof. intros f s s0 x E H. destruct x as [[r s']|e]; [|exact H]. cbn [fine] in *. unfold has_tbl in *. rewrite E in H. exact H. Qed.

Ltac kids H := eapply fine_bind;
  [ apply H; [reflexivity | let Q := fresh in intro Q; auto] | let Q := fresh "Hs" in intros ?r ?s' _ Q ].

Definition plainly (m : meth) : Prop := forall f ni kids s, (fine f s (kids s)) -> fine f s (m ni kids s).
Lemma safe_plain : forall f k m, in_list (text_kinds ++ void_kinds) k = false -> in_list text_kinds k = false ->
  str_eqb k ($ "table") = false -> plainly m -> safe f (k, m).
Proof.
  intros f k m E1 E2 E3 Hm c a l anc inside kids s _ Ht Hk. cbn [fst snd] in *. apply Hm. apply Hk; [exact E1|].
  rewrite E3, orb_false_r. exact Ht.
Qed.
Ltac plain := intros f ni kids s H; apply fine_bind; [exact H | intros r s' _ Hs; try (apply fine_ok; exact Hs)].
Lemma typeface_plain : forall k, plainly (typeface k).
Proof. intro k. unfold typeface. plain. Qed.
Lemma p_plain : plainly p_emit.
Proof. unfold p_emit. plain. Qed.
Lemma c_p_plain : plainly c_p.
Proof. unfold c_p. plain. Qed.
Lemma m_p_plain : plainly m_p.
Proof. unfold m_p. plain. Qed.
Lemma c_a_plain : plainly c_a.
Proof. unfold c_a. plain. Qed.
Lemma li_plain : plainly li_emit.
Proof. unfold li_emit. plain. Qed.
Lemma content_plain : plainly content_emit.
Proof. unfold content_emit. plain. Qed.
Lemma html_plain : forall t, plainly (m_html t).
Proof. intro t. unfold m_html. plain. Qed.
Lemma m_list_plain : plainly m_list.
Proof. unfold m_list. plain. Qed.
Lemma document_plain : plainly document_emit.
Proof. intros f ni kids s H. exact H. Qed.
Lemma r_small_plain : plainly r_small.
Proof. intros f ni kids s H. exact H. Qed.
Lemma r_code_plain : plainly r_code.
Proof. intros f ni kids s H. unfold r_code. apply fine_bind; [apply content_plain; exact H | intros r s' _ Hs; apply fine_ok; exact Hs]. Qed.
Lemma r_document_plain : plainly r_document.
Proof.
  unfold r_document. plain. destruct (subst_data s'); [apply fine_ok; exact Hs|]. unfold get_block_data. apply fine_ok. exact Hs.
Qed.
(** a method that changes a field other than the table *)
Lemma list_safe : forall f k t, in_list [$ "ul"; $ "ol"] k = true -> safe f (k, list_emit t).
Proof.
  intros f k t Hk c a l anc inside kids s _ Ht H. cbn [fst snd] in *. unfold list_emit.
  apply (fine_eq f s (set_inner (inner_list s ++ t) s)); [reflexivity|].
  apply fine_bind; [apply H; [apply in_list_In in Hk; destruct Hk as [<-|[<-|[]]]; reflexivity|] | intros r s' _ Hs; apply fine_ok; exact Hs].
  intro Q. apply in_list_In in Hk. destruct Hk as [<-|[<-|[]]]; apply Ht; rewrite orb_false_r in Q; exact Q.
Qed.
Lemma r_list_safe : forall f k t, in_list [$ "ul"; $ "ol"] k = true -> safe f (k, r_list t).
Proof.
  intros f k t Hk c a l anc inside kids s _ Ht H. cbn [fst snd] in *. unfold r_list.
  apply (fine_eq f s (set_markup t s)); [reflexivity|].
  apply fine_bind; [apply H; [apply in_list_In in Hk; destruct Hk as [<-|[<-|[]]]; reflexivity|] | intros r s' _ Hs; apply fine_ok; exact Hs].
  intro Q. apply in_list_In in Hk. destruct Hk as [<-|[<-|[]]]; apply Ht; rewrite orb_false_r in Q; exact Q.
Qed.
(** ** Tables *)
Lemma set_tbl_has : forall t s, has_tbl (set_tbl t s).
Proof. intros t s. discriminate. Qed.
Definition makes_table (m : meth) : Prop := forall f ni kids s,
  (forall s0, has_tbl s0 -> fine f s0 (kids s0)) -> fine f s (m ni kids s).
Lemma safe_table : forall f m, makes_table m -> safe f ($ "table", m).
Proof.
  intros f m Hm c a l anc inside kids s _ Ht Hk. cbn [fst snd] in *. apply Hm. intros s0 H0. apply Hk; [reflexivity | auto].
Qed.
Ltac mtable t := intros f ni kids s H;
  pose proof (H (set_tbl t s) (set_tbl_has _ _)) as Q;
  destruct (kids (set_tbl t s)) as [[r s']|e] eqn:E; [|exact Q]; cbn [fine] in Q; cbn [bind];
  apply fine_ok; intros _; apply Q, set_tbl_has.
Lemma table_makes : forall hp aw, makes_table (table_emit hp aw).
Proof. intros hp aw. unfold table_emit. mtable (new_table hp aw). Qed.
Lemma m_table_makes : makes_table m_table.
Proof. unfold m_table. mtable (new_table [] true). Qed.
Lemma r_table_makes : makes_table r_table.
Proof. unfold r_table. mtable (new_table [] true). Qed.
Lemma safe_tr : forall f, safe f ($ "tr", tr_emit).
Proof.
  intros f c a l anc inside kids s Hin Ht Hk. cbn [fst snd] in *. change (inside = true) in Hin. unfold tr_emit.
  pose proof (Ht Hin) as H0. unfold has_tbl in H0. destruct (tbl s) as [t|]; [|congruence].
  pose proof (Hk eq_refl (set_tbl (add_tr t) s) (fun _ => set_tbl_has _ _)) as Q.
  destruct (kids (set_tbl (add_tr t) s)) as [[r s']|e]; [|exact Q]. cbn [fine] in Q. cbn [bind]. apply fine_ok. intros _. apply Q, set_tbl_has.
Qed.
Lemma safe_cell : forall f k m, in_list [$ "th"; $ "td"] k = true -> (m = cell_emit add_th \/ m = cell_emit add_td \/ m = m_cell add_th \/ m = m_cell add_td) -> safe f (k, m).
Proof.
  intros f k m Hk Hm c a l anc inside kids s Hin Ht H. cbn [fst snd] in *.
  assert (Hi : inside = true) by (apply in_list_In in Hk; destruct Hk as [<-|[<-|[]]]; exact Hin).
  assert (Hkids : fine f s (kids s)).
  { apply H; [apply in_list_In in Hk; destruct Hk as [<-|[<-|[]]]; reflexivity | intros _; exact (Ht Hi)]. }
  pose proof (Ht Hi) as H0.
  destruct Hm as [-> | [-> | [-> | ->]]]; unfold cell_emit, m_cell;
    (destruct (kids s) as [[r s']|e]; [|exact Hkids]; cbn [fine] in Hkids; cbn [bind]; specialize (Hkids H0); unfold has_tbl in Hkids;
     destruct (tbl s') as [t|]; [|congruence]; apply fine_ok; intros _; apply set_tbl_has).
Qed.
(** ** Headlines, items, links, images *)
Lemma level_ok : forall f l, sound_level f l = true -> exists z, l = Some z /\ (f = Rest -> (0 < z)%Z).
Proof.
  intros f [z|] H; [|discriminate]. exists z. split; [reflexivity|]. intros ->. cbn in H. apply Z.ltb_lt in H. exact H.
Qed.
Lemma headline_rest : forall z, (0 < z)%Z -> headline_data (if (6 <? z)%Z then 6%Z else z) <> None.
Proof.
  intros z H. destruct (Z.ltb_spec 6 z) as [H6|H6]; [discriminate|].
  assert (z = 1 \/ z = 2 \/ z = 3 \/ z = 4 \/ z = 5 \/ z = 6)%Z as [->|[->|[->|[->|[->| ->]]]]] by lia; discriminate.
Qed.
Lemma safe_headline : forall f m, In (f, m) [(Creole, c_headline); (Textile, t_headline); (Markdown, m_headline); (Rest, r_headline)] ->
  safe f ($ "headline", m).
Proof.
  intros f m Hm c a l anc inside kids s Hl Ht H. cbn [fst snd] in *. change (sound_level f l = true) in Hl.
  destruct (level_ok f l Hl) as (z & -> & Hz).
  assert (Hkids : fine f s (kids s)) by (apply H; [reflexivity | rewrite orb_false_r; exact Ht]).
  destruct Hm as [Q|[Q|[Q|[Q|[]]]]]; injection Q as Q1 Q2; subst f m.
  - unfold c_headline, level_of. cbn [n_level bind]. apply fine_bind; [exact Hkids | intros r s' _ Hs; apply fine_ok; exact Hs].
  - unfold t_headline, level_of. cbn [n_level bind]. apply fine_bind; [exact Hkids | intros r s' _ Hs; apply fine_ok; exact Hs].
  - unfold m_headline, level_of. cbn [n_level bind]. apply fine_bind; [exact Hkids | intros r s' _ Hs; apply fine_ok; exact Hs].
  - unfold r_headline. apply fine_bind; [exact Hkids | intros r s' _ Hs]. unfold level_of. cbn [n_level bind].
    pose proof (headline_rest z (Hz eq_refl)) as Hd. destruct (headline_data _) as [[ch b]|]; [|congruence]. apply fine_ok. exact Hs.
Qed.
Lemma safe_m_li : safe Markdown ($ "li", m_li).
Proof.
  intros c a l anc inside kids s Hl Ht H. cbn [fst snd] in *. change (sound_item Markdown (up anc) l = true) in Hl.
  cbn [sound_item] in Hl. apply andb_true_iff in Hl as [Hp Hl]. destruct l as [z|]; [|discriminate]. unfold m_li. cbn [n_anc].
  change (match anc with [] => [] | k :: _ => k end) with (up anc).
  assert (Hkids : fine Markdown s (kids s)) by (apply H; [reflexivity | rewrite orb_false_r; exact Ht]).
  unfold level_of. cbn [n_level].
  apply in_list_In in Hp. destruct Hp as [<-|[<-|[]]]; cbn [str_eqb bind]; (apply fine_bind; [exact Hkids | intros r s' _ Hs; apply fine_ok; exact Hs]).
Qed.
Lemma safe_r_li : safe Rest ($ "li", r_li).
Proof.
  intros c a l anc inside kids s Hl Ht H. cbn [fst snd] in *. change (sound_item Rest (up anc) l = true) in Hl.
  cbn [sound_item] in Hl. destruct l as [z|]; [|discriminate]. unfold r_li.
  apply fine_bind; [apply H; [reflexivity | rewrite orb_false_r; exact Ht] | intros r s' _ Hs]. unfold level_of. cbn [n_level bind]. apply fine_ok. exact Hs.
Qed.
(** addresses *)
Lemma take_while_forallb : forall (p q : N -> bool) s, forallb q s = true -> forallb q (take_while p s) = true.
Proof.
  intros p q. induction s as [|c s IH]; intro H; [reflexivity|]. cbn [forallb take_while] in *. apply andb_true_iff in H as [H1 H2].
  destruct (p c); [|reflexivity]. cbn [forallb]. rewrite H1. exact (IH H2).
Qed.
Lemma drop_while_all : forall (p q : N -> bool) s, forallb q s = true -> forallb q (drop_while p s) = true.
Proof.
  intros p q. induction s as [|c s IH]; intro H; [reflexivity|]. cbn [drop_while]. destruct (p c); [|exact H].
  apply IH. cbn [forallb] in H. apply andb_true_iff in H. exact (proj2 H).
Qed.
Lemma filter_all : forall (p q : N -> bool) s, forallb q s = true -> forallb q (filter p s) = true.
Proof.
  intros p q s H. rewrite forallb_forall in *. intros c Hc. apply filter_In in Hc. apply H. exact (proj1 Hc).
Qed.
Lemma split1_all : forall (q : N -> bool) sep s a b, split1 sep s = Some (a, b) -> forallb q s = true -> forallb q a = true /\ forallb q b = true.
Proof.
  intros q sep. induction s as [|c s IH]; intros a b E H; [discriminate|]. cbn [split1] in E. cbn [forallb] in H. apply andb_true_iff in H as [H1 H2].
  destruct (c =? sep).
  - injection E as <- <-. split; [reflexivity | exact H2].
  - destruct (split1 sep s) as [[a' b']|]; [|discriminate]. injection E as <- <-. destruct (IH a' b' eq_refl H2) as [Ha Hb].
    split; [cbn [forallb]; rewrite H1; exact Ha | exact Hb].
Qed.
Lemma cut1_all : forall (q : N -> bool) sep s, forallb q s = true -> forallb q (fst (cut1 sep s)) = true /\ forallb q (snd (cut1 sep s)) = true.
Proof.
  intros q sep s H. unfold cut1. destruct (split1 sep s) as [[a b]|] eqn:E; [exact (split1_all q sep s a b E H) | split; [exact H | reflexivity]].
Qed.
Lemma rev_all : forall (q : N -> bool) s, forallb q s = true -> forallb q (rev s) = true.
Proof. intros q s H. rewrite forallb_forall in *. intros c Hc. apply H. apply in_rev. exact Hc. Qed.
Definition plain_char (c : N) : bool := negb ((c =? 91) || (c =? 93) || ((55296 <=? c) && (c <=? 57343))).
Lemma split_last_all : forall sep s, plain_char sep = true -> forallb plain_char s = true ->
  forallb plain_char (fst (split_last sep s)) = true /\ forallb plain_char (snd (split_last sep s)) = true.
Proof.
  intros sep s Hs H. unfold split_last. destruct (split1 sep (rev s)) as [[a b]|] eqn:E; [|split; [reflexivity | exact H]].
  destruct (split1_all plain_char sep (rev s) a b E (rev_all _ _ H)) as [Ha Hb]. cbn [fst snd]. split; apply rev_all; [|exact Ha].
  cbn [forallb]. rewrite Hs. exact Hb.
Qed.
Lemma split_params_all : forall s, forallb plain_char s = true -> forallb plain_char (fst (split_params s)) = true.
Proof.
  intros s H. unfold split_params. destruct (split_last_all 47 s eq_refl H) as [Hd Hb]. destruct (split_last 47 s) as [d b]. cbn [fst snd] in *.
  destruct (cut1_all plain_char 59 b Hb) as [Hc _]. destruct (cut1 59 b) as [b' ps]. cbn [fst] in *. rewrite forallb_app, Hd, Hc. reflexivity.
Qed.
Lemma not_contains : forall (x : N) s, plain_char x = false -> forallb plain_char s = true -> contains [x] s = false.
Proof.
  intros x s Hx H. destruct (contains [x] s) eqn:E; [|reflexivity]. apply contains_spec in E. destruct E as (a & b & ->).
  rewrite forallb_app in H. apply andb_true_iff in H as [_ H]. cbn [app forallb] in H. rewrite Hx in H. discriminate.
Qed.
Lemma split_netloc_ok : forall s, forallb plain_char s = true -> exists n r, split_netloc s = Ok (n, r) /\ forallb plain_char r = true.
Proof.
  intros s H. destruct s as [|c [|d t]]; [eexists _, _; split; [reflexivity | exact H]| | ].
  - exists [], [c]. split; [|exact H]. unfold split_netloc. destruct c as [|p]; [reflexivity|]. repeat (destruct p as [p|p|]; try reflexivity).
  - assert (D : ([c; d] = [47; 47]) \/ split_netloc (c :: d :: t) = Ok ([], c :: d :: t)).
    { destruct (N.eq_dec c 47) as [->|Hc]; [destruct (N.eq_dec d 47) as [->|Hd]; [left; reflexivity | right] | right].
      - unfold split_netloc. destruct d as [|p]; [reflexivity|]. repeat (destruct p as [p|p|]; try reflexivity). congruence.
      - unfold split_netloc. destruct c as [|p]; [reflexivity|]. repeat (destruct p as [p|p|]; try reflexivity). congruence. }
    destruct D as [D|D]; [|exists [], (c :: d :: t); split; [exact D | exact H]].
    injection D as -> ->. cbn [forallb] in H. apply andb_true_iff in H as [_ H]. apply andb_true_iff in H as [_ H].
    unfold split_netloc. rewrite (not_contains 91), (not_contains 93); try reflexivity; try (apply take_while_forallb; exact H).
    cbn [xorb]. eexists _, _. split; [reflexivity|]. apply drop_while_all. exact H.
Qed.
Lemma split_scheme_all : forall s, forallb plain_char s = true -> forallb plain_char (snd (split_scheme s)) = true.
Proof.
  intros s H. unfold split_scheme. destruct s as [|c s]; [reflexivity|]. destruct (is_alpha c); [|exact H].
  destruct (split1 58 (c :: s)) as [[a b]|] eqn:E; [|exact H]. destruct (split1_all plain_char 58 _ a b E H) as [_ Hb].
  destruct (forallb is_scheme_char a); [exact Hb | exact H].
Qed.
Lemma urlparse_ok : forall s, forallb plain_char s = true -> exists u, urlparse s = Ok u /\ forallb plain_char (u_path u) = true.
Proof.
  intros s H. unfold urlparse. set (s1 := drop_while _ s). assert (H1 : forallb plain_char s1 = true) by (apply drop_while_all; exact H).
  set (s2 := filter _ s1). assert (H2 : forallb plain_char s2 = true) by (apply filter_all; exact H1).
  pose proof (split_scheme_all s2 H2) as H3. destruct (split_scheme s2) as [sch s3]. cbn [snd] in H3.
  destruct (split_netloc_ok s3 H3) as (n & s4 & -> & H4). cbn [bind].
  destruct (cut1_all plain_char 35 s4 H4) as [H5 _]. destruct (cut1 35 s4) as [s5 fr]. cbn [fst] in H5.
  destruct (cut1_all plain_char 63 s5 H5) as [H6 _]. destruct (cut1 63 s5) as [s6 qu]. cbn [fst] in H6.
  pose proof (split_params_all s6 H6) as H7.
  destruct (in_list uses_params sch && contains [59] s6).
  - destruct (split_params s6) as [p ps]. eexists. split; [reflexivity | exact H7].
  - eexists. split; [reflexivity | exact H6].
Qed.
Lemma utf8_plain : forall c, plain_char c = true -> utf8 c <> None.
Proof.
  intros c H. unfold plain_char in H. apply negb_true_iff in H. apply orb_false_iff in H as [_ H]. unfold utf8.
  destruct (c <? 128); [discriminate|]. destruct (c <? 2048); [discriminate|]. destruct (c <? 65536); [|discriminate].
  rewrite H. discriminate.
Qed.
Lemma quote_ok : forall s, forallb plain_char s = true -> exists r, quote s = Ok r.
Proof.
  induction s as [|c s IH]; intro H; [eexists; reflexivity|]. cbn [forallb] in H. apply andb_true_iff in H as [H1 H2].
  cbn [quote]. pose proof (utf8_plain c H1) as Hu. destruct (utf8 c); [|congruence]. destruct (IH H2) as (r & ->). eexists. reflexivity.
Qed.
Lemma quote_link_ok : forall k a v, plain_address k a = true -> dict_get k a = Some v -> exists r, quote_link v = Ok r.
Proof.
  intros k a v H E. unfold plain_address, value_of in H. rewrite E in H. destruct v as [s|z|b|]; try (eexists; reflexivity).
  cbn [quote_link]. destruct (urlparse_ok s H) as (u & -> & Hp). cbn [bind]. destruct (quote_ok _ Hp) as (r & ->). eexists. reflexivity.
Qed.
Lemma present_attr : forall k ni, present k (n_attrs ni) = true -> exists v, attr k ni = Ok v /\ dict_get k (n_attrs ni) = Some v.
Proof.
  intros k ni H. unfold present, value_of in H. unfold attr. destruct (dict_get k (n_attrs ni)) as [v|]; [|discriminate]. eexists. split; reflexivity.
Qed.
Lemma attr_len_ok : forall k ni, valueless k (n_attrs ni) = false -> exists r, attr_len k ni = Ok r.
Proof.
  intros k ni H. unfold valueless, value_of in H. unfold attr_len. destruct (dict_get k (n_attrs ni)) as [[s|z|b|]|]; try discriminate; eexists; reflexivity.
Qed.
Lemma img_parts_ok : forall f ni, is_format f Markdown = false -> sound_img f (n_attrs ni) = true -> exists p, img_parts ni = Ok p.
Proof.
  intros f ni Hf H. unfold sound_img in H. rewrite Hf in H. apply andb_true_iff in H as [Hp H]. apply andb_true_iff in H as [H Ht].
  apply andb_true_iff in H as [Hs Ha]. apply negb_true_iff in Hs. apply negb_true_iff in Ha. apply negb_true_iff in Ht.
  destruct (present_attr _ ni Hp) as (v & E & Ev). unfold img_parts. rewrite E. cbn [bind].
  unfold valueless, value_of in Hs. rewrite Ev in Hs. destruct v as [src|z|b|]; try discriminate.
  destruct (str_eqb _ _); [eexists; reflexivity|]. destruct (attr_len_ok _ ni Ha) as (al & ->). destruct (attr_len_ok _ ni Ht) as (ti & ->).
  cbn [bind]. eexists. reflexivity.
Qed.
Lemma safe_c_img : forall st, safe Creole ($ "img", c_img st).
Proof.
  intros st c a l anc inside kids s Hi Ht H. cbn [fst snd] in *. change (sound_img Creole a = true) in Hi. unfold c_img.
  destruct (img_parts_ok Creole (mkn ($ "img") c a l anc) eq_refl Hi) as (p & ->). cbn [bind]. destruct p as [[src text]|]; apply fine_ok; auto.
Qed.
Lemma safe_t_img : safe Textile ($ "img", t_img).
Proof.
  intros c a l anc inside kids s Hi Ht H. cbn [fst snd] in *. change (sound_img Textile a = true) in Hi. unfold t_img.
  destruct (img_parts_ok Textile (mkn ($ "img") c a l anc) eq_refl Hi) as (p & ->). cbn [bind]. apply fine_ok; auto.
Qed.
Lemma get_old_may : forall d t u, match get_old d t u with Ok _ => True | Exc e => e = ESubstitution end.
Proof. intros d t u. unfold get_old. destruct (dict_get t d) as [o|]; [|exact I]. destruct (pyval_eqb o u); [exact I | reflexivity]. Qed.
Lemma safe_r_img : safe Rest ($ "img", r_img).
Proof.
  intros c a l anc inside kids s Hi Ht H. cbn [fst snd] in *. change (sound_img Rest a = true) in Hi. unfold r_img.
  destruct (img_parts_ok Rest (mkn ($ "img") c a l anc) eq_refl Hi) as (p & ->). cbn [bind]. destruct p as [[src text]|]; [|apply fine_ok; auto].
  pose proof (get_old_may (used_images s) text (VStr src)) as Q. destruct (get_old _ _ _) as [[old im]|e]; [|exact Q].
  cbn [bind]. apply fine_ok. destruct (attr_true old); auto.
Qed.
Lemma safe_m_img : safe Markdown ($ "img", m_img).
Proof.
  intros c a l anc inside kids s Hi Ht H. cbn [fst snd] in *. change (sound_img Markdown a = true) in Hi. unfold sound_img in Hi. cbn [is_format] in Hi.
  apply andb_true_iff in Hi as [Hp Hq]. unfold m_img. destruct (present_attr _ (mkn ($ "img") c a l anc) Hp) as (v & -> & Ev). cbn [bind].
  destruct (quote_link_ok _ _ v Hq Ev) as (r & ->). cbn [bind]. apply fine_ok. auto.
Qed.
Lemma safe_a : forall f m, In (f, m) [(Textile, t_a); (Markdown, m_a); (Rest, r_a)] -> safe f ($ "a", m).
Proof.
  intros f m Hm c a l anc inside kids s Hl Ht H. cbn [fst snd] in *. change (sound_link f a = true) in Hl.
  assert (Hkids : fine f s (kids s)) by (apply H; [reflexivity | rewrite orb_false_r; exact Ht]).
  unfold sound_link in Hl.
  destruct Hm as [Q|[Q|[Q|[]]]]; injection Q as Q1 Q2; subst f m; cbn [is_format orb negb] in Hl; apply andb_true_iff in Hl as [Hp Hq];
    destruct (present_attr _ (mkn ($ "a") c a l anc) Hp) as (v & Ea & Ev).
  - unfold t_a. apply fine_bind; [exact Hkids | intros r s' _ Hs]. rewrite Ea. cbn [bind]. apply fine_ok. exact Hs.
  - unfold m_a. apply fine_bind; [exact Hkids | intros r s' _ Hs]. rewrite Ea. cbn [bind]. rewrite orb_false_r in Hq.
    destruct (quote_link_ok _ _ v Hq Ev) as (q & ->). cbn [bind]. apply fine_ok. exact Hs.
  - unfold r_a. apply fine_bind; [exact Hkids | intros r s' _ Hs]. rewrite Ea. cbn [bind].
    pose proof (get_old_may (used_links s') r v) as Q. destruct (get_old _ _ _) as [[old im]|e]; [|exact Q].
    cbn [bind]. destruct (should_substitute _); [|destruct (attr_true old)]; apply fine_ok; try exact Hs.
    destruct (attr_true old); exact Hs.
Qed.
(** ** Text *)
Lemma decodes_ok : forall r, decodes r = true -> exists t, r = Ok t.
Proof. intros [t|e] H; [eexists; reflexivity | discriminate]. Qed.
Lemma safe_data : forall f, safe f ($ "data", data_emit).
Proof. intros f c a l anc inside kids s Hl Ht H. destruct c as [t|]; [|discriminate]. apply fine_ok. auto. Qed.
Lemma safe_m_data : forall f, safe f ($ "data", m_data).
Proof. intros f c a l anc inside kids s Hl Ht H. destruct c as [t|]; [|discriminate]. apply fine_ok. auto. Qed.
Lemma safe_entity : forall f, safe f ($ "entityref", entityref_emit).
Proof.
  intros f c a l anc inside kids s Hl Ht H. destruct c as [t|]; [|discriminate]. cbn [fst snd]. unfold entityref_emit. cbn [n_content].
  destruct (replace_named t); apply fine_ok; auto.
Qed.
Lemma safe_char : forall f, safe f ($ "charref", charref_emit).
Proof.
  intros f c a l anc inside kids s Hl Ht H. destruct c as [t|]; [|discriminate]. cbn [fst snd] in *.
  change (decodes (match t with 120 :: hex => replace_hex hex | _ => replace_number t end) = true) in Hl.
  apply decodes_ok in Hl as (r & Hr). unfold charref_emit. cbn [n_content]. rewrite Hr. cbn [bind]. apply fine_ok. auto.
Qed.
Lemma safe_pass : forall f k m, k = $ "blockdata_pass" -> (m = blockdata_pass_emit \/ m = m_pass) -> safe f (k, m).
Proof. intros f k m -> [-> | ->] c a l anc inside kids s Hl Ht H; apply fine_ok; auto. Qed.
Lemma safe_pre : forall f k m, in_list [$ "blockdata_pre"; $ "inlinedata_pre"] k = true ->
  (forall ni kids s, exists g, m ni kids s = bind (deentity_content ni) (fun r => Ok (g r, s))) -> safe f (k, m).
Proof.
  intros f k m Hk Hm c a l anc inside kids s Hl Ht H. cbn [fst snd] in *. destruct (Hm (mkn k c a l anc) kids s) as (g & ->).
  assert (Hd : exists r, deentity_content (mkn k c a l anc) = Ok r).
  { destruct c as [t|]; [|apply in_list_In in Hk; destruct Hk as [<-|[<-|[]]]; discriminate].
    assert (Hl' : decodes (replace_all t) && (no_code_tag t || negb (is_format f Markdown)) = true)
      by (apply in_list_In in Hk; destruct Hk as [<-|[<-|[]]]; exact Hl).
    apply andb_true_iff in Hl' as [Hl' _]. exact (decodes_ok _ Hl'). }
  destruct Hd as (r & ->). cbn [bind]. apply fine_ok. auto.
Qed.
Lemma safe_m_inline : safe Markdown ($ "inlinedata_pre", m_inlinedata_pre).
Proof.
  intros c a l anc inside kids s Hl Ht H. cbn [fst snd] in *. destruct c as [t|]; [|discriminate].
  change (decodes (replace_all t) && (no_code_tag t || false) = true) in Hl. rewrite orb_false_r in Hl.
  apply andb_true_iff in Hl as [Hd Hc]. unfold no_code_tag in Hc. apply negb_true_iff in Hc. apply decodes_ok in Hd as (r & Hr).
  unfold m_inlinedata_pre. cbn [n_content]. rewrite Hc, Hr. cbn [bind]. apply fine_ok. auto.
Qed.
(** ** Elements without content *)
Lemma safe_void : forall f k m, (forall ni kids s, exists r, m ni kids s = Ok (r, s)) -> safe f (k, m).
Proof. intros f k m Hm c a l anc inside kids s Hl Ht H. cbn [snd fst]. destruct (Hm (mkn k c a l anc) kids s) as (r & ->). apply fine_ok. auto. Qed.
(** [code] in markdown *)
Lemma strip_by_In : forall p s c, In c (strip_by p s) -> In c s.
Proof.
  intros p s c H. destruct (strip_split p s) as (a & b & E & _ & _). rewrite E. rewrite !in_app_iff. auto.
Qed.
Lemma escape_no_newline : forall t, contains [10] (escape_linebreaks t) = false.
Proof.
  intro t. destruct (contains [10] (escape_linebreaks t)) eqn:E; [|reflexivity]. exfalso.
  apply contains_spec in E. destruct E as (x & y & E). assert (H : In 10 (escape_linebreaks t)) by (rewrite E; rewrite in_app_iff; right; left; reflexivity).
  clear E. unfold escape_linebreaks in H. apply strip_by_In in H. apply join_In in H as [H|(z & Hz & H)].
  - destruct H as [H|[H|[]]]; discriminate.
  - apply filter_In in Hz as [Hz _]. apply in_map_iff in Hz as (w & <- & Hw). apply strip_In in H. destruct (split_on_In _ _ _ _ Hw H). congruence.
Qed.
Lemma safe_m_code : forall f, safe f ($ "code", m_code).
Proof.
  intros f c a l anc inside kids s Hl Ht H. cbn [fst snd] in *.
  assert (Hkids : fine f s (kids s)) by (apply H; [reflexivity | rewrite orb_false_r; exact Ht]).
  unfold m_code, content_emit. cbn [n_kind]. destruct (kids s) as [[r s']|e]; [|exact Hkids]. cbn [bind].
  change (content_text ($ "code") r) with (escape_linebreaks r). rewrite escape_no_newline. apply fine_ok. exact Hkids.
Qed.
(** ** All methods *)
Ltac plainm l := apply safe_plain; [reflexivity | reflexivity | reflexivity | apply l].
Ltac prem := apply safe_pre; [reflexivity | intros; eexists (fun _ => _); reflexivity].
Ltac voidm := apply safe_void; intros; eexists; reflexivity.
Ltac one := match goal with
  | |- safe _ (_, typeface _) => plainm typeface_plain
  | |- safe _ (_, p_emit) => plainm p_plain
  | |- safe _ (_, c_p) => plainm c_p_plain
  | |- safe _ (_, m_p) => plainm m_p_plain
  | |- safe _ (_, c_a) => plainm c_a_plain
  | |- safe _ (_, li_emit) => plainm li_plain
  | |- safe _ (_, content_emit) => plainm content_plain
  | |- safe _ (_, m_html _) => plainm html_plain
  | |- safe _ (_, m_list) => plainm m_list_plain
  | |- safe _ (_, document_emit) => plainm document_plain
  | |- safe _ (_, r_small) => plainm r_small_plain
  | |- safe _ (_, r_code) => plainm r_code_plain
  | |- safe _ (_, r_document) => plainm r_document_plain
  | |- safe _ (_, list_emit _) => apply list_safe; reflexivity
  | |- safe _ (_, r_list _) => apply r_list_safe; reflexivity
  | |- safe _ (_, table_emit _ _) => apply safe_table; apply table_makes
  | |- safe _ (_, m_table) => apply safe_table; apply m_table_makes
  | |- safe _ (_, r_table) => apply safe_table; apply r_table_makes
  | |- safe _ (_, tr_emit) => apply safe_tr
  | |- safe _ (_, cell_emit _) => apply safe_cell; [reflexivity | auto]
  | |- safe _ (_, m_cell _) => apply safe_cell; [reflexivity | auto]
  | |- safe _ (_, c_headline) => apply safe_headline; cbn [In]; auto
  | |- safe _ (_, t_headline) => apply safe_headline; cbn [In]; auto
  | |- safe _ (_, m_headline) => apply safe_headline; cbn [In]; auto
  | |- safe _ (_, r_headline) => apply safe_headline; cbn [In]; auto
  | |- safe _ (_, m_li) => apply safe_m_li
  | |- safe _ (_, r_li) => apply safe_r_li
  | |- safe _ (_, c_img _) => apply safe_c_img
  | |- safe _ (_, t_img) => apply safe_t_img
  | |- safe _ (_, m_img) => apply safe_m_img
  | |- safe _ (_, r_img) => apply safe_r_img
  | |- safe _ (_, t_a) => apply safe_a; cbn [In]; auto
  | |- safe _ (_, m_a) => apply safe_a; cbn [In]; auto
  | |- safe _ (_, r_a) => apply safe_a; cbn [In]; auto
  | |- safe _ (_, data_emit) => apply safe_data
  | |- safe _ (_, m_data) => apply safe_m_data
  | |- safe _ (_, entityref_emit) => apply safe_entity
  | |- safe _ (_, charref_emit) => apply safe_char
  | |- safe _ (_, blockdata_pass_emit) => apply safe_pass; [reflexivity | auto]
  | |- safe _ (_, m_pass) => apply safe_pass; [reflexivity | auto]
  | |- safe _ (_, m_inlinedata_pre) => apply safe_m_inline
  | |- safe _ (_, m_code) => apply safe_m_code
  | |- safe _ (_, br_emit) => voidm
  | |- safe _ (_, const_emit _) => voidm
  | |- safe _ (_, c_blockdata_pre) => prem
  | |- safe _ (_, c_inlinedata_pre) => prem
  | |- safe _ (_, t_blockdata_pre) => prem
  | |- safe _ (_, t_inlinedata_pre) => prem
  | |- safe _ (_, m_blockdata_pre) => prem
  | |- safe _ (_, r_blockdata_pre) => prem
  end.
Lemma creole_safe : forall st, Forall (safe Creole) (creole_methods st).
Proof. intro st. repeat (apply Forall_cons; [one|]). apply Forall_nil. Qed.
Lemma textile_safe : Forall (safe Textile) textile_methods.
Proof. repeat (apply Forall_cons; [one|]). apply Forall_nil. Qed.
Lemma markdown_safe : Forall (safe Markdown) markdown_methods.
Proof. repeat (apply Forall_cons; [one|]). apply Forall_nil. Qed.
Lemma rest_safe : Forall (safe Rest) rest_methods.
Proof. repeat (apply Forall_cons; [one|]). apply Forall_nil. Qed.

(** ** The traversal *)
Definition total (u : unknown) : Prop := forall k a c, exists r, u k a c = Ok r.
Section Run.
  Variables (f : format) (ms : methods) (u : unknown) (pre : list str -> est -> str * est).
  Hypothesis Hms : Forall (safe f) ms.
  Hypothesis Hu : total u.
  Hypothesis Hpre : forall anc s, tbl (snd (pre anc s)) = tbl s.
  Hypothesis Hfind_table : find_meth ms ($ "table") <> None.
  Hypothesis Hfind : forall k, in_list (text_kinds ++ void_kinds) k = true -> find_meth ms k <> None.
  Lemma emit_fine : forall n inside anc s, sound f inside (up anc) n = true -> (inside = true -> has_tbl s) ->
    fine f s (emit_node ms u pre anc n s).
  Proof.
    intro n. induction n as [k c a l ch IH] using hnode_ind'. intros inside anc s Hs Ht. cbn [sound] in Hs.
    rewrite emit_node_eq. pose proof (Hpre anc s) as Hp. destruct (pre anc s) as [p s1]. cbn [snd] in Hp.
    assert (Ht1 : inside = true -> has_tbl s1) by (intro Q; unfold has_tbl; rewrite Hp; exact (Ht Q)).
    apply (fine_eq f s s1); [exact Hp|].
    apply fine_bind; [|intros r s' _ Hq; apply fine_ok; exact Hq].
    assert (Hkids : in_list (text_kinds ++ void_kinds) k = false -> forall s0,
      ((inside || str_eqb k ($ "table")) = true -> has_tbl s0) -> fine f s0 (kids_of ms u pre anc k c ch s0)).
    { intros Hk s0 H0. unfold kids_of. apply (fine_eq f s0 (set_last (k, c) s0)); [reflexivity|].
      assert (Hk2 : in_list text_kinds k = false /\ in_list void_kinds k = false).
      { unfold in_list in *. rewrite existsb_app in Hk. apply orb_false_iff in Hk. exact Hk. }
      destruct Hk2 as [Hk1 Hk2]. rewrite Hk1, Hk2 in Hs. apply andb_true_iff in Hs as [_ Hs]. cbn [orb] in Hs.
      assert (H1 : (inside || str_eqb k ($ "table")) = true -> has_tbl (set_last (k, c) s0)) by exact H0. clear H0.
      revert H1 Hs. generalize (set_last (k, c) s0). clear Hk Hk1 Hk2 s0.
      induction IH as [|x ch Hx _ IHch]; intros s0 H0 Hs; [apply fine_ok; auto|]. cbn [forallb] in Hs. apply andb_true_iff in Hs as [Hs1 Hs2].
      cbn [emit_list]. apply fine_bind; [exact (Hx _ (k :: anc) s0 Hs1 H0)|]. intros r s2 E Hq.
      pose proof (IHch s2 (fun Q => Hq (H0 Q)) Hs2) as Q. destruct (emit_list ms u pre (k :: anc) ch s2) as [[r2 s3]|e]; [|exact Q].
      cbn [fine] in Q. cbn [bind]. apply fine_ok. auto. }
    unfold run_meth. cbn [n_kind n_attrs]. destruct (find_meth ms k) as [m|] eqn:Em.
    - apply find_meth_In in Em. rewrite Forall_forall in Hms. apply (Hms (k, m) Em c a l anc inside _ s1); cbn [fst snd]; [|exact Ht1|exact Hkids].
      destruct (in_list text_kinds k); [exact Hs|]. apply andb_true_iff in Hs. exact (proj1 Hs).
    - assert (Hk : in_list (text_kinds ++ void_kinds) k = false).
      { destruct (in_list (text_kinds ++ void_kinds) k) eqn:E; [|reflexivity]. exfalso. exact (Hfind k E Em). }
      assert (Hne : str_eqb k ($ "table") = false \/ str_eqb k ($ "table") = true) by (destruct (str_eqb k ($ "table")); auto).
      destruct Hne as [Hne|Hne].
      + apply fine_bind; [apply Hkids; [exact Hk | rewrite Hne, orb_false_r; exact Ht1]|]. intros r s' _ Hq.
        destruct (Hu k a r) as (t & ->). cbn [bind]. apply fine_ok. exact Hq.
      + exfalso. apply str_eqb_eq in Hne. subst k. exact (Hfind_table Em).
  Qed.
End Run.
(** ** The four converters *)
Lemma all_found : forall ms, forallb (fun k => match find_meth ms k with Some _ => true | None => false end) (text_kinds ++ void_kinds) = true ->
  forall k, in_list (text_kinds ++ void_kinds) k = true -> find_meth ms k <> None.
Proof.
  intros ms H k Hk. rewrite forallb_forall in H. apply in_list_In in Hk. specialize (H k Hk). destruct (find_meth ms k); discriminate.
Qed.
Lemma creole_total : forall u st root, total u -> sound Creole false [] root = true -> exists r, emit_creole u st root = Ok r.
Proof.
  intros u st root Hu Hs. pose proof (emit_fine Creole (creole_methods st) u no_pre (creole_safe st) Hu (fun _ _ => eq_refl)
    ltac:(discriminate) (all_found (creole_methods st) eq_refl) root false [] e_init Hs ltac:(discriminate)) as Q.
  unfold emit_creole. destruct (emit_node _ _ _ _ _ _) as [[r s]|e]; [eexists; reflexivity | destruct Q].
Qed.
Lemma textile_total : forall u root, total u -> sound Textile false [] root = true -> exists r, emit_textile u root = Ok r.
Proof.
  intros u root Hu Hs. pose proof (emit_fine Textile textile_methods u no_pre textile_safe Hu (fun _ _ => eq_refl)
    ltac:(discriminate) (all_found textile_methods eq_refl) root false [] e_init Hs ltac:(discriminate)) as Q.
  unfold emit_textile. destruct (emit_node _ _ _ _ _ _) as [[r s]|e]; [eexists; reflexivity | destruct Q].
Qed.
Lemma markdown_total : forall u root, total u -> sound Markdown false [] root = true -> exists r, emit_markdown u root = Ok r.
Proof.
  intros u root Hu Hs. pose proof (emit_fine Markdown markdown_methods u no_pre markdown_safe Hu (fun _ _ => eq_refl)
    ltac:(discriminate) (all_found markdown_methods eq_refl) root false [] e_init Hs ltac:(discriminate)) as Q.
  unfold emit_markdown. destruct (emit_node _ _ _ _ _ _) as [[r s]|e]; [eexists; reflexivity | destruct Q].
Qed.
Lemma rest_pre_keeps : forall anc s, tbl (snd (rest_pre anc s)) = tbl s.
Proof. intros anc s. unfold rest_pre. destruct (subst_data s); [reflexivity|]. destruct anc as [|? [|? ?]]; reflexivity. Qed.
Lemma rest_total : forall u root, total u -> sound Rest false [] root = true ->
  (exists r, emit_rest u root = Ok r) \/ emit_rest u root = Exc ESubstitution.
Proof.
  intros u root Hu Hs. pose proof (emit_fine Rest rest_methods u rest_pre rest_safe Hu rest_pre_keeps
    ltac:(discriminate) (all_found rest_methods eq_refl) root false [] e_init Hs ltac:(discriminate)) as Q.
  unfold emit_rest. destruct (emit_node _ _ _ _ _ _) as [[r s]|e]; [left; eexists; reflexivity | right].
  cbn [bind fine may] in *. rewrite Q. reflexivity.
Qed.
