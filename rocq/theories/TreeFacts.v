(** * Facts about the html tree builder *)
From Coq Require Import String List Arith NArith ZArith Bool Lia.
From Verif Require Import PyStr PyStrFacts GNames Regex RegexFacts RegexRun Utils Res HtmlTools HtmlToolsFacts HtmlTok HtmlParser Spec2.
Import ListNotations.
Open Scope N_scope.

(** ** decimal numerals *)
Definition dec_step (a c : N) : N := a * 10 + (c - 48).
Lemma digits_go_value : forall f n acc, n < 2 ^ N.of_nat f \/ n < 10 -> (0 < f)%nat ->
  fold_left dec_step (digits_go f n acc) 0 = fold_left dec_step acc n.
Proof.
  induction f; intros n acc H Hf; [lia|]. cbn [digits_go]. destruct (N.ltb_spec n 10) as [E|E].
  - cbn [fold_left]. f_equal. unfold dec_step. lia.
  - rewrite IHf.
    + cbn [fold_left]. f_equal. unfold dec_step.
      rewrite (N.add_comm 48), N.add_sub. rewrite N.mul_comm. symmetry. apply N.div_mod. discriminate.
    + left. destruct H as [H|H]; [|lia].
      apply N.div_lt_upper_bound; [discriminate|].
      rewrite Nat2N.inj_succ, N.pow_succ_r' in H. lia.
    + destruct f; [|lia]. destruct H as [H|H]; [|lia]. change (2 ^ N.of_nat 1) with 2 in H. lia.
Qed.
Lemma show_N_value : forall n, dec_value (show_N n) = n.
Proof.
  intro n. unfold dec_value, show_N. change (fun a c => a * 10 + (c - 48)) with dec_step.
  rewrite digits_go_value; [reflexivity| |lia].
  left. rewrite Nat2N.inj_succ, N2Nat.id. rewrite N.pow_succ_r'.
  pose proof (N.size_gt n). lia.
Qed.
Lemma show_N_nonempty : forall n, show_N n <> [].
Proof.
  intros n H. pose proof (show_N_value n) as E. unfold show_N in H. 
  assert (G : forall f n acc, (0 < f)%nat \/ acc <> [] -> digits_go f n acc <> []).
  { induction f; intros k acc [Hf|Ha]; cbn [digits_go]; try lia; try assumption.
    - destruct (k <? 10); [discriminate|]. apply IHf. right. discriminate.
    - destruct (k <? 10); [discriminate|]. apply IHf. right. discriminate. }
  apply (G (S (N.to_nat (N.size n))) n []) in H; auto. left. lia.
Qed.
Lemma show_N_dec : forall n, forallb is_dec (show_N n) = true.
Proof. exact show_N_digits. Qed.
Lemma py_int_show : forall n, N.of_nat (List.length (show_N n)) <= 4300 -> py_int (show_N n) = Some (Z.of_N n).
Proof.
  intros n H. rewrite py_int_dec; [rewrite show_N_value; reflexivity|apply show_N_nonempty|apply show_N_dec|exact H].
Qed.

(** ** C29 *)
Lemma handle_all_app : forall a b h, handle_all (a ++ b) h = do h' <- handle_all a h; handle_all b h'.
Proof.
  induction a as [|t a IH]; intros b h; [reflexivity|]. cbn [app handle_all].
  destruct (handle t h) as [h'|e]; [apply IH|reflexivity].
Qed.
Definition add_kids (f : frame) (ns : list hnode) : frame := mkf (f_kind f) (f_attrs f) (f_level f) (rev ns ++ f_kids f).
Lemma add_kids_app : forall f a b, add_kids (add_kids f a) b = add_kids f (a ++ b).
Proof. intros. unfold add_kids. cbn [f_kids f_kind f_attrs f_level]. rewrite rev_app_distr, <- app_assoc. reflexivity. Qed.
Lemma add_kid_kids : forall f n, add_kid f n = add_kids f [n].
Proof. reflexivity. Qed.

Lemma dom_ind' : forall P : dom -> Prop,
  (forall s, P (DText s)) -> (forall s, P (DChar s)) -> (forall s, P (DEnt s)) ->
  (forall t a, P (DVoid t a)) -> (forall t a, P (DSelf t a)) -> (forall b i, P (DCut b i)) ->
  (forall t a ks, Forall P ks -> P (DElem t a ks)) -> forall d, P d.
Proof.
  intros P H1 H2 H3 H4 H5 H6 H7. fix IH 1. intros [s|s|s|t a|t a|b i|t a ks];
    [apply H1|apply H2|apply H3|apply H4|apply H5|apply H6|].
  apply H7. induction ks; constructor; auto.
Qed.

Definition kinds := BLOCK_TAGS ++ [$ "document"].
Lemma is_heading_level : forall t, is_heading t = match headline_level t with Some _ => true | None => false end.
Proof.
  intros [|c t]; [reflexivity|].
  unfold is_heading, headline_level. destruct c as [|p]; [reflexivity|].
  do 7 (destruct p as [p|p|]; try reflexivity).
  destruct t as [|d t]; [reflexivity|]. destruct (digit_val d); reflexivity.
Qed.
Lemma heading_level_eq : forall t, heading_level t = headline_level t.
Proof.
  intros [|c t]; [reflexivity|].
  unfold heading_level, headline_level. destruct c as [|p]; [reflexivity|].
  do 7 (destruct p as [p|p|]; try reflexivity); try (destruct t as [|d t]; [reflexivity|]; destruct (digit_val d); reflexivity).
Qed.
(** ** attributes *)
Lemma once_app : forall l seen k, once seen (l ++ [k]) = if existsb (str_eqb k) (seen ++ l) then once seen l else once seen l ++ [k].
Proof.
  induction l as [|x l IH]; intros seen k.
  - cbn [app once]. rewrite app_nil_r. destruct (existsb (str_eqb k) seen); reflexivity.
  - cbn [app once]. destruct (existsb (str_eqb x) seen) eqn:E; rewrite IH.
    + rewrite !existsb_app. cbn [existsb]. destruct (str_eqb k x) eqn:Ek; [|reflexivity]. apply str_eqb_eq in Ek. subst x. rewrite E. reflexivity.
    + cbn [app existsb]. rewrite !existsb_app. cbn [existsb]. destruct (existsb (str_eqb k) seen), (str_eqb k x), (existsb (str_eqb k) l); reflexivity.
Qed.
Lemma once_In : forall l seen k, In k (once seen l) <-> In k l /\ ~ In k seen.
Proof.
  assert (B : forall l (k : str), existsb (str_eqb k) l = true <-> In k l).
  { intros l k. rewrite existsb_exists. split; [intros (x & H & E); apply str_eqb_eq in E; subst; exact H|]. intro H. exists k. split; [exact H|apply str_eqb_refl]. }
  induction l as [|x l IH]; intros seen k; cbn [once].
  - split; [intros []|intros [[] _]].
  - destruct (existsb (str_eqb x) seen) eqn:E.
    + rewrite IH. apply B in E. split; [intros [H1 H2]; split; [right; exact H1|exact H2]|]. intros [[<-|H] H2]; [contradiction|]. split; assumption.
    + assert (N : ~ In x seen) by (intro H; apply B in H; congruence). cbn [In]. rewrite IH. cbn [In]. split.
      * intros [<-|[H1 H2]]; [split; [left; reflexivity|exact N]|]. split; [right; exact H1|]. intro H. apply H2. right. exact H.
      * intros [[<-|H1] H2]; [left; reflexivity|]. destruct (str_eqb x k) eqn:Ex; [apply str_eqb_eq in Ex; left; exact Ex|]. apply str_eqb_neq in Ex. right. split; [exact H1|]. intros [H|H]; contradiction.
Qed.
Lemma once_nodup : forall l seen, NoDup (once seen l).
Proof.
  induction l as [|x l IH]; intro seen; cbn [once]; [constructor|]. destruct (existsb (str_eqb x) seen); [apply IH|]. constructor; [|apply IH].
  intro H. apply once_In in H as [_ H]. apply H. left. reflexivity.
Qed.
Lemma dict_set_map : forall k v (f : str -> pyval) ks, NoDup ks ->
  dict_set k v (map (fun x => (x, f x)) ks) = map (fun x => (x, if str_eqb k x then v else f x)) ks ++ (if existsb (str_eqb k) ks then [] else [(k, v)]).
Proof.
  intros k v f ks H. induction H as [|x ks Hx H IH]; [reflexivity|]. cbn [map dict_set existsb]. destruct (str_eqb k x) eqn:E; cbn [orb].
  - apply str_eqb_eq in E. subst x. rewrite app_nil_r. f_equal. apply map_ext_in. intros y Hy. destruct (str_eqb k y) eqn:Ey; [|reflexivity]. apply str_eqb_eq in Ey. subst y. contradiction.
  - rewrite IH. reflexivity.
Qed.
Lemma attr_dict_eq : forall a, attr_dict a = dict_of a.
Proof.
  intro a. induction a as [|[k v] a IH] using rev_ind; [reflexivity|]. unfold dict_of in *. rewrite fold_left_app. cbn [fold_left fst snd]. rewrite <- IH. unfold attr_dict.
  rewrite (dict_set_map k v (fun k => last_value k a)) by apply once_nodup. rewrite map_app. cbn [map fst]. rewrite once_app. cbn [app].
  assert (L : forall x, last_value x (a ++ [(k, v)]) = if str_eqb k x then v else last_value x a) by (intro x; unfold last_value; rewrite fold_left_app; reflexivity).
  assert (M : existsb (str_eqb k) (once [] (map fst a)) = existsb (str_eqb k) (map fst a)).
  { destruct (existsb (str_eqb k) (map fst a)) eqn:E.
    - apply existsb_exists in E as (x & H & E). apply existsb_exists. exists x. split; [apply once_In; split; [exact H|intros []]|exact E].
    - destruct (existsb (str_eqb k) (once [] (map fst a))) eqn:E'; [|reflexivity]. apply existsb_exists in E' as (x & H & E'). apply once_In in H as [H _].
      assert (existsb (str_eqb k) (map fst a) = true) by (apply existsb_exists; exists x; auto). congruence. }
  rewrite M. destruct (existsb (str_eqb k) (map fst a)).
  - rewrite app_nil_r. apply map_ext. intro x. rewrite L. reflexivity.
  - rewrite map_app. cbn [map]. rewrite L. rewrite (proj2 (str_eqb_eq k k) eq_refl). f_equal. apply map_ext. intro x. rewrite L. reflexivity.
Qed.
Lemma in_list_In : forall l s, in_list l s = true <-> In s l.
Proof.
  intros l s. unfold in_list. rewrite existsb_exists. split.
  - intros (x & H & E). apply str_eqb_eq in E. subst. exact H.
  - intro H. exists s. split; [exact H|apply str_eqb_refl].
Qed.
Lemma in_list_neq2 : forall a b s, s <> a -> s <> b -> in_list [a; b] s = false.
Proof.
  intros a b s H1 H2. unfold in_list, existsb.
  rewrite (proj2 (str_eqb_neq _ _) H1), (proj2 (str_eqb_neq _ _) H2). reflexivity.
Qed.
Lemma in_list_neq1 : forall a s, s <> a -> in_list [a] s = false.
Proof. intros a s H1. unfold in_list, existsb. rewrite (proj2 (str_eqb_neq _ _) H1). reflexivity. Qed.

Lemma ignore_no : forall t, t <> $ "tbody" -> in_list IGNORE_TAGS t = false.
Proof. intros t H. apply in_list_neq1. exact H. Qed.
Lemma in_list_ul : forall t, in_list [$ "ul"; $ "ol"] t = is_list t.
Proof. intro t. unfold in_list, existsb, is_list. rewrite orb_false_r. reflexivity. Qed.
Lemma py_index_nat : forall {A} (l : list A) i x, nth_error l i = Some x -> py_index l (Z.of_nat i) = Some x.
Proof.
  intros A l i x H. assert (Hl : (i < List.length l)%nat) by (apply nth_error_Some; congruence).
  unfold py_index. destruct (Z.leb_spec (- Z.of_nat (List.length l)) (Z.of_nat i)); [|lia].
  destruct (Z.ltb_spec (Z.of_nat i) (Z.of_nat (List.length l))); [|lia].
  destruct (Z.ltb_spec (Z.of_nat i) 0); [lia|]. cbn [andb]. rewrite Nat2Z.id. exact H.
Qed.
Lemma handle_cut : forall b i bd c ll, (i < List.length bd)%nat -> N.of_nat (List.length (show_nat i)) <= 4300 ->
  handle (TStartEnd (placeholder b) [($ "type", VStr ($ "pre")); ($ "id", VStr (show_nat i))]) (mkh c ll bd) =
  Ok (mkh (leaf (HN (placeholder b ++ $ "_pre") (Some (nth i bd [])) [] None []) c) ll bd).
Proof.
  intros b i bd c ll Hi Hd. cbn [handle]. unfold handle_startendtag.
  assert (E1 : in_list [$ "blockdata"; $ "inlinedata"] (placeholder b) = true) by (destruct b; reflexivity).
  rewrite E1.
  assert (E2 : dict_get ($ "id") (dict_of [($ "type", VStr ($ "pre")); ($ "id", VStr (show_nat i))]) = Some (VStr (show_nat i))) by reflexivity.
  assert (E3 : dict_get ($ "type") (dict_of [($ "type", VStr ($ "pre")); ($ "id", VStr (show_nat i))]) = Some (VStr ($ "pre"))) by reflexivity.
  rewrite E2, E3. unfold show_nat in *. rewrite (py_int_show _ Hd). cbn [blockdata].
  rewrite nat_N_Z.
  assert (En : nth_error bd i = Some (nth i bd [])) by (apply nth_error_nth'; exact Hi).
  rewrite (py_index_nat _ _ _ En). reflexivity.
Qed.

Lemma build : forall bd d blk, dom_ok bd blk d -> forall top (up : list frame) ll,
  (blk = true -> in_list kinds (f_kind top) = true) ->
  handle_all (dom_toks d) (mkh (Live top up) ll bd) =
  Ok (mkh (Live (add_kids top (dom_tree bd ll d)) up) ll bd).
Proof.
  intros bd. induction d as [s|s|s|t a|t a|b i|t a ks IH] using dom_ind'; intros blk Hok top up ll Htop.
  - reflexivity.
  - reflexivity.
  - reflexivity.
  - inversion Hok; subst. cbn [dom_toks handle_all handle bind]. unfold handle_starttag. cbn [dom_tree]. rewrite attr_dict_eq.
    match goal with H : _ \/ _ |- _ => destruct H as [-> | ->] end; reflexivity.
  - inversion Hok; subst. cbn [dom_toks handle_all handle]. unfold handle_startendtag.
    rewrite in_list_neq2 by assumption. cbn [dom_tree]. rewrite attr_dict_eq. reflexivity.
  - inversion Hok; subst. cbn [dom_toks handle_all]. rewrite handle_cut by assumption. reflexivity.
  - assert (Hks : forall ks', Forall (fun d => forall blk, dom_ok bd blk d -> forall top (up : list frame) ll,
        (blk = true -> in_list kinds (f_kind top) = true) ->
        handle_all (dom_toks d) (mkh (Live top up) ll bd) =
        Ok (mkh (Live (add_kids top (dom_tree bd ll d)) up) ll bd)) ks' ->
      forall blk, Forall (dom_ok bd blk) ks' -> forall top (up : list frame) ll,
        (blk = true -> in_list kinds (f_kind top) = true) ->
        handle_all (flat_map dom_toks ks') (mkh (Live top up) ll bd) =
        Ok (mkh (Live (add_kids top (flat_map (dom_tree bd ll) ks')) up) ll bd)).
    { clear. intros ks' H. induction H as [|d ks' Hd Hks IH]; intros blk Hok top up ll Ht.
      - destruct top; reflexivity.
      - inversion Hok; subst. cbn [flat_map]. rewrite handle_all_app. erewrite Hd by eassumption.
        cbn [bind]. rewrite (IH blk); try assumption. rewrite add_kids_app. reflexivity. }
    specialize (Hks ks IH).
    inversion Hok as [| | | | | |? ? ? Hk|? ? ? ? Ht1 Ht2 Ht3 Hb Hk]; subst.
    + cbn [dom_toks]. change ([TStart ($ "tbody") a] ++ flat_map dom_toks ks ++ [TEnd ($ "tbody")])
        with (TStart ($ "tbody") a :: flat_map dom_toks ks ++ [TEnd ($ "tbody")]).
      cbn [handle_all]. change (handle (TStart ($ "tbody") a) (mkh (Live top up) ll bd)) with (Ok (mkh (Live top up) ll bd)).
      cbn [bind]. rewrite handle_all_app. rewrite (Hks blk) by assumption. reflexivity.
    + cbn [dom_toks]. change ([TStart t a] ++ flat_map dom_toks ks ++ [TEnd t])
        with (TStart t a :: flat_map dom_toks ks ++ [TEnd t]).
      cbn [handle_all handle bind]. unfold handle_starttag at 1.
      rewrite (ignore_no _ Ht1).
      cbn [dom_tree]. rewrite (proj2 (str_eqb_neq _ _) Ht1). rewrite (heading_level_eq t), !attr_dict_eq. rewrite is_heading_level.
      (* the end tag *)
      assert (Hend : forall f ll', handle_all [TEnd t] (mkh (Live f (top :: up)) ll' bd) =
        Ok (mkh (Live (add_kids top [close f]) up) (if is_list t then (ll' - 1)%Z else ll') bd)).
      { intros f ll'. cbn [handle_all handle bind]. unfold handle_endtag.
        rewrite (ignore_no _ Ht1). rewrite (proj2 (str_eqb_neq _ _) Ht2). cbn [cur list_level blockdata].
        rewrite in_list_ul. f_equal. f_equal.
        destruct (in_list BLOCK_TAGS t) eqn:Eb.
        - cbn [go_up upto_kinds]. fold kinds. rewrite (Htop (Hb Eb)). reflexivity.
        - reflexivity. }
      destruct (headline_level t) as [l|] eqn:El.
      * cbn [cur list_level blockdata push]. rewrite handle_all_app.
        rewrite (Hks _ Hk).
        2:{ unfold is_block. rewrite is_heading_level, El, andb_false_r. discriminate. }
        cbn [bind]. rewrite Hend. unfold add_kids at 2, close. cbn [f_kind f_attrs f_level f_kids].
        rewrite app_nil_r, rev_involutive.
        assert (Enl : is_list t = false).
        { unfold is_list. destruct (str_eqb t ($ "ul")) eqn:E1; [apply str_eqb_eq in E1; subst; discriminate|].
          destruct (str_eqb t ($ "ol")) eqn:E2; [apply str_eqb_eq in E2; subst; discriminate|]. reflexivity. }
        rewrite Enl. reflexivity.
      * assert (Hblk : forall k kl, is_block t = true -> in_list kinds (f_kind (mkf t k kl [])) = true).
        { intros k kl H. unfold is_block in H. apply andb_true_iff in H as [H _]. exact H. }
        destruct (in_list [$ "li"; $ "ul"; $ "ol"] t) eqn:Eli.
        -- cbn [cur list_level blockdata push]. rewrite handle_all_app.
           rewrite in_list_ul. rewrite (Hks _ Hk) by apply Hblk. cbn [bind]. rewrite Hend.
           unfold add_kids at 2, close. cbn [f_kind f_attrs f_level f_kids]. rewrite app_nil_r, rev_involutive.
           destruct (is_list t) eqn:E3.
           ++ replace (ll + 1 - 1)%Z with ll by lia. reflexivity.
           ++ assert (E4 : str_eqb t ($ "li") = true).
              { unfold in_list, existsb in Eli. unfold is_list in E3. apply orb_false_iff in E3 as [E5 E6].
                rewrite E5, E6 in Eli. cbn [orb] in Eli. rewrite !orb_false_r in Eli. exact Eli. }
              rewrite E4. reflexivity.
        -- rewrite in_list_neq2 by assumption.
           assert (E3 : is_list t = false /\ str_eqb t ($ "li") = false).
           { unfold in_list, existsb in Eli. apply orb_false_iff in Eli as [E4 E5]. apply orb_false_iff in E5 as [E5 E6].
             apply orb_false_iff in E6 as [E6 _]. unfold is_list. rewrite E5, E6. auto. }
           destruct E3 as [E3 E4]. rewrite E3, E4.
           cbn [cur list_level blockdata push]. rewrite handle_all_app.
           rewrite (Hks _ Hk) by apply Hblk. cbn [bind]. rewrite Hend.
           unfold add_kids at 2, close. cbn [f_kind f_attrs f_level f_kids]. rewrite app_nil_r, rev_involutive, E3.
           reflexivity.
Qed.

Lemma build_all : forall bd ds, Forall (dom_ok bd true) ds ->
  handle_all (flat_map dom_toks ds) (h_init bd) =
  Ok (mkh (Live (mkf ($ "document") [] None (rev (flat_map (dom_tree bd 0) ds))) []) 0 bd).
Proof.
  intros bd ds H. unfold h_init.
  assert (G : forall top (up : list frame) ll, in_list kinds (f_kind top) = true ->
    handle_all (flat_map dom_toks ds) (mkh (Live top up) ll bd) =
    Ok (mkh (Live (add_kids top (flat_map (dom_tree bd ll) ds)) up) ll bd)).
  { induction H as [|d ds Hd Hds IH]; intros top up ll Ht.
    - destruct top; reflexivity.
    - cbn [flat_map]. rewrite handle_all_app. rewrite (build bd d true Hd) by auto. cbn [bind].
      rewrite IH by exact Ht. rewrite add_kids_app. reflexivity. }
  rewrite G by reflexivity. unfold add_kids. cbn [f_kids f_kind f_attrs f_level]. rewrite app_nil_r. reflexivity.
Qed.
Theorem tree_of_dom : forall bd ds, Forall (dom_ok bd true) ds ->
  exists h, handle_all (flat_map dom_toks ds) (h_init bd) = Ok h /\
    root_of (cur h) = HN ($ "document") None [] None (flat_map (dom_tree bd 0) ds) /\ list_level h = 0%Z.
Proof.
  intros bd ds H. eexists. split; [apply build_all; exact H|]. split; [|reflexivity].
  cbn [cur root_of close_up]. unfold close. cbn [f_kids f_kind f_attrs f_level]. rewrite rev_involutive. reflexivity.
Qed.

(** ** C30 *)
Lemma lost_step : forall t h h' root, cur h = Lost root -> handle t h = Ok h' -> cur h' = Lost root.
Proof.
  intros t h h' root Hc H. destruct t as [tag a|tag a|tag|s|s|s]; cbn [handle] in H.
  - inversion H; subst. unfold handle_starttag.
    destruct (in_list IGNORE_TAGS tag); [exact Hc|]. destruct (headline_level tag); [cbn [cur]; rewrite Hc; reflexivity|].
    destruct (in_list [$ "li"; $ "ul"; $ "ol"] tag); [cbn [cur]; rewrite Hc; reflexivity|].
    destruct (in_list [$ "img"; $ "br"] tag); cbn [cur]; rewrite Hc; reflexivity.
  - unfold handle_startendtag in H.
    destruct (in_list [$ "blockdata"; $ "inlinedata"] tag); [|inversion H; subst; cbn [cur]; rewrite Hc; reflexivity].
    destruct (dict_get ($ "id") (dict_of a)) as [[s|z|b|]|]; try discriminate.
    destruct (py_int s); try discriminate. destruct (dict_get ($ "type") (dict_of a)); try discriminate.
    destruct (py_index (blockdata h) z); try discriminate. inversion H; subst. cbn [cur]. rewrite Hc. reflexivity.
  - inversion H; subst. unfold handle_endtag.
    destruct (in_list IGNORE_TAGS tag); [exact Hc|]. destruct (str_eqb tag ($ "br")); [exact Hc|].
    cbn [cur]. rewrite Hc. destruct (in_list BLOCK_TAGS tag); reflexivity.
  - inversion H; subst. unfold handle_leaf. cbn [cur]. rewrite Hc. reflexivity.
  - inversion H; subst. unfold handle_leaf. cbn [cur]. rewrite Hc. reflexivity.
  - inversion H; subst. unfold handle_leaf. cbn [cur]. rewrite Hc. reflexivity.
Qed.
Lemma lost_all : forall ts h h' root, cur h = Lost root -> handle_all ts h = Ok h' -> cur h' = Lost root.
Proof.
  induction ts as [|t ts IH]; intros h h' root Hc H.
  - inversion H; subst. exact Hc.
  - cbn [handle_all] in H. destruct (handle t h) as [h1|e] eqn:E; [|discriminate].
    eapply IH; [|exact H]. eapply lost_step; eauto.
Qed.

(** ** C31 *)
Definition to_piece (g : gname) (x : char + mtch) : piece :=
  match x with inl c => Keep c | inr y => Cut (mtxt y) (group0 g y) end.
Lemma sub_cut : forall b g f, (forall x bd, f x bd = Ok (pre_cut (group0 g x) (placeholder b) bd)) ->
  forall l bd, sub_go f l bd = Ok (stubbed b (List.length bd) (map (to_piece g) l), bd ++ cuts (map (to_piece g) l)).
Proof.
  intros b g f Hf. induction l as [|[c|x] l IH]; intro bd.
  - simpl. rewrite app_nil_r. reflexivity.
  - cbn [sub_go map to_piece stubbed cuts flat_map]. rewrite IH. reflexivity.
  - cbn [sub_go]. rewrite Hf. unfold pre_cut. cbn [bind]. rewrite IH. cbn [bind map to_piece stubbed cuts flat_map].
    rewrite app_length. cbn [List.length]. rewrite Nat.add_1_r. do 2 f_equal. symmetry. apply (app_assoc bd [group0 g x]).
Qed.
Lemma src_pieces : forall g l, flat_map piece_src (map (to_piece g) l) = flat_map piece_txt l.
Proof. induction l as [|[c|x] l IH]; [reflexivity| |]; cbn [map flat_map to_piece piece_src piece_txt]; rewrite IH; reflexivity. Qed.

Lemma Mt_seq_inv : forall a b s s', Mt (RSeq a b) s s' -> exists s1, Mt a s s1 /\ Mt b s1 s'.
Proof. intros a b s s' H. inversion H; subst. eauto. Qed.
Lemma Mt_grp_inv : forall g r s s', Mt (RGrp g r) s s' -> exists w cs s1, Mt r s s1 /\
  rest s = w ++ rest s' /\ bef s' = rev w ++ bef s /\ caps s' = (g, w) :: cs ++ caps s /\ caps s1 = cs ++ caps s.
Proof.
  intros g r s s' H. inversion H; subst. match goal with A : Mt r _ _ |- _ => pose proof A as A0; apply Mt_ext in A as (u & cs & C1 & C2 & C3 & C4) end.
  exists u, cs, s'0. split; [exact A0|]. cbn [rest bef caps]. split; [exact C1|]. split; [exact C2|]. split; [|exact C3].
  rewrite C3. f_equal. f_equal. rewrite C1. apply firstn_app_exact.
Qed.
Lemma Mt_lit : forall w s s', Mt (lit w) s s' -> rest s = w ++ rest s' /\ bef s' = rev w ++ bef s /\ caps s' = caps s.
Proof.
  induction w as [|c w IH]; intros s s' H.
  - inversion H; subst. auto.
  - assert (Hc : forall s s', Mt (c1 c) s s' -> rest s = c :: rest s' /\ bef s' = c :: bef s /\ caps s' = caps s).
    { clear. intros s s' H. unfold c1 in H. inversion H; subst. match goal with E : (c =? _) = true |- _ => apply N.eqb_eq in E; subst end. auto. }
    destruct w as [|d w].
    + apply Hc in H. exact H.
    + change (lit (c :: d :: w)) with (RSeq (c1 c) (lit (d :: w))) in H. apply Mt_seq_inv in H as (s1 & HA & HB).
      apply Hc in HA as (A1 & A2 & A3). apply IH in HB as (B1 & B2 & B3).
      rewrite A1, B1, B2, A2, B3, A3. cbn [rev]. rewrite <- !app_assoc. auto.
Qed.
Lemma Mt_lit_ok : forall w b t cs, Mt (lit w) (mk b (w ++ t) cs) (mk (rev w ++ b) t cs).
Proof.
  intros w b t cs.
  assert (Hw : starwf (lit w) = true).
  { induction w as [|c w IH]; [reflexivity|]. destruct w; [reflexivity|].
    change (lit (c :: n :: w)) with (RSeq (c1 c) (lit (n :: w))). exact IH. }
  pose proof (m_lit w b t cs (fun s => Some s)) as E. apply m_sound in E as (s' & Hm & E). inversion E; subst. exact Hm.
Qed.
Lemma Mt_any : forall g u b t cs, Mt (RStar g (RAlt (c1 10) Rules.dot)) (mk b (u ++ t) cs) (mk (rev u ++ b) t cs).
Proof.
  intros g. induction u as [|c u IH]; intros b t cs; [apply Mt_star0|].
  eapply Mt_starS with (s1 := mk (c :: b) (u ++ t) cs).
  - destruct (N.eqb_spec c 10).
    + subst. apply Mt_altl. apply Mt_chr. reflexivity.
    + apply Mt_altr. apply Mt_chr. unfold is_dot. apply N.eqb_neq in n. rewrite n. reflexivity.
  - cbn [rev]. rewrite <- app_assoc. apply IH.
Qed.
Lemma Mt_ext_star : forall r s s', Mt r s s' -> exists w, rest s = w ++ rest s'.
Proof. intros r s s' H. apply Mt_ext in H as (w & cs & H & _). eauto. Qed.
Lemma Mt_seqs2 : forall a l s s', l <> [] -> Mt (seqs (a :: l)) s s' -> exists s1, Mt a s s1 /\ Mt (seqs l) s1 s'.
Proof. intros a [|b l] s s' Hne H; [congruence|]. change (seqs (a :: b :: l)) with (RSeq a (seqs (b :: l))) in H. inversion H; subst. eauto. Qed.

Lemma group_cap : forall g x v, cap g (mcaps x) = Some v -> group0 g x = v.
Proof. intros g x v H. unfold group0, group. rewrite H. reflexivity. Qed.
Lemma inline_area : forall t x, In x (finditer pre_inline_re t) -> pre_area (mtxt x) (group0 G_html_pre_inline x).
Proof.
  intros t x H. apply finditer_In in H as (adv & b & t' & Hx & _).
  apply try_at_Mt in Hx as (s' & Hm & Et & _ & Ec & _).
  unfold pre_inline_re in Hm.
  apply Mt_seqs2 in Hm as (s1 & H1 & Hm); [|discriminate].
  apply Mt_seqs2 in Hm as (s2 & H2 & H3); [|discriminate].
  apply Mt_lit in H1 as (A1 & A2 & A3). cbn [rest bef caps] in *. change (seqs [lit ($ "</pre>")]) with (lit ($ "</pre>")) in H3.
  apply Mt_lit in H3 as (B1 & B2 & B3).
  apply Mt_grp_inv in H2 as (u & cs & s3 & _ & C1 & C2 & C3 & _). cbn [rest bef caps] in *.
  unfold pre_area. rewrite (group_cap _ _ u).
  - rewrite A1, C1, B1 in Et. rewrite !app_assoc in Et. apply app_inv_tail in Et. rewrite <- Et, <- app_assoc. reflexivity.
  - rewrite Ec, B3, C3. reflexivity.
Qed.
Lemma sps_inv : forall s s', Mt Rules.sps s s' -> exists w, forallb is_space w = true /\ rest s = w ++ rest s' /\ caps s' = caps s.
Proof. intros s s' H. apply Mt_star_chr in H as (w & A & _ & B & C). eauto. Qed.
Lemma bol_inv : forall s s', Mt RBol s s' -> s' = s.
Proof. intros s s' H. inversion H; reflexivity. Qed.
Lemma eol_inv : forall s s', Mt REol s s' -> s' = s.
Proof. intros s s' H. inversion H; reflexivity. Qed.
Lemma block_area : forall t x, In x (finditer pre_block_re t) -> pre_block_area (mtxt x) (group0 G_html_pre_block x).
Proof.
  intros t x H. apply finditer_In in H as (adv & b & t' & Hx & _).
  apply try_at_Mt in Hx as (s' & Hm & Et & _ & Ec & _).
  unfold pre_block_re in Hm.
  apply Mt_seqs2 in Hm as (s1 & H1 & Hm); [|discriminate]. apply bol_inv in H1; subst s1.
  apply Mt_seqs2 in Hm as (s2 & H2 & Hm); [|discriminate]. apply Mt_lit in H2 as (A1 & A2 & A3).
  apply Mt_seqs2 in Hm as (s3 & H3 & Hm); [|discriminate]. apply sps_inv in H3 as (w1 & W1 & B1 & B2).
  apply Mt_seqs2 in Hm as (s4 & H4 & Hm); [|discriminate]. apply eol_inv in H4; subst s4.
  apply Mt_seqs2 in Hm as (s5 & H5 & Hm); [|discriminate]. apply Mt_grp_inv in H5 as (u & cs & s6 & _ & C1 & C2 & C3 & _).
  apply Mt_seqs2 in Hm as (s7 & H7 & Hm); [|discriminate]. apply bol_inv in H7; subst s7.
  apply Mt_seqs2 in Hm as (s8 & H8 & Hm); [|discriminate]. apply Mt_lit in H8 as (D1 & D2 & D3).
  apply Mt_seqs2 in Hm as (s9 & H9 & Hm); [|discriminate]. apply sps_inv in H9 as (w2 & W2 & E1 & E2).
  apply Mt_seqs2 in Hm as (s10 & H10 & Hm); [|discriminate]. apply eol_inv in H10; subst s10.
  cbn [seqs] in Hm. apply Mt_star_chr in Hm as (w3 & F1 & F2 & F3 & W3).
  cbn [rest bef caps] in *.
  exists w1, (w2 ++ w3). split; [exact W1|]. split.
  - rewrite forallb_app, W2. cbn [andb]. rewrite <- W3. clear. induction w3 as [|c w IH]; [reflexivity|].
    cbn [forallb]. rewrite IH. destruct (is_space c) eqn:E; [reflexivity|]. cbn [orb].
    destruct (N.eqb_spec c 10); [subst; discriminate|reflexivity].
  - rewrite (group_cap _ _ u).
    + rewrite A1, B1, C1, D1, E1, F1 in Et. rewrite !app_assoc in Et. apply app_inv_tail in Et.
      rewrite <- Et, <- !app_assoc. reflexivity.
    + rewrite Ec, F3, E2, D3, C3. reflexivity.
Qed.
Lemma finditer_scan : forall r t x, In (inr x) (scan r 0 [] t) <-> In x (finditer r t).
Proof.
  intros r t x. unfold finditer. rewrite in_flat_map. split.
  - intro H. exists (inr x). split; [exact H|left; reflexivity].
  - intros ([c|y] & H & Hx); [destruct Hx|]. destruct Hx as [<-|[]]. exact H.
Qed.
Theorem preprocess_spec : forall raw, exists p1 p2,
  flat_map piece_src p1 = strip raw /\ areas pre_block_area p1 /\
  flat_map piece_src p2 = stubbed true 0 p1 /\ areas pre_area p2 /\ none_left p2 /\
  preprocess raw = Ok (strip_html (stubbed false (List.length (cuts p1)) p2), cuts p1 ++ cuts p2).
Proof.
  intro raw.
  exists (map (to_piece G_html_pre_block) (scan pre_block_re 0 [] (strip raw))).
  set (p1 := map (to_piece G_html_pre_block) (scan pre_block_re 0 [] (strip raw))).
  exists (map (to_piece G_html_pre_inline) (scan pre_inline_re 0 [] (stubbed true 0 p1))).
  set (p2 := map (to_piece G_html_pre_inline) (scan pre_inline_re 0 [] (stubbed true 0 p1))).
  split; [|split; [|split; [|split; [|split]]]].
  - unfold p1. rewrite src_pieces. apply (scan_partition (List.length (strip raw))). apply le_n.
  - intros w c H. unfold p1 in H. apply in_map_iff in H as ([d|x] & E & H); [discriminate|]. inversion E; subst.
    apply finditer_scan in H. eapply block_area. exact H.
  - unfold p2. rewrite src_pieces. apply (scan_partition (List.length (stubbed true 0 p1))). apply le_n.
  - intros w c H. unfold p2 in H. apply in_map_iff in H as ([d|x] & E & H); [discriminate|]. inversion E; subst.
    apply finditer_scan in H. eapply inline_area. exact H.
  - intros a c b E (u & v & Euv). unfold p2 in E.
    apply map_eq_app in E as (l1 & l2 & El & Ea & Eb). destruct l2 as [|z l2]; [discriminate|].
    cbn [map] in Eb. inversion Eb as [[Ez Eb']]. destruct z as [d|x]; [|discriminate]. inversion Ez; subst d.
    destruct (scan_inl (List.length (stubbed true 0 p1)) pre_inline_re [] (stubbed true 0 p1) l1 c l2 (le_n _) eq_refl El)
      as (b' & t' & E1 & E2 & E3 & E4).
    cbn [flat_map piece_src] in Euv. rewrite <- Eb', src_pieces, E4 in Euv. cbn [app] in Euv.
    assert (Q : Mt pre_inline_re (mk b' ($ "<pre>" ++ u ++ $ "</pre>" ++ v) [])
                   (mk (rev ($ "</pre>") ++ rev u ++ rev ($ "<pre>") ++ b') v [(G_html_pre_inline, u)])).
    { unfold pre_inline_re. cbn [seqs]. eapply Mt_seq; [apply Mt_lit_ok|]. eapply Mt_seq.
      + apply Mt_grp. apply Mt_any.
      + cbn [rest bef caps]. rewrite firstn_app_exact. apply Mt_lit_ok. }
    cbn [app] in Q. rewrite <- Euv in Q. exact (at_pos_complete pre_inline_re _ _ _ eq_refl Q E2).
  - unfold preprocess, resub_st. rewrite (sub_cut true G_html_pre_block) by reflexivity. fold p1. cbn [bind List.length app].
    rewrite (sub_cut false G_html_pre_inline) by reflexivity. fold p2. reflexivity.
Qed.
