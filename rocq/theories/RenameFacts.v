(** * Unknown elements do not matter (C37) *)
From Coq Require Import String List Arith NArith ZArith Bool Lia.
From Verif Require Import PyStr PyStrFacts Utils Res HtmlTools HtmlToolsFacts HtmlTok HtmlParser MarkupTable UrlQuote HtmlBase Html2X.
From Verif Require Import Safety TableFacts TreeFacts Spec3 EmitFacts.
Import ListNotations.
Open Scope N_scope.

(** states that differ at most in [last], and there only in what nobody asks for *)
Definition snl (l : option (str * option str)) : bool := starts_newline (mke l [] None [] [] [] []).
Inductive srel : est -> est -> Prop :=
| srel_intro l l' il t sd lk im mu : snl l = snl l' -> srel (mke l il t sd lk im mu) (mke l' il t sd lk im mu).
Inductive rrel : res (str * est) -> res (str * est) -> Prop :=
| rr_ok r s s' : srel s s' -> rrel (Ok (r, s)) (Ok (r, s'))
| rr_exc e : rrel (Exc e) (Exc e).
Definition asked : list str := [$ "ul"; $ "ol"; $ "th"; $ "td"].
Definition krel (k k' : str) : Prop := k = k' \/ (in_list asked k = false /\ in_list asked k' = false).
Inductive nirel : ninfo -> ninfo -> Prop :=
| nirel_intro k c a l anc anc' : Forall2 krel anc anc' -> nirel (mkn k c a l anc) (mkn k c a l anc').
Definition respects (f : meth) : Prop := forall ni ni' (kids kids' : action) s s',
  nirel ni ni' -> srel s s' -> (forall s s', srel s s' -> rrel (kids s) (kids' s')) ->
  rrel (f ni kids s) (f ni' kids' s').

Lemma rrel_bind : forall x x' (F F' : str * est -> res (str * est)), rrel x x' ->
  (forall r s s', srel s s' -> rrel (F (r, s)) (F' (r, s'))) -> rrel (bind x F) (bind x' F').
Proof. intros x x' F F' H HF. destruct H; cbn [bind]; [auto|constructor]. Qed.
Lemma rrel_bind_pure : forall {A} (x : res A) F F', (forall a, rrel (F a) (F' a)) -> rrel (bind x F) (bind x F').
Proof. intros A x F F' H. destruct x; cbn [bind]; [auto|constructor]. Qed.
Lemma krel_th : forall anc anc', Forall2 krel anc anc' ->
  existsb (in_list [$ "th"; $ "td"]) anc = existsb (in_list [$ "th"; $ "td"]) anc'.
Proof.
  intros anc anc' H. induction H as [|k k' anc anc' Hk _ IH]; [reflexivity|]. cbn [existsb]. rewrite IH. f_equal.
  destruct Hk as [->|[H1 H2]]; [reflexivity|]. unfold asked, in_list in *. cbn [existsb] in *.
  repeat (apply orb_false_iff in H1 as [? H1]). repeat (apply orb_false_iff in H2 as [? H2]).
  repeat match goal with H : str_eqb _ _ = false |- _ => rewrite H; clear H end. reflexivity.
Qed.
Lemma starts_newline_snl : forall l il t sd lk im mu, starts_newline (mke l il t sd lk im mu) = snl l.
Proof. reflexivity. Qed.

Ltac red_fields := cbn [inner_list tbl subst_data used_links used_images list_markup
  n_kind n_content n_attrs n_level n_anc fst snd].
Ltac unfold_meths := cbv beta zeta delta [const_emit c_blockdata_pre c_inlinedata_pre blockdata_pass_emit c_p br_emit
   c_headline typeface c_a c_img list_emit content_emit data_emit entityref_emit charref_emit p_emit li_emit table_emit tr_emit
   cell_emit document_emit t_blockdata_pre t_inlinedata_pre t_headline t_a t_img m_table m_cell m_blockdata_pre m_inlinedata_pre
   m_pass m_p m_headline m_html m_a m_img m_list m_li m_data m_code r_blockdata_pre r_document r_headline r_small r_a r_img r_code
   r_li r_list r_table ret deentity_content attr attr_len img_parts level_of
   set_inner set_tbl set_links set_images set_subst set_markup the_table get_block_data should_substitute].
Ltac step Hs := first
  [ assumption
  | apply rr_exc
  | apply rr_ok; solve [constructor; assumption | assumption]
  | apply Hs; solve [constructor; assumption | assumption]
  | apply rrel_bind; [solve [apply Hs; solve [constructor; assumption | assumption]]
      | let r := fresh in let s := fresh in let s' := fresh in let H := fresh in
        intros r s s' H; destruct H; red_fields]
  | apply rrel_bind; [|let r := fresh in let s := fresh in let s' := fresh in let H := fresh in
        intros r s s' H; destruct H; red_fields]; [solve [repeat (step1 Hs)]|]
  | match goal with
    | |- rrel (bind ?x _) (bind ?x _) => apply rrel_bind_pure; intro
    | |- rrel (match ?x with _ => _ end) _ => destruct x
    | |- context [match ?x with _ => _ end] => destruct x
    end ]
with step1 Hs := first
  [ apply rr_ok; solve [constructor; assumption | assumption]
  | apply rrel_bind; [solve [apply Hs; solve [constructor; assumption | assumption]]
      | let r := fresh in let s := fresh in let s' := fresh in let H := fresh in
        intros r s s' H; destruct H; red_fields] ].
Ltac meth_resp := 
  let Hn := fresh in let Hs := fresh in let Hk := fresh "Hk" in
  intros ? ? ? ? ? ? Hn Hs Hk; destruct Hn as [? ? ? ? ? ? Ha]; destruct Hs;
  unfold_meths; red_fields; rewrite ?starts_newline_snl;
  repeat match goal with H : snl _ = snl _ |- _ => rewrite H; revert H end; intros;
  rewrite ?(krel_th _ _ Ha); repeat (step Hk).
Lemma li_resp : respects m_li.
Proof.
  intros ni ni' kids kids' s s' Hn Hs Hk. destruct Hn as [k c a l anc anc' Ha]. unfold m_li. cbn [n_anc n_level].
  unfold level_of. cbn [n_level]. cbv zeta.
  assert (E : match anc with k :: _ => k | [] => [] end = match anc' with k :: _ => k | [] => [] end \/
    (forall x, In x asked -> str_eqb match anc with k :: _ => k | [] => [] end x = false) /\
    (forall x, In x asked -> str_eqb match anc' with k :: _ => k | [] => [] end x = false)).
  { destruct Ha as [|k1 k2 anc anc' Hk1 _]; [left; reflexivity|]. destruct Hk1 as [->|[H1 H2]]; [left; reflexivity|right].
    apply in_list_false in H1, H2. split; intros x Hx; apply str_eqb_neq; intro; subst; tauto. }
  set (h := match anc with k :: _ => k | [] => [] end) in *.
  set (h' := match anc' with k :: _ => k | [] => [] end) in *.
  destruct E as [E|[E1 E2]]; [rewrite E|rewrite !E1, !E2 by (vm_compute; tauto)].
  all: apply rrel_bind_pure; intro pr; apply rrel_bind_pure; intro z; apply rrel_bind; [apply Hk; exact Hs|];
    intros r s1 s2 H; apply rr_ok; exact H.
Qed.
Lemma creole_resp : forall st, Forall (fun km : str * meth => respects (snd km)) (creole_methods st).
Proof.
  intro st. unfold creole_methods, base_methods. cbn [app].
  repeat (apply Forall_cons; [cbn [snd]; solve [meth_resp]|]). apply Forall_nil.
Qed.
Lemma textile_resp : Forall (fun km : str * meth => respects (snd km)) textile_methods.
Proof.
  unfold textile_methods, base_methods. cbn [app].
  repeat (apply Forall_cons; [cbn [snd]; solve [meth_resp]|]). apply Forall_nil.
Qed.
Lemma markdown_resp : Forall (fun km : str * meth => respects (snd km)) markdown_methods.
Proof.
  unfold markdown_methods, base_methods. cbn [app].
  repeat (apply Forall_cons; [cbn [snd]; first [exact li_resp | solve [meth_resp]]|]). apply Forall_nil.
Qed.
Lemma rest_resp : Forall (fun km : str * meth => respects (snd km)) rest_methods.
Proof.
  unfold rest_methods, base_methods. cbn [app].
  repeat (apply Forall_cons; [cbn [snd]; first [exact li_resp | solve [meth_resp]]|]). apply Forall_nil.
Qed.

(** ** lines *)
Lemma strip_by_same : forall p t, (forall (c : N) (r : str), t = c :: r -> p c = false) ->
  (forall (c : N) (r : str), t = r ++ [c] -> p c = false) -> strip_by p t = t.
Proof.
  intros p t H1 H2. destruct t as [|c t]; [reflexivity|].
  destruct (exists_last (l := c :: t)) as (r & d & E); [discriminate|].
  unfold strip_by, lstrip_by. rewrite drop_while_none by (eapply H1; reflexivity).
  pose proof (rstrip_keep p r d (H2 _ _ E)) as K. unfold str, char in *. rewrite <- E in K. exact K.
Qed.
Lemma escape_linebreaks_line : forall t, line_text t -> escape_linebreaks t = t.
Proof.
  intros t (H1 & H2 & H3). unfold escape_linebreaks.
  assert (E : strip t = t).
  { apply strip_by_same; intros c r Hc; [apply (H2 c r Hc)|apply (H3 c r Hc)]. }
  rewrite E, split_on_no by exact H1. cbn [map filter]. rewrite E.
  assert (E2 : strip_chars [92] t = t).
  { apply strip_by_same; intros c r Hc; [apply H2 in Hc|apply H3 in Hc]; destruct Hc as [_ Hc];
    unfold in_str, existsb; destruct (N.eqb_spec c 92); [congruence|reflexivity|congruence|reflexivity]. }
  destruct t as [|c t]; [reflexivity|]. exact E2.
Qed.

Scheme same_known_ind2 := Minimality for same_known Sort Prop
  with sk_list_ind2 := Minimality for sk_list Sort Prop.
Combined Scheme same_known_mut from same_known_ind2, sk_list_ind2.

Definition pre_resp (pre : list str -> est -> str * est) : Prop := forall anc anc' s s',
  Forall2 krel anc anc' -> srel s s' -> fst (pre anc s) = fst (pre anc' s') /\ srel (snd (pre anc s)) (snd (pre anc' s')).
Lemma no_pre_resp : pre_resp no_pre.
Proof. intros anc anc' s s' _ H. split; [reflexivity|exact H]. Qed.
Lemma rest_pre_resp : pre_resp rest_pre.
Proof.
  intros anc anc' s s' Ha Hs. destruct Hs. unfold rest_pre. cbn [subst_data].
  destruct sd as [|x sd]; [split; [reflexivity|constructor; assumption]|].
  destruct Ha as [|k k' anc anc' Hk Ha]; [split; [reflexivity|constructor; assumption]|].
  destruct Ha as [|k1 k1' anc anc' Hk1 Ha]; split; try reflexivity; constructor; assumption.
Qed.

Section Rename.
  Variable ms : methods.
  Variable pre : list str -> est -> str * est.
  Variable known : list str.
  Hypothesis Hresp : Forall (fun km : str * meth => respects (snd km)) ms.
  Hypothesis Hpre : pre_resp pre.
  Hypothesis Hcov : covers known ms = true.
  Hypothesis Hasked : forallb (in_list known) asked = true.
  Hypothesis Hdata : forall a l anc kids t s, line_text t ->
    run_meth ms transparent_unknown_nodes (mkn ($ "data") (Some t) a l anc) kids s = Ok (t, s).
  (* between elements that are not children of the root nothing is inserted *)
  Hypothesis Hdeep : forall k k1 anc s, pre (k :: k1 :: anc) s = ([], s).
  Notation em := (emit_node ms transparent_unknown_nodes pre).
  Notation eml := (emit_list ms transparent_unknown_nodes pre).

  Lemma plain_find : forall k, plain known k -> find_meth ms k = None.
  Proof. intros k [H _]. apply find_meth_None. rewrite <- (covers_iff known ms Hcov). exact H. Qed.
  Lemma plain_asked : forall k, plain known k -> in_list asked k = false.
  Proof.
    intros k [H _]. apply in_list_false. intro Hk. apply H. rewrite forallb_forall in Hasked.
    apply in_list_In. apply Hasked. exact Hk.
  Qed.
  Lemma plain_text : forall k c, plain known k -> content_text k c = escape_linebreaks c.
  Proof.
    intros k c [_ H]. unfold content_text. apply in_list_false in H. change (in_list BLOCK_TAGS k = false) in H. rewrite H. reflexivity.
  Qed.
  Lemma plain_snl : forall k, plain known k -> snl (Some (k, None)) = true.
  Proof. intros k [_ H]. unfold snl, starts_newline. cbn [last]. apply in_list_false in H. change (in_list BLOCK_TAGS k = false) in H. rewrite H. reflexivity. Qed.
  Lemma set_last_rel : forall x y s s', srel s s' -> snl (Some x) = snl (Some y) -> srel (set_last x s) (set_last y s').
  Proof. intros x y s s' H E. destruct H. constructor. exact E. Qed.

  Lemma node_step : forall k c a l ch ch' anc anc' s s', Forall2 krel anc anc' -> srel s s' ->
    (forall s s', srel s s' -> rrel (eml (k :: anc) ch s) (eml (k :: anc') ch' s')) ->
    rrel (em anc (HN k c a l ch) s) (em anc' (HN k c a l ch') s').
  Proof.
    intros k c a l ch ch' anc anc' s s' Ha Hs Hk. rewrite !emit_node_eq.
    destruct (Hpre anc anc' s s' Ha Hs) as [Hp1 Hp2].
    destruct (pre anc s) as [p s1], (pre anc' s') as [p' s1']. cbn [fst snd] in *. subst p'.
    apply rrel_bind.
    - unfold run_meth. cbn [n_kind n_attrs]. destruct (find_meth ms k) as [f|] eqn:Ef.
      + rewrite Forall_forall in Hresp. apply (Hresp _ (find_meth_In _ _ _ Ef)); [constructor; exact Ha|exact Hp2|].
        intros s2 s2' H2. apply Hk. apply set_last_rel; [exact H2|reflexivity].
      + apply rrel_bind; [apply Hk; apply set_last_rel; [exact Hp2|reflexivity]|].
        intros r s2 s2' H2. apply rrel_bind_pure. intro r'. apply rr_ok. exact H2.
    - intros r s2 s2' H2. apply rr_ok. apply set_last_rel; [exact H2|reflexivity].
  Qed.

  Lemma rename_all :
    (forall n n', same_known known n n' -> forall anc anc' s s', anc <> [] -> Forall2 krel anc anc' -> srel s s' ->
       rrel (em anc n s) (em anc' n' s')) /\
    (forall ch ch', sk_list known ch ch' -> forall anc anc' s s', anc <> [] -> Forall2 krel anc anc' -> srel s s' ->
       rrel (eml anc ch s) (eml anc' ch' s')).
  Proof.
    apply same_known_mut.
    - intros k c a l ch ch' _ IH anc anc' s s' Hne Ha Hs. apply node_step; [exact Ha|exact Hs|].
      intros s1 s1' H1. apply IH; [discriminate|constructor; [left; reflexivity|exact Ha]|exact H1].
    - intros k k' a a' l l' ch ch' Hk Hk' _ IH anc anc' s s' Hne Ha Hs. rewrite !emit_node_eq.
      destruct (Hpre anc anc' s s' Ha Hs) as [Hp1 Hp2].
      destruct (pre anc s) as [p s1], (pre anc' s') as [p' s1']. cbn [fst snd] in *. subst p'.
      assert (El : snl (Some (k, None)) = snl (Some (k', None))) by (rewrite !plain_snl by assumption; reflexivity).
      apply rrel_bind.
      + unfold run_meth. cbn [n_kind n_attrs]. rewrite (plain_find k Hk), (plain_find k' Hk').
        apply rrel_bind.
        * apply IH; [discriminate| |apply set_last_rel; [exact Hp2|exact El]].
          constructor; [right; split; apply plain_asked; assumption|exact Ha].
        * intros r s2 s2' H2. unfold transparent_unknown_nodes. cbn [bind].
          rewrite (plain_text k r Hk), (plain_text k' r Hk'). apply rr_ok. exact H2.
      + intros r s2 s2' H2. apply rr_ok. apply set_last_rel; [exact H2|exact El].
    - intros k a l t Hk Ht anc anc' s s' Hne Ha Hs. unfold data_node. rewrite !emit_node_eq.
      destruct (Hpre anc anc' s s' Ha Hs) as [Hp1 Hp2].
      destruct (pre anc s) as [p s1], (pre anc' s') as [p' s1']. cbn [fst snd] in *. subst p'.
      rewrite Hdata by exact Ht. unfold run_meth at 1. cbn [n_kind n_attrs]. rewrite (plain_find k Hk).
      unfold kids_of. cbn [emit_list]. rewrite emit_node_eq.
      destruct anc as [|k0 anc]; [congruence|]. rewrite Hdeep. rewrite Hdata by exact Ht.
      cbn [bind app]. unfold transparent_unknown_nodes. cbn [bind]. rewrite app_nil_r, (plain_text k _ Hk), escape_linebreaks_line by exact Ht.
      apply rr_ok. destruct Hp2. constructor.
      rewrite plain_snl by exact Hk. unfold snl, starts_newline. cbn [last]. destruct Ht as (_ & _ & H3).
      change (in_list BLOCK_TAGS ($ "data")) with false. cbn [negb andb].
      destruct t as [|c t]; [reflexivity|]. symmetry. apply negb_true_iff.
      destruct (endswith [10] (c :: t)) eqn:E; [|reflexivity]. exfalso.
      unfold endswith in E. apply startswith_spec in E as [r E].
      assert (E' : c :: t = rev r ++ [10]).
      { rewrite <- (rev_involutive (c :: t)). rewrite E. cbn [rev app]. reflexivity. }
      apply H3 in E' as [E' _]. vm_compute in E'. discriminate.
    - intros anc anc' s s' _ _ Hs. apply rr_ok. exact Hs.
    - intros x y xs ys _ IHx _ IHxs anc anc' s s' Hne Ha Hs. cbn [emit_list].
      apply rrel_bind; [apply IHx; assumption|]. intros r s1 s1' H1.
      apply rrel_bind; [apply IHxs; assumption|]. intros r2 s2 s2' H2. apply rr_ok. exact H2.
  Qed.
  Lemma rename_root : forall ch ch' c a l, sk_list known ch ch' ->
    rrel (em [] (HN ($ "document") c a l ch) e_init) (em [] (HN ($ "document") c a l ch') e_init).
  Proof.
    intros ch ch' c a l H. apply node_step; [constructor|constructor; reflexivity|].
    intros s s' Hs. apply (proj2 rename_all); [exact H|discriminate|constructor; [left; reflexivity|constructor]|exact Hs].
  Qed.
End Rename.
