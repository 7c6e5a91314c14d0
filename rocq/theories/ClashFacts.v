(** * When two links or images clash in html2rest (C63) *)
From Coq Require Import String List Arith NArith ZArith Bool Lia.
From Verif Require Import PyStr PyStrFacts GNames Regex Rules Utils Res HtmlTools HtmlTok HtmlParser MarkupTable HtmlBase Html2X.
From Verif Require C2H.
From Verif Require Import Safety TreeFacts EmitFacts Spec51.
Import ListNotations.
Open Scope N_scope.

(** ** Values of attributes are texts or missing *)
Definition textual (v : pyval) : Prop := match v with VStr _ | VNone => True | _ => False end.
Definition dtext (d : pydict) : Prop := Forall (fun kv => textual (snd kv)) d.
Definition ktext (t : tok) : Prop := match t with TStart _ a | TStartEnd _ a => dtext a | _ => True end.
Lemma attr_value_text : forall x, textual (attr_value x).
Proof. intro x. unfold attr_value. destruct (group G_hp_rest x) as [[|c s]|]; exact I. Qed.
Lemma attr_loop_text : forall f txt k e, dtext (fst (attr_loop f txt k e)).
Proof.
  induction f as [|f IH]; intros txt k e; [constructor|]. cbn [attr_loop]. destruct (k <? e)%nat; [|constructor].
  destruct (match_at attrfind_re txt k) as [x|]; [|constructor]. specialize (IH txt (k + List.length (mtxt x))%nat e).
  destruct (attr_loop f txt (k + List.length (mtxt x)) e) as [r k']. cbn [fst] in *. constructor; [apply attr_value_text | exact IH].
Qed.
Definition stext (x : step) : Prop := match x with Next ts _ _ | Stop ts => Forall ktext ts | Raise => True end.
Lemma starttag_text : forall t, stext (parse_starttag t).
Proof.
  intro t. unfold parse_starttag. destruct (check_for_whole_start_tag t) as [e|]; [|constructor]. destruct (match_at tagfind_re t 1) as [x|]; [|constructor].
  pose proof (attr_loop_text (S e) t (1 + List.length (mtxt x)) e) as H. destruct (attr_loop (S e) t (1 + List.length (mtxt x)) e) as [a k]. cbn [fst] in H.
  cbv zeta. destruct (str_eqb _ [62]); [constructor; [exact H | constructor]|]. destruct (str_eqb _ [47; 62]); [constructor; [exact H | constructor]|].
  constructor; [exact I | constructor].
Qed.
Ltac small := repeat (first [exact I | constructor | match goal with |- stext (match ?x with _ => _ end) => destruct x end]).
Lemma bogus_text : forall cd t, stext (parse_bogus_comment cd t).
Proof. intros cd t. unfold parse_bogus_comment. small. Qed.
Lemma endtag_text : forall cd t, stext (parse_endtag cd t).
Proof.
  intros cd t. unfold parse_endtag. destruct (find 62 (skipn 1 t)) as [[b r]|]; [|constructor]. cbv zeta.
  destruct (match_at endtagfind_re t 0) as [x|]; [small|]. destruct cd; [small|]. destruct (match_at tagfind_re t 2); [small|].
  destruct (startswith _ t); [constructor | apply bogus_text].
Qed.
Lemma marked_text : forall t, stext (parse_marked_section t).
Proof.
  intro t. unfold parse_marked_section. cbv zeta. destruct (skipn 3 t) as [|c r]; [constructor|]. destruct (match_at declname_re (c :: r) 0) as [x|]; [|exact I].
  destruct (Nat.eqb _ _); [constructor|]. destruct (in_list _ _); [destruct (search _ _) as [[[? ?] ?]|]; constructor|].
  destruct (in_list _ _); [destruct (search _ _) as [[[? ?] ?]|]; constructor | exact I].
Qed.
Lemma decl_text : forall t, stext (parse_html_declaration t).
Proof.
  intro t. unfold parse_html_declaration. destruct (startswith _ t); [apply marked_text|]. destruct (str_eqb _ _); [small | apply bogus_text].
Qed.
Lemma lt_text : forall cd t, stext (lt_step cd t).
Proof.
  intros cd t. unfold lt_step. destruct t as [|c0 [|c t]]; try constructor. destruct (is_alpha c); [apply starttag_text|].
  destruct (c =? 47); [apply endtag_text|]. destruct (startswith _ _); [destruct (search _ _) as [[[? ?] ?]|]; constructor|].
  destruct (c =? 63); [apply bogus_text|]. destruct (c =? 33); [apply decl_text|]. small.
Qed.
Lemma amp_text : forall t, stext (amp_step t).
Proof.
  intro t. unfold amp_step. small.
Qed.
Lemma tdata_text : forall d, Forall ktext (tdata d).
Proof. intros [|c d]; [constructor|]. constructor; [exact I | constructor]. Qed.
Lemma goahead_text : forall f cd t, Forall ktext (fst (goahead f cd t)).
Proof.
  induction f as [|f IH]; intros cd t; [constructor|]. cbn [goahead]. destruct t as [|c0 t]; [constructor|].
  destruct (interesting cd (c0 :: t)) as [[d [|c r]]|]; [apply tdata_text| |constructor].
  assert (S : stext (if c =? 60 then lt_step cd (c :: r) else amp_step (c :: r))) by (destruct (c =? 60); [apply lt_text | apply amp_text]).
  destruct (if c =? 60 then lt_step cd (c :: r) else amp_step (c :: r)) as [ts| |ts rest cd']; cbn [stext] in S.
  - cbn [fst]. rewrite Forall_app. auto using tdata_text.
  - apply tdata_text.
  - specialize (IH cd' rest). destruct (goahead f cd' rest) as [l b]. cbn [fst] in *. rewrite !Forall_app. auto using tdata_text.
Qed.
Lemma dict_set_text : forall k v d, textual v -> dtext d -> dtext (dict_set k v d).
Proof.
  intros k v d Hv. induction d as [|[k0 v0] d IH]; intro H; [constructor; [exact Hv | constructor]|]. cbn [dict_set].
  apply Forall_cons_iff in H as [H1 H2]. destruct (str_eqb k k0); (constructor; [first [exact Hv | exact H1] | first [exact H2 | exact (IH H2)]]).
Qed.
Lemma dict_of_text : forall a, dtext a -> dtext (dict_of a).
Proof.
  intros a. unfold dict_of. assert (G : dtext []) by constructor. revert G. generalize ([] : pydict). induction a as [|[k v] a IH]; intros d Hd H; [exact Hd|].
  inversion H; subst. cbn [fold_left fst snd]. apply IH; [apply dict_set_text; assumption | assumption].
Qed.
Inductive ntext : hnode -> Prop := ntext_i : forall k c a l ch, dtext a -> Forall ntext ch -> ntext (HN k c a l ch).
Definition ftext (f : frame) : Prop := dtext (f_attrs f) /\ Forall ntext (f_kids f).
Definition ctext (c : cursor) : Prop := match c with Live top up => ftext top /\ Forall ftext up | Lost r => ntext r end.
Lemma close_text : forall f, ftext f -> ntext (close f).
Proof. intros f [H1 H2]. constructor; [exact H1 | apply Forall_rev; exact H2]. Qed.
Lemma add_text : forall f n, ftext f -> ntext n -> ftext (add_kid f n).
Proof. intros f n [H1 H2] H. split; [exact H1 | constructor; assumption]. Qed.
Lemma leaf_text : forall n c, ntext n -> ctext c -> ctext (leaf n c).
Proof. intros n [top up|r] Hn H; [|exact H]. destruct H as [H1 H2]. split; [apply add_text; assumption | exact H2]. Qed.
Lemma push_text : forall k a l c, dtext a -> ctext c -> ctext (push k a l c).
Proof. intros k a l [top up|r] Ha H; [|exact H]. destruct H as [H1 H2]. split; [split; [exact Ha | constructor] | constructor; assumption]. Qed.
Lemma parent_text : forall c, ctext c -> ctext (go_parent c).
Proof.
  intros [top [|p up]|r] H; [destruct H; apply close_text; assumption| |exact H]. destruct H as [H1 H2]. inversion H2; subst.
  split; [apply add_text; [assumption | apply close_text; exact H1] | assumption].
Qed.
Lemma upto_text : forall ks up top, ftext top -> Forall ftext up -> ctext (upto_kinds ks top up).
Proof.
  intros ks. induction up as [|p up IH]; intros top H1 H2; [split; assumption|]. cbn [upto_kinds]. inversion H2; subst. cbv zeta.
  assert (ftext (add_kid p (close top))) by (apply add_text; [assumption | apply close_text; exact H1]).
  destruct (in_list ks (f_kind p)); [split; assumption | apply IH; assumption].
Qed.
Lemma up_text : forall c, ctext c -> ctext (go_up c).
Proof. intros [top up|r] H; [|exact H]. destruct H. apply upto_text; assumption. Qed.
Lemma handle_text : forall t h h', ktext t -> ctext (cur h) -> handle t h = Ok h' -> ctext (cur h').
Proof.
  intros t h h' Ht Hh E. destruct t; cbn [handle] in E; try (injection E as E; subst h').
  - unfold handle_starttag. destruct (in_list IGNORE_TAGS _); [exact Hh|]. destruct (headline_level _); [apply push_text; [constructor | exact Hh]|].
    destruct (in_list _ _); [apply push_text; [apply dict_of_text; exact Ht | exact Hh]|].
    destruct (in_list _ _); [apply leaf_text; [constructor; [apply dict_of_text; exact Ht | constructor] | exact Hh]|].
    apply push_text; [apply dict_of_text; exact Ht | exact Hh].
  - unfold handle_startendtag in E. cbv zeta in E. destruct (in_list _ _).
    + repeat match type of E with match ?x with _ => _ end = _ => destruct x; try discriminate E end.
      all: injection E as E; subst h'; apply leaf_text; [constructor; constructor | exact Hh].
    + injection E as E; subst h'. apply leaf_text; [constructor; [apply dict_of_text; exact Ht | constructor] | exact Hh].
  - unfold handle_endtag. destruct (in_list IGNORE_TAGS _); [exact Hh|]. destruct (str_eqb _ _); [exact Hh|]. cbv zeta. cbn [cur].
    destruct (in_list BLOCK_TAGS _); [apply up_text | apply parent_text]; exact Hh.
  - apply leaf_text; [constructor; constructor | exact Hh].
  - apply leaf_text; [constructor; constructor | exact Hh].
  - apply leaf_text; [constructor; constructor | exact Hh].
Qed.
Lemma handle_all_text : forall ts h h', Forall ktext ts -> ctext (cur h) -> handle_all ts h = Ok h' -> ctext (cur h').
Proof.
  induction ts as [|t ts IH]; intros h h' Ht Hh E; cbn [handle_all] in E; [injection E as <-; exact Hh|]. inversion Ht; subst.
  destruct (handle t h) as [h1|] eqn:E1; [|discriminate]. cbn [bind] in E. eapply IH; [eassumption | eapply handle_text; eassumption | exact E].
Qed.
Lemma close_up_text : forall up n, ntext n -> Forall ftext up -> ntext (close_up n up).
Proof.
  induction up as [|p up IH]; intros n Hn H; [exact Hn|]. inversion H; subst. cbn [close_up]. apply IH; [|assumption]. apply close_text, add_text; assumption.
Qed.
Lemma parse_text : forall html root, parse_html html = Ok root -> ntext root.
Proof.
  intros html root H. unfold parse_html, feed in H. destruct (preprocess html) as [[data bd]|]; [|discriminate]. cbn [bind] in H.
  unfold feed_tokens, tokens in H. pose proof (goahead_text (S (List.length data)) None data) as G.
  destruct (goahead (S (List.length data)) None data) as [ts b]. cbn [fst] in G.
  destruct (handle_all ts (h_init bd)) as [h|] eqn:E; [|discriminate]. cbn [bind] in H. destruct b; [discriminate|]. injection H as <-.
  assert (C : ctext (cur h)) by (apply (handle_all_text ts (h_init bd) h G); [split; [split; constructor | constructor] | exact E]).
  unfold root_of. destruct (cur h) as [top up|r]; [|exact C]. destruct C as [C1 C2]. apply close_up_text; [apply close_text; exact C1 | exact C2].
Qed.

(** ** One address for every link and one for every image *)
Section Calm.
  Variables V W : pyval.
  Hypothesis TV : textual V.
  Hypothesis TW : textual W.
  Definition only (x : pyval) (d : pydict) : Prop := forall t y, dict_get t d = Some y -> y = x.
  Definition inv (s : est) : Prop := only V (used_links s) /\ only W (used_images s).
  Definition calm (x : res (str * est)) : Prop := match x with Ok (_, s) => inv s | Exc e => e <> ESubstitution end.
  Lemma eqb_refl : forall x, textual x -> pyval_eqb x x = true.
  Proof. intros [s|z|b|] H; try contradiction; [apply str_eqb_eq; reflexivity | reflexivity]. Qed.
  Lemma only_old : forall x d t, textual x -> only x d -> exists o d', get_old d t x = Ok (o, d') /\ only x d'.
  Proof.
    intros x d t Hx H. unfold get_old. destruct (dict_get t d) as [y|] eqn:E.
    - rewrite (H t y E), (eqb_refl x Hx). eexists _, _. split; [reflexivity | exact H].
    - eexists _, _. split; [reflexivity|]. intros t' y Hy. destruct (str_eqb t t') eqn:Et.
      + apply str_eqb_eq in Et. subst t'. rewrite C2H.dict_get_set_eq in Hy. congruence.
      + rewrite C2H.dict_get_set_neq in Hy; [exact (H t' y Hy)|]. apply str_eqb_neq in Et. congruence.
  Qed.
  (** nodes that keep to the two addresses *)
  Definition keep (k : str) (a : pydict) : Prop :=
    (k = $ "a" -> forall v, dict_get ($ "href") a = Some v -> v = V) /\ (k = $ "img" -> forall v, dict_get ($ "src") a = Some v -> v = W).
  Definition quiet (km : str * meth) : Prop := forall c a l anc (kids : action) s,
    keep (fst km) a -> inv s -> (forall s0, inv s0 -> calm (kids s0)) -> calm (snd km (mkn (fst km) c a l anc) kids s).
  (** the exceptions of the parts *)
  Definition other {A} (x : res A) : Prop := match x with Ok _ => True | Exc e => e <> ESubstitution end.
  Lemma other_bind : forall A B (x : res A) (g : A -> res B), other x -> (forall r, other (g r)) -> other (bind x g).
  Proof. intros A B [r|e] g Hx Hg; [apply Hg | exact Hx]. Qed.
  Lemma chr_other : forall z, other (py_chr z).
  Proof. intro z. unfold py_chr. destruct (z <? 0)%Z; [destruct (z <? _)%Z; discriminate|]. destruct (z <? 1114112)%Z; [exact I|]. destruct (z <? _)%Z; discriminate. Qed.
  Lemma number_other : forall t, other (replace_number t).
  Proof. intro t. unfold replace_number. destruct (py_int t); [|discriminate]. apply other_bind; [apply chr_other | intro; exact I]. Qed.
  Lemma hex_other : forall t, other (replace_hex t).
  Proof. intro t. unfold replace_hex. apply other_bind; [apply chr_other | intro; exact I]. Qed.
  Lemma named_other : forall t, other (replace_named t).
  Proof. intro t. unfold replace_named. destruct (str_eqb _ _); [exact I|]. destruct (name2cp _ _); [exact I | discriminate]. Qed.
  Lemma entity_other : forall x, other (replace_entity x).
  Proof.
    intro x. unfold replace_entity. destruct (group G_number x); [apply number_other|]. destruct (group G_hex x); [apply hex_other|].
    destruct (group G_named x); [apply named_other | discriminate].
  Qed.
  Lemma all_other : forall t, other (replace_all t).
  Proof.
    intro t. unfold replace_all, resub_r, resub_st. apply other_bind; [|intros [? ?]; exact I].
    assert (G : forall l (u : unit), other (sub_go (fun x (_ : unit) => do a <- replace_entity x; Ok (a, tt)) l u)); [|apply G].
    induction l as [|[c|x] l IH]; intro u; cbn [sub_go]; [exact I| |].
    - apply other_bind; [apply IH | intros [? ?]; exact I].
    - apply other_bind; [apply other_bind; [apply entity_other | intro; exact I]|]. intros [r v]. apply other_bind; [apply IH | intros [? ?]; exact I].
  Qed.
  Lemma deentity_other : forall ni, other (deentity_content ni).
  Proof. intro ni. unfold deentity_content. destruct (n_content ni); [apply all_other | discriminate]. Qed.
  Lemma level_other : forall ni, other (level_of ni).
  Proof. intro ni. unfold level_of. destruct (n_level ni); [exact I | discriminate]. Qed.
  Lemma attr_len_other : forall k ni, other (attr_len k ni).
  Proof. intros k ni. unfold attr_len. destruct (dict_get k (n_attrs ni)) as [[s|z|b|]|]; try exact I; discriminate. Qed.
  Lemma calm_kids : forall x g, calm x -> (forall r s, inv s -> calm (g (r, s))) -> calm (bind x g).
  Proof. intros [[r s]|e] g Hx Hg; [apply Hg; exact Hx | exact Hx]. Qed.
  Lemma calm_part : forall A (x : res A) g, other x -> (forall r, x = Ok r -> calm (g r)) -> calm (bind x g).
  Proof. intros A [r|e] g Hx Hg; [apply Hg; reflexivity | exact Hx]. Qed.
  Lemma img_calm : forall ni, other (img_parts ni).
  Proof.
    intro ni. unfold img_parts. apply other_bind; [unfold attr; destruct (dict_get _ _); [exact I | discriminate]|].
    intros [s|z|b|]; try discriminate. destruct (str_eqb _ _); [exact I|]. apply other_bind; [apply attr_len_other | intro].
    apply other_bind; [apply attr_len_other | intro; exact I].
  Qed.
  Lemma img_src : forall ni src text, img_parts ni = Ok (Some (src, text)) -> dict_get ($ "src") (n_attrs ni) = Some (VStr src).
  Proof.
    intros ni src text H. unfold img_parts, attr in H. destruct (dict_get _ _) as [[s|z|b|]|]; try discriminate. cbn [bind] in H.
    destruct (str_eqb _ _); [discriminate|]. destruct (attr_len ($ "alt") ni) as [al|]; [|discriminate]. cbn [bind] in H.
    destruct (attr_len ($ "title") ni) as [ti|]; [|discriminate]. cbn [bind] in H. injection H as <- _. reflexivity.
  Qed.
  Lemma inv_links : forall s d, inv s -> only V d -> inv (set_links d s).
  Proof. intros s d [_ H] Hd. split; [exact Hd | exact H]. Qed.
  Lemma inv_images : forall s d, inv s -> only W d -> inv (set_images d s).
  Proof. intros s d [H _] Hd. split; [exact H | exact Hd]. Qed.
  Lemma quiet_a : quiet ($ "a", r_a).
  Proof.
    intros c a l anc kids s [Hk _] Hs H. cbn [fst snd] in *. unfold r_a. apply calm_kids; [exact (H s Hs) | intros r s1 H1].
    apply calm_part; [unfold attr; cbn [n_attrs]; destruct (dict_get _ _); [exact I | discriminate] | intros v Ev].
    assert (v = V) as ->. { unfold attr in Ev. cbn [n_attrs] in Ev. apply (Hk eq_refl). destruct (dict_get _ a); [injection Ev as ->; reflexivity | discriminate]. }
    destruct (only_old V (used_links s1) r TV (proj1 H1)) as (o & d & -> & Hd). cbn [bind]. pose proof (inv_links s1 d H1 Hd) as H2.
    destruct (should_substitute _); [|destruct (attr_true o); exact H2]. cbn [calm]. destruct (attr_true o); exact H2.
  Qed.
  Lemma quiet_img : quiet ($ "img", r_img).
  Proof.
    intros c a l anc kids s [_ Hk] Hs H. cbn [fst snd] in *. unfold r_img. apply calm_part; [apply img_calm | intros p Ep].
    destruct p as [[src text]|]; [|exact Hs]. apply img_src in Ep. cbn [n_attrs] in Ep. apply (Hk eq_refl) in Ep. rewrite Ep.
    destruct (only_old W (used_images s) text TW (proj2 Hs)) as (o & d & -> & Hd). cbn [bind]. pose proof (inv_images s d Hs Hd) as H2.
    cbn [calm]. destruct (attr_true o); exact H2.
  Qed.
  Ltac q := let c := fresh in let a := fresh in let l := fresh in let anc := fresh in let kids := fresh "kids" in let s := fresh "s" in
    let Hs := fresh "Hs" in let H := fresh "H" in
    intros c a l anc kids s _ Hs H; cbn [fst snd];
    cbv beta zeta delta [const_emit blockdata_pass_emit br_emit typeface content_emit data_emit entityref_emit charref_emit p_emit li_emit
      table_emit tr_emit cell_emit document_emit t_inlinedata_pre r_blockdata_pre r_document r_headline r_small r_code r_li r_list r_table ret get_block_data];
    repeat first [ exact Hs | exact (H s Hs) | discriminate
      | match goal with
        | |- calm (bind (bind (kids _) _) _) => apply calm_kids; [apply calm_kids; [apply H; exact Hs | intros ? ? ?] | clear s Hs; intros ? s Hs]
        | |- calm (bind (kids _) _) => apply calm_kids; [apply H; exact Hs | clear s Hs; intros ? s Hs]
        | |- calm (bind (deentity_content _) _) => apply calm_part; [apply deentity_other | intros ? _]
        | |- calm (bind (level_of _) _) => apply calm_part; [apply level_other | intros ? _]
        | |- calm (bind _ _) => apply calm_part; [ match goal with |- other (match ?x with _ => _ end) => idtac end | intros ? _]
        | |- calm (match ?x with _ => _ end) => destruct x
        | |- calm ((match ?x with _ => _ end) _) => destruct x
        | |- calm (let '(_, _) := ?x in _) => destruct x
        end
      | assumption ].
  Lemma quiet_charref : quiet ($ "charref", charref_emit).
  Proof.
    intros c a l anc kids s _ Hs H. cbn [fst snd]. unfold charref_emit. cbn [n_content]. destruct c as [e|]; [|discriminate].
    apply calm_part; [|intros r _; exact Hs].
    assert (other (replace_number e) /\ forall t, other (replace_hex t)) as [H1 H2] by (split; [apply number_other | apply hex_other]).
    repeat match goal with |- other (match ?x with _ => _ end) => destruct x; try exact H1; try apply H2 end.
  Qed.
  Lemma rest_quiet : Forall quiet rest_methods.
  Proof.
    unfold rest_methods, base_methods. cbn [app].
    repeat (apply Forall_cons; [ first [exact quiet_a | exact quiet_img | exact quiet_charref | solve [q]] |]). apply Forall_nil.
  Qed.
  Lemma pre_inv : forall anc s, inv s -> inv (snd (rest_pre anc s)).
  Proof. intros anc s H. unfold rest_pre. destruct (subst_data s); [exact H|]. destruct anc as [|? [|? ?]]; exact H. Qed.
  Inductive kept : hnode -> Prop := kept_i : forall k c a l ch, keep k a -> Forall kept ch -> kept (HN k c a l ch).
  Lemma emit_calm : forall u, (forall k a c, u k a c <> Exc ESubstitution) -> forall n anc s, kept n -> inv s ->
    calm (emit_node rest_methods u rest_pre anc n s).
  Proof.
    intros u Hu n. induction n as [k c a l ch IH] using hnode_ind'. intros anc s Hk Hs. inversion Hk as [? ? ? ? ? K Kch]; subst.
    rewrite emit_node_eq. pose proof (pre_inv anc s Hs) as H1. destruct (rest_pre anc s) as [p s1]. cbn [snd] in H1.
    apply calm_kids; [|intros r s2 H2; exact H2].
    assert (Hkids : forall s0, inv s0 -> calm (kids_of rest_methods u rest_pre anc k c ch s0)).
    { intros s0 H0. unfold kids_of. assert (H3 : inv (set_last (k, c) s0)) by exact H0. revert H3. generalize (set_last (k, c) s0). clear H0 s0 Hk.
      induction IH as [|x ch Hx _ IHch]; intros s0 H0; [exact H0|]. inversion Kch; subst. cbn [emit_list].
      apply calm_kids; [apply Hx; assumption|]. intros r s2 H2. apply calm_kids; [apply IHch; assumption | intros ? ? HH; exact HH]. }
    unfold run_meth. cbn [n_kind n_attrs]. destruct (find_meth rest_methods k) as [m|] eqn:Em.
    - apply find_meth_In in Em. pose proof rest_quiet as Q. rewrite Forall_forall in Q. exact (Q (k, m) Em c a l anc _ s1 K H1 Hkids).
    - apply calm_kids; [apply Hkids; exact H1 | intros r s2 H2]. apply calm_part; [|intros; exact H2].
      specialize (Hu k a r). destruct (u k a r); [exact I | cbn [other]; congruence].
  Qed.
End Calm.

(** ** The theorem *)
Lemma alike : forall l : list (option str), (exists v w, In v l /\ In w l /\ v <> w) \/ (exists v, Forall (eq v) l).
Proof.
  intros [|v l]; [right; exists None; constructor|].
  assert (D : forall x y : option str, {x = y} + {x <> y}) by (decide equality; apply list_eq_dec, N.eq_dec).
  destruct (Forall_Exists_dec (eq v) (D v) l) as [H|H]; [right; exists v; constructor; [reflexivity | exact H]|].
  left. apply Exists_exists in H as (w & Hw & Hn). exists v, w. repeat split; [left; reflexivity | right; exact Hw | exact Hn].
Qed.
Definition value (v : option str) : pyval := match v with Some s => VStr s | None => VNone end.
Lemma value_text : forall v, textual (value v). Proof. intros [s|]; exact I. Qed.
Lemma text_value : forall x, textual x -> x = value (text_of x).
Proof. intros [s|z|b|] H; try contradiction; reflexivity. Qed.
Lemma get_text : forall k d v, dtext d -> dict_get k d = Some v -> textual v.
Proof.
  intros k. induction d as [|[k0 v0] d IH]; intros v H E; [discriminate|]. apply Forall_cons_iff in H as [H1 H2]. cbn [dict_get] in E.
  destruct (str_eqb k k0); [injection E as <-; exact H1 | exact (IH v H2 E)].
Qed.
Lemma kept_all : forall v w n, ntext n -> Forall (eq v) (addresses ($ "a") ($ "href") n) -> Forall (eq w) (addresses ($ "img") ($ "src") n) ->
  kept (value v) (value w) n.
Proof.
  intros v w n. induction n as [k c a l ch IH] using hnode_ind'. intros Hn Hv Hw. inversion Hn as [? ? ? ? ? Ha Hch]; subst.
  cbn [addresses] in Hv, Hw. apply Forall_app in Hv as [Hv1 Hv2]. apply Forall_app in Hw as [Hw1 Hw2]. constructor.
  - split; intros -> x Hx.
    + rewrite (proj2 (str_eqb_eq _ _) eq_refl), Hx in Hv1. inversion Hv1; subst. apply text_value. eapply get_text; eassumption.
    + rewrite (proj2 (str_eqb_eq _ _) eq_refl), Hx in Hw1. inversion Hw1; subst. apply text_value. eapply get_text; eassumption.
  - clear Hn Ha Hv1 Hw1. induction IH as [|x ch Hx _ IHch]; [constructor|]. cbn [flat_map] in Hv2, Hw2.
    apply Forall_app in Hv2 as [? ?]. apply Forall_app in Hw2 as [? ?]. inversion Hch; subst. constructor; [apply Hx; assumption | apply IHch; assumption].
Qed.
Lemma lemma_clash : forall u html root, (forall k a c, exists r, u k a c = Ok r) -> parse_html html = Ok root ->
  html2rest u html = Exc ESubstitution ->
  (exists v w, In v (addresses ($ "a") ($ "href") root) /\ In w (addresses ($ "a") ($ "href") root) /\ v <> w) \/
  (exists v w, In v (addresses ($ "img") ($ "src") root) /\ In w (addresses ($ "img") ($ "src") root) /\ v <> w).
Proof.
  intros u html root Hu Hp E. destruct (alike (addresses ($ "a") ($ "href") root)) as [H|(v & Hv)]; [left; exact H|].
  destruct (alike (addresses ($ "img") ($ "src") root)) as [H|(w & Hw)]; [right; exact H|]. exfalso.
  unfold html2rest in E. rewrite Hp in E. cbn [bind] in E. unfold emit_rest in E.
  pose proof (emit_calm (value v) (value w) (value_text v) (value_text w) u ltac:(intros k a c; destruct (Hu k a c) as (r & ->); discriminate)
    root [] e_init (kept_all v w root (parse_text html root Hp) Hv Hw)) as Q.
  specialize (Q ltac:(split; intros t y Hy; discriminate Hy)).
  destruct (emit_node _ _ _ _ _ _) as [[r s]|e]; [discriminate|]. cbn [bind] in E. injection E as ->. exact (Q eq_refl).
Qed.
