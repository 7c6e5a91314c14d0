(** * The html converters keep the text of the document *)
From Coq Require Import String List Arith NArith ZArith Bool Lia.
From Verif Require Import PyStr PyStrFacts Utils Res HtmlTools HtmlToolsFacts HtmlTok HtmlParser MarkupTable UrlQuote HtmlBase Html2X.
From Verif Require Import Spec13 TextOrder TableFacts TreeFacts EmitFacts Spec14.
Import ListNotations.
Open Scope N_scope.

(** ** [has a r]: the ink of [a] is in [r], in its order *)
Definition has (a r : str) : Prop := subseq (inked a) (inked r).

Lemma ink_app : forall a b, inked (a ++ b) = inked a ++ inked b.
Proof. intros. apply filter_app. Qed.
Lemma has_refl : forall a, has a a.
Proof. intro. apply ss_refl. Qed.
Lemma has_trans : forall a b c, has a b -> has b c -> has a c.
Proof. intros a b c H1 H2. exact (ss_trans _ _ H2 _ H1). Qed.
Lemma has_nil : forall r, has [] r.
Proof. intro. constructor. Qed.
Lemma has_l : forall a b x, has a b -> has a (b ++ x).
Proof. intros a b x H. unfold has. rewrite ink_app. apply ss_app_l. exact H. Qed.
Lemma has_r : forall a b x, has a b -> has a (x ++ b).
Proof. intros a b x H. unfold has. rewrite ink_app. apply ss_pre. exact H. Qed.
Lemma has_cons : forall a b (x : N), has a b -> has a (x :: b).
Proof. intros a b x H. apply (has_r a b [x] H). Qed.
Lemma has_app : forall a b c d, has a b -> has c d -> has (a ++ c) (b ++ d).
Proof. intros a b c d H1 H2. unfold has. rewrite !ink_app. apply ss_app; assumption. Qed.
Lemma has_ink : forall a b c, inked b = inked c -> has a b -> has a c.
Proof. intros a b c E H. unfold has in *. rewrite <- E. exact H. Qed.

Lemma space_no_ink : forall a, forallb is_space a = true -> inked a = [].
Proof.
  induction a as [|c a IH]; intro H; [reflexivity|]. cbn [forallb] in H. apply andb_true_iff in H as [H1 H2].
  cbn [inked filter]. unfold ink at 1. rewrite H1. cbn [orb negb]. exact (IH H2).
Qed.
Lemma no_ink : forall p, (forall c, p c = true -> ink c = false) -> forall a, forallb p a = true -> inked a = [].
Proof.
  intros p Hp. induction a as [|c a IH]; intro H; [reflexivity|]. cbn [forallb] in H. apply andb_true_iff in H as [H1 H2].
  cbn [inked filter]. rewrite (Hp c H1). exact (IH H2).
Qed.
Lemma ink_strip_by : forall p, (forall c, p c = true -> ink c = false) -> forall s, inked (strip_by p s) = inked s.
Proof.
  intros p Hp s. destruct (strip_split p s) as (a & b & E & Ha & Hb).
  replace (inked s) with (inked (a ++ strip_by p s ++ b)) by (rewrite <- E; reflexivity).
  rewrite !ink_app, (no_ink p Hp a Ha), (no_ink p Hp b Hb), app_nil_r. reflexivity.
Qed.
Lemma ink_strip : forall s, inked (strip s) = inked s.
Proof. intro s. apply ink_strip_by. intros c H. unfold ink. rewrite H. reflexivity. Qed.
Lemma ink_rstrip : forall s, inked (rstrip s) = inked s.
Proof.
  intro s. unfold rstrip. destruct (rstrip_split is_space s) as (b & E & Hb).
  replace (inked s) with (inked (rstrip_by is_space s ++ b)) by (rewrite <- E; reflexivity).
  rewrite ink_app, (space_no_ink b Hb), app_nil_r. reflexivity.
Qed.
Lemma ink_strip_bs : forall s, inked (strip_chars [92] s) = inked s.
Proof.
  intro s. apply ink_strip_by. intros c H. unfold in_str in H. cbn [existsb] in H. rewrite orb_false_r in H.
  apply N.eqb_eq in H. subst. reflexivity.
Qed.
Lemma ink_strip_nl : forall s, inked (strip_chars [10] s) = inked s.
Proof.
  intro s. apply ink_strip_by. intros c H. unfold in_str in H. cbn [existsb] in H. rewrite orb_false_r in H.
  apply N.eqb_eq in H. subst. reflexivity.
Qed.
Lemma ink_concat : forall l, inked (concat l) = concat (map inked l).
Proof. induction l as [|x l IH]; [reflexivity|]. cbn [concat map]. rewrite ink_app, IH. reflexivity. Qed.
Lemma ink_join : forall sep l, inked sep = [] -> inked (join sep l) = inked (concat l).
Proof.
  intros sep l H. induction l as [|x [|y l] IH]; [reflexivity| |].
  - cbn [join concat]. rewrite app_nil_r. reflexivity.
  - change (join sep (x :: y :: l)) with (x ++ sep ++ join sep (y :: l)). rewrite !ink_app, H, IH. cbn [concat].
    rewrite !ink_app. reflexivity.
Qed.
Lemma ink_map : forall (f : str -> str) l, (forall x, inked (f x) = inked x) -> inked (concat (map f l)) = inked (concat l).
Proof. intros f l H. induction l as [|x l IH]; [reflexivity|]. cbn [map concat]. rewrite !ink_app, H, IH. reflexivity. Qed.
Lemma ink_truthy : forall l, concat (filter truthy l) = concat l.
Proof. induction l as [|[|c x] l IH]; [reflexivity|exact IH|]. cbn [filter truthy concat]. apply (f_equal (app (c :: x))). exact IH. Qed.
Lemma ink_cons : forall c t, inked (c :: t) = inked [c] ++ inked t.
Proof. intros c t. exact (ink_app [c] t). Qed.
Lemma ink_split : forall s, inked (concat (split_on 10 s)) = inked s.
Proof.
  induction s as [|c s IH]; [reflexivity|]. cbn [split_on]. destruct (N.eqb_spec c 10) as [->|Hn].
  - cbn [concat app]. rewrite IH. reflexivity.
  - destruct (split_on 10 s) as [|h r] eqn:E.
    + rewrite (ink_cons c s), <- IH. cbn [concat app]. change (inked []) with (@nil N). rewrite app_nil_r. reflexivity.
    + rewrite (ink_cons c s), <- IH. cbn [concat app]. rewrite (ink_cons c). reflexivity.
Qed.
Lemma ink_escape_linebreaks : forall t, inked (escape_linebreaks t) = inked t.
Proof.
  intro t. unfold escape_linebreaks. rewrite ink_strip_bs, ink_join by reflexivity.
  rewrite ink_truthy, ink_map by apply ink_strip. rewrite ink_split, ink_strip. reflexivity.
Qed.
Lemma ink_content : forall k t, inked (content_text k t) = inked t.
Proof.
  intros k t. unfold content_text. destruct (in_list BLOCK_TAGS k); [|apply ink_escape_linebreaks].
  rewrite ink_app, ink_escape_linebreaks, app_nil_r. reflexivity.
Qed.
Lemma ink_rest_list : forall c, inked (join [10; 10] (map (strip_chars [10]) (filter truthy (split_on 10 c)))) = inked c.
Proof.
  intro c. rewrite ink_join by reflexivity. rewrite ink_map by apply ink_strip_nl. rewrite ink_truthy. apply ink_split.
Qed.
Lemma linebreak_space : forall c, is_linebreak c = true -> is_space c = true.
Proof.
  intros c H. unfold is_linebreak in H. unfold is_space.
  repeat rewrite orb_true_iff in H. repeat rewrite andb_true_iff in H.
  repeat rewrite N.leb_le in H. repeat rewrite N.eqb_eq in H.
  repeat rewrite orb_true_iff. repeat rewrite andb_true_iff. repeat rewrite N.leb_le. repeat rewrite N.eqb_eq. lia.
Qed.
Lemma ink_rev_cons : forall c (cur : str) t, inked (rev cur) ++ inked (c :: t) = inked (rev (c :: cur)) ++ inked t.
Proof. intros c cur t. cbn [rev]. rewrite <- !ink_app, <- app_assoc. reflexivity. Qed.
Lemma ink_splitlines_go : forall n s cur, (List.length s <= n)%nat -> inked (concat (splitlines_go cur s)) = inked (rev cur) ++ inked s.
Proof.
  induction n as [|n IH]; intros s cur Hn.
  - destruct s; [|cbn in Hn; lia]. cbn [splitlines_go]. destruct cur; [reflexivity|]. cbn [concat]. rewrite !app_nil_r. reflexivity.
  - destruct s as [|c t]; cbn [splitlines_go].
    + destruct cur; [reflexivity|]. cbn [concat]. rewrite !app_nil_r. reflexivity.
    + cbn [List.length] in Hn. destruct (is_linebreak c) eqn:E.
      * assert (Hc : inked (c :: t) = inked t).
        { rewrite ink_cons. unfold inked at 1. cbn [filter]. unfold ink at 1. rewrite (linebreak_space c E). reflexivity. }
        assert (G : inked (concat (rev cur :: splitlines_go [] t)) = inked (rev cur) ++ inked t).
        { cbn [concat]. rewrite ink_app, IH by lia. reflexivity. }
        rewrite Hc.
        assert (Hm : (exists t', c = 13 /\ t = 10 :: t') \/
          match c, t with 13, 10 :: t' => rev cur :: splitlines_go [] t' | _, _ => rev cur :: splitlines_go [] t end = rev cur :: splitlines_go [] t).
        { destruct (N.eq_dec c 13) as [->|Hc13].
          - destruct t as [|d t']; [right; reflexivity|]. destruct (N.eq_dec d 10) as [->|Hd].
            + left. exists t'. auto.
            + right. destruct d as [|p]; [reflexivity|].
              do 4 (destruct p as [p|p|]; try reflexivity). exfalso; apply Hd; reflexivity.
          - right. destruct c as [|p]; [reflexivity|].
            do 4 (destruct p as [p|p|]; try reflexivity). exfalso; apply Hc13; reflexivity. }
        destruct Hm as [(t' & -> & ->)|Hm].
        -- cbn [concat]. rewrite ink_app, IH by (cbn [List.length] in Hn; lia). reflexivity.
        -- rewrite <- G. apply f_equal, f_equal. exact Hm.
      * rewrite IH by lia. symmetry. apply ink_rev_cons.
Qed.
Lemma ink_splitlines : forall s, inked (concat (splitlines s)) = inked s.
Proof. intro s. unfold splitlines. rewrite (ink_splitlines_go (List.length s)) by lia. reflexivity. Qed.
Lemma ink_ljust : forall s w, inked (ljust s w) = inked s.
Proof. intros. unfold ljust. rewrite ink_app, (space_no_ink _ (spaces_repeat _)), app_nil_r. reflexivity. Qed.
Lemma ink_fmt : forall hp c, inked (fmt_cell hp c) = inked c.
Proof.
  intros hp c. unfold fmt_cell. rewrite <- (ink_strip c). destruct (strip c) as [|x r] eqn:E; [reflexivity|]. rewrite <- E.
  destruct (truthy hp && startswith hp (strip c)).
  - rewrite ink_app, app_nil_r. reflexivity.
  - rewrite !ink_app, app_nil_r. reflexivity.
Qed.

(** ** Tables *)
Lemma has_join : forall sep l, has (concat l) (join sep l).
Proof.
  intros sep l. induction l as [|x [|y l] IH]; [apply has_refl| |].
  - cbn [join concat]. rewrite app_nil_r. apply has_refl.
  - change (join sep (x :: y :: l)) with (x ++ sep ++ join sep (y :: l)). cbn [concat]. apply has_app; [apply has_refl|].
    apply has_r. exact IH.
Qed.
Lemma has_concat : forall a b, Forall2 has a b -> has (concat a) (concat b).
Proof. intros a b H. induction H; [apply has_refl|]. cbn [concat]. apply has_app; assumption. Qed.
Lemma has_line : forall row ws, List.length ws = List.length row -> has (concat row) (table_line ws row).
Proof.
  intros row ws H. unfold table_line. apply has_r, has_l. eapply has_trans; [|apply has_join]. apply has_concat.
  revert ws H. induction row as [|c row IH]; intros [|w ws] H; try discriminate; [constructor|]. cbn [zip map]. constructor.
  - eapply has_ink; [|apply has_refl]. symmetry. apply (ink_ljust c w).
  - apply IH. injection H. auto.
Qed.
Lemma rect_widths : forall w (cells : list (list str)), cells <> [] -> Forall (fun r => List.length r = w) cells -> List.length (widths cells) = w.
Proof. intros w cells Hne H. rewrite widths_length. apply shortest_all; assumption. Qed.
Lemma has_fmt_rows : forall hp rs, has (concat (map (@concat N) rs)) (concat (map (@concat N) (map (map (fmt_cell hp)) rs))).
Proof.
  intros hp rs. apply has_concat. induction rs as [|r rs IH]; constructor; [|exact IH].
  eapply has_ink; [symmetry; apply (ink_map (fmt_cell hp)); apply ink_fmt | apply has_refl].
Qed.
Definition rect (w : nat) (rs : list (list str)) : Prop := Forall (fun r => List.length r = w) rs.
Lemma rect_fmt : forall hp w rs, rect w rs -> rect w (map (map (fmt_cell hp)) rs).
Proof. intros hp w rs H. unfold rect in *. apply Forall_map. eapply Forall_impl; [|exact H]. intros r E. rewrite map_length. exact E. Qed.
Lemma has_lines : forall w ws cells, rect w cells -> List.length ws = w -> Forall2 has (map (@concat N) cells) (map (table_line ws) cells).
Proof. intros w ws cells H E. induction H as [|r cells Hr _ IH]; constructor; [|exact IH]. apply has_line. exact (eq_trans E (eq_sym Hr)). Qed.

Lemma has_table : forall hp aw hdr w rs, rect w rs -> has (concat (map (@concat N) rs)) (get_table_markup (mkt hp aw rs hdr)).
Proof.
  intros hp aw hdr w rs H. destruct rs as [|r0 rs0] eqn:E0; [apply has_nil|]. rewrite <- E0 in *.
  assert (Hne : rs <> []) by (rewrite E0; discriminate). clear E0.
  unfold get_table_markup. cbn [auto_width]. eapply has_trans; [|apply has_join]. destruct aw.
  - unfold preformat. cbn [head_prefix rows]. eapply has_trans; [apply (has_fmt_rows hp)|]. apply has_concat.
    apply (has_lines w); [apply rect_fmt; exact H|]. apply rect_widths; [|apply rect_fmt; exact H].
    intro E. apply map_eq_nil in E. contradiction.
  - cbn [rows]. apply has_concat. clear H Hne. induction rs as [|r rs IH]; constructor; [|exact IH].
    apply has_r, has_l, has_join.
Qed.
Lemma has_rest_lines : forall hdr ws cells no w, rect w cells -> List.length ws = w ->
  has (concat (map (@concat N) cells)) (concat (rest_lines hdr no ws cells)).
Proof.
  intros hdr ws cells no w H E. revert no. induction H as [|r cells Hr _ IH]; intro no; [apply has_nil|].
  cbn [map concat rest_lines]. apply has_r. apply has_app; [apply has_line; exact (eq_trans E (eq_sym Hr))|]. apply IH.
Qed.
Lemma has_rest_table : forall hp aw hdr w rs, rect w rs -> has (concat (map (@concat N) rs)) (get_rest_table (mkt hp aw rs hdr)).
Proof.
  intros hp aw hdr w rs H. destruct rs as [|r0 rs0] eqn:E0; [apply has_nil|]. rewrite <- E0 in *.
  assert (Hne : rs <> []) by (rewrite E0; discriminate). clear E0.
  unfold get_rest_table, preformat. cbn [head_prefix rows has_header]. eapply has_trans; [|apply has_join]. rewrite concat_app. apply has_l.
  eapply has_trans; [apply (has_fmt_rows hp)|]. apply (has_rest_lines hdr _ _ _ w); [apply rect_fmt; exact H|].
  apply rect_widths; [|apply rect_fmt; exact H]. intro E. apply map_eq_nil in E. contradiction.
Qed.
Lemma has_md_lines : forall hdr ws cells no w, rect w cells -> List.length ws = w ->
  has (concat (map (@concat N) cells)) (concat (md_lines hdr no ws cells)).
Proof.
  intros hdr ws cells no w H E. revert no. induction H as [|r cells Hr _ IH]; intro no; [apply has_nil|].
  cbn [map concat md_lines]. rewrite concat_app. apply has_r. cbn [concat]. apply has_app; [apply has_line; exact (eq_trans E (eq_sym Hr))|]. apply IH.
Qed.
Lemma has_md_table : forall hp aw hdr w rs, rect w rs -> has (concat (map (@concat N) rs)) (get_markdown_table (mkt hp aw rs hdr)).
Proof.
  intros hp aw hdr w rs H. destruct rs as [|r0 rs0] eqn:E0; [apply has_nil|]. rewrite <- E0 in *.
  assert (Hne : rs <> []) by (rewrite E0; discriminate). clear E0.
  unfold get_markdown_table, preformat. cbn [head_prefix rows has_header]. eapply has_trans; [|apply has_join].
  eapply has_trans; [apply (has_fmt_rows hp)|]. apply (has_md_lines hdr _ _ _ w); [apply rect_fmt; exact H|].
  apply rect_widths; [|apply rect_fmt; exact H]. intro E. apply map_eq_nil in E. contradiction.
Qed.

(** ** Methods that keep what their children yield *)
Definition keeping (f : meth) : Prop := forall ni kids s r s', f ni kids s = Ok (r, s') ->
  exists s0 c s1, kids s0 = Ok (c, s1) /\ has c r /\ tbl s0 = tbl s /\ tbl s' = tbl s1.
Definition leaf_keeping (okp : str -> bool) (k : str) (f : meth) : Prop := forall c a l anc kids s r s', ok_text okp k c = true ->
  f (mkn k c a l anc) kids s = Ok (r, s') ->
  tbl s' = tbl s /\ has (match c with Some t => own_text k t | None => [] end) r.
Definition mute_tbl (f : meth) : Prop := forall ni kids s r s', f ni kids s = Ok (r, s') -> tbl s' = tbl s.
Definition rowish (f : meth) : Prop := forall ni kids s r s', f ni kids s = Ok (r, s') ->
  exists t c s1, tbl s = Some t /\ kids (set_tbl (add_tr t) s) = Ok (c, s1) /\ s' = s1.
Definition cellish (f : meth) : Prop := forall ni kids s r s', f ni kids s = Ok (r, s') ->
  exists c s1 t t' x, kids s = Ok (c, s1) /\ tbl s1 = Some t /\ tbl s' = Some t' /\
    rows t' = append_last (rows t) x /\ has c x.
Definition tablish (f : meth) : Prop := forall ni kids s r s', f ni kids s = Ok (r, s') ->
  exists hp aw c s1, kids (set_tbl (new_table hp aw) s) = Ok (c, s1) /\ s' = s1 /\
    forall t w, tbl s1 = Some t -> rect w (rows t) -> has (concat (map (@concat N) (rows t))) r.
Definition good_keep (okp : str -> bool) (km : str * meth) : Prop :=
  let '(k, f) := km in
  if in_list text_kinds k then leaf_keeping okp k f
  else if in_list void_kinds k then mute_tbl f
  else if str_eqb k ($ "table") then tablish f
  else if str_eqb k ($ "tr") then rowish f
  else if in_list [$ "th"; $ "td"] k then cellish f
  else keeping f.

Lemma out_inv : forall (a b : str) (s t : est), Ok (a, s) = Ok (b, t) -> a = b /\ s = t.
Proof. intros a b s t H. injection H. auto. Qed.

#[local] Hint Resolve has_refl has_nil : hasdb.
Ltac has_search := first
  [ apply has_refl
  | lazymatch goal with
    | |- has _ (_ ++ _) => first [apply has_l; has_search | apply has_r; has_search]
    | |- has _ (_ :: _) => apply has_cons; has_search
    | |- has _ (if ?b then _ else _) => destruct b; has_search
    | |- has _ (match ?b with _ => _ end) => destruct b; has_search
    | |- has ?a (strip ?x) => apply (has_ink a x); [symmetry; apply ink_strip|has_search]
    | |- has ?a (strip_chars [10] ?x) => apply (has_ink a x); [symmetry; apply ink_strip_nl|has_search]
    | |- has ?a (content_text _ ?x) => apply (has_ink a x); [symmetry; apply ink_content|has_search]
    | |- has ?a (join [10; 10] (map (strip_chars [10]) (filter truthy (split_on 10 ?x)))) =>
        apply (has_ink a x); [symmetry; apply ink_rest_list|has_search]
    end ].
Ltac meth_keep :=
  let ni := fresh "ni" in let k := fresh "kids" in let s := fresh "s" in let r := fresh "r" in let s' := fresh "s'" in
  intros ni k s r s';
  cbv beta zeta delta [const_emit c_p c_headline typeface c_a list_emit content_emit p_emit li_emit document_emit
    t_headline t_a m_p m_headline m_html m_a m_list m_li m_code r_document r_headline r_small r_a r_code r_li r_list];
  repeat first [ discriminate
    | lazymatch goal with
      | |- Ok (_, _) = Ok (_, _) -> _ => let H := fresh in intro H; apply out_inv in H as [<- <-]
      | |- bind (k ?x) _ = _ -> _ => let E := fresh "E" in destruct (k x) as [[? ?]|?] eqn:E; cbn [bind]
      | |- bind (bind (k ?x) _) _ = _ -> _ => let E := fresh "E" in destruct (k x) as [[? ?]|?] eqn:E; cbn [bind]
      | |- k ?x = _ -> _ => let E := fresh "E" in intro E
      | |- bind ?x _ = _ -> _ => let E := fresh "E" in destruct x eqn:E; cbn [bind]; try discriminate
      | |- (if ?x then _ else _) = _ -> _ => let E := fresh "E" in destruct x eqn:E; try discriminate
      | |- match ?x with _ => _ end = _ -> _ => let E := fresh "E" in destruct x eqn:E; try discriminate
      end ].
Ltac fin_keep := match goal with E : _ = Ok (?c, ?s1) |- _ => do 3 eexists; split; [exact E|split; [has_search|split; reflexivity]] end.
Lemma c_a_keeping : keeping c_a.
Proof.
  intros ni kids s r s' H. unfold c_a in H. destruct (kids s) as [[text s1]|e] eqn:E; [|discriminate]. cbn [bind] in H.
  apply out_inv in H as [<- <-]. exists s, text, s1. split; [exact E|]. split; [|split; reflexivity].
  destruct (dict_get _ _) as [url|]; [|apply has_refl].
  destruct url as [h|z|b|]; try has_search. destruct (str_eqb text h) eqn:Eh; [|has_search].
  apply str_eqb_eq in Eh. subst. cbn [show_attr]. has_search.
Qed.
Lemma r_document_keeping : keeping r_document.
Proof.
  intros ni kids s r s' H. unfold r_document in H. destruct (kids s) as [[c s1]|e] eqn:E; [|discriminate]. cbn [bind] in H.
  exists s, c, s1. split; [exact E|]. destruct (subst_data s1) as [|d ds].
  - apply out_inv in H as [<- <-]. split; [apply has_refl|]. split; reflexivity.
  - unfold get_block_data in H. apply out_inv in H as [<- <-]. split; [|split; reflexivity].
    apply has_l. destruct (endswith [10; 10] c); [apply has_refl | apply has_l, has_refl].
Qed.
Lemma r_a_keeping : keeping r_a.
Proof.
  intros ni kids s r s' H. unfold r_a in H. destruct (kids s) as [[c s1]|e] eqn:E; [|discriminate]. cbn [bind] in H.
  destruct (attr ($ "href") ni) as [url|]; [|discriminate]. cbn [bind] in H.
  destruct (get_old (used_links s1) c url) as [[old links]|]; [|discriminate]. cbn [bind] in H.
  exists s, c, s1. split; [exact E|]. destruct (should_substitute ni); [|destruct (attr_true old)]; apply out_inv in H as [<- <-].
  - split; [has_search|]. split; [reflexivity|]. destruct (attr_true old); reflexivity.
  - split; [has_search|]. split; reflexivity.
  - split; [has_search|]. split; reflexivity.
Qed.
Lemma r_headline_keeping : keeping r_headline.
Proof.
  intros ni kids s r s' H. unfold r_headline in H. destruct (kids s) as [[c s1]|e] eqn:E; [|discriminate]. cbn [bind] in H.
  destruct (level_of ni) as [l|]; [|discriminate]. cbn [bind] in H.
  destruct (headline_data _) as [[m both]|]; [|discriminate]. apply out_inv in H as [<- <-].
  exists s, c, s1. split; [exact E|]. split; [|split; reflexivity]. apply has_r, has_l, has_refl.
Qed.
Lemma leaf_block_pre : forall okp k f, in_list [$ "blockdata_pre"; $ "inlinedata_pre"] k = true ->
  (forall ni kids s r s', f ni kids s = Ok (r, s') -> s' = s /\ exists t, deentity_content ni = Ok t /\ has t r) -> leaf_keeping okp k f.
Proof.
  intros okp k f Hk H c a l anc kids s r s' _ E. destruct (H _ _ _ _ _ E) as (-> & t & Et & Ht). split; [reflexivity|].
  unfold deentity_content in Et. cbn [n_content] in Et. destruct c as [c|]; [|discriminate].
  apply in_list_In in Hk. destruct Hk as [<-|[<-|[]]]; unfold own_text, ok_or_nil; cbn [in_list]; rewrite Et; exact Ht.
Qed.
Lemma cell_good : forall add, (forall x t, exists y, rows (add x t) = append_last (rows t) (y ++ x)) -> cellish (cell_emit add).
Proof.
  intros add Ha ni kids s r s' H. unfold cell_emit in H. destruct (kids s) as [[c s1]|e] eqn:E; [|discriminate]. cbn [bind] in H.
  destruct (tbl s1) as [t|] eqn:Et; [|discriminate]. apply out_inv in H as [_ <-].
  destruct (Ha (escape_linebreaks c) t) as (y & Hy).
  exists c, s1, t, (add (escape_linebreaks c) t), (y ++ escape_linebreaks c). repeat split; try assumption.
  apply has_r. apply (has_ink c c); [symmetry; apply ink_escape_linebreaks | apply has_refl].
Qed.
Lemma m_cell_good : forall add, (forall x t, exists y, rows (add x t) = append_last (rows t) (y ++ x)) -> cellish (m_cell add).
Proof.
  intros add Ha ni kids s r s' H. unfold m_cell in H. destruct (kids s) as [[c s1]|e] eqn:E; [|discriminate]. cbn [bind] in H.
  destruct (tbl s1) as [t|] eqn:Et; [|discriminate]. apply out_inv in H as [_ <-].
  destruct (Ha c t) as (y & Hy).
  exists c, s1, t, (add c t), (y ++ c). repeat split; try assumption. apply has_r. apply has_refl.
Qed.
Lemma add_td_rows : forall x t, exists y, rows (add_td x t) = append_last (rows t) (y ++ x).
Proof. intros. exists []. reflexivity. Qed.
Lemma add_th_rows : forall x t, exists y, rows (add_th x t) = append_last (rows t) (y ++ x).
Proof. intros x t. exists (head_prefix t). reflexivity. Qed.
Lemma row_good : rowish tr_emit.
Proof.
  intros ni kids s r s' H. unfold tr_emit in H. destruct (tbl s) as [t|] eqn:Et; [|discriminate].
  destruct (kids (set_tbl (add_tr t) s)) as [[c s1]|e] eqn:E; [|discriminate]. cbn [bind] in H. apply out_inv in H as [_ <-].
  exists t, c, s1. auto.
Qed.
Lemma table_good : forall hp aw, tablish (table_emit hp aw).
Proof.
  intros hp aw ni kids s r s' H. unfold table_emit in H. destruct (kids _) as [[c s1]|e] eqn:E; [|discriminate]. cbn [bind] in H.
  apply out_inv in H as [<- <-]. exists hp, aw, c, s1. repeat split; [exact E|]. intros t w Et Hr. unfold the_table. rewrite Et.
  apply has_l. destruct t as [hp' aw' rs hdr]. exact (has_table hp' aw' hdr w rs Hr).
Qed.
Lemma m_table_good : tablish m_table.
Proof.
  intros ni kids s r s' H. unfold m_table in H. destruct (kids _) as [[c s1]|e] eqn:E; [|discriminate]. cbn [bind] in H.
  apply out_inv in H as [<- <-]. exists [], true, c, s1. repeat split; [exact E|]. intros t w Et Hr. unfold the_table. rewrite Et.
  apply has_r, has_l. destruct t as [hp' aw' rs hdr]. exact (has_md_table hp' aw' hdr w rs Hr).
Qed.
Lemma r_table_good : tablish r_table.
Proof.
  intros ni kids s r s' H. unfold r_table in H. destruct (kids _) as [[c s1]|e] eqn:E; [|discriminate]. cbn [bind] in H.
  apply out_inv in H as [<- <-]. exists [], true, c, s1. repeat split; [exact E|]. intros t w Et Hr. unfold the_table. rewrite Et.
  apply has_l. destruct t as [hp' aw' rs hdr]. exact (has_rest_table hp' aw' hdr w rs Hr).
Qed.
Lemma data_good : forall okp, leaf_keeping okp ($ "data") data_emit.
Proof.
  intros okp c a l anc kids s r s' _ H. unfold data_emit in H. cbn [n_content] in H. destruct c as [c|]; [|discriminate].
  apply out_inv in H as [<- <-]. split; [reflexivity|]. apply has_refl.
Qed.
Lemma m_data_good : forall okp, leaf_keeping okp ($ "data") m_data.
Proof.
  intros okp c a l anc kids s r s' _ H. unfold m_data in H. cbn [n_content] in H. destruct c as [c|]; [|discriminate].
  apply out_inv in H as [<- <-]. split; [reflexivity|]. change (own_text ($ "data") c) with c.
  destruct (str_eqb c [32]) eqn:E; [|apply has_refl]. apply str_eqb_eq in E. subst. apply has_nil.
Qed.
Lemma pass_good : forall okp, leaf_keeping okp ($ "blockdata_pass") blockdata_pass_emit.
Proof.
  intros okp c a l anc kids s r s' _ H. unfold blockdata_pass_emit, ret in H. cbn [n_content] in H.
  apply out_inv in H as [<- <-]. split; [reflexivity|]. destruct c as [c|]; [|apply has_nil]. apply has_l, has_refl.
Qed.
Lemma m_pass_good : forall okp, leaf_keeping okp ($ "blockdata_pass") m_pass.
Proof.
  intros okp c a l anc kids s r s' _ H. unfold m_pass, ret in H. cbn [n_content] in H.
  apply out_inv in H as [<- <-]. split; [reflexivity|]. destruct c as [c|]; [|apply has_nil]. apply has_r, has_l, has_refl.
Qed.
Lemma entity_good : forall okp, leaf_keeping okp ($ "entityref") entityref_emit.
Proof.
  intros okp c a l anc kids s r s' _ H. unfold entityref_emit, ret in H. cbn [n_content] in H. destruct c as [c|].
  - change (own_text ($ "entityref") c) with (match replace_named c with Ok t => t | Exc _ => 38 :: c end).
    destruct (replace_named c); apply out_inv in H as [<- <-]; (split; [reflexivity | apply has_refl]).
  - apply out_inv in H as [_ <-]. split; [reflexivity | apply has_nil].
Qed.
Lemma char_good : forall okp, leaf_keeping okp ($ "charref") charref_emit.
Proof.
  intros okp c a l anc kids s r s' _ H. unfold charref_emit in H. cbn [n_content] in H. destruct c as [c|]; [|discriminate].
  change (own_text ($ "charref") c) with (ok_or_nil (match c with 120 :: hex => replace_hex hex | _ => replace_number c end)).
  set (x := match c with 120 :: hex => replace_hex hex | _ => replace_number c end) in *. clearbody x.
  destruct x as [x|e]; [|discriminate]. cbn [bind] in H. apply out_inv in H as [<- <-]. split; [reflexivity | apply has_refl].
Qed.
Ltac pre_good := apply leaf_block_pre; [reflexivity|]; intros ni kids s r s' H;
  cbv beta delta [c_blockdata_pre c_inlinedata_pre t_blockdata_pre t_inlinedata_pre m_blockdata_pre r_blockdata_pre] in H;
  destruct (deentity_content ni) as [t|e]; [|discriminate]; cbn [bind] in H; apply out_inv in H as [<- <-];
  split; [reflexivity|]; exists t; split; [reflexivity|]; try has_search.
Lemma r_pre_good : forall okp, leaf_keeping okp ($ "blockdata_pre") r_blockdata_pre.
Proof.
  intro okp. pre_good. do 2 apply has_r. apply has_l. eapply has_trans; [|apply has_join].
  apply (has_ink t t); [|apply has_refl]. rewrite ink_map; [|intro x; rewrite ink_app; reflexivity].
  rewrite ink_splitlines, ink_strip. reflexivity.
Qed.
Lemma m_inline_good : leaf_keeping no_code_tag ($ "inlinedata_pre") m_inlinedata_pre.
Proof.
  intros c a l anc kids s r s' Ho H. unfold m_inlinedata_pre in H. cbn [n_content] in H. destruct c as [c|]; [|discriminate].
  change (ok_text no_code_tag ($ "inlinedata_pre") (Some c)) with (negb (endswith ($ "</code>") c)) in Ho.
  apply negb_true_iff in Ho. rewrite Ho in H. change (own_text ($ "inlinedata_pre") c) with (ok_or_nil (replace_all c)).
  destruct (replace_all c) as [t|e]; [|discriminate]. cbn [bind] in H. apply out_inv in H as [<- <-].
  split; [reflexivity|]. cbn [ok_or_nil]. has_search.
Qed.
Ltac mute_t := let ni := fresh in let k := fresh "kids" in let s := fresh "s" in let r := fresh "r" in let s' := fresh "s'" in
  intros ni k s r s'; cbv beta zeta delta [const_emit ret br_emit c_img t_img m_img r_img];
  repeat first [ discriminate
    | lazymatch goal with
      | |- Ok (_, _) = Ok (_, _) -> _ => let H := fresh in intro H; apply out_inv in H as [_ <-]
      | |- bind ?x _ = _ -> _ => destruct x; cbn [bind]; try discriminate
      | |- match ?x with _ => _ end = _ -> _ => destruct x; try discriminate
      end ]; repeat match goal with |- context [if ?b then _ else _] => destruct b end; reflexivity.
Ltac good_entry :=
  cbv beta iota delta [good_keep];
  repeat match goal with |- if ?b then _ else _ => let v := eval vm_compute in b in change b with v; cbv iota end;
  first [ apply data_good | apply m_data_good | apply pass_good | apply m_pass_good | apply entity_good | apply char_good
        | apply r_pre_good | apply m_inline_good | apply row_good | apply table_good | apply m_table_good | apply r_table_good
        | apply cell_good; first [exact add_td_rows | exact add_th_rows] | apply m_cell_good; first [exact add_td_rows | exact add_th_rows]
        | apply c_a_keeping | apply r_document_keeping | apply r_a_keeping | apply r_headline_keeping | solve [pre_good] | solve [mute_t] | solve [meth_keep; fin_keep] ].
Ltac good_list := cbn [app]; repeat (apply Forall_cons; [good_entry|]); apply Forall_nil.
Lemma creole_keep : forall st, Forall (good_keep any_pre) (creole_methods st).
Proof. intro st. unfold creole_methods, base_methods. good_list. Qed.
Lemma textile_keep : Forall (good_keep any_pre) textile_methods.
Proof. unfold textile_methods, base_methods. good_list. Qed.
Lemma rest_keep : Forall (good_keep any_pre) rest_methods.
Proof. unfold rest_methods, base_methods. good_list. Qed.
Lemma markdown_keep : Forall (good_keep no_code_tag) markdown_methods.
Proof. unfold markdown_methods, base_methods. good_list. Qed.

(** ** The traversal *)
Section Run.
  Variable ms : methods.
  Variable u : unknown.
  Variable pre : list str -> est -> str * est.
  Variable okp : str -> bool.
  Hypothesis Hgood : Forall (good_keep okp) ms.
  Hypothesis Hpre : forall anc s, tbl (snd (pre anc s)) = tbl s.
  Hypothesis Hu : forall k a c r, u k a c = Ok r -> has c r.

  Lemma find_good : forall k f, find_meth ms k = Some f -> good_keep okp (k, f).
  Proof. intros k f H. rewrite Forall_forall in Hgood. apply Hgood. apply find_meth_In. exact H. Qed.
  Lemma node_inv : forall anc k c a l ch s r s', emit_node ms u pre anc (HN k c a l ch) s = Ok (r, s') ->
    exists p r0 s1 s2, tbl s1 = tbl s /\ run_meth ms u (mkn k c a l anc) (kids_of ms u pre anc k c ch) s1 = Ok (r0, s2) /\
      r = p ++ r0 /\ tbl s' = tbl s2.
  Proof.
    intros anc k c a l ch s r s' H. rewrite emit_node_eq in H. pose proof (Hpre anc s) as Hp. destruct (pre anc s) as [p s1].
    cbn [snd] in Hp. destruct (run_meth ms u _ _ s1) as [[r0 s2]|e] eqn:E; [|discriminate]. cbn [bind] in H.
    apply out_inv in H as [<- <-]. exists p, r0, s1, s2. repeat split; assumption.
  Qed.
  (** a node that is neither text, void nor part of a table *)
  Lemma plain_inv : forall anc k c a l ch s r s', in_list text_kinds k = false -> in_list void_kinds k = false -> in_list table_kinds k = false ->
    emit_node ms u pre anc (HN k c a l ch) s = Ok (r, s') ->
    exists s0 x s1, emit_list ms u pre (k :: anc) ch s0 = Ok (x, s1) /\ has x r /\ tbl s0 = tbl s /\ tbl s' = tbl s1.
  Proof.
    intros anc k c a l ch s r s' H1 H2 H3 H. destruct (node_inv _ _ _ _ _ _ _ _ _ H) as (p & r0 & s1 & s2 & T1 & E & -> & T2).
    unfold run_meth in E. cbn [n_kind n_attrs] in E. destruct (find_meth ms k) as [f|] eqn:Ef.
    - pose proof (find_good k f Ef) as G. unfold good_keep in G. rewrite H1, H2 in G.
      assert (N1 : str_eqb k ($ "table") = false /\ str_eqb k ($ "tr") = false /\ in_list [$ "th"; $ "td"] k = false).
      { unfold table_kinds, in_list in H3. cbn [existsb] in H3. apply orb_false_iff in H3 as [A H3]. apply orb_false_iff in H3 as [B H3].
        repeat split; assumption. }
      destruct N1 as (A & B & C). rewrite A, B, C in G. destruct (G _ _ _ _ _ E) as (s0 & x & s3 & K & Hh & T3 & T4).
      exists (set_last (k, c) s0), x, s3. repeat split; [exact K|apply has_r; exact Hh|cbn; congruence|congruence].
    - destruct (kids_of ms u pre anc k c ch s1) as [[x s3]|e] eqn:K; [|discriminate]. cbn [bind] in E.
      destruct (u k a x) as [r1|e] eqn:Eu; [|discriminate]. cbn [bind] in E. apply out_inv in E as [<- <-].
      exists (set_last (k, c) s1), x, s3. repeat split; [exact K|apply has_r; exact (Hu _ _ _ _ Eu)|exact T1|exact T2].
  Qed.
  Lemma text_inv : forall anc k c a l ch s r s', in_list text_kinds k = true -> ok_text okp k c = true -> find_meth ms k <> None ->
    emit_node ms u pre anc (HN k c a l ch) s = Ok (r, s') -> tbl s' = tbl s /\ has (htext (HN k c a l ch)) r.
  Proof.
    intros anc k c a l ch s r s' H1 Ho Hf H. destruct (node_inv _ _ _ _ _ _ _ _ _ H) as (p & r0 & s1 & s2 & T1 & E & -> & T2).
    unfold run_meth in E. cbn [n_kind] in E. destruct (find_meth ms k) as [f|] eqn:Ef; [|contradiction].
    pose proof (find_good k f Ef) as G. unfold good_keep in G. rewrite H1 in G.
    destruct (G _ _ _ _ _ _ _ _ Ho E) as [T3 Hh]. split; [congruence|]. cbn [htext]. rewrite H1. apply has_r. exact Hh.
  Qed.
  Hypothesis Htext : forall k, in_list text_kinds k = true -> find_meth ms k <> None.
  Hypothesis Hvoid : forall k, in_list void_kinds k = true -> find_meth ms k <> None.
  Lemma void_inv : forall anc k c a l s r s', in_list text_kinds k = false -> in_list void_kinds k = true ->
    emit_node ms u pre anc (HN k c a l []) s = Ok (r, s') -> tbl s' = tbl s /\ has (htext (HN k c a l [])) r.
  Proof.
    intros anc k c a l s r s' H1 H2 H. destruct (node_inv _ _ _ _ _ _ _ _ _ H) as (p & r0 & s1 & s2 & T1 & E & -> & T2).
    unfold run_meth in E. cbn [n_kind] in E. pose proof (Hvoid k H2) as Hf. destruct (find_meth ms k) as [f|] eqn:Ef; [|contradiction].
    pose proof (find_good k f Ef) as G. unfold good_keep in G. rewrite H1, H2 in G.
    pose proof (G _ _ _ _ _ E) as T3. split; [congruence|]. cbn [htext]. rewrite H1. apply has_nil.
  Qed.

  Definition flat_ok (n : hnode) : Prop := kept_flat okp n = true -> forall anc s r s',
    emit_node ms u pre anc n s = Ok (r, s') -> tbl s' = tbl s /\ has (htext n) r.
  Lemma flat_list : forall ch, Forall flat_ok ch -> forallb (kept_flat okp) ch = true -> forall anc s r s',
    emit_list ms u pre anc ch s = Ok (r, s') -> tbl s' = tbl s /\ has (flat_map htext ch) r.
  Proof.
    intros ch H. induction H as [|x ch Hx _ IH]; intros Hk anc s r s' E.
    - apply out_inv in E as [<- <-]. split; [reflexivity | apply has_nil].
    - cbn [forallb] in Hk. apply andb_true_iff in Hk as [K1 K2]. cbn [emit_list] in E.
      destruct (emit_node ms u pre anc x s) as [[r1 s1]|e] eqn:E1; [|discriminate]. cbn [bind] in E.
      destruct (emit_list ms u pre anc ch s1) as [[r2 s2]|e] eqn:E2; [|discriminate]. cbn [bind] in E.
      apply out_inv in E as [<- <-]. destruct (Hx K1 _ _ _ _ E1) as [T1 A1]. destruct (IH K2 _ _ _ _ E2) as [T2 A2].
      split; [congruence|]. cbn [flat_map]. apply has_app; assumption.
  Qed.
  Lemma flat_run : forall n, flat_ok n.
  Proof.
    intro n. induction n as [k c a l ch IH] using hnode_ind'. intros Hk anc s r s' E. cbn [kept_flat] in Hk.
    destruct (in_list text_kinds k) eqn:E1; [apply (text_inv anc k c a l ch s r s'); auto|].
    destruct (in_list void_kinds k) eqn:E2.
    - destruct ch; [|discriminate]. apply (void_inv anc k c a l s r s'); assumption.
    - apply andb_true_iff in Hk as [K1 K2]. apply negb_true_iff in K1.
      destruct (plain_inv _ _ _ _ _ _ _ _ _ E1 E2 K1 E) as (s0 & x & s1 & EL & Hx & T1 & T2).
      destruct (flat_list ch IH K2 _ _ _ _ EL) as [T3 A]. split; [congruence|]. cbn [htext]. rewrite E1.
      eapply has_trans; [exact A | exact Hx].
  Qed.
  Lemma flat_all : forall ch, Forall flat_ok ch.
  Proof. intro ch. apply Forall_forall. intros x _. apply flat_run. Qed.

  (** *** tables *)
  Hypothesis Htable : forall k, in_list table_kinds k = true -> find_meth ms k <> None.
  Lemma cell_run : forall n, kept_cell okp n = true -> forall anc s r s' t l row, tbl s = Some t -> rows t = l ++ [row] ->
    emit_node ms u pre anc n s = Ok (r, s') -> exists t' x, tbl s' = Some t' /\ rows t' = l ++ [row ++ [x]] /\ has (htext n) x.
  Proof.
    intros [k c a lv ch] Hk anc s r s' t l row Ht Hr E. cbn [kept_cell] in Hk. apply andb_true_iff in Hk as [K1 K2].
    destruct (node_inv _ _ _ _ _ _ _ _ _ E) as (p & r0 & s1 & s2 & T1 & E1 & -> & T2).
    unfold run_meth in E1. cbn [n_kind] in E1.
    assert (Kt : in_list table_kinds k = true /\ in_list text_kinds k = false /\ in_list void_kinds k = false /\
      str_eqb k ($ "table") = false /\ str_eqb k ($ "tr") = false).
    { apply in_list_In in K1. destruct K1 as [<-|[<-|[]]]; repeat split; reflexivity. }
    destruct Kt as (Kt & N1 & N2 & N3 & N4). pose proof (Htable k Kt) as Hf. destruct (find_meth ms k) as [f|] eqn:Ef; [|contradiction].
    pose proof (find_good k f Ef) as G. unfold good_keep in G. rewrite N1, N2, N3, N4, K1 in G.
    destruct (G _ _ _ _ _ E1) as (x & s3 & t1 & t2 & y & EK & A1 & A2 & A3 & A4).
    destruct (flat_list ch (flat_all ch) K2 _ _ _ _ EK) as [T3 A5]. cbn [tbl set_last] in T3.
    assert (t1 = t) by congruence. subst t1. exists t2, y. split; [congruence|]. split.
    - rewrite A3, Hr. apply append_last_snoc.
    - cbn [htext]. rewrite N1. eapply has_trans; [exact A5 | exact A4].
  Qed.
  Lemma cells_run : forall cells, forallb (kept_cell okp) cells = true -> forall anc s r s' t l row, tbl s = Some t -> rows t = l ++ [row] ->
    emit_list ms u pre anc cells s = Ok (r, s') -> exists t' new, tbl s' = Some t' /\ rows t' = l ++ [row ++ new] /\
      List.length new = List.length cells /\ has (flat_map htext cells) (concat new).
  Proof.
    induction cells as [|x cells IH]; intros Hk anc s r s' t l row Ht Hr E.
    - apply out_inv in E as [<- <-]. exists t, []. rewrite app_nil_r. repeat split; try assumption. apply has_nil.
    - cbn [forallb] in Hk. apply andb_true_iff in Hk as [K1 K2]. cbn [emit_list] in E.
      destruct (emit_node ms u pre anc x s) as [[r1 s1]|e] eqn:E1; [|discriminate]. cbn [bind] in E.
      destruct (emit_list ms u pre anc cells s1) as [[r2 s2]|e] eqn:E2; [|discriminate]. cbn [bind] in E.
      apply out_inv in E as [<- <-].
      destruct (cell_run x K1 _ _ _ _ _ _ _ Ht Hr E1) as (t1 & y & A1 & A2 & A3).
      destruct (IH K2 _ _ _ _ _ _ _ A1 A2 E2) as (t2 & new & B1 & B2 & B3 & B4).
      exists t2, (y :: new). rewrite <- app_assoc in B2. repeat split; try assumption.
      + cbn [List.length]. congruence.
      + cbn [flat_map concat]. apply has_app; assumption.
  Qed.
  Lemma row_run : forall w n, kept_row okp w n = true -> forall anc s r s' t, tbl s = Some t ->
    emit_node ms u pre anc n s = Ok (r, s') -> exists t' new, tbl s' = Some t' /\ rows t' = rows t ++ [new] /\
      List.length new = w /\ has (htext n) (concat new).
  Proof.
    intros w [k c a lv ch] Hk anc s r s' t Ht E. cbn [kept_row] in Hk. apply andb_true_iff in Hk as [Hk K3]. apply andb_true_iff in Hk as [K1 K2].
    apply str_eqb_eq in K1. subst k. apply Nat.eqb_eq in K2.
    destruct (node_inv _ _ _ _ _ _ _ _ _ E) as (p & r0 & s1 & s2 & T1 & E1 & -> & T2).
    unfold run_meth in E1. cbn [n_kind] in E1.
    pose proof (Htable ($ "tr") eq_refl) as Hf. destruct (find_meth ms ($ "tr")) as [f|] eqn:Ef; [|contradiction].
    pose proof (find_good _ f Ef) as G. change (rowish f) in G.
    destruct (G _ _ _ _ _ E1) as (t1 & x & s3 & A1 & A2 & ->). assert (t1 = t) by congruence. subst t1.
    unfold kids_of in A2.
    pose proof (fun H1 H2 => cells_run ch K3 _ _ _ _ (add_tr t) (rows t) [] H1 H2 A2) as Q.
    destruct (Q eq_refl eq_refl) as (t2 & new & B1 & B2 & B3 & B4).
    exists t2, new. split; [congruence|]. split; [exact B2|]. split; [congruence | exact B4].
  Qed.
  Lemma rows_run : forall w rws, forallb (kept_row okp w) rws = true -> forall anc s r s' t, tbl s = Some t -> rect w (rows t) ->
    emit_list ms u pre anc rws s = Ok (r, s') -> exists t', tbl s' = Some t' /\ rect w (rows t') /\
      exists new, rows t' = rows t ++ new /\ has (flat_map htext rws) (concat (map (@concat N) new)).
  Proof.
    intros w. induction rws as [|x rws IH]; intros Hk anc s r s' t Ht Hr E.
    - apply out_inv in E as [<- <-]. exists t. repeat split; try assumption. exists []. rewrite app_nil_r. split; [reflexivity | apply has_nil].
    - cbn [forallb] in Hk. apply andb_true_iff in Hk as [K1 K2]. cbn [emit_list] in E.
      destruct (emit_node ms u pre anc x s) as [[r1 s1]|e] eqn:E1; [|discriminate]. cbn [bind] in E.
      destruct (emit_list ms u pre anc rws s1) as [[r2 s2]|e] eqn:E2; [|discriminate]. cbn [bind] in E.
      apply out_inv in E as [<- <-].
      destruct (row_run w x K1 _ _ _ _ _ Ht E1) as (t1 & y & A1 & A2 & A3 & A4).
      assert (R1 : rect w (rows t1)).
      { rewrite A2. unfold rect. apply Forall_app. split; [exact Hr|]. constructor; [exact A3 | constructor]. }
      destruct (IH K2 _ _ _ _ _ A1 R1 E2) as (t2 & B1 & B2 & new & B3 & B4).
      exists t2. repeat split; try assumption. exists (y :: new). split.
      + rewrite B3, A2, <- app_assoc. reflexivity.
      + cbn [flat_map map concat]. apply has_app; assumption.
  Qed.

  Definition kept_ok (n : hnode) : Prop := kept okp n = true -> forall anc s r s',
    emit_node ms u pre anc n s = Ok (r, s') -> has (htext n) r.
  Lemma kept_list : forall ch, Forall kept_ok ch -> forallb (kept okp) ch = true -> forall anc s r s',
    emit_list ms u pre anc ch s = Ok (r, s') -> has (flat_map htext ch) r.
  Proof.
    intros ch H. induction H as [|x ch Hx _ IH]; intros Hk anc s r s' E.
    - apply has_nil.
    - cbn [forallb] in Hk. apply andb_true_iff in Hk as [K1 K2]. cbn [emit_list] in E.
      destruct (emit_node ms u pre anc x s) as [[r1 s1]|e] eqn:E1; [|discriminate]. cbn [bind] in E.
      destruct (emit_list ms u pre anc ch s1) as [[r2 s2]|e] eqn:E2; [|discriminate]. cbn [bind] in E.
      apply out_inv in E as [<- <-]. cbn [flat_map]. apply has_app; [exact (Hx K1 _ _ _ _ E1)|exact (IH K2 _ _ _ _ E2)].
  Qed.
  Theorem kept_run : forall n, kept_ok n.
  Proof.
    intro n. induction n as [k c a l ch IH] using hnode_ind'. intros Hk anc s r s' E. cbn [kept] in Hk.
    destruct (in_list text_kinds k) eqn:E1; [apply (text_inv anc k c a l ch s r s'); auto|].
    destruct (in_list void_kinds k) eqn:E2.
    - destruct ch; [|discriminate]. apply (void_inv anc k c a l s r s'); assumption.
    - destruct (str_eqb k ($ "table")) eqn:E3.
      + apply str_eqb_eq in E3. subst k.
        destruct (node_inv _ _ _ _ _ _ _ _ _ E) as (p & r0 & s1 & s2 & T1 & E4 & -> & T2).
        unfold run_meth in E4. cbn [n_kind] in E4.
        pose proof (Htable ($ "table") eq_refl) as Hf. destruct (find_meth ms ($ "table")) as [f|] eqn:Ef; [|contradiction].
        pose proof (find_good _ f Ef) as G. change (tablish f) in G.
        destruct (G _ _ _ _ _ E4) as (hp & aw & x & s3 & A1 & A2 & A3). unfold kids_of in A1.
        assert (W : exists w, forallb (kept_row okp w) ch = true).
        { destruct ch as [|[k0 c0 a0 l0 first] ch]; [exists 0%nat; reflexivity|]. exists (List.length first). exact Hk. }
        destruct W as (w & W).
        pose proof (fun H1 => rows_run w ch W _ _ _ _ (new_table hp aw) H1 (Forall_nil _) A1) as Q.
        destruct (Q eq_refl) as (t' & B1 & B2 & new & B3 & B4).
        specialize (A3 t' w B1 B2). cbn [new_table rows app] in B3. rewrite B3 in A3.
        change (htext (HN ($ "table") c a l ch)) with (flat_map htext ch). apply has_r. eapply has_trans; [exact B4 | exact A3].
      + apply andb_true_iff in Hk as [K1 K2]. apply negb_true_iff in K1.
        destruct (plain_inv _ _ _ _ _ _ _ _ _ E1 E2 K1 E) as (s0 & x & s1 & EL & Hx & T1 & T2).
        cbn [htext]. rewrite E1. eapply has_trans; [exact (kept_list ch IH K2 _ _ _ _ EL) | exact Hx].
  Qed.
End Run.

Definition finds (ms : methods) (l : list str) : bool :=
  forallb (fun k => match find_meth ms k with Some _ => true | None => false end) l.
Lemma finds_ok : forall ms l, finds ms l = true -> forall k, in_list l k = true -> find_meth ms k <> None.
Proof.
  intros ms l H k Hk. unfold finds in H. rewrite forallb_forall in H. apply in_list_In in Hk. specialize (H k Hk).
  destruct (find_meth ms k); [discriminate | discriminate].
Qed.

(** ** The four converters *)
Definition text_keeping (u : unknown) : Prop := forall k a c r, u k a c = Ok r -> has c r.
Lemma keep_creole : forall u st root r, text_keeping u -> kept any_pre root = true -> emit_creole u st root = Ok r -> has (htext root) r.
Proof.
  intros u st root r Hu Hk H. unfold emit_creole in H. destruct (emit_node _ _ _ _ _ _) as [[x s]|e] eqn:E; [|discriminate].
  cbn [bind] in H. injection H as <-. apply (has_ink _ x); [symmetry; apply ink_strip|].
  refine (kept_run (creole_methods st) u no_pre any_pre (creole_keep st) (fun _ _ => eq_refl) Hu _ _ _ root Hk _ _ _ _ E);
    apply finds_ok; reflexivity.
Qed.
Lemma keep_textile : forall u root r, text_keeping u -> kept any_pre root = true -> emit_textile u root = Ok r -> has (htext root) r.
Proof.
  intros u root r Hu Hk H. unfold emit_textile in H. destruct (emit_node _ _ _ _ _ _) as [[x s]|e] eqn:E; [|discriminate].
  cbn [bind] in H. injection H as <-. apply (has_ink _ x); [symmetry; apply ink_strip|].
  refine (kept_run textile_methods u no_pre any_pre textile_keep (fun _ _ => eq_refl) Hu _ _ _ root Hk _ _ _ _ E);
    apply finds_ok; reflexivity.
Qed.
Lemma keep_markdown : forall u root r, text_keeping u -> kept no_code_tag root = true -> emit_markdown u root = Ok r -> has (htext root) r.
Proof.
  intros u root r Hu Hk H. unfold emit_markdown in H. destruct (emit_node _ _ _ _ _ _) as [[x s]|e] eqn:E; [|discriminate].
  cbn [bind] in H. injection H as <-. apply (has_ink _ x); [symmetry; apply ink_strip|].
  refine (kept_run markdown_methods u no_pre no_code_tag markdown_keep (fun _ _ => eq_refl) Hu _ _ _ root Hk _ _ _ _ E);
    apply finds_ok; reflexivity.
Qed.
Lemma rest_pre_tbl : forall anc s, tbl (snd (rest_pre anc s)) = tbl s.
Proof. intros anc s. unfold rest_pre. destruct (subst_data s); [reflexivity|]. destruct anc as [|? [|? ?]]; reflexivity. Qed.
Lemma keep_rest : forall u root r, text_keeping u -> kept any_pre root = true -> emit_rest u root = Ok r -> has (htext root) r.
Proof.
  intros u root r Hu Hk H. unfold emit_rest in H. destruct (emit_node _ _ _ _ _ _) as [[x s]|e] eqn:E; [|discriminate].
  cbn [bind] in H. injection H as <-. apply (has_ink _ x); [symmetry; apply ink_rstrip|].
  refine (kept_run rest_methods u rest_pre any_pre rest_keep rest_pre_tbl Hu _ _ _ root Hk _ _ _ _ E);
    apply finds_ok; reflexivity.
Qed.
(** the callables of unknown_tags.py *)
Lemma ok1 : forall a b : str, Ok a = Ok b -> a = b.
Proof. intros a b H. injection H. auto. Qed.
Lemma mask_keeping : forall m, text_keeping (mask_content m).
Proof.
  intros m k a c r E. unfold mask_content in E. apply ok1 in E. subst r. destruct c as [|x c]; [apply has_nil|].
  apply has_r, has_l, has_refl.
Qed.
Lemma keeping_unknown : forall u, In u [raise_unknown_node; use_html_macro; preformat_unknown_nodes; escape_unknown_nodes; transparent_unknown_nodes] ->
  text_keeping u.
Proof.
  intros u H. destruct H as [<-|[<-|[<-|[<-|[<-|[]]]]]].
  - intros k a c r E. discriminate.
  - apply mask_keeping.
  - apply mask_keeping.
  - intros k a c r E. unfold escape_unknown_nodes in E. apply ok1 in E. subst r. destruct c as [|x c]; [apply has_nil|]. apply has_r, has_l, has_refl.
  - intros k a c r E. unfold transparent_unknown_nodes in E. apply ok1 in E. subst r. apply (has_ink _ c); [symmetry; apply ink_content | apply has_refl].
Qed.
