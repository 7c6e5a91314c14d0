(** * When parsing html does not raise *)
From Coq Require Import String List Arith NArith ZArith Bool Lia.
From Verif Require Import PyStr PyStrFacts GNames Regex RegexFacts RegexRun Rules Utils Res HtmlTools HtmlToolsFacts HtmlTok HtmlTokFacts HtmlParser TreeFacts.
From Verif Require Import Safety Spec2 CleanRun.
Import ListNotations.
Open Scope N_scope.

(** ** The text still to be read is a part of the whole text *)
Definition tail_of (t r : str) : Prop := exists p, t = p ++ r.
Definition leaves (t : str) (x : step) : Prop := match x with Next _ r _ => tail_of t r | _ => True end.
Lemma tail_refl : forall t, tail_of t t.
Proof. intro t. exists []. reflexivity. Qed.
Lemma tail_trans : forall a b c, tail_of a b -> tail_of b c -> tail_of a c.
Proof. intros a b c (p & ->) (q & ->). exists (p ++ q). rewrite app_assoc. reflexivity. Qed.
Lemma tail_skipn : forall n t, tail_of t (skipn n t).
Proof. intros n t. exists (firstn n t). symmetry. apply firstn_skipn. Qed.
Lemma tail_split1 : forall c s a b, split1 c s = Some (a, b) -> tail_of s b.
Proof.
  intros c. induction s as [|d s IH]; intros a b H; [discriminate|]. cbn [split1] in H. destruct (d =? c).
  - injection H as <- <-. exists [d]. reflexivity.
  - destruct (split1 c s) as [[x y]|]; [|discriminate]. injection H as <- <-. destruct (IH x y eq_refl) as (p & ->). exists (d :: p). reflexivity.
Qed.
Lemma tail_search : forall r txt b x a, search r txt = Some (b, x, a) -> tail_of txt a.
Proof.
  intros r. induction txt as [|c t IH]; intros b x a H; cbn [search] in H.
  - destruct (try_at r false [] []) as [y|]; [|discriminate]. injection H as <- <- <-. apply tail_skipn.
  - destruct (try_at r false [] (c :: t)) as [y|]; [injection H as <- <- <-; apply tail_skipn|].
    destruct (search r t) as [[[b' x'] a']|] eqn:F; [|discriminate]. injection H as <- <- <-. destruct (IH _ _ _ eq_refl) as (p & ->).
    exists (c :: p). reflexivity.
Qed.
Lemma starttag_leaves : forall t, leaves t (parse_starttag t).
Proof.
  intro t. unfold parse_starttag. destruct (check_for_whole_start_tag t) as [e|]; [|exact I].
  destruct (match_at tagfind_re t 1) as [x|]; [|exact I].
  destruct (attr_loop _ _ _ _) as [a k]. cbv zeta.
  repeat match goal with |- context [if ?b then _ else _] => destruct b end; cbn [leaves]; apply tail_skipn.
Qed.
Lemma bogus_leaves : forall cd t, leaves t (parse_bogus_comment cd t).
Proof.
  intros cd t. unfold parse_bogus_comment. destruct (find 62 (skipn 2 t)) as [[a b]|] eqn:E; [|exact I].
  apply tail_split1 in E. cbn [leaves]. eapply tail_trans; [apply tail_skipn | exact E].
Qed.
Lemma endtag_leaves : forall cd t, leaves t (parse_endtag cd t).
Proof.
  intros cd t. unfold parse_endtag. destruct (find 62 (skipn 1 t)) as [[b u]|] eqn:E; [|exact I].
  apply tail_split1 in E. assert (Hu : tail_of t u) by (eapply tail_trans; [apply tail_skipn | exact E]). cbv zeta.
  destruct (match_at endtagfind_re t 0).
  - destruct cd as [e|]; [destruct (str_eqb _ e)|]; exact Hu.
  - destruct cd; [exact Hu|]. destruct (match_at tagfind_re t 2).
    + destruct (find 62 (skipn _ t)) as [[b' u']|] eqn:F; [|exact I]. apply tail_split1 in F. cbn [leaves]. eapply tail_trans; [apply tail_skipn | exact F].
    + destruct (startswith _ t); [cbn [leaves]; apply tail_skipn|apply bogus_leaves].
Qed.
Lemma declaration_leaves : forall t, leaves t (parse_html_declaration t).
Proof.
  intro t. unfold parse_html_declaration. destruct (startswith ($ "<![") t).
  - unfold parse_marked_section. cbv zeta. destruct (skipn 3 t) as [|c u] eqn:E; [exact I|].
    assert (L : tail_of t (c :: u)) by (rewrite <- E; apply tail_skipn).
    destruct (match_at declname_re (c :: u) 0); [|exact I]. destruct (Nat.eqb _ _); [exact I|].
    destruct (in_list _ _); [|destruct (in_list _ _); [|exact I]];
      (destruct (search _ (c :: u)) as [[[b x] a]|] eqn:F; [|exact I]); apply tail_search in F; cbn [leaves]; eapply tail_trans; eauto.
  - destruct (str_eqb _ _); [|apply bogus_leaves]. destruct (find 62 (skipn 9 t)) as [[a b]|] eqn:E; [|exact I].
    apply tail_split1 in E. cbn [leaves]. eapply tail_trans; [apply tail_skipn | exact E].
Qed.
Lemma lt_leaves : forall cd t, leaves t (lt_step cd t).
Proof.
  intros cd [|a [|c t]]; try exact I. cbn [lt_step]. destruct (is_alpha c); [apply starttag_leaves|].
  destruct (c =? 47); [apply endtag_leaves|]. destruct (startswith _ _).
  - destruct (search _ _) as [[[b x] u]|] eqn:E; [|exact I]. apply tail_search in E. cbn [leaves]. eapply tail_trans; [|exact E].
    apply (tail_skipn 4 (a :: c :: t)).
  - destruct (c =? 63); [apply bogus_leaves|]. destruct (c =? 33); [apply declaration_leaves|]. cbn [leaves]. apply (tail_skipn 1 (a :: c :: t)).
Qed.
Lemma amp_leaves : forall t, leaves t (amp_step t).
Proof.
  assert (C : forall (a b : N) t, leaves (a :: b :: t)
    (match match_at charref_re (a :: b :: t) 0 with
     | Some x => let k := List.length (mtxt x) in
       let k' := if startswith [59] (skipn (pred k) (a :: b :: t)) then k else pred k in
       Next [TCharref (group0 G_hp_entity x)] (skipn k' (a :: b :: t)) None
     | None => if contains [59] (a :: b :: t) then Stop [TData ($ "&#")] else Stop []
     end)).
  { intros a b t. destruct (match_at charref_re (a :: b :: t) 0); [apply tail_skipn | destruct (contains _ _); exact I]. }
  assert (D : forall (a b : N) t, leaves (a :: b :: t)
    (match match_at entityref_re (a :: b :: t) 0 with
    | Some x =>
      let k := List.length (mtxt x) in
      let k' := if startswith [59] (skipn (pred k) (a :: b :: t)) then k else pred k in
      Next [TEntity (group0 G_hp_entity x)] (skipn k' (a :: b :: t)) None
    | None => if is_alpha b then Stop [] else Next [TData [38]] (skipn 1 (a :: b :: t)) None
    end)).
  { intros a b t. destruct (match_at entityref_re (a :: b :: t) 0); [apply tail_skipn|]. destruct (is_alpha b); [exact I | apply (tail_skipn 1 (a :: b :: t))]. }
  intros [|a [|b t]]; try exact I. unfold amp_step.
  destruct (N.eq_dec b 35) as [->|Hb]; [apply C|].
  specialize (D a b t). destruct b as [|p]; [exact D|]. repeat (destruct p as [p|p|]; try exact D). congruence.
Qed.

(** ** Tags and marked sections *)
Definition tag_in (t : str) (k : tok) : Prop :=
  match k with TStartEnd tag _ => exists g, infix g t /\ tag = lower g | _ => True end.
Definition tags_in (t : str) (x : step) : Prop :=
  match x with Next ts _ _ | Stop ts => Forall (tag_in t) ts | Raise => infix ($ "<![") t end.
Lemma group_infix : forall r t k x g, match_at r t k = Some x -> infix (group0 g x) t.
Proof.
  intros r t k x g H. unfold match_at in H. apply try_at_Mt in H as (s' & _ & E & _ & _ & _ & F). unfold group0, group.
  assert (Hx : infix (mtxt x) t) by (exists (firstn k t), (rest s'); rewrite <- E; symmetry; apply firstn_skipn).
  destruct (cap g (mcaps x)) as [v|] eqn:C; [|exists [], t; reflexivity].
  assert (Hv : infix v (mtxt x)).
  { clear - F C. induction F as [|[g' v'] l Hv _ IH]; [discriminate|]. cbn [cap] in C. destruct (gname_beq g g') eqn:E.
    - injection C as <-. exact Hv.
    - exact (IH C). }
  destruct Hv as (a & b & Ea). destruct Hx as (c & d & Ec). exists (c ++ a), (b ++ d). rewrite Ec, Ea, <- !app_assoc. reflexivity.
Qed.

Lemma infix_tail : forall g t r, tail_of t r -> infix g r -> infix g t.
Proof. intros g t r (p & ->) (a & b & ->). exists (p ++ a), b. rewrite <- app_assoc. reflexivity. Qed.
Lemma tag_in_tail : forall t r k, tail_of t r -> tag_in r k -> tag_in t k.
Proof. intros t r [ta a|ta a|ta|d|d|d] Ht H; try exact I. destruct H as (g & Hg & E). exists g. split; [exact (infix_tail g t r Ht Hg) | exact E]. Qed.
Ltac nothing := repeat (apply Forall_cons; [exact I|]); apply Forall_nil.
Lemma starttag_tags : forall t, tags_in t (parse_starttag t).
Proof.
  intro t. unfold parse_starttag. destruct (check_for_whole_start_tag t) as [e|]; [|apply Forall_nil].
  destruct (match_at tagfind_re t 1) as [x|] eqn:E; [|apply Forall_nil].
  destruct (attr_loop _ _ _ _) as [a k]. cbv zeta.
  destruct (str_eqb _ _); [cbn [tags_in]; nothing|]. destruct (str_eqb _ _); [|cbn [tags_in]; nothing].
  cbn [tags_in]. apply Forall_cons; [|apply Forall_nil]. exists (group0 G_hp_tag x). split; [exact (group_infix _ _ _ _ _ E) | reflexivity].
Qed.
Lemma bogus_tags : forall cd t, tags_in t (parse_bogus_comment cd t).
Proof. intros cd t. unfold parse_bogus_comment. destruct (find 62 (skipn 2 t)) as [[a b]|]; apply Forall_nil. Qed.
Lemma endtag_tags : forall cd t, tags_in t (parse_endtag cd t).
Proof.
  intros cd t. unfold parse_endtag. destruct (find 62 (skipn 1 t)) as [[b u]|]; [|apply Forall_nil]. cbv zeta.
  destruct (match_at endtagfind_re t 0).
  - destruct cd as [e|]; [destruct (str_eqb _ e)|]; cbn [tags_in]; nothing.
  - destruct cd; [cbn [tags_in]; nothing|]. destruct (match_at tagfind_re t 2).
    + destruct (find 62 (skipn _ t)) as [[b' u']|]; cbn [tags_in]; nothing.
    + destruct (startswith _ t); [apply Forall_nil|apply bogus_tags].
Qed.
Lemma declaration_tags : forall t, tags_in t (parse_html_declaration t).
Proof.
  intro t. unfold parse_html_declaration. destruct (startswith ($ "<![") t) eqn:S0.
  - assert (Hr : infix ($ "<![") t) by (apply startswith_spec in S0 as (u & ->); exists [], u; reflexivity).
    unfold parse_marked_section. cbv zeta. destruct (skipn 3 t) as [|c u]; [apply Forall_nil|].
    destruct (match_at declname_re (c :: u) 0); [|exact Hr]. destruct (Nat.eqb _ _); [apply Forall_nil|].
    destruct (in_list _ _); [|destruct (in_list _ _); [|exact Hr]];
      (destruct (search _ (c :: u)) as [[[b x] a]|]; apply Forall_nil).
  - destruct (str_eqb _ _); [|apply bogus_tags]. destruct (find 62 (skipn 9 t)) as [[a b]|]; apply Forall_nil.
Qed.
Lemma lt_tags : forall cd t, tags_in t (lt_step cd t).
Proof.
  intros cd [|a [|c t]]; try apply Forall_nil. cbn [lt_step]. destruct (is_alpha c); [apply starttag_tags|].
  destruct (c =? 47); [apply endtag_tags|]. destruct (startswith _ _).
  - destruct (search _ _) as [[[b x] u]|]; apply Forall_nil.
  - destruct (c =? 63); [apply bogus_tags|]. destruct (c =? 33); [apply declaration_tags|]. cbn [tags_in]. nothing.
Qed.
Lemma amp_tags : forall t, tags_in t (amp_step t).
Proof.
  assert (C : forall (a b : N) t, tags_in (a :: b :: t)
    (match match_at charref_re (a :: b :: t) 0 with
     | Some x => let k := List.length (mtxt x) in
       let k' := if startswith [59] (skipn (pred k) (a :: b :: t)) then k else pred k in
       Next [TCharref (group0 G_hp_entity x)] (skipn k' (a :: b :: t)) None
     | None => if contains [59] (a :: b :: t) then Stop [TData ($ "&#")] else Stop []
     end)).
  { intros a b t. destruct (match_at charref_re (a :: b :: t) 0); [cbn [tags_in]; nothing | destruct (contains _ _); cbn [tags_in]; nothing]. }
  assert (D : forall (a b : N) t, tags_in (a :: b :: t)
    (match match_at entityref_re (a :: b :: t) 0 with
    | Some x =>
      let k := List.length (mtxt x) in
      let k' := if startswith [59] (skipn (pred k) (a :: b :: t)) then k else pred k in
      Next [TEntity (group0 G_hp_entity x)] (skipn k' (a :: b :: t)) None
    | None => if is_alpha b then Stop [] else Next [TData [38]] (skipn 1 (a :: b :: t)) None
    end)).
  { intros a b t. destruct (match_at entityref_re (a :: b :: t) 0); [cbn [tags_in]; nothing|]. destruct (is_alpha b); cbn [tags_in]; nothing. }
  intros [|a [|b t]]; try apply Forall_nil. unfold amp_step.
  destruct (N.eq_dec b 35) as [->|Hb]; [apply C|].
  specialize (D a b t). destruct b as [|p]; [exact D|]. repeat (destruct p as [p|p|]; try exact D). congruence.
Qed.
Lemma tdata_tags : forall t d, Forall (tag_in t) (tdata d).
Proof. intros t [|c d]; cbn [tdata]; nothing. Qed.
Lemma until_tail : forall t a b, until_markup t = (a, b) -> tail_of t b.
Proof.
  induction t as [|c t IH]; intros a b H; cbn [until_markup] in H; [injection H as <- <-; apply tail_refl|].
  destruct ((c =? 60) || (c =? 38)); [injection H as <- <-; apply tail_refl|].
  destruct (until_markup t) as [x y]. injection H as <- <-. destruct (IH x y eq_refl) as (p & ->). exists (c :: p). reflexivity.
Qed.
Lemma search_parts : forall r txt b x a, search r txt = Some (b, x, a) -> tail_of txt (mtxt x ++ a).
Proof.
  intros r. induction txt as [|c t IH]; intros b x a H; cbn [search] in H.
  - destruct (try_at r false [] []) as [y|] eqn:E; [|discriminate]. injection H as <- <- <-. apply try_at_Mt in E as (s' & _ & E & _).
    exists []. cbn [app]. symmetry in E. apply app_eq_nil in E as [E _]. rewrite E. reflexivity.
  - destruct (try_at r false [] (c :: t)) as [y|] eqn:E.
    + injection H as <- <- <-. apply try_at_Mt in E as (s' & _ & E & _). exists []. cbn [app].
      replace (skipn (List.length (mtxt y)) (c :: t)) with (rest s'); [exact E|].
      rewrite E. rewrite skipn_app, skipn_all, Nat.sub_diag. reflexivity.
    + destruct (search r t) as [[[b' x'] a']|] eqn:F; [|discriminate]. injection H as <- <- <-. destruct (IH _ _ _ eq_refl) as (p & E').
      exists (c :: p). cbn [app]. rewrite <- E'. reflexivity.
Qed.
Lemma interesting_tail : forall cd t d u, interesting cd t = Some (d, u) -> tail_of t u.
Proof.
  intros [e|] t d u H; cbn [interesting] in H.
  - destruct (search _ t) as [[[b x] a]|] eqn:E; [|discriminate]. injection H as <- <-. exact (search_parts _ _ _ _ _ E).
  - destruct (until_markup t) as [a b] eqn:E. injection H as <- <-. exact (until_tail _ _ _ E).
Qed.
Lemma goahead_tags : forall f cd t, Forall (tag_in t) (fst (goahead f cd t)) /\ (snd (goahead f cd t) = true -> infix ($ "<![") t).
Proof.
  induction f as [|f IH]; intros cd t; [split; [apply Forall_nil | discriminate]|]. cbn [goahead].
  destruct t as [|c0 t0]; [split; [apply Forall_nil | discriminate]|]. remember (c0 :: t0) as t eqn:Et. clear Et c0 t0.
  destruct (interesting cd t) as [[d [|c u]]|] eqn:E; [split; [apply tdata_tags | discriminate]| | split; [apply Forall_nil | discriminate]].
  apply interesting_tail in E. remember (c :: u) as v eqn:Ev.
  assert (Hs : leaves v (if c =? 60 then lt_step cd v else amp_step v) /\ tags_in v (if c =? 60 then lt_step cd v else amp_step v)).
  { destruct (c =? 60); split; [apply lt_leaves | apply lt_tags | apply amp_leaves | apply amp_tags]. }
  destruct Hs as [Hl Hg]. destruct (if c =? 60 then lt_step cd v else amp_step v) as [ts| |ts r cd'].
  - cbn [fst snd]. split; [|discriminate]. apply Forall_app. split; [apply tdata_tags|]. cbn [tags_in] in Hg.
    eapply Forall_impl; [|exact Hg]. intros k. apply tag_in_tail. exact E.
  - cbn [fst snd tags_in] in *. split; [apply tdata_tags|]. intros _. exact (infix_tail _ _ _ E Hg).
  - destruct (IH cd' r) as [I1 I2]. destruct (goahead f cd' r) as [ts' b]. cbn [fst snd leaves tags_in] in *.
    assert (Hr : tail_of t r) by (eapply tail_trans; eauto). split; [|intro Q; exact (infix_tail _ _ _ Hr (I2 Q))].
    apply Forall_app. split; [apply tdata_tags|]. apply Forall_app. split.
    + eapply Forall_impl; [|exact Hg]. intros k. apply tag_in_tail. exact E.
    + eapply Forall_impl; [|exact I1]. intros k. apply tag_in_tail. exact Hr.
Qed.

(** ** Texts without these *)
Definition no_stash (k : tok) : Prop := match k with TStartEnd tag _ => in_list [$ "blockdata"; $ "inlinedata"] tag = false | _ => True end.
Lemma handle_all_ok : forall ts h, Forall no_stash ts -> exists h', handle_all ts h = Ok h'.
Proof.
  induction ts as [|k ts IH]; intros h H; [eexists; reflexivity|]. inversion H as [|? ? Hk Hts]; subst. cbn [handle_all].
  assert (E : exists h1, handle k h = Ok h1).
  { destruct k as [ta a|ta a|ta|d|d|d]; try (eexists; reflexivity). cbn [handle no_stash] in *. unfold handle_startendtag. rewrite Hk. eexists. reflexivity. }
  destruct E as (h1 & ->). cbn [bind]. apply IH. exact Hts.
Qed.
Lemma infix_visible : forall g t, infix g t -> infix (visible g) (visible t).
Proof. intros g t (a & b & ->). exists (visible a), (visible b). unfold visible. rewrite !filter_app. reflexivity. Qed.
Lemma infix_lower : forall g t, infix g t -> infix (lower g) (lower t).
Proof. intros g t (a & b & ->). exists (lower a), (lower b). unfold lower. rewrite !map_app. reflexivity. Qed.
Lemma ascii_no_space : forall c, 33 <= c < 133 -> is_space c = false.
Proof.
  intros c H. unfold is_space. repeat (apply orb_false_iff; split);
    first [ apply N.eqb_neq; lia | apply andb_false_iff; left; apply N.leb_gt; lia | apply andb_false_iff; right; apply N.leb_gt; lia ].
Qed.
Lemma lower_visible : forall t, lower (visible t) = visible (lower t).
Proof.
  induction t as [|c t IH]; [reflexivity|]. unfold visible, lower in *. cbn [map filter]. assert (E : is_space (lower_c c) = is_space c).
  { unfold lower_c. destruct ((65 <=? c) && (c <=? 90)) eqn:Q; [|reflexivity]. apply andb_true_iff in Q as [Q1 Q2].
    apply N.leb_le in Q1. apply N.leb_le in Q2. rewrite !ascii_no_space by lia. reflexivity. }
  rewrite E. destruct (is_space c); cbn [negb]; [exact IH|]. cbn [map]. f_equal. exact IH.
Qed.
Lemma parse_ok : forall html, ~ infix ($ "<pre>") html -> ~ infix ($ "<![") (visible html) ->
  ~ infix ($ "blockdata") (lower (visible html)) -> ~ infix ($ "inlinedata") (lower (visible html)) ->
  exists root, parse_html html = Ok root.
Proof.
  intros html H1 H2 H3 H4. unfold parse_html, feed. rewrite preprocess_plain by (intros a b E; apply H1; exists a, b; exact E).
  cbn [bind]. unfold feed_tokens, tokens. set (d := strip_html html). destruct (goahead_tags (S (List.length d)) None d) as [G1 G2].
  assert (Hv : visible d = visible html) by apply strip_html_visible.
  destruct (goahead (S (List.length d)) None d) as [ts b]. cbn [fst snd] in *.
  destruct (handle_all_ok ts (h_init [])) as (h & ->).
  - eapply Forall_impl; [|exact G1]. intros k Hk. destruct k as [ta a|ta a|ta|x|x|x]; try exact I. destruct Hk as (g & Hg & ->). cbn [no_stash].
    apply infix_visible, infix_lower in Hg. rewrite Hv, lower_visible in Hg.
    destruct (in_list [$ "blockdata"; $ "inlinedata"] (lower g)) eqn:E; [|reflexivity]. exfalso. apply in_list_In in E.
    destruct E as [E|[E|[]]]; rewrite <- E in Hg; [exact (H3 Hg) | exact (H4 Hg)].
  - cbn [bind]. destruct b; [|eexists; reflexivity]. exfalso. apply H2. rewrite <- Hv. exact (infix_visible _ _ (G2 eq_refl)).
Qed.
