(** * html.parser on well-nested documents *)
From Coq Require Import String List Arith NArith ZArith Bool Lia.
From Verif Require Import PyStr PyStrFacts GNames Regex RegexFacts RegexRun Rules Utils Res Entities HtmlTools HtmlToolsFacts HtmlTok HtmlTokFacts Spec2 TreeFacts Spec10.
Import ListNotations.
Open Scope N_scope.

Ltac cls :=
  repeat match goal with
         | |- context [?a <=? ?b] => destruct (N.leb_spec a b); try lia
         | |- context [?a <? ?b] => destruct (N.ltb_spec a b); try lia
         | |- context [?a =? ?b] => destruct (N.eqb_spec a b); try lia
         end; try reflexivity.
Lemma lower_letter_range : forall c, lower_letter c = true -> 97 <= c <= 122.
Proof. intros c H. unfold lower_letter in H. apply andb_true_iff in H as [H1 H2]. apply N.leb_le in H1, H2. lia. Qed.
Lemma name_char_range : forall c, name_char c = true -> 97 <= c <= 122 \/ 48 <= c <= 57 \/ c = 45.
Proof.
  intros c H. unfold name_char in H. rewrite !orb_true_iff in H. destruct H as [[H|H]|H].
  - apply lower_letter_range in H. lia.
  - apply andb_true_iff in H as [H1 H2]. apply N.leb_le in H1, H2. lia.
  - apply N.eqb_eq in H. lia.
Qed.
Lemma forallb_impl : forall {A} (p q : A -> bool) l, (forall x, p x = true -> q x = true) -> forallb p l = true -> forallb q l = true.
Proof. intros A p q l H. rewrite !forallb_forall. auto. Qed.
Lemma name_ok_chars : forall n, name_ok n = true -> forallb name_char n = true /\ n <> [].
Proof.
  intros [|c n] H; [discriminate|]. simpl in H. apply andb_true_iff in H as [H1 H2]. split; [|discriminate]. simpl. rewrite H2, andb_true_r.
  unfold name_char. rewrite H1. reflexivity.
Qed.
Lemma lower_name : forall n, forallb name_char n = true -> lower n = n.
Proof.
  induction n as [|c n IH]; intro H; [reflexivity|]. simpl in H. apply andb_true_iff in H as [H1 H2]. unfold lower in *. cbn [map].
  rewrite (IH H2). f_equal. apply name_char_range in H1. unfold lower_c. cls.
Qed.

(** ** regular expressions, one after the other *)
Lemma m_c1 : forall c b t cs k, m (c1 c) (mk b (c :: t) cs) k = k (mk (c :: b) t cs).
Proof. intros. unfold c1. rewrite m_chr, N.eqb_refl. reflexivity. Qed.
Lemma m_c1_no : forall c b t cs k, stop (N.eqb c) t -> m (c1 c) (mk b t cs) k = None.
Proof. intros. apply m_chr_stop. assumption. Qed.
Lemma sps_none : forall y b cs k r, stop is_space y -> k (mk b y cs) = Some r -> m sps (mk b y cs) k = Some r.
Proof. intros. apply (star_take is_space [] y); auto. Qed.
Lemma sps_one : forall y b cs k r, stop is_space y -> k (mk (32 :: b) y cs) = Some r -> m sps (mk b (32 :: y) cs) k = Some r.
Proof. intros. apply (star_take is_space [32] y); auto. Qed.
(** what comes after white space and slashes *)
Definition tag_stop (y : str) : Prop :=
  match y with c :: t => is_space c = false /\ (c <> 47 \/ exists t', t = 62 :: t') | [] => True end.
Lemma skip_item : nonnull (RAlt sp (RSeq (c1 47) (RNotAhead (c1 62)))) = true.
Proof. reflexivity. Qed.
Lemma skip_none : forall y b cs k r, tag_stop y -> k (mk b y cs) = Some r -> m skip_slash (mk b y cs) k = Some r.
Proof.
  intros y b cs k r Hy Hk. unfold skip_slash. rewrite m_star by (apply nonnull_consuming; reflexivity).
  replace (m (RAlt sp (RSeq (c1 47) (RNotAhead (c1 62)))) (mk b y cs) _) with (@None st); [exact Hk|].
  symmetry. rewrite m_alt. destruct y as [|c t]; [reflexivity|]. destruct Hy as [H1 H2].
  unfold sp. rewrite m_chr, H1. cbn [orelse]. rewrite m_seq. unfold c1. rewrite m_chr. destruct (47 =? c) eqn:E; [|reflexivity].
  apply N.eqb_eq in E. subst c. destruct H2 as [H2|(t' & ->)]; [congruence|]. reflexivity.
Qed.
Lemma skip_one : forall y b cs k r, tag_stop y -> k (mk (32 :: b) y cs) = Some r -> m skip_slash (mk b (32 :: y) cs) k = Some r.
Proof.
  intros y b cs k r Hy Hk. unfold skip_slash. rewrite m_star by (apply nonnull_consuming; reflexivity).
  rewrite m_alt. unfold sp. rewrite m_chr. change (is_space 32) with true. cbv iota.
  change (m (RStar true _) (mk (32 :: b) y cs) k) with (m skip_slash (mk (32 :: b) y cs) k). rewrite (skip_none y _ _ _ r Hy Hk). reflexivity.
Qed.

(** ** one attribute *)
Definition is_attr0 (c : N) : bool := negb (is_space c || (c =? 47) || (c =? 62)).
Definition is_attr1 (c : N) : bool := negb (is_space c || (c =? 47) || (c =? 61) || (c =? 62)).
Lemma name_attr : forall c, name_char c = true -> is_attr0 c = true /\ is_attr1 c = true /\ is_tagchar c = true /\ is_space c = false /\ c <> 47 /\ c <> 61 /\ c <> 62.
Proof.
  intros c H. apply name_char_range in H. unfold is_attr0, is_attr1, is_tagchar, is_space. repeat split; try lia; cls.
Qed.
Lemma attr_name_take : forall n y b cs k r, name_ok n = true -> stop is_attr1 y -> 
  k (mk (rev n ++ 32 :: b) y cs) = Some r -> m attr_name_re (mk (32 :: b) (n ++ y) cs) k = Some r.
Proof.
  intros n y b cs k r Hn Hy Hk. apply name_ok_chars in Hn as [Hn Hne]. destruct n as [|c n]; [congruence|].
  simpl in Hn. apply andb_true_iff in Hn as [H1 H2].
  unfold attr_name_re, seqs. rewrite m_seq. cbn [m bef]. change (xorb false (is_quote 32 || is_space 32 || (32 =? 47))) with true. cbv iota.
  cbn [rest app]. change (negb (is_space c || (c =? 47) || (c =? 62))) with (is_attr0 c). rewrite (proj1 (name_attr c H1)). cbn [bef caps].
  apply (star_take is_attr1 n y (c :: 32 :: b)); [|exact Hy|].
  - eapply forallb_impl; [|exact H2]. intros x Hx. apply name_attr in Hx. tauto.
  - cbn [rev] in Hk. rewrite <- app_assoc in Hk. exact Hk.
Qed.
Lemma attr_eq_take : forall y b cs k r, stop (N.eqb 61) y -> stop is_space y ->
  k (mk (61 :: b) y cs) = Some r -> m attr_eq_re (mk b (61 :: y) cs) k = Some r.
Proof.
  intros y b cs k r H1 H2 Hk. unfold attr_eq_re, seqs. rewrite m_seq. apply sps_none; [reflexivity|]. rewrite m_seq.
  apply (plus_take (N.eqb 61) [61] y); [discriminate|reflexivity|exact H1|]. apply sps_none; [exact H2|exact Hk].
Qed.
Lemma attr_value_take : forall v y b cs k r, ~ In 34 v ->
  k (mk (34 :: rev v ++ 34 :: b) y cs) = Some r -> m attr_value_re (mk b (34 :: v ++ 34 :: y) cs) k = Some r.
Proof.
  intros v y b cs k r Hv Hk. unfold attr_value_re, alts, seqs. rewrite m_alt, m_seq, m_c1_no by reflexivity. cbn [orelse].
  rewrite m_alt, m_seq, m_c1, m_seq.
  rewrite (star_take (fun c => negb (c =? 34)) v (34 :: y) _ _ _ r); [reflexivity| |reflexivity|].
  - apply forallb_forall. intros c Hc. apply negb_true_iff, N.eqb_neq. intros ->. contradiction.
  - rewrite m_c1. exact Hk.
Qed.

(** one attribute in locatestarttagend; a space behind it is taken too *)
Definition attr_src (nv : str * str) : str := fst nv ++ $ "=""" ++ snd nv ++ $ """".
Definition raw_ok (nv : str * str) : Prop := name_ok (fst nv) = true /\ ~ In 34 (snd nv).
Definition loc_attr : regex := seqs [ attr_name_re; ROpt (seqs [attr_eq_re; attr_value_re; sps]); skip_slash ].
Lemma loc_attr_nonnull : nonnull loc_attr = true.
Proof. reflexivity. Qed.
Lemma tag_stop_space : forall y, tag_stop y -> stop is_space y.
Proof. intros [|c y] H; [exact I|]. destruct H. assumption. Qed.
Lemma loc_attr_take : forall nv (s : bool) y b cs k r, raw_ok nv -> tag_stop y ->
  k (mk ((if s then [32] else []) ++ rev (attr_src nv) ++ 32 :: b) y cs) = Some r ->
  m loc_attr (mk (32 :: b) (attr_src nv ++ (if s then [32] else []) ++ y) cs) k = Some r.
Proof.
  intros [n v] s y b cs k r [Hn Hv] Hy Hk. unfold loc_attr, attr_src, seqs in *. cbn [fst snd] in *. rewrite m_seq. rewrite <- !app_assoc.
  apply attr_name_take; [exact Hn|reflexivity|]. rewrite m_seq. unfold ROpt. rewrite m_alt.
  cbn [app L]. change ($ "=""" ++ v ++ $ """" ++ (if s then [32] else []) ++ y) with (61 :: 34 :: v ++ 34 :: (if s then [32] else []) ++ y).
  rewrite m_seq. rewrite (attr_eq_take _ _ _ _ r); [reflexivity|reflexivity|reflexivity|].
  rewrite m_seq. apply attr_value_take; [exact Hv|].
  assert (E : k (mk ((if s then [32] else []) ++ 34 :: rev v ++ 34 :: 61 :: rev n ++ 32 :: b) y cs) = Some r).
  { rewrite !rev_app_distr in Hk. cbn [rev app] in Hk. rewrite <- !app_assoc in Hk. exact Hk. }
  destruct s; cbn [app] in *.
  - apply sps_one; [apply tag_stop_space; exact Hy|]. apply skip_none; assumption.
  - apply sps_none; [apply tag_stop_space; exact Hy|]. apply skip_none; assumption.
Qed.

(** ** the end of a tag: ">" or " />" *)
Definition fin_sp (s : bool) : str := if s then [32] else [].
Definition fin_end (s : bool) : str := if s then [47; 62] else [62].
Definition sp_attrs (l : list (str * str)) : str := flat_map (fun nv => 32 :: attr_src nv) l.
Lemma fin_stop : forall s y, tag_stop (fin_end s ++ y).
Proof. intros [|] y; cbn; (split; [reflexivity|]); [right; eauto|left; discriminate]. Qed.
Lemma attr_src_stop : forall nv y, raw_ok nv -> tag_stop (attr_src nv ++ y).
Proof.
  intros [n v] y [Hn _]. unfold attr_src. cbn [fst snd] in *. apply name_ok_chars in Hn as [Hn Hne]. destruct n as [|c n]; [congruence|].
  simpl in Hn. apply andb_true_iff in Hn as [H1 _]. apply name_attr in H1. cbn. split; [tauto|left; tauto].
Qed.
Lemma attr_src_stop2 : forall nv y, raw_ok nv -> stop (fun c => is_space c || (c =? 47)) (attr_src nv ++ y).
Proof.
  intros [n v] y [Hn _]. unfold attr_src. cbn [fst snd] in *. apply name_ok_chars in Hn as [Hn Hne]. destruct n as [|c n]; [congruence|].
  simpl in Hn. apply andb_true_iff in Hn as [H1 _]. apply name_attr in H1 as (_ & _ & _ & H1 & H2 & _). cbn [app stop]. rewrite H1. apply N.eqb_neq. assumption.
Qed.
Lemma loc_attr_no : forall s y b cs k, m loc_attr (mk b (fin_end s ++ y) cs) k = None.
Proof.
  intros s y b cs k. unfold loc_attr, attr_name_re, seqs. rewrite m_seq, m_seq. cbn [m bef rest].
  destruct b as [|c b]; [destruct s; reflexivity|]. destruct (xorb _ _); [|reflexivity]. destruct s; reflexivity.
Qed.
Lemma loc_star : forall l nv s y b cs k r, raw_ok nv -> Forall raw_ok l ->
  k (mk (fin_sp s ++ rev (attr_src nv ++ sp_attrs l) ++ 32 :: b) (fin_end s ++ y) cs) = Some r ->
  m (RStar true loc_attr) (mk (32 :: b) (attr_src nv ++ sp_attrs l ++ fin_sp s ++ fin_end s ++ y) cs) k = Some r.
Proof.
  induction l as [|nv' l IH]; intros nv s y b cs k r Hn Hl Hk; rewrite m_star by (apply nonnull_consuming; reflexivity).
  - cbn [sp_attrs flat_map app] in *. rewrite app_nil_r in Hk.
    rewrite (loc_attr_take nv s (fin_end s ++ y) b cs _ r Hn (fin_stop s y)); [reflexivity|].
    rewrite m_star by (apply nonnull_consuming; reflexivity). rewrite loc_attr_no. exact Hk.
  - inversion Hl; subst. cbn [sp_attrs flat_map] in *. fold (sp_attrs l) in *. rewrite <- !app_assoc. cbn [app].
    rewrite (loc_attr_take nv true (attr_src nv' ++ sp_attrs l ++ fin_sp s ++ fin_end s ++ y) b cs _ r Hn); [reflexivity|apply attr_src_stop; assumption|].
    apply IH; [assumption|assumption|]. rewrite rev_app_distr in Hk. cbn [rev] in Hk. rewrite <- !app_assoc in Hk. cbn [app] in *.
    cbn [rev] in Hk. rewrite <- !app_assoc in Hk. exact Hk.
Qed.

Definition start_src (t : str) (l : list (str * str)) (s : bool) : str := 60 :: t ++ sp_attrs l ++ fin_sp s ++ fin_end s.
Lemma tagchar_stop_sp : forall l s y, stop is_tagchar (sp_attrs l ++ fin_sp s ++ fin_end s ++ y).
Proof. intros [|nv l] [|] y; reflexivity. Qed.
Lemma locate_take : forall t l s y, name_ok t = true -> Forall raw_ok l ->
  exists j cs, m locatestarttagend_re (mk [] (start_src t l s ++ y) []) (fun s => Some s) = Some (mk (rev (60 :: t ++ sp_attrs l ++ j)) (skipn (List.length j) (fin_sp s ++ fin_end s) ++ y) cs) /\
    (fin_sp s ++ fin_end s = j ++ skipn (List.length j) (fin_sp s ++ fin_end s)) /\
    (skipn (List.length j) (fin_sp s ++ fin_end s) = [62] \/ skipn (List.length j) (fin_sp s ++ fin_end s) = [47; 62]).
Proof.
  intros t l s y Ht Hl. pose proof Ht as Ht'. apply name_ok_chars in Ht' as [Hc Hne].
  destruct t as [|a t]; [congruence|]. simpl in Ht. apply andb_true_iff in Ht as [Ha Ht].
  exists (match l with [] => if s then [32; 47] else [] | _ => fin_sp s end), [].
  split; [|destruct l; destruct s; cbn; auto].
  unfold start_src, locatestarttagend_re, seqs. cbn [app]. rewrite m_seq, m_c1, m_seq, m_chr.
  assert (A : is_alpha a = true) by (apply lower_letter_range in Ha; unfold is_alpha; cls).
  rewrite A. rewrite m_seq. rewrite <- !app_assoc.
  apply star_take.
  { eapply forallb_impl; [|exact Ht]. intros x Hx. apply name_attr in Hx. tauto. }
  { apply tagchar_stop_sp. }
  rewrite m_seq. unfold ROpt. rewrite m_alt, m_seq.
  destruct l as [|nv l].
  - cbn [sp_attrs flat_map app]. replace (fin_sp s ++ fin_end s ++ y) with ((if s then [32; 47] else []) ++ 62 :: y) by (destruct s; reflexivity).
    rewrite (star_take (fun c => is_space c || (c =? 47)) (if s then [32; 47] else []) (62 :: y)
      _ _ _ (mk ((if s then [47; 32] else []) ++ rev t ++ [a; 60]) (62 :: y) [])); [|destruct s; reflexivity|reflexivity|].
    + cbn [orelse]. destruct s; cbn [rev app fin_sp fin_end skipn List.length]; rewrite ?rev_app_distr; cbn [rev app]; rewrite <- ?app_assoc; cbn [app]; reflexivity.
    + rewrite m_star by (apply nonnull_consuming; reflexivity).
      change (m (seqs [attr_name_re; ROpt (seqs [attr_eq_re; attr_value_re; sps]); skip_slash])) with (m loc_attr).
      rewrite (loc_attr_no false y). cbn [orelse]. apply sps_none; [reflexivity|]. destruct s; reflexivity.
  - inversion Hl; subst. cbn [sp_attrs flat_map]. fold (sp_attrs l).
    change ((32 :: attr_src nv) ++ sp_attrs l) with (32 :: (attr_src nv ++ sp_attrs l)).
    match goal with |- orelse (m (RStar true (RChr ?p)) ?st ?k) _ = Some ?r => set (R := r); assert (E : m (RStar true (RChr p)) st k = Some R) end.
    { cbn [app]. rewrite <- app_assoc. apply (star_take (fun c => is_space c || (c =? 47)) [32]); [reflexivity| |].
      - apply attr_src_stop2. assumption.
      - cbn [rev app]. apply (loc_star l nv s y); [assumption|assumption|]. apply sps_none; [apply tag_stop_space, fin_stop|].
        unfold R. f_equal. f_equal.
        + cbn [rev]. rewrite !rev_app_distr. cbn [rev]. rewrite !rev_app_distr. destruct s; cbn [fin_sp rev app]; rewrite <- ?app_assoc; cbn [app]; reflexivity.
        + destruct s; reflexivity. }
    rewrite E. reflexivity.
Qed.

Lemma try_at_hit : forall r b w t cs, m r (mk b (w ++ t) []) (fun s => Some s) = Some (mk (rev w ++ b) t cs) ->
  try_at r false b (w ++ t) = Some (mkm w cs).
Proof.
  intros r b w t cs H. unfold try_at. rewrite (m_ext r _ _ (fun s => Some s)) by reflexivity. rewrite H. cbn [rest caps].
  rewrite firstn_app_exact. reflexivity.
Qed.
Lemma try_at_miss : forall r b t, m r (mk b t []) (fun s => Some s) = None -> try_at r false b t = None.
Proof. intros r b t H. unfold try_at. rewrite (m_ext r _ _ (fun s => Some s)) by reflexivity. rewrite H. reflexivity. Qed.
Lemma match_at_app : forall r a t, match_at r (a ++ t) (List.length a) = try_at r false (rev a) t.
Proof.
  intros. unfold match_at. rewrite firstn_app, firstn_all, Nat.sub_diag, skipn_app, skipn_all, Nat.sub_diag. cbn [firstn skipn app].
  rewrite app_nil_r. reflexivity.
Qed.
Lemma skipn_app_exact : forall {A} (a b : list A), skipn (List.length a) (a ++ b) = b.
Proof. intros. rewrite skipn_app, skipn_all, Nat.sub_diag. reflexivity. Qed.
Lemma firstn_app_exact' : forall {A} (a b : list A), firstn (List.length a) (a ++ b) = a.
Proof. intros. rewrite firstn_app, firstn_all, Nat.sub_diag. cbn [firstn]. apply app_nil_r. Qed.

Lemma whole_tag : forall t l s y, name_ok t = true -> Forall raw_ok l ->
  check_for_whole_start_tag (start_src t l s ++ y) = Some (List.length (start_src t l s)).
Proof.
  intros t l s y Ht Hl. destruct (locate_take t l s y Ht Hl) as (j & cs & H1 & H2 & H3).
  set (q := skipn (List.length j) (fin_sp s ++ fin_end s)) in *.
  assert (E : start_src t l s = (60 :: t ++ sp_attrs l ++ j) ++ q).
  { unfold start_src. rewrite H2. cbn [app]. rewrite <- !app_assoc. reflexivity. }
  unfold check_for_whole_start_tag, match_at. cbn [firstn skipn rev].
  rewrite E in *. rewrite <- app_assoc in *. set (w := 60 :: t ++ sp_attrs l ++ j) in *.
  rewrite (try_at_hit _ [] w (q ++ y) cs) by (rewrite app_nil_r; exact H1). cbn [mtxt]. rewrite skipn_app_exact.
  rewrite app_length. destruct H3 as [-> | ->]; cbn [app List.length N.eqb Pos.eqb]; f_equal; lia.
Qed.

Lemma tagfind_take : forall t l s y b, name_ok t = true -> Forall raw_ok l ->
  let sp0 := match l with [] => fin_sp s | _ => [32] end in
  let y' := match l with [] => fin_end s ++ y | nv :: l' => attr_src nv ++ sp_attrs l' ++ fin_sp s ++ fin_end s ++ y end in
  t ++ sp_attrs l ++ fin_sp s ++ fin_end s ++ y = (t ++ sp0) ++ y' /\
  try_at tagfind_re false b ((t ++ sp0) ++ y') = Some (mkm (t ++ sp0) [(G_hp_tag, t)]).
Proof.
  intros t l s y b Ht Hl sp0 y'. pose proof Ht as Ht'. apply name_ok_chars in Ht' as [Hc Hne].
  split.
  { unfold sp0, y'. destruct l as [|nv l]; cbn [sp_attrs flat_map app]; rewrite <- !app_assoc; reflexivity. }
  apply try_at_hit. rewrite <- app_assoc. destruct t as [|a t]; [congruence|]. simpl in Ht. apply andb_true_iff in Ht as [Ha Ht].
  unfold tagfind_re. rewrite m_seq, m_grp, m_seq. cbn [app]. rewrite m_chr.
  assert (A : is_alpha a = true) by (apply lower_letter_range in Ha; unfold is_alpha; cls).
  rewrite A.
  assert (Y : stop is_tagchar (sp0 ++ y') /\ tag_stop y').
  { unfold sp0, y'. destruct l as [|nv l]; [destruct s; split; try reflexivity; apply (fin_stop _ y)|].
    inversion Hl; subst. split; [reflexivity|apply attr_src_stop; assumption]. }
  destruct Y as [Y1 Y2].
  apply star_take; [eapply forallb_impl; [|exact Ht]; intros x Hx; apply name_attr in Hx; tauto|exact Y1|].
  cbn [rest bef caps].
  replace (firstn (List.length (a :: t ++ sp0 ++ y') - List.length (sp0 ++ y')) (a :: t ++ sp0 ++ y')) with (a :: t)
    by (symmetry; apply (firstn_app_exact (a :: t))).
  assert (S : sp0 = [] \/ sp0 = [32]) by (unfold sp0; destruct l; [destruct s; cbn; auto|auto]).
  destruct S as [-> | ->]; cbn [app].
  - apply skip_none; [exact Y2|]. rewrite app_nil_r. cbn [rev]. rewrite <- app_assoc. reflexivity.
  - apply skip_one; [exact Y2|]. cbn [rev]. rewrite rev_app_distr. cbn [rev app]. rewrite <- ?app_assoc. reflexivity.
Qed.

(** one attribute *)
Lemma attrfind_take : forall nv (s : bool) y b, raw_ok nv -> tag_stop y ->
  exists cs, try_at attrfind_re false (32 :: b) ((attr_src nv ++ fin_sp s) ++ y) = Some (mkm (attr_src nv ++ fin_sp s) cs) /\
    cap G_hp_attr cs = Some (fst nv) /\ cap G_hp_rest cs = Some ($ "=""" ++ snd nv ++ $ """") /\
    cap G_hp_value cs = Some ($ """" ++ snd nv ++ $ """").
Proof.
  intros [n v] s y b [Hn Hv] Hy. cbn [fst snd] in *.
  exists [(G_hp_rest, $ "=""" ++ v ++ $ """"); (G_hp_value, $ """" ++ v ++ $ """"); (G_hp_attr, n)].
  split; [|split; [reflexivity|split; reflexivity]].
  apply try_at_hit. unfold attr_src. cbn [fst snd]. rewrite <- !app_assoc.
  unfold attrfind_re, seqs. rewrite m_seq, m_grp. apply attr_name_take; [exact Hn|reflexivity|]. cbn [rest bef caps].
  rewrite firstn_app_exact. rewrite m_seq. unfold ROpt. rewrite m_alt, m_grp, m_seq.
  change ($ "=""" ++ v ++ $ """" ++ fin_sp s ++ y) with (61 :: 34 :: v ++ 34 :: fin_sp s ++ y).
  match goal with |- orelse ?a _ = Some ?r => assert (E : a = Some r); [|rewrite E; reflexivity] end.
  apply attr_eq_take; [reflexivity|reflexivity|]. rewrite m_grp. apply attr_value_take; [exact Hv|]. cbn [rest bef caps].
  replace (firstn _ (34 :: v ++ 34 :: fin_sp s ++ y)) with (34 :: v ++ [34]).
  2:{ symmetry. change (34 :: v ++ 34 :: fin_sp s ++ y) with (34 :: v ++ [34] ++ fin_sp s ++ y). rewrite app_assoc.
      apply (firstn_app_exact (34 :: v ++ [34])). }
  replace (firstn _ (61 :: 34 :: v ++ 34 :: fin_sp s ++ y)) with (61 :: 34 :: v ++ [34]).
  2:{ symmetry. change (61 :: 34 :: v ++ 34 :: fin_sp s ++ y) with (61 :: 34 :: v ++ [34] ++ fin_sp s ++ y). rewrite app_assoc.
      apply (firstn_app_exact (61 :: 34 :: v ++ [34])). }
  destruct s; cbn [fin_sp app].
  - apply skip_one; [exact Hy|]. rewrite !rev_app_distr. cbn [rev app L]. rewrite !rev_app_distr. cbn [rev app]. rewrite <- ?app_assoc. reflexivity.
  - apply skip_none; [exact Hy|]. rewrite !rev_app_distr. cbn [rev app L]. rewrite !rev_app_distr. cbn [rev app]. rewrite <- ?app_assoc. reflexivity.
Qed.
Lemma attrfind_no : forall s y b, try_at attrfind_re false b (fin_end s ++ y) = None.
Proof.
  intros s y b. apply try_at_miss. unfold attrfind_re, attr_name_re, seqs. rewrite m_seq, m_grp, m_seq. cbn [m bef rest].
  destruct b as [|c b]; [destruct s; reflexivity|]. destruct (xorb _ _); [|reflexivity]. destruct s; reflexivity.
Qed.
Definition read_attr (nv : str * str) : str * pyval := (fst nv, VStr (unescape (snd nv))).
Lemma attr_value_read : forall w cs v, cap G_hp_rest cs = Some ($ "=""" ++ v ++ $ """") -> cap G_hp_value cs = Some ($ """" ++ v ++ $ """") ->
  attr_value (mkm w cs) = VStr (unescape v).
Proof.
  intros w cs v H1 H2. unfold attr_value, group0, group. cbn [mcaps]. rewrite H1, H2. cbn [app L]. change ($ """" ++ v ++ $ """") with (34 :: v ++ [34]).
  cbv zeta. cbn [firstn rev]. rewrite rev_app_distr. cbn [rev app firstn]. change (str_eqb [34] [39] || str_eqb [34] [34]) with true.
  cbn [andb]. rewrite str_eqb_refl. cbn [tl]. rewrite removelast_last. destruct v; reflexivity.
Qed.
Lemma attr_loop_take : forall l nv s y pre b fuel, raw_ok nv -> Forall raw_ok l -> pre = rev (32 :: b) -> (S (List.length l) < fuel)%nat ->
  attr_loop fuel (pre ++ attr_src nv ++ sp_attrs l ++ fin_sp s ++ fin_end s ++ y) (List.length pre)
    (List.length (pre ++ attr_src nv ++ sp_attrs l ++ fin_sp s ++ fin_end s)) =
  (map read_attr (nv :: l), List.length (pre ++ attr_src nv ++ sp_attrs l ++ fin_sp s)).
Proof.
  induction l as [|nv' l IH]; intros nv s y pre b fuel Hn Hl Hp Hf; (destruct fuel as [|fuel]; [lia|]).
  - cbn [attr_loop]. cbn [sp_attrs flat_map app] in *.
    replace (Nat.ltb _ _) with true.
    2:{ symmetry. apply Nat.ltb_lt. rewrite !app_length. destruct s; cbn; lia. }
    rewrite match_at_app. subst pre. rewrite rev_involutive.
    destruct (attrfind_take nv s (fin_end s ++ y) b Hn (fin_stop s y)) as (cs & E & C1 & C2 & C3). rewrite <- app_assoc in E. rewrite E. cbn [mtxt].
    set (pre := rev (32 :: b)) in *.
    destruct fuel as [|fuel]; [cbn [List.length] in Hf; lia|]. cbn [attr_loop].
    replace (pre ++ attr_src nv ++ fin_sp s ++ fin_end s ++ y) with ((pre ++ attr_src nv ++ fin_sp s) ++ fin_end s ++ y) by (rewrite <- !app_assoc; reflexivity).
    replace (List.length pre + List.length (attr_src nv ++ fin_sp s))%nat with (List.length (pre ++ attr_src nv ++ fin_sp s)) by (rewrite !app_length; lia).
    replace (Nat.ltb _ _) with true.
    2:{ symmetry. apply Nat.ltb_lt. rewrite !app_length. destruct s; cbn; lia. }
    rewrite match_at_app, attrfind_no. cbn [map]. unfold read_attr. rewrite (attr_value_read _ _ _ C2 C3). unfold group0, group. cbn [mcaps]. rewrite C1.
    destruct Hn as [Hn _]. rewrite lower_name by (apply name_ok_chars in Hn; tauto). reflexivity.
  - cbn [attr_loop]. inversion Hl; subst. cbn [sp_attrs flat_map] in *. fold (sp_attrs l) in *.
    replace (Nat.ltb _ _) with true.
    2:{ symmetry. apply Nat.ltb_lt. rewrite !app_length. destruct s; cbn; lia. }
    rewrite match_at_app. rewrite rev_involutive. rewrite <- !app_assoc. cbn [app].
    destruct (attrfind_take nv true (attr_src nv' ++ sp_attrs l ++ fin_sp s ++ fin_end s ++ y) b Hn (attr_src_stop _ _ H1)) as (cs & E & C1 & C2 & C3).
    cbn [fin_sp] in E. rewrite <- app_assoc in E. cbn [app] in E. rewrite E. cbn [mtxt].
    set (pre := rev (32 :: b)) in *.
    specialize (IH nv' s y (pre ++ attr_src nv ++ [32]) (rev (pre ++ attr_src nv)) fuel H1 H2).
    rewrite <- !app_assoc in IH. cbn [app] in IH.
    replace (List.length pre + List.length (attr_src nv ++ [32%N]))%nat with (List.length (pre ++ attr_src nv ++ [32])) by (rewrite !app_length; lia).
    rewrite IH.
    + cbn [map]. unfold read_attr at 3. rewrite (attr_value_read _ _ _ C2 C3). unfold group0, group. cbn [mcaps]. rewrite C1.
      destruct Hn as [Hn _]. rewrite lower_name by (apply name_ok_chars in Hn; tauto). f_equal.
    + cbn [rev]. rewrite rev_involutive, <- app_assoc. reflexivity.
    + cbn [List.length] in Hf. lia.
Qed.

Lemma sp_attrs_length : forall l, (List.length l <= List.length (sp_attrs l))%nat.
Proof. induction l as [|nv l IH]; [reflexivity|]. cbn [sp_attrs flat_map List.length]. rewrite app_length. fold (sp_attrs l). cbn [List.length]. lia. Qed.
Lemma starttag_take : forall t l (s : bool) y, name_ok t = true -> Forall raw_ok l -> t <> $ "script" -> t <> $ "style" ->
  parse_starttag (start_src t l s ++ y) = Next [if s then TStartEnd t (map read_attr l) else TStart t (map read_attr l)] y None.
Proof.
  intros t l s y Ht Hl N1 N2. unfold parse_starttag. rewrite whole_tag by assumption.
  set (e := List.length (start_src t l s)).
  destruct (tagfind_take t l s y [60] Ht Hl) as [E F]. cbv zeta in E, F.
  assert (G : start_src t l s ++ y = [60] ++ t ++ sp_attrs l ++ fin_sp s ++ fin_end s ++ y) by (unfold start_src; cbn [app]; rewrite <- !app_assoc; reflexivity).
  rewrite G. rewrite (match_at_app tagfind_re [60]). cbn [rev app]. rewrite E, F. cbn [mtxt].
  replace (group0 G_hp_tag _) with t by reflexivity. rewrite lower_name by (apply name_ok_chars in Ht; tauto).
  assert (K : attr_loop (S e) (60 :: t ++ sp_attrs l ++ fin_sp s ++ fin_end s ++ y)
    (1 + List.length (t ++ match l with [] => fin_sp s | _ => [32] end)) e = (map read_attr l, List.length (60 :: t ++ sp_attrs l ++ fin_sp s))).
  { destruct l as [|nv l].
    - cbn [attr_loop sp_attrs flat_map app]. 
      replace (Nat.ltb _ e) with true.
      2:{ symmetry. apply Nat.ltb_lt. unfold e, start_src. cbn [sp_attrs flat_map app List.length]. rewrite !app_length. destruct s; cbn; lia. }
      replace (60 :: t ++ fin_sp s ++ fin_end s ++ y) with ((60 :: t ++ fin_sp s) ++ fin_end s ++ y) by (cbn [app]; rewrite <- !app_assoc; reflexivity).
      change (1 + List.length (t ++ fin_sp s))%nat with (List.length (60 :: t ++ fin_sp s)). rewrite match_at_app, attrfind_no. reflexivity.
    - inversion Hl; subst. cbn [sp_attrs flat_map]. fold (sp_attrs l).
      replace (60 :: t ++ ((32 :: attr_src nv) ++ sp_attrs l) ++ fin_sp s ++ fin_end s ++ y) with
        ((60 :: t ++ [32]) ++ attr_src nv ++ sp_attrs l ++ fin_sp s ++ fin_end s ++ y) by (cbn [app]; rewrite <- !app_assoc; reflexivity).
      change (1 + List.length (t ++ [32%N]))%nat with (List.length (60 :: t ++ [32])).
      pose proof (attr_loop_take l nv s y (60 :: t ++ [32]) (rev (60 :: t)) (S e) H1 H2) as Q.
      replace (List.length ((60 :: t ++ [32]) ++ attr_src nv ++ sp_attrs l ++ fin_sp s ++ fin_end s)) with e in Q.
      2:{ unfold e, start_src. cbn [sp_attrs flat_map]. fold (sp_attrs l). cbn [app List.length]. rewrite !app_length. cbn [List.length]. rewrite !app_length. cbn [List.length]. lia. }
      rewrite Q.
      + f_equal. cbn [app List.length]. rewrite !app_length. cbn [List.length]. rewrite !app_length. cbn [List.length]. lia.
      + cbn [rev]. rewrite rev_app_distr, rev_involutive. reflexivity.
      + unfold e, start_src. cbn [sp_attrs flat_map app List.length]. fold (sp_attrs l). rewrite !app_length. cbn [List.length]. rewrite app_length.
        pose proof (sp_attrs_length l). rewrite !app_length. lia. }
  rewrite <- E. match goal with |- context [attr_loop ?a ?b ?c ?d] => replace (attr_loop a b c d) with (map read_attr l, List.length (60 :: t ++ sp_attrs l ++ fin_sp s)) by (symmetry; exact K) end.
  assert (Z1 : 60 :: t ++ sp_attrs l ++ fin_sp s ++ fin_end s ++ y = start_src t l s ++ y) by (symmetry; exact G).
  rewrite Z1. unfold e. rewrite skipn_app_exact, firstn_app_exact'.
  replace (start_src t l s) with ((60 :: t ++ sp_attrs l ++ fin_sp s) ++ fin_end s) by (unfold start_src; cbn [app]; rewrite <- !app_assoc; reflexivity).
  rewrite skipn_app_exact. destruct s; cbn [fin_end].
  - change (str_eqb (strip [47; 62]) [62]) with false. change (str_eqb (strip [47; 62]) [47; 62]) with true. reflexivity.
  - change (str_eqb (strip [62]) [62]) with true. cbv iota. unfold in_list. cbn [existsb].
    rewrite (proj2 (str_eqb_neq _ _) N1), (proj2 (str_eqb_neq _ _) N2). reflexivity.
Qed.

(** ** html.unescape takes the escaping of an attribute value back *)
Lemma unesc_hit : forall n b t, n <> [] -> forallb charref_name_char n = true -> (List.length n <= 6)%nat ->
  m unescape_re (mk b ((38 :: n ++ [59]) ++ t) []) (fun s => Some s) = Some (mk (rev (38 :: n ++ [59]) ++ b) t [(G_hp_entity, n ++ [59])]).
Proof.
  intros n b t Hne Hn Hl. destruct n as [|c n]; [congruence|]. cbn [forallb] in Hn. apply andb_true_iff in Hn as [Hc Hn].
  unfold unescape_re. rewrite m_seq. cbn [app]. rewrite m_c1, m_grp. unfold alts, seqs.
  assert (C35 : c =? 35 = false /\ 35 =? c = false).
  { split; apply N.eqb_neq; intro E; subst c; discriminate Hc. }
  rewrite m_alt, m_seq. unfold c1 at 1. rewrite m_chr, (proj2 C35). cbn [orelse].
  rewrite m_alt, m_seq. unfold c1 at 1. rewrite m_chr, (proj2 C35). cbn [orelse].
  rewrite m_seq, m_chr, Hc, m_seq.
  assert (U : forall n k b cs (f : st -> option st) r, forallb charref_name_char n = true -> (List.length n <= k)%nat ->
    f (mk (rev n ++ b) (59 :: t) cs) = Some r -> m (upto k (RChr charref_name_char)) (mk b (n ++ 59 :: t) cs) f = Some r).
  { clear. induction n as [|c n IH]; intros k b cs f r Hn Hl Hk.
    - cbn [app rev] in *. destruct k; [exact Hk|]. cbn [upto]. unfold ROpt. rewrite m_alt, m_seq, m_chr_stop by reflexivity. exact Hk.
    - cbn [forallb] in Hn. apply andb_true_iff in Hn as [Hc Hn]. destruct k; [cbn in Hl; lia|]. cbn [upto]. unfold ROpt.
      rewrite m_alt, m_seq. cbn [app]. rewrite m_chr, Hc. cbn [bef rest caps]. cbn [rev] in Hk. rewrite <- app_assoc in Hk.
      specialize (IH k (c :: b) cs f r Hn ltac:(cbn in Hl; lia) Hk).
      match goal with |- orelse ?x _ = _ => replace x with (Some r) by (symmetry; exact IH) end. reflexivity. }
  rewrite <- app_assoc. cbn [app]. apply U; [exact Hn|cbn in Hl; lia|].
  unfold ROpt. rewrite m_alt, m_c1. cbn [bef rest caps orelse].
  f_equal. f_equal.
  - cbn [rev]. rewrite rev_app_distr. cbn [rev app]. rewrite <- !app_assoc. reflexivity.
  - f_equal. f_equal. change (c :: n ++ 59 :: t) with (c :: n ++ [59] ++ t). rewrite app_assoc. apply (firstn_app_exact (c :: n ++ [59])).
Qed.
Lemma unesc_miss : forall b c t, c <> 38 -> m unescape_re (mk b (c :: t) []) (fun s => Some s) = None.
Proof. intros b c t H. unfold unescape_re. rewrite m_seq, m_c1_no; [reflexivity|]. cbn [stop]. apply N.eqb_neq. congruence. Qed.
Lemma resub_cons : forall r f b w t cs, w <> [] -> m r (mk b (w ++ t) []) (fun s => Some s) = Some (mk (rev w ++ b) t cs) ->
  flat_map (fun x => match x with Datatypes.inl c => [c] | inr y => f y end) (scan r 0 b (w ++ t)) =
  f (mkm w cs) ++ flat_map (fun x => match x with Datatypes.inl c => [c] | inr y => f y end) (scan r 0 (rev w ++ b) t).
Proof. intros. rewrite (scan_hit r b w t cs) by assumption. reflexivity. Qed.
Lemma unescape_scan : forall v b, flat_map (fun x => match x with Datatypes.inl c => [c] | inr y => replace_charref y end) (scan unescape_re 0 b (flat_map attr_entity v)) = v.
Proof.
  induction v as [|c v IH]; intro b; [reflexivity|]. cbn [flat_map]. unfold attr_entity at 1.
  destruct (c =? 38) eqn:E1; [apply N.eqb_eq in E1; subst c|].
  { change ($ "&amp;") with (38 :: $ "amp" ++ [59]). rewrite (resub_cons _ _ b _ _ [(G_hp_entity, $ "amp;")]); [|discriminate|apply unesc_hit; [discriminate|reflexivity|cbn; lia]].
    rewrite IH. match goal with |- ?a ++ v = _ => replace a with [38] by (vm_compute; reflexivity) end. reflexivity. }
  destruct (c =? 60) eqn:E2; [apply N.eqb_eq in E2; subst c|].
  { change ($ "&lt;") with (38 :: $ "lt" ++ [59]). rewrite (resub_cons _ _ b _ _ [(G_hp_entity, $ "lt;")]); [|discriminate|apply unesc_hit; [discriminate|reflexivity|cbn; lia]].
    rewrite IH. match goal with |- ?a ++ v = _ => replace a with [60] by (vm_compute; reflexivity) end. reflexivity. }
  destruct (c =? 62) eqn:E3; [apply N.eqb_eq in E3; subst c|].
  { change ($ "&gt;") with (38 :: $ "gt" ++ [59]). rewrite (resub_cons _ _ b _ _ [(G_hp_entity, $ "gt;")]); [|discriminate|apply unesc_hit; [discriminate|reflexivity|cbn; lia]].
    rewrite IH. match goal with |- ?a ++ v = _ => replace a with [62] by (vm_compute; reflexivity) end. reflexivity. }
  destruct (c =? 34) eqn:E4; [apply N.eqb_eq in E4; subst c|].
  { change ($ "&quot;") with (38 :: $ "quot" ++ [59]). rewrite (resub_cons _ _ b _ _ [(G_hp_entity, $ "quot;")]); [|discriminate|apply unesc_hit; [discriminate|reflexivity|cbn; lia]].
    rewrite IH. match goal with |- ?a ++ v = _ => replace a with [34] by (vm_compute; reflexivity) end. reflexivity. }
  cbn [app]. rewrite scan_miss by (apply unesc_miss, N.eqb_neq; exact E1). cbn [flat_map app]. rewrite IH. reflexivity.
Qed.
Lemma attr_entity_plain : forall v, contains [38] (flat_map attr_entity v) = false -> flat_map attr_entity v = v.
Proof.
  induction v as [|c v IH]; [reflexivity|]. cbn [flat_map].
  assert (K : attr_entity c = [c] \/ exists w, attr_entity c = 38 :: w).
  { unfold attr_entity. destruct (c =? 38); [right; eexists; reflexivity|]. destruct (c =? 60); [right; eexists; reflexivity|].
    destruct (c =? 62); [right; eexists; reflexivity|]. destruct (c =? 34); [right; eexists; reflexivity|]. left. reflexivity. }
  destruct K as [K|[w K]]; rewrite K; cbn [app contains startswith]; [|rewrite N.eqb_refl; discriminate].
  intro H. apply orb_false_iff in H as [_ H]. rewrite (IH H). reflexivity.
Qed.
Theorem unescape_entity : forall v, unescape (flat_map attr_entity v) = v.
Proof.
  intro v. unfold unescape. destruct (contains [38] (flat_map attr_entity v)) eqn:E.
  - apply unescape_scan.
  - apply attr_entity_plain. exact E.
Qed.

(** ** tags *)
Definition raw_attr (nv : str * pyval) : str * str := (fst nv, flat_map attr_entity (value_of (snd nv))).
Lemma raw_attr_ok : forall nv, attr_ok nv = true -> raw_ok (raw_attr nv) /\ read_attr (raw_attr nv) = nv.
Proof.
  intros [n v] H. unfold attr_ok in H. cbn [fst snd] in H. apply andb_true_iff in H as [H1 H2]. destruct v as [s| | |]; try discriminate.
  split; [split; [exact H1|]|].
  - cbn [snd raw_attr value_of]. intro I. apply in_flat_map in I as (c & _ & I). unfold attr_entity in I.
    destruct (c =? 38); [cbv in I; intuition discriminate|]. destruct (c =? 60); [cbv in I; intuition discriminate|].
    destruct (c =? 62); [cbv in I; intuition discriminate|]. destruct (c =? 34) eqn:E; [cbv in I; intuition discriminate|].
    destruct I as [I|[]]. subst c. discriminate.
  - unfold read_attr, raw_attr. cbn [fst snd value_of]. rewrite unescape_entity. reflexivity.
Qed.
Lemma show_attrs_raw : forall a, show_attrs a = sp_attrs (map raw_attr a).
Proof.
  induction a as [|[n v] a IH]; [reflexivity|]. unfold show_attrs, sp_attrs in *. cbn [map flat_map]. rewrite IH. reflexivity.
Qed.
Lemma raw_attrs_ok : forall a, forallb attr_ok a = true -> Forall raw_ok (map raw_attr a) /\ map read_attr (map raw_attr a) = a.
Proof.
  induction a as [|nv a IH]; intro H; [split; [constructor|reflexivity]|]. cbn [forallb] in H. apply andb_true_iff in H as [H1 H2].
  destruct (raw_attr_ok nv H1). destruct (IH H2). cbn [map]. split; [constructor; assumption|]. congruence.
Qed.
Lemma tag_ok_parts : forall t, tag_ok t = true -> name_ok t = true /\ t <> $ "script" /\ t <> $ "style".
Proof.
  intros t H. unfold tag_ok in H. rewrite !andb_true_iff, !negb_true_iff in H. destruct H as [[H1 H2] H3].
  split; [exact H1|]. split; apply str_eqb_neq; assumption.
Qed.
Lemma name_alpha : forall c t, name_ok (c :: t) = true -> is_alpha c = true.
Proof. intros c t H. cbn [name_ok] in H. apply andb_true_iff in H as [H _]. apply lower_letter_range in H. unfold is_alpha. cls. Qed.
Lemma one_start : forall t a (s : bool) y, tag_ok t = true -> forallb attr_ok a = true ->
  one None (60 :: t ++ show_attrs a ++ fin_sp s ++ fin_end s ++ y) = Next [if s then TStartEnd t a else TStart t a] y None.
Proof.
  intros t a s y Ht Ha. apply tag_ok_parts in Ht as (Ht & N1 & N2). apply raw_attrs_ok in Ha as [Ha Er]. rewrite show_attrs_raw.
  replace (60 :: t ++ sp_attrs (map raw_attr a) ++ fin_sp s ++ fin_end s ++ y) with (start_src t (map raw_attr a) s ++ y)
    by (unfold start_src; cbn [app]; rewrite <- !app_assoc; reflexivity).
  pose proof (starttag_take t (map raw_attr a) s y Ht Ha N1 N2) as K. rewrite Er in K. rewrite <- K.
  destruct t as [|c t]; [discriminate|]. unfold one, start_src. cbn [app]. change (60 =? 60) with true. cbv iota. cbn [lt_step].
  rewrite (name_alpha c t Ht). reflexivity.
Qed.
Lemma split1_here : forall c a t, ~ In c a -> split1 c (a ++ c :: t) = Some (a, t).
Proof.
  induction a as [|d a IH]; intros t H; cbn [app split1].
  - rewrite N.eqb_refl. reflexivity.
  - destruct (d =? c) eqn:E; [apply N.eqb_eq in E; subst; exfalso; apply H; left; reflexivity|].
    rewrite IH; [reflexivity|]. intro I. apply H. right. exact I.
Qed.
Lemma one_end : forall t y, name_ok t = true -> one None (60 :: 47 :: t ++ 62 :: y) = Next [TEnd t] y None.
Proof.
  intros t y Ht. unfold one. change (60 =? 60) with true. cbv iota. cbn [lt_step]. change (is_alpha 47) with false. change (47 =? 47) with true. cbv iota.
  unfold parse_endtag. cbn [skipn]. pose proof Ht as Ht'. apply name_ok_chars in Ht' as [Hc Hne].
  assert (F : find 62 (47 :: t ++ 62 :: y) = Some (47 :: t, y)).
  { apply (split1_here 62 (47 :: t)). intros [I|I]; [discriminate|]. rewrite forallb_forall in Hc. apply Hc, name_char_range in I. lia. }
  rewrite F.
  assert (M : match_at endtagfind_re (60 :: 47 :: t ++ 62 :: y) 0 = Some (mkm (60 :: 47 :: t ++ [62]) [(G_hp_tag, t)])).
  { unfold match_at. cbn [firstn skipn rev].
    replace (60 :: 47 :: t ++ 62 :: y) with ((60 :: 47 :: t ++ [62]) ++ y) by (cbn [app]; rewrite <- app_assoc; reflexivity).
    apply try_at_hit. cbn [app]. rewrite <- app_assoc. cbn [app]. unfold endtagfind_re, seqs. rewrite m_seq.
    change (60 :: 47 :: t ++ 62 :: y) with ($ "</" ++ t ++ 62 :: y). rewrite m_lit, m_seq.
    destruct t as [|a t]; [congruence|]. cbn [forallb] in Hc. apply andb_true_iff in Hc as [Ha Hc].
    apply sps_none; [cbn; apply name_attr in Ha; tauto|]. rewrite m_seq, m_grp, m_seq. cbn [app]. rewrite m_chr, (name_alpha a t Ht).
    apply star_take.
    - eapply forallb_impl; [|exact Hc]. intros x Hx. apply name_char_range in Hx. unfold is_alnum, is_alpha, is_dec. cls.
    - reflexivity.
    - cbn [bef rest caps]. rewrite m_seq. apply sps_none; [reflexivity|]. rewrite m_c1. f_equal. f_equal.
      + cbn [rev L app]. rewrite rev_app_distr. cbn [rev app]. rewrite <- !app_assoc. reflexivity.
      + f_equal. f_equal. apply (firstn_app_exact (a :: t)). }
  rewrite M. replace (group0 G_hp_tag _) with t by reflexivity. rewrite lower_name by (apply name_ok_chars in Ht; tauto). reflexivity.
Qed.

(** ** references *)
Lemma one_entity : forall n y, match n with c :: t => letter c && forallb (fun c => letter c || dec c) t | [] => false end = true ->
  one None (38 :: n ++ 59 :: y) = Next [TEntity n] y None.
Proof.
  intros [|a n] y H; [discriminate|]. apply andb_true_iff in H as [Ha Hn]. unfold one. change (38 =? 60) with false. cbv iota.
  assert (A : is_alpha a = true /\ a <> 35).
  { unfold letter in Ha. apply orb_true_iff in Ha as [Ha|Ha]; [apply lower_letter_range in Ha|apply andb_true_iff in Ha as [H1 H2]; apply N.leb_le in H1, H2];
      (split; [unfold is_alpha; cls|lia]). }
  assert (M : match_at entityref_re (38 :: (a :: n) ++ 59 :: y) 0 = Some (mkm (38 :: (a :: n) ++ [59]) [(G_hp_entity, a :: n)])).
  { unfold match_at. cbn [firstn skipn rev].
    replace (38 :: (a :: n) ++ 59 :: y) with ((38 :: (a :: n) ++ [59]) ++ y) by (cbn [app]; rewrite <- app_assoc; reflexivity).
    apply try_at_hit. cbn [app]. rewrite <- app_assoc. cbn [app]. unfold entityref_re, seqs. rewrite m_seq, m_c1, m_seq, m_grp, m_seq, m_chr, (proj1 A).
    apply star_take.
    - eapply forallb_impl; [|exact Hn]. intros x Hx. apply orb_true_iff in Hx as [Hx|Hx].
      + unfold letter in Hx. apply orb_true_iff in Hx as [Hx|Hx]; [apply lower_letter_range in Hx|apply andb_true_iff in Hx as [H1 H2]; apply N.leb_le in H1, H2];
          unfold is_alnum, is_alpha; cls.
      + unfold dec in Hx. apply andb_true_iff in Hx as [H1 H2]; apply N.leb_le in H1, H2. unfold is_alnum, is_alpha, is_dec; cls.
    - reflexivity.
    - cbn [bef rest caps]. rewrite m_chr. change (negb (is_alnum 59)) with true. cbv iota. f_equal. f_equal.
      + cbn [rev]. rewrite rev_app_distr. cbn [rev app]. rewrite <- !app_assoc. reflexivity.
      + f_equal. f_equal. apply (firstn_app_exact (a :: n)). }
  assert (E : amp_step (38 :: (a :: n) ++ 59 :: y) =
    match match_at entityref_re (38 :: (a :: n) ++ 59 :: y) 0 with
     | Some x => let k := List.length (mtxt x) in
       let k' := if startswith [59] (skipn (pred k) (38 :: (a :: n) ++ 59 :: y)) then k else pred k in
       Next [TEntity (group0 G_hp_entity x)] (skipn k' (38 :: (a :: n) ++ 59 :: y)) None
     | None => if is_alpha a then Stop [] else Next [TData [38]] (skipn 1 (38 :: (a :: n) ++ 59 :: y)) None
     end).
  { clear M. destruct A as [_ A]. cbn [app]. unfold amp_step. destruct a as [|p]; [reflexivity|]. do 6 (destruct p as [p|p|]; try reflexivity). exfalso. apply A. reflexivity. }
  rewrite E, M. cbn [mtxt]. cbv zeta.
  replace (List.length (38 :: (a :: n) ++ [59])) with (S (List.length (38 :: a :: n))) by (cbn [List.length app]; rewrite app_length; cbn; lia).
  cbn [pred]. change (38 :: (a :: n) ++ 59 :: y) with ((38 :: a :: n) ++ 59 :: y). rewrite skipn_app_exact. cbn [startswith]. change (59 =? 59) with true. cbn [andb].
  f_equal. replace ((38 :: a :: n) ++ 59 :: y) with (((38 :: a :: n) ++ [59]) ++ y) by (rewrite <- app_assoc; reflexivity).
  replace (S (List.length (38 :: a :: n))) with (List.length ((38 :: a :: n) ++ [59])) by (rewrite app_length; cbn; lia). apply skipn_app_exact.
Qed.
Lemma one_charref : forall n y, all_digits dec n || match n with 120 :: h => all_digits hexadecimal h | _ => false end = true ->
  one None (38 :: 35 :: n ++ 59 :: y) = Next [TCharref n] y None.
Proof.
  intros n y H. unfold one. change (38 =? 60) with false. cbv iota.
  assert (D : forall s, forallb dec s = true -> forallb is_dec s = true).
  { intros s. apply forallb_impl. intros x Hx. unfold dec in Hx. apply andb_true_iff in Hx as [H1 H2]; apply N.leb_le in H1, H2. unfold is_dec; cls. }
  assert (X : forall s, forallb hexadecimal s = true -> forallb is_hex s = true).
  { intros s. apply forallb_impl. intros x Hx. unfold hexadecimal, dec in Hx. rewrite !orb_true_iff, !andb_true_iff in Hx.
    destruct Hx as [[[H1 H2]|[H1 H2]]|[H1 H2]]; apply N.leb_le in H1, H2; unfold is_hex, is_dec; cls. }
  assert (M : match_at charref_re (38 :: 35 :: n ++ 59 :: y) 0 = Some (mkm (38 :: 35 :: n ++ [59]) [(G_hp_entity, n)])).
  { unfold match_at. cbn [firstn skipn rev].
    replace (38 :: 35 :: n ++ 59 :: y) with ((38 :: 35 :: n ++ [59]) ++ y) by (cbn [app]; rewrite <- app_assoc; reflexivity).
    apply try_at_hit. cbn [app]. rewrite <- app_assoc. cbn [app]. unfold charref_re, seqs. rewrite m_seq.
    change (38 :: 35 :: n ++ 59 :: y) with ($ "&#" ++ n ++ 59 :: y). rewrite m_lit, m_seq, m_grp.
    assert (FIN : forall b, (fun s' : st => m (RChr (fun c => negb (is_hex c))) (mk (bef s') (rest s') ((G_hp_entity, firstn (List.length (n ++ 59 :: y) - List.length (rest s')) (n ++ 59 :: y)) :: caps s')) (fun s => Some s))
        (mk b (59 :: y) []) = Some (mk (59 :: b) y [(G_hp_entity, n)])).
    { intro b. cbn [bef rest caps]. rewrite m_chr. change (negb (is_hex 59)) with true. cbv iota. rewrite firstn_app_exact. reflexivity. }
    assert (B : rev ($ "&#" ++ n ++ [59]) ++ [] = 59 :: rev n ++ rev ($ "&#") ++ []).
    { rewrite !rev_app_distr. cbn [rev app]. rewrite <- !app_assoc. reflexivity. }
    rewrite m_alt. apply orb_true_iff in H as [H|H].
    - unfold all_digits in H. apply andb_true_iff in H as [H1 H2]. cbn [rest caps bef].
      match goal with |- orelse ?x _ = Some ?r => assert (E : x = Some r); [|rewrite E; reflexivity] end.
      apply plus_take; [destruct n; [discriminate|congruence]|apply D; exact H2|reflexivity|].
      change (38 :: 35 :: n ++ [59]) with ($ "&#" ++ n ++ [59]). rewrite B. apply FIN.
    - destruct n as [|a h]; [discriminate|]. assert (E : a = 120). { destruct a as [|p]; [discriminate|]. do 7 (destruct p as [p|p|]; try discriminate). reflexivity. }
      subst a. unfold all_digits in H. apply andb_true_iff in H as [H1 H2]. cbn [rest caps bef].
      cbn [app]. rewrite plus_stop by reflexivity. cbn [orelse]. rewrite m_seq, m_chr. change ((120 =? 120) || (120 =? 88)) with true. cbv iota.
      apply plus_take; [destruct h; [discriminate|congruence]|apply X; exact H2|reflexivity|].
      change (38 :: 35 :: 120 :: h ++ [59]) with ($ "&#" ++ (120 :: h) ++ [59]). rewrite B. cbn [rev]. rewrite <- !app_assoc. apply FIN. }
  unfold amp_step. rewrite M. cbn [mtxt]. cbv zeta.
  replace (List.length (38 :: 35 :: n ++ [59])) with (S (List.length (38 :: 35 :: n))) by (cbn [List.length app]; rewrite app_length; cbn; lia).
  cbn [pred]. change (38 :: 35 :: n ++ 59 :: y) with ((38 :: 35 :: n) ++ 59 :: y). rewrite skipn_app_exact. cbn [startswith]. change (59 =? 59) with true. cbn [andb].
  f_equal. replace ((38 :: 35 :: n) ++ 59 :: y) with (((38 :: 35 :: n) ++ [59]) ++ y) by (rewrite <- app_assoc; reflexivity).
  replace (S (List.length (38 :: 35 :: n))) with (List.length ((38 :: 35 :: n) ++ [59])) by (rewrite app_length; cbn; lia). apply skipn_app_exact.
Qed.

(** ** whole documents *)
Definition markup (y : str) : Prop := match y with [] => True | c :: _ => c = 60 \/ c = 38 end.
Definition more (ts : list tok) (r : list tok * bool) : list tok * bool := (ts ++ fst r, snd r).
Lemma more_more : forall a b r, more a (more b r) = more (a ++ b) r.
Proof. intros. unfold more. cbn [fst snd]. rewrite app_assoc. reflexivity. Qed.
Lemma until_here : forall y, markup y -> until_markup y = ([], y).
Proof. intros [|c y] H; [reflexivity|]. cbn [until_markup]. destruct H as [-> | ->]; reflexivity. Qed.
Lemma until_text : forall w y, forallb (fun c => negb ((c =? 60) || (c =? 38))) w = true -> markup y -> until_markup (w ++ y) = (w, y).
Proof.
  induction w as [|c w IH]; intros y Hw Hy; [apply until_here; exact Hy|]. cbn [forallb] in Hw. apply andb_true_iff in Hw as [Hc Hw].
  apply negb_true_iff in Hc. cbn [app until_markup]. rewrite Hc, IH by assumption. reflexivity.
Qed.
Lemma toks_next : forall u ts y, u <> [] -> markup u -> one None u = Next ts y None -> toks None u = more ts (toks None y).
Proof.
  intros u ts y Hne Hm H. rewrite toks_eq. destruct u as [|c u]; [congruence|]. cbn [interesting]. rewrite until_here by exact Hm. rewrite H.
  cbn [tdata app]. destruct (toks None y). reflexivity.
Qed.
Lemma toks_text : forall w y, w <> [] -> forallb (fun c => negb ((c =? 60) || (c =? 38))) w = true -> markup y ->
  toks None (w ++ y) = more [TData w] (toks None y).
Proof.
  intros w y Hne Hw Hy. rewrite (toks_eq None (w ++ y)). destruct w as [|c w]; [congruence|]. cbn [app interesting].
  change (c :: w ++ y) with ((c :: w) ++ y). rewrite (until_text (c :: w) y Hw Hy). rewrite (toks_eq None y).
  destruct y as [|e y]; [reflexivity|]. cbn [interesting]. rewrite until_here by exact Hy. destruct (one None (e :: y)) as [ts| |ts r cd]; cbn [tdata app]; try reflexivity.
  destruct (toks cd r). reflexivity.
Qed.
Definition is_text (d : dom) : bool := match d with DText _ => true | _ => false end.
Lemma show_markup : forall d y, dom_wf d = true -> is_text d = false -> markup (show_dom d ++ y).
Proof. intros [s|s|s|t a|t a|b i|t a ks] y H E; try discriminate; cbn; auto. Qed.
Lemma show_nat_digits : forall i, forallb dec (show_nat i) = true.
Proof.
  intro i. unfold show_nat, show_N. generalize (N.of_nat i). assert (K : forall f n acc, forallb dec acc = true -> forallb dec (digits_go f n acc) = true).
  { induction f as [|f IH]; intros n acc H; [exact H|]. cbn [digits_go]. cbv zeta.
    assert (D : dec (48 + n mod 10) = true). { pose proof (N.mod_lt n 10 ltac:(lia)). unfold dec. generalize dependent (n mod 10). intros. cls. }
    destruct (n <? 10) eqn:E.
    - apply N.ltb_lt in E. cbn [forallb]. rewrite H, andb_true_r. unfold dec. clear D. cls.
    - apply IH. cbn [forallb]. rewrite D, H. reflexivity. }
  intro n. apply K. reflexivity.
Qed.
Lemma entity_digits : forall s, forallb dec s = true -> flat_map attr_entity s = s.
Proof.
  induction s as [|c s IH]; intro H; [reflexivity|]. cbn [forallb] in H. apply andb_true_iff in H as [Hc H]. cbn [flat_map]. rewrite (IH H).
  unfold dec in Hc. apply andb_true_iff in Hc as [H1 H2]; apply N.leb_le in H1, H2. unfold attr_entity.
  repeat match goal with |- context [c =? ?k] => replace (c =? k) with false by (symmetry; apply N.eqb_neq; lia) end. reflexivity.
Qed.
Definition cut_attrs (i : nat) : attrs := [($ "type", VStr ($ "pre")); ($ "id", VStr (show_nat i))].
Lemma show_cut : forall b i, show_dom (DCut b i) = show_dom (DSelf (placeholder b) (cut_attrs i)).
Proof.
  intros b i. cbn [show_dom]. unfold show_attrs, cut_attrs. cbn [flat_map fst snd value_of]. rewrite (entity_digits (show_nat i)) by apply show_nat_digits.
  change (flat_map attr_entity ($ "pre")) with ($ "pre"). rewrite <- !app_assoc. reflexivity.
Qed.
Lemma list_run : forall ks, Forall (fun d => dom_wf d = true -> forall y, (is_text d = true -> markup y) ->
    toks None (show_dom d ++ y) = more (dom_toks d) (toks None y)) ks ->
  forallb dom_wf ks = true -> apart ks = true -> forall y, markup y ->
  toks None (show_doms ks ++ y) = more (flat_map dom_toks ks) (toks None y).
Proof.
  induction ks as [|d ks IH]; intros F W A y Hy.
  - unfold show_doms, more. cbn [flat_map app]. destruct (toks None y). reflexivity.
  - inversion_clear F. cbn [forallb] in W. apply andb_true_iff in W as [W1 W2]. unfold show_doms. cbn [flat_map]. rewrite <- app_assoc. fold (show_doms ks).
    rewrite H; [|exact W1|].
    + rewrite IH; [apply more_more|exact H0|exact W2| |exact Hy]. destruct d; try exact A. destruct ks as [|[] ?]; try discriminate A; exact A.
    + intro T. destruct d; try discriminate T. destruct ks as [|e ks]; [exact Hy|]. unfold show_doms. cbn [flat_map]. rewrite <- app_assoc.
      cbn [forallb] in W2. apply andb_true_iff in W2 as [W2 _]. apply show_markup; [exact W2|]. destruct e; [discriminate A|reflexivity..].
Qed.
Lemma dom_run : forall d, dom_wf d = true -> forall y, (is_text d = true -> markup y) -> toks None (show_dom d ++ y) = more (dom_toks d) (toks None y).
Proof.
  assert (SELF : forall t a y, tag_ok t && forallb attr_ok a = true -> toks None (show_dom (DSelf t a) ++ y) = more [TStartEnd t a] (toks None y)).
  { intros t a y H. apply andb_true_iff in H as [H1 H2]. cbn [show_dom]. apply toks_next; [discriminate|left; reflexivity|].
    rewrite <- (one_start t a true y H1 H2). cbn [L app fin_sp fin_end]. rewrite <- !app_assoc. reflexivity. }
  induction d as [s|s|s|t a|t a|b i|t a ks IH] using dom_ind'; intros W y Hy.
  - cbn [dom_wf] in W. apply andb_true_iff in W as [W1 W2]. cbn [show_dom dom_toks]. apply toks_text; [destruct s; [discriminate|congruence]|exact W2|apply Hy; reflexivity].
  - cbn [show_dom dom_toks]. apply toks_next; [discriminate|right; reflexivity|]. rewrite <- (one_charref s y W). cbn [L app]. rewrite <- !app_assoc. reflexivity.
  - cbn [show_dom dom_toks]. apply toks_next; [discriminate|right; reflexivity|]. rewrite <- (one_entity s y W). cbn [L app]. rewrite <- !app_assoc. reflexivity.
  - cbn [dom_wf] in W. apply andb_true_iff in W as [W1 W2]. cbn [show_dom dom_toks]. apply toks_next; [discriminate|left; reflexivity|].
    rewrite <- (one_start t a false y W1 W2). cbn [L app fin_sp fin_end]. rewrite <- !app_assoc. reflexivity.
  - apply SELF. exact W.
  - rewrite show_cut. cbn [dom_toks]. apply SELF. destruct b; reflexivity.
  - cbn [dom_wf] in W. rewrite !andb_true_iff in W. destruct W as [[[W1 W2] W3] W4].
    assert (E : show_dom (DElem t a ks) ++ y = 60 :: t ++ show_attrs a ++ fin_sp false ++ fin_end false ++ show_doms ks ++ 60 :: 47 :: t ++ 62 :: y).
    { cbn [show_dom fin_sp fin_end]. unfold show_doms. cbn [L app]. rewrite <- !app_assoc. cbn [app]. rewrite <- !app_assoc. cbn [app]. rewrite <- !app_assoc. reflexivity. }
    rewrite E. clear E.
    cbn [dom_toks]. erewrite toks_next; [|discriminate|left; reflexivity|apply (one_start t a false _ W1 W2)].
    rewrite list_run; [|exact IH|exact W3|exact W4|left; reflexivity].
    apply tag_ok_parts in W1 as [W1 _].
    erewrite (toks_next (60 :: 47 :: t ++ 62 :: y)); [|discriminate|left; reflexivity|apply (one_end t y W1)]. rewrite !more_more. rewrite <- app_assoc. reflexivity.
Qed.
Theorem document_run : forall ds, forallb dom_wf ds = true -> apart ds = true -> tokens (show_doms ds) = (flat_map dom_toks ds, false).
Proof.
  intros ds W A. change (tokens (show_doms ds)) with (toks None (show_doms ds)). rewrite <- (app_nil_r (show_doms ds)).
  rewrite list_run; [|apply Forall_forall; intros d _; apply dom_run|exact W|exact A|exact I]. unfold more. cbn. rewrite app_nil_r. reflexivity.
Qed.
